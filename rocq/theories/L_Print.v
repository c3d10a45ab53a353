(** The canonical writer produces texts of the grammar S_Syntax.v. *)
From Coq Require Import String.
From Verif Require Import Prelude M_Parser M_Text S_Syntax S_Print L_Syntax L_Syntax2.
Local Open Scope Z_scope.

Lemma obj_ind2 (Q : obj -> Prop) :
  Q ONull -> (forall b, Q (OBool b)) -> (forall z, Q (OInt z)) -> (forall a b c, Q (OReal a b c)) ->
  (forall s, Q (OName s)) -> (forall s, Q (OStr s)) -> (forall s, Q (OHex s)) ->
  (forall l, Forall Q l -> Q (OArr l)) ->
  (forall d, Forall (fun kv => Q (snd kv)) d -> Q (ODict d)) ->
  (forall d data, Forall (fun kv => Q (snd kv)) d -> Q (OStream d data)) ->
  (forall n g, Q (ORef n g)) -> (forall s, Q (OTok s)) ->
  (forall d data, Forall (fun kv => Q (snd kv)) d -> Q (OInline d data)) ->
  forall v, Q v.
Proof.
  intros H1 H2 H3 H4 H5 H6 H7 H8 H9 H10 H11 H12 H13.
  fix IH 1. intros v. destruct v as [|b|z|a b c|s|s|s|l|d|d data|n g|s|d data];
    [exact H1|apply H2|apply H3|apply H4|apply H5|apply H6|apply H7| | | |apply H11|apply H12|].
  - apply H8. induction l as [|x l IHl]; constructor; [apply IH|exact IHl].
  - apply H9. induction d as [|[k x] d IHd]; constructor; [apply IH|exact IHd].
  - apply H10. induction d as [|[k x] d IHd]; constructor; [apply IH|exact IHd].
  - apply H13. induction d as [|[k x] d IHd]; constructor; [apply IH|exact IHd].
Qed.

Lemma dvalue_app a b : dvalue (a ++ b) = dvalue a * 10 ^ zlen b + dvalue b.
Proof.
  induction a as [|x a IH]; cbn [app dvalue]; [lia|]. rewrite IH, zlen_app, Z.pow_add_r; auto using zlen_nonneg. ring.
Qed.

Lemma ddigits_ok n : forall z, 0 <= z -> z < 2 ^ Z.of_nat n -> (1 <= n)%nat ->
  dvalue (ddigits n z) = z /\ digits_ok (ddigits n z) /\ ddigits n z <> [].
Proof.
  induction n as [|n IH]; intros z Hz Hlt Hn; [lia|]. cbn [ddigits].
  destruct (z <? 10) eqn:E.
  - repeat split; [cbn [dvalue]; rewrite (@zlen_nil Z); change (10 ^ 0) with 1; lia| |discriminate]. constructor; [|constructor]. unfold is_digit. lia.
  - assert (1 <= n)%nat.
    { destruct n; [|lia]. cbn in Hlt. lia. }
    assert (z / 10 < 2 ^ Z.of_nat n).
    { apply Z.div_lt_upper_bound; [lia|]. replace (Z.of_nat (S n)) with (Z.succ (Z.of_nat n)) in Hlt by lia.
      rewrite Z.pow_succ_r in Hlt by lia. lia. }
    destruct (IH (z / 10)) as (H1 & H2 & H3); auto; [apply Z.div_pos; lia|].
    pose proof (Z.mod_pos_bound z 10 ltac:(lia)). repeat split.
    + rewrite dvalue_app, H1. cbn [dvalue]. rewrite zlen_cons, !zlen_nil. change (10 ^ (1 + 0)) with 10. change (10 ^ 0) with 1.
      pose proof (Z.div_mod z 10). lia.
    + apply Forall_app; split; auto. constructor; [|constructor]. unfold is_digit. lia.
    + destruct (ddigits n (z / 10)); discriminate.
Qed.
Lemma dec_ok z : 0 <= z -> dvalue (dec z) = z /\ digits_ok (dec z) /\ dec z <> [].
Proof.
  intros Hz. apply ddigits_ok; auto; [|lia].
  destruct (Z.eq_dec z 0) as [->|Hne]; [cbn; lia|].
  pose proof (Z.log2_spec z ltac:(lia)). pose proof (Z.log2_nonneg z).
  replace (Z.of_nat (S (Z.to_nat (Z.log2 z)))) with (Z.succ (Z.log2 z)) by lia. lia.
Qed.
Lemma int_text_ok z : IntText z (int_text z).
Proof.
  unfold int_text. destruct (z <? 0) eqn:E.
  - destruct (dec_ok (- z)) as (H1 & H2 & H3); [lia|]. replace (IntText z) with (IntText (- dvalue (dec (- z)))) by (f_equal; lia).
    constructor; auto.
  - destruct (dec_ok z) as (H1 & H2 & H3); [lia|]. rewrite <- H1 at 1. constructor; auto.
Qed.

Lemma zeros_ok n : digits_ok (zeros n).
Proof. unfold zeros. apply Forall_forall. intros x Hx. apply repeat_spec in Hx. subst. reflexivity. Qed.
Lemma dvalue_zeros n l : dvalue (zeros n ++ l) = dvalue l.
Proof.
  unfold zeros. induction (Z.to_nat n) as [|k IH]; [reflexivity|]. cbn [repeat app dvalue]. rewrite IH. ring.
Qed.
Lemma zlen_zeros n : zlen (zeros n) = Z.max 0 n.
Proof. unfold zlen, zeros. rewrite repeat_length. lia. Qed.

Lemma real_text_ok neg c e : e < 0 -> 0 <= c -> (neg = true -> 0 < c < 10 ^ 28) ->
  RealText (OReal neg c e) (real_text neg c e).
Proof.
  intros He Hc Hn. unfold real_text. destruct (dec_ok c Hc) as (D1 & D2 & D3).
  set (ds := real_digits c e).
  assert (digits_ok ds) as Hds by (unfold ds, real_digits; apply Forall_app; split; [apply zeros_ok|exact D2]).
  assert (dvalue ds = c) as Hv by (unfold ds, real_digits; rewrite dvalue_zeros; auto).
  assert (1 - e <= zlen ds) as HL.
  { unfold ds, real_digits. rewrite zlen_app, zlen_zeros. lia. }
  set (k := (List.length ds - Z.to_nat (- e))%nat).
  assert (digits_ok (firstn k ds) /\ digits_ok (skipn k ds)) as [F1 F2].
  { rewrite <- (firstn_skipn k ds) in Hds. apply Forall_app in Hds. auto. }
  assert (zlen (skipn k ds) = - e) as Hsk.
  { unfold zlen in *. rewrite skipn_length. unfold k. lia. }
  assert (frac (skipn k ds) = skipn k ds) as Hfr.
  { unfold frac. destruct (skipn k ds); auto. rewrite zlen_nil in Hsk. lia. }
  assert (dvalue (firstn k ds ++ frac (skipn k ds)) = c) as Hv2 by (rewrite Hfr, firstn_skipn; auto).
  assert (firstn k ds ++ skipn k ds <> []) as Hne.
  { rewrite firstn_skipn. intro X. rewrite X, zlen_nil in HL. lia. }
  assert (- zlen (frac (skipn k ds)) = e) as Hexp by (rewrite Hfr; lia).
  destruct neg.
  - replace (OReal true c e) with (OReal true (dvalue (firstn k ds ++ frac (skipn k ds))) (- zlen (frac (skipn k ds)))) by congruence.
    constructor; auto. rewrite Hv2. auto.
  - replace (OReal false c e) with (OReal false (dvalue (firstn k ds ++ frac (skipn k ds))) (- zlen (frac (skipn k ds)))) by congruence.
    apply (RT_pos [] (firstn k ds) (skipn k ds)); auto.
Qed.

Lemma name_char_ok c cs t : byte_ok c -> NameText cs t -> NameText (c :: cs) (name_char c ++ t).
Proof.
  intros Hc Ht. unfold name_char, byte_ok in *.
  destruct ((33 <=? c) && (c <=? 126) && negb (is_delim c) && negb (c =? 35)) eqn:E.
  - apply andb_true_iff in E as [E E4]. apply andb_true_iff in E as [E E3]. cbn [app]. constructor; auto.
    + apply not_true_is_false. unfold is_ws, whitespaces. rewrite memZ_In. cbn [In]. lia.
    + now apply negb_true_iff in E3.
    + lia.
  - cbn [app]. pose proof (Z.div_mod c 16 ltac:(lia)) as Hdm. pose proof (Z.mod_pos_bound c 16 ltac:(lia)).
    rewrite Hdm at 1. constructor; auto; apply hexval_hexdig; try lia.

Qed.
Lemma name_text_ok s : bytes_ok s -> NameText s (name_text s).
Proof. induction 1 as [|c s Hc _ IH]; cbn [name_text flat_map]; [constructor|]. apply name_char_ok; auto. Qed.

Lemma str_text_escape s : pdf_escape_string s = str_text s.
Proof.
  unfold pdf_escape_string, str_text. apply flat_map_ext. intros c. unfold escaped_char, str_char.
  repeat match goal with |- context [if ?b then _ else _] => destruct b; [reflexivity|] end. reflexivity.
Qed.
Lemma str_text_ok s : StrText s (str_text s).
Proof.
  induction s as [|c s IH]; cbn [str_text flat_map]; [constructor|].
  unfold str_char.
  destruct (Z.eqb_spec c 10); [subst; apply ST_esc; auto; constructor|].
  destruct (Z.eqb_spec c 13); [subst; apply ST_esc; auto; constructor|].
  destruct (Z.eqb_spec c 9); [subst; apply ST_esc; auto; constructor|].
  destruct (Z.eqb_spec c 8); [subst; apply ST_esc; auto; constructor|].
  destruct (Z.eqb_spec c 12); [subst; apply ST_esc; auto; constructor|].
  destruct (Z.eqb_spec c 40); [subst; apply ST_esc; auto; constructor|].
  destruct (Z.eqb_spec c 41); [subst; apply ST_esc; auto; constructor|].
  destruct (Z.eqb_spec c 92); [subst; apply ST_esc; auto; constructor|].
  cbn [app]. apply ST_raw; auto.
Qed.

Definition hexup (s : list Z) : Prop := Forall (fun c => exists h, 0 <= h < 16 /\ c = hexdig h) s.
Lemma hexup_body s : hexup s -> HexBody s s.
Proof.
  induction 1 as [|c s (h & Hh & ->) _ IH]; [constructor|].
  change (HexBody (hexdig h :: s) (hexdig h :: [] ++ s)). econstructor; eauto using hexval_hexdig. constructor.
Qed.
Lemma hexup_upper s : hexup s -> map upper s = s.
Proof.
  induction 1 as [|c s (h & Hh & ->) _ IH]; auto. cbn [map]. rewrite IH. f_equal.
  unfold upper, hexdig. destruct (h <? 10) eqn:E; [replace ((97 <=? h + 48) && (h + 48 <=? 122)) with false by lia; auto|].
  replace ((97 <=? h + 55) && (h + 55 <=? 122)) with false by lia. auto.
Qed.

(** Integers and references in sequence *)
Definition sp1 : list Z := [32].
Lemma sep_sp1 : Sep [32]. Proof. apply (Sep_ws 32 []); [reflexivity|constructor]. Qed.

(** How the text of a printable value can start. *)
Lemma print_start v x t : printable v -> print v = x :: t ->
  (forall z, v <> OInt z) -> (forall a b c, v <> OReal a b c) -> (forall n g, v <> ORef n g) ->
  is_digit x || memZ x [43; 45; 46] = false.
Proof.
  destruct v as [|[]|z|a b c|s|s|s|l|d|d data|n g|s|d data]; intros Hp E N1 N2 N3; cbn [print] in E;
    try (inversion E; reflexivity); try (exfalso; exact Hp).
  - now elim (N1 z).
  - now elim (N2 a b c).
  - now elim (N3 n g).
Qed.

Lemma print_ne v : printable v -> exists x t, print v = x :: t /\ value_start x /\ x <> 82.
Proof.
  destruct v as [|[]|z|a b c|s|s|s|l|d|d data|n g|s|d data]; intros Hp; cbn [print];
    try (eexists _, _; split; [reflexivity|split; [repeat split; reflexivity|discriminate]]); try (exfalso; exact Hp).
  - unfold int_text. destruct (z <? 0) eqn:E; [eexists _, _; split; [reflexivity|split; [repeat split; reflexivity|discriminate]]|].
    destruct (dec_ok z) as (H1 & H2 & H3); [lia|]. destruct (head_dig _ [] H3 H2) as (d & r & -> & Hd & _).
    exists d, r. repeat split; auto; try apply (digit_start d Hd). apply is_digit_range in Hd. lia.
  - cbn [printable] in Hp. destruct Hp as (P1 & P2 & P3). pose proof (real_text_ok a b c P1 P2 P3) as HR.
    inversion HR as [sg ip fp Hs Hi Hfp Hne|ip fp Hi Hfp Hne Hc|ip fp Hi Hfp Hne Hc]; subst;
      try (eexists _, _; split; [reflexivity|split; [repeat split; reflexivity|discriminate]]).
    destruct Hs as [->| ->]; [|eexists _, _; split; [reflexivity|split; [repeat split; reflexivity|discriminate]]].
    destruct Hi as [|d r Hd _]; cbn [app]; [eexists _, _; split; [reflexivity|split; [repeat split; reflexivity|discriminate]]|].
    eexists _, _. split; [reflexivity|]. split; [apply (digit_start d Hd)|]. apply is_digit_range in Hd. lia.
  - cbn [printable] in Hp. destruct (dec_ok n) as (H1 & H2 & H3); [lia|]. destruct (head_dig _ [] H3 H2) as (d & r & -> & Hd & _).
    eexists d, _. split; [reflexivity|]. split; [apply (digit_start d Hd)|]. apply is_digit_range in Hd. lia.
Qed.

(** after an integer, a space and then printed values up to a delimiter never form a reference *)
Lemma print_notref v tail : printable v -> int_end tail -> (exists sep r, tail = sep ++ r /\ Sep sep /\ nosep r /\ head_is (fun c => c =? 82) r = false) ->
  NotRefTail (32 :: print v ++ tail).
Proof.
  intros Hp Hie (sep & r & -> & Hs & Hr & H82).
  change (32 :: print v ++ sep ++ r) with ([32] ++ (print v ++ sep ++ r)).
  destruct (print_ne v Hp) as (x & t & E & Hx & Hx82).
  assert ((forall z, v <> OInt z) -> (forall a b c, v <> OReal a b c) -> (forall n g, v <> ORef n g) ->
          NotRefTail ([32] ++ (print v ++ sep ++ r))) as Other.
  { intros N1 N2 N3. apply NR_other; [apply sep_sp1| |].
    - rewrite E. cbn [app]. apply start_nosep; auto.
    - rewrite E. cbn [app head_is]. eapply print_start; eauto. }
  destruct v as [|[]|z|a b c|s|s|s|l|d|d data|n g|s|d data]; try (apply Other; intros; discriminate).
  - cbn [print]. apply NR_int with (z := z); auto using int_text_ok, sep_sp1.
  - cbn [print]. destruct Hp as (P1 & P2 & P3). apply NR_real with (v := OReal a b c); auto using real_text_ok, sep_sp1.
    unfold real_end. unfold int_end in Hie. destruct (sep ++ r); auto. cbn [head_is] in *. apply orb_false_iff in Hie. tauto.
  - cbn [print] in *. destruct Hp as (P1 & P2). destruct (dec_ok n) as (H1 & H2 & H3); [lia|]. destruct (dec_ok g) as (G1 & G2 & G3); [lia|].
    rewrite <- app_assoc. cbn [app]. rewrite <- app_assoc. cbn [app].
    destruct (head_dig _ [] G3 G2) as (dg & rg & Eg & Hdg & _).
    apply (NR_int [32] (dvalue (dec n)) (dec n) [32] (dec g ++ 32 :: bs "R" ++ sep ++ r)); auto using sep_sp1.
    + constructor; auto.
    + rewrite Eg. cbn [app]. apply start_nosep. now apply digit_start.
    + reflexivity.
    + left. rewrite Eg. cbn [app head_is]. apply is_digit_range in Hdg. lia.
Qed.

Lemma sep1_ends r : int_end ([32] ++ r) /\ real_end ([32] ++ r) /\ nonreg ([32] ++ r).
Proof. apply sep_end; [apply sep_sp1|discriminate]. Qed.

(** Main lemma: the printed text of [v] followed by a space. *)
Definition okP (fl : flavor) (v : obj) : Prop :=
  forall rest, nosep rest -> head_is (fun c => c =? 115) rest = false ->
    (refs_allowed fl = true -> NotRefTail (32 :: rest)) ->
    Ser fl v (print v) (32 :: rest).

Lemma elems_print fl l :
  Forall (fun v => okP fl v) l ->
  (forall v, In v l -> printable v) ->
  forall tl, SerElems fl l (flat_map (fun x => print x ++ [32]) l) (93 :: tl).
Proof.
  intros HF Hp tl. induction HF as [|v l Hv _ IH]; cbn [flat_map]; [constructor|].
  rewrite <- app_assoc. apply SE_cons with (sep := [32]); auto using sep_sp1.
  - set (rest := flat_map (fun x => print x ++ [32]) l ++ 93 :: tl).
    assert (nosep rest /\ head_is (fun c => c =? 115) rest = false /\ NotRefTail (32 :: rest)) as (H1 & H2 & H3).
    { unfold rest. destruct l as [|w l]; cbn [flat_map app].
      - repeat split; try reflexivity. apply (NR_other [32] (93 :: tl)); [apply sep_sp1|reflexivity|reflexivity].
      - destruct (print_ne w) as (x & t & E & Hx & Hx82); [apply Hp; cbn; auto|].
        rewrite <- !app_assoc. split; [|split].
        + rewrite E. cbn [app]. now apply start_nosep.
        + rewrite E. cbn [app head_is].
          assert (printable w) as Hw by (apply Hp; cbn; auto). clear -E Hw.
          destruct w as [|[]|z|a b c|s|s|s|l|d|d data|n g|s|d data]; cbn [print] in E; try (inversion E; reflexivity); try (exfalso; exact Hw).
          * unfold int_text in E. destruct (z <? 0) eqn:Ez; [inversion E; reflexivity|].
            destruct (dec_ok z) as (H1 & H2 & H3); [lia|]. destruct (head_dig _ [] H3 H2) as (d & r & Ed & Hd & _).
            rewrite Ed in E. inversion E; subst. apply is_digit_range in Hd. lia.
          * destruct Hw as (P1 & P2 & P3). pose proof (real_text_ok a b c P1 P2 P3) as HR. rewrite E in HR.
            inversion HR as [sg ip fp Hs Hi Hfp Hne|ip fp Hi Hfp Hne Hc|ip fp Hi Hfp Hne Hc]; subst; try reflexivity.
            destruct Hs as [->| ->]; cbn [app] in *; [|match goal with H : _ :: _ = _ :: _ |- _ => inversion H; reflexivity end].
            destruct Hi as [|d r Hd _]; cbn [app] in *; match goal with H : _ :: _ = _ :: _ |- _ => inversion H; subst; auto end.
            apply is_digit_range in Hd. lia.
          * destruct Hw as [Hn _]. destruct (dec_ok n) as (H1 & H2 & H3); [lia|]. destruct (head_dig _ [] H3 H2) as (d & r & Ed & Hd & _).
            rewrite Ed in E. inversion E; subst. apply is_digit_range in Hd. lia.
        + apply print_notref; [apply Hp; cbn; auto|reflexivity|].
          exists [32], (flat_map (fun x => print x ++ [32]) l ++ 93 :: tl). repeat split; auto using sep_sp1.
          * destruct l as [|w2 l]; [reflexivity|]. cbn [flat_map]. rewrite <- !app_assoc.
            destruct (print_ne w2) as (x2 & t2 & E2 & Hx2 & _); [apply Hp; cbn; auto|]. rewrite E2. cbn [app]. now apply start_nosep.
          * destruct l as [|w2 l]; [reflexivity|]. cbn [flat_map]. rewrite <- !app_assoc.
            destruct (print_ne w2) as (x2 & t2 & E2 & Hx2 & Hr2); [apply Hp; cbn; auto|]. rewrite E2. cbn [app head_is]. lia. }
    apply Hv; auto.
  - apply IH. intros w Hw. apply Hp. cbn; auto.
Qed.

Lemma printable_In l : fold_right (fun x P => printable x /\ P) True l -> forall v, In v l -> printable v.
Proof. induction l as [|x l IH]; cbn [fold_right In]; [tauto|]. intros [H1 H2] v [<-|Hv]; auto. Qed.
Lemma printable_In_d d : fold_right (fun kv P => bytes_ok (fst kv) /\ printable (snd kv) /\ P) True d ->
  forall kv, In kv d -> bytes_ok (fst kv) /\ printable (snd kv).
Proof. induction d as [|x l IH]; cbn [fold_right In]; [tauto|]. intros (H1 & H2 & H3) v [<-|Hv]; auto. Qed.

Lemma entries_print fl d :
  Forall (fun kv => okP fl (snd kv)) d ->
  (forall kv, In kv d -> bytes_ok (fst kv) /\ printable (snd kv)) ->
  forall tl, SerEntries fl d (flat_map (fun kv => 47 :: name_text (fst kv) ++ 32 :: print (snd kv) ++ [32]) d) (62 :: 62 :: tl).
Proof.
  intros HF Hp tl. induction HF as [|[k v] d Hv _ IH]; cbn [flat_map fst snd]; [constructor|].
  destruct (Hp (k, v)) as [Hk Hpv]; [cbn; auto|]. cbn [fst snd] in *.
  replace ((47 :: name_text k ++ 32 :: print v ++ [32]) ++ flat_map (fun kv => 47 :: name_text (fst kv) ++ 32 :: print (snd kv) ++ [32]) d)
    with (47 :: name_text k ++ [32] ++ print v ++ [32] ++ flat_map (fun kv => 47 :: name_text (fst kv) ++ 32 :: print (snd kv) ++ [32]) d).
  2:{ cbn [app]. rewrite <- app_assoc. cbn [app]. now rewrite <- app_assoc. }
  apply SN_cons; auto using sep_sp1, name_text_ok.
  - reflexivity.
  - cbn [app]. assert (forall X, (exists kt, X = 47 :: kt) \/ (exists kt, X = 62 :: kt) -> nosep X /\ head_is (fun c => c =? 115) X = false /\ NotRefTail (32 :: X)) as HX.
    { intros X [[kt ->]|[kt ->]]; repeat split; try reflexivity; apply (NR_other [32]); auto using sep_sp1; reflexivity. }
    apply Hv; intros; apply HX; destruct d as [|[k2 v2] d]; cbn; eauto.
  - apply IH. intros kv Hkv. apply Hp. cbn; auto.
Qed.

Lemma dict_of_nodup d : NoDup (map fst d) -> dict_of d = d.
Proof.
  intros H. unfold dict_of.
  assert (forall d acc, NoDup (map fst (acc ++ d)) -> fold_left (fun d kv => dset d (fst kv) (snd kv)) d acc = acc ++ d) as G.
  { clear. induction d as [|[k v] d IH]; intros acc H; cbn [fold_left fst snd]; [now rewrite app_nil_r|].
    assert (dset acc k v = acc ++ [(k, v)]) as E.
    { rewrite map_app in H. cbn [map fst] in H. apply NoDup_remove_2 in H.
      assert (~ In k (map fst acc)) as Hni by (intro X; apply H, in_or_app; auto). clear -Hni.
      induction acc as [|[k2 v2] acc IH]; cbn [dset app]; auto.
      destruct (eqlZ k k2) eqn:E; [apply eqlZ_eq in E; subst; elim Hni; cbn; auto|].
      rewrite IH; auto. intro X; apply Hni; cbn; auto. }
    rewrite E, IH, <- app_assoc; auto. rewrite <- app_assoc. exact H. }
  apply (G d []). auto.
Qed.

Fixpoint has_ref (v : obj) : bool :=
  match v with
  | ORef _ _ => true
  | OArr l => existsb has_ref l
  | ODict d => existsb (fun kv => has_ref (snd kv)) d
  | _ => false
  end.

Lemma print_ser fl v : printable v -> (refs_allowed fl = true \/ has_ref v = false) -> okP fl v.
Proof.
  induction v as [|b|z|a b c|s|s|s|l IH|d IH|d data IH|n g|s|d data IH] using obj_ind2; intros Hp Hrf rest Hn H115 Href;
    cbn [print]; try (exfalso; exact Hp).
  - apply Ser_null. intros _. apply (sep1_ends rest).
  - destruct b; constructor; intros _; apply (sep1_ends rest).
  - apply Ser_int; auto using int_text_ok. apply (sep1_ends rest).
  - destruct Hp as (P1 & P2 & P3). apply Ser_real; auto using real_text_ok. apply (sep1_ends rest).
  - apply Ser_name; [apply name_text_ok; auto|apply (sep1_ends rest)].
  - apply Ser_str. apply str_text_ok.
  - cbn [printable] in Hp. destruct Hp as [P1 P2].
    assert (map upper (even_pad s) = s) as E.
    { unfold even_pad. rewrite <- Z.negb_even, P2. cbn [negb]. now apply hexup_upper. }
    rewrite <- E at 1. apply (Ser_hex fl s [] s); auto using hexup_body. constructor.
  - change (91 :: flat_map (fun x => print x ++ [32]) l ++ [93]) with (91 :: [] ++ flat_map (fun x => print x ++ [32]) l ++ [93]).
    apply Ser_arr; [constructor|]. cbn [printable] in Hp. pose proof (printable_In _ Hp) as Hin.
    apply elems_print; auto. apply Forall_forall. intros v Hv. rewrite Forall_forall in IH. apply IH; auto.
    destruct Hrf as [Hrf|Hrf]; auto. right. cbn [has_ref] in Hrf. apply not_true_is_false. intro X.
    assert (existsb has_ref l = true) by (apply existsb_exists; eauto). congruence.
  - cbn [printable] in Hp. destruct Hp as [Hnd Hp]. pose proof (printable_In_d _ Hp) as Hin.
    rewrite <- (dict_of_nodup d Hnd) at 1.
    change (bs "<<" ++ ?x ++ bs ">>") with (60 :: 60 :: [] ++ x ++ [62; 62]).
    change (32 :: rest) with ([32] ++ rest).
    apply Ser_dict; auto using sep_sp1; [constructor|].
    apply entries_print; auto. apply Forall_forall. intros kv Hv. rewrite Forall_forall in IH. apply IH; auto.
    + apply Hin; auto.
    + destruct Hrf as [Hrf|Hrf]; auto. right. cbn [has_ref] in Hrf. apply not_true_is_false. intro X.
      assert (existsb (fun kv => has_ref (snd kv)) d = true) by (apply existsb_exists; eauto). congruence.
  - cbn [printable] in Hp. destruct Hp as [P1 P2]. destruct (dec_ok n) as (H1 & H2 & H3); [lia|]. destruct (dec_ok g) as (G1 & G2 & G3); [lia|].
    rewrite <- H1, <- G1 at 1.
    change (dec n ++ 32 :: dec g ++ 32 :: bs "R") with (dec n ++ [32] ++ dec g ++ [32] ++ [82]).
    apply Ser_ref; auto using sep_sp1; [|discriminate].
    destruct Hrf as [Hrf|Hrf]; auto. discriminate.
Qed.
