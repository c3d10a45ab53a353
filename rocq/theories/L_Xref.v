(** Running the cross-reference parsers. *)
From Coq Require Import String.
From Verif Require Import Prelude M_Prog M_Buffer S_Buffer L_Buffer L_Prog M_Parser L_ParserWP S_Syntax L_Syntax L_Syntax2
  S_Stream L_Stream L_Content M_Filters M_Document S_Document L_Document S_Xref.
Local Open Scope Z_scope.
Local Open Scope prog_scope.

(** ---- dictionaries with integer keys ---- *)
Lemma zget_zset {A} (d : list (Z * A)) k k' v : zget (zset d k v) k' = if k' =? k then Some v else zget d k'.
Proof.
  induction d as [|[a b] d IH]; cbn [zset zget]; [destruct (k' =? k); reflexivity|].
  destruct (k =? a) eqn:E; cbn [zget].
  - apply Z.eqb_eq in E. subst. destruct (k' =? a) eqn:E; reflexivity.
  - destruct (k' =? a) eqn:E2; [|apply IH]. destruct (k' =? k) eqn:E3; auto. lia.
Qed.

(** ---- int(bytes) on digits ---- *)
Lemma digit_nws c : is_digit c = true -> py_ws c = false.
Proof. unfold is_digit, py_ws. cbn [memZ]. lia. Qed.
Lemma lstrip_nows l : head_is py_ws l = false -> lstrip l = l.
Proof. destruct l; cbn; auto. intros ->. auto. Qed.
Lemma lstrip_ws w l : Forall (fun c => py_ws c = true) w -> lstrip (w ++ l) = lstrip l.
Proof. induction 1 as [|x w Hx Hw IH]; cbn [app lstrip]; auto. rewrite Hx. auto. Qed.
Lemma strip_pad l w : l <> [] -> head_is py_ws l = false -> head_is py_ws (rev l) = false ->
  Forall (fun c => py_ws c = true) w -> strip (l ++ w) = l.
Proof.
  intros Hl H1 H2 Hw. unfold strip. rewrite (lstrip_nows (l ++ w)) by (destruct l; [congruence|exact H1]).
  rewrite rev_app_distr, lstrip_ws by (apply Forall_rev; auto). rewrite lstrip_nows by auto. apply rev_involutive.
Qed.
Lemma uscore_digits l : digits_ok l -> forall seen acc, seen = true \/ l <> [] -> uscore seen acc l = Some (acc * 10 ^ zlen l + dvalue l).
Proof.
  induction 1 as [|x l Hx Hl IH]; intros seen acc Hs; cbn [uscore dvalue].
  - destruct Hs as [->|]; [|congruence]. rewrite zlen_nil. f_equal. lia.
  - rewrite Hx, IH by auto. rewrite zlen_cons, Z.pow_add_r, Z.pow_1_r by (pose proof (zlen_nonneg l); lia). f_equal. lia.
Qed.
Lemma digits_rev_nws l : digits_ok l -> head_is py_ws (rev l) = false.
Proof.
  intros H. apply Forall_rev in H. destruct H as [|x r Hx _]; auto. cbn. now apply digit_nws.
Qed.
Lemma digits_nws l : digits_ok l -> head_is py_ws l = false.
Proof. intros H. destruct H as [|x r Hx _]; auto. cbn. now apply digit_nws. Qed.
Lemma py_int_digits l : l <> [] -> digits_ok l -> py_int l = Some (dvalue l).
Proof.
  intros Hl H. unfold py_int.
  assert (strip l = l) as ->.
  { rewrite <- (app_nil_r l) at 1. apply strip_pad; auto using digits_nws, digits_rev_nws. }
  assert (uscore false 0 l = Some (dvalue l)) as E by (rewrite uscore_digits by auto; f_equal; lia).
  destruct H as [|x r Hx _]; [congruence|].
  assert (x <> 43 /\ x <> 45) as [? ?] by (unfold is_digit in Hx; lia).
  rewrite <- E. destruct x as [|p|p]; auto.
  repeat (destruct p as [p|p|]; auto); contradiction.
Qed.
Lemma split_sp_run : forall a k cur_ l, Forall (fun c => c <> 32) a ->
  split_sp (S k) cur_ (a ++ 32 :: l) = (cur_ ++ a) :: split_sp k [] l.
Proof.
  induction a as [|x a IH]; intros k cur_ l H; cbn [app split_sp].
  - rewrite app_nil_r. reflexivity.
  - inversion H; subst. destruct (x =? 32) eqn:E; [lia|]. rewrite IH by auto. now rewrite <- app_assoc.
Qed.
Lemma digits_no32 l : digits_ok l -> Forall (fun c => c <> 32) l.
Proof. intros H. eapply Forall_impl; [|exact H]. intros c Hc. unfold is_digit in Hc. lia. Qed.
Lemma list_len_pos (l : list Z) k : List.length l = S k -> l <> [].
Proof. destruct l; [discriminate|]. intros _. discriminate. Qed.

Section X.
  Context {U : Type}.
  Variable f : list Z.
  Notation P := (prog U).
  Variable hook : dict -> prog U dict.

  Lemma r_entry x t pos rest : EntryText x t -> At f pos (t ++ rest) ->
    runs f (xref_entry : P _) pos (Ok (li_off x, li_gen x, li_used x)) (pos + 20) /\ zlen t = 20.
  Proof.
    intros H HA. destruct H as [num o g used e Lo Do Lg Dg He].
    set (t := o ++ [32] ++ g ++ [32] ++ [if used then 110 else 102] ++ e) in *.
    assert (List.length t = 20%nat) as LT.
    { unfold t. rewrite !app_length. cbn [List.length]. destruct He as [<-|[<-|[<-|[]]]]; cbn [List.length]; lia. }
    split; [|unfold zlen; lia].
    unfold xref_entry. eapply runs_bind; [apply (r_read f t _ rest); auto|].
    assert (strip t = o ++ [32] ++ g ++ [32] ++ [if used then 110 else 102]) as ->.
    { unfold t. rewrite !app_assoc. apply strip_pad.
      - destruct o; [discriminate|discriminate].
      - rewrite <- !app_assoc. pose proof (digits_nws _ Do). destruct o; auto; discriminate.
      - rewrite rev_app_distr. destruct used; reflexivity.
      - destruct He as [<-|[<-|[<-|[]]]]; repeat constructor. }
    cbn [app]. rewrite split_sp_run by now apply digits_no32. rewrite split_sp_run by now apply digits_no32.
    cbn [app]. replace (split_sp 0 [] [if used then 110 else 102]) with [[if used then 110 else 102]] by (destruct used; reflexivity).
    rewrite !py_int_digits by eauto using list_len_pos. cbn [li_off li_gen li_used].
    replace (pos + zlen t) with (pos + 20) by (unfold zlen; lia).
    destruct used; cbn; apply runs_ret.
  Qed.

  Definition add_listed (x : xref) (y : listed) : xref :=
    add_entry x (if li_used y then TInUse else TFree) (mkE (li_num y) (li_gen y) (li_off y)).
  Lemma new_entry_ok num gen off : 0 <= num -> 0 <= gen -> 0 <= off -> new_entry num gen off = Ok (mkE num gen off).
  Proof. intros. unfold new_entry. now rewrite !(proj2 (Z.leb_le _ _)) by lia. Qed.
  Lemma entry_nonneg x t : EntryText x t -> 0 <= li_gen x /\ 0 <= li_off x.
  Proof. destruct 1. cbn. split; apply dvalue_nonneg; auto. Qed.

  Lemma r_entries : forall l first s x pos rest, EntriesText first l s -> 0 <= first -> At f pos (s ++ rest) ->
    runs f (entries_loop (List.length l) first x : P _) pos (Ok (fold_left add_listed l x)) (pos + zlen s).
  Proof.
    induction l as [|y l IH]; intros first s x pos rest H H0 HA; inversion H; subst; cbn [entries_loop List.length fold_left].
    - eapply runs_eq; [apply runs_ret|rewrite zlen_nil; lia].
    - rewrite <- app_assoc in HA. destruct (r_entry y t pos (s0 ++ rest)) as [HR HL]; auto.
      eapply runs_bind; [exact HR|]. cbv beta iota.
      destruct (entry_nonneg _ _ H5). rewrite new_entry_ok by auto.
      eapply runs_eq; [eapply IH; eauto; [lia|]|rewrite zlen_app; lia].
      apply At_app in HA. rewrite HL in HA. exact HA.
  Qed.

  Lemma r_until stop w x : (forall c, In c w -> stop (Some c) = false) -> stop (Some x) = true ->
    forall n acc pos rest, At f pos (w ++ x :: rest) -> fuel1 f n pos ->
    runs f (until stop n acc : P _) pos (Ok (acc ++ w)) (pos + zlen w).
  Proof.
    intros Hw Hx. induction w as [|y w IH]; intros [|n] acc pos rest HA Hn; try (unfold fuel1 in Hn; lia); cbn [until].
    - eapply r_cur; eauto. cbn [hd_error app]. rewrite Hx, app_nil_r. eapply runs_eq; [apply runs_ret|rewrite zlen_nil; lia].
    - eapply r_cur; eauto. cbn [hd_error app]. rewrite Hw by (now left).
      eapply r_next_byte; eauto. destruct (At_cons _ _ _ _ HA) as [_ HA'].
      replace (acc ++ y :: w) with ((acc ++ [y]) ++ w) by (now rewrite <- app_assoc).
      eapply runs_eq; [eapply IH; eauto|rewrite zlen_cons; lia].
      + intros c Hc. apply Hw. now right.
      + pose proof (At_len _ _ _ HA) as HL. cbn [app] in HL. rewrite zlen_cons in HL. pose proof (zlen_nonneg (w ++ x :: rest)). unfold fuel1 in *. lia.
  Qed.

  Lemma r_range n d1 d2 e tail pos : d1 <> [] -> digits_ok d1 -> d2 <> [] -> digits_ok d2 -> Eol e tail ->
    At f pos (d1 ++ [32] ++ d2 ++ e ++ tail) -> fuel1 f n pos ->
    runs f (xref_range n : P _) pos (Ok (dvalue d1, dvalue d2)) (pos + zlen d1 + 1 + zlen d2).
  Proof.
    intros H1 D1 H2 D2 He HA Hn. unfold xref_range.
    pose proof (At_len _ _ _ HA) as HL. rewrite !zlen_app in HL. change (zlen [32]) with 1 in HL.
    eapply runs_bind; [apply (r_until _ d1 32) with (rest := d2 ++ e ++ tail); auto|].
    { intros c Hc. unfold digits_ok in D1. rewrite Forall_forall in D1. specialize (D1 c Hc). unfold is_digit in D1. cbn. lia. }
    apply At_app in HA. cbn [app] in *. eapply r_next; eauto. destruct (At_cons _ _ _ _ HA) as [_ HB].
    pose proof (Eol_head _ _ He) as Hh. destruct (e ++ tail) as [|x t] eqn:E; [discriminate|].
    eapply runs_bind; [apply (r_until _ d2 x) with (rest := t); auto|].
    { intros c Hc. unfold digits_ok in D2. rewrite Forall_forall in D2. specialize (D2 c Hc). unfold is_digit in D2. cbn. lia. }
    { pose proof (zlen_nonneg d1). unfold fuel, fuel1 in *. lia. }
    cbn [app]. rewrite !py_int_digits by auto. eapply runs_eq; [apply runs_ret|lia].
  Qed.

  Lemma digits_head d r : d <> [] -> digits_ok d -> exists x, hd_error (d ++ r) = Some x /\ is_digit x = true.
  Proof. intros H D. destruct D as [|x l Hx _]; [congruence|]. exists x. auto. Qed.

  Lemma r_sections l s rest : Sections l s rest -> rest <> [] -> head_is is_digit rest = false ->
    forall n x pos, At f pos (s ++ rest) -> fuel f n pos ->
    runs f (ranges_loop n x : P _) pos (Ok (fold_left add_listed l x)) (pos + zlen s).
  Proof.
    induction 1 as [rest|d1 d2 e l s ls ss rest H1 D1 H2 D2 Hc He HE HS IH]; intros Hr Hd n x pos HA Hn;
      (destruct n as [|n]; [unfold fuel in Hn; lia|]); cbn [ranges_loop].
    - eapply r_cur; eauto. cbn [app]. destruct rest as [|y t]; [congruence|]. cbn [hd_error head_is] in *. rewrite Hd.
      cbn [fold_left]. eapply runs_eq; [apply runs_ret|rewrite zlen_nil; lia].
    - eapply r_cur; eauto. repeat (rewrite <- app_assoc in *).
      destruct (digits_head d1 ([32] ++ d2 ++ e ++ s ++ ss ++ rest) H1 D1) as (y & Ey & Hy). rewrite Ey, Hy.
      pose proof (At_len _ _ _ HA) as HL. rewrite !zlen_app in HL. change (zlen [32]) with 1 in HL.
      pose proof (zlen_nonneg d1). pose proof (zlen_nonneg d2). pose proof (zlen_nonneg e). pose proof (zlen_nonneg s).
      pose proof (zlen_nonneg ss). pose proof (zlen_nonneg rest).
      eapply runs_bind; [eapply (r_range n d1 d2 e (s ++ ss ++ rest)); eauto; unfold fuel, fuel1 in *; lia|]. cbv beta iota.
      assert (At f (pos + zlen d1 + 1 + zlen d2) (e ++ s ++ ss ++ rest)) as HB.
      { apply At_app in HA. cbn [app] in HA. destruct (At_cons _ _ _ _ HA) as [_ HA']. apply At_app in HA'. exact HA'. }
      eapply runs_bind; [eapply r_eol; eauto|]. apply At_app in HB.
      eapply runs_bind.
      { rewrite Hc. unfold zlen at 1. rewrite Nat2Z.id. eapply r_entries; eauto. now apply dvalue_nonneg. }
      apply At_app in HB. rewrite fold_left_app.
      eapply runs_eq; [eapply IH; eauto; unfold fuel in *; lia|]. rewrite !zlen_app. change (zlen [32]) with 1. lia.
  Qed.

  Lemma r_table l s rest n pos : TableText l s rest -> rest <> [] -> head_is is_digit rest = false ->
    At f pos (s ++ rest) -> fuel f n pos ->
    runs f (direct_xref n : P _) pos (Ok (fold_left add_listed l xref0)) (pos + zlen s).
  Proof.
    intros H Hr Hd HA Hn. destruct H as [l sep s rest Hs HS HN]. unfold direct_xref.
    repeat (rewrite <- app_assoc in HA). pose proof (At_len _ _ _ HA) as HL. rewrite !zlen_app in HL. change (zlen (bs "xref")) with 4 in HL.
    pose proof (zlen_nonneg sep). pose proof (zlen_nonneg s). pose proof (zlen_nonneg rest).
    eapply runs_bind; [apply (r_read f (bs "xref") _ (sep ++ s ++ rest)); auto|]. rewrite eqlZ_refl.
    apply At_app in HA. change (zlen (bs "xref")) with 4 in *.
    eapply runs_bind; [apply (r_sp f sep n _ (s ++ rest)); auto; unfold fuel in *; lia|].
    apply At_app in HA. eapply runs_eq; [eapply r_sections; eauto; unfold fuel in *; lia|].
    rewrite !zlen_app. change (zlen (bs "xref")) with 4. lia.
  Qed.

  Lemma r_dictionary fl es s0 s rest n pos : Sep s0 -> SerEntries fl es s (62 :: 62 :: rest) ->
    At f pos (60 :: 60 :: s0 ++ s ++ 62 :: 62 :: rest) -> ofuel f n pos (oc fl) ->
    runs f (dictionary hook fl n) pos (Ok (dict_of es)) (pos + 2 + zlen s0 + zlen s + 2).
  Proof.
    intros Hs0 He HA Hn. pose proof (oc_range fl).
    pose proof (At_len _ _ _ HA) as HL. rewrite !zlen_cons, !zlen_app, !zlen_cons in HL.
    pose proof (zlen_nonneg s0). pose proof (zlen_nonneg s). pose proof (zlen_nonneg rest).
    destruct n as [|n]; [unfold ofuel in *; lia|]. cbn [dictionary].
    destruct (At_cons _ _ _ _ HA) as [_ HA1]. destruct (At_cons _ _ _ _ HA1) as [_ HA2].
    eapply runs_bind; [apply (r_read f [60; 60] pos (s0 ++ s ++ 62 :: 62 :: rest)); [reflexivity|exact HA]|].
    change (eqlZ [60; 60] (bs "<<")) with true. cbv beta iota. change (zlen [60; 60]) with 2.
    replace (pos + 1 + 1) with (pos + 2) in * by lia.
    eapply runs_bind; [apply (r_sp f s0 n _ (s ++ 62 :: 62 :: rest)); auto; [eapply entries_nosep; eauto|unfold ofuel, fuel in *; lia]|].
    apply At_app in HA2.
    eapply runs_bind; [eapply (proj2 (proj2 (r_ser f hook fl)) es s _ He n []); eauto; unfold ofuel in *; lia|].
    apply At_app in HA2. destruct (At_cons _ _ _ _ HA2) as [_ HA3].
    eapply r_next; eauto. eapply r_next; eauto. cbn [hd_error is_cur]. cbn [Z.eqb Pos.eqb].
    eapply runs_eq; [apply runs_ret|lia].
  Qed.

  Lemma r_section l t s rest n pos : SectionText l t s rest -> At f pos (s ++ rest) -> ofuel f n pos 8 ->
    runs f (table_section hook n) pos (Ok (fold_left add_listed l xref0, t)) (pos + zlen s).
  Proof.
    intros H HA Hn. destruct H as [l t sep1 sep2 s0 es s rest HT H1 H2 H0 HE]. unfold table_section.
    set (T := sep1 ++ bs "trailer" ++ sep2 ++ 60 :: 60 :: s0 ++ s ++ 62 :: 62 :: rest) in *.
    assert (At f pos (t ++ T)) as HA0.
    { revert HA. unfold T. repeat (rewrite <- ?app_assoc; cbn [app]). auto. }
    assert (T <> [] /\ head_is is_digit T = false) as [HT1 HT2].
    { unfold T. split; [destruct sep1; discriminate|]. pose proof (sep_int_end2 sep1 (bs "trailer" ++ sep2 ++ 60 :: 60 :: s0 ++ s ++ 62 :: 62 :: rest) H1 eq_refl) as HI.
      apply int_end_digit in HI. tauto. }
    pose proof (At_len _ _ _ HA0) as HL. unfold T in HL. rewrite !zlen_app, !zlen_cons, !zlen_app, !zlen_cons in HL. change (zlen (bs "trailer")) with 7 in HL.
    pose proof (zlen_nonneg t). pose proof (zlen_nonneg sep1). pose proof (zlen_nonneg sep2). pose proof (zlen_nonneg s0). pose proof (zlen_nonneg s). pose proof (zlen_nonneg rest).
    eapply runs_bind; [eapply r_table; eauto; unfold ofuel, fuel in *; lia|].
    apply At_app in HA0. unfold T in HA0.
    eapply runs_bind; [apply (r_sp f sep1 n _ (bs "trailer" ++ sep2 ++ 60 :: 60 :: s0 ++ s ++ 62 :: 62 :: rest)); auto; [reflexivity|unfold ofuel, fuel in *; lia]|].
    apply At_app in HA0. unfold trailer. apply r_assoc.
    eapply runs_bind; [apply (r_read f (bs "trailer") _ (sep2 ++ 60 :: 60 :: s0 ++ s ++ 62 :: 62 :: rest)); auto|]. rewrite eqlZ_refl.
    apply At_app in HA0. apply r_assoc. change (zlen (bs "trailer")) with 7 in *.
    eapply runs_bind; [apply (r_sp f sep2 n _ (60 :: 60 :: s0 ++ s ++ 62 :: 62 :: rest)); auto; [reflexivity|unfold ofuel, fuel in *; lia]|].
    apply At_app in HA0.
    eapply runs_bind; [eapply r_dictionary; eauto; pose proof (oc_range FBasic); unfold ofuel in *; lia|].
    eapply runs_eq; [apply runs_ret|]. rewrite !zlen_app, !zlen_cons, !zlen_app. change (zlen (bs "trailer")) with 7. change (zlen [62; 62]) with 2. lia.
  Qed.
End X.

(** What the resulting table contains. *)
Lemma add_listed_get l : forall x k,
  zget (x_inuse (fold_left add_listed l x)) k =
    match last_listed true k l with Some (g, o) => Some (mkE k g o) | None => zget (x_inuse x) k end /\
  zget (x_free (fold_left add_listed l x)) k =
    match last_listed false k l with Some (g, o) => Some (mkE k g o) | None => zget (x_free x) k end /\
  x_comp (fold_left add_listed l x) = x_comp x.
Proof.
  induction l as [|y l IH]; intros x k; cbn [fold_left last_listed]; auto.
  destruct (IH (add_listed x y) k) as (E1 & E2 & E3). rewrite E1, E2, E3.
  unfold add_listed, add_entry. destruct (li_used y); cbn [x_inuse x_free x_comp Bool.eqb]; rewrite ?zget_zset; cbn [e_num].
  - repeat split.
    + destruct (last_listed true k l) as [[g o]|]; auto. rewrite andb_true_r, Z.eqb_sym. destruct (li_num y =? k) eqn:E; auto.
      apply Z.eqb_eq in E. now subst.
    + destruct (last_listed false k l) as [[g o]|]; auto. now rewrite andb_false_r.
  - repeat split.
    + destruct (last_listed true k l) as [[g o]|]; auto. now rewrite andb_false_r.
    + destruct (last_listed false k l) as [[g o]|]; auto. rewrite andb_true_r, Z.eqb_sym. destruct (li_num y =? k) eqn:E; auto.
      apply Z.eqb_eq in E. now subst.
Qed.
