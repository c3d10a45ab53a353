(** Texts parse to their values: C04-C10, C14. *)
From Coq Require Import String.
From Verif Require Import Prelude M_Prog M_Parser M_Text S_Filters S_Syntax S_Print L_Buffer L_Prog L_ParserWP L_Fuel
  L_Syntax L_Syntax2 L_Print P_ParserTotal.
Local Open Scope Z_scope.

(** [parse_at fl f pos v q]: object() of parser class [fl] started at [pos] of file [f] returns [v]
    and leaves the cursor at [q] - whatever states were saved, whatever the parser's own state [u]
    and stream hook, with any loop bound above 4*length+8; [u] is left alone. *)
Definition parse_at (fl : flavor) (f : list Z) (pos : Z) (v : obj) (q : Z) : Prop :=
  forall U (hook : dict -> prog U dict) st (u : U) n, 4 * zlen f + 8 <= Z.of_nat n ->
  exists ex, arun f (object hook fl n) (mkA pos st u) = (Ok v, mkA q (st ++ ex) u).

Lemma parse_ser fl v s rest pre lead sp' : Ser fl v s rest -> Sep lead -> tail_ok v sp' rest ->
  parse_at fl (pre ++ lead ++ s ++ rest) (zlen pre) v (zlen pre + zlen lead + zlen s + zlen (trailing v sp')).
Proof.
  intros HS Hl Ht U hook st u n Hn.
  apply (r_object (pre ++ lead ++ s ++ rest) hook fl v s rest n (zlen pre) lead sp'); auto.
  - now apply At_start with (pre := pre).
  - unfold ofuel. pose proof (oc_range fl). pose proof (zlen_nonneg pre).
    rewrite !zlen_app in *. pose proof (zlen_nonneg lead). pose proof (zlen_nonneg s). pose proof (zlen_nonneg rest). lia.
Qed.

Lemma parse_leaf fl v s rest pre : Ser fl v s rest -> trailing v [0] = [] ->
  parse_at fl (pre ++ s ++ rest) (zlen pre) v (zlen pre + zlen s).
Proof.
  intros HS Htr. pose proof (parse_ser fl v s rest pre [] []) as H. cbn [app] in H.
  replace (trailing v []) with (@nil Z) in H by (destruct v; auto).
  rewrite zlen_nil, !Z.add_0_r in H. apply H; auto; [constructor|]. destruct v; cbn; auto. discriminate.
Qed.

(** C04. *)
Theorem C04_integer_literals : forall fl z t pre rest,
  IntText z t -> int_end rest ->
  (refs_allowed fl = true -> head_is is_digit t = true -> NotRefTail rest) ->
  parse_at fl (pre ++ t ++ rest) (zlen pre) (OInt z) (zlen pre + zlen t).
Proof. intros. apply parse_leaf; auto. now apply Ser_int. Qed.

(** Every integer has such a text, with any number of leading zeros. *)
Theorem C04_every_integer : forall z k, IntText z (if z <? 0 then 45 :: zeros k ++ dec (- z) else zeros k ++ dec z).
Proof.
  intros z k. destruct (z <? 0) eqn:E.
  - destruct (dec_ok (- z)) as (H1 & H2 & H3); [lia|].
    replace (IntText z) with (IntText (- dvalue (zeros k ++ dec (- z)))) by (rewrite dvalue_zeros; f_equal; lia).
    constructor; [destruct (zeros k); auto; discriminate|apply Forall_app; split; auto; apply zeros_ok].
  - destruct (dec_ok z) as (H1 & H2 & H3); [lia|].
    replace (IntText z) with (IntText (dvalue (zeros k ++ dec z))) by (rewrite dvalue_zeros; f_equal; lia).
    constructor; [destruct (zeros k); auto; discriminate|apply Forall_app; split; auto; apply zeros_ok].
Qed.
(** numeric() itself needs no condition on what follows beyond "no digit, no point". *)
Theorem C04_numeric : forall U f pre z t rest n st (u : U),
  f = pre ++ t ++ rest -> IntText z t -> int_end rest -> zlen f + 2 < Z.of_nat n ->
  exists ex, arun f (numeric n) (mkA (zlen pre) st u) = (Ok (OInt z), mkA (zlen pre + zlen t) (st ++ ex) u).
Proof.
  intros U f pre z t rest n st u -> HI Hr Hn. apply r_numeric_int with (rest := rest); auto.
  - now apply At_start with (pre := pre).
  - pose proof (zlen_nonneg pre). pose proof (zlen_nonneg (pre ++ t ++ rest)). unfold fuel. lia.
Qed.
Example C04_ex : parse_at FBasic (bs "x +0042 /a") 1 (OInt 42) 7 /\ IntText (-7) (bs "-007").
Proof.
  split.
  - apply (parse_ser FBasic (OInt 42) (bs "+0042") (bs " /a") [120] [32] []); cbn [tail_ok]; auto.
    + apply Ser_int; [apply (IT_plus (bs "0042")); [discriminate|repeat constructor]|reflexivity|discriminate].
    + apply sep_sp1.
  - apply (C04_every_integer (-7) 2).
Qed.

(** C05. *)
Theorem C05_real_literals : forall fl v t pre rest,
  RealText v t -> real_end rest -> parse_at fl (pre ++ t ++ rest) (zlen pre) v (zlen pre + zlen t).
Proof.
  intros. apply parse_leaf; auto using Ser_real. destruct (real_not_int _ _ H) as (a & b & c & ->). auto.
Qed.
Theorem C05_every_decimal : forall neg c e, e < 0 -> 0 <= c -> (neg = true -> 0 < c < 10 ^ 28) ->
  RealText (OReal neg c e) (real_text neg c e).
Proof. exact real_text_ok. Qed.
(** Without the 28-digit bound the claim fails for negative literals: the code rounds. *)
Theorem C05_long_negative_refuted :
  ~ (forall ip fp, digits_ok ip -> digits_ok fp -> ip <> [] -> fp <> [] -> 0 < dvalue (ip ++ fp) ->
       parse_at FBasic (45 :: ip ++ 46 :: fp) 0 (OReal true (dvalue (ip ++ fp)) (- zlen fp)) (zlen ip + zlen fp + 2)).
Proof.
  intros H. specialize (H (bs "1") (bs "0000000000000000000000000001")).
  destruct (H ltac:(repeat constructor) ltac:(repeat constructor) ltac:(discriminate) ltac:(discriminate) eq_refl
              unit (fun d => Ret d) [] tt 200%nat) as [ex E]; [vm_compute; discriminate|].
  vm_compute in E. discriminate.
Qed.
Example C05_ex : parse_at FContent (bs "-0.50 w") 0 (OReal true 50 (-2)) 5.
Proof. apply (C05_real_literals FContent (OReal true 50 (-2)) (bs "-0.50") [] (bs " w")); [|reflexivity].
  apply (RT_neg (bs "0") (bs "50")); [repeat constructor|repeat constructor|discriminate|vm_compute; split; reflexivity]. Qed.

(** C06. *)
Theorem C06_names_any_spelling : forall fl cs t pre rest,
  NameText cs t -> nonreg rest ->
  parse_at fl (pre ++ (47 :: t) ++ rest) (zlen pre) (OName cs) (zlen pre + 1 + zlen t).
Proof.
  intros. pose proof (parse_leaf fl (OName cs) (47 :: t) rest pre) as P. rewrite zlen_cons, Z.add_assoc in P.
  apply P; auto. now apply Ser_name.
Qed.
Theorem C06_names_round_trip : forall fl cs pre rest,
  bytes_ok cs -> nonreg rest ->
  parse_at fl (pre ++ (47 :: name_text cs) ++ rest) (zlen pre) (OName cs) (zlen pre + 1 + zlen (name_text cs)).
Proof. intros. apply C06_names_any_spelling; auto. now apply name_text_ok. Qed.
(** Every run of regular characters after the slash is the spelling of some name: nothing is rejected, a
    number sign that two hexadecimal digits do not follow stands for itself. *)
Theorem C06_every_text : forall t, Forall (fun c => is_ws c = false /\ is_delim c = false) t ->
  exists cs, NameText cs t.
Proof.
  assert (forall k t, (List.length t < k)%nat -> Forall (fun c => is_ws c = false /\ is_delim c = false) t ->
    exists cs, NameText cs t) as G; [|intros t; apply (G (S (List.length t))); auto with arith].
  induction k as [|k IH]; intros t Hk Ht; [lia|]. destruct t as [|c t]; [exists []; constructor|].
  inversion Ht as [|? ? [Hw Hd] Ht']; subst. cbn [List.length] in Hk.
  destruct (IH t) as [cs Hcs]; [lia|auto|].
  destruct (Z.eq_dec c 35) as [->|Hc]; [|exists (c :: cs); now constructor].
  destruct (two_hex t) eqn:E2; [|exists (35 :: cs); now constructor].
  destruct t as [|a [|b t]]; try discriminate E2. cbn [two_hex] in E2.
  destruct (hexval a) as [h|] eqn:Ea; [|discriminate]. destruct (hexval b) as [l|] eqn:Eb; [|discriminate].
  inversion Ht' as [|? ? ? Ht2]; subst. inversion Ht2 as [|? ? ? Ht3]; subst.
  destruct (IH t) as [cs3 Hcs3]; [cbn [List.length] in Hk; lia|auto|].
  exists (16 * h + l :: cs3). now constructor.
Qed.
Example C06_ex_hash : NameText (bs "#aA") (bs "#a#41") /\ NameText (bs "#A") (bs "##41") /\ NameText (bs "A#") (bs "A#").
Proof.
  split; [|split].
  - change (bs "#aA") with [35; 97; 16 * 4 + 1]. change (bs "#a#41") with [35; 97; 35; 52; 49].
    apply NT_hash; [reflexivity|]. apply NT_raw; [reflexivity|reflexivity|lia|]. apply NT_hex; [reflexivity|reflexivity|constructor].
  - change (bs "#A") with [35; 16 * 4 + 1]. change (bs "##41") with [35; 35; 52; 49].
    apply NT_hash; [reflexivity|]. apply NT_hex; [reflexivity|reflexivity|constructor].
  - change (bs "A#") with [65; 35]. apply NT_raw; [reflexivity|reflexivity|lia|]. apply NT_hash; [reflexivity|constructor].
Qed.
Example C06_ex : name_text [65; 32; 35; 255] = bs "A#20#23#FF" /\ NameText [65; 66] (bs "#41B").
Proof. split; [reflexivity|]. apply (NT_hex 52 49 4 1); auto. apply NT_raw; auto; [discriminate|constructor]. Qed.

(** C07. *)
Theorem C07_strings_any_spelling : forall fl v t pre rest,
  StrText v t -> parse_at fl (pre ++ (40 :: t ++ [41]) ++ rest) (zlen pre) (OStr v) (zlen pre + zlen t + 2).
Proof.
  intros. pose proof (parse_leaf fl (OStr v) (40 :: t ++ [41]) rest pre) as P.
  replace (zlen pre + zlen t + 2) with (zlen pre + zlen (40 :: t ++ [41])) by (rewrite zlen_cons, zlen_app, zlen_cons, zlen_nil; lia).
  apply P; auto. now apply Ser_str.
Qed.
Theorem C07_library_escape_round_trip : forall fl v pre rest,
  parse_at fl (pre ++ (40 :: pdf_escape_string v ++ [41]) ++ rest) (zlen pre) (OStr v)
    (zlen pre + zlen (pdf_escape_string v) + 2).
Proof. intros. apply C07_strings_any_spelling. rewrite str_text_escape. apply str_text_ok. Qed.

(** every byte as backslash and three octal digits *)
Definition octal3 (c : Z) : list Z := [92; 48 + c / 64; 48 + (c / 8) mod 8; 48 + c mod 8].
Theorem C07_octal_round_trip : forall fl v pre rest, bytes_ok v ->
  parse_at fl (pre ++ (40 :: flat_map octal3 v ++ [41]) ++ rest) (zlen pre) (OStr v)
    (zlen pre + zlen (flat_map octal3 v) + 2).
Proof.
  intros fl v pre rest Hv. apply C07_strings_any_spelling.
  induction Hv as [|c v Hc _ IH]; cbn [flat_map]; [constructor|]. unfold byte_ok in Hc.
  assert (c / 8 / 8 = c / 64) as E8 by (rewrite Z.div_div by lia; auto).
  pose proof (Z.div_mod c 8 ltac:(lia)). pose proof (Z.div_mod (c / 8) 8 ltac:(lia)).
  pose proof (Z.mod_pos_bound c 8 ltac:(lia)). pose proof (Z.mod_pos_bound (c / 8) 8 ltac:(lia)).
  assert (0 <= c / 64 <= 3) by (split; [apply Z.div_pos; lia|apply Z.lt_succ_r, Z.div_lt_upper_bound; lia]).
  assert (ovalue [48 + c / 64; 48 + (c / 8) mod 8; 48 + c mod 8] = c) as Hov.
  { cbn [ovalue]. change (zlen [48 + (c / 8) mod 8; 48 + c mod 8]) with 2. change (zlen [48 + c mod 8]) with 1. change (zlen (@nil Z)) with 0.
    change (8 ^ 2) with 64. change (8 ^ 1) with 8. change (8 ^ 0) with 1. lia. }
  pose proof (ST_oct [48 + c / 64; 48 + (c / 8) mod 8; 48 + c mod 8] v (flat_map octal3 v)) as G. rewrite Hov in G.
  apply G; auto; try lia.
  - repeat constructor; lia.
  - change (zlen [48 + c / 64; 48 + (c / 8) mod 8; 48 + c mod 8]) with 3. lia.
  - change (zlen [48 + c / 64; 48 + (c / 8) mod 8; 48 + c mod 8]) with 3. lia.
Qed.
Example C07_ex_balanced : StrText (bs "a(b)c") (bs "a(b)\143").
Proof.
  apply ST_raw; [discriminate..|]. apply (ST_paren (bs "b") (bs "b") (bs "c") (bs "\143")).
  - apply ST_raw; [discriminate..|constructor].
  - apply (ST_oct (bs "143") [] []); [repeat constructor; discriminate| | |discriminate|constructor]; vm_compute; [split|]; discriminate.
Qed.

(** C08. *)
Theorem C08_hex_strings : forall fl ds s0 t pre rest,
  Sep s0 -> head_is (fun c => c =? 37) s0 = false -> HexBody ds t ->
  parse_at fl (pre ++ (60 :: s0 ++ t ++ [62]) ++ rest) (zlen pre) (OHex (map upper (even_pad ds)))
    (zlen pre + zlen s0 + zlen t + 2).
Proof.
  intros. pose proof (parse_leaf fl (OHex (map upper (even_pad ds))) (60 :: s0 ++ t ++ [62]) rest pre) as P.
  replace (zlen pre + zlen s0 + zlen t + 2) with (zlen pre + zlen (60 :: s0 ++ t ++ [62]))
    by (rewrite zlen_cons, !zlen_app, zlen_cons, zlen_nil; lia).
  apply P; auto. now apply Ser_hex.
Qed.
Lemma hexval_upper d h : hexval d = Some h -> hexval (upper d) = Some h.
Proof.
  unfold hexval, upper. destruct ((48 <=? d) && (d <=? 57)) eqn:E1.
  - replace ((97 <=? d) && (d <=? 122)) with false by lia. now rewrite E1.
  - destruct ((65 <=? d) && (d <=? 70)) eqn:E2.
    + replace ((97 <=? d) && (d <=? 122)) with false by lia. now rewrite E1, E2.
    + destruct ((97 <=? d) && (d <=? 102)) eqn:E3; [|discriminate].
      replace ((97 <=? d) && (d <=? 122)) with true by lia.
      replace ((48 <=? d - 32) && (d - 32 <=? 57)) with false by lia.
      replace ((65 <=? d - 32) && (d - 32 <=? 70)) with true by lia.
      intros H; inversion H. f_equal; lia.
Qed.
(** the parsed digits denote the encoded bytes (HexDigits: PDF 7.4.2 / 7.3.4.3) *)
Theorem C08_hex_decodes : forall data ds, HexDigits data ds -> fromhex (map upper (even_pad ds)) = Ok data.
Proof.
  intros data ds H. induction H as [|h v Hv|h l v w data ds Hv Hw _ IH].
  - reflexivity.
  - change (fromhex (map upper (even_pad [h]))) with (fromhex [upper h; upper 48]). cbn [fromhex].
    rewrite (hexval_upper _ _ Hv). change (hexval (upper 48)) with (Some 0). cbv beta iota. now rewrite Z.add_0_r.
  - unfold even_pad in *. rewrite !zlen_cons in *.
    replace (Z.odd (1 + (1 + zlen ds))) with (Z.odd (zlen ds))
      by (replace (1 + (1 + zlen ds)) with (Z.succ (Z.succ (zlen ds))) by lia; rewrite Z.odd_succ_succ; auto).
    assert (map upper (if Z.odd (zlen ds) then (h :: l :: ds) ++ [48] else h :: l :: ds)
            = upper h :: upper l :: map upper (if Z.odd (zlen ds) then ds ++ [48] else ds)) as ->
      by (destruct (Z.odd (zlen ds)); reflexivity).
    cbn [fromhex]. rewrite (hexval_upper _ _ Hv), (hexval_upper _ _ Hw), IH. auto.
Qed.
Example C08_ex : HexDigits [18; 160] (bs "12a") /\ HexBody (bs "12a") (bs "1 2
a").
Proof.
  split.
  - apply (HD_pair 49 50 1 2); auto. apply (HD_odd 97 10). auto.
  - apply (HB_cons 49 1 [32]); auto using sep_sp1. apply (HB_cons 50 2 [10]); [auto| |].
    + apply Sep_ws; auto. constructor.
    + apply (HB_cons 97 10 []); auto; constructor.
Qed.
(** a comment directly after "<" is not accepted, although PDF allows it *)
Theorem C08_comment_first_refuted :
  ~ (forall ds s0 t, Sep s0 -> HexBody ds t ->
       exists q, parse_at FBasic (60 :: s0 ++ t ++ [62]) 0 (OHex (map upper (even_pad ds))) q).
Proof.
  intros H. destruct (H (bs "41") (37 :: [120] ++ [10] ++ []) (bs "41")) as [q Hq].
  - apply Sep_comment; [repeat constructor; discriminate|left; auto|constructor].
  - apply (HB_cons 52 4 []); auto; [constructor|]. apply (HB_cons 49 1 []); auto; constructor.
  - destruct (Hq unit (fun d => Ret d) [] tt 200%nat) as [ex E]; [vm_compute; discriminate|].
    vm_compute in E. discriminate.
Qed.

(** C09. *)
Theorem C09_any_layout : forall fl v s pre lead rest sp',
  Ser fl v s rest -> Sep lead -> tail_ok v sp' rest ->
  parse_at fl (pre ++ lead ++ s ++ rest) (zlen pre) v (zlen pre + zlen lead + zlen s + zlen (trailing v sp')).
Proof. intros. now apply parse_ser. Qed.

(** Canonical texts: every printable value is read back.  After a dictionary the parser also
    skips the space that follows (it looks for "stream"). *)
Theorem C09_print_parse : forall fl v pre rest,
  printable v -> (refs_allowed fl = true \/ has_ref v = false) ->
  nosep rest -> head_is (fun c => is_digit c || memZ c [43; 45; 46] || (c =? 115)) rest = false ->
  parse_at fl (pre ++ print v ++ 32 :: rest) (zlen pre) v
    (zlen pre + zlen (print v) + zlen (trailing v [32])).
Proof.
  intros fl v pre rest Hp Hr Hn Hh.
  assert (head_is (fun c => is_digit c || memZ c [43; 45; 46]) rest = false /\ head_is (fun c => c =? 115) rest = false) as [H1 H2].
  { destruct rest; auto. cbn [head_is] in *. apply orb_false_iff in Hh. auto. }
  pose proof (parse_ser fl v (print v) (32 :: rest) pre [] [32]) as P. cbn [app] in P.
  rewrite (@zlen_nil Z), Z.add_0_r in P. apply P; [|constructor|].
  - apply print_ser; auto. intros _. apply (NR_other [32] rest); auto using sep_sp1.
  - destruct v; cbn; auto. exists rest. split; auto using sep_sp1.
Qed.
Example C09_ex : let v := ODict [(bs "A", OArr [OInt 1; OInt 0; ORef 3 0; OReal true 50 (-2)]);
                                 (bs "b c", ODict [([], OStr [40; 0; 255])])] in
  printable v /\ print v = bs "<</A [1 0 3 0 R -0.50 ] /b#20c <</ (\(" ++ [0; 255] ++ bs ") >> >>".
Proof.
  vm_compute. repeat split; try congruence; repeat constructor; cbn; try (intuition congruence).
Qed.

(** C10. *)
Fixpoint last_value (k : list Z) (es : list (list Z * obj)) : option obj :=
  match es with
  | [] => None
  | (k', v) :: r => match last_value k r with Some w => Some w | None => if eqlZ k k' then Some v else None end
  end.
Lemma dget_dset d k v k' : dget (dset d k v) k' = if eqlZ k' k then Some v else dget d k'.
Proof.
  induction d as [|[k2 v2] d IH]; cbn [dset dget].
  - reflexivity.
  - destruct (eqlZ k k2) eqn:E; cbn [dget].
    + apply eqlZ_eq in E; subst k2. destruct (eqlZ k' k); auto.
    + rewrite IH. destruct (eqlZ k' k2) eqn:E2; auto. apply eqlZ_eq in E2; subst k2.
      destruct (eqlZ k' k) eqn:E3; auto. apply eqlZ_eq in E3; subst. rewrite eqlZ_refl in E. discriminate.
Qed.
Lemma dset_keys d k v x : In x (map fst (dset d k v)) -> In x (map fst d) \/ x = k.
Proof.
  induction d as [|[k2 v2] d IH]; cbn [dset map fst In]; [intros [<-|[]]; auto|].
  destruct (eqlZ k k2); cbn [map fst In]; [tauto|]. intros [<-|H]; auto. destruct (IH H); auto.
Qed.
Lemma dset_nodup d k v : NoDup (map fst d) -> NoDup (map fst (dset d k v)).
Proof.
  induction d as [|[k2 v2] d IH]; cbn [dset map fst]; intros H; [repeat constructor; auto|].
  inversion H; subst. destruct (eqlZ k k2) eqn:E; cbn [map fst]; constructor; auto.
  intros X. apply dset_keys in X. destruct X as [X| ->]; auto. rewrite eqlZ_refl in E. discriminate.
Qed.
Theorem C10_last_duplicate_wins : forall fl es s0 s pre rest sp' rest',
  Sep s0 -> SerEntries fl es s (62 :: 62 :: rest) -> rest = sp' ++ rest' -> Sep sp' -> nosep rest' ->
  head_is (fun c => c =? 115) rest' = false ->
  exists d, parse_at fl (pre ++ (60 :: 60 :: s0 ++ s ++ [62; 62]) ++ rest) (zlen pre) (ODict d)
              (zlen pre + zlen s0 + zlen s + 4 + zlen sp') /\
    NoDup (map fst d) /\
    (forall k, dget d k = last_value k es) /\
    (forall k, In k (map fst d) -> In k (map fst es)).
Proof.
  intros fl es s0 s pre rest sp' rest' Hs0 He -> Hsp Hr H115. exists (dict_of es). repeat split.
  - pose proof (parse_ser fl (ODict (dict_of es)) (60 :: 60 :: s0 ++ s ++ [62; 62]) (sp' ++ rest') pre [] sp') as P.
    cbn [trailing app] in P |- *. rewrite !zlen_cons, !zlen_app, !zlen_cons, !zlen_nil in P.
    replace (zlen pre + zlen s0 + zlen s + 4 + zlen sp') with (zlen pre + 0 + (1 + (1 + (zlen s0 + (zlen s + (1 + (1 + 0)))))) + zlen sp') by lia.
    apply P; [|constructor|cbn; eauto]. apply Ser_dict; auto.
  - unfold dict_of. assert (forall d, NoDup (map fst d) -> NoDup (map fst (fold_left (fun d kv => dset d (fst kv) (snd kv)) es d))) as G.
    { clear. induction es as [|[k v] es IH]; intros d Hd; auto. cbn [fold_left fst snd]. apply IH. now apply dset_nodup. }
    apply G. constructor.
  - unfold dict_of. intros k.
    assert (forall d, dget (fold_left (fun d kv => dset d (fst kv) (snd kv)) es d) k
                      = match last_value k es with Some w => Some w | None => dget d k end) as G.
    { clear. induction es as [|[k2 v] es IH]; intros d; auto. cbn [fold_left fst snd last_value].
      rewrite IH, dget_dset. destruct (last_value k es); auto. destruct (eqlZ k k2); auto. }
    rewrite G. destruct (last_value k es); auto.
  - unfold dict_of. intros k.
    assert (forall d, In k (map fst (fold_left (fun d kv => dset d (fst kv) (snd kv)) es d)) -> In k (map fst d) \/ In k (map fst es)) as G.
    { clear. induction es as [|[k2 v] es IH]; intros d; auto. cbn [fold_left fst snd map In].
      intros H. apply IH in H. destruct H as [H|H]; auto. apply dset_keys in H. destruct H as [H| ->]; auto. }
    intros H. destruct (G [] H) as [[]|]; auto.
Qed.
Example C10_ex : SerEntries FBasic [(bs "A", OInt 1); (bs "A", ONull)] (bs "/A 1/A null") (bs ">>").
Proof.
  apply (SN_cons FBasic (bs "A") (bs "A") [32] (OInt 1) (bs "1") [] [(bs "A", ONull)] (bs "/A null")); auto using sep_sp1.
  - apply NT_raw; auto; [discriminate|constructor].
  - reflexivity.
  - apply Ser_int; [apply (int_text_ok 1)|reflexivity|]. intros. apply (NR_other [] (bs "/A null>>")); [constructor|reflexivity..].
  - constructor.
  - apply (SN_cons FBasic (bs "A") (bs "A") [32] ONull (bs "null") [] [] []); auto using sep_sp1.
    + apply NT_raw; auto; [discriminate|constructor].
    + reflexivity.
    + apply Ser_null. discriminate.
    + constructor.
    + constructor.
Qed.

(** C14.  A sequence of integers and references with arbitrary separators. *)
Inductive item := IInt (z : Z) (t : list Z) | IRef (ds1 s1 ds2 s2 : list Z).
Definition item_ok (i : item) : Prop :=
  match i with
  | IInt z t => IntText z t
  | IRef ds1 s1 ds2 s2 => ds1 <> [] /\ digits_ok ds1 /\ ds2 <> [] /\ digits_ok ds2 /\ Sep s1 /\ s1 <> [] /\ Sep s2
  end.
Definition item_text (i : item) : list Z :=
  match i with IInt _ t => t | IRef ds1 s1 ds2 s2 => ds1 ++ s1 ++ ds2 ++ s2 ++ bs "R" end.
Definition item_val (i : item) : obj :=
  match i with IInt z _ => OInt z | IRef ds1 _ ds2 _ => ORef (dvalue ds1) (dvalue ds2) end.
Definition seq_text (l : list (item * list Z)) : list Z := flat_map (fun p => item_text (fst p) ++ snd p) l.

Lemma item_head i : item_ok i -> exists x t, item_text i = x :: t /\ value_start x /\ x <> 82.
Proof.
  destruct i as [z t|ds1 s1 ds2 s2]; cbn [item_ok item_text].
  - intros HI. destruct (ser_start FNoRef (OInt z) t []) as (x & t' & -> & Hx).
    { apply Ser_int; auto; [reflexivity|discriminate]. }
    exists x, t'. repeat split; try apply Hx. intros ->. inversion HI as [ds Hne Hd E1 E2|ds Hne Hd E1 E2|ds Hne Hd E1 E2]; subst. inversion Hd; discriminate.
  - intros (H1 & H2 & _). destruct (head_dig ds1 [] H1 H2) as (d & r & -> & Hd & _).
    eexists d, _. split; [reflexivity|]. split; [now apply digit_start|]. apply is_digit_range in Hd. lia.
Qed.
Lemma seq_tail l tl : Forall (fun p => item_ok (fst p) /\ Sep (snd p) /\ snd p <> []) l ->
  nosep (seq_text l ++ 93 :: tl) /\ head_is (fun c => c =? 82) (seq_text l ++ 93 :: tl) = false.
Proof.
  destruct 1 as [|[i s] l [Hi [Hs _]] _]; [split; reflexivity|]. cbn [fst snd] in *.
  destruct (item_head i Hi) as (x & t & E & Hx & Hr). cbn [seq_text flat_map fst snd]. rewrite E. cbn [app].
  split; [now apply start_nosep|]. cbn [head_is]. lia.
Qed.
Lemma seq_notref l tl s : Sep s -> s <> [] -> Forall (fun p => item_ok (fst p) /\ Sep (snd p) /\ snd p <> []) l ->
  NotRefTail (s ++ seq_text l ++ 93 :: tl).
Proof.
  intros Hs Hne Hl. destruct Hl as [|[i si] l [Hi [Hsi Hnsi]] Hl].
  - apply NR_other; auto; reflexivity.
  - cbn [fst snd] in *. cbn [seq_text flat_map fst snd]. rewrite <- !app_assoc. destruct (seq_tail l tl Hl) as [T1 T2].
    destruct i as [z t|ds1 s1 ds2 s2]; cbn [item_ok item_text] in *.
    + apply NR_int with (z := z); auto. apply sep_end; auto.
    + destruct Hi as (H1 & D1 & H2 & D2 & S1 & N1 & S2). rewrite <- !app_assoc.
      destruct (head_dig ds2 [] H2 D2) as (d & r & E & Hd & _).
      apply NR_int with (z := dvalue ds1); auto; [constructor; auto| | |].
      * rewrite E. cbn [app]. apply start_nosep. now apply digit_start.
      * apply sep_end; auto.
      * left. rewrite E. cbn [app head_is]. apply is_digit_range in Hd. lia.
Qed.
Theorem C14_integers_and_references : forall l s0 pre rest,
  Sep s0 -> Forall (fun p => item_ok (fst p) /\ Sep (snd p) /\ snd p <> []) l ->
  parse_at FBasic (pre ++ (91 :: s0 ++ seq_text l ++ [93]) ++ rest) (zlen pre)
    (OArr (map (fun p => item_val (fst p)) l)) (zlen pre + zlen (91 :: s0 ++ seq_text l ++ [93])).
Proof.
  intros l s0 pre rest Hs0 Hl. apply parse_leaf; auto. apply Ser_arr; auto.
  induction Hl as [|[i s] l [Hi [Hs Hne]] Hl IH]; cbn [seq_text flat_map map fst snd]; [constructor|].
  rewrite <- app_assoc. cbn [fst snd] in *. apply SE_cons; auto.
  destruct i as [z t|ds1 s1 ds2 s2]; cbn [item_ok item_text item_val] in *.
  - apply Ser_int; auto; [apply sep_end; auto|]. intros _ _. apply seq_notref; auto.
  - destruct Hi as (H1 & D1 & H2 & D2 & S1 & N1 & S2). apply Ser_ref; auto.
Qed.
Example C14_ex : fst (arun (bs "[1 2 3 4 R 5 0 R 6 7]") (object no_hook FBasic 400) (mkA 0 [] tt))
  = Ok (OArr [OInt 1; OInt 2; ORef 3 4; ORef 5 0; OInt 6; OInt 7]).
Proof. vm_compute. reflexivity. Qed.

Print Assumptions C04_integer_literals.
Print Assumptions C04_every_integer.
Print Assumptions C04_numeric.
Print Assumptions C05_real_literals.
Print Assumptions C05_every_decimal.
Print Assumptions C05_long_negative_refuted.
Print Assumptions C06_names_any_spelling.
Print Assumptions C06_names_round_trip.
Print Assumptions C06_every_text.
Print Assumptions C07_strings_any_spelling.
Print Assumptions C07_library_escape_round_trip.
Print Assumptions C07_octal_round_trip.
Print Assumptions C08_hex_strings.
Print Assumptions C08_hex_decodes.
Print Assumptions C08_comment_first_refuted.
Print Assumptions C09_any_layout.
Print Assumptions C09_print_parse.
Print Assumptions C10_last_duplicate_wins.
Print Assumptions C14_integers_and_references.
