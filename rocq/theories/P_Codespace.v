(** The code space of a character map: C106. *)
From Coq Require Import String Sorting.Sorted.
From Verif Require Import Prelude D_PSNames M_Parser M_Objects M_Codec P_Codec M_CMap S_CMap L_CMap P_CMap M_Codespace.
Local Open Scope Z_scope.

(** *** The specification *)
(** A code space: the pairs of codes of its ranges, in order, and the ranges made of them. *)
Definition Space (es : list (list Z * list Z)) (rs : list range) : Prop :=
  Forall2 (fun e r => HexCode (fst e) /\ HexCode (snd e) /\ mk_range (fst e) (snd e) = Ok r) es rs.
Definition lies_in (item : list Z) (e : list Z * list Z) : Prop := zlen item = zlen (fst e) /\ hnum (fst e) <= hnum item <= hnum (snd e).
(** the order of texts *)
Definition before (a b : list Z) : Prop :=
  (exists c, c <> [] /\ b = a ++ c) \/ (exists p x y a' b', a = p ++ x :: a' /\ b = p ++ y :: b' /\ x < y).
(** What PDF means by a range of codes of several bytes: each byte is between those of the ends. *)
Fixpoint bytewise (item b e : list Z) : Prop :=
  match item, b, e with
  | [], [], [] => True
  | i1 :: i2 :: i, b1 :: b2 :: b', e1 :: e2 :: e' => hnum [b1; b2] <= hnum [i1; i2] <= hnum [e1; e2] /\ bytewise i b' e'
  | _, _, _ => False
  end.

(** *** Proofs *)
Lemma space_range b e r : HexCode b -> HexCode e -> mk_range b e = Ok r -> r = mkR (hnum b) (hnum e) (zlen b) /\ zlen b = zlen e /\ hnum b <= hnum e.
Proof.
  intros Hb He H. unfold mk_range in H. rewrite !as_int_hnum in H by assumption. cbn [rbind] in H.
  destruct (Z.eqb_spec (zlen b) (zlen e)); [|discriminate]. destruct (Z.ltb_spec (hnum e) (hnum b)); [discriminate|]. injection H as <-. auto.
Qed.
Lemma lt_before a : forall b, lt_str a b -> before a b.
Proof.
  unfold lt_str. induction a as [|x a IH]; intros [|y b] H; cbn [str_cmp] in H; try discriminate.
  - left. exists (y :: b). split; [discriminate|reflexivity].
  - destruct (Z.compare_spec x y) as [->|Hl|Hg]; [|right; exists [], x, y, a, b; auto|discriminate].
    destruct (IH b H) as [(c & Hc & ->)|(p & u & v & a' & b' & -> & -> & Hl)]; [left; exists c; auto|right; exists (y :: p), u, v, a', b'; auto].
Qed.

(** C106.  For code spaces of hexadecimal codes: whether a code belongs to them - as a number, between the ends of a range of its length -,
    the greatest number in them, and their codes, each once, in upper case and in order. *)
Theorem C106_contains : forall es rs item, Space es rs -> HexCode item ->
  exists b, cs_contains rs item = Ok b /\ (b = true <-> Exists (lies_in item) es).
Proof.
  intros es rs item HS Hi. induction HS as [|[b e] r es rs (Hb & He & Hr) _ (x & IH1 & IH2)].
  - exists false. split; [reflexivity|]. split; [discriminate|intros H; inversion H].
  - cbn [fst snd] in *. destruct (space_range b e r Hb He Hr) as (-> & El & Hle). cbn [cs_contains]. unfold range_contains. cbn [r_size r_begin r_end].
    rewrite as_int_hnum by exact Hi. cbn [rbind].
    assert ((if zlen item =? zlen b then Ok ((hnum b <=? hnum item) && (hnum item <=? hnum e)) else Ok false) = Ok ((zlen item =? zlen b) && ((hnum b <=? hnum item) && (hnum item <=? hnum e)))) as -> by (destruct (_ =? _); reflexivity).
    cbn [rbind]. destruct ((zlen item =? zlen b) && ((hnum b <=? hnum item) && (hnum item <=? hnum e))) eqn:E.
    + exists true. split; [reflexivity|]. split; [intros _; apply Exists_cons_hd; unfold lies_in; cbn [fst snd]; lia|auto].
    + exists x. split; [exact IH1|]. rewrite IH2. split; [apply Exists_cons_tl|]. intros H. inversion H as [? ? H1|? ? H1]; subst; [|exact H1]. unfold lies_in in H1. cbn [fst snd] in H1. lia.
Qed.
Theorem C106_max : forall es rs, Space es rs ->
  (es = [] -> cs_max rs = Err ValueErr) /\
  (es <> [] -> exists m, cs_max rs = Ok m /\ Exists (fun e => hnum (snd e) = m) es /\ Forall (fun e => hnum (snd e) <= m) es).
Proof.
  intros es rs HS. split; [intros ->; inversion HS; reflexivity|]. intros Hne. destruct HS as [|[b e] r es rs (Hb & He & Hr) HS]; [contradiction|]. cbn [fst snd] in *.
  destruct (space_range b e r Hb He Hr) as (-> & _ & _). cbn [cs_max r_end]. eexists. split; [reflexivity|].
  assert (forall a, let m := fold_left (fun a x => if a <? r_end x then r_end x else a) rs a in
    (m = a \/ Exists (fun e => hnum (snd e) = m) es) /\ a <= m /\ Forall (fun e => hnum (snd e) <= m) es) as HA.
  { clear - HS. induction HS as [|[b e] r es rs (Hb & He & Hr) _ IH]; intros a; cbn [fold_left]; [split; [auto|split; [lia|constructor]]|]. cbn [fst snd] in *.
    destruct (space_range b e r Hb He Hr) as (-> & _ & _). cbn [r_end].
    destruct (Z.ltb_spec a (hnum e)) as [Hl|Hl]; [destruct (IH (hnum e)) as (X1 & X2 & X3)|destruct (IH a) as (X1 & X2 & X3)]; cbv zeta in *.
    - split; [right; destruct X1 as [X1|X1]; [apply Exists_cons_hd; cbn [snd]; auto|now apply Exists_cons_tl]|]. split; [lia|constructor; [exact X2|exact X3]].
    - split; [destruct X1 as [X1|X1]; [auto|right; now apply Exists_cons_tl]|]. split; [exact X2|constructor; [cbn [snd]; lia|exact X3]]. }
  destruct (HA (hnum e)) as (X1 & X2 & X3). cbv zeta in *. split; [|constructor; [exact X2|exact X3]]. destruct X1 as [X1|X1]; [apply Exists_cons_hd; cbn [snd]; auto|now apply Exists_cons_tl].
Qed.
Theorem C106_list : forall es rs, Space es rs ->
  (forall x, In x (cs_list rs) <-> Forall updigit x /\ Exists (lies_in x) es) /\ StronglySorted before (cs_list rs).
Proof.
  intros es rs HS. unfold cs_list.
  assert (forall acc, StronglySorted lt_str acc ->
    (forall x, In x (fold_left (fun acc r => fold_left (fun a x => insert x a) (range_list r) acc) rs acc) <-> (Forall updigit x /\ Exists (lies_in x) es) \/ In x acc) /\
    StronglySorted lt_str (fold_left (fun acc r => fold_left (fun a x => insert x a) (range_list r) acc) rs acc)) as HA.
  { induction HS as [|[b e] r es rs (Hb & He & Hr) _ IH]; intros acc Hacc; cbn [fold_left].
    - split; [|exact Hacc]. intros x. split; [auto|]. intros [[_ H]|H]; [inversion H|exact H].
    - cbn [fst snd] in *. destruct (fold_insert (range_list r) acc) as [F1 F2]. destruct (IH _ (F2 Hacc)) as [G1 G2]. split; [|exact G2].
      intros x. rewrite G1, F1. destruct (C51_enumeration b e r Hb He Hr) as (E1 & _). rewrite E1. unfold lies_in. split.
      + intros [[X1 X2]|[(X1 & X2 & X3)|X]]; [left; split; [exact X1|now apply Exists_cons_tl]|left; split; [exact X1|apply Exists_cons_hd; cbn [fst snd]; auto]|auto].
      + intros [[X1 X2]|X]; [|auto]. inversion X2 as [? ? (Y1 & Y2)|? ? Y]; subst; [right; left; cbn [fst snd] in *; auto|auto]. }
  destruct (HA [] (SSorted_nil _)) as [H1 H2]. split.
  - intros x. rewrite H1. cbn [In]. tauto.
  - clear - H2. induction H2 as [|x l _ IH HF]; constructor; [exact IH|]. eapply Forall_impl; [|exact HF]. intros y. apply lt_before.
Qed.
(** As a number, not byte by byte as PDF has it: <81FF> is in the range of <8140> to <9FFC> (of 90ms-RKSJ), though its second byte is not. *)
Theorem C106_bytewise_refuted : ~ (forall b e r item, HexCode b -> HexCode e -> mk_range b e = Ok r -> HexCode item ->
  cs_contains [r] item = Ok true -> bytewise item b e).
Proof.
  intros H. assert (forall l, forallb (fun c => ((48 <=? c) && (c <=? 57)) || ((65 <=? c) && (c <=? 70))) l = true -> l <> [] -> HexCode l) as HC.
  { intros l Hl Hn. split; [exact Hn|]. rewrite forallb_forall in Hl. apply Forall_forall. intros c Hc. specialize (Hl c Hc). unfold hdigit. lia. }
  specialize (H (bs "8140") (bs "9FFC") (mkR 33088 40956 4) (bs "81FF")). destruct H as [_ H].
  - apply HC; [reflexivity|discriminate].
  - apply HC; [reflexivity|discriminate].
  - reflexivity.
  - apply HC; [reflexivity|discriminate].
  - reflexivity.
  - destruct H as [[_ H] _]. vm_compute in H. apply H. reflexivity.
Qed.
Example C106_ex : exists rs, Space [(bs "00", bs "02"); (bs "8140", bs "8142")] rs /\ cs_contains rs (bs "8141") = Ok true /\ cs_contains rs (bs "81") = Ok false /\
  cs_max rs = Ok 33090 /\ cs_list rs = [bs "00"; bs "01"; bs "02"; bs "8140"; bs "8141"; bs "8142"].
Proof.
  exists [mkR 0 2 2; mkR 33088 33090 4]. assert (forall l, forallb (fun c => ((48 <=? c) && (c <=? 57)) || ((65 <=? c) && (c <=? 70))) l = true -> l <> [] -> HexCode l) as HC.
  { intros l Hl Hn. split; [exact Hn|]. rewrite forallb_forall in Hl. apply Forall_forall. intros c Hc. specialize (Hl c Hc). unfold hdigit. lia. }
  split; [|repeat split]. constructor; [|constructor; [|constructor]]; (split; [apply HC; [reflexivity|discriminate]|split; [apply HC; [reflexivity|discriminate]|reflexivity]]).
Qed.
Print Assumptions C106_contains.
Print Assumptions C106_max.
Print Assumptions C106_list.
Print Assumptions C106_bytewise_refuted.

(** A code space is true (in conditions) exactly if it has ranges. *)
Theorem C106_bool : forall rs, cs_bool rs = true <-> exists r, In r rs.
Proof.
  intros [|r rs]; cbn [cs_bool]; split; [discriminate|intros (r & [])|intros _; exists r; now left|reflexivity].
Qed.
Print Assumptions C106_bool.
