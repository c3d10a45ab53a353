(** Lemmas about the Group 4 decoder: array operations, searches, and the invariant of the state machine. *)
From Coq Require Import String.
From Verif Require Import Prelude M_Filters D_CCITT M_CCITT.
Local Open Scope Z_scope.

Definition bitl (l : list Z) : Prop := Forall (fun x => x = 0 \/ x = 1) l.

Lemma set_nth_len l : forall n v, List.length (set_nth l n v) = List.length l.
Proof. induction l as [|x l IH]; intros [|n] v; cbn; auto. Qed.
Lemma set_nth_app a x b v : set_nth (a ++ x :: b) (List.length a) v = a ++ v :: b.
Proof. induction a as [|y a IH]; cbn; [reflexivity|now rewrite IH]. Qed.
Lemma bitl_nth l i : bitl l -> nth i l 0 = 0 \/ nth i l 0 = 1.
Proof. intros H. revert i. induction H; intros [|i]; cbn; auto. Qed.

Lemma aget_ok l i : 0 <= i < zlen l -> aget l i = Ok (nth (Z.to_nat i) l 0).
Proof.
  intros H. unfold aget. replace (i <? 0) with false by lia. replace ((0 <=? i) && (i <? zlen l)) with true by lia. reflexivity.
Qed.
Lemma aset_ok a x b v : aset (a ++ x :: b) (zlen a) v = Ok (a ++ v :: b).
Proof.
  unfold aset. pose proof (zlen_nonneg a). replace (zlen a <? 0) with false by lia.
  rewrite zlen_app, zlen_cons. pose proof (zlen_nonneg b). replace ((0 <=? zlen a) && (zlen a <? zlen a + (1 + zlen b))) with true by lia.
  unfold zlen. rewrite Nat2Z.id. now rewrite set_nth_app.
Qed.
Lemma aset_last a x v : aset (a ++ [x]) (-1) v = Ok (a ++ [v]).
Proof.
  unfold aset. change (-1 <? 0) with true. cbv iota.
  assert (zlen (a ++ [x]) = zlen a + 1) as El by (rewrite zlen_app; reflexivity). rewrite El. pose proof (zlen_nonneg a).
  replace (-1 + (zlen a + 1)) with (zlen a) by lia.
  replace ((0 <=? zlen a) && (zlen a <? zlen a + 1)) with true by lia. unfold zlen. rewrite Nat2Z.id. now rewrite set_nth_app.
Qed.

(** fill writes a block *)
Lemma fill_ok m : forall a b c v, List.length b = m -> fill m (a ++ b ++ c) (zlen a) v = Ok (a ++ repeat v m ++ c).
Proof.
  induction m as [|m IH]; intros a b c v H; destruct b as [|x b]; try discriminate; [reflexivity|].
  cbn [fill app]. rewrite aset_ok. cbn [rbind].
  replace (zlen a + 1) with (zlen (a ++ [v])) by (rewrite zlen_app; reflexivity).
  replace (a ++ v :: b ++ c) with ((a ++ [v]) ++ b ++ c) by now rewrite <- app_assoc.
  rewrite IH by (injection H; auto). rewrite <- app_assoc. reflexivity.
Qed.

Lemma split_at (l : list Z) x n : 0 <= x -> 0 <= n -> x + n <= zlen l ->
  exists a b c, l = a ++ b ++ c /\ zlen a = x /\ zlen b = n.
Proof.
  intros Hx Hn H. exists (firstn (Z.to_nat x) l), (firstn (Z.to_nat n) (skipn (Z.to_nat x) l)), (skipn (Z.to_nat n) (skipn (Z.to_nat x) l)).
  unfold zlen in *. rewrite !firstn_skipn. split; [reflexivity|]. rewrite !firstn_length, skipn_length. lia.
Qed.

Lemma fill_at l x n v : 0 <= x -> 0 <= n -> x + n <= zlen l ->
  exists a b c, l = a ++ b ++ c /\ zlen a = x /\ zlen b = n /\ fill (Z.to_nat n) l x v = Ok (a ++ repeat v (Z.to_nat n) ++ c).
Proof.
  intros Hx Hn H. destruct (split_at l x n Hx Hn H) as (a & b & c & -> & Ea & Eb). exists a, b, c.
  rewrite <- Ea. repeat split; auto. apply fill_ok. unfold zlen in Eb. lia.
Qed.

(** run writes as much of a block as fits *)
Lemma run_ok n : forall a b v, run n (a ++ b) (zlen a) v =
  Ok (a ++ repeat v (Nat.min n (List.length b)) ++ skipn n b, zlen a + Z.of_nat (Nat.min n (List.length b))).
Proof.
  induction n as [|n IH]; intros a b v.
  - cbn [run Nat.min repeat skipn app]. now rewrite Z.add_0_r.
  - cbn [run]. rewrite zlen_app. destruct b as [|x b].
    + rewrite zlen_nil. replace (zlen a + 0 <=? zlen a) with true by lia. cbn [List.length Nat.min repeat skipn app]. now rewrite Z.add_0_r.
    + rewrite zlen_cons. pose proof (zlen_nonneg b). replace (zlen a + (1 + zlen b) <=? zlen a) with false by lia.
      rewrite aset_ok. cbn [rbind]. replace (zlen a + 1) with (zlen (a ++ [v])) by (rewrite zlen_app; reflexivity).
      replace (a ++ v :: b) with ((a ++ [v]) ++ b) by now rewrite <- app_assoc.
      rewrite IH. cbn [List.length Nat.min repeat skipn]. rewrite <- !app_assoc. cbn [app]. rewrite zlen_app. do 2 f_equal.
      change (zlen [v]) with 1. lia.
Qed.

(** *** The searches *)
Definition stop1 (ref : list Z) (color x : Z) : Prop :=
  (x = 0 /\ color = 1 /\ nth 0 ref 0 <> color) \/
  (0 < x /\ nth (Z.to_nat (x - 1)) ref 0 = color /\ nth (Z.to_nat x) ref 0 <> color).
Definition stop2 (ref : list Z) (color x : Z) : Prop :=
  0 < x /\ nth (Z.to_nat (x - 1)) ref 0 <> color /\ nth (Z.to_nat x) ref 0 = color.

Lemma find_b1_ok n : forall ref color x1, 1 <= zlen ref -> 0 <= x1 <= zlen ref -> zlen ref - x1 < Z.of_nat n ->
  exists b, find_b1 n ref color x1 = Ok b /\ x1 <= b <= zlen ref /\ (b < zlen ref -> stop1 ref color b) /\
    (forall y, x1 <= y < b -> ~ stop1 ref color y).
Proof.
  induction n as [|n IH]; intros ref color x1 Hw Hx Hn; [lia|]. cbn [find_b1].
  assert (x1 < zlen ref -> ~ stop1 ref color x1 -> find_b1 (S n) ref color x1 = find_b1 n ref color (x1 + 1) ->
    exists b, find_b1 (S n) ref color x1 = Ok b /\ x1 <= b <= zlen ref /\ (b < zlen ref -> stop1 ref color b) /\
    (forall y, x1 <= y < b -> ~ stop1 ref color y)) as Next.
  { intros H1 H2 ->. destruct (IH ref color (x1 + 1)) as (b & E & Hb & H3 & H4); try lia. exists b. rewrite E.
    repeat split; try lia; auto. intros y Hy. destruct (Z.eq_dec y x1) as [->|]; auto. apply H4. lia. }
  cbn [find_b1] in Next. destruct (Z.eqb_spec x1 0) as [->|Hx0].
  - destruct (Z.eqb_spec color 1) as [->|Hc].
    + rewrite (aget_ok ref 0) in * by lia. cbn [rbind] in *. change (Z.to_nat 0) with 0%nat in *.
      destruct (Z.eqb_spec (nth 0 ref 0) 1) as [Hr|Hr]; cbn [negb] in *.
      * apply Next; auto; [lia|]. unfold stop1. lia.
      * exists 0. repeat split; try lia. intros _. left. lia.
    + apply Next; auto; [lia|]. unfold stop1. lia.
  - destruct (Z.eqb_spec x1 (zlen ref)) as [E|Hne].
    + exists x1. repeat split; lia.
    + rewrite (aget_ok ref (x1 - 1)) in * by lia. rewrite (aget_ok ref x1) in * by lia. cbn [rbind] in *.
      destruct (Z.eqb_spec (nth (Z.to_nat (x1 - 1)) ref 0) color) as [Hp|Hp].
      * destruct (Z.eqb_spec (nth (Z.to_nat x1) ref 0) color) as [Hr|Hr]; cbn [negb] in *.
        -- apply Next; auto; [lia|]. unfold stop1. lia.
        -- exists x1. repeat split; try lia. intros _. right. repeat split; auto; lia.
      * apply Next; auto; [lia|]. unfold stop1. lia.
Qed.

Lemma find_b2_ok n : forall ref color x1, 1 <= zlen ref -> 0 <= x1 <= zlen ref -> (x1 = 0 -> color = 1) -> zlen ref - x1 < Z.of_nat n ->
  exists b, find_b2 n ref color x1 = Ok b /\ x1 <= b <= zlen ref /\ 0 < b /\ (b < zlen ref -> stop2 ref color b) /\
    (forall y, x1 <= y < b -> ~ stop2 ref color y).
Proof.
  induction n as [|n IH]; intros ref color x1 Hw Hx Hc Hn; [lia|]. cbn [find_b2].
  assert (x1 < zlen ref -> ~ stop2 ref color x1 -> find_b2 (S n) ref color x1 = find_b2 n ref color (x1 + 1) ->
    exists b, find_b2 (S n) ref color x1 = Ok b /\ x1 <= b <= zlen ref /\ 0 < b /\ (b < zlen ref -> stop2 ref color b) /\
    (forall y, x1 <= y < b -> ~ stop2 ref color y)) as Next.
  { intros H1 H2 ->. destruct (IH ref color (x1 + 1)) as (b & E & Hb & H3 & H4 & H5); try lia. exists b. rewrite E.
    repeat split; try lia; auto; try apply H4; try lia. intros y Hy. destruct (Z.eq_dec y x1) as [->|]; auto. apply H5. lia. }
  cbn [find_b2] in Next. destruct (Z.eqb_spec x1 0) as [->|Hx0].
  - rewrite (Hc eq_refl) in *. change (1 =? 0) with false in *. cbv iota in *.
    apply Next; auto; [lia|]. unfold stop2. lia.
  - destruct (Z.eqb_spec x1 (zlen ref)) as [E|Hne].
    + exists x1. repeat split; lia.
    + rewrite (aget_ok ref (x1 - 1)) in * by lia. rewrite (aget_ok ref x1) in * by lia. cbn [rbind] in *.
      destruct (Z.eqb_spec (nth (Z.to_nat (x1 - 1)) ref 0) color) as [Hp|Hp]; cbn [negb] in *.
      * apply Next; auto; [lia|]. unfold stop2. lia.
      * destruct (Z.eqb_spec (nth (Z.to_nat x1) ref 0) color) as [Hr|Hr].
        -- exists x1. repeat split; try lia; auto. 
        -- apply Next; auto; [lia|]. unfold stop2. lia.
Qed.

Ltac gs := cbn [g_ref g_cur g_pos g_color g_acc g_state g_n1 g_n2 g_buf with_acc with_color with_n1 with_n2 with_state reset_line init].
(** *** The invariant *)
Definition bit01 (c : Z) : bool := (c =? 48) || (c =? 49).
Definition leaf_ok (a : accept) (v : cval) : bool :=
  match a, v with
  | AMode, _ => true
  | (AHoriz1 | AHoriz2), CI n => 0 <=? n
  | AUncompressed, CS (x :: r) =>
      if x =? 84 then match r with c :: ((_ :: _) as r') => bit01 c && forallb bit01 r' | _ => false end else forallb bit01 (x :: r)
  | _, _ => false
  end.
Fixpoint leaves_ok (a : accept) (t : trie) : bool :=
  match t with TNone => true | TLeaf v => leaf_ok a v | TNode z o => leaves_ok a z && leaves_ok a o end.
Definition state_ok (a : accept) (t : trie) : Prop := match t with TNode _ _ => leaves_ok a t = true | _ => False end.
Lemma root_mode : state_ok AMode MODE. Proof. vm_compute. reflexivity. Qed.
Lemma root_h s a : a = AHoriz1 \/ a = AHoriz2 -> state_ok a (run_table s).
Proof. unfold run_table. destruct (negb _); intros [-> | ->]; vm_compute; reflexivity. Qed.
Lemma root_u : state_ok AUncompressed UNCOMPRESSED. Proof. vm_compute. reflexivity. Qed.

Section Inv.
  Variable width : Z.
  Variable align rev : bool.
  Hypothesis Hw : 1 <= width.

  Definition rows_buf (buf : list Z) : Prop :=
    exists rows, Forall (fun r => zlen r = width /\ bitl r) rows /\ buf = flat_map (output_line rev) rows.
  (** Between two bits; [hi] is the least excluded position. *)
  Record core (hi : Z) (s : g4) : Prop := mkCore {
    c_ref : zlen (g_ref s) = width; c_cur : zlen (g_cur s) = width;
    c_rb : bitl (g_ref s); c_cb : bitl (g_cur s);
    c_pos : -1 <= g_pos s < hi; c_col : g_color s = 0 \/ g_color s = 1;
    c_first : g_pos s = -1 -> g_color s = 1;
    c_buf : rows_buf (g_buf s) }.

  Lemma blank_ok : zlen (blank width) = width /\ bitl (blank width).
  Proof.
    unfold blank, zlen. rewrite repeat_length. split; [lia|]. apply Forall_forall. intros x Hx. apply repeat_spec in Hx. auto.
  Qed.
  Lemma core_init : core width (init width).
  Proof. destruct blank_ok. constructor; gs; auto; try lia. exists []. split; constructor. Qed.

  Lemma core_flush s : core (width + 1) s -> core width (snd (flush_line width align rev s)) /\
    g_acc (snd (flush_line width align rev s)) = g_acc s.
  Proof.
    intros [H1 H2 H3 H4 H5 H6 H7 H8]. unfold flush_line. destruct (width <=? g_pos s) eqn:E; cbn [snd].
    - destruct blank_ok. split; [|reflexivity]. constructor; gs; auto; try lia.
      destruct H8 as (rows & HF & EB). exists (rows ++ [g_cur s]). split.
      + apply Forall_app. split; [auto|]. constructor; auto.
      + rewrite flat_map_app, EB. cbn [flat_map]. now rewrite app_nil_r.
    - split; [|reflexivity]. constructor; auto; lia.
  Qed.

  Definition inv (s : g4) : Prop := core width s /\ state_ok (g_acc s) (g_state s).
  Definition out_ok (o : out) : Prop :=
    match o with
    | GNext s t => inv (with_state s t)
    | GSkip s => core width s
    | GEofb s => rows_buf (g_buf s)
    | GFail e => e = InvalidData
    end.

  Lemma core_state hi s t : core hi s -> core hi (with_state s t).
  Proof. intros []. constructor; auto. Qed.
  Lemma flush_to_ok s t : core (width + 1) s -> state_ok (g_acc s) t -> out_ok (flush_to width align rev s t).
  Proof.
    intros HC Ht. destruct (core_flush s HC) as (H1 & H2). unfold flush_to. destruct (flush_line width align rev s) as [[] s']; cbn [snd out_ok] in *; auto.
    split; [now apply core_state|]. cbn. now rewrite H2.
  Qed.

  Lemma bitl_app a b : bitl (a ++ b) <-> bitl a /\ bitl b.
  Proof. apply Forall_app. Qed.
  Lemma bitl_repeat v n : v = 0 \/ v = 1 -> bitl (repeat v n).
  Proof. intros H. apply Forall_forall. intros x Hx. apply repeat_spec in Hx. now subst. Qed.
  Lemma fill_core l x n v : zlen l = width -> bitl l -> v = 0 \/ v = 1 -> 0 <= x -> 0 <= n -> x + n <= width ->
    exists l', fill (Z.to_nat n) l x v = Ok l' /\ zlen l' = width /\ bitl l'.
  Proof.
    intros Hl Hb Hv Hx Hn H. destruct (fill_at l x n v) as (a & b & c & -> & Ea & Eb & ->); try lia.
    eexists. split; [reflexivity|]. apply bitl_app in Hb. destruct Hb as (B1 & (B2 & B3)%bitl_app). split.
    - rewrite !zlen_app in *. unfold zlen at 2. rewrite repeat_length. lia.
    - apply bitl_app. split; [auto|]. apply bitl_app. split; [now apply bitl_repeat|auto].
  Qed.

  Lemma vertical_ok s dx : core width s -> exists s', do_vertical width s dx = Ok s' /\ core (width + 1) s' /\ g_acc s' = g_acc s.
  Proof.
    intros [H1 H2 H3 H4 H5 H6 H7 H8]. unfold do_vertical.
    destruct (find_b1_ok (search_fuel width) (g_ref s) (g_color s) (g_pos s + 1)) as (b & E & Hb & _); try lia.
    { unfold search_fuel. lia. }
    rewrite E. cbn [rbind]. set (x0 := Z.max 0 (g_pos s)). set (x1 := Z.max 0 (Z.min width (b + dx))).
    assert (0 <= x0 < width /\ 0 <= x1 <= width) as Hx by (unfold x0, x1; lia). clearbody x0 x1.
    assert (exists l', (if x1 <? x0 then fill (Z.to_nat (x0 - x1)) (g_cur s) x1 (g_color s)
      else if x0 <? x1 then fill (Z.to_nat (x1 - x0)) (g_cur s) x0 (g_color s) else Ok (g_cur s)) = Ok l' /\ zlen l' = width /\ bitl l') as (l' & -> & L1 & L2).
    { destruct (x1 <? x0) eqn:E1; [apply fill_core; auto; lia|]. destruct (x0 <? x1) eqn:E2; [apply fill_core; auto; lia|]. eauto. }
    cbn [rbind]. eexists. split; [reflexivity|]. split; [|reflexivity]. constructor; gs; auto; lia.
  Qed.

  Lemma split_last (l : list Z) : 1 <= zlen l -> exists a x, l = a ++ [x].
  Proof. intros H. destruct l as [|y l] using rev_ind; [unfold zlen in H; cbn in H; lia|eauto]. Qed.

  Lemma pass_fill l pos x1 v : zlen l = width -> bitl l -> v = 0 \/ v = 1 -> -1 <= pos -> pos < x1 -> x1 <= width ->
    exists l', fill (Z.to_nat (x1 - pos)) l pos v = Ok l' /\ zlen l' = width /\ bitl l'.
  Proof.
    intros Hl Hb Hv Hp Hx H. destruct (Z.eq_dec pos (-1)) as [->|]; [|apply fill_core; auto; lia].
    destruct (split_last l) as (a & x & ->); [lia|].
    replace (Z.to_nat (x1 - -1)) with (S (Z.to_nat x1)) by lia. cbn [fill]. rewrite aset_last. cbn [rbind].
    change (-1 + 1) with 0. apply fill_core; try lia; auto.
    - rewrite zlen_app in *. exact Hl.
    - apply bitl_app in Hb. apply bitl_app. split; [apply Hb|]. constructor; [auto|constructor].
  Qed.

  Lemma pass_ok s : core width s -> exists s', do_pass width s = Ok s' /\ core (width + 1) s' /\ g_acc s' = g_acc s.
  Proof.
    intros [H1 H2 H3 H4 H5 H6 H7 H8]. unfold do_pass.
    destruct (find_b1_ok (search_fuel width) (g_ref s) (g_color s) (g_pos s + 1)) as (b & E & Hb & _); try lia.
    { unfold search_fuel. lia. }
    rewrite E. cbn [rbind].
    destruct (find_b2_ok (search_fuel width) (g_ref s) (g_color s) b) as (b2 & E2 & Hb2 & Hp & _); try lia.
    { unfold search_fuel. lia. }
    rewrite E2. cbn [rbind].
    destruct (pass_fill (g_cur s) (g_pos s) b2 (g_color s)) as (l' & E3 & L1 & L2); auto; try lia.
    rewrite E3. cbn [rbind]. eexists. split; [reflexivity|]. split; [|reflexivity]. constructor; gs; auto; lia.
  Qed.

  Lemma run_core n l x v : zlen l = width -> bitl l -> v = 0 \/ v = 1 -> 0 <= x <= width ->
    exists l' x', run n l x v = Ok (l', x') /\ zlen l' = width /\ bitl l' /\ x <= x' <= width.
  Proof.
    intros Hl Hb Hv Hx. destruct (split_at l x (width - x)) as (a & b & c & -> & Ea & Eb); try lia.
    replace x with (zlen a). rewrite run_ok. eexists _, _. split; [reflexivity|].
    rewrite !zlen_app in *. apply bitl_app in Hb. destruct Hb as (B1 & B2).
    split; [|split].
    - assert (zlen (b ++ c) = zlen b + zlen c) as El by apply zlen_app. unfold zlen in *. rewrite repeat_length, skipn_length. lia.
    - apply bitl_app. split; [auto|]. apply bitl_app. split; [now apply bitl_repeat|].
      rewrite <- (firstn_skipn n (b ++ c)) in B2. apply bitl_app in B2. apply B2.
    - assert (zlen (b ++ c) = zlen b + zlen c) as El by apply zlen_app. unfold zlen in *. lia.
  Qed.

  Lemma horizontal_ok s n1 n2 : core width s -> exists s', do_horizontal s n1 n2 = Ok s' /\ core (width + 1) s' /\ g_acc s' = g_acc s.
  Proof.
    intros [H1 H2 H3 H4 H5 H6 H7 H8]. unfold do_horizontal. set (p := if g_pos s <? 0 then 0 else g_pos s).
    assert (0 <= p < width) as Hp by (unfold p; destruct (g_pos s <? 0) eqn:E; lia).
    destruct (run_core (Z.to_nat n1) (g_cur s) p (g_color s)) as (l1 & x1 & E1 & A1 & A2 & A3); auto; try lia.
    rewrite E1. cbn [rbind].
    destruct (run_core (Z.to_nat n2) l1 x1 (1 - g_color s)) as (l2 & x2 & E2 & A4 & A5 & A6); auto; try lia.
    rewrite E2. cbn [rbind]. eexists. split; [reflexivity|]. split; [|reflexivity]. constructor; gs; auto; lia.
  Qed.

  Lemma uncompressed_ok bits : forall s t, core width s -> forallb bit01 bits = true -> state_ok (g_acc s) t ->
    out_ok (do_uncompressed width align rev bits s t).
  Proof.
    induction bits as [|c bits IH]; intros s t HC Hb Ht; cbn [do_uncompressed].
    - split; [now apply core_state|exact Ht].
    - cbn [forallb] in Hb. apply andb_true_iff in Hb. destruct Hb as (Hc & Hb).
      destruct HC as [H1 H2 H3 H4 H5 H6 H7 H8].
      assert (exists l', aset (g_cur s) (g_pos s) (c - 48) = Ok l' /\ zlen l' = width /\ bitl l') as (l' & E & L1 & L2).
      { destruct (pass_fill (g_cur s) (g_pos s) (g_pos s + 1) (c - 48)) as (l' & E & L); auto; try (unfold bit01 in Hc; lia).
        exists l'. split; [|exact L]. replace (g_pos s + 1 - g_pos s) with 1 in E by lia. cbn [Z.to_nat Pos.to_nat Pos.iter_op fill] in E.
        change (Pos.to_nat 1) with 1%nat in E. cbn [fill] in E.
        destruct (aset (g_cur s) (g_pos s) (c - 48)); cbn [rbind] in E; congruence. }
      rewrite E.
      match goal with |- context [flush_line width align rev ?x] => set (s1 := x) end.
      assert (core (width + 1) s1) as HC1 by (unfold s1; constructor; gs; auto; lia).
      destruct (core_flush s1 HC1) as (F1 & F2). destruct (flush_line width align rev s1) as [[] s2]; cbn [snd] in *; [exact F1|].
      apply IH; auto. now rewrite F2.
  Qed.

  (** With colour set first (mode T): the first bit makes the position non-negative. *)
  Lemma uncompressed_T c bits s : core width s -> bits <> [] -> forallb bit01 bits = true -> g_acc s = AMode -> 
    c = 0 \/ c = 1 -> out_ok (do_uncompressed width align rev bits (with_color s c) MODE).
  Proof.
    intros HC Hn Hb Ha Hc0. destruct bits as [|b bits]; [congruence|]. cbn [do_uncompressed].
    cbn [forallb] in Hb. apply andb_true_iff in Hb. destruct Hb as (Hc & Hb).
    destruct HC as [H1 H2 H3 H4 H5 H6 H7 H8].
    assert (exists l', aset (g_cur s) (g_pos s) (b - 48) = Ok l' /\ zlen l' = width /\ bitl l') as (l' & E & L1 & L2).
    { destruct (pass_fill (g_cur s) (g_pos s) (g_pos s + 1) (b - 48)) as (l' & E & L); auto; try (unfold bit01 in Hc; lia).
      exists l'. split; [|exact L]. replace (g_pos s + 1 - g_pos s) with 1 in E by lia.
      change (Z.to_nat 1) with 1%nat in E. cbn [fill] in E.
      destruct (aset (g_cur s) (g_pos s) (b - 48)); cbn [rbind] in E; congruence. }
    cbn [g_cur g_pos g_ref g_color g_acc g_state g_n1 g_n2 g_buf with_color]. rewrite E.
    match goal with |- context [flush_line width align rev ?x] => set (s1 := x) end.
    assert (core (width + 1) s1) as HC1 by (unfold s1; constructor; gs; auto; lia).
    destruct (core_flush s1 HC1) as (F1 & F2). destruct (flush_line width align rev s1) as [[] s2]; cbn [snd] in *; [exact F1|].
    apply uncompressed_ok; auto. rewrite F2. cbn. rewrite Ha. apply root_mode.
  Qed.

  Lemma core_acc hi s a : core hi s -> core hi (with_acc s a).
  Proof. intros []. constructor; auto. Qed.
  Lemma core_n1 hi s a : core hi s -> core hi (with_n1 s a).
  Proof. intros []. constructor; auto. Qed.
  Lemma core_n2 hi s a : core hi s -> core hi (with_n2 s a).
  Proof. intros []. constructor; auto. Qed.

  (** In the horizontal modes the colour may differ from white at the start of the line; [inv'] undoes the change. *)
  Definition inv' (s : g4) : Prop :=
    state_ok (g_acc s) (g_state s) /\ match g_acc s with AHoriz2 => core width (with_color s (1 - g_color s)) | _ => core width s end.
  Definition out_ok' (o : out) : Prop :=
    match o with
    | GNext s t => inv' (with_state s t)
    | GSkip s => core width s
    | GEofb s => rows_buf (g_buf s)
    | GFail e => e = InvalidData
    end.
  Lemma out_weaken o : out_ok o -> (forall s t, o = GNext s t -> g_acc s <> AHoriz2) -> out_ok' o.
  Proof.
    destruct o as [s t| | |]; cbn; auto. intros (H1 & H2) Hn. split; [exact H2|]. specialize (Hn s t eq_refl). gs. destruct (g_acc s); auto. congruence.
  Qed.
  Lemma flush_acc s t s' t' : flush_to width align rev s t = GNext s' t' -> g_acc s' = g_acc s.
  Proof.
    unfold flush_to, flush_line. destruct (width <=? g_pos s); [destruct align|]; intros E; try discriminate; injection E as <- _; reflexivity.
  Qed.
  Lemma unc_acc bits : forall s t s' t', do_uncompressed width align rev bits s t = GNext s' t' -> g_acc s' = g_acc s.
  Proof.
    induction bits as [|c bits IH]; intros s t s' t' E; cbn [do_uncompressed] in E; [injection E as <- _; reflexivity|].
    destruct (aset (g_cur s) (g_pos s) (c - 48)) as [l|e]; [|discriminate].
    match type of E with context [flush_line width align rev ?x] => set (s1 := x) in *; assert (g_acc s1 = g_acc s) as Ha by reflexivity; clearbody s1 end.
    unfold flush_line in E. destruct (width <=? g_pos s1); [destruct align|]; try discriminate; apply IH in E; cbn in E; congruence.
  Qed.

  Lemma accept_ok s v : inv' s -> (forall x, v = Some x -> leaf_ok (g_acc s) x = true) -> out_ok' (do_accept width align rev s v).
  Proof.
    intros (HS & HC) Hv. unfold do_accept. destruct (g_acc s) eqn:Ea.
    - destruct v as [[dx|m]|]; cbn [parse_mode]; [| |reflexivity].
      + destruct (vertical_ok s dx HC) as (s' & -> & C & A). apply out_weaken; [apply flush_to_ok; auto; rewrite A, Ea; apply root_mode|].
        intros s2 t2 E2. rewrite (flush_acc _ _ _ _ E2). congruence.
      + destruct (eqlZ m (bs "p")).
        { destruct (pass_ok s HC) as (s' & -> & C & A). apply out_weaken; [apply flush_to_ok; auto; rewrite A, Ea; apply root_mode|].
          intros s2 t2 E2. rewrite (flush_acc _ _ _ _ E2). congruence. }
        destruct (eqlZ m (bs "h")).
        { cbn [out_ok']. split; [apply root_h; auto|]. gs. apply core_state, core_acc, core_n1, HC. }
        destruct (eqlZ m (bs "u")).
        { split; [apply root_u|]. gs. apply core_state, core_acc, HC. }
        destruct (eqlZ m (bs "e")); [apply HC|reflexivity].
    - destruct v as [[n|m]|]; cbn [parse_horiz1]; [|discriminate (Hv _ eq_refl)|reflexivity].
      destruct (n <? 64).
      + split; [apply root_h; auto|]. gs. destruct HC as [H1 H2 H3 H4 H5 H6 H7 H8].
        constructor; gs; auto; [lia|]. intros Hp. rewrite (H7 Hp). reflexivity.
      + split; gs; [rewrite Ea; apply root_h; auto|]. rewrite Ea. now apply core_state, core_n1.
    - destruct v as [[n|m]|]; cbn [parse_horiz2]; [|discriminate (Hv _ eq_refl)|reflexivity].
      destruct (n <? 64).
      + match goal with |- context [do_horizontal ?x _ _] => set (s2 := x) end.
        assert (core width s2) as C2 by (apply core_acc, (core_n2 width (with_color s (1 - g_color s)) (g_n2 s + n)); auto).
        destruct (horizontal_ok s2 (g_n1 s2) (g_n2 s2) C2) as (s' & -> & C & A).
        apply out_weaken; [apply flush_to_ok; auto; rewrite A; apply root_mode|].
        intros s3 t2 E2. rewrite (flush_acc _ _ _ _ E2), A. discriminate.
      + split; gs; rewrite Ea; [apply root_h; auto|]. apply (core_state width (with_n2 (with_color s (1 - g_color s)) (g_n2 s + n))), core_n2, HC.
    - destruct v as [[n|m]|]; cbn [parse_uncompressed]; [discriminate (Hv _ eq_refl)| |reflexivity].
      specialize (Hv _ eq_refl). cbn [leaf_ok] in Hv. destruct m as [|x r]; [reflexivity|].
      destruct (Z.eqb_spec x 84) as [->|Hx].
      + destruct r as [|c [|b r]]; try discriminate Hv. apply andb_true_iff in Hv. destruct Hv as (Hc & Hb).
        apply out_weaken.
        * apply uncompressed_T; [now apply core_acc|discriminate|exact Hb|reflexivity|]. unfold bit01 in Hc. lia.
        * intros s3 t3 E3. rewrite (unc_acc _ _ _ _ _ E3). discriminate.
      + assert (parse_uncompressed width align rev s (Some (CS (x :: r))) = do_uncompressed width align rev (x :: r) s UNCOMPRESSED) as Eu.
        { clear -Hx. cbn [parse_uncompressed]. repeat match goal with |- context [match ?y with _ => _ end] => is_var y; destruct y; try reflexivity; try congruence end. }
        cbn [parse_uncompressed] in Eu. rewrite Eu. apply out_weaken.
        * apply uncompressed_ok; auto. rewrite Ea. apply root_u.
        * intros s3 t3 E3. rewrite (unc_acc _ _ _ _ _ E3). congruence.
  Qed.

  Lemma parse_bit_ok s x : inv' s -> out_ok' (parse_bit width align rev s x).
  Proof.
    intros (HS & HC). unfold parse_bit. destruct (g_state s) as [|v|z o] eqn:Es; try contradiction HS.
    cbn [state_ok leaves_ok] in HS. apply andb_true_iff in HS. destruct HS as (Hz & Ho).
    assert (leaves_ok (g_acc s) (if x then o else z) = true) as Hl by (destruct x; auto).
    assert (inv' s) as HI by (split; auto; rewrite Es; cbn [state_ok leaves_ok]; now rewrite Hz, Ho).
    destruct (if x then o else z) as [|v|z' o'].
    - apply accept_ok; auto. discriminate.
    - apply accept_ok; auto. intros y E. injection E as <-. exact Hl.
    - split; gs; [exact Hl|]. destruct (g_acc s); exact (core_state _ _ _ HC).
  Qed.

  Definition fed_ok (f : fed) : Prop :=
    match f with FGo s => inv' s | FStop s => rows_buf (g_buf s) | FErr e => e = InvalidData end.
  Lemma feed_bits_ok bits : forall s, inv' s -> fed_ok (feed_bits width align rev bits s).
  Proof.
    induction bits as [|x bits IH]; intros s H; [exact H|]. cbn [feed_bits]. pose proof (parse_bit_ok s x H) as Ho.
    destruct (parse_bit width align rev s x) as [s' t|s'|s'|e]; cbn [out_ok' fed_ok] in *; auto.
    split; [apply root_mode|]. gs. now apply core_state, core_acc.
  Qed.
  Lemma feedbytes_ok data : forall s, inv' s -> fed_ok (feedbytes width align rev data s).
  Proof.
    induction data as [|b data IH]; intros s H; [exact H|]. cbn [feedbytes]. pose proof (feed_bits_ok (byte_bits b) s H) as Hb.
    destruct (feed_bits width align rev (byte_bits b) s); auto.
  Qed.
  Lemma inv_init : inv' (init width).
  Proof. split; [apply root_mode|apply core_init]. Qed.
  Lemma inv_buf s : inv' s -> rows_buf (g_buf s).
  Proof. intros (_ & H). destruct (g_acc s); apply H. Qed.
End Inv.
