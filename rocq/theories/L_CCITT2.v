(** Lemmas for C50: the decoder against T.6 codes. *)
From Coq Require Import String.
From Verif Require Import Prelude M_Filters D_CCITT M_CCITT S_CCITT L_CCITT.
Local Open Scope Z_scope.

Definition col (px : bool) : Z := if px then 0 else 1.
Lemma col_inj a b : col a = col b -> a = b. Proof. destruct a, b; cbn; congruence. Qed.
Lemma col_neg b : 1 - col b = col (negb b). Proof. destruct b; reflexivity. Qed.

Lemma map_repeat {A B} (f : A -> B) x n : map f (repeat x n) = repeat (f x) n.
Proof. induction n; cbn; congruence. Qed.

(** *** Bits of bytes *)
Lemma land_bit b k : 0 <= k -> negb (Z.land b (2 ^ k) =? 0) = Z.testbit b k.
Proof.
  intros Hk. destruct (Z.testbit b k) eqn:E.
  - apply negb_true_iff, Z.eqb_neq. intros H. apply (f_equal (fun z => Z.testbit z k)) in H.
    rewrite Z.land_spec, E, Z.pow2_bits_true, Z.bits_0 in H by lia. discriminate.
  - apply negb_false_iff, Z.eqb_eq. apply Z.bits_inj'. intros n Hn. rewrite Z.land_spec, Z.bits_0, Z.pow2_bits_eqb by lia.
    destruct (Z.eqb_spec k n) as [->|]; [rewrite E; reflexivity|apply andb_false_r].
Qed.
Lemma byte_bits_eq b : byte_bits b = bits8 b.
Proof.
  unfold byte_bits, bits8. cbn [map].
  rewrite <- (land_bit b 7), <- (land_bit b 6), <- (land_bit b 5), <- (land_bit b 4), <- (land_bit b 3), <- (land_bit b 2), <- (land_bit b 1), <- (land_bit b 0) by lia.
  reflexivity.
Qed.
Lemma bits_of_cons b d : bits_of (b :: d) = bits8 b ++ bits_of d. Proof. reflexivity. Qed.

(** *** Changing elements *)
Lemma pix_map l i : 0 <= i < zlen l -> nth (Z.to_nat i) (map col l) 0 = col (pix l i).
Proof.
  intros H. unfold pix. replace (i <? 0) with false by lia. unfold zlen in H.
  rewrite (nth_indep _ 0 (col false)) by (rewrite map_length; lia). apply map_nth.
Qed.
Lemma const_run l a x : -1 <= a -> (forall y, a < y < x -> ~ changing l y) -> forall y, a <= y < x -> pix l y = pix l a.
Proof.
  intros Ha H y Hy. replace y with (a + Z.of_nat (Z.to_nat (y - a))) in * by lia.
  induction (Z.to_nat (y - a)) as [|n IH]; [now rewrite Z.add_0_r|].
  rewrite <- IH by lia. specialize (H (a + Z.of_nat (S n)) ltac:(lia)). unfold changing in H.
  replace (a + Z.of_nat (S n) - 1) with (a + Z.of_nat n) in H by lia.
  destruct (pix l (a + Z.of_nat (S n))), (pix l (a + Z.of_nat n)); auto; exfalso; apply H; discriminate.
Qed.
Lemma firstn_const l b : forall x y, 0 <= x <= y -> y <= zlen l -> (forall i, x <= i < y -> pix l i = b) ->
  firstn (Z.to_nat y) l = firstn (Z.to_nat x) l ++ repeat b (Z.to_nat (y - x)).
Proof.
  intros x y Hx Hy H. replace (Z.to_nat y) with (Z.to_nat x + Z.to_nat (y - x))%nat by lia.
  assert (forall i, (i < Z.to_nat (y - x))%nat -> nth (Z.to_nat x + i) l false = b) as Hn.
  { intros i Hi. specialize (H (x + Z.of_nat i) ltac:(lia)). unfold pix in H. replace (x + Z.of_nat i <? 0) with false in H by lia.
    replace (Z.to_nat x + i)%nat with (Z.to_nat (x + Z.of_nat i)) by lia. exact H. }
  assert (Z.to_nat x + Z.to_nat (y - x) <= List.length l)%nat as Hl by (unfold zlen in Hy; lia).
  clear H Hx Hy. revert l Hn Hl. generalize (Z.to_nat (y - x)) as n, (Z.to_nat x) as k. clear x y.
  intros n k. induction k as [|k IH]; intros l Hn Hl.
  - cbn [Nat.add firstn app]. cbn [Nat.add] in *. revert l Hn Hl. induction n as [|n IHn]; intros l Hn Hl; [reflexivity|].
    destruct l as [|x l]; [cbn in Hl; lia|]. cbn [firstn repeat]. f_equal; [apply (Hn 0%nat); lia|].
    apply IHn; [|cbn in Hl; lia]. intros i Hi. apply (Hn (S i)). lia.
  - destruct l as [|x l]; [cbn in Hl; lia|]. cbn [Nat.add firstn app]. f_equal. apply IH; [|cbn in Hl; lia]. intros i Hi. apply (Hn i Hi).
Qed.

(** The least position satisfying a predicate is unique. *)
Lemma least_unique (P : Z -> Prop) w a x y : a <= x <= w -> a <= y <= w -> (x < w -> P x) -> (y < w -> P y) ->
  (forall z, a <= z < x -> ~ P z) -> (forall z, a <= z < y -> ~ P z) -> x = y.
Proof.
  intros Hx Hy Px Py Nx Ny. destruct (Z.lt_trichotomy x y) as [H|[H|H]]; auto; exfalso.
  - apply (Ny x); [lia|]. apply Px. lia.
  - apply (Nx y); [lia|]. apply Py. lia.
Qed.

Lemma stop1_iff ref black x : 0 <= x < zlen ref -> (x = 0 -> black = false) ->
  (stop1 (map col ref) (col black) x <-> changing ref x /\ pix ref x = negb black).
Proof.
  intros Hx H0. unfold stop1, changing. destruct (Z.eq_dec x 0) as [->|Hn].
  - rewrite (H0 eq_refl). change 0%nat with (Z.to_nat 0). rewrite pix_map by lia. replace (pix ref (0 - 1)) with false by reflexivity.
    destruct (pix ref 0); cbn; split.
    + intros _. split; [discriminate|reflexivity].
    + intros _. left. repeat split. discriminate.
    + intros [(_ & _ & H)|H]; [congruence|lia].
    + intros (H & _). congruence.
  - rewrite !pix_map by lia. destruct (pix ref x), (pix ref (x - 1)), black; cbn; split; intros H; try lia;
      try (split; congruence); try (destruct H; congruence); right; lia.
Qed.
Lemma stop2_iff ref black x : 0 < x < zlen ref ->
  (stop2 (map col ref) (col black) x <-> changing ref x /\ pix ref x = black).
Proof.
  intros Hx. unfold stop2, changing. rewrite !pix_map by lia.
  destruct (pix ref x), (pix ref (x - 1)), black; cbn; split; intros H; try lia; try (split; congruence); destruct H; congruence.
Qed.

Section Fax.
  Variable w : Z.
  Variable align rev : bool.
  Hypothesis Hw : 1 <= w.

  Lemma search_b1 ref a0 black b1 : zlen ref = w -> -1 <= a0 < w -> (a0 = -1 -> black = false) -> B1 ref a0 black b1 ->
    find_b1 (search_fuel w) (map col ref) (col black) (a0 + 1) = Ok b1.
  Proof.
    intros El Ha Hb (H1 & H2 & H3). assert (zlen (map col ref) = w) as Em by (unfold zlen in *; now rewrite map_length).
    destruct (find_b1_ok (search_fuel w) (map col ref) (col black) (a0 + 1)) as (b & E & G1 & G2 & G3); try lia.
    { unfold search_fuel. lia. }
    rewrite E. f_equal. symmetry. rewrite Em in *. apply (least_unique (stop1 (map col ref) (col black)) w (a0 + 1)); try lia; auto.
    - intros Hlt. apply stop1_iff; [lia|intros ->; apply Hb; lia|apply H2; lia].
    - intros z Hz. rewrite stop1_iff; [apply H3; lia|lia|]. intros ->. apply Hb. lia.
  Qed.
  Lemma search_b2 ref a0 black b1 b2 : zlen ref = w -> -1 <= a0 < w -> (a0 = -1 -> black = false) -> B1 ref a0 black b1 -> After ref b1 b2 ->
    find_b2 (search_fuel w) (map col ref) (col black) b1 = Ok b2 /\ b1 <= b2 <= w.
  Proof.
    intros El Ha Hb (H1 & H2 & H3) HA. assert (zlen (map col ref) = w) as Em by (unfold zlen in *; now rewrite map_length).
    destruct (find_b2_ok (search_fuel w) (map col ref) (col black) b1) as (b & E & G1 & G1' & G2 & G3); try lia.
    { intros ->. rewrite Hb by lia. reflexivity. }
    { unfold search_fuel. lia. }
    rewrite E. rewrite Em in *. destruct HA as [(A1 & ->)|(A1 & A2 & A3)]; [split; [f_equal; lia|lia]|]. split; [|lia]. f_equal. symmetry.
    assert (pix ref b1 = negb black) as Hp by (apply H2; lia).
    assert (forall y, b1 <= y < b2 -> pix ref y = negb black) as Hc.
    { intros y Hy. rewrite <- Hp. apply (const_run ref b1 b2); try lia. intros z Hz Hch. apply (A3 z Hz). split; [auto|exact I]. }
    apply (least_unique (stop2 (map col ref) (col black)) w b1); try lia; auto.
    - intros Hlt. apply stop2_iff; try lia. destruct (A2 ltac:(lia)) as (Hch & _). split; [exact Hch|].
      unfold changing in Hch. rewrite (Hc (b2 - 1)) in Hch by lia. destruct (pix ref b2), black; auto; elim Hch; reflexivity.
    - intros z Hz. destruct (Z.eq_dec z 0) as [->|]; [unfold stop2; lia|]. rewrite stop2_iff by lia. rewrite Hc by lia. destruct black; intros (_ & ?); discriminate.
  Qed.

  (** *** The state inside a line *)
  Record line (s : g4) (ref cur : list bool) (a0 : Z) (buf : list Z) : Prop := mkLine {
    l_ref : g_ref s = map col ref; l_len : zlen (g_cur s) = w; l_pos : g_pos s = a0; l_buf : g_buf s = buf;
    l_pre : firstn (Z.to_nat a0) (g_cur s) = map col (firstn (Z.to_nat a0) cur) }.

  Lemma fill_line g cur a0 a1 black : zlen g = w -> zlen cur = w -> -1 <= a0 < a1 -> a1 <= w ->
    firstn (Z.to_nat a0) g = map col (firstn (Z.to_nat a0) cur) -> (forall y, a0 <= y < a1 -> pix cur y = black) ->
    let x0 := Z.max 0 a0 in
    exists g', fill (Z.to_nat (a1 - x0)) g x0 (col black) = Ok g' /\ zlen g' = w /\ firstn (Z.to_nat a1) g' = map col (firstn (Z.to_nat a1) cur).
  Proof.
    intros Hg Hc Ha H1 Hp Hb x0. destruct (fill_at g x0 (a1 - x0) (col black)) as (a & b & c & -> & Ea & Eb & ->); try lia.
    eexists. split; [reflexivity|]. split.
    - rewrite !zlen_app in *. unfold zlen at 2. rewrite repeat_length. lia.
    - rewrite (firstn_const cur black x0 a1) by (try lia; intros; apply Hb; lia). rewrite map_app, map_repeat.
      replace (Z.to_nat a0) with (Z.to_nat x0) in Hp by lia.
      assert (Z.to_nat x0 = List.length a) as Ex by (unfold zlen in Ea; lia).
      rewrite Ex, firstn_app, Nat.sub_diag, firstn_O, app_nil_r, firstn_all in Hp.
      rewrite app_assoc. rewrite firstn_app.
      rewrite (firstn_all2 (a ++ repeat (col black) (Z.to_nat (a1 - x0)))) by (rewrite app_length, repeat_length; lia).
      rewrite app_length, repeat_length. replace (Z.to_nat a1 - (List.length a + Z.to_nat (a1 - x0)))%nat with 0%nat by lia.
      rewrite firstn_O, app_nil_r. congruence.
  Qed.
  Lemma run_line g cur a0 a1 black : zlen g = w -> zlen cur = w -> 0 <= a0 <= a1 -> a1 <= w ->
    firstn (Z.to_nat a0) g = map col (firstn (Z.to_nat a0) cur) -> (forall y, a0 <= y < a1 -> pix cur y = black) ->
    exists g', run (Z.to_nat (a1 - a0)) g a0 (col black) = Ok (g', a1) /\ zlen g' = w /\ firstn (Z.to_nat a1) g' = map col (firstn (Z.to_nat a1) cur).
  Proof.
    intros Hg Hc Ha H1 Hp Hb. destruct (split_at g a0 (w - a0)) as (a & b & c & -> & Ea & Eb); try lia.
    replace a0 with (zlen a). rewrite run_ok. rewrite Ea.
    assert (List.length (b ++ c) = Z.to_nat (w - a0)) as Lb by (rewrite !zlen_app in Hg; rewrite app_length; unfold zlen in *; lia).
    rewrite Nat.min_l by lia. replace (a0 + Z.of_nat (Z.to_nat (a1 - a0))) with a1 by lia.
    eexists. split; [reflexivity|]. split.
    - rewrite zlen_app. unfold zlen in *. rewrite app_length, repeat_length, skipn_length. lia.
    - rewrite (firstn_const cur black a0 a1) by (try lia; intros; apply Hb; lia). rewrite map_app, map_repeat.
      assert (Z.to_nat a0 = List.length a) as Ex by (unfold zlen in Ea; lia).
      rewrite Ex, firstn_app, Nat.sub_diag, firstn_O, app_nil_r, firstn_all in Hp.
      rewrite app_assoc. rewrite firstn_app.
      rewrite (firstn_all2 (a ++ repeat (col black) (Z.to_nat (a1 - a0)))) by (rewrite app_length, repeat_length; lia).
      rewrite app_length, repeat_length. replace (Z.to_nat a1 - (List.length a + Z.to_nat (a1 - a0)))%nat with 0%nat by lia.
      rewrite firstn_O, app_nil_r. congruence.
  Qed.

  (** *** Modes *)
  Lemma vertical_line s ref cur a0 black a1 b1 buf : zlen ref = w -> zlen cur = w -> -1 <= a0 < w -> (a0 = -1 -> black = false) ->
    pix cur a0 = black -> line s ref cur a0 buf -> g_color s = col black -> A1 cur a0 a1 -> B1 ref a0 black b1 ->
    exists s', do_vertical w s (a1 - b1) = Ok s' /\ line s' ref cur a1 buf /\ g_color s' = col (negb black) /\ g_acc s' = g_acc s.
  Proof.
    intros Hr Hc Ha Hf Hp [L1 L2 L3 L4 L5] HC (A1' & A2 & A3) HB. unfold do_vertical.
    rewrite L1, HC, L3, (search_b1 ref a0 black b1) by auto. cbn [rbind].
    replace (b1 + (a1 - b1)) with a1 by lia. rewrite Hc in *. replace (Z.max 0 (Z.min w a1)) with a1 by lia.
    assert (forall y, a0 <= y < a1 -> pix cur y = black) as Hb.
    { intros y Hy. rewrite <- Hp. apply (const_run cur a0 a1); try lia. intros z Hz Hch. apply (A3 z Hz). split; [auto|exact I]. }
    destruct (fill_line (g_cur s) cur a0 a1 black) as (g' & F1 & F2 & F3); auto; try lia.
    replace (a1 <? Z.max 0 a0) with false by lia.
    assert ((if Z.max 0 a0 <? a1 then fill (Z.to_nat (a1 - Z.max 0 a0)) (g_cur s) (Z.max 0 a0) (col black) else Ok (g_cur s)) = Ok g') as ->.
    { destruct (Z.max 0 a0 <? a1) eqn:E; [exact F1|]. replace (Z.to_nat (a1 - Z.max 0 a0)) with 0%nat in F1 by lia. exact F1. }
    cbn [rbind]. eexists. split; [reflexivity|]. split; [constructor; gs; auto|]. split; [|reflexivity]. gs. apply col_neg.
  Qed.

  Lemma pass_line s ref cur a0 black a1 b1 b2 buf : zlen ref = w -> zlen cur = w -> -1 <= a0 < w -> (a0 = -1 -> black = false) ->
    pix cur a0 = black -> line s ref cur a0 buf -> g_color s = col black -> A1 cur a0 a1 -> B1 ref a0 black b1 -> After ref b1 b2 -> b2 < a1 ->
    exists s', do_pass w s = Ok s' /\ line s' ref cur b2 buf /\ g_color s' = col black /\ g_acc s' = g_acc s /\ pix cur b2 = black /\ a0 < b2 < w.
  Proof.
    intros Hr Hc Ha Hf Hp [L1 L2 L3 L4 L5] HC (A1' & A2 & A3) HB HA Hlt. unfold do_pass.
    destruct (search_b2 ref a0 black b1 b2 Hr Ha Hf HB HA) as (E2 & Hb12).
    rewrite L1, HC, L3, (search_b1 ref a0 black b1) by auto. cbn [rbind]. rewrite E2. cbn [rbind]. destruct HB as (B1' & _).
    rewrite Hc in *.
    assert (forall y, a0 <= y < a1 -> pix cur y = black) as Hb.
    { intros y Hy. rewrite <- Hp. apply (const_run cur a0 a1); try lia. intros z Hz Hch. apply (A3 z Hz). split; [auto|exact I]. }
    assert (exists g', fill (Z.to_nat (b2 - a0)) (g_cur s) a0 (col black) = Ok g' /\ zlen g' = w /\ firstn (Z.to_nat b2) g' = map col (firstn (Z.to_nat b2) cur)) as (g' & F1 & F2 & F3).
    { destruct (Z.eq_dec a0 (-1)) as [->|Hn].
      - destruct (split_last (g_cur s)) as (a & x & E); [lia|]. replace (Z.to_nat (b2 - -1)) with (S (Z.to_nat b2)) by lia. cbn [fill]. rewrite E, aset_last. cbn [rbind].
        change (-1 + 1) with 0.
        destruct (fill_line (a ++ [col black]) cur (-1) b2 black) as (g' & F); [rewrite E in L2; rewrite zlen_app in *; exact L2|exact Hc|lia|lia|reflexivity| |].
        + intros y Hy. apply Hb. lia.
        + exists g'. cbn [Z.max] in F. rewrite Z.sub_0_r in F. exact F.
      - destruct (fill_line (g_cur s) cur a0 b2 black) as (g' & F); [exact L2|exact Hc|lia|lia|exact L5| |].
        + intros y Hy. apply Hb. lia.
        + exists g'. rewrite Z.max_r in F by lia. exact F. }
    rewrite F1. cbn [rbind]. eexists. split; [reflexivity|]. split; [constructor; gs; auto|]. split; [gs; auto|]. split; [reflexivity|].
    split; [apply Hb; lia|lia].
  Qed.

  Lemma horizontal_line s ref cur a0 black a1 a2 buf : zlen ref = w -> zlen cur = w -> -1 <= a0 < w ->
    pix cur a0 = black -> line s ref cur a0 buf -> g_color s = col black -> A1 cur a0 a1 -> After cur a1 a2 ->
    exists s', do_horizontal s (a1 - Z.max 0 a0) (a2 - a1) = Ok s' /\ line s' ref cur a2 buf /\ g_color s' = col black /\ g_acc s' = g_acc s /\
      (a2 < w -> pix cur a2 = black) /\ a0 < a2 <= w.
  Proof.
    intros Hr Hc Ha Hp [L1 L2 L3 L4 L5] HC (A1' & A2 & A3) HA. unfold do_horizontal. rewrite Hc in *. rewrite L3, HC.
    replace (if a0 <? 0 then 0 else a0) with (Z.max 0 a0) by (destruct (a0 <? 0) eqn:E; lia).
    assert (forall y, a0 <= y < a1 -> pix cur y = black) as Hb.
    { intros y Hy. rewrite <- Hp. apply (const_run cur a0 a1); try lia. intros z Hz Hch. apply (A3 z Hz). split; [auto|exact I]. }
    replace (Z.to_nat a0) with (Z.to_nat (Z.max 0 a0)) in L5 by lia.
    destruct (run_line (g_cur s) cur (Z.max 0 a0) a1 black) as (g1 & R1 & R2 & R3); [exact L2|exact Hc|lia|lia|exact L5|intros y Hy; apply Hb; lia|].
    rewrite R1. cbn [rbind]. rewrite col_neg.
    assert (a1 <= a2 <= w) as H12 by (destruct HA as [(? & ->)|(? & _)]; lia).
    assert (forall y, a1 <= y < a2 -> pix cur y = negb black) as Hb2.
    { intros y Hy. destruct HA as [(? & ->)|(N1 & N2 & N3)]; [lia|]. 
      rewrite (const_run cur a1 a2); try lia.
      - destruct (A2 ltac:(lia)) as (Hch & _). unfold changing in Hch. rewrite (Hb (a1 - 1)) in Hch by lia. destruct (pix cur a1), black; auto; elim Hch; reflexivity.
      - intros z Hz Hch. apply (N3 z Hz). split; [auto|exact I]. }
    destruct (run_line g1 cur a1 a2 (negb black)) as (g2 & S1 & S2 & S3); auto; try lia.
    rewrite S1. cbn [rbind]. eexists. split; [reflexivity|]. split; [constructor; gs; auto|]. split; [gs; auto|]. split; [reflexivity|].
    split; [|lia]. intros Hlt. destruct HA as [(? & ->)|(N1 & N2 & N3)]; [lia|]. destruct (N2 ltac:(lia)) as (Hch & _). unfold changing in Hch.
    destruct (Z.eq_dec a1 a2); [lia|]. rewrite (Hb2 (a2 - 1)) in Hch by lia. destruct (pix cur a2), black; auto; elim Hch; reflexivity.
  Qed.
End Fax.
