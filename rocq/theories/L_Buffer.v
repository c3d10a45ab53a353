From Verif Require Import Prelude M_Prog M_Buffer S_Buffer.
Local Open Scope Z_scope.

Lemma znth_slice f a b i : 0 <= a -> 0 <= i < b - a -> znth (slice f a b) i = znth f (a + i).
Proof.
  intros Ha Hi. unfold znth, slice.
  destruct (i <? 0) eqn:E1; [lia|]. destruct (a + i <? 0) eqn:E2; [lia|].
  rewrite <- (firstn_skipn (Z.to_nat a) f) at 2.
  destruct (le_lt_dec (length f) (Z.to_nat a)) as [H|H].
  - rewrite (skipn_all2 f H), firstn_nil, app_nil_r.
    rewrite firstn_all2 by lia.
    replace (nth_error (@nil Z) (Z.to_nat i)) with (@None Z) by now destruct (Z.to_nat i).
    symmetry; apply nth_error_None; lia.
  - rewrite nth_error_app2 by (rewrite firstn_length; lia).
    rewrite firstn_length, Nat.min_l by lia.
    replace (Z.to_nat (a + i) - Z.to_nat a)%nat with (Z.to_nat i) by lia.
    set (l := skipn (Z.to_nat a) f). 
    assert (Z.to_nat i < Z.to_nat (b - a))%nat as Hlt by lia.
    clearbody l. revert Hlt. generalize (Z.to_nat i) (Z.to_nat (b - a)). clear.
    induction l as [|x l IH]; intros [|i] [|n] H; simpl; auto; try lia. apply IH; lia.
Qed.

Lemma zlen_slice (f : list Z) a b : 0 <= a -> a <= b -> zlen (slice f a b) = Z.max 0 (Z.min b (zlen f) - a).
Proof. intros. unfold slice, zlen. rewrite firstn_length, skipn_length. lia. Qed.

Lemma slice_app (f : list Z) a b c : 0 <= a -> a <= b -> b <= c -> slice f a b ++ slice f b c = slice f a c.
Proof.
  intros Ha Hb Hc. unfold slice.
  assert (forall n m (l : list Z), skipn n (skipn m l) = skipn (m + n) l) as Hss.
  { intros n m. induction m as [|m IH]; intros [|x l]; simpl; auto. now rewrite skipn_nil. }
  replace (skipn (Z.to_nat b) f) with (skipn (Z.to_nat (b - a)) (skipn (Z.to_nat a) f))
    by (rewrite Hss; f_equal; lia).
  set (l := skipn (Z.to_nat a) f).
  replace (Z.to_nat (c - a)) with (Z.to_nat (b - a) + Z.to_nat (c - b))%nat by lia.
  generalize (Z.to_nat (b - a)) (Z.to_nat (c - b)). clearbody l. clear.
  intros n m. revert l. induction n as [|n IH]; intros [|x l]; simpl; auto.
  - now rewrite firstn_nil.
  - now rewrite IH.
Qed.

Lemma slice_clip (f : list Z) a b : 0 <= a -> slice f a b = slice f a (Z.min b (Z.max a (zlen f))).
Proof.
  intros. unfold slice, zlen. destruct (Z.le_gt_cases b (Z.max a (Z.of_nat (length f)))).
  - now rewrite Z.min_l.
  - rewrite Z.min_r by lia. rewrite !firstn_all2; rewrite ?skipn_length; auto; lia.
Qed.

Lemma slice_nil (f : list Z) a b : 0 <= a -> a <= b -> (slice f a b = [] <-> b <= a \/ zlen f <= a).
Proof.
  intros Ha Hab. pose proof (zlen_slice f a b Ha Hab) as E. pose proof (zlen_nonneg f).
  split; intro H1.
  - rewrite H1, zlen_nil in E. lia.
  - destruct (slice f a b); auto. rewrite zlen_cons in E. pose proof (zlen_nonneg l). lia.
Qed.

Lemma znth_None f p : znth f p = None <-> p < 0 \/ zlen f <= p.
Proof.
  unfold znth, zlen. destruct (p <? 0) eqn:E; [split; auto; lia|].
  rewrite nth_error_None. lia.
Qed.

Lemma znth_Some_range f p c : znth f p = Some c -> 0 <= p < zlen f.
Proof.
  intro H. destruct (Z.lt_ge_cases p 0); [|destruct (Z.lt_ge_cases p (zlen f)); [lia|]];
    assert (znth f p = None) by (apply znth_None; lia); congruence.
Qed.

(** Representation invariant: the buffer [b] at logical position [p] in session [v]. *)
Inductive rep (f : list Z) (B : Z) (v : sess) (p : Z) (b : buf) : Prop :=
| rep_mid : (* only the block loaded by the reset *)
    0 <= s_base v -> s_base v <= s_end v ->
    s_back v = false ->
    (s_base v > zlen f -> s_end v = s_base v) ->
    (s_past v = true -> zlen f <= s_end v /\ zlen f <= s_base v + B) ->
    (s_fok v = true -> s_end v = s_base v + B \/ (zlen f <= s_end v /\ zlen f <= s_base v + B)) ->
    (s_past v = false -> p <= s_end v) ->
    s_base v - 1 <= p ->
    (s_base v <= zlen f -> s_end v <= zlen f) ->
    (s_past v = false -> p < s_base v -> s_base v <= zlen f) ->
    b = mkBuf (s_base v) (p - s_base v) (slice f (s_base v) (s_end v)) ->
    rep f B v p b
| rep_fwd E lbo : (* blocks after it appended *)
    0 <= s_base v -> s_base v <= s_end v ->
    s_back v = false -> s_past v = true ->
    s_end v <= E -> E <= zlen f -> lbo + B = E \/ (E = zlen f /\ E <= lbo + B) ->
    0 <= lbo ->
    (p <= E \/ E = zlen f) -> s_base v - 1 <= p ->
    b = mkBuf lbo (p - s_base v) (slice f (s_base v) E) ->
    rep f B v p b
| rep_bwd lbo : (* blocks before it prepended *)
    s_base v <= s_end v -> s_end v <= zlen f ->
    s_back v = true ->
    0 <= lbo -> lbo <= s_base v ->
    s_past v = false ->
    (lbo - 1 <= p \/ lbo = 0) -> p <= s_end v ->
    b = mkBuf lbo (p - lbo) (slice f lbo (s_end v)) ->
    rep f B v p b.

Lemma b_eq l i d l' i' d' : l = l' -> i = i' -> d = d' -> mkBuf l i d = mkBuf l' i' d'.
Proof. intros; subst; auto. Qed.

Lemma py_index_slice f a b i c :
  0 <= a -> 0 <= i < b - a -> b <= zlen f -> znth f (a + i) = c ->
  exists x, c = Some x /\ py_index (slice f a b) i = Ok x.
Proof.
  intros Ha Hi Hb Hc. unfold py_index. destruct (i <? 0) eqn:E; [lia|].
  rewrite (znth_slice f a b i Ha Hi), Hc.
  destruct c as [x|]; [eauto|]. apply znth_None in Hc. lia.
Qed.

Lemma reset_rep f B o : 0 < B -> rep f B (sess_reset f B o) (reset_pos f o) (b_reset f B o).
Proof.
  intros HB. unfold sess_reset, reset_pos, b_reset. pose proof (zlen_nonneg f).
  destruct (0 <=? o) eqn:E.
  - apply rep_mid; cbn [s_base s_end s_fok s_back s_past]; try lia; try discriminate.
    unfold read_head, fread. apply b_eq; try lia.
    rewrite slice_clip by lia. f_equal; lia.
  - apply rep_mid; cbn [s_base s_end s_fok s_back s_past]; try lia; try discriminate.
    unfold read_tail, fread.
    assert (slice f (Z.max 0 (zlen f + o)) (Z.max 0 (zlen f + o) + zlen f) =
            slice f (Z.max 0 (zlen f + o)) (zlen f)) as Hs.
    { rewrite slice_clip by lia. f_equal. lia. }
    apply b_eq; auto. rewrite Hs, zlen_slice by lia. lia.
Qed.

(** One read: the byte is right, and the buffer keeps representing the same position, with
    enough loaded that a step either way is fine. *)
Lemma current_rep f B v p b :
  0 < B -> rep f B v p b -> one_way (visit v p) ->
  exists b', b_current f B b = Ok (znth f p, b') /\
             rep f B (visit v p) p b' /\
             rep f B (visit v p) (p + 1) (move b' 1) /\
             rep f B (visit v p) (p - 1) (move b' (-1)).
Proof.
  intros HB R [W1 W2]. pose proof (zlen_nonneg f) as HL.
  unfold visit, move in *. destruct v as [r e fok bk pa]; cbn [s_base s_end s_fok s_back s_past] in *.
  destruct R as [H0 H1 H2 H3 H4 H5 H6 H7 H8 H9 Hb | E lbo H0 H1 H2 H3 H4 H5 H6 H7 H8 H9 Hb
                | lbo H0 H1 H2 H3 H4 H5 H6 H7 Hb]; cbn [s_base s_end s_fok s_back s_past] in *.
  - (* mid *)
    subst bk b. cbn [orb] in *. unfold b_current. cbn [b_data b_index b_lbo].
    destruct (Z.le_gt_cases e p) as [Hp|Hp].
    + (* past the block *)
      replace (zlen (slice f r e) <=? p - r) with true
        by (rewrite zlen_slice by lia; lia).
      assert (fok = true) as -> by (apply W2; lia).
      unfold read_forward. cbn [b_data b_index b_lbo]. unfold fread.
      replace (pa || (e <=? p)) with true in * by lia.
      assert ((p <? r) = false) as Hb by lia. rewrite Hb in *.
      specialize (H5 eq_refl).
      destruct (slice f (r + B) (r + B + B)) as [|x d] eqn:Ed.
      * (* EOF *)
        apply slice_nil in Ed; [|lia|lia].
        exists (mkBuf r (p - r) (slice f r e)).
        assert (zlen f <= e) by (destruct H5; lia).
        replace (znth f p) with (@None Z) by (symmetry; apply znth_None; lia).
        repeat split; auto;
        apply rep_mid; cbn [s_base s_end s_fok s_back s_past move b_lbo b_index b_data];
          try lia; try discriminate; try (apply b_eq; auto; lia).
      * assert (~ (slice f (r + B) (r + B + B) = [])) as Hn by (rewrite Ed; discriminate).
        rewrite (slice_nil f (r+B) (r+B+B)) in Hn by lia.
        assert (pa = false) as -> by (destruct pa; auto; specialize (H4 eq_refl); lia).
        assert (e = r + B) as -> by lia.
        rewrite <- Ed.
        assert (p = r + B) as -> by (specialize (H6 eq_refl); lia).
        rewrite slice_app by lia.
        rewrite (slice_clip f r) by lia.
        set (E := Z.min (r + B + B) (Z.max r (zlen f))).
        destruct (py_index_slice f r E (r + B - r) (znth f (r + B))) as [y [Hy Hpy]]; try lia.
        { f_equal; lia. }
        assert (zlen (slice f (r + B) (r + B + B)) = E - (r + B)) as HE by (rewrite zlen_slice; lia).
        rewrite HE. cbn [b_data b_index]. rewrite Hpy, Hy.
        eexists. split; [reflexivity|]. cbn [move b_lbo b_index b_data].
        repeat split; apply (rep_fwd _ _ _ _ _ E (r + (E - (r + B))));
          cbn [s_base s_end s_fok s_back s_past]; try lia; apply b_eq; auto; lia.
    + assert (r <= zlen f).
      { destruct (Z.le_gt_cases r (zlen f)); auto. specialize (H3 ltac:(lia)). subst e.
        destruct pa; [exfalso; apply W1; lia|]. specialize (H9 eq_refl). lia. }
      specialize (H8 ltac:(lia)).
      replace (zlen (slice f r e) <=? p - r) with false
        by (rewrite zlen_slice by lia; lia).
      replace (e <=? p) with false in * by lia. rewrite orb_false_r in *.
      destruct (p - r <? 0) eqn:Hpr.
      * unfold read_backward. cbn [b_data b_index b_lbo].
        replace (p <? r) with true in * by lia.
        assert (pa = false) as -> by (destruct pa; auto; exfalso; auto).
        assert (p = r - 1) as -> by lia.
        destruct (r =? 0) eqn:Hr.
        -- eexists. split; [f_equal; f_equal; symmetry; apply znth_None; lia|].
           cbn [move b_lbo b_index b_data].
           repeat split; apply (rep_bwd _ _ _ _ _ r);  cbn [s_base s_end s_fok s_back s_past]; try lia; try discriminate; auto; apply b_eq; auto; lia.
        -- unfold fread. set (lbo := r - Z.min r B).
           replace (lbo + Z.min r B) with r by lia.
           assert (zlen (slice f lbo r) = r - lbo) as Hz by (rewrite zlen_slice; lia).
           rewrite Hz, slice_app by lia. cbn [b_data b_index].
           destruct (py_index_slice f lbo e (r - lbo + (r - 1 - r)) (znth f (r - 1))) as [y [Hy Hpy]]; try lia.
           { f_equal; lia. }
           rewrite Hpy, Hy. eexists. split; [reflexivity|].
           cbn [move b_lbo b_index b_data].
           repeat split; apply (rep_bwd _ _ _ _ _ lbo);  cbn [s_base s_end s_fok s_back s_past]; try lia; auto; apply b_eq; auto; lia.
      * replace (p <? r) with false in * by lia. cbn [b_data b_index].
        destruct (py_index_slice f r e (p - r) (znth f p)) as [y [Hy Hpy]]; try lia.
        { f_equal; lia. }
        rewrite Hpy, Hy. eexists. split; [reflexivity|].
        cbn [move b_lbo b_index b_data].
        repeat split; apply rep_mid;  cbn [s_base s_end s_fok s_back s_past]; try lia; auto; apply b_eq; auto; lia.
  - (* fwd *)
    subst bk pa b. cbn [orb] in *. unfold b_current. cbn [b_data b_index b_lbo].
    assert ((p <? r) = false) as Hb by (destruct (p <? r); auto; exfalso; auto).
    rewrite Hb in *.
    rewrite zlen_slice by lia. replace (Z.max 0 (Z.min E (zlen f) - r)) with (E - r) by lia.
    destruct (Z.le_gt_cases E p) as [Hp|Hp].
    + replace (E - r <=? p - r) with true by lia.
      unfold read_forward. cbn [b_data b_index b_lbo]. unfold fread.
      destruct (slice f (lbo + B) (lbo + B + B)) as [|x d] eqn:Ed.
      * apply slice_nil in Ed; [|lia|lia].
        exists (mkBuf lbo (p - r) (slice f r E)).
        replace (znth f p) with (@None Z) by (symmetry; apply znth_None; lia).
        cbn [move b_lbo b_index b_data].
        repeat split; apply (rep_fwd _ _ _ _ _ E lbo);
          cbn [s_base s_end s_fok s_back s_past]; try lia; auto; apply b_eq; auto; lia.
      * assert (~ (slice f (lbo + B) (lbo + B + B) = [])) as Hn by (rewrite Ed; discriminate).
        rewrite (slice_nil f (lbo+B) (lbo+B+B)) in Hn by lia.
        rewrite <- Ed.
        assert (lbo + B = E) as HE1 by lia. rewrite HE1.
        assert (p = E) as -> by lia.
        rewrite slice_app by lia.
        rewrite (slice_clip f r) by lia.
        set (E' := Z.min (E + B) (Z.max r (zlen f))).
        destruct (py_index_slice f r E' (E - r) (znth f E)) as [y [Hy Hpy]]; try lia.
        { f_equal; lia. }
        assert (zlen (slice f E (E + B)) = E' - E) as HE by (rewrite zlen_slice; lia).
        rewrite HE. cbn [b_data b_index]. rewrite Hpy, Hy.
        eexists. split; [reflexivity|]. cbn [move b_lbo b_index b_data].
        repeat split; apply (rep_fwd _ _ _ _ _ E' (lbo + (E' - E)));
          cbn [s_base s_end s_fok s_back s_past]; try lia; apply b_eq; auto; lia.
    + replace (E - r <=? p - r) with false by lia.
      replace (p - r <? 0) with false by lia. cbn [b_data b_index].
      destruct (py_index_slice f r E (p - r) (znth f p)) as [y [Hy Hpy]]; try lia.
      { f_equal; lia. }
      rewrite Hpy, Hy. eexists. split; [reflexivity|].
      cbn [move b_lbo b_index b_data].
      repeat split; apply (rep_fwd _ _ _ _ _ E lbo);
        cbn [s_base s_end s_fok s_back s_past]; try lia; apply b_eq; auto; lia.
  - (* bwd *)
    subst bk pa b. cbn [orb] in *. unfold b_current. cbn [b_data b_index b_lbo].
    assert ((e <=? p) = false) as He by (destruct (e <=? p); auto; exfalso; auto).
    rewrite He in *.
    rewrite zlen_slice by lia. replace (Z.max 0 (Z.min e (zlen f) - lbo)) with (e - lbo) by lia.
    replace (e - lbo <=? p - lbo) with false by lia.
    destruct (p - lbo <? 0) eqn:Hpr.
    + unfold read_backward. cbn [b_data b_index b_lbo].
      destruct (lbo =? 0) eqn:Hr.
      * eexists. split; [f_equal; f_equal; symmetry; apply znth_None; lia|].
        cbn [move b_lbo b_index b_data].
        repeat split; apply (rep_bwd _ _ _ _ _ lbo);  cbn [s_base s_end s_fok s_back s_past]; try lia; auto; apply b_eq; auto; lia.
      * assert (p = lbo - 1) as -> by lia.
        unfold fread. set (l2 := lbo - Z.min lbo B).
        replace (l2 + Z.min lbo B) with lbo by lia.
        assert (zlen (slice f l2 lbo) = lbo - l2) as Hz by (rewrite zlen_slice; lia).
        rewrite Hz, slice_app by lia. cbn [b_data b_index].
        destruct (py_index_slice f l2 e (lbo - l2 + (lbo - 1 - lbo)) (znth f (lbo - 1))) as [y [Hy Hpy]]; try lia.
        { f_equal; lia. }
        rewrite Hpy, Hy. eexists. split; [reflexivity|].
        cbn [move b_lbo b_index b_data].
        repeat split; apply (rep_bwd _ _ _ _ _ l2);  cbn [s_base s_end s_fok s_back s_past]; try lia; auto; apply b_eq; auto; lia.
    + cbn [b_data b_index].
      destruct (py_index_slice f lbo e (p - lbo) (znth f p)) as [y [Hy Hpy]]; try lia.
      { f_equal; lia. }
      rewrite Hpy, Hy. eexists. split; [reflexivity|].
      cbn [move b_lbo b_index b_data].
      repeat split; apply (rep_bwd _ _ _ _ _ lbo);
        cbn [s_base s_end s_fok s_back s_past]; try lia; apply b_eq; auto; lia.
Qed.

(** Concrete and abstract states match. *)
Definition sim {U} f B (s : ast U) (c : cst U) (v : sess) (vs : list sess) : Prop :=
  rep f B v (a_pos s) (c_buf c) /\
  length (a_store s) = length vs /\ length (c_store c) = length vs /\
  (forall h q w b, nth_error (a_store s) h = Some q -> nth_error vs h = Some w ->
                   nth_error (c_store c) h = Some b -> rep f B w q b) /\
  a_usr s = c_usr c.

Lemma nth_error_snoc {A} (l : list A) x h :
  nth_error (l ++ [x]) h =
  if (h <? length l)%nat then nth_error l h else if (h =? length l)%nat then Some x else None.
Proof.
  destruct (h <? length l)%nat eqn:E1; [apply nth_error_app1; lia|].
  rewrite nth_error_app2 by lia.
  destruct (h =? length l)%nat eqn:E2.
  - replace (h - length l)%nat with 0%nat by lia. auto.
  - destruct (h - length l)%nat as [|n] eqn:E; [lia|]. now destruct n.
Qed.

Theorem simulation {U A} f B (p : prog U A) : 0 < B ->
  forall s c v vs, sim f B s c v vs -> disciplined f B p s v vs ->
  exists v' vs', fst (crun f B p c) = fst (arun f p s) /\
                 sim f B (snd (arun f p s)) (snd (crun f B p c)) v' vs'.
Proof.
  intros HB. induction p as [a|e|k IH|k IH|k IH|o k IH|k IH|h k IH|k IH|k IH|u k IH];
    intros s c v vs Hs Hd; cbn [disciplined arun crun] in *.
  - eauto.
  - eauto.
  - destruct Hd as [W Hd]. destruct Hs as (R & L1 & L2 & St & Us).
    destruct (current_rep f B v (a_pos s) (c_buf c) HB R W) as (b' & -> & R0 & _ & _).
    apply (IH _ _ _ (visit v (a_pos s)) vs); auto. repeat split; auto.
  - destruct Hd as [W Hd]. destruct Hs as (R & L1 & L2 & St & Us).
    destruct (current_rep f B v (a_pos s) (c_buf c) HB R W) as (b' & -> & _ & R0 & _).
    apply (IH _ _ _ (visit v (a_pos s)) vs); auto. repeat split; auto.
  - destruct Hd as [W Hd]. destruct Hs as (R & L1 & L2 & St & Us).
    destruct (current_rep f B v (a_pos s) (c_buf c) HB R W) as (b' & -> & _ & _ & R0).
    apply (IH _ _ _ (visit v (a_pos s)) vs); auto. repeat split; auto.
  - destruct Hs as (R & L1 & L2 & St & Us).
    apply (IH _ _ (sess_reset f B o) vs); auto. repeat split; auto. apply reset_rep; auto.
  - destruct Hs as (R & L1 & L2 & St & Us).
    replace (length (c_store c)) with (length (a_store s)) by congruence.
    apply (IH _ _ _ v (vs ++ [v])); auto.
    repeat split; cbn [a_pos a_store a_usr c_buf c_store c_usr]; rewrite ?app_length; cbn [length]; auto; try congruence.
    intros h q w b Hq Hw Hb. rewrite nth_error_snoc in Hq; rewrite nth_error_snoc in Hw; rewrite nth_error_snoc in Hb.
    rewrite L1 in Hq. rewrite L2 in Hb.
    destruct (h <? length vs)%nat; [eapply St; eauto|].
    destruct (h =? length vs)%nat; congruence.
  - destruct Hs as (R & L1 & L2 & St & Us).
    destruct (nth_error (a_store s) h) as [q|] eqn:Eq.
    + assert (h < length vs)%nat as Hlt by (rewrite <- L1; apply nth_error_Some; congruence).
      destruct (nth_error vs h) as [w|] eqn:Ew; [|apply nth_error_None in Ew; lia].
      destruct (nth_error (c_store c) h) as [b|] eqn:Eb; [|apply nth_error_None in Eb; lia].
      apply (IH _ _ w vs); auto. repeat split; auto. eapply St; eauto.
    + assert (nth_error (c_store c) h = None) as ->.
      { apply nth_error_None. apply nth_error_None in Eq. lia. }
      exists v, vs. repeat split; auto.
  - destruct Hd as [W Hd]. destruct Hs as (R & L1 & L2 & St & Us).
    assert (b_index (c_buf c) = a_pos s) as Hi.
    { destruct R; match goal with H : c_buf c = _ |- _ => rewrite H end; cbn [b_index]; lia. }
    rewrite Hi. apply (IH _ _ _ v vs); auto. repeat split; auto.
  - destruct Hs as (R & L1 & L2 & St & Us). rewrite Us in Hd |- *.
    apply (IH _ _ _ v vs); auto. repeat split; auto.
  - destruct Hs as (R & L1 & L2 & St & Us). apply (IH _ _ v vs); auto. repeat split; auto.
Qed.

Corollary simulation_fresh {U A} f B (p : prog U A) o u : 0 < B ->
  disciplined f B p (mkA (reset_pos f o) [] u) (sess_reset f B o) [] ->
  fst (crun f B p (mkC (b_reset f B o) [] u)) = fst (arun f p (mkA (reset_pos f o) [] u)) /\
  c_usr (snd (crun f B p (mkC (b_reset f B o) [] u))) = a_usr (snd (arun f p (mkA (reset_pos f o) [] u))).
Proof.
  intros HB Hd.
  destruct (simulation f B p HB (mkA (reset_pos f o) [] u) (mkC (b_reset f B o) [] u)
              (sess_reset f B o) []) as (v' & vs' & H1 & H2); auto.
  - repeat split; cbn; auto; [apply reset_rep; auto|]. intros [|?]; discriminate.
  - split; auto. destruct H2 as (_ & _ & _ & _ & H2); auto.
Qed.

(** forward_only programs are disciplined for every block size. *)
Lemma forward_disciplined {U A} f B (p : prog U A) : 0 < B ->
  forall s v vs b bs_,
    s_base v = b -> s_fok v = true -> s_back v = false ->
    length vs = length bs_ ->
    (forall h w b', nth_error vs h = Some w -> nth_error bs_ h = Some b' ->
        s_base w = b' /\ s_fok w = true /\ s_back w = false) ->
    forward_only f p s b bs_ -> disciplined f B p s v vs.
Proof.
  intros HB. induction p as [a|e|k IH|k IH|k IH|o k IH|k IH|h k IH|k IH|k IH|u k IH];
    intros s v vs b bs_ Hb Hf Hk Hl Hst Hd; cbn [disciplined forward_only] in *; auto.
  1-3: destruct Hd as [Hp Hd]; split;
    [ unfold one_way, visit; cbn [s_base s_end s_fok s_back s_past]; rewrite Hk, Hf;
      replace (a_pos s <? s_base v) with false by lia; cbn [orb]; split; auto; discriminate
    | eapply IH; [| | | |exact Hst|exact Hd]; unfold visit; cbn [s_base s_end s_fok s_back s_past]; auto;
      rewrite Hk; cbn [orb]; lia ].
  - destruct Hd as [Ho Hd]. eapply IH; [| | | |exact Hst|exact Hd]; auto;
      unfold sess_reset; replace (0 <=? o) with true by lia; auto.
  - eapply IH; [| | | | |exact Hd]; auto.
    + rewrite !app_length, Hl; auto.
    + intros h w b' H1 H2. rewrite nth_error_snoc in H1; rewrite nth_error_snoc in H2. rewrite <- Hl in H2.
      destruct (h <? length vs)%nat; [eapply Hst; eauto|].
      destruct (h =? length vs)%nat; [|congruence]. inversion H1; inversion H2; subst; auto.
  - destruct (nth_error (a_store s) h) as [q|]; auto.
    destruct (nth_error vs h) as [w|] eqn:Ew; auto.
    assert (h < length bs_)%nat by (rewrite <- Hl; apply nth_error_Some; congruence).
    destruct (nth_error bs_ h) as [b'|] eqn:Eb'; [|apply nth_error_None in Eb'; lia].
    destruct (Hst h w b' Ew Eb') as (X1 & X2 & X3).
    eapply IH; [exact X1|exact X2|exact X3|exact Hl|exact Hst|exact Hd].
  - destruct Hd as [Hz Hd]. split; [congruence|]. eapply IH; eauto.
  - eapply IH; eauto.
  - eapply IH; eauto.
Qed.

Corollary forward_transparent {U A} f B (p : prog U A) o u : 0 < B -> 0 <= o ->
  forward_only f p (mkA o [] u) o [] ->
  fst (crun f B p (mkC (b_reset f B o) [] u)) = fst (arun f p (mkA o [] u)) /\
  c_usr (snd (crun f B p (mkC (b_reset f B o) [] u))) = a_usr (snd (arun f p (mkA o [] u))).
Proof.
  intros HB Ho Hf.
  pose proof (simulation_fresh f B p o u HB) as Hs.
  replace (reset_pos f o) with o in Hs by (unfold reset_pos; destruct (0 <=? o) eqn:E; lia).
  apply Hs. apply (forward_disciplined f B p HB _ _ _ o []); auto;
    try (unfold sess_reset; replace (0 <=? o) with true by lia; reflexivity).
  intros [|?]; discriminate.
Qed.
