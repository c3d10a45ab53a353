(** Lemmas for C50: codes drive the state machine. *)
From Coq Require Import String.
From Verif Require Import Prelude M_Filters D_CCITT M_CCITT S_CCITT L_CCITT L_CCITT2.
Local Open Scope Z_scope.

(** *** Codes in the tries *)
Definition child (t : trie) (b : bool) : trie := match t with TNode z o => if b then o else z | _ => TNone end.
Fixpoint walk (t : trie) (c : list bool) : option cval :=
  match c with
  | [] => None
  | b :: r => match child t b with
              | TNode _ _ as t' => walk t' r
              | TLeaf v => match r with [] => Some v | _ => None end
              | TNone => None
              end
  end.
(** Bits that stay inside the trie *)
Fixpoint inside (t : trie) (c : list bool) : option trie :=
  match c with
  | [] => Some t
  | b :: r => match child t b with TNode _ _ as t' => inside t' r | _ => None end
  end.
Definition is_node (t : trie) : Prop := match t with TNode _ _ => True | _ => False end.

Definition tbl (black : bool) : trie := if black then BLACK else WHITE.
Lemma run_table_col s black : g_color s = col black -> run_table s = tbl black.
Proof. unfold run_table. intros ->. destruct black; reflexivity. Qed.

Definition cval_is (o : option cval) (n : Z) : bool := match o with Some (CI m) => m =? n | _ => false end.
Lemma cval_is_ok o n : cval_is o n = true -> o = Some (CI n).
Proof. destruct o as [[m|]|]; try discriminate. cbn. intros H. apply Z.eqb_eq in H. congruence. Qed.
Lemma table_check {A} (l : list A) (f : nat -> A -> bool) : forallb (fun p => f (fst p) (snd p)) (combine (seq 0 (List.length l)) l) = true ->
  forall i x, nth_error l i = Some x -> f i x = true.
Proof.
  intros H i x Hi. rewrite forallb_forall in H.
  assert (forall k, nth_error (combine (seq k (List.length l)) l) i = Some (k + i, x)%nat) as Hn.
  { clear H. revert i Hi. induction l as [|y l IH]; intros [|i] Hi k; try discriminate Hi; cbn [List.length seq combine nth_error] in *.
    - injection Hi as ->. now rewrite Nat.add_0_r.
    - rewrite (IH i Hi (S k)). do 2 f_equal. lia. }
  apply (H (i, x)). apply nth_error_In with i. apply (Hn 0%nat).
Qed.
Lemma term_walk black i s : nth_error (term_codes black) i = Some s -> walk (tbl black) (bits s) = Some (CI (Z.of_nat i)) /\ Z.of_nat i < 64.
Proof.
  intros H. split.
  - apply cval_is_ok. revert i s H. apply (table_check _ (fun i s => cval_is (walk (tbl black) (bits s)) (Z.of_nat i))). destruct black; vm_compute; reflexivity.
  - assert (nth_error (term_codes black) i <> None) as Hn by congruence. apply nth_error_Some in Hn. destruct black; cbn in Hn; lia.
Qed.
Lemma makeup_walk black i s : nth_error (makeup_codes black) i = Some s -> walk (tbl black) (bits s) = Some (CI (64 * (Z.of_nat i + 1))).
Proof.
  intros H. apply cval_is_ok. revert i s H.
  apply (table_check _ (fun i s => cval_is (walk (tbl black) (bits s)) (64 * (Z.of_nat i + 1)))). destruct black; vm_compute; reflexivity.
Qed.
Lemma vertical_walk d v : vertical_code d = Some v -> walk MODE v = Some (CI d).
Proof.
  unfold vertical_code. 
  destruct (Z.eqb_spec d 0) as [->|_]; [intros E; injection E as <-; reflexivity|].
  destruct (Z.eqb_spec d 1) as [->|_]; [intros E; injection E as <-; reflexivity|].
  destruct (Z.eqb_spec d 2) as [->|_]; [intros E; injection E as <-; reflexivity|].
  destruct (Z.eqb_spec d 3) as [->|_]; [intros E; injection E as <-; reflexivity|].
  destruct (Z.eqb_spec d (-1)) as [->|_]; [intros E; injection E as <-; reflexivity|].
  destruct (Z.eqb_spec d (-2)) as [->|_]; [intros E; injection E as <-; reflexivity|].
  destruct (Z.eqb_spec d (-3)) as [->|_]; [intros E; injection E as <-; reflexivity|discriminate].
Qed.

Section Machine.
  Variable w : Z.
  Variable align rev : bool.

  (** The bits of several bytes; after ByteSkip, what is left of them. *)
  Inductive rb := RGo (s : g4) | RSkip (s : g4) (rest : list bool) | RStop (s : g4) | RErr (e : exn).
  Definition fresh (s : g4) : g4 := with_state (with_acc s AMode) MODE.
  Fixpoint runb (c : list bool) (s : g4) : rb :=
    match c with
    | [] => RGo s
    | x :: r => match parse_bit w align rev s x with
                | GNext s' t => runb r (with_state s' t)
                | GSkip s' => RSkip (fresh s') r
                | GEofb s' => RStop s'
                | GFail e => RErr e
                end
    end.
  Definition cont (o : out) (r : list bool) : rb :=
    match o with GNext s t => runb r (with_state s t) | GSkip s => RSkip (fresh s) r | GEofb s => RStop s | GFail e => RErr e end.

  Lemma feed_runb c : forall s, feed_bits w align rev c s =
    match runb c s with RGo s' => FGo s' | RSkip s' _ => FGo s' | RStop s' => FStop s' | RErr e => FErr e end.
  Proof.
    induction c as [|x c IH]; intros s; [reflexivity|]. cbn [feed_bits runb]. destruct (parse_bit w align rev s x); auto.
  Qed.
  Lemma runb_app a : forall b s, runb (a ++ b) s =
    match runb a s with RGo s' => runb b s' | RSkip s' r => RSkip s' (r ++ b) | o => o end.
  Proof.
    induction a as [|x a IH]; intros b s; [reflexivity|]. cbn [app runb]. destruct (parse_bit w align rev s x); auto.
  Qed.

  Lemma runb_code c : forall v s, walk (g_state s) c = Some v ->
    exists t, forall r, runb (c ++ r) s = cont (do_accept w align rev (with_state s t) (Some v)) r.
  Proof.
    induction c as [|x c IH]; intros v s H; [discriminate|]. cbn [walk] in H.
    destruct (g_state s) as [|u|z o] eqn:Es; try (destruct x; discriminate H). cbn [child] in H.
    assert (forall r, runb ((x :: c) ++ r) s = cont (match (if x then o else z) with TNode _ _ as t => GNext s t | TNone => do_accept w align rev s None | TLeaf v => do_accept w align rev s (Some v) end) (c ++ r)) as Hr.
    { intros r. cbn [app runb]. unfold parse_bit. rewrite Es. reflexivity. }
    destruct (if x then o else z) as [|u|z' o']; [discriminate| |].
    - destruct c; [|discriminate]. injection H as ->. exists (g_state s). intros r. rewrite Hr. cbn [app].
      replace (with_state s (g_state s)) with s by (destruct s; reflexivity). reflexivity.
    - destruct (IH v (with_state s (TNode z' o')) H) as (t & Ht). exists t. intros r. rewrite Hr. cbn [cont]. exact (Ht r).
  Qed.
  Lemma runb_inside c : forall s t, is_node (g_state s) -> inside (g_state s) c = Some t -> runb c s = RGo (with_state s t).
  Proof.
    induction c as [|x c IH]; intros s t Hn H; cbn [inside] in H.
    - injection H as <-. cbn. f_equal. destruct s; reflexivity.
    - cbn [runb]. unfold parse_bit. destruct (g_state s) as [|u|z o] eqn:Es; try contradiction Hn. cbn [child] in H.
      destruct (if x then o else z) as [|u|z' o']; try discriminate H. rewrite (IH _ t); [reflexivity|exact I|exact H].
  Qed.

  (** *** Runs *)
  Lemma run1 black n c : RunCode black n c -> forall s, g_acc s = AHoriz1 -> g_color s = col black -> g_state s = tbl black ->
    exists s', (forall r, runb (c ++ r) s = runb r s') /\ g_acc s' = AHoriz2 /\ g_color s' = col (negb black) /\ g_state s' = tbl (negb black) /\
      g_n1 s' = g_n1 s + n /\ g_n2 s' = 0 /\ g_ref s' = g_ref s /\ g_cur s' = g_cur s /\ g_pos s' = g_pos s /\ g_buf s' = g_buf s.
  Proof.
    induction 1 as [i q Hq|i q n c Hq _ IH]; intros s Ha Hc Hs.
    - destruct (term_walk _ _ _ Hq) as (Hk & Hi). destruct (runb_code (bits q) (CI (Z.of_nat i)) s) as (t & Ht); [congruence|].
      exists (with_state (with_acc (with_color (with_n2 (with_n1 (with_state s t) (g_n1 s + Z.of_nat i)) 0) (col (negb black))) AHoriz2) (tbl (negb black))). split.
      + intros r. rewrite Ht. unfold do_accept. gs. rewrite Ha. cbn [parse_horiz1]. replace (Z.of_nat i <? 64) with true by lia. cbv iota zeta. gs.
        rewrite Hc, col_neg. cbn [cont]. rewrite (run_table_col _ (negb black)) by reflexivity. reflexivity.
      + gs. repeat split; auto.
    - pose proof (makeup_walk _ _ _ Hq) as Hk. destruct (runb_code (bits q) (CI (64 * (Z.of_nat i + 1))) s) as (t & Ht); [rewrite Hs; exact Hk|].
      match type of Ht with forall r, _ = cont ?o r => assert (o = GNext (with_n1 (with_state s t) (g_n1 s + 64 * (Z.of_nat i + 1))) (tbl black)) as Eo end.
      { unfold do_accept. gs. rewrite Ha. cbn [parse_horiz1]. replace (64 * (Z.of_nat i + 1) <? 64) with false by lia. cbv iota. gs. f_equal. apply run_table_col. exact Hc. }
      rewrite Eo in Ht. cbn [cont] in Ht.
      destruct (IH (with_state (with_n1 (with_state s t) (g_n1 s + 64 * (Z.of_nat i + 1))) (tbl black))) as (s' & R & P); auto.
      exists s'. split; [intros r; rewrite <- app_assoc, Ht; apply R|]. gs. 
      destruct P as (P1 & P2 & P3 & P4 & P5 & P6 & P7 & P8 & P9). cbn [g_n1 g_ref g_cur g_pos g_buf with_state with_n1] in *. repeat split; auto. lia.
  Qed.
  Lemma run2 black n c : RunCode black n c -> forall s, g_acc s = AHoriz2 -> g_color s = col black -> g_state s = tbl black ->
    exists s', (forall r, runb (c ++ r) s = cont (match do_horizontal s' (g_n1 s) (g_n2 s + n) with Ok s3 => flush_to w align rev s3 MODE | Err e => GFail e end) r) /\
      g_acc s' = AMode /\ g_color s' = col (negb black) /\ g_ref s' = g_ref s /\ g_cur s' = g_cur s /\ g_pos s' = g_pos s /\ g_buf s' = g_buf s.
  Proof.
    induction 1 as [i q Hq|i q n c Hq _ IH]; intros s Ha Hc Hs.
    - destruct (term_walk _ _ _ Hq) as (Hk & Hi). destruct (runb_code (bits q) (CI (Z.of_nat i)) s) as (t & Ht); [congruence|].
      exists (with_acc (with_color (with_n2 (with_state s t) (g_n2 s + Z.of_nat i)) (col (negb black))) AMode). split.
      + intros r. rewrite Ht. unfold do_accept. gs. rewrite Ha. cbn [parse_horiz2]. replace (Z.of_nat i <? 64) with true by lia. cbv iota zeta. gs.
        rewrite Hc, col_neg. reflexivity.
      + gs. repeat split; auto.
    - pose proof (makeup_walk _ _ _ Hq) as Hk. destruct (runb_code (bits q) (CI (64 * (Z.of_nat i + 1))) s) as (t & Ht); [rewrite Hs; exact Hk|].
      match type of Ht with forall r, _ = cont ?o r => assert (o = GNext (with_n2 (with_state s t) (g_n2 s + 64 * (Z.of_nat i + 1))) (tbl black)) as Eo end.
      { unfold do_accept. gs. rewrite Ha. cbn [parse_horiz2]. replace (64 * (Z.of_nat i + 1) <? 64) with false by lia. cbv iota. gs. f_equal. apply run_table_col. exact Hc. }
      rewrite Eo in Ht. cbn [cont] in Ht.
      destruct (IH (with_state (with_n2 (with_state s t) (g_n2 s + 64 * (Z.of_nat i + 1))) (tbl black))) as (s' & R & P); auto.
      exists s'. split; [|exact P]. intros r. rewrite <- app_assoc, Ht, R. gs. now rewrite Z.add_assoc.
  Qed.

  (** *** Rows *)
  Hypothesis Hw : 1 <= w.
  (** Before the first bit of a row *)
  Record start (s : g4) (ref : list bool) (buf : list Z) : Prop := mkStart {
    t_ref : g_ref s = map col ref; t_rlen : zlen ref = w; t_cur : zlen (g_cur s) = w; t_pos : g_pos s = -1; t_color : g_color s = 1;
    t_acc : g_acc s = AMode; t_state : g_state s = MODE; t_buf : g_buf s = buf }.
  Definition row_done (s' : g4) (r : list bool) : rb := if align then RSkip s' r else runb r s'.

  Lemma flush_mid s ref cur a0 buf r : line w s ref cur a0 buf -> a0 < w -> cont (flush_to w align rev s MODE) r = runb r (with_state s MODE).
  Proof. intros [L1 L2 L3 L4 L5] Ha. unfold flush_to, flush_line. replace (w <=? g_pos s) with false by lia. reflexivity. Qed.
  Lemma flush_end s ref cur buf : zlen cur = w -> line w s ref cur w buf -> g_acc s = AMode ->
    exists s', (forall r, cont (flush_to w align rev s MODE) r = row_done s' r) /\ start s' cur (buf ++ output_line rev (map col cur)).
  Proof.
    intros Hc [L1 L2 L3 L4 L5] Ha.
    assert (g_cur s = map col cur) as Eg.
    { rewrite !firstn_all2 in L5 by (unfold zlen in *; lia). exact L5. }
    destruct (blank_ok w Hw) as (B1 & _).
    unfold flush_to, flush_line. replace (w <=? g_pos s) with true by lia. unfold row_done.
    destruct align; cbn [cont]; (eexists; split; [reflexivity|]); constructor; unfold fresh; gs; auto; congruence.
  Qed.

  Lemma codeline_end ref cur black c : CodeLine ref cur (zlen cur) black c -> c = [].
  Proof.
    intros H. remember (zlen cur) as a eqn:E. destruct H as [b|a0 b a1 b1 b2 c HA _ _ _ _|a0 b a1 b1 v c HA _ _ _|a0 b a1 a2 r1 r2 c HA _ _ _ _]; auto;
      destruct HA as (HA & _); lia.
  Qed.

  Lemma line_ok ref cur a0 black c : zlen ref = w -> zlen cur = w -> CodeLine ref cur a0 black c ->
    forall s buf, -1 <= a0 < w -> (a0 = -1 -> black = false) -> pix cur a0 = black -> line w s ref cur a0 buf ->
    g_color s = col black -> g_acc s = AMode -> g_state s = MODE ->
    exists s', (forall r, runb (c ++ r) s = row_done s' r) /\ start s' cur (buf ++ output_line rev (map col cur)).
  Proof.
    intros Hr Hc H. induction H as [black|a0 black a1 b1 b2 c HA HB HA2 Hlt HL IH|a0 black a1 b1 v c HA HB Hv HL IH|a0 black a1 a2 r1 r2 c HA HA2 R1 R2 HL IH];
      intros s buf Ha Hf Hp Hline Hcol Hacc Hst.
    - lia.
    - destruct (runb_code (bits "0001") (CS (bs "p")) s) as (t & Ht); [rewrite Hst; reflexivity|].
      destruct (pass_line w Hw (with_state s t) ref cur a0 black a1 b1 b2 buf) as (s1 & E1 & L1 & C1 & A1 & P1 & B1); auto.
      { destruct Hline; constructor; auto. }
      destruct (IH (with_state s1 MODE) buf) as (s' & R & ST); gs; auto; try lia; try congruence.
      { destruct L1; constructor; auto. }
      { rewrite A1. exact Hacc. }
      exists s'. split; [|exact ST]. intros r. rewrite <- app_assoc, Ht. unfold do_accept. gs. rewrite Hacc. cbn [parse_mode].
      replace (eqlZ (bs "p") (bs "p")) with true by reflexivity. rewrite E1. rewrite (flush_mid s1 ref cur b2 buf) by (auto; lia). apply R.
    - pose proof (vertical_walk _ _ Hv) as Hk. destruct (runb_code v (CI (a1 - b1)) s) as (t & Ht); [now rewrite Hst|].
      destruct (vertical_line w Hw (with_state s t) ref cur a0 black a1 b1 buf) as (s1 & E1 & L1 & C1 & A1); auto.
      { destruct Hline; constructor; auto. }
      assert (forall r, runb ((v ++ c) ++ r) s = cont (flush_to w align rev s1 MODE) (c ++ r)) as Hrun.
      { intros r. rewrite <- app_assoc, Ht. unfold do_accept. gs. rewrite Hacc. cbn [parse_mode]. now rewrite E1. }
      destruct HA as (HA & HA' & HA''). rewrite Hc in *. destruct (Z.eq_dec a1 w) as [->|Hn].
      + rewrite <- Hc in HL at 1. apply codeline_end in HL. subst c. destruct (flush_end s1 ref cur buf) as (s' & R & ST); auto; [gs; rewrite A1; exact Hacc|].
        exists s'. split; [|exact ST]. intros r. rewrite Hrun. apply R.
      + destruct (IH (with_state s1 MODE) buf) as (s' & R & ST); gs; auto; try lia.
        { destruct (HA' ltac:(lia)) as (Hch & _). unfold changing in Hch.
          assert (pix cur (a1 - 1) = black) as Hq.
          { rewrite <- Hp. apply (const_run cur a0 a1); try lia. intros y Hy Hy'. apply (HA'' y Hy). split; [auto|exact I]. }
          rewrite Hq in Hch. destruct (pix cur a1), black; auto; elim Hch; reflexivity. }
        { destruct L1; constructor; auto. }
        { rewrite A1. exact Hacc. }
        exists s'. split; [|exact ST]. intros r. rewrite Hrun. rewrite (flush_mid s1 ref cur a1 buf) by (auto; lia). apply R.
    - destruct (runb_code (bits "001") (CS (bs "h")) s) as (t & Ht); [rewrite Hst; reflexivity|].
      set (s1 := with_state (with_acc (with_n1 (with_state s t) 0) AHoriz1) (tbl black)).
      assert (forall r, runb (bits "001" ++ r) s = runb r s1) as Hrun1.
      { intros r. rewrite Ht. unfold do_accept. gs. rewrite Hacc. cbn [parse_mode]. 
        replace (eqlZ (bs "h") (bs "p")) with false by reflexivity. replace (eqlZ (bs "h") (bs "h")) with true by reflexivity. cbv iota. cbn [cont].
        unfold s1. f_equal. f_equal. apply run_table_col. exact Hcol. }
      destruct (run1 black _ _ R1 s1) as (s2 & Hrun2 & P1 & P2 & P3 & P4 & P5 & P6 & P7 & P8 & P9); auto.
      destruct (run2 (negb black) _ _ R2 s2) as (s3 & Hrun3 & Q1 & Q2 & Q3 & Q4 & Q5 & Q6); auto.
      rewrite negb_involutive in Q2.
      destruct (horizontal_line w Hw s3 ref cur a0 black a1 a2 buf) as (s4 & E4 & L4 & C4 & A4 & B4 & D4); auto.
      { destruct Hline as [L1 L2 L3 L4 L5]. constructor; rewrite ?Q3, ?Q4, ?Q5, ?Q6, ?P6, ?P7, ?P8, ?P9; auto. }
      rewrite P4, P5 in Hrun3. change (g_n1 s1) with 0 in Hrun3. rewrite !Z.add_0_l in Hrun3. rewrite E4 in Hrun3.
      assert (forall r, runb ((bits "001" ++ r1 ++ r2 ++ c) ++ r) s = cont (flush_to w align rev s4 MODE) (c ++ r)) as Hrun.
      { intros r. rewrite <- !app_assoc, Hrun1, Hrun2, Hrun3. reflexivity. }
      destruct (Z.eq_dec a2 w) as [->|Hn].
      + rewrite <- Hc in HL at 1. apply codeline_end in HL. subst c. destruct (flush_end s4 ref cur buf) as (s' & R & ST); auto; [congruence|].
        exists s'. split; [|exact ST]. intros r. rewrite Hrun. apply R.
      + destruct (IH (with_state s4 MODE) buf) as (s' & R & ST);
          [lia|lia|apply B4; lia|destruct L4; constructor; auto|exact C4|gs; congruence|reflexivity|].
        exists s'. split; [|exact ST]. intros r. rewrite Hrun. rewrite (flush_mid s4 ref cur a2 buf) by (auto; lia). apply R.
  Qed.

  Lemma row_ok ref cur c s buf : zlen cur = w -> CodeLine ref cur (-1) false c -> start s ref buf ->
    exists s', (forall r, runb (c ++ r) s = row_done s' r) /\ start s' cur (buf ++ output_line rev (map col cur)).
  Proof.
    intros Hc HL [T1 T2 T3 T4 T5 T6 T7 T8]. apply (line_ok ref cur (-1) false c); auto; try lia.
    constructor; auto.
  Qed.

  (** *** Bytes *)
  Lemma feed_go data : forall s s', runb (bits_of data) s = RGo s' -> feedbytes w align rev data s = FGo s'.
  Proof.
    induction data as [|b data IH]; intros s s' H; [injection H as <-; reflexivity|]. rewrite bits_of_cons, runb_app in H.
    cbn [feedbytes]. rewrite byte_bits_eq, feed_runb. destruct (runb (bits8 b) s); try discriminate. now apply IH.
  Qed.
  Lemma feed_stop data : forall s s', runb (bits_of data) s = RStop s' -> feedbytes w align rev data s = FStop s'.
  Proof.
    induction data as [|b data IH]; intros s s' H; [discriminate|]. rewrite bits_of_cons, runb_app in H.
    cbn [feedbytes]. rewrite byte_bits_eq, feed_runb. destruct (runb (bits8 b) s); try discriminate; [now apply IH|congruence].
  Qed.
  Lemma feed_skip data : forall s s' rest, runb (bits_of data) s = RSkip s' rest ->
    exists x data2, rest = x ++ bits_of data2 /\ zlen x < 8 /\ feedbytes w align rev data s = feedbytes w align rev data2 s'.
  Proof.
    induction data as [|b data IH]; intros s s' rest H; [discriminate|]. rewrite bits_of_cons, runb_app in H.
    cbn [feedbytes]. rewrite byte_bits_eq, feed_runb. destruct (runb (bits8 b) s) as [s1|s1 r1|s1|e] eqn:E; try discriminate; [now apply IH|].
    injection H as -> <-. exists r1, data. split; [reflexivity|]. split; [|reflexivity].
    assert (forall c s s' r, runb c s = RSkip s' r -> zlen r < zlen c) as Hl.
    { clear. induction c as [|x c IH]; intros s s' r H; [discriminate|]. cbn [runb] in H. rewrite zlen_cons.
      destruct (parse_bit w align rev s x); try discriminate; [apply IH in H; lia|injection H as _ <-; lia]. }
    apply Hl in E. exact E.
  Qed.
End Machine.
