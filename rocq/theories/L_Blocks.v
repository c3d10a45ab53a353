(** A logic for programs that read a buffer in the promised way (S_Buffer.v): sessions are tracked through a run of the plain
    cursor, so that the run on the real buffer is known to be the same. *)
From Verif Require Import Prelude M_Prog M_Buffer S_Buffer L_Buffer L_Prog.
Local Open Scope Z_scope.

(** [dw p s v vs Q]: every session of the run is one-way, and [Q] holds of the outcome and of the sessions at the end. *)
Fixpoint dw {U A} (f : list Z) (B : Z) (p : prog U A) (s : ast U) (v : sess) (vs : list sess)
    (Q : res A -> ast U -> sess -> list sess -> Prop) : Prop :=
  match p with
  | Ret a => Q (Ok a) s v vs
  | Throw e => Q (Err e) s v vs
  | Cur k => one_way (visit v (a_pos s)) /\ dw f B (k (znth f (a_pos s))) s (visit v (a_pos s)) vs Q
  | Next k => one_way (visit v (a_pos s)) /\
              dw f B (k (znth f (a_pos s))) (mkA (a_pos s + 1) (a_store s) (a_usr s)) (visit v (a_pos s)) vs Q
  | Prev k => one_way (visit v (a_pos s)) /\
              dw f B (k (znth f (a_pos s))) (mkA (a_pos s - 1) (a_store s) (a_usr s)) (visit v (a_pos s)) vs Q
  | Reset o k => dw f B k (mkA (reset_pos f o) (a_store s) (a_usr s)) (sess_reset f B o) vs Q
  | Save k => dw f B (k (List.length (a_store s))) (mkA (a_pos s) (a_store s ++ [a_pos s]) (a_usr s)) v (vs ++ [v]) Q
  | Restore h k =>
      match nth_error (a_store s) h, nth_error vs h with
      | Some q, Some w => dw f B k (mkA q (a_store s) (a_usr s)) w vs Q
      | _, _ => False
      end
  | Index k => s_base v = 0 /\ dw f B (k (a_pos s)) s v vs Q
  | GetU k => dw f B (k (a_usr s)) s v vs Q
  | SetU u k => dw f B k (mkA (a_pos s) (a_store s) u) v vs Q
  end.

Section DW.
  Context {U : Type}.
  Variables (f : list Z) (B : Z).

  Theorem dw_sim {A} (p : prog U A) : 0 < B -> forall s c v vs Q, sim f B s c v vs -> dw f B p s v vs Q ->
    exists v' vs', fst (crun f B p c) = fst (arun f p s) /\ sim f B (snd (arun f p s)) (snd (crun f B p c)) v' vs' /\
      Q (fst (arun f p s)) (snd (arun f p s)) v' vs'.
  Proof.
    intros HB. induction p as [a|e|k IH|k IH|k IH|o k IH|k IH|h k IH|k IH|k IH|u k IH];
      intros s c v vs Q Hs Hd; cbn [dw arun crun] in *.
    - eauto.
    - eauto.
    - destruct Hd as [W Hd]. destruct Hs as (R & L1 & L2 & St & Us).
      destruct (current_rep f B v (a_pos s) (c_buf c) HB R W) as (b' & -> & R0 & _ & _).
      apply (IH _ _ _ (visit v (a_pos s)) vs); auto. repeat split; auto.
    - destruct Hd as [W Hd]. destruct Hs as (R & L1 & L2 & St & Us).
      destruct (current_rep f B v (a_pos s) (c_buf c) HB R W) as (b' & -> & _ & R0 & _).
      apply (IH _ _ _ (visit v (a_pos s)) vs); auto. repeat split; auto.
    - destruct Hd as [W Hd]. destruct Hs as (R & L1 & L2 & St & Us).
      destruct (current_rep f B v (a_pos s) (c_buf c) HB R W) as (b' & -> & _ & _ & R0).
      apply (IH _ _ _ (visit v (a_pos s)) vs); auto. repeat split; auto.
    - destruct Hs as (R & L1 & L2 & St & Us).
      apply (IH _ _ (sess_reset f B o) vs); auto. repeat split; auto. apply reset_rep; auto.
    - destruct Hs as (R & L1 & L2 & St & Us).
      replace (length (c_store c)) with (length (a_store s)) by congruence.
      apply (IH _ _ _ v (vs ++ [v])); auto.
      repeat split; cbn [a_pos a_store a_usr c_buf c_store c_usr]; rewrite ?app_length; cbn [length]; auto; try congruence.
      intros h q w b Hq Hw Hb. rewrite nth_error_snoc in Hq; rewrite nth_error_snoc in Hw; rewrite nth_error_snoc in Hb.
      rewrite L1 in Hq. rewrite L2 in Hb.
      destruct (h <? length vs)%nat; [eapply St; eauto|].
      destruct (h =? length vs)%nat; congruence.
    - destruct Hs as (R & L1 & L2 & St & Us).
      destruct (nth_error (a_store s) h) as [q|] eqn:Eq.
      + assert (h < length vs)%nat as Hlt by (rewrite <- L1; apply nth_error_Some; congruence).
        destruct (nth_error vs h) as [w|] eqn:Ew; [|apply nth_error_None in Ew; lia].
        destruct (nth_error (c_store c) h) as [b|] eqn:Eb; [|apply nth_error_None in Eb; lia].
        apply (IH _ _ w vs); auto. repeat split; auto. eapply St; eauto.
      + contradiction.
    - destruct Hd as [W Hd]. destruct Hs as (R & L1 & L2 & St & Us).
      assert (b_index (c_buf c) = a_pos s) as Hi.
      { destruct R; match goal with H : c_buf c = _ |- _ => rewrite H end; cbn [b_index]; lia. }
      rewrite Hi. apply (IH _ _ _ v vs); auto. repeat split; auto.
    - destruct Hs as (R & L1 & L2 & St & Us). rewrite Us in Hd |- *.
      apply (IH _ _ _ v vs); auto. repeat split; auto.
    - destruct Hs as (R & L1 & L2 & St & Us). apply (IH _ _ v vs); auto. repeat split; auto.
  Qed.

  Lemma dw_conseq {A} (p : prog U A) : forall s v vs (Q Q' : res A -> ast U -> sess -> list sess -> Prop),
    dw f B p s v vs Q -> (forall r s' v' vs', Q r s' v' vs' -> Q' r s' v' vs') -> dw f B p s v vs Q'.
  Proof.
    induction p as [a|e|k IH|k IH|k IH|o k IH|k IH|h k IH|k IH|k IH|u k IH]; intros s v vs Q Q' Hd HQ; cbn [dw] in *; auto.
    1-3: destruct Hd as [W Hd]; split; eauto.
    1-2: eauto.
    - destruct (nth_error (a_store s) h), (nth_error vs h); eauto.
    - destruct Hd as [W Hd]; split; eauto.
    - eauto.
    - eauto.
  Qed.
  Lemma dw_bind {A C} (p : prog U A) (g : A -> prog U C) : forall s v vs Q,
    dw f B p s v vs (fun r s' v' vs' => match r with Ok a => dw f B (g a) s' v' vs' Q | Err e => Q (Err e) s' v' vs' end) ->
    dw f B (bind p g) s v vs Q.
  Proof.
    induction p as [a|e|k IH|k IH|k IH|o k IH|k IH|h k IH|k IH|k IH|u k IH]; intros s v vs Q Hd; cbn [dw bind] in *; auto.
    1-3: destruct Hd as [W Hd]; split; eauto.
    - destruct (nth_error (a_store s) h), (nth_error vs h); eauto.
    - destruct Hd as [W Hd]; split; eauto.
  Qed.
  Lemma dw_catch {A} (p : prog U A) hd (g : exn -> prog U A) : forall s v vs (Q : res A -> ast U -> sess -> list sess -> Prop),
    dw f B p s v vs (fun r s' v' vs' => match r with
      | Ok a => Q (Ok a) s' v' vs'
      | Err e => if hd e && negb (exn_eqb e OutOfFuel) then dw f B (g e) s' v' vs' Q else Q (Err e) s' v' vs'
      end) ->
    dw f B (catch p hd g) s v vs Q.
  Proof.
    induction p as [a|e|k IH|k IH|k IH|o k IH|k IH|h k IH|k IH|k IH|u k IH]; intros s v vs Q Hd; cbn [dw catch] in *; auto.
    - destruct (hd e && negb (exn_eqb e OutOfFuel)); auto.
    - destruct Hd as [W Hd]; split; eauto.
    - destruct Hd as [W Hd]; split; eauto.
    - destruct Hd as [W Hd]; split; eauto.
    - destruct (nth_error (a_store s) h), (nth_error vs h); eauto.
    - destruct Hd as [W Hd]; split; eauto.
  Qed.
End DW.

(** Forward sessions: nothing is read before the base. *)
Definition fine (v : sess) : Prop := s_back v = false /\ s_fok v = true.
Definition stored (w : sess) (q : Z) : Prop := fine w /\ s_base w <= q.

Record inv (U : Type) := mkInv { ih :> U -> nat -> Prop; ih_mono : forall u n m, ih u n -> (n <= m)%nat -> ih u m }.
Arguments ih {U}. Arguments ih_mono {U}. Arguments mkInv {U}.
Section GW.
  Context {U : Type}.
  Variables (f : list Z) (B : Z).
  (** an invariant of the user state, given the number of saved states *)
  Variable I : inv U.
  Lemma I_mono : forall u n m, I u n -> (n <= m)%nat -> I u m.
  Proof. apply ih_mono. Qed.
  Notation P := (prog U).

  Lemma stored_len vs st : Forall2 stored vs st -> length vs = length st.
  Proof. induction 1; cbn; auto. Qed.
  Lemma stored_at vs st : Forall2 stored vs st -> forall h, (h < length st)%nat -> exists q w, nth_error st h = Some q /\ nth_error vs h = Some w /\ stored w q.
  Proof.
    induction 1 as [|w q vs st H _ IH]; intros [|h] Hh; cbn [length nth_error] in *; try lia; [eauto|]. apply IH. lia.
  Qed.
  Definition grown (st : list Z) (vs : list sess) (st' : list Z) (vs' : list sess) : Prop :=
    exists ex exv, st' = st ++ ex /\ vs' = vs ++ exv /\ Forall2 stored exv ex.
  Lemma grown_refl st vs : grown st vs st vs.
  Proof. exists [], []. rewrite !app_nil_r. auto. Qed.
  Lemma grown_trans st vs st1 vs1 st2 vs2 : grown st vs st1 vs1 -> grown st1 vs1 st2 vs2 -> grown st vs st2 vs2.
  Proof.
    intros (e1 & v1 & -> & -> & F1) (e2 & v2 & -> & -> & F2). exists (e1 ++ e2), (v1 ++ v2). rewrite !app_assoc. repeat split. now apply Forall2_app.
  Qed.
  Lemma grown_stored st vs st' vs' : grown st vs st' vs' -> Forall2 stored vs st -> Forall2 stored vs' st'.
  Proof. intros (e1 & v1 & -> & -> & F1) H. now apply Forall2_app. Qed.
  Lemma grown_len st vs st' vs' : grown st vs st' vs' -> (length st <= length st')%nat.
  Proof. intros (e1 & v1 & -> & -> & F1). rewrite app_length. lia. Qed.
  Lemma grown_nth st vs st' vs' h q : grown st vs st' vs' -> nth_error st h = Some q -> nth_error st' h = Some q.
  Proof. intros (e1 & v1 & -> & -> & F1) H. rewrite nth_error_app1; auto. apply nth_error_Some. congruence. Qed.
  Lemma grown_nthv st vs st' vs' h q : grown st vs st' vs' -> nth_error vs h = Some q -> nth_error vs' h = Some q.
  Proof. intros (e1 & v1 & -> & -> & F1) H. rewrite nth_error_app1; auto. apply nth_error_Some. congruence. Qed.

  Definition known (hs : list (nat * Z)) (b : Z) (st : list Z) (vs : list sess) : Prop :=
    Forall (fun x => nth_error st (fst x) = Some (snd x) /\ exists w, nth_error vs (fst x) = Some w /\ s_base w = b) hs.
  Lemma grown_known hs b st vs st' vs' : grown st vs st' vs' -> known hs b st vs -> known hs b st' vs'.
  Proof.
    intros G H. eapply Forall_impl; [|exact H]. cbv beta. intros x (H1 & w & H2 & H3). split; [eapply grown_nth; eauto|].
    exists w. split; [eapply grown_nthv; eauto|auto].
  Qed.

  (** [gw lo hs p pos R]: started at [pos] in a forward session with base at most [lo], with the saved positions [hs] of this
      session, the run stays forward; it ends in the same session with [R], or with an exception in some forward session. *)
  Definition gpost {A} (v : sess) st vs (R : A -> Z -> Prop) (r : res A) (s' : ast U) (v' : sess) (vs' : list sess) : Prop :=
    grown st vs (a_store s') vs' /\ I (a_usr s') (length (a_store s')) /\ fine v' /\
    match r with Ok a => s_base v' = s_base v /\ R a (a_pos s') | Err _ => s_base v' <= a_pos s' end.
  Definition gw {A} (lo : Z) (hs : list (nat * Z)) (p : P A) (pos : Z) (R : A -> Z -> Prop) : Prop :=
    forall st u v vs, fine v -> s_base v <= lo -> Forall2 stored vs st -> known hs (s_base v) st vs -> I u (length st) ->
    dw f B p (mkA pos st u) v vs (gpost v st vs R).

  Lemma fine_visit v p : fine v -> s_base v <= p -> fine (visit v p) /\ one_way (visit v p).
  Proof.
    intros [H1 H2] Hp. unfold fine, one_way, visit. cbn [s_back s_past s_fok]. rewrite H1, H2. cbn [orb].
    replace (p <? s_base v) with false by lia. repeat split; auto. discriminate.
  Qed.

  Section R.
    Variable lo : Z.
    Lemma gw_conseq {A} hs (p : P A) pos (R R' : A -> Z -> Prop) : gw lo hs p pos R -> (forall a q, R a q -> R' a q) -> gw lo hs p pos R'.
    Proof.
      intros H HR st u v vs Hv Hb HF HK HI. eapply dw_conseq; [apply H; auto|]. unfold gpost. intros r s' v' vs' (G & HI' & Hv' & HX).
      repeat split; auto; try apply Hv'. destruct r; auto. destruct HX. auto.
    Qed.
    Lemma gw_hs {A} hs hs' (p : P A) pos R : gw lo hs p pos R -> incl hs hs' -> gw lo hs' p pos R.
    Proof.
      intros H Hi st u v vs Hv Hb HF HK HI. apply H; auto. unfold known in *. rewrite Forall_forall in *. auto.
    Qed.
    Lemma gw_ret {A} hs (a : A) pos (R : A -> Z -> Prop) : R a pos -> gw lo hs (Ret a) pos R.
    Proof. intros H st u v vs Hv Hb HF HK HI. cbn [dw]. repeat split; auto; try apply Hv. apply grown_refl. Qed.
    Lemma gw_throw {A} hs e pos (R : A -> Z -> Prop) : lo <= pos -> gw lo hs (Throw e) pos R.
    Proof. intros H st u v vs Hv Hb HF HK HI. cbn [dw]. repeat split; auto; try apply Hv; [apply grown_refl|cbn [a_pos]; lia]. Qed.
    Lemma gw_bind {A C} hs (p : P A) (g : A -> P C) pos R R' :
      gw lo hs p pos R -> (forall a q, R a q -> gw lo hs (g a) q R') -> gw lo hs (bind p g) pos R'.
    Proof.
      intros H Hg st u v vs Hv Hb HF HK HI. apply dw_bind. eapply dw_conseq; [apply H; auto|].
      intros r s' v' vs' (G & HI' & Hv' & HX). destruct r as [a|e]; [|repeat split; auto; apply Hv'].
      destruct HX as [Eb HR]. destruct s' as [pos' st' u']. cbn [a_store a_usr a_pos] in *.
      eapply dw_conseq; [apply (Hg a pos' HR); auto; [lia|eapply grown_stored; eauto|rewrite Eb; eapply grown_known; eauto]|].
      intros r s2 v2 vs2 (G2 & HI2 & Hv2 & HX2). split; [eapply grown_trans; eauto|]. split; [auto|]. split; [auto|].
      destruct r; auto. destruct HX2. split; [congruence|auto].
    Qed.
    Lemma gw_Cur {A} hs (k : option Z -> P A) pos R : lo <= pos -> gw lo hs (k (znth f pos)) pos R -> gw lo hs (Cur k) pos R.
    Proof.
      intros Hp H st u v vs Hv Hb HF HK HI. cbn [dw a_pos]. destruct (fine_visit v pos Hv ltac:(lia)) as [Hv' W]. split; [exact W|].
      exact (H st u (visit v pos) vs Hv' Hb HF HK HI).
    Qed.
    Lemma gw_Next {A} hs (k : option Z -> P A) pos R : lo <= pos -> gw lo hs (k (znth f pos)) (pos + 1) R -> gw lo hs (Next k) pos R.
    Proof.
      intros Hp H st u v vs Hv Hb HF HK HI. cbn [dw a_pos]. destruct (fine_visit v pos Hv ltac:(lia)) as [Hv' W]. split; [exact W|].
      exact (H st u (visit v pos) vs Hv' Hb HF HK HI).
    Qed.
    Lemma gw_Prev {A} hs (k : option Z -> P A) pos R : lo <= pos -> gw lo hs (k (znth f pos)) (pos - 1) R -> gw lo hs (Prev k) pos R.
    Proof.
      intros Hp H st u v vs Hv Hb HF HK HI. cbn [dw a_pos]. destruct (fine_visit v pos Hv ltac:(lia)) as [Hv' W]. split; [exact W|].
      exact (H st u (visit v pos) vs Hv' Hb HF HK HI).
    Qed.
    Lemma gw_Save {A} hs (k : nat -> P A) pos R : lo <= pos -> (forall h, gw lo ((h, pos) :: hs) (k h) pos R) -> gw lo hs (Save k) pos R.
    Proof.
      intros Hp H st u v vs Hv Hb HF HK HI. cbn [dw a_pos a_store a_usr].
      assert (grown st vs (st ++ [pos]) (vs ++ [v])) as G.
      { exists [pos], [v]. repeat split; auto. constructor; [|constructor]. split; [auto|lia]. }
      pose proof (grown_stored _ _ _ _ G HF) as HF'. pose proof (stored_len _ _ HF) as HL.
      eapply dw_conseq; [apply (H (length st) (st ++ [pos]) u v (vs ++ [v])); auto|].
      - constructor; [|eapply grown_known; eauto]. cbn [fst snd]. split; [rewrite nth_error_app2, Nat.sub_diag by lia; reflexivity|].
        exists v. split; [rewrite nth_error_app2 by lia; replace (length st - length vs)%nat with 0%nat by lia; reflexivity|reflexivity].
      - eapply I_mono; eauto. rewrite app_length. lia.
      - intros r s2 v2 vs2 (G2 & HI2 & Hv2 & HX2). split; [eapply grown_trans; eauto|]. auto.
    Qed.
    Lemma gw_Restore {A} hs h q0 (k : P A) pos R : In (h, q0) hs -> gw lo hs k q0 R -> gw lo hs (Restore h k) pos R.
    Proof.
      intros Hi H st u v vs Hv Hb HF HK HI. cbn [dw a_pos a_store a_usr].
      pose proof HK as HK'. unfold known in HK'. rewrite Forall_forall in HK'. destruct (HK' _ Hi) as (E1 & w & E2 & E3). cbn [fst snd] in *. rewrite E1, E2.
      assert (fine w) as Hw.
      { clear -HF E1 E2. revert h E1 E2. induction HF as [|w' q' vs st [H1 _] _ IH]; intros [|h] E1 E2; cbn [nth_error] in *; try discriminate.
        - injection E2 as ->. auto.
        - eauto. }
      eapply dw_conseq; [apply (H st u w vs); auto; [lia|now rewrite E3]|].
      intros r s2 v2 vs2 (G2 & HI2 & Hv2 & HX2). repeat split; auto; try apply Hv2. destruct r; auto. now rewrite <- E3.
    Qed.
    Lemma gw_catch {A} hs h q0 (p k : P A) hd pos (R : A -> Z -> Prop) : In (h, q0) hs ->
      gw lo hs p pos R -> gw lo hs k q0 R -> gw lo hs (catch p hd (fun _ => Restore h k)) pos R.
    Proof.
      intros Hi H Hk st u v vs Hv Hb HF HK HI. apply dw_catch. eapply dw_conseq; [apply H; auto|].
      intros r s' v' vs' (G & HI' & Hv' & HX). destruct r as [a|e]; [unfold gpost; auto|].
      destruct (hd e && negb (exn_eqb e OutOfFuel)); [|unfold gpost; auto].
      destruct s' as [pos' st' u']. cbn [a_store a_usr a_pos] in *.
      cbn [dw a_store a_usr a_pos].
      pose proof HK as HK'. unfold known in HK'. rewrite Forall_forall in HK'. destruct (HK' _ Hi) as (E1 & w & E2 & E3). cbn [fst snd] in *.
      rewrite (grown_nth _ _ _ _ _ _ G E1), (grown_nthv _ _ _ _ _ _ G E2).
      pose proof (stored_at _ _ HF h ltac:(apply nth_error_Some; congruence)) as (q' & w' & E1' & E2' & Hw). rewrite E2 in E2'. injection E2' as <-.
      eapply dw_conseq; [apply (Hk st' u' w vs'); auto; [apply Hw|lia|eapply grown_stored; eauto|rewrite E3; eapply grown_known; eauto]|].
      intros r s2 v2 vs2 (G2 & HI2 & Hv2 & HX2). split; [eapply grown_trans; eauto|]. split; [auto|]. split; [auto|].
      destruct r; auto. destruct HX2. split; [congruence|auto].
    Qed.
    Lemma gw_GetU {A} hs (k : U -> P A) pos R : (forall u, gw lo hs (k u) pos R) -> gw lo hs (GetU k) pos R.
    Proof. intros H st u v vs Hv Hb HF HK HI. cbn [dw a_usr]. apply H; auto. Qed.
    Lemma gw_SetU {A} hs (k : P A) u' pos R : (forall n, I u' n) -> gw lo hs k pos R -> gw lo hs (SetU u' k) pos R.
    Proof. intros Hu H st u v vs Hv Hb HF HK HI. cbn [dw a_usr]. apply H; auto. Qed.
  End R.

  (** [jw p R]: from any forward session the run stays forward, wherever it goes. *)
  Definition jpost {A} st vs (R : A -> nat -> Prop) (r : res A) (s' : ast U) (v' : sess) (vs' : list sess) : Prop :=
    grown st vs (a_store s') vs' /\ I (a_usr s') (length (a_store s')) /\ stored v' (a_pos s') /\
    match r with Ok a => R a (length (a_store s')) | Err _ => True end.
  Definition jw {A} (p : P A) (m : nat) (R : A -> nat -> Prop) : Prop :=
    forall st u v vs pos, stored v pos -> Forall2 stored vs st -> I u (length st) -> (m <= length st)%nat ->
    dw f B p (mkA pos st u) v vs (jpost st vs R).
  Notation any := (fun _ _ => True).

  Lemma jw_gw {A} (p : P A) m : (forall pos, gw pos [] p pos (fun _ q => pos <= q)) -> jw p m any.
  Proof.
    intros H st u v vs pos [Hv Hb] HF HI Hm. eapply dw_conseq; [apply (H pos); auto; constructor|].
    intros r s2 v2 vs2 (G2 & HI2 & Hv2 & HX2). repeat split; auto; try apply Hv2; [|destruct r; auto]. destruct r; [destruct HX2; lia|auto].
  Qed.
  Lemma jw_conseq {A} (p : P A) m (R R' : A -> nat -> Prop) : jw p m R -> (forall a n, (m <= n)%nat -> R a n -> R' a n) -> jw p m R'.
  Proof.
    intros H HR st u v vs pos Hv HF HI Hm. eapply dw_conseq; [apply H; auto|]. intros r s2 v2 vs2 (G2 & HI2 & Hv2 & HX2).
    split; [auto|]. split; [auto|]. split; [auto|]. pose proof (grown_len _ _ _ _ G2). destruct r; auto. apply HR; auto. lia.
  Qed.
  Lemma jw_ret {A} (a : A) m (R : A -> nat -> Prop) : (forall n, (m <= n)%nat -> R a n) -> jw (Ret a) m R.
  Proof. intros H st u v vs pos Hv HF HI Hm. cbn [dw]. unfold jpost; auto using grown_refl. Qed.
  Lemma jw_throw {A} e m (R : A -> nat -> Prop) : jw (Throw e) m R.
  Proof. intros st u v vs pos Hv HF HI Hm. cbn [dw]. unfold jpost; auto using grown_refl. Qed.
  Lemma jw_bind {A C} (p : P A) (g : A -> P C) m R R' : jw p m R -> (forall a n, (m <= n)%nat -> R a n -> jw (g a) n R') -> jw (bind p g) m R'.
  Proof.
    intros H Hg st u v vs pos Hv HF HI Hm. apply dw_bind. eapply dw_conseq; [apply H; auto|].
    intros r s' v' vs' (G & HI' & Hv' & HX). destruct r as [a|e]; [|unfold jpost; auto].
    destruct s' as [pos' st' u']. cbn [a_store a_usr a_pos] in *. pose proof (grown_len _ _ _ _ G).
    eapply dw_conseq; [apply (Hg a (length st')); auto; [lia|eapply grown_stored; eauto]|].
    intros r s2 v2 vs2 (G2 & HI2 & Hv2 & HX2). split; [eapply grown_trans; eauto|]. auto.
  Qed.
  Lemma jw_catch {A} (p : P A) hd (g : exn -> P A) m R : jw p m R -> (forall e, hd e = true -> jw (g e) m R) -> jw (catch p hd g) m R.
  Proof.
    intros H Hg st u v vs pos Hv HF HI Hm. apply dw_catch. eapply dw_conseq; [apply H; auto|].
    intros r s' v' vs' (G & HI' & Hv' & HX). destruct r as [a|e]; [unfold jpost; auto|].
    destruct (hd e) eqn:Eh; cbn [andb]; [|unfold jpost; auto]. destruct (negb (exn_eqb e OutOfFuel)); [|unfold jpost; auto].
    destruct s' as [pos' st' u']. cbn [a_store a_usr a_pos] in *. pose proof (grown_len _ _ _ _ G).
    eapply dw_conseq; [apply (Hg e); auto; [eapply grown_stored; eauto|lia]|].
    intros r s2 v2 vs2 (G2 & HI2 & Hv2 & HX2). split; [eapply grown_trans; eauto|]. auto.
  Qed.
  Lemma jw_Reset {A} o (k : P A) m R : 0 <= o -> jw k m R -> jw (Reset o k) m R.
  Proof.
    intros Ho H st u v vs pos Hv HF HI Hm. cbn [dw a_store a_usr]. apply H; auto. unfold stored, fine, reset_pos, sess_reset.
    replace (0 <=? o) with true by lia. cbn. repeat split. lia.
  Qed.
  Lemma jw_Restore {A} h (k : P A) m R : (h < m)%nat -> jw k m R -> jw (Restore h k) m R.
  Proof.
    intros Hh H st u v vs pos Hv HF HI Hm. cbn [dw a_store a_usr]. destruct (stored_at _ _ HF h ltac:(lia)) as (q & w & -> & -> & Hw).
    apply H; auto.
  Qed.
  Lemma jw_Save {A} (k : nat -> P A) m R : (forall h, jw (k h) (S h) R) -> jw (Save k) m R.
  Proof.
    intros H st u v vs pos Hv HF HI Hm. cbn [dw a_store a_usr a_pos].
    assert (grown st vs (st ++ [pos]) (vs ++ [v])) as G.
    { exists [pos], [v]. repeat split; auto. }
    pose proof (grown_stored _ _ _ _ G HF) as HF'. 
    eapply dw_conseq; [apply (H (length st) (st ++ [pos]) u v (vs ++ [v]) pos); auto; [|rewrite app_length; cbn; lia]|].
    - eapply I_mono; eauto. rewrite app_length. lia.
    - intros r s2 v2 vs2 (G2 & HI2 & Hv2 & HX2). split; [eapply grown_trans; eauto|]. auto.
  Qed.
  Lemma jw_GetU {A} (k : U -> P A) m R : (forall u n, (m <= n)%nat -> I u n -> jw (k u) n R) -> jw (GetU k) m R.
  Proof. intros H st u v vs pos Hv HF HI Hm. cbn [dw a_usr]. eapply (H u (length st)); auto. Qed.
  Lemma jw_SetU {A} (k : P A) u' m R : (forall n, (m <= n)%nat -> I u' n) -> jw k m R -> jw (SetU u' k) m R.
  Proof. intros Hu H st u v vs pos Hv HF HI Hm. cbn [dw a_usr]. apply H; auto. Qed.
  (** Going away and coming back is a step of the session. *)
  Lemma gw_excursion {A C} lo hs (p : P A) (g : A -> P C) pos R : lo <= pos -> (forall m, jw p m any) ->
    (forall a, gw lo hs (g a) pos R) -> gw lo hs (bind save (fun h => bind p (fun a => bind (restore h) (fun _ => g a)))) pos R.
  Proof.
    intros Hp Hj Hg st u v vs Hv Hb HF HK HI. unfold save. cbn [bind dw a_pos a_store a_usr]. apply dw_bind.
    assert (grown st vs (st ++ [pos]) (vs ++ [v])) as G.
    { exists [pos], [v]. repeat split; auto. constructor; [|constructor]. split; [auto|lia]. }
    pose proof (grown_stored _ _ _ _ G HF) as HF'. pose proof (stored_len _ _ HF) as HL.
    eapply dw_conseq; [apply (Hj 0%nat (st ++ [pos]) u v (vs ++ [v]) pos); auto; [split; [auto|lia]| |lia]|].
    { eapply I_mono; eauto. rewrite app_length. lia. }
    intros r s' v' vs' (G2 & HI2 & Hv2 & _). pose proof (grown_trans _ _ _ _ _ _ G G2) as G3.
    destruct s' as [pos' st' u']. cbn [a_store a_usr a_pos] in *.
    destruct r as [a|e]; [|destruct Hv2; unfold gpost; auto].
    unfold restore. cbn [bind dw a_pos a_store a_usr].
    rewrite (grown_nth _ _ _ _ (length st) pos G2) by (rewrite nth_error_app2, Nat.sub_diag by lia; reflexivity).
    rewrite (grown_nthv _ _ _ _ (length st) v G2) by (rewrite nth_error_app2 by lia; replace (length st - length vs)%nat with 0%nat by lia; reflexivity).
    eapply dw_conseq; [apply (Hg a st' u' v vs'); auto; [eapply grown_stored; eauto|eapply grown_known; eauto]|].
    intros r s2 v2 vs2 (G4 & HI4 & Hv4 & HX4). split; [eapply grown_trans; eauto|]. auto.
  Qed.
End GW.
