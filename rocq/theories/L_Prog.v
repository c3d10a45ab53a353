(** Reasoning tools for programs on the plain cursor. *)
From Verif Require Import Prelude M_Prog M_Buffer S_Buffer L_Buffer.
Local Open Scope Z_scope.
Local Open Scope prog_scope.

Lemma arun_bind {U A B} f (p : prog U A) (g : A -> prog U B) : forall s,
  arun f (bind p g) s =
  match arun f p s with (Ok a, s') => arun f (g a) s' | (Err e, s') => (Err e, s') end.
Proof.
  induction p as [a|e|k IH|k IH|k IH|o k IH|k IH|h k IH|k IH|k IH|u k IH]; intros s; cbn [bind arun]; auto.
  destruct (nth_error (a_store s) h); auto.
Qed.

(** Every read is at a position >= lo; no reset, no use of the buffer index. *)
Fixpoint above {U A} (f : list Z) (lo : Z) (p : prog U A) (s : ast U) : Prop :=
  match p with
  | Ret _ | Throw _ => True
  | Cur k => lo <= a_pos s /\ above f lo (k (znth f (a_pos s))) s
  | Next k => lo <= a_pos s /\ above f lo (k (znth f (a_pos s))) (mkA (a_pos s + 1) (a_store s) (a_usr s))
  | Prev k => lo <= a_pos s /\ above f lo (k (znth f (a_pos s))) (mkA (a_pos s - 1) (a_store s) (a_usr s))
  | Reset o k => False
  | Save k => above f lo (k (List.length (a_store s))) (mkA (a_pos s) (a_store s ++ [a_pos s]) (a_usr s))
  | Restore h k => match nth_error (a_store s) h with
                   | Some q => above f lo k (mkA q (a_store s) (a_usr s))
                   | None => False
                   end
  | Index k => False
  | GetU k => above f lo (k (a_usr s)) s
  | SetU u k => above f lo k (mkA (a_pos s) (a_store s) u)
  end.

Lemma above_bind {U A B} f lo (p : prog U A) (g : A -> prog U B) : forall s,
  above f lo p s ->
  (forall a s', arun f p s = (Ok a, s') -> above f lo (g a) s') ->
  above f lo (bind p g) s.
Proof.
  induction p as [a|e|k IH|k IH|k IH|o k IH|k IH|h k IH|k IH|k IH|u k IH]; intros s Ha Hk;
    cbn [bind above arun] in *; auto.
  - destruct Ha; split; auto.
  - destruct Ha; split; auto.
  - destruct Ha; split; auto.
  - destruct (nth_error (a_store s) h); auto.
Qed.

(** As M_Prog.catch, a handled exception continues with [h]; with a missing handle (which
    [above] excludes) the two could differ. *)
Lemma arun_catch {U A} f lo (p : prog U A) hd h : forall s, above f lo p s ->
  arun f (catch p hd h) s =
  match arun f p s with
  | (Ok a, s') => (Ok a, s')
  | (Err e, s') => if hd e && negb (exn_eqb e OutOfFuel) then arun f (h e) s' else (Err e, s')
  end.
Proof.
  induction p as [a|e|k IH|k IH|k IH|o k IH|k IH|x k IH|k IH|k IH|u k IH]; intros s Ha; cbn [catch arun above] in *; auto.
  - destruct (hd e && negb (exn_eqb e OutOfFuel)); auto.
  - apply IH; tauto.
  - apply IH; tauto.
  - apply IH; tauto.
  - contradiction.
  - destruct (nth_error (a_store s) x) eqn:E; auto. contradiction.
  - contradiction.
Qed.

Lemma above_catch {U A} f lo (p : prog U A) hd h : forall s,
  above f lo p s ->
  (forall e s', arun f p s = (Err e, s') -> hd e = true -> e <> OutOfFuel -> above f lo (h e) s') ->
  above f lo (catch p hd h) s.
Proof.
  induction p as [a|e|k IH|k IH|k IH|o k IH|k IH|x k IH|k IH|k IH|u k IH]; intros s Ha Hk;
    cbn [catch above arun] in *; auto.
  - destruct (hd e) eqn:E1; cbn [andb]; [|exact I].
    destruct (exn_eqb e OutOfFuel) eqn:E2; cbn [negb]; [exact I|].
    apply (Hk e s); auto. intro. apply exn_eqb_eq in H. congruence.
  - destruct Ha; split; auto.
  - destruct Ha; split; auto.
  - destruct Ha; split; auto.
  - destruct (nth_error (a_store s) x); auto.
Qed.

Lemma above_forward {U A} f lo (p : prog U A) : forall s b bs_,
  b <= lo -> length bs_ = length (a_store s) -> Forall (fun x => x <= lo) bs_ ->
  above f lo p s -> forward_only f p s b bs_.
Proof.
  induction p as [a|e|k IH|k IH|k IH|o k IH|k IH|h k IH|k IH|k IH|u k IH]; intros s b bs_ Hb Hl Hf Ha;
    cbn [above forward_only] in *; auto; try contradiction.
  1-3: destruct Ha; split; [lia|]; apply IH; auto.
  - apply IH; auto; cbn [a_store]; rewrite ?app_length; cbn; auto.
    apply Forall_app; auto.
  - destruct (nth_error (a_store s) h) as [q|]; [|contradiction].
    destruct (nth_error bs_ h) as [w|] eqn:E; auto. apply IH; auto.
    rewrite Forall_forall in Hf. apply Hf. eapply nth_error_In; eauto.
Qed.

Lemma above_mono {U A} f lo lo' (p : prog U A) : lo' <= lo -> forall s, above f lo p s -> above f lo' p s.
Proof.
  intros Hl. induction p as [a|e|k IH|k IH|k IH|o k IH|k IH|h k IH|k IH|k IH|u k IH]; intros s Ha;
    cbn [above] in *; auto.
  1-3: destruct Ha; split; [lia|auto].
  destruct (nth_error (a_store s) h); auto.
Qed.

(** Saved positions known to the proof: handle -> position. *)
Definition known (hs : list (nat * Z)) (st : list Z) : Prop :=
  Forall (fun hq => nth_error st (fst hq) = Some (snd hq)) hs.

Lemma known_app hs st ex : known hs st -> known hs (st ++ ex).
Proof.
  unfold known. apply Forall_impl. intros [h q] H; cbn [fst snd] in *.
  rewrite nth_error_app1; auto. apply nth_error_Some. congruence.
Qed.

(** [wp f lo hs p pos Q]: from position [pos], with saved positions [hs], the program reads only at
    positions >= lo, leaves the user state alone, only adds saved states, and ends with an
    outcome and position satisfying [Q]. *)
Definition wp {U A} (f : list Z) (lo : Z) (hs : list (nat * Z)) (p : prog U A) (pos : Z)
    (Q : res A -> Z -> Prop) : Prop :=
  forall st u, known hs st ->
    exists r pos' ex, arun f p (mkA pos st u) = (r, mkA pos' (st ++ ex) u) /\
                      Q r pos' /\ above f lo p (mkA pos st u).

Section WP.
  Context {U : Type}.
  Variables (f : list Z) (lo : Z).

  Lemma wp_conseq {A} hs (p : prog U A) pos (Q Q' : res A -> Z -> Prop) :
    wp f lo hs p pos Q -> (forall r q, Q r q -> Q' r q) -> wp f lo hs p pos Q'.
  Proof. intros H HQ st u Hk. destruct (H st u Hk) as (r & q & ex & E & HH & A0). exists r, q, ex; auto. Qed.

  Lemma wp_hs {A} hs hs' (p : prog U A) pos Q :
    wp f lo hs p pos Q -> (forall x, In x hs -> In x hs') -> wp f lo hs' p pos Q.
  Proof.
    intros H Hi st u Hk. apply H. unfold known in *. rewrite Forall_forall in *. auto.
  Qed.

  Lemma wp_ret {A} hs (a : A) pos (Q : res A -> Z -> Prop) : Q (Ok a) pos -> wp f lo hs (@Ret U A a) pos Q.
  Proof. intros H st u _. exists (Ok a), pos, []. rewrite app_nil_r. cbn. auto. Qed.

  Lemma wp_throw {A} hs e pos (Q : res A -> Z -> Prop) : Q (Err e) pos -> wp f lo hs (@Throw U A e) pos Q.
  Proof. intros H st u _. exists (Err e), pos, []. rewrite app_nil_r. cbn. auto. Qed.

  Lemma wp_bind {A B} hs (p : prog U A) (g : A -> prog U B) pos (Q1 : res A -> Z -> Prop) (Q : res B -> Z -> Prop) :
    wp f lo hs p pos Q1 ->
    (forall a q, Q1 (Ok a) q -> wp f lo hs (g a) q Q) ->
    (forall e q, Q1 (Err e) q -> Q (Err e) q) ->
    wp f lo hs (bind p g) pos Q.
  Proof.
    intros H H1 H2 st u Hk. destruct (H st u Hk) as (r & q & ex & E & HQ & A0).
    destruct r as [a|e].
    - destruct (H1 a q HQ (st ++ ex) u (known_app _ _ _ Hk)) as (r2 & q2 & ex2 & E2 & HQ2 & A2).
      exists r2, q2, (ex ++ ex2). rewrite arun_bind, E, E2, app_assoc. repeat split; auto.
      apply above_bind; auto. intros a' s' E'. rewrite E in E'. inversion E'; subst; auto.
    - exists (Err e), q, ex. rewrite arun_bind, E. repeat split; auto.
      apply above_bind; auto. intros a' s' E'. rewrite E in E'. inversion E'.
  Qed.

  Lemma wp_Cur {A} hs (k : option Z -> prog U A) pos Q :
    lo <= pos -> wp f lo hs (k (znth f pos)) pos Q -> wp f lo hs (Cur k) pos Q.
  Proof.
    intros Hp H st u Hk. destruct (H st u Hk) as (r & q & ex & E & HQ & A0). exists r, q, ex. cbn. auto.
  Qed.
  Lemma wp_Next {A} hs (k : option Z -> prog U A) pos Q :
    lo <= pos -> wp f lo hs (k (znth f pos)) (pos + 1) Q -> wp f lo hs (Next k) pos Q.
  Proof.
    intros Hp H st u Hk. destruct (H st u Hk) as (r & q & ex & E & HQ & A0). exists r, q, ex. cbn. auto.
  Qed.
  Lemma wp_Prev {A} hs (k : option Z -> prog U A) pos Q :
    lo <= pos -> wp f lo hs (k (znth f pos)) (pos - 1) Q -> wp f lo hs (Prev k) pos Q.
  Proof.
    intros Hp H st u Hk. destruct (H st u Hk) as (r & q & ex & E & HQ & A0). exists r, q, ex. cbn. auto.
  Qed.
  Lemma wp_Save {A} hs (k : nat -> prog U A) pos Q :
    (forall h, wp f lo ((h, pos) :: hs) (k h) pos Q) -> wp f lo hs (Save k) pos Q.
  Proof.
    intros H st u Hk.
    destruct (H (length st) (st ++ [pos]) u) as (r & q & ex & E & HQ & A0).
    - constructor; [cbn [fst snd]; rewrite nth_error_app2, Nat.sub_diag by lia; auto|]. apply known_app; auto.
    - exists r, q, ([pos] ++ ex). cbn [arun above a_store a_pos a_usr]. rewrite app_assoc. auto.
  Qed.
  Lemma wp_Restore {A} hs h q0 (k : prog U A) pos Q :
    In (h, q0) hs -> wp f lo hs k q0 Q -> wp f lo hs (Restore h k) pos Q.
  Proof.
    intros Hi H st u Hk. destruct (H st u Hk) as (r & q & ex & E & HQ & A0).
    unfold known in Hk. rewrite Forall_forall in Hk. specialize (Hk _ Hi). cbn [fst snd] in Hk.
    exists r, q, ex. cbn [arun above a_store a_pos a_usr]. rewrite Hk. auto.
  Qed.
  Lemma wp_catch {A} hs (p : prog U A) hd h pos (Q1 Q : res A -> Z -> Prop) :
    wp f lo hs p pos Q1 ->
    (forall a q, Q1 (Ok a) q -> Q (Ok a) q) ->
    (forall e q, Q1 (Err e) q -> hd e && negb (exn_eqb e OutOfFuel) = true -> wp f lo hs (h e) q Q) ->
    (forall e q, Q1 (Err e) q -> hd e && negb (exn_eqb e OutOfFuel) = false -> Q (Err e) q) ->
    wp f lo hs (catch p hd h) pos Q.
  Proof.
    intros H H1 H2 H3 st u Hk. destruct (H st u Hk) as (r & q & ex & E & HQ & A0).
    destruct r as [a|e].
    - exists (Ok a), q, ex. rewrite (arun_catch f lo), E by auto. repeat split; auto.
      apply above_catch; auto. intros e' s' E'. rewrite E in E'. inversion E'.
    - destruct (hd e && negb (exn_eqb e OutOfFuel)) eqn:Ee.
      + destruct (H2 e q HQ Ee (st ++ ex) u (known_app _ _ _ Hk)) as (r2 & q2 & ex2 & E2 & HQ2 & A2).
        exists r2, q2, (ex ++ ex2). rewrite (arun_catch f lo), E, Ee, E2, app_assoc by auto. repeat split; auto.
        apply above_catch; auto. intros e' s' E'. rewrite E in E'. inversion E'; subst; auto.
      + exists (Err e), q, ex. rewrite (arun_catch f lo), E, Ee by auto. repeat split; auto.
        apply above_catch; auto. intros e' s' E'. rewrite E in E'. inversion E'; subst.
        intros X Y. rewrite X in Ee. cbn in Ee. apply negb_false_iff, exn_eqb_eq in Ee. contradiction.
  Qed.
End WP.

(** Deterministic runs: [runs f p pos r pos'] — from [pos] the program yields [r] and stops at
    [pos'], whatever states were saved before, leaving the user state alone. *)
Definition runs {U A} (f : list Z) (p : prog U A) (pos : Z) (r : res A) (pos' : Z) : Prop :=
  forall st u, exists ex, arun f p (mkA pos st u) = (r, mkA pos' (st ++ ex) u).

Section Runs.
  Context {U : Type}.
  Variable f : list Z.

  Lemma runs_ret {A} (a : A) pos : runs f (@Ret U A a) pos (Ok a) pos.
  Proof. intros st u. exists []. now rewrite app_nil_r. Qed.
  Lemma runs_throw {A} e pos : runs f (@Throw U A e) pos (Err e) pos.
  Proof. intros st u. exists []. now rewrite app_nil_r. Qed.
  Lemma runs_bind {A B} (p : prog U A) (g : A -> prog U B) pos a q r q' :
    runs f p pos (Ok a) q -> runs f (g a) q r q' -> runs f (bind p g) pos r q'.
  Proof.
    intros H1 H2 st u. destruct (H1 st u) as [ex E1]. destruct (H2 (st ++ ex) u) as [ex2 E2].
    exists (ex ++ ex2). now rewrite arun_bind, E1, E2, app_assoc.
  Qed.
  Lemma runs_bind_err {A B} (p : prog U A) (g : A -> prog U B) pos e q :
    runs f p pos (Err e) q -> runs f (bind p g) pos (Err e) q.
  Proof. intros H1 st u. destruct (H1 st u) as [ex E1]. exists ex. now rewrite arun_bind, E1. Qed.
  Lemma runs_Cur {A} (k : option Z -> prog U A) pos r q :
    runs f (k (znth f pos)) pos r q -> runs f (Cur k) pos r q.
  Proof. intros H st u. apply (H st u). Qed.
  Lemma runs_Next {A} (k : option Z -> prog U A) pos r q :
    runs f (k (znth f pos)) (pos + 1) r q -> runs f (Next k) pos r q.
  Proof. intros H st u. apply (H st u). Qed.
  Lemma runs_Prev {A} (k : option Z -> prog U A) pos r q :
    runs f (k (znth f pos)) (pos - 1) r q -> runs f (Prev k) pos r q.
  Proof. intros H st u. apply (H st u). Qed.
  (** try: p except: restore the state saved on entry, then q *)
  Lemma runs_try_ok {A} (p q : prog U A) hd pos a pos' :
    runs f p pos (Ok a) pos' ->
    (forall st u, exists lo, above f lo p (mkA pos st u)) ->
    runs f (bind save (fun h => catch p hd (fun _ => bind (restore h) (fun _ => q)))) pos (Ok a) pos'.
  Proof.
    intros H Ha st u. cbn [bind save arun a_store a_pos a_usr].
    destruct (H (st ++ [pos]) u) as [ex E]. destruct (Ha (st ++ [pos]) u) as [lo HA].
    exists ([pos] ++ ex). rewrite (arun_catch f lo) by auto. now rewrite E, app_assoc.
  Qed.
  Lemma runs_try_err {A} (p q : prog U A) hd pos e pos1 r pos' :
    runs f p pos (Err e) pos1 -> hd e && negb (exn_eqb e OutOfFuel) = true ->
    runs f q pos r pos' ->
    (forall st u, exists lo, above f lo p (mkA pos st u)) ->
    runs f (bind save (fun h => catch p hd (fun _ => bind (restore h) (fun _ => q)))) pos r pos'.
  Proof.
    intros H He Hq Ha st u. cbn [bind save restore arun a_store a_pos a_usr].
    destruct (H (st ++ [pos]) u) as [ex E]. destruct (Ha (st ++ [pos]) u) as [lo HA].
    rewrite (arun_catch f lo) by auto. rewrite E, He. cbn [bind arun a_store].
    rewrite <- app_assoc, nth_error_app2, Nat.sub_diag by lia. cbn [app nth_error a_usr].
    destruct (Hq (st ++ pos :: ex) u) as [ex2 E2]. exists (pos :: ex ++ ex2).
    rewrite E2. f_equal. f_equal. rewrite <- app_assoc. cbn. reflexivity.
  Qed.
End Runs.

(** The rest of the file from a position. *)
Definition At (f : list Z) (pos : Z) (l : list Z) : Prop := 0 <= pos /\ skipn (Z.to_nat pos) f = l.

Lemma At_cons f pos x l : At f pos (x :: l) -> znth f pos = Some x /\ At f (pos + 1) l.
Proof.
  intros [Hp H]. unfold znth. replace (pos <? 0) with false by lia. split.
  - revert H. generalize (Z.to_nat pos). clear. intros n. revert f. induction n as [|n IH]; intros [|y f]; simpl; intros H; try discriminate; try congruence; auto.
  - split; [lia|]. replace (Z.to_nat (pos + 1)) with (S (Z.to_nat pos)) by lia.
    revert H. generalize (Z.to_nat pos). clear. intros n. revert f. induction n as [|n IH]; intros [|y f] H; simpl in *; try discriminate; try congruence.
    apply IH; auto.
Qed.
Lemma At_nil f pos : At f pos [] -> znth f pos = None.
Proof.
  intros [Hp H]. apply znth_None. right. unfold zlen.
  assert (length (skipn (Z.to_nat pos) f) = 0%nat) as E by (rewrite H; auto).
  rewrite skipn_length in E. lia.
Qed.
Lemma At_app f pos a l : At f pos (a ++ l) -> At f (pos + zlen a) l.
Proof.
  revert pos. induction a as [|x a IH]; intros pos H; simpl in *.
  - rewrite zlen_nil, Z.add_0_r. auto.
  - apply At_cons in H. rewrite zlen_cons, Z.add_assoc. apply IH; tauto.
Qed.
Lemma At_start f pre l : f = pre ++ l -> At f (zlen pre) l.
Proof.
  intros ->. split; [apply zlen_nonneg|]. unfold zlen. rewrite Nat2Z.id.
  rewrite skipn_app, skipn_all, Nat.sub_diag. auto.
Qed.
Lemma At_head f pos l : At f pos l -> znth f pos = hd_error l.
Proof.
  intros H. destruct l as [|x l]; cbn; [apply At_nil; auto|]. apply At_cons in H. tauto.
Qed.
