(** The object registry: registrations only add, and runs that change the user state. *)
From Coq Require Import String.
From Verif Require Import Prelude M_Prog M_Parser L_Prog M_Filters M_Document L_User.
Local Open Scope Z_scope.
Local Open Scope prog_scope.

Lemma rget_rset r n g v n' g' : rget (rset r n g v) n' g' = if (n' =? n) && (g' =? g) then Some v else rget r n' g'.
Proof.
  induction r as [|[[n0 g0] w] r IH]; cbn [rset rget].
  - destruct ((n' =? n) && (g' =? g)); auto.
  - destruct ((n =? n0) && (g =? g0)) eqn:E; cbn [rget].
    + apply andb_true_iff in E. destruct E as [E1 E2]. apply Z.eqb_eq in E1, E2. subst.
      destruct ((n' =? n0) && (g' =? g0)); auto.
    + rewrite IH. destruct ((n' =? n0) && (g' =? g0)) eqn:E'; auto.
      apply andb_true_iff in E'. destruct E' as [E1 E2]. apply Z.eqb_eq in E1, E2. subst.
      rewrite (Z.eqb_sym n0), (Z.eqb_sym g0), E. reflexivity.
Qed.
Definition extends (r r' : regs) : Prop := forall n g v, rget r n g = Some v -> rget r' n g = Some v.
Lemma extends_refl r : extends r r. Proof. intros n g v H; exact H. Qed.
Lemma extends_trans a b c : extends a b -> extends b c -> extends a c.
Proof. intros H1 H2 n g v H. auto. Qed.
Lemma extends_rset r n g v : rget r n g = None -> extends r (rset r n g v).
Proof.
  intros H n' g' v' H'. rewrite rget_rset. destruct ((n' =? n) && (g' =? g)) eqn:E; auto.
  apply andb_true_iff in E. destruct E as [E1 E2]. apply Z.eqb_eq in E1, E2. subst. congruence.
Qed.

Section Reg.
  Lemma mv_header {U} (R : U -> U -> Prop) n : forall k, mv R (header_ints k n).
  Proof. induction k; cbn [header_ints]; mv_go. Qed.
  Lemma mv_unpack {U} (R : U -> U -> Prop) (reg : Z -> Z -> obj -> prog U unit) first n :
    (forall a b v, mv R (reg a b v)) -> forall k pairs, (List.length pairs <= k)%nat -> mv R (unpack reg first pairs n).
  Proof.
    intros HR. induction k as [|k IH]; intros [|a [|b pairs]] Hk; cbn [unpack List.length] in *; try apply mv_ret; try lia.
    destruct (as_range first); [|apply mv_throw].
    apply mv_bind; [apply mv_reset|intros]. apply mv_bind; [apply mv_object; intros; apply mv_ret|intros].
    apply mv_bind; [apply HR|intros]. apply IH. lia.
  Qed.

  Variable inflate : list Z -> option (list Z).
  Variable ccitt : list Z -> fparams -> res (list Z).
  Notation register := (register inflate ccitt).

  (** Whatever is registered stays, also when registering raises. *)
  Lemma register_extends : forall k r num gen v, extends r (fst (register k false r num gen v)).
  Proof.
    induction k as [|k IH]; intros r num gen v; cbn [M_Document.register]; [apply extends_refl|].
    cbn [orb]. unfold is_registered. destruct (rget r num gen) as [w|] eqn:E; cbn [negb]; [apply extends_refl|].
    assert (extends r (rset r num gen v)) as H1 by now apply extends_rset.
    destruct v; auto. destruct (is_name _ _); auto. destruct (filtered inflate ccitt d data) as [dt|]; auto.
    destruct (dget d (bs "First")) as [first|]; auto. destruct (dget d (bs "N")) as [cnt|]; auto.
    destruct (as_range cnt) as [c|]; auto.
    match goal with |- context [arun ?F ?P ?S] => pose proof (mv_sound extends F P S extends_refl) as HM; destruct (arun F P S) as [out s'] end.
    cbn [fst snd a_usr] in *. eapply extends_trans; [exact H1|]. apply HM.
    apply mv_bind; [apply mv_header|intros]. eapply mv_unpack; [|apply Nat.le_refl].
    intros a0 b0 v0 u0 u Hu. cbn. pose proof (IH u a0 b0 v0) as HI. destruct (register k false u a0 b0 v0) as [u' oe]. cbn [fst] in HI.
    assert (extends u0 u') by (eapply extends_trans; eauto). cbn. destruct oe; cbn; auto.
  Qed.
  Lemma register_new k r num gen v : rget r num gen = None -> rget (fst (register (S k) false r num gen v)) num gen = Some v.
  Proof.
    intros E. 
    assert (extends (rset r num gen v) (fst (register (S k) false r num gen v))) as H.
    { cbn [M_Document.register orb]. unfold is_registered. rewrite E. cbn [negb].
      destruct v; try apply extends_refl. destruct (is_name _ _); try apply extends_refl. destruct (filtered inflate ccitt d data) as [dt|]; try apply extends_refl.
      destruct (dget d (bs "First")) as [first|]; try apply extends_refl. destruct (dget d (bs "N")) as [cnt|]; try apply extends_refl.
      destruct (as_range cnt) as [c|]; try apply extends_refl.
      match goal with |- context [arun ?F ?P ?S] => pose proof (mv_sound extends F P S extends_refl) as HM; destruct (arun F P S) as [out s'] end.
      cbn [fst snd a_usr] in *. apply HM.
      apply mv_bind; [apply mv_header|intros]. eapply mv_unpack; [|apply Nat.le_refl].
      intros a0 b0 v0 u0 u Hu. cbn. pose proof (register_extends k u a0 b0 v0) as HI. destruct (register k false u a0 b0 v0) as [u' oe]. cbn [fst] in HI.
      assert (extends u0 u') by (eapply extends_trans; eauto). cbn. destruct oe; cbn; auto. }
    apply H. rewrite rget_rset, !Z.eqb_refl. reflexivity.
  Qed.
  Lemma register_old k force r num gen v w : rget r num gen = Some w -> force = false -> (0 < k)%nat -> register k force r num gen v = (r, None).
  Proof. intros E -> Hk. destruct k; [lia|]. cbn [M_Document.register orb]. unfold is_registered. rewrite E. reflexivity. Qed.
  Lemma register_plain k r num gen v : (forall d raw, v <> OStream d raw) ->
    register (S k) false r num gen v = (if is_registered r num gen then r else rset r num gen v, None).
  Proof.
    intros H. cbn [M_Document.register orb]. destruct (is_registered r num gen); cbn [negb]; auto. destruct v; auto. now elim (H d data).
  Qed.
End Reg.

(** Runs that move the user state. *)
Definition uruns {U A} (f : list Z) (p : prog U A) (pos : Z) (u : U) (r : res A) (pos' : Z) (u' : U) : Prop :=
  forall st, exists ex, arun f p (mkA pos st u) = (r, mkA pos' (st ++ ex) u').
Lemma uruns_of {U A} f (p : prog U A) pos r q (u : U) : runs f p pos r q -> uruns f p pos u r q u.
Proof. intros H st. apply H. Qed.
Lemma uruns_ret {U A} f (a : A) pos (u : U) : uruns f (ret a) pos u (Ok a) pos u.
Proof. intros st. exists []. now rewrite app_nil_r. Qed.
Lemma uruns_bind {U A B} f (p : prog U A) (g : A -> prog U B) pos a q r q' (u u1 u2 : U) :
  uruns f p pos u (Ok a) q u1 -> uruns f (g a) q u1 r q' u2 -> uruns f (bind p g) pos u r q' u2.
Proof.
  intros H1 H2 st. destruct (H1 st) as [ex E1]. destruct (H2 (st ++ ex)) as [ex2 E2].
  exists (ex ++ ex2). now rewrite arun_bind, E1, E2, app_assoc.
Qed.
Lemma uruns_bind_err {U A B} f (p : prog U A) (g : A -> prog U B) pos e q (u u1 : U) :
  uruns f p pos u (Err e) q u1 -> uruns f (bind p g) pos u (Err e) q u1.
Proof. intros H1 st. destruct (H1 st) as [ex E1]. exists ex. now rewrite arun_bind, E1. Qed.
Lemma uruns_getu {U A} f (g : U -> prog U A) pos (u : U) r q u' : uruns f (g u) pos u r q u' -> uruns f (bind getu g) pos u r q u'.
Proof. intros H st. apply (H st). Qed.
Lemma uruns_setu {U A} f (g : unit -> prog U A) pos (u v : U) r q u' : uruns f (g tt) pos v r q u' -> uruns f (bind (setu v) g) pos u r q u'.
Proof. intros H st. apply (H st). Qed.
Lemma uruns_reset {U A} f (g : unit -> prog U A) o pos (u : U) r q u' : uruns f (g tt) (reset_pos f o) u r q u' -> uruns f (bind (reset o) g) pos u r q u'.
Proof. intros H st. apply (H st). Qed.

Lemma arun_catch_ok {U A} f (p : prog U A) hd h : forall s a s', arun f p s = (Ok a, s') -> arun f (catch p hd h) s = (Ok a, s').
Proof.
  induction p as [a0|e|k IH|k IH|k IH|o k IH|k IH|x k IH|k IH|k IH|u k IH]; intros s a s' H; cbn [catch arun] in *; auto.
  - discriminate.
  - destruct (nth_error (a_store s) x); auto. 
Qed.
Lemma arun_catch_err {U A} f (p : prog U A) hd h : forall s e s', arun f p s = (Err e, s') -> e <> KeyErr ->
  arun f (catch p hd h) s = if hd e && negb (exn_eqb e OutOfFuel) then arun f (h e) s' else (Err e, s').
Proof.
  induction p as [a0|e0|k IH|k IH|k IH|o k IH|k IH|x k IH|k IH|k IH|u k IH]; intros s e s' H He; cbn [catch arun] in *; auto.
  - discriminate.
  - inversion H; subst. destruct (hd e && negb (exn_eqb e OutOfFuel)); auto.
  - destruct (nth_error (a_store s) x); auto. inversion H; subst. contradiction.
Qed.
Lemma uruns_catch_ok {U A} f (p : prog U A) hd h pos (u : U) a q u' : uruns f p pos u (Ok a) q u' -> uruns f (catch p hd h) pos u (Ok a) q u'.
Proof. intros H st. destruct (H st) as [ex E]. exists ex. now apply arun_catch_ok. Qed.
Lemma uruns_catch_err {U A} f (p : prog U A) hd h pos (u : U) e q u1 r q' u' : uruns f p pos u (Err e) q u1 -> e <> KeyErr ->
  hd e && negb (exn_eqb e OutOfFuel) = true -> uruns f (h e) q u1 r q' u' -> uruns f (catch p hd h) pos u r q' u'.
Proof.
  intros H He Hh H2 st. destruct (H st) as [ex E]. destruct (H2 (st ++ ex)) as [ex2 E2]. exists (ex ++ ex2).
  rewrite (arun_catch_err f p hd h _ _ _ E He), Hh, E2, app_assoc. reflexivity.
Qed.
