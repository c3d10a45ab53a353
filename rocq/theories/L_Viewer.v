(** Lemmas about the viewers' interpreter. *)
From Coq Require Import String.
From Verif Require Import Prelude M_Parser M_Text M_Objects P_Objects M_Viewer S_Viewer.
Local Open Scope Z_scope.
Local Open Scope vm_scope.

(** A computation that, when it succeeds, relates the states before and after by [R]. *)
Definition keeps {A} (R : vst -> vst -> Prop) (m : vm A) : Prop := forall s a s', m s = (Ok a, s') -> R s s'.
Lemma keeps_bind {A B} (R : vst -> vst -> Prop) (m : vm A) (k : A -> vm B) :
  (forall a b c, R a b -> R b c -> R a c) -> keeps R m -> (forall a, keeps R (k a)) -> keeps R (vbind m k).
Proof.
  intros T Hm Hk s a s' H. unfold vbind in H. destruct (m s) as [[x|e] s1] eqn:E; [|discriminate].
  eapply T; [eapply Hm; eauto|eapply Hk; eauto].
Qed.
Lemma keeps_ret {A} (R : vst -> vst -> Prop) (a : A) : (forall s, R s s) -> keeps R (vret a).
Proof. intros T s b s' H. inversion H. apply T. Qed.
Lemma keeps_lift {A} (R : vst -> vst -> Prop) (r : res A) : (forall s, R s s) -> keeps R (vlift r).
Proof. intros T s b s' H. inversion H. apply T. Qed.
Lemma keeps_get (R : vst -> vst -> Prop) : (forall s, R s s) -> keeps R vget.
Proof. intros T s b s' H. inversion H. apply T. Qed.
Lemma keeps_mod (R : vst -> vst -> Prop) g : (forall s, R s (g s)) -> keeps R (vmod g).
Proof. intros T s b s' H. inversion H. apply T. Qed.

(** Same stack below the top. *)
Definition top_only (g g' : list gstate) : Prop :=
  match g with
  | [] => g' = [] \/ exists s, g' = [s]
  | _ :: r => exists s, g' = s :: r
  end.
Lemma top_only_refl g : top_only g g.
Proof. destruct g; cbn; eauto. Qed.
Lemma top_only_trans a b c : top_only a b -> top_only b c -> top_only a c.
Proof.
  destruct a as [|x a]; cbn.
  - intros [->|[s ->]]; cbn; [auto|]. intros [t ->]. eauto.
  - intros [s ->]; cbn. auto.
Qed.
Lemma top_only_state g : top_only g (snd (gss_state g)).
Proof. destruct g; cbn; eauto. Qed.
Lemma top_only_set g f v : top_only g (gss_set g f v).
Proof. destruct g; cbn; eauto. Qed.
Definition Rtop (a b : vst) : Prop := top_only (v_gss a) (v_gss b).
Lemma Rtop_refl s : Rtop s s. Proof. apply top_only_refl. Qed.
Lemma Rtop_trans a b c : Rtop a b -> Rtop b c -> Rtop a c. Proof. apply top_only_trans. Qed.
#[export] Hint Resolve Rtop_refl Rtop_trans top_only_refl top_only_state top_only_set : vw.

Lemma is_named w i name args : i = COp name args -> (~ named w i <-> eqlZ name (bs w) = false).
Proof.
  intros ->. split.
  - intros H. destruct (eqlZ name (bs w)) eqn:E; auto. apply eqlZ_eq in E. subst. exfalso. apply H. now exists args.
  - intros H [a Ha]. inversion Ha. subst. rewrite eqlZ_refl in H. discriminate.
Qed.

Lemma alias_eq name w : w <> bs "apostrophe" -> w <> bs "quotation" -> w <> bs "Tstar" -> w <> [39] -> w <> [34] -> w <> bs "T*" ->
  eqlZ (alias name) w = eqlZ name w.
Proof.
  intros. unfold alias.
  destruct (eqlZ name [39]) eqn:E1; [apply eqlZ_eq in E1; subst; transitivity false; [|symmetry]; apply eqlZ_neq; congruence|].
  destruct (eqlZ name [34]) eqn:E2; [apply eqlZ_eq in E2; subst; transitivity false; [|symmetry]; apply eqlZ_neq; congruence|].
  destruct (eqlZ name (bs "T*")) eqn:E3; [apply eqlZ_eq in E3; subst; transitivity false; [|symmetry]; apply eqlZ_neq; congruence|].
  reflexivity.
Qed.
Ltac alias_tac := rewrite alias_eq by (vm_compute; discriminate).

Section V.
  Variable real_str : bool -> Z -> Z -> list Z.
  Variable show : option bv -> obj -> res (list Z).
  Variable fc : bv -> res (list citem * option exn).
  Variable fr : bv -> res resources.

  Ltac kp := repeat first
    [ match goal with |- keeps _ (vbind _ _) => apply keeps_bind; [exact Rtop_trans| |intros ?] end
    | match goal with |- keeps _ (vret _) => apply keeps_ret; exact Rtop_refl end
    | match goal with |- keeps _ (vlift _) => apply keeps_lift; exact Rtop_refl end
    | match goal with |- keeps _ vget => apply keeps_get; exact Rtop_refl end
    | match goal with |- keeps _ (vmod _) => apply keeps_mod; intros ?; unfold Rtop; cbn [v_gss]; auto with vw; fail end ].

  Lemma k_decode rs o : keeps Rtop (decode show rs o).
  Proof. unfold decode, with_gss. kp. Qed.
  Lemma k_add_string t : keeps Rtop (add_string t). Proof. unfold add_string, with_cv. kp. Qed.
  Lemma k_add_text t : keeps Rtop (add_text t). Proof. unfold add_text, with_cv. kp. Qed.
  Lemma k_add_inline t : keeps Rtop (add_inline t). Proof. unfold add_inline, with_cv. kp. Qed.
  Lemma k_arg0 args : keeps Rtop (arg0 args). Proof. destruct args; cbn [arg0]; kp. Qed.
  Lemma k_show_all rs l : keeps Rtop (show_all show rs l).
  Proof.
    induction l as [|x l IH]; [cbn [show_all]; kp|].
    destruct x; cbn [show_all]; kp; auto using k_decode, k_add_string.
  Qed.
  Lemma k_on_Tj rs args : keeps Rtop (on_Tj show rs args).
  Proof. unfold on_Tj. kp; auto using k_arg0, k_decode, k_add_string. Qed.
  Lemma k_on_TJ rs args : keeps Rtop (on_TJ show rs args).
  Proof. unfold on_TJ. kp; auto using k_arg0. destruct a; kp; auto using k_show_all. destruct d; kp. destruct data; kp. Qed.
  Lemma k_on_props rs args : keeps Rtop (on_props show rs args).
  Proof. unfold on_props. destruct args as [|t [|[] [|]]]; kp. destruct (dget d (bs "Contents")) as [[]|]; kp; auto using k_decode. Qed.
  Lemma k_set_args f args : keeps Rtop (set_args f args).
  Proof. unfold set_args, with_gss. kp. Qed.
  Lemma k_set_arg f args : keeps Rtop (set_arg f args).
  Proof. unfold set_arg, with_gss. kp; auto using k_arg0. Qed.
  Lemma k_on_gs rs args : keeps Rtop (on_gs rs args).
  Proof.
    unfold on_gs, with_gss. kp; auto using k_arg0. destruct a0 as [st|]; kp. destruct (btruthy st); kp. destruct st; kp.
    - destruct (amem d (bs "self")); kp. destruct (amem d (bs "font_name")); kp.
    - intros s b s' H. inversion H. unfold Rtop. cbn [v_gss]. destruct (v_gss s) as [|g r]; [left; reflexivity|exists (gs_update g d); reflexivity].
  Qed.

  Definition stays (a b : vst) : Prop := v_gss b = snd (gss_state (v_gss a)).
  Lemma stays_top a b : stays a b -> Rtop a b.
  Proof. unfold stays, Rtop. intros ->. auto with vw. Qed.

  Lemma k_on on_Do k rs name args : eqlZ name (bs "q") = false -> eqlZ name (bs "Q") = false -> (forall rs a, keeps Rtop (on_Do rs a)) ->
    keeps Rtop (on_ show on_Do k rs name args).
  Proof.
    intros H1 H2 Hdo. unfold on_. rewrite H1, H2.
    assert (keeps Rtop on_BT) by (unfold on_BT; kp). assert (keeps Rtop on_ET) by (unfold on_ET; kp).
    repeat match goal with |- keeps _ (if ?b then _ else _) => destruct b end; kp; auto using k_set_args, k_set_arg, k_on_gs, k_on_Tj, k_on_TJ, k_on_props, k_add_inline.
  Qed.

  (** one item that is not q, Q or navigate *)
  Lemma k_notify on_Do k rs i : ~ named "q" i -> ~ named "Q" i -> ~ named "navigate" i ->
    (forall rs a, keeps Rtop (on_Do rs a)) -> keeps Rtop (notify real_str show on_Do k rs i).
  Proof.
    intros Nq NQ Nn Hdo. destruct i as [d data|name args].
    - unfold notify. kp; auto using k_add_inline, k_add_text.
    - rewrite is_named in Nq, NQ, Nn by reflexivity.
      assert (eqlZ (alias name) (bs "q") = false) as Eq by (alias_tac; auto).
      assert (eqlZ (alias name) (bs "Q") = false) as EQ by (alias_tac; auto).
      assert (eqlZ (alias name) (bs "navigate") = false) as En by (alias_tac; auto).
      unfold notify. cbv zeta.
      destruct (eqlZ (alias name) (bs "Do")) eqn:ED.
      + assert (alias name = bs "Do") as -> by now apply eqlZ_eq.
        unfold before_, after_. rewrite !eqlZ_refl.
        intros s a s' H. unfold vbind at 1 in H. unfold with_gss at 1, vmod in H.
        unfold vbind at 1 in H. destruct (on_ _ _ _ _ _ _ _) as [[x|e] s1] eqn:E1; [|discriminate].
        apply k_on in E1; auto. unfold vbind at 1 in H. unfold with_gss, vmod in H.
        assert (Rtop (mkV (gss_restore (v_gss s1)) (v_br s1) (v_cv s1)) s') as H2.
        { revert H. generalize (mkV (gss_restore (v_gss s1)) (v_br s1) (v_cv s1)). intros s2 H. revert a s' H. revert s2.
          apply (keeps_bind Rtop (vlift (op_str real_str name x)) _ Rtop_trans); [kp|intros ?; apply k_add_text]. }
        eapply Rtop_trans; [|exact H2].
        unfold Rtop in *. cbn [v_gss] in *. destruct (v_gss s) as [|g r]; cbn [gss_save gss_state fst snd top_only] in E1.
        * destruct E1 as [t ->]. cbn. eauto.
        * destruct E1 as [t ->]. cbn. eauto.
      + unfold before_, after_. rewrite ED, En.
        apply keeps_bind; [exact Rtop_trans|kp|intros _]. apply keeps_bind; [exact Rtop_trans|apply k_on; auto|intros args'].
        apply keeps_bind; [exact Rtop_trans| |intros _; kp; apply k_add_text].
        destruct (eqlZ (alias name) (bs "handler")); kp; [apply k_add_text|]. destruct k; kp.
  Qed.

  Lemma run_app on_Do k rs a b s : run real_str show on_Do k rs (a ++ b) s
    = vbind (run real_str show on_Do k rs a) (fun _ => run real_str show on_Do k rs b) s.
  Proof.
    revert s. induction a as [|i a IH]; intros s; [reflexivity|]. cbn [app run]. unfold vbind in *.
    destruct (notify _ _ _ _ _ _ s) as [[u|e] s1]; [|reflexivity]. apply IH.
  Qed.
  Lemma run_one on_Do k rs i s a s' : run real_str show on_Do k rs [i] s = (Ok a, s') -> notify real_str show on_Do k rs i s = (Ok tt, s').
  Proof.
    cbn [run]. unfold vbind, vret. destruct (notify _ _ _ _ _ _ s) as [[[]|e] s1]; [|discriminate]. intros H. now inversion H.
  Qed.
  Lemma n_q on_Do k rs qa s s' : notify real_str show on_Do k rs (COp (bs "q") qa) s = (Ok tt, s') -> v_gss s' = gss_save (v_gss s).
  Proof.
    unfold notify. cbv zeta. change (alias (bs "q")) with (bs "q"). unfold before_, on_, after_.
    change (eqlZ (bs "q") (bs "Do")) with false. change (eqlZ (bs "q") (bs "q")) with true.
    change (eqlZ (bs "q") (bs "handler")) with false. change (eqlZ (bs "q") (bs "navigate")) with false.
    unfold vbind, with_gss, vmod, vret, vlift, add_text, with_cv.
    destruct k; destruct (op_str _ _ _); cbn; intros H; inversion H; reflexivity.
  Qed.
  Lemma n_Q on_Do k rs qa s s' : notify real_str show on_Do k rs (COp (bs "Q") qa) s = (Ok tt, s') -> v_gss s' = gss_restore (v_gss s).
  Proof.
    unfold notify. cbv zeta. change (alias (bs "Q")) with (bs "Q"). unfold before_, on_, after_.
    change (eqlZ (bs "Q") (bs "Do")) with false. change (eqlZ (bs "Q") (bs "q")) with false. change (eqlZ (bs "Q") (bs "Q")) with true.
    change (eqlZ (bs "Q") (bs "handler")) with false. change (eqlZ (bs "Q") (bs "navigate")) with false.
    unfold vbind, with_gss, vmod, vret, vlift, add_text, with_cv.
    destruct k; destruct (op_str _ _ _); cbn; intros H; inversion H; reflexivity.
  Qed.
  Lemma bracketed g g1 : top_only (gss_save g) g1 -> gss_restore g1 = snd (gss_state g).
  Proof. destruct g; cbn; intros [t ->]; reflexivity. Qed.

  Lemma vbind_ok {A B} (m : vm A) (k : A -> vm B) s b s' : vbind m k s = (Ok b, s') -> exists a s1, m s = (Ok a, s1) /\ k a s1 = (Ok b, s').
  Proof. unfold vbind. destruct (m s) as [[a|e] s1]; [eauto|discriminate]. Qed.

  Lemma q_Q on_Do k rs qa l Qa s s' : keeps Rtop (run real_str show on_Do k rs l) ->
    run real_str show on_Do k rs (COp (bs "q") qa :: l ++ [COp (bs "Q") Qa]) s = (Ok tt, s') -> stays s s'.
  Proof.
    intros Hl H. change (COp (bs "q") qa :: l ++ [COp (bs "Q") Qa]) with ([COp (bs "q") qa] ++ (l ++ [COp (bs "Q") Qa])) in H.
    rewrite run_app in H. apply vbind_ok in H. destruct H as ([] & s1 & E1 & H). apply run_one, n_q in E1.
    rewrite run_app in H. apply vbind_ok in H. destruct H as ([] & s2 & E2 & H). apply run_one, n_Q in H. apply Hl in E2.
    unfold Rtop in E2. rewrite E1 in E2. unfold stays. rewrite H. now apply bracketed.
  Qed.
  Lemma k_run on_Do k rs l : (forall rs a, keeps Rtop (on_Do rs a)) -> Balanced l -> keeps Rtop (run real_str show on_Do k rs l).
  Proof.
    intros Hdo H. induction H as [|i H1 H2 H3|a b _ IHa _ IHb|qa l Qa _ IH].
    - cbn [run]. kp.
    - intros s [] s' E. apply run_one in E. eapply k_notify; eauto.
    - intros s [] s' E. rewrite run_app in E. apply vbind_ok in E. destruct E as ([] & s1 & E1 & E2).
      eapply Rtop_trans; [eapply IHa|eapply IHb]; eauto.
    - intros s [] s' E. apply stays_top. eapply q_Q; eauto.
  Qed.

  Definition forms_balanced : Prop := forall form ct, fc form = Ok ct -> Balanced (fst ct).
  Lemma k_no_Do rs a : keeps Rtop (no_Do rs a). Proof. unfold no_Do. kp. Qed.
  Lemma k_page_Do : forms_balanced -> forall rs args, keeps Rtop (page_Do real_str show fc fr rs args).
  Proof.
    intros Hf rs args. unfold page_Do. kp; auto using k_arg0. destruct a0 as [xo|]; kp. destruct (btruthy xo); kp.
    destruct (amem _ _); kp. destruct (is_class xo (bs "Image")); [unfold with_cv; kp|]. destruct (is_class xo (bs "Form")); [|kp].
    apply keeps_bind; [exact Rtop_trans|kp|intros frs].
    - pose proof (Hf xo) as Hx. destruct (fc xo) as [ct|e]; [|intros s1 b1 s2 H; unfold vbind, vlift in H; discriminate].
      intros s b s' H. apply vbind_ok in H. destruct H as (ct' & s1 & E1 & H). inversion E1. subst ct' s1.
      apply vbind_ok in H. destruct H as (cv & s1 & E2 & H).
      assert (Rtop s s1) as R1.
      { unfold in_form in E2. destruct (render real_str show no_Do KForm frs ct (mkV (v_gss s) [] empty_canvas)) as [[u|e] s2] eqn:E3; [|discriminate].
        inversion E2. subst. unfold render in E3. apply vbind_ok in E3. destruct E3 as ([] & s3 & E3 & E4).
        assert (s2 = s3) as -> by (destruct (snd ct); inversion E4; auto).
        apply (k_run no_Do) in E3; auto using k_no_Do. }
      eapply Rtop_trans; [exact R1|]. unfold with_cv, vmod in H. inversion H. unfold Rtop. cbn [v_gss]. auto with vw.
  Qed.
End V.
