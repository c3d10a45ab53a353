(** Graphics state while rendering: C34, C35, C36. *)
From Coq Require Import String.
From Verif Require Import Prelude M_Parser M_Text M_Objects P_Objects M_Viewer S_Viewer L_Viewer.
Local Open Scope Z_scope.
Local Open Scope vm_scope.

(** What the viewer's graphics state (viewer.gss.state) is in a viewer state. *)
Definition current (s : vst) : gstate := match v_gss s with [] => [] | g :: _ => g end.
Definition depth (s : vst) : nat := List.length (v_gss s).

(** C34.  Whatever balanced content stands between q and Q (nested q/Q of any depth, any state setting
    operator, XObjects with balanced content), the state after Q is the one before q, and so is the stack -
    up to the initial state, which the stack holds explicitly once it has been read. *)
Theorem C34_q_Q_restores : forall real_str show fc fr rs qa l Qa s s',
  (forall form ct, fc form = Ok ct -> Balanced (fst ct)) -> Balanced l ->
  run real_str show (page_Do real_str show fc fr) KPage rs (COp (bs "q") qa :: l ++ [COp (bs "Q") Qa]) s = (Ok tt, s') ->
  current s' = current s /\ (v_gss s <> [] -> v_gss s' = v_gss s) /\ (v_gss s = [] -> v_gss s' = [[]]).
Proof.
  intros real_str show fc fr rs qa l Qa s s' Hf Hl H.
  apply q_Q in H; [|apply k_run; auto; apply k_page_Do; auto].
  unfold stays in H. unfold current. destruct (v_gss s); cbn in H; rewrite H; repeat split; congruence.
Qed.
(** Between them, the content starts from the state before q. *)
Theorem C34_q_keeps_state : forall real_str show fc fr rs qa s s',
  run real_str show (page_Do real_str show fc fr) KPage rs [COp (bs "q") qa] s = (Ok tt, s') ->
  current s' = current s /\ (v_gss s <> [] -> depth s' = S (depth s)).
Proof.
  intros real_str show fc fr rs qa s s' H. apply run_one, n_q in H. unfold current, depth. rewrite H.
  destruct (v_gss s); split; cbn; congruence.
Qed.
(** And the same inside a form. *)
Theorem C34_q_Q_restores_in_forms : forall real_str show rs qa l Qa s s', Balanced l ->
  run real_str show no_Do KForm rs (COp (bs "q") qa :: l ++ [COp (bs "Q") Qa]) s = (Ok tt, s') ->
  current s' = current s /\ (v_gss s <> [] -> v_gss s' = v_gss s).
Proof.
  intros real_str show rs qa l Qa s s' Hl H. apply q_Q in H; [|apply k_run; auto; apply k_no_Do].
  unfold stays in H. unfold current. destruct (v_gss s); cbn in H; rewrite H; split; congruence.
Qed.

(** C35.  A Q without q: with a state on the stack it drops that state - what was in effect is lost, and the
    state below (or the initial state, if there is none) is in effect; on an empty stack it does nothing.
    Either way it does not fail and changes nothing but the text on the canvas. *)
Theorem C35_unmatched_Q : forall real_str show on_Do k rs s,
  exists s', run real_str show on_Do k rs [COp (bs "Q") []] s = (Ok tt, s') /\
    v_gss s' = tl (v_gss s) /\ (v_gss s = [] -> v_gss s' = []) /\ v_br s' = v_br s /\
    cv_strings (v_cv s') = cv_strings (v_cv s) /\ cv_images (v_cv s') = cv_images (v_cv s) /\
    cv_forms (v_cv s') = cv_forms (v_cv s) /\ cv_inline (v_cv s') = cv_inline (v_cv s) /\
    cv_text (v_cv s') = cv_text (v_cv s) ++ [10] ++ bs " Q".
Proof.
  intros. destruct s as [g b c]. destruct k; eexists; (split; [reflexivity|]); cbn; (repeat split); destruct g; try reflexivity; discriminate.
Qed.
(** After balanced content on a fresh page, it brings back the initial state. *)
Theorem C35_unmatched_Q_resets : forall real_str show fc fr rs l Qa s s',
  (forall form ct, fc form = Ok ct -> Balanced (fst ct)) -> Balanced l -> v_gss s = [] ->
  run real_str show (page_Do real_str show fc fr) KPage rs (l ++ [COp (bs "Q") Qa]) s = (Ok tt, s') ->
  current s' = [] /\ v_gss s' = [].
Proof.
  intros real_str show fc fr rs l Qa s s' Hf Hl Hs H. rewrite run_app in H. apply vbind_ok in H. destruct H as ([] & s1 & E1 & E2).
  apply k_run in E1; auto; [|apply k_page_Do; auto]. apply run_one, n_Q in E2. unfold Rtop in E1. rewrite Hs in E1.
  unfold current. rewrite E2. destruct E1 as [->|[t ->]]; cbn; auto.
Qed.
(** So Q without q is not harmless. *)
Theorem C35_harmless_refuted : ~ (forall real_str show on_Do k rs s s',
  run real_str show on_Do k rs [COp (bs "Q") []] s = (Ok tt, s') -> current s' = current s).
Proof.
  intro H. specialize (H (fun _ _ _ => []) (fun _ _ => Ok []) no_Do KPage [] (mkV [[(bs "LW", VAtom (OInt 3))]] [] empty_canvas) _ eq_refl).
  discriminate.
Qed.

(** C36.  Do: whatever the XObject, if its content (when it is a form) is balanced, the state and stack after
    Do are those before. *)
Theorem C36_Do_restores : forall real_str show fc fr rs args s s',
  (forall form ct, fc form = Ok ct -> Balanced (fst ct)) ->
  run real_str show (page_Do real_str show fc fr) KPage rs [COp (bs "Do") args] s = (Ok tt, s') ->
  current s' = current s /\ (v_gss s <> [] -> v_gss s' = v_gss s) /\ (v_gss s = [] -> v_gss s' = [[]]).
Proof.
  intros real_str show fc fr rs args s s' Hf H. apply run_one in H.
  unfold notify in H. cbv zeta in H. change (alias (bs "Do")) with (bs "Do") in H. unfold before_, after_ in H.
  rewrite !eqlZ_refl in H. apply vbind_ok in H. destruct H as ([] & s1 & E1 & H). apply vbind_ok in H. destruct H as (args' & s2 & E2 & H).
  apply k_on in E2; [|reflexivity|reflexivity|apply k_page_Do; auto].
  apply vbind_ok in H. destruct H as ([] & s3 & E3 & H).
  apply vbind_ok in H. destruct H as (t & s4 & E4 & H).
  unfold current. assert (v_gss s' = gss_restore (v_gss s2)) as ->.
  { unfold add_text, with_cv, vmod in H. inversion H. cbn [v_gss]. unfold vlift in E4. inversion E4. subst s4.
    unfold with_gss, vmod in E3. inversion E3. reflexivity. }
  unfold with_gss, vmod in E1. inversion E1. subst s1. unfold Rtop in E2. cbn [v_gss] in E2. apply bracketed in E2.
  destruct (v_gss s) eqn:Eg.
  - cbn in E2. rewrite E2. repeat split; congruence.
  - cbn in E2. rewrite E2. repeat split; congruence.
Qed.

(** A page setting a line width, painting a form that sets another and draws nothing back, between q and Q. *)
Definition exf : bv := VStm (Some (bs "Form")) [] [1].
Definition ex_fc (f : bv) : res (list citem * option exn) := Ok ([COp (bs "w") [OInt 9]], None).
Definition ex_rs : resources := [(bs "XObject", RDict [(bs "X", exf)])].
Definition ex_st : vst := mkV [[(bs "LW", VAtom (OInt 3))]] [] empty_canvas.
Definition ex_l : list citem := [COp (bs "w") [OInt 5]; COp (bs "q") []; COp (bs "Do") [OName (bs "X")]; COp (bs "Q") []].
Lemma ex_balanced : Balanced ex_l.
Proof.
  apply (Ba_app [_] [_; _; _]).
  - apply Ba_item; intros [a H]; discriminate.
  - apply (Ba_q [] [COp (bs "Do") [OName (bs "X")]] []). apply Ba_item; intros [a H]; discriminate.
Qed.
Definition ex_run : res unit * vst :=
  run (fun _ _ _ => []) (fun _ _ => Ok []) (page_Do (fun _ _ _ => []) (fun _ _ => Ok []) ex_fc (fun _ => Ok [])) KPage ex_rs
    (COp (bs "q") [] :: ex_l ++ [COp (bs "Q") []]) ex_st.
Example C34_ex : (forall form ct, ex_fc form = Ok ct -> Balanced (fst ct)) /\ Balanced ex_l /\
  exists s', ex_run = (Ok tt, s') /\ current s' = [(bs "LW", VAtom (OInt 3))]
             /\ map fst (cv_forms (v_cv s')) = [bs "X"].
Proof.
  split; [|split; [apply ex_balanced|]].
  - intros form ct H. inversion H. cbn. apply Ba_item; intros [a Ha]; discriminate.
  - exists (snd ex_run). split; [|split]; vm_compute; reflexivity.
Qed.

Print Assumptions C34_q_Q_restores.
Print Assumptions C34_q_keeps_state.
Print Assumptions C34_q_Q_restores_in_forms.
Print Assumptions C35_unmatched_Q.
Print Assumptions C35_unmatched_Q_resets.
Print Assumptions C35_harmless_refuted.
Print Assumptions C36_Do_restores.
