(** Text extraction: C40, C42. *)
From Coq Require Import String.
From Verif Require Import Prelude M_Parser M_Text M_Objects P_Objects M_Viewer S_Viewer L_Viewer P_GState.
Local Open Scope Z_scope.
Local Open Scope vm_scope.

(** The font in effect: the entry of the page's fonts under the name in the graphics state's Font (the first
    of Tf's operands); none if nothing is set or the name is not there. *)
Definition font_entry (s : vst) : option bv := aget (current s) (bs "Font").
Inductive FontIs (rs : resources) (s : vst) : option bv -> Prop :=
| Fi_unset : font_entry s = None -> FontIs rs s None
| Fi_name n more : font_entry s = Some (VArr (VAtom (OName n) :: more)) -> FontIs rs s (aget (rs_dict rs (bs "Font")) n)
| Fi_other v f : font_entry s = Some v -> (forall n more, v <> VArr (VAtom (OName n) :: more)) ->
    (exists w, font_name (current s) = Ok w /\ match w with None => f = None | Some n => name_lookup (rs_dict rs (bs "Font")) n = Ok f end) ->
    FontIs rs s f.

Definition ordinary (i : citem) : Prop :=
  ~ named "navigate" i /\ ~ named "apostrophe" i /\ ~ named "quotation" i /\ ~ named """" i.

Section T.
  Variable real_str : bool -> Z -> Z -> list Z.
  Variable show : option bv -> obj -> res (list Z).

  Definition norm (s : vst) : vst := mkV (snd (gss_state (v_gss s))) (v_br s) (v_cv s).
  Lemma norm_current s : current (norm s) = current s.
  Proof. unfold current, norm. cbn [v_gss]. destruct (v_gss s); reflexivity. Qed.
  Lemma font_cur rs a b f : current a = current b -> FontIs rs a f -> FontIs rs b f.
  Proof.
    intros E Hf. destruct Hf as [H|n more H|v f H1 H2 H3]; unfold font_entry in *; rewrite E in *.
    - now apply Fi_unset.
    - now apply Fi_name with (more := more).
    - now apply Fi_other with (v := v).
  Qed.
  Lemma decode_ok rs o s t s' : decode show rs o s = (Ok t, s') -> s' = norm s /\ exists f, FontIs rs s f /\ show f o = Ok t.
  Proof.
    unfold decode. intros H. apply vbind_ok in H. destruct H as (s0 & s1 & E & H). inversion E. subst s0 s1.
    apply vbind_ok in H. destruct H as ([] & s1 & E1 & H). unfold with_gss, vmod in E1. inversion E1. subst s1. clear E1 E.
    apply vbind_ok in H. destruct H as (fn & s1 & E1 & H). unfold vlift in E1. inversion E1. subst s1.
    apply vbind_ok in H. destruct H as (f & s1 & E2 & H). unfold vlift in E2. inversion E2. subst s1.
    unfold vlift in H. inversion H. subst s'. split; [reflexivity|]. exists f. split; [|reflexivity].
    assert (fst (gss_state (v_gss s)) = current s) as Ec by (unfold current; destruct (v_gss s); reflexivity).
    rewrite Ec in *. destruct (font_entry s) as [v|] eqn:Ef.
    - destruct (match v with VArr (VAtom (OName n) :: more) => Some n | _ => None end) as [n|] eqn:Ev.
      + assert (exists more, v = VArr (VAtom (OName n) :: more)) as [more ->].
        { destruct v as [| |[|[[]| | | |] l]| |]; inversion Ev; eauto. }
        unfold font_entry in Ef. unfold font_name in H1. rewrite Ef in H1. cbv in H1. inversion H1. subst fn. cbn in H2.
        inversion H2. eapply Fi_name. exact Ef.
      + apply Fi_other with (v := v); auto.
        * intros n more ->. discriminate.
        * exists fn. split; auto. destruct fn; inversion H2; auto.
    - unfold font_entry in Ef. unfold font_name in H1. rewrite Ef in H1. inversion H1. subst fn. inversion H2. now apply Fi_unset.
  Qed.

  Definition Shown rs (s : vst) (os : list obj) (ts : list (list Z)) : Prop :=
    Forall2 (fun o t => exists f, FontIs rs s f /\ show f o = Ok t) os ts.
  Definition adds (ts : list (list Z)) (s s' : vst) : Prop := cv_strings (v_cv s') = cv_strings (v_cv s) ++ ts /\ v_br s' = v_br s.
  Definition Rq (a b : vst) : Prop := cv_strings (v_cv b) = cv_strings (v_cv a) /\ v_br b = v_br a.
  Lemma Rq_refl s : Rq s s. Proof. now split. Qed.
  Lemma Rq_trans a b c : Rq a b -> Rq b c -> Rq a c. Proof. unfold Rq. intros [] []. split; congruence. Qed.
  Ltac kq := repeat first
    [ match goal with |- keeps _ (vbind _ _) => apply keeps_bind; [exact Rq_trans| |intros ?] end
    | match goal with |- keeps _ (vret _) => apply keeps_ret; exact Rq_refl end
    | match goal with |- keeps _ (vlift _) => apply keeps_lift; exact Rq_refl end
    | match goal with |- keeps _ vget => apply keeps_get; exact Rq_refl end
    | match goal with |- keeps _ (vmod _) => apply keeps_mod; intros ?; split; reflexivity end ].
  Lemma adds_nil s s' : Rq s s' -> adds [] s s'. Proof. intros [A B]. split; [now rewrite app_nil_r|auto]. Qed.
  Lemma adds_r ts s s1 s2 : adds ts s s1 -> Rq s1 s2 -> adds ts s s2.
  Proof. intros [A B] [C D]. split; congruence. Qed.
  Lemma adds_l ts s s1 s2 : Rq s s1 -> adds ts s1 s2 -> adds ts s s2.
  Proof. intros [A B] [C D]. split; congruence. Qed.
  Lemma adds_app a b s s1 s2 : adds a s s1 -> adds b s1 s2 -> adds (a ++ b) s s2.
  Proof. intros [A B] [C D]. split; [rewrite C, A; now rewrite app_assoc|congruence]. Qed.

  Lemma q_arg0 args : keeps Rq (arg0 args). Proof. destruct args; cbn [arg0]; kq. Qed.
  Lemma q_add_text t : keeps Rq (add_text t). Proof. unfold add_text, with_cv. kq. Qed.
  Lemma q_add_inline t : keeps Rq (add_inline t). Proof. unfold add_inline, with_cv. kq. Qed.
  Lemma q_with_gss g : keeps Rq (with_gss g). Proof. unfold with_gss. kq. Qed.
  Lemma q_decode rs o : keeps Rq (decode show rs o). Proof. unfold decode. kq. apply q_with_gss. Qed.
  Lemma q_set_args f args : keeps Rq (set_args f args). Proof. apply q_with_gss. Qed.
  Lemma q_set_arg f args : keeps Rq (set_arg f args). Proof. unfold set_arg. kq; auto using q_arg0, q_with_gss. Qed.
  Lemma q_on_gs rs args : keeps Rq (on_gs rs args).
  Proof.
    unfold on_gs. kq; auto using q_arg0. destruct a0 as [st|]; kq. destruct (btruthy st); kq. destruct st; kq; auto using q_with_gss.
    destruct (amem d (bs "self")); kq. destruct (amem d (bs "font_name")); kq.
  Qed.
  Lemma q_on_props rs args : keeps Rq (on_props show rs args).
  Proof. unfold on_props. destruct args as [|t [|[] [|]]]; kq. destruct (dget d (bs "Contents")) as [[]|]; kq; auto using q_decode. Qed.
  Lemma q_no_Do rs args : keeps Rq (no_Do rs args). Proof. unfold no_Do. kq. Qed.
  Lemma q_page_Do fc fr rs args : keeps Rq (page_Do real_str show fc fr rs args).
  Proof.
    unfold page_Do. kq; auto using q_arg0. destruct a0 as [xo|]; kq. destruct (btruthy xo); kq. destruct (amem _ _); kq.
    destruct (is_class xo (bs "Image")); [unfold with_cv; kq|]. destruct (is_class xo (bs "Form")); kq.
    - intros s b s' H. unfold in_form in H.
      destruct (render real_str show no_Do KForm a1 a2 (mkV (v_gss s) [] empty_canvas)) as [[u|e] s2]; inversion H. now split.
    - unfold with_cv. kq.
  Qed.

  Lemma add_string_ok t s a s' : add_string t s = (Ok a, s') -> adds [t] s s' /\ current s' = current s.
  Proof. unfold add_string, with_cv, vmod. intros H. inversion H. subst. split; [split; reflexivity|reflexivity]. Qed.

  Lemma show_all_ok rs l : forall s s0 l' s', show_all show rs l s = (Ok l', s') -> current s = current s0 ->
    exists ts, adds ts s s' /\ Shown rs s0 (filter is_string l) ts.
  Proof.
    induction l as [|x l IH]; intros s s0 l' s' H Hc.
    - cbn [show_all] in H. inversion H. subst. exists []. split; [apply adds_nil, Rq_refl|constructor].
    - assert (is_string x = false -> (exists ts, adds ts s s' /\ Shown rs s0 (filter is_string (x :: l)) ts)) as Hplain.
      { intros Hx. assert (show_all show rs (x :: l) = vbind (show_all show rs l) (fun r' => vret (x :: r'))) as E by (destruct x; try discriminate; reflexivity).
        rewrite E in H. apply vbind_ok in H. destruct H as (r' & s1 & E1 & H). inversion H. subst.
        destruct (IH _ _ _ _ E1 Hc) as (ts & A & B). exists ts. cbn [filter]. rewrite Hx. auto. }
      destruct (is_string x) eqn:Ex; [|auto]. clear Hplain.
      assert (show_all show rs (x :: l) = vbind (decode show rs x) (fun t => vbind (add_string t) (fun _ => vbind (show_all show rs l)
               (fun r' => vret (OTok (40 :: pdf_escape_string t ++ [41]) :: r'))))) as E by (destruct x; try discriminate; reflexivity).
      rewrite E in H. apply vbind_ok in H. destruct H as (t & s1 & E1 & H).
      apply vbind_ok in H. destruct H as ([] & s2 & E2 & H). apply vbind_ok in H. destruct H as (r' & s3 & E3 & H). inversion H. subst s3.
      pose proof (q_decode rs x _ _ _ E1) as R1. apply decode_ok in E1. destruct E1 as (-> & f & Hf & Ht). apply add_string_ok in E2. destruct E2 as [A2 C2].
      rewrite norm_current in C2.
      destruct (IH _ s0 _ _ E3) as (ts & A & B); [congruence|]. exists (t :: ts). split.
      + change (t :: ts) with ([t] ++ ts). eapply adds_app; [|exact A]. eapply adds_l; [exact R1|exact A2].
      + cbn [filter]. rewrite Ex. constructor; [|exact B]. exists f. split; auto. eapply font_cur; eauto.
  Qed.

  Definition changes_brackets (i : citem) : bool :=
    match i with COp name _ => eqlZ name (bs "BT") || eqlZ name (bs "ET") | _ => false end.

  Variable on_Do : resources -> list obj -> vm unit.
  Hypothesis Hdo : forall rs a, keeps Rq (on_Do rs a).

  Lemma on_show k rs name args s a s' : eqlZ name (bs "apostrophe") = false -> eqlZ name (bs "quotation") = false ->
    eqlZ name (bs "BT") = false -> eqlZ name (bs "ET") = false ->
    eqlZ name [39] = false -> eqlZ name [34] = false ->
    on_ show on_Do k rs name args s = (Ok a, s') -> exists ts, adds ts s s' /\ Shown rs s (shown (COp name args)) ts.
  Proof.
    intros Ha Hq HB HE H39 H34 H.
    assert (keeps Rq (on_ show on_Do k rs name args) -> shown (COp name args) = [] -> exists ts, adds ts s s' /\ Shown rs s (shown (COp name args)) ts) as P.
    { intros K E. exists []. rewrite E. split; [apply adds_nil; eapply K; eauto|constructor]. }
    unfold shown in *. change (bs "'") with [39] in *. rewrite H39 in *. rewrite orb_false_r in *.
    destruct (eqlZ name (bs "Tj")) eqn:E1.
    { apply eqlZ_eq in E1. subst name.
      change (on_ show on_Do k rs (bs "Tj") args) with (on_Tj show rs args) in H. clear P.
      destruct args as [|x args]; [unfold on_Tj, arg0, vbind, vlift in H; discriminate|].
      unfold on_Tj in H. apply vbind_ok in H. destruct H as (x' & s1 & Ex & H). inversion Ex. subst x' s1.
      apply vbind_ok in H. destruct H as (t & s1 & E1 & H). pose proof (q_decode rs x _ _ _ E1) as R1. apply decode_ok in E1. destruct E1 as (-> & f & Hf & Ht).
      apply vbind_ok in H. destruct H as ([] & s2 & E2 & H). apply add_string_ok in E2. inversion H. subst.
      exists [t]. split; [eapply adds_l; [exact R1|apply E2]|]. constructor; [eauto|constructor]. }
    destruct (eqlZ name (bs "TJ")) eqn:E2.
    { apply eqlZ_eq in E2. subst name.
      change (on_ show on_Do k rs (bs "TJ") args) with (on_TJ show rs args) in *.
      destruct args as [|x args]; [unfold on_TJ, arg0, vbind, vlift in H; discriminate|].
      destruct x; try (apply P; [|reflexivity]; intros s2 b2 s3 E; unfold on_TJ, arg0, vbind, vret, vlift in E; inversion E; apply Rq_refl).
      - clear P. unfold on_TJ in H. apply vbind_ok in H. destruct H as (x' & s1 & Ex & H). inversion Ex. subst x' s1.
        apply vbind_ok in H. destruct H as (l' & s1 & E2 & H). inversion H. subst. eapply show_all_ok; eauto.
      - apply P; [|reflexivity]. unfold on_TJ. cbn [arg0]. intros s2 b s3 E. unfold vbind, vret in E. destruct d; inversion E. apply Rq_refl.
      - apply P; [|reflexivity]. unfold on_TJ. cbn [arg0]. intros s2 b s3 E. unfold vbind, vret in E. destruct data; inversion E. apply Rq_refl. }
    apply P; [|reflexivity]. unfold on_. rewrite E1, E2, Ha, Hq, HB, HE. cbn [orb].
    repeat match goal with |- keeps _ (if ?b then _ else _) => destruct b end; kq;
      auto using q_set_args, q_set_arg, q_on_gs, q_on_props, q_add_inline, q_with_gss.
  Qed.

  Lemma n_show k rs i s s' : ordinary i -> notify real_str show on_Do k rs i s = (Ok tt, s') ->
    exists ts, cv_strings (v_cv s') = cv_strings (v_cv s) ++ ts /\ Shown rs s (shown i) ts /\
      (changes_brackets i = false -> v_br s' = v_br s).
  Proof.
    intros (Nn & Na & Nq & N34) H. destruct i as [d data|name args].
    - assert (Rq s s') as [R1 R2].
      { revert H. assert (keeps Rq (notify real_str show on_Do k rs (CImage d data))) as K; [unfold notify; kq; auto using q_add_inline, q_add_text|eapply K]. }
      exists []. rewrite app_nil_r. repeat split; auto. constructor.
    - rewrite is_named in Nn, Na, Nq, N34 by reflexivity.
      unfold notify in H. cbv zeta in H.
      apply vbind_ok in H. destruct H as ([] & s1 & E1 & H). apply vbind_ok in H. destruct H as (args' & s2 & E2 & H).
      apply vbind_ok in H. destruct H as ([] & s3 & E3 & H).
      assert (Rq s s1 /\ current s1 = current s) as [R1 C1].
      { unfold before_ in E1. destruct (eqlZ _ _); inversion E1; split; try apply Rq_refl; try reflexivity.
        - split; reflexivity.
        - unfold current. cbn [v_gss]. destruct (v_gss s); reflexivity. }
      assert (Rq s2 s3) as R3.
      { revert E3. assert (keeps Rq (after_ real_str k (alias name) args')) as K; [|eapply K]. unfold after_.
        destruct (eqlZ _ (bs "Do")); [apply q_with_gss|]. destruct (eqlZ _ (bs "handler")); [kq; apply q_add_text|].
        rewrite alias_eq by (vm_compute; discriminate). rewrite Nn. destruct k; kq. }
      assert (Rq s3 s') as R4.
      { revert H. assert (keeps Rq (vbind (vlift (op_str real_str name args')) add_text)) as K; [kq; apply q_add_text|eapply K]. }
      assert (forall f, FontIs rs s1 f -> FontIs rs s f) as HF.
      { intros f Hf. eapply font_cur; eauto. }
      destruct (eqlZ name (bs "BT") || eqlZ name (bs "ET")) eqn:EB.
      { exists []. assert (shown (COp name args) = [] /\ cv_strings (v_cv s2) = cv_strings (v_cv s1)) as [-> Es].
        { apply orb_true_iff in EB. destruct EB as [EB|EB]; apply eqlZ_eq in EB; subst name; (split; [reflexivity|]);
            [change (alias (bs "BT")) with (bs "BT") in E2|change (alias (bs "ET")) with (bs "ET") in E2]; vm_compute in E2; inversion E2; reflexivity. }
        destruct R1 as [? _], R3 as [? _], R4 as [? _]. rewrite app_nil_r. split; [congruence|]. split; [constructor|]. cbn [changes_brackets]. rewrite EB. discriminate. }
      apply orb_false_iff in EB. destruct EB as [EB EE].
      assert (exists ts, adds ts s1 s2 /\ Shown rs s1 (shown (COp name args)) ts) as (ts & A & B).
      { destruct (eqlZ name [39]) eqn:E39.
        - apply eqlZ_eq in E39. subst name. change (alias [39]) with (bs "apostrophe") in E2.
          change (on_ show on_Do k rs (bs "apostrophe") args) with (on_ show on_Do k rs (bs "Tj") args) in E2.
          change (shown (COp [39] args)) with (shown (COp (bs "Tj") args)). eapply on_show; eauto; reflexivity.
        - assert (eqlZ name [34] = false) as E34 by (change [34] with (bs """"); auto).
          unfold alias in E2. rewrite E39, E34 in E2.
          destruct (eqlZ name (bs "T*")) eqn:ET.
          + apply eqlZ_eq in ET. subst name. exists []. split; [|constructor]. apply adds_nil. vm_compute in E2. destruct k; inversion E2; split; reflexivity.
          + eapply on_show; eauto. }
      exists ts. destruct A as [A1 A2]. destruct R1 as [? ?], R3 as [? ?], R4 as [? ?]. split; [congruence|]. split.
      + revert B. unfold Shown. clear - HF. induction 1 as [|o t os ts (f & ? & ?) _ IH]; constructor; eauto.
      + intros _. congruence.
  Qed.
End T.

(** C40.  canvas.strings after rendering any content: in content order, the decoded string operands of every
    text showing operator - Tj, ', TJ - each decoded with the font in effect at that operator. *)
Theorem C40_strings_in_order : forall real_str show fc fr rs l s s', Forall ordinary l ->
  run real_str show (page_Do real_str show fc fr) KPage rs l s = (Ok tt, s') ->
  exists texts, List.length texts = List.length l /\ cv_strings (v_cv s') = cv_strings (v_cv s) ++ List.concat texts /\
    forall pre i post, l = pre ++ i :: post -> exists s1,
      run real_str show (page_Do real_str show fc fr) KPage rs pre s = (Ok tt, s1) /\
      Forall2 (fun o t => exists f, FontIs rs s1 f /\ show f o = Ok t) (shown i) (nth (List.length pre) texts []).
Proof.
  intros real_str show fc fr rs l s s' Hl. revert s. induction Hl as [|i l Hi Hl IH]; intros s H.
  - inversion H. subst. exists []. split; [reflexivity|]. split; [cbn; now rewrite app_nil_r|].
    intros pre i post E. destruct pre; discriminate.
  - cbn [run] in H. apply vbind_ok in H. destruct H as ([] & s1 & E1 & H). destruct (IH _ H) as (texts & L & C & P).
    destruct (n_show _ _ _ (q_page_Do real_str show fc fr) _ _ _ _ _ Hi E1) as (ts & A & B & _).
    exists (ts :: texts). split; [cbn; congruence|]. split; [cbn [List.concat]; rewrite C, A; now rewrite app_assoc|].
    intros pre j post E. destruct pre as [|j0 pre]; inversion E; subst.
    + exists s. split; [reflexivity|exact B].
    + destruct (P pre j post eq_refl) as (s2 & R & F). exists s2. split; [|exact F]. cbn [run]. unfold vbind. rewrite E1. exact R.
Qed.
(** The same for a form's own canvas. *)
Theorem C40_strings_of_forms : forall real_str show rs l s s', Forall ordinary l ->
  run real_str show no_Do KForm rs l s = (Ok tt, s') ->
  exists texts, List.length texts = List.length l /\ cv_strings (v_cv s') = cv_strings (v_cv s) ++ List.concat texts /\
    forall pre i post, l = pre ++ i :: post -> exists s1,
      run real_str show no_Do KForm rs pre s = (Ok tt, s1) /\
      Forall2 (fun o t => exists f, FontIs rs s1 f /\ show f o = Ok t) (shown i) (nth (List.length pre) texts []).
Proof.
  intros real_str show rs l s s' Hl. revert s. induction Hl as [|i l Hi Hl IH]; intros s H.
  - inversion H. subst. exists []. split; [reflexivity|]. split; [cbn; now rewrite app_nil_r|].
    intros pre i post E. destruct pre; discriminate.
  - cbn [run] in H. apply vbind_ok in H. destruct H as ([] & s1 & E1 & H). destruct (IH _ H) as (texts & L & C & P).
    destruct (n_show _ _ _ q_no_Do _ _ _ _ _ Hi E1) as (ts & A & B & _).
    exists (ts :: texts). split; [cbn; congruence|]. split; [cbn [List.concat]; rewrite C, A; now rewrite app_assoc|].
    intros pre j post E. destruct pre as [|j0 pre]; inversion E; subst.
    + exists s. split; [reflexivity|exact B].
    + destruct (P pre j post eq_refl) as (s2 & R & F). exists s2. split; [|exact F]. cbn [run]. unfold vbind. rewrite E1. exact R.
Qed.

(** Which font that is: the one selected by the last Tf outside inner q ... Q. *)
Definition Rf (a b : vst) : Prop := font_entry b = font_entry a.
Lemma Rf_refl s : Rf s s. Proof. reflexivity. Qed.
Lemma Rf_trans a b c : Rf a b -> Rf b c -> Rf a c. Proof. unfold Rf. congruence. Qed.
Lemma Rf_gss a g br cv : (forall k, k = bs "Font" -> aget (match g with [] => [] | x :: _ => x end) k = aget (current a) k) -> Rf a (mkV g br cv).
Proof. intros H. unfold Rf, font_entry. rewrite <- H by reflexivity. reflexivity. Qed.
Ltac kf := repeat first
    [ match goal with |- keeps _ (vbind _ _) => apply keeps_bind; [exact Rf_trans| |intros ?] end
    | match goal with |- keeps _ (vret _) => apply keeps_ret; exact Rf_refl end
    | match goal with |- keeps _ (vlift _) => apply keeps_lift; exact Rf_refl end
    | match goal with |- keeps _ vget => apply keeps_get; exact Rf_refl end
    | match goal with |- keeps _ (vmod _) => apply keeps_mod; intros ?; reflexivity end ].
Lemma f_norm : keeps Rf (with_gss (fun g => snd (gss_state g))).
Proof. unfold with_gss. apply keeps_mod. intros s. unfold Rf, font_entry, current. cbn [v_gss]. destruct (v_gss s); reflexivity. Qed.
Lemma f_set f v : eqlZ (bs "Font") f = false -> keeps Rf (with_gss (fun g => gss_set g f v)).
Proof.
  intros Hf. unfold with_gss. apply keeps_mod. intros s. apply Rf_gss. intros k ->. unfold current. destruct (v_gss s); cbn [gss_set gss_state].
  - cbn [aset aget]. rewrite Hf. reflexivity.
  - rewrite aget_aset. rewrite Hf. reflexivity.
Qed.
Lemma f_arg0 args : keeps Rf (arg0 args). Proof. destruct args; cbn [arg0]; kf. Qed.
Lemma f_set_arg f args : eqlZ (bs "Font") f = false -> keeps Rf (set_arg f args).
Proof. intros. unfold set_arg. kf; auto using f_norm, f_arg0, f_set. Qed.
Lemma f_set_args f args : eqlZ (bs "Font") f = false -> keeps Rf (set_args f args).
Proof. apply f_set. Qed.
Lemma f_decode show rs o : keeps Rf (decode show rs o). Proof. unfold decode. kf. apply f_norm. Qed.
Lemma f_add_string t : keeps Rf (add_string t). Proof. unfold add_string, with_cv. kf. Qed.
Lemma f_add_text t : keeps Rf (add_text t). Proof. unfold add_text, with_cv. kf. Qed.
Lemma f_add_inline t : keeps Rf (add_inline t). Proof. unfold add_inline, with_cv. kf. Qed.
Lemma f_show_all show rs l : keeps Rf (show_all show rs l).
Proof. induction l as [|x l IH]; [cbn [show_all]; kf|]. destruct x; cbn [show_all]; kf; auto using f_decode, f_add_string. Qed.
Lemma f_on_Tj show rs args : keeps Rf (on_Tj show rs args).
Proof. unfold on_Tj. kf; auto using f_arg0, f_decode, f_add_string. Qed.
Lemma f_on_TJ show rs args : keeps Rf (on_TJ show rs args).
Proof. unfold on_TJ. kf; auto using f_arg0. destruct a; kf; auto using f_show_all. destruct d; kf. destruct data; kf. Qed.
Lemma f_on_props show rs args : keeps Rf (on_props show rs args).
Proof. unfold on_props. destruct args as [|t [|[] [|]]]; kf. destruct (dget d (bs "Contents")) as [[]|]; kf; auto using f_decode. Qed.
Lemma f_on show on_Do k rs name args : eqlZ name (bs "q") = false -> eqlZ name (bs "Q") = false -> eqlZ name (bs "Tf") = false ->
  eqlZ name (bs "gs") = false -> eqlZ name (bs "Do") = false -> keeps Rf (on_ show on_Do k rs name args).
Proof.
  intros H1 H2 H3 H4 H5. unfold on_. rewrite H1, H2, H3, H4, H5.
  assert (keeps Rf on_BT) by (unfold on_BT; kf). assert (keeps Rf on_ET) by (unfold on_ET; kf).
  repeat match goal with |- keeps _ (if ?b then _ else _) => destruct b end; kf;
    auto using f_set_args, f_set_arg, f_on_Tj, f_on_TJ, f_on_props, f_add_inline.
Qed.
Lemma f_notify real_str show on_Do k rs i : ~ named "q" i -> ~ named "Q" i -> ~ named "navigate" i -> ~ named "Tf" i -> ~ named "gs" i -> ~ named "Do" i ->
  keeps Rf (notify real_str show on_Do k rs i).
Proof.
  intros N1 N2 N3 N4 N5 N6. destruct i as [d data|name args].
  - unfold notify. kf; auto using f_add_inline, f_add_text.
  - rewrite is_named in N1, N2, N3, N4, N5, N6 by reflexivity. unfold notify, before_, after_. cbv zeta.
    rewrite !(alias_eq name (bs "Do")) by (vm_compute; discriminate). rewrite N6.
    rewrite !(alias_eq name (bs "navigate")) by (vm_compute; discriminate). rewrite N3.
    kf; try apply f_add_text.
    + apply f_on; rewrite alias_eq by (vm_compute; discriminate); auto.
    + destruct (eqlZ (alias name) (bs "handler")); kf; [apply f_add_text|]. destruct k; kf.
Qed.

Lemma f_run real_str show fc fr rs l : (forall form ct, fc form = Ok ct -> Balanced (fst ct)) -> KeepsFont l ->
  keeps Rf (run real_str show (page_Do real_str show fc fr) KPage rs l).
Proof.
  intros Hf H. induction H as [|i N1 N2 N3 N4 N5|a b _ IHa _ IHb|qa l Qa Hl].
  - cbn [run]. kf.
  - intros s [] s' E.
    destruct (match i with COp name args => eqlZ name (bs "Do") | _ => false end) eqn:Ed.
    + destruct i as [|name args]; [discriminate|]. apply eqlZ_eq in Ed. subst name. apply C36_Do_restores in E; auto.
      unfold Rf, font_entry. destruct E as [-> _]. reflexivity.
    + apply run_one in E. eapply f_notify; eauto. destruct i as [d data|name args]; [intros [a Ha]; discriminate|].
      rewrite is_named by reflexivity. exact Ed.
  - intros s [] s' E. rewrite run_app in E. apply vbind_ok in E. destruct E as ([] & s1 & E1 & E2).
    eapply Rf_trans; [eapply IHa|eapply IHb]; eauto.
  - intros s [] s' E. apply C34_q_Q_restores in E; auto. unfold Rf, font_entry. destruct E as [-> _]. reflexivity.
Qed.
Theorem C40_font_in_effect : forall real_str show fc fr rs nm more l s s',
  (forall form ct, fc form = Ok ct -> Balanced (fst ct)) -> KeepsFont l ->
  run real_str show (page_Do real_str show fc fr) KPage rs (COp (bs "Tf") (OName nm :: more) :: l) s = (Ok tt, s') ->
  FontIs rs s' (aget (rs_dict rs (bs "Font")) nm).
Proof.
  intros real_str show fc fr rs nm more l s s' Hf Hl H.
  change (COp (bs "Tf") (OName nm :: more) :: l) with ([COp (bs "Tf") (OName nm :: more)] ++ l) in H.
  rewrite run_app in H. apply vbind_ok in H. destruct H as ([] & s1 & E1 & H). apply f_run in H; auto.
  assert (font_entry s1 = Some (VArr (VAtom (OName nm) :: map raw more))) as E.
  { apply run_one in E1. unfold notify in E1. cbv zeta in E1. change (alias (bs "Tf")) with (bs "Tf") in E1.
    change (on_ show (page_Do real_str show fc fr) KPage rs (bs "Tf") (OName nm :: more)) with
      (vbind (set_args (bs "Font") (OName nm :: more)) (fun _ => vret (OName nm :: more))) in E1.
    change (before_ KPage (bs "Tf")) with (vret tt) in E1. apply vbind_ok in E1. destruct E1 as ([] & s2 & E0 & E1). inversion E0. subst s2.
    apply vbind_ok in E1. destruct E1 as (args' & s2 & E2 & E1). apply vbind_ok in E2. destruct E2 as ([] & s3 & E2 & E3). inversion E3. subst.
    change (after_ real_str KPage (bs "Tf") (OName nm :: more)) with (vret tt) in E1. apply vbind_ok in E1. destruct E1 as ([] & s3 & E4 & E1). inversion E4. subst.
    assert (Rf s3 s1) as R.
    { revert E1. assert (keeps Rf (vbind (vlift (op_str real_str (bs "Tf") (OName nm :: more))) add_text)) as K; [kf; apply f_add_text|eapply K]. }
    rewrite R. unfold set_args, with_gss, vmod in E2. inversion E2. subst. unfold font_entry, current. cbn [v_gss].
    destruct (v_gss s); cbn [gss_set gss_state].
    - reflexivity.
    - rewrite aget_aset. rewrite eqlZ_refl. reflexivity. }
  unfold Rf in H. rewrite E in H. eapply Fi_name. exact H.
Qed.
(** The double quote operator (aw ac string) always fails: its operands are handed to TJ's handler. *)
Theorem C40_quotation_refuted : forall real_str show on_Do k rs aw ac str s,
  (exists z, aw = OInt z) \/ (exists n c e, aw = OReal n c e) ->
  fst (notify real_str show on_Do k rs (COp (bs """") [aw; ac; OStr str]) s) = Err TypeErr.
Proof. intros real_str show on_Do k rs aw ac str s [[z ->]|(n & c & e & ->)]; reflexivity. Qed.

(** e.g. a page showing three strings with two fonts *)
Definition ex40 : list citem :=
  [COp (bs "Tf") [OName (bs "F1"); OInt 12]; COp (bs "q") []; COp (bs "Tf") [OName (bs "F2"); OInt 8]; COp (bs "Tj") [OStr (bs "a")];
   COp (bs "Q") []; COp (bs "TJ") [OArr [OStr (bs "b"); OInt 3; OHex (bs "63")]]].
Definition ex40_show (f : option bv) (o : obj) : res (list Z) :=
  Ok (match f with Some (VAtom (OInt n)) => [n] | _ => [] end ++ match o with OStr t | OHex t => t | _ => [] end).
Definition ex40_run : res unit * vst :=
  run (fun _ _ _ => []) ex40_show (page_Do (fun _ _ _ => []) ex40_show ex_fc (fun _ => Ok [])) KPage
    [(bs "Font", RDict [(bs "F1", VAtom (OInt 49)); (bs "F2", VAtom (OInt 50))])] ex40 (mkV [] [] empty_canvas).
Example C40_ex : Forall ordinary ex40 /\ exists s', ex40_run = (Ok tt, s') /\ cv_strings (v_cv s') = [bs "2a"; bs "1b"; bs "163"].
Proof.
  split.
  - repeat constructor; intros [a H]; discriminate.
  - exists (snd ex40_run). split; vm_compute; reflexivity.
Qed.

(** C42.  The viewer's mode after any content is BT exactly if the last of its BT and ET operators is a BT (or
    there is none and it was before); the bracket stack never holds more than one entry. *)
Theorem C42_mode : forall real_str show fc fr rs l s s', Forall ordinary l ->
  (v_br s = [] \/ v_br s = [bs "BT"]) ->
  run real_str show (page_Do real_str show fc fr) KPage rs l s = (Ok tt, s') ->
  mode s' = match last_bracket l with Some true => Some (bs "BT") | Some false => None | None => mode s end /\
  (List.length (v_br s') <= 1)%nat.
Proof.
  intros real_str show fc fr rs l s s' Hl Hs H.
  assert (v_br s' = match last_bracket l with Some true => [bs "BT"] | Some false => [] | None => v_br s end) as E.
  { revert s Hs H. induction Hl as [|i l Hi Hl IH]; intros s Hs H.
    - inversion H. reflexivity.
    - cbn [run] in H. apply vbind_ok in H. destruct H as ([] & s1 & E1 & H). cbn [last_bracket].
      assert (v_br s1 = match match i with COp name _ => if eqlZ name (bs "BT") then Some true else if eqlZ name (bs "ET") then Some false else None | _ => None end with
                        | Some true => [bs "BT"] | Some false => [] | None => v_br s end) as E.
      { destruct (changes_brackets i) eqn:Ec.
        - destruct i as [|name args]; [discriminate|]. cbn [changes_brackets] in Ec.
          assert (forall t s2, vbind (vlift (op_str real_str name t)) add_text s2 = (Ok tt, s1) -> v_br s1 = v_br s2) as Hadd.
          { intros t s2 E. apply vbind_ok in E. destruct E as (tx & s3 & E3 & E4). inversion E3. inversion E4. reflexivity. }
          destruct (eqlZ name (bs "BT")) eqn:EB.
          + apply eqlZ_eq in EB. subst name.
            change (notify real_str show (page_Do real_str show fc fr) KPage rs (COp (bs "BT") args) s) with
              (vbind (vlift (op_str real_str (bs "BT") args)) add_text (mkV (v_gss s) (bs "BT" :: match v_br s with b :: r => if eqlZ b (bs "BT") then r else b :: r | [] => [] end) (v_cv s))) in E1.
            apply Hadd in E1. rewrite E1. cbn [v_br]. destruct Hs as [-> | ->]; reflexivity.
          + cbn [orb] in Ec. rewrite Ec. apply eqlZ_eq in Ec. subst name.
            change (notify real_str show (page_Do real_str show fc fr) KPage rs (COp (bs "ET") args) s) with
              (vbind (vlift (op_str real_str (bs "ET") args)) add_text (mkV (v_gss s) (match v_br s with b :: r => if eqlZ b (bs "BT") then r else b :: r | [] => [] end) (v_cv s))) in E1.
            apply Hadd in E1. rewrite E1. cbn [v_br]. destruct Hs as [-> | ->]; reflexivity.
        - destruct (n_show _ _ _ (q_page_Do real_str show fc fr) _ _ _ _ _ Hi E1) as (_ & _ & _ & B). rewrite B; auto.
          destruct i as [|name args]; auto. cbn [changes_brackets] in Ec. apply orb_false_iff in Ec. destruct Ec as [-> ->]. reflexivity. }
      rewrite (IH s1); auto.
      + destruct (last_bracket l) as [[]|]; auto.
      + rewrite E. destruct i as [|name args]; auto. destruct (eqlZ name (bs "BT")); auto. destruct (eqlZ name (bs "ET")); auto. }
  unfold mode. rewrite E. destruct (last_bracket l) as [[]|]; cbn; auto. destruct Hs as [-> | ->]; cbn; auto.
Qed.
(** No sequence of BT and ET makes rendering fail, from any state. *)
Theorem C42_never_fails : forall real_str show on_Do k rs l s,
  Forall (fun i => i = COp (bs "BT") [] \/ i = COp (bs "ET") []) l ->
  exists s', run real_str show on_Do k rs l s = (Ok tt, s') /\ v_gss s' = v_gss s.
Proof.
  intros real_str show on_Do k rs l s H. revert s. induction H as [|i l Hi Hl IH]; intros s; [eexists; split; reflexivity|].
  cbn [run].
  assert (exists s1, notify real_str show on_Do k rs i s = (Ok tt, s1) /\ v_gss s1 = v_gss s) as (s1 & E1 & G1).
  { destruct Hi as [-> | ->]; destruct k; eexists; (split; [reflexivity|]); reflexivity. }
  destruct (IH s1) as (s' & E & G). exists s'. unfold vbind. rewrite E1. split; [exact E|congruence].
Qed.
Example C42_ex : Forall ordinary [COp (bs "ET") []; COp (bs "BT") []; COp (bs "BT") []; COp (bs "w") [OInt 1]] /\
  last_bracket [COp (bs "ET") []; COp (bs "BT") []; COp (bs "BT") []; COp (bs "w") [OInt 1]] = Some true.
Proof. split; [repeat constructor; intros [a H]; discriminate|reflexivity]. Qed.

Print Assumptions C40_strings_in_order.
Print Assumptions C40_strings_of_forms.
Print Assumptions C40_font_in_effect.
Print Assumptions C40_quotation_refuted.
Print Assumptions C42_mode.
Print Assumptions C42_never_fails.
