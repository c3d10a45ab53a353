(** C83, C84: what is on the canvas after rendering. *)
From Coq Require Import String.
From Verif Require Import Prelude M_Parser M_Text M_Objects P_Objects M_Viewer S_Viewer L_Viewer P_GState S_Canvas.
Local Open Scope Z_scope.
Local Open Scope vm_scope.

(** A computation that, whether it succeeds or raises, relates the states before and after by [R]. *)
Definition alw {A} (R : vst -> vst -> Prop) (m : vm A) : Prop := forall s, R s (snd (m s)).
Section Alw.
  Variable R : vst -> vst -> Prop.
  Hypothesis (HR : forall s, R s s) (HT : forall a b c, R a b -> R b c -> R a c).
  Lemma alw_bind {A B} (m : vm A) (k : A -> vm B) : alw R m -> (forall a, alw R (k a)) -> alw R (vbind m k).
  Proof. intros Hm Hk s. unfold vbind. specialize (Hm s). destruct (m s) as [[x|e] s1]; cbn [snd] in *; [|exact Hm]. eapply HT; [exact Hm|apply Hk]. Qed.
  Lemma alw_ret {A} (a : A) : alw R (vret a). Proof. intros s. apply HR. Qed.
  Lemma alw_lift {A} (r : res A) : alw R (vlift r). Proof. intros s. apply HR. Qed.
  Lemma alw_get : alw R vget. Proof. intros s. apply HR. Qed.
  Lemma alw_arg0 args : alw R (arg0 args). Proof. destruct args; [apply alw_lift|apply alw_ret]. Qed.
End Alw.
Ltac av R r t := repeat first
  [ match goal with |- alw _ (vbind _ _) => apply (alw_bind R t); [|intros ?] end
  | match goal with |- alw _ (vret _) => apply (alw_ret R r) end
  | match goal with |- alw _ (vlift _) => apply (alw_lift R r) end
  | match goal with |- alw _ vget => apply (alw_get R r) end
  | match goal with |- alw _ (arg0 _) => apply (alw_arg0 R r) end ].

(** Everything but the shown strings and the echoed text stays. *)
Definition same_xobjects (a b : vst) : Prop :=
  cv_images (v_cv b) = cv_images (v_cv a) /\ cv_forms (v_cv b) = cv_forms (v_cv a) /\ cv_inline (v_cv b) = cv_inline (v_cv a) /\
  (exists t, cv_text (v_cv b) = cv_text (v_cv a) ++ t) /\ (exists ss, cv_strings (v_cv b) = cv_strings (v_cv a) ++ ss).
Lemma sx_refl s : same_xobjects s s.
Proof. repeat split; exists []; now rewrite app_nil_r. Qed.
Lemma sx_trans a b c : same_xobjects a b -> same_xobjects b c -> same_xobjects a c.
Proof.
  intros (A & B & C & (t & D) & (ss & E)) (A' & B' & C' & (t' & D') & (ss' & E')).
  repeat split; try congruence; [exists (t ++ t')|exists (ss ++ ss')]; rewrite app_assoc; congruence.
Qed.
Ltac ax := av same_xobjects sx_refl sx_trans.
Section Keep.
  Variable real_str : bool -> Z -> Z -> list Z.
  Variable show : option bv -> obj -> res (list Z).
  Lemma x_mod g : (forall s, v_cv (g s) = v_cv s) -> alw same_xobjects (vmod g).
  Proof. intros H s. cbn [vmod snd]. unfold same_xobjects. rewrite H. apply (sx_refl s). Qed.
  Lemma x_gss g : alw same_xobjects (with_gss g). Proof. apply x_mod. reflexivity. Qed.
  Lemma x_add_text t : alw same_xobjects (add_text t).
  Proof. intros s. repeat split; cbn; [now exists t|exists []; now rewrite app_nil_r]. Qed.
  Lemma x_add_string t : alw same_xobjects (add_string t).
  Proof. intros s. repeat split; cbn; [exists []; now rewrite app_nil_r|now exists [t]]. Qed.
  Lemma x_decode rs o : alw same_xobjects (decode show rs o). Proof. unfold decode. ax. apply x_gss. Qed.
  Lemma x_Tj rs args : alw same_xobjects (on_Tj show rs args). Proof. unfold on_Tj. ax; [apply x_decode|apply x_add_string]. Qed.
  Lemma x_show_all rs l : alw same_xobjects (show_all show rs l).
  Proof. induction l as [|x l IH]; cbn [show_all]; [ax|]. destruct x; ax; auto using x_decode, x_add_string. Qed.
  Lemma x_TJ rs args : alw same_xobjects (on_TJ show rs args).
  Proof. unfold on_TJ. ax. destruct a as [| | | | | | |l|[|]|? [|]| | |]; ax. apply x_show_all. Qed.
  Lemma x_props rs args : alw same_xobjects (on_props show rs args).
  Proof. unfold on_props. destruct args as [|t [|[] [|]]]; ax. destruct (dget d (bs "Contents")) as [[]|]; ax. apply x_decode. Qed.
  Lemma x_set_args f args : alw same_xobjects (set_args f args). Proof. apply x_gss. Qed.
  Lemma x_set_arg f args : alw same_xobjects (set_arg f args). Proof. unfold set_arg. ax; apply x_gss. Qed.
  Lemma x_gs rs args : alw same_xobjects (on_gs rs args).
  Proof.
    unfold on_gs. ax. destruct a0 as [st|]; ax. destruct (btruthy st); ax. destruct st; ax; try apply x_gss.
    destruct (amem d (bs "self")); ax. destruct (amem d (bs "font_name")); ax.
  Qed.
  Lemma x_on on_Do k rs name args : eqlZ name (bs "inline_image") = false -> (k = KPage -> eqlZ name (bs "Do") = false) -> alw same_xobjects (on_ show on_Do k rs name args).
  Proof.
    intros HI HD. unfold on_. cbv zeta. rewrite HI.
    repeat match goal with |- alw _ (if ?b then _ else _) => lazymatch type of b with bool => destruct b end; [ax; first [apply x_gss | apply x_set_args | apply x_set_arg | apply x_gs | apply x_Tj | apply x_TJ | apply x_props | (apply x_mod; reflexivity) | idtac]|] end.
    destruct k; [rewrite HD by reflexivity|]; ax.
  Qed.
  Lemma x_after k name args : (k = KPage -> eqlZ name (bs "navigate") = false) -> alw same_xobjects (after_ real_str k name args).
  Proof.
    intros HN. unfold after_. destruct (eqlZ name (bs "Do")); [apply x_gss|]. destruct (eqlZ name (bs "handler")); [ax; apply x_add_text|].
    destruct k; [rewrite HN by reflexivity|]; ax.
  Qed.
  Lemma x_before k name : alw same_xobjects (before_ k name).
  Proof. unfold before_. destruct (eqlZ name (bs "Do")); [apply x_gss|ax]. Qed.
End Keep.

Lemma grows_refl c : grows c c.
Proof. repeat split; exists []; now rewrite app_nil_r. Qed.
Lemma grows_trans a b c : grows a b -> grows b c -> grows a c.
Proof.
  intros ((t & A) & (ss & B) & (l & C) & (ks & D) & (fs & E)) ((t' & A') & (ss' & B') & (l' & C') & (ks' & D') & (fs' & E')).
  split; [exists (t ++ t')|split; [exists (ss ++ ss')|split; [exists (l ++ l')|split; [exists (ks ++ ks')|exists (fs ++ fs')]]]]; rewrite app_assoc; congruence.
Qed.
Definition Rg (a b : vst) : Prop := grows (v_cv a) (v_cv b).
Lemma Rg_refl s : Rg s s. Proof. apply grows_refl. Qed.
Lemma Rg_trans a b c : Rg a b -> Rg b c -> Rg a c. Proof. apply grows_trans. Qed.
Ltac ag := av Rg Rg_refl Rg_trans.
Lemma sx_grows a b : same_xobjects a b -> Rg a b.
Proof.
  intros (A & B & C & D & E). split; [exact D|]. split; [exact E|]. split; [exists []; rewrite app_nil_r; exact C|]. split; [exists []; rewrite app_nil_r; congruence|].
  exists []. rewrite app_nil_r. exact B.
Qed.
Lemma x_grows {A} (m : vm A) : alw same_xobjects m -> alw Rg m.
Proof. intros H s. apply sx_grows, H. Qed.
Lemma aset_keys {V} (d : list (list Z * V)) k v : map fst (aset d k v) = map fst d ++ (if amem d k then [] else [k]).
Proof.
  unfold amem. induction d as [|[k' x] d IH]; [reflexivity|]. cbn [aset aget]. destruct (eqlZ k k') eqn:E; cbn [map fst app]; [now rewrite app_nil_r|].
  rewrite IH. destruct (aget d k); reflexivity.
Qed.
Lemma aset_absent {V} (d : list (list Z * V)) k v : aget d k = None -> aset d k v = d ++ [(k, v)].
Proof. induction d as [|[k' x] d IH]; [reflexivity|]. cbn [aset aget]. destruct (eqlZ k k'); [discriminate|]. intros H. cbn [app]. now rewrite IH. Qed.

Section Grow.
  Variable real_str : bool -> Z -> Z -> list Z.
  Variable show : option bv -> obj -> res (list Z).
  Variable fc : bv -> res (list citem * option exn).
  Variable fr : bv -> res resources.
  Notation Do := (page_Do real_str show fc fr).
  Lemma in_form_cv rs ct s : v_cv (snd (in_form real_str show rs ct s)) = v_cv s.
  Proof. unfold in_form. destruct (render real_str show no_Do KForm rs ct (mkV (v_gss s) [] empty_canvas)) as [[u|e] s1]; reflexivity. Qed.
  (** the three things Do can do to a canvas *)
  Lemma Do_canvas rs args s r s' : Do rs args s = (r, s') ->
    v_cv s' = v_cv s \/
    exists a k xo, args = a :: tl args /\ operand_name a = Some k /\ aget (rs_dict rs (bs "XObject")) k = Some xo /\ aget (cv_forms (v_cv s)) k = None /\ r = Ok tt /\
    let c := v_cv s in
    ((is_image xo /\ v_cv s' = mkCv (aset (cv_images c) k xo) (cv_forms c) (cv_text c) (cv_inline c) (cv_strings c)) \/
     (is_form xo /\ exists frs ct s2, fr xo = Ok frs /\ fc xo = Ok ct /\
        render real_str show no_Do KForm frs ct (mkV (v_gss s) [] empty_canvas) = (Ok tt, s2) /\
        v_cv s' = mkCv (cv_images c) (cv_forms c ++ [(k, v_cv s2)]) (cv_text c) (cv_inline c) (cv_strings c))).
  Proof.
    unfold page_Do. destruct args as [|a args]; [intros H; injection H as <- <-; left; reflexivity|]. unfold vbind at 1. cbn [arg0 vret]. unfold vbind at 1. unfold vlift at 1.
    destruct (name_lookup (rs_dict rs (bs "XObject")) (raw a)) as [[xo|]|e] eqn:EN; [|intros H; injection H as <- <-; left; reflexivity|intros H; injection H as <- <-; left; reflexivity].
    destruct (btruthy xo) eqn:ET; [|intros H; injection H as <- <-; left; reflexivity]. unfold vbind at 1. cbn [vget].
    assert (exists k, operand_name a = Some k /\ key_of a = k /\ aget (rs_dict rs (bs "XObject")) k = Some xo) as (k & N1 & N2 & N3).
    { destruct a; cbn in EN; try discriminate EN; try (injection EN as EN; eexists; split; [reflexivity|split; [reflexivity|exact EN]]). }
    rewrite N2. destruct (amem (cv_forms (v_cv s)) k) eqn:EM; [intros H; injection H as <- <-; left; reflexivity|].
    assert (aget (cv_forms (v_cv s)) k = None) as EM' by (unfold amem in EM; destruct (aget (cv_forms (v_cv s)) k); [discriminate|reflexivity]).
    destruct (is_class xo (bs "Image")) eqn:EI.
    { intros H; injection H as <- <-. right. exists a, k, xo. split; [reflexivity|]. split; [exact N1|]. split; [exact N3|]. split; [exact EM'|]. split; [reflexivity|]. left. split.
      - destruct xo as [| | | |[c|] d data]; try discriminate EI. cbn in EI. apply eqlZ_eq in EI. subst c. exists d, data. split; [reflexivity|]. intros ->. discriminate ET.
      - reflexivity. }
    destruct (is_class xo (bs "Form")) eqn:EF; [|intros H; injection H as <- <-; left; reflexivity].
    unfold vbind, vlift. destruct (fr xo) as [frs|e] eqn:E1; [|intros H; injection H as <- <-; left; reflexivity].
    destruct (fc xo) as [ct|e] eqn:E2; [|intros H; injection H as <- <-; left; reflexivity].
    unfold in_form. destruct (render real_str show no_Do KForm frs ct (mkV (v_gss s) [] empty_canvas)) as [[[]|e] s2] eqn:ER; [|intros H; injection H as <- <-; left; reflexivity].
    intros H; injection H as <- <-. right. exists a, k, xo. split; [reflexivity|]. split; [exact N1|]. split; [exact N3|]. split; [exact EM'|]. split; [reflexivity|]. right. split.
    - destruct xo as [| | | |[c|] d data]; try discriminate EF. cbn in EF. apply eqlZ_eq in EF. subst c. exists d, data. split; [reflexivity|]. intros ->. discriminate ET.
    - exists frs, ct, s2. split; [exact E1|]. split; [exact E2|]. split; [exact ER|]. cbn [with_cv vmod snd v_cv cv_images cv_forms cv_text cv_inline cv_strings].
      rewrite aset_absent by exact EM'. reflexivity.
  Qed.
  Lemma g_Do rs args : alw Rg (Do rs args).
  Proof.
    intros s. destruct (Do rs args s) as [r s'] eqn:E. cbn [snd]. destruct (Do_canvas _ _ _ _ _ E) as [H|(a & k & xo & _ & _ & _ & _ & _ & [(_ & H)|(_ & frs & ct & s2 & _ & _ & _ & H)])]; unfold Rg; rewrite H.
    - apply grows_refl.
    - split; [exists []; now rewrite app_nil_r|]. split; [exists []; now rewrite app_nil_r|]. split; [exists []; now rewrite app_nil_r|]. split; [|exists []; now rewrite app_nil_r].
      cbn [cv_images]. rewrite aset_keys. eauto.
    - split; [exists []; now rewrite app_nil_r|]. split; [exists []; now rewrite app_nil_r|]. split; [exists []; now rewrite app_nil_r|]. split; [exists []; now rewrite app_nil_r|].
      cbn [cv_forms]. eauto.
  Qed.
  Lemma g_inline i : alw Rg (add_inline i).
  Proof. intros s. repeat split; cbn; try (exists []; now rewrite app_nil_r). now exists [i]. Qed.
  Lemma g_on on_Do k rs name args : (forall rs args, alw Rg (on_Do rs args)) -> alw Rg (on_ show on_Do k rs name args).
  Proof.
    intros HD. destruct (eqlZ name (bs "inline_image")) eqn:E1; [apply eqlZ_eq in E1; subst name; apply (alw_bind Rg Rg_trans); [apply g_inline|intros ?; ag]|].
    destruct (eqlZ name (bs "Do")) eqn:E2; [|apply x_grows, x_on; auto]. apply eqlZ_eq in E2. subst name. destruct k.
    - apply (alw_bind Rg Rg_trans); [apply HD|intros ?; ag].
    - ag. all: exact (alw_ret Rg Rg_refl args).
  Qed.
  Lemma g_notify on_Do k rs i : (forall rs args, alw Rg (on_Do rs args)) -> (k = KPage -> ~ named "navigate" i) -> alw Rg (notify real_str show on_Do k rs i).
  Proof.
    intros HD HN. destruct i as [d data|name args]; unfold notify.
    - ag; [apply g_inline|apply x_grows, x_add_text].
    - cbv zeta. ag.
      + apply x_grows, x_before.
      + apply g_on, HD.
      + apply x_grows, x_after. intros Ek. alias_tac. apply (is_named "navigate" (COp name args) name args eq_refl), HN, Ek.
      + apply x_grows, x_add_text.
  Qed.
  Lemma g_run on_Do k rs l : (forall rs args, alw Rg (on_Do rs args)) -> Forall (fun i => k = KPage -> ~ named "navigate" i) l -> alw Rg (run real_str show on_Do k rs l).
  Proof. intros HD. induction 1 as [|i l Hi Hl IH]; cbn [run]; ag; [now apply g_notify|exact IH]. Qed.
End Grow.

Lemma g_no_Do rs args : alw Rg (no_Do rs args). Proof. apply (alw_ret Rg Rg_refl). Qed.
Lemma forall_page (l : list citem) : Forall (fun i => ~ named "navigate" i) l -> Forall (fun i => KPage = KPage -> ~ named "navigate" i) l.
Proof. apply Forall_impl. auto. Qed.
Lemma forall_form (l : list citem) : Forall (fun i => KForm = KPage -> ~ named "navigate" i) l.
Proof. apply Forall_forall. intros i _ X. discriminate X. Qed.

(** C84 (a).  Rendering, whether it ends or raises (in a handler, or because the content cannot be parsed), only ever adds to
    the canvas. *)
Theorem C84_canvas_only_grows : forall real_str show fc fr rs content s,
  Forall (fun i => ~ named "navigate" i) (fst content) ->
  grows (v_cv s) (v_cv (snd (render_page real_str show fc fr rs content s))).
Proof.
  intros real_str show fc fr rs content s H. unfold render_page, render. apply (alw_bind Rg Rg_trans).
  - apply g_run; [apply g_Do|now apply forall_page].
  - intros []. destruct (snd content); [apply (alw_lift Rg Rg_refl)|apply (alw_ret Rg Rg_refl)].
Qed.
(** What the first operators put there stays, whatever comes after them. *)
Theorem C84_earlier_output_kept : forall real_str show fc fr rs l1 l2 e s s1,
  run real_str show (page_Do real_str show fc fr) KPage rs l1 s = (Ok tt, s1) -> Forall (fun i => ~ named "navigate" i) l2 ->
  grows (v_cv s1) (v_cv (snd (render_page real_str show fc fr rs (l1 ++ l2, e) s))).
Proof.
  intros real_str show fc fr rs l1 l2 e s s1 E H. unfold render_page, render. cbn [fst snd]. unfold vbind. rewrite run_app. unfold vbind. rewrite E.
  pose proof (g_run real_str show (page_Do real_str show fc fr) KPage rs l2 (g_Do real_str show fc fr) (forall_page l2 H) s1) as G.
  destruct (run real_str show (page_Do real_str show fc fr) KPage rs l2 s1) as [[[]|x] s2]; [|exact G]. cbn [snd] in G. destruct e; exact G.
Qed.
(** A form's canvas, too; there even an operator called navigate does nothing. *)
Theorem C84_form_canvas_only_grows : forall real_str show rs content s,
  grows (v_cv s) (v_cv (snd (render real_str show no_Do KForm rs content s))).
Proof.
  intros real_str show rs content s. unfold render. apply (alw_bind Rg Rg_trans).
  - apply g_run; [apply g_no_Do|apply forall_form].
  - intros []. destruct (snd content); [apply (alw_lift Rg Rg_refl)|apply (alw_ret Rg Rg_refl)].
Qed.
(** C84 (b).  Refuted for all content: an operator called navigate - any page may contain one - empties the canvas and resets the
    graphics state. *)
Theorem C84_navigate_refuted : forall real_str show fc fr rs s, exists s',
  run real_str show (page_Do real_str show fc fr) KPage rs [COp (bs "navigate") []] s = (Ok tt, s') /\
  v_gss s' = [] /\ cv_strings (v_cv s') = [] /\ cv_images (v_cv s') = [] /\ cv_forms (v_cv s') = [] /\ cv_inline (v_cv s') = [] /\ cv_text (v_cv s') = [10] ++ bs " navigate".
Proof. intros. eexists. split; [reflexivity|]. repeat split. Qed.
Print Assumptions C84_canvas_only_grows.
Print Assumptions C84_earlier_output_kept.
Print Assumptions C84_form_canvas_only_grows.
Print Assumptions C84_navigate_refuted.

(** ---- C83 ---- *)
Definition plain (i : citem) : Prop := ~ named "navigate" i /\ ~ named "inline_image" i.
Lemma image_not_form xo : is_image xo -> is_form xo -> False.
Proof. intros (d & data & -> & _) (d' & data' & E & _). discriminate E. Qed.
Lemma draws_same rs i k xo xo' : draws rs i k xo -> aget (rs_dict rs (bs "XObject")) k = Some xo' -> xo' = xo.
Proof. intros (a & args & _ & _ & E) E'. congruence. Qed.
Section Painted.
  Variable real_str : bool -> Z -> Z -> list Z.
  Variable show : option bv -> obj -> res (list Z).
  Variable fc : bv -> res (list citem * option exn).
  Variable fr : bv -> res resources.
  Notation Do := (page_Do real_str show fc fr).
  Lemma n_Do rs args s s' : notify real_str show Do KPage rs (COp (bs "Do") args) s = (Ok tt, s') ->
    exists s1, Do rs args (mkV (gss_save (v_gss s)) (v_br s) (v_cv s)) = (Ok tt, s1) /\ same_xobjects s1 s'.
  Proof.
    intros H. unfold notify in H. cbv zeta in H. change (alias (bs "Do")) with (bs "Do") in H.
    change (before_ KPage (bs "Do")) with (with_gss gss_save) in H. change (on_ show Do KPage rs (bs "Do") args) with (vbind (Do rs args) (fun _ => vret args)) in H.
    apply vbind_ok in H. destruct H as ([] & s1 & E1 & H). injection E1 as <-. apply vbind_ok in H. destruct H as (a & s2 & E2 & H).
    apply vbind_ok in E2. destruct E2 as ([] & s3 & E2 & E3). injection E3 as <- <-. exists s3. split; [exact E2|].
    apply vbind_ok in H. destruct H as ([] & s4 & E4 & H). apply vbind_ok in H. destruct H as (t & s5 & E5 & H). injection E5 as E5 <-.
    pose proof (x_after real_str KPage (bs "Do") args (fun _ => eq_refl) s3) as X1. rewrite E4 in X1. pose proof (x_add_text t s4) as X2. rewrite H in X2.
    eapply sx_trans; [exact X1|exact X2].
  Qed.
  Lemma n_other rs name args s s' : plain (COp name args) -> name <> bs "Do" -> notify real_str show Do KPage rs (COp name args) s = (Ok tt, s') -> same_xobjects s s'.
  Proof.
    intros [P1 P2] HN H. apply (is_named _ _ _ _ eq_refl) in P1. apply (is_named _ _ _ _ eq_refl) in P2. apply eqlZ_neq in HN.
    assert (alw same_xobjects (notify real_str show Do KPage rs (COp name args))) as X.
    { unfold notify. cbv zeta. ax.
      - apply x_before.
      - apply x_on; [alias_tac; exact P2|intros _; alias_tac; exact HN].
      - apply x_after. intros _. alias_tac. exact P1.
      - apply x_add_text. }
    specialize (X s). rewrite H in X. exact X.
  Qed.
  Lemma n_image rs d data s s' : notify real_str show Do KPage rs (CImage d data) s = (Ok tt, s') ->
    cv_images (v_cv s') = cv_images (v_cv s) /\ cv_forms (v_cv s') = cv_forms (v_cv s) /\ cv_inline (v_cv s') = cv_inline (v_cv s) ++ [CImage d data].
  Proof.
    intros H. unfold notify in H. apply vbind_ok in H. destruct H as ([] & s1 & E1 & H). injection E1 as <-. apply vbind_ok in H. destruct H as (t & s2 & E2 & H).
    injection E2 as E2 <-. injection H as <-. repeat split.
  Qed.
  Lemma truthy_image xo : is_image xo -> btruthy xo = true /\ is_class xo (bs "Image") = true.
  Proof. intros (d & data & -> & H). split; [cbn; destruct data; congruence|reflexivity]. Qed.
  Lemma truthy_form xo : is_form xo -> btruthy xo = true /\ is_class xo (bs "Image") = false /\ is_class xo (bs "Form") = true.
  Proof. intros (d & data & -> & H). split; [cbn; destruct data; congruence|split; reflexivity]. Qed.
  Lemma lookup_name {V} (d : list (list Z * V)) a k : operand_name a = Some k -> name_lookup d (raw a) = Ok (aget d k) /\ key_of a = k.
  Proof. destruct a; cbn; intros H; inversion H; subst; auto. Qed.
  Lemma Do_image rs a args k xo s : operand_name a = Some k -> aget (rs_dict rs (bs "XObject")) k = Some xo -> is_image xo -> aget (cv_forms (v_cv s)) k = None ->
    Do rs (a :: args) s = (Ok tt, let c := v_cv s in mkV (v_gss s) (v_br s) (mkCv (aset (cv_images c) k xo) (cv_forms c) (cv_text c) (cv_inline c) (cv_strings c))).
  Proof.
    intros H1 H2 H3 H4. destruct (lookup_name (rs_dict rs (bs "XObject")) a k H1) as [L1 L2]. destruct (truthy_image xo H3) as [T1 T2].
    unfold page_Do, vbind, vlift, vret, vget. cbn [arg0 vret]. unfold vret. rewrite L1, H2, T1, L2. unfold amem. rewrite H4, T2. reflexivity.
  Qed.
  Lemma Do_form rs a args k xo s s' : operand_name a = Some k -> aget (rs_dict rs (bs "XObject")) k = Some xo -> is_form xo ->
    Do rs (a :: args) s = (Ok tt, s') ->
    match aget (cv_forms (v_cv s)) k with
    | Some _ => v_cv s' = v_cv s
    | None => exists frs ct s2, fr xo = Ok frs /\ fc xo = Ok ct /\ render real_str show no_Do KForm frs ct (mkV (v_gss s) [] empty_canvas) = (Ok tt, s2) /\
        v_cv s' = let c := v_cv s in mkCv (cv_images c) (cv_forms c ++ [(k, v_cv s2)]) (cv_text c) (cv_inline c) (cv_strings c)
    end.
  Proof.
    intros H1 H2 H3 H. destruct (lookup_name (rs_dict rs (bs "XObject")) a k H1) as [L1 L2]. destruct (truthy_form xo H3) as (T1 & T2 & T3).
    unfold page_Do in H. unfold vbind at 1 in H. cbn [arg0 vret] in H. unfold vret at 1 in H. unfold vbind at 1, vlift at 1 in H. rewrite L1, H2, T1 in H.
    unfold vbind at 1 in H. cbn [vget] in H. rewrite L2 in H. unfold amem in H. destruct (aget (cv_forms (v_cv s)) k) eqn:E; [injection H as <-; reflexivity|]. rewrite T2, T3 in H.
    apply vbind_ok in H. destruct H as (frs & s1 & E1 & H). injection E1 as E1 <-. apply vbind_ok in H. destruct H as (ct & s1 & E2 & H). injection E2 as E2 <-.
    apply vbind_ok in H. destruct H as (cv & s1 & E3 & H). unfold in_form in E3.
    destruct (render real_str show no_Do KForm frs ct (mkV (v_gss s) [] empty_canvas)) as [[[]|e] s2] eqn:ER; [|discriminate E3]. injection E3 as <- <-.
    exists frs, ct, s2. split; [exact E1|]. split; [exact E2|]. split; [exact ER|]. injection H as <-. cbn [v_cv]. now rewrite aset_absent.
  Qed.

  (** the effect of one operator or inline image on the images, forms and inline images of the canvas *)
  Definition new_form (rs : resources) (xo : bv) (s : vst) (cv : canvas) : Prop := exists frs ct s2, fr xo = Ok frs /\ fc xo = Ok ct /\
    render real_str show no_Do KForm frs ct (mkV (gss_save (v_gss s)) [] empty_canvas) = (Ok tt, s2) /\ cv = v_cv s2.
  Lemma n_effect rs i s s' : plain i -> notify real_str show Do KPage rs i s = (Ok tt, s') ->
    cv_inline (v_cv s') = cv_inline (v_cv s) ++ inline_images [i] /\
    ((exists k xo, draws rs i k xo /\ aget (cv_forms (v_cv s)) k = None /\ is_image xo /\
        cv_images (v_cv s') = aset (cv_images (v_cv s)) k xo /\ cv_forms (v_cv s') = cv_forms (v_cv s)) \/
     (exists k xo cv, draws rs i k xo /\ aget (cv_forms (v_cv s)) k = None /\ is_form xo /\ new_form rs xo s cv /\
        cv_images (v_cv s') = cv_images (v_cv s) /\ cv_forms (v_cv s') = cv_forms (v_cv s) ++ [(k, cv)]) \/
     (cv_images (v_cv s') = cv_images (v_cv s) /\ cv_forms (v_cv s') = cv_forms (v_cv s) /\
      forall k xo, draws rs i k xo -> is_image xo \/ is_form xo -> aget (cv_forms (v_cv s)) k <> None)).
  Proof.
    intros HP H. destruct i as [d data|name args].
    { destruct (n_image _ _ _ _ _ H) as (A & B & C). split; [exact C|]. right. right. split; [exact A|]. split; [exact B|]. intros k xo (a & args & E & _). discriminate E. }
    cbn [inline_images filter]. rewrite app_nil_r.
    destruct (eqlZ name (bs "Do")) eqn:EN.
    - apply eqlZ_eq in EN. subst name. destruct (n_Do _ _ _ _ H) as (s1 & E1 & X). set (s0 := mkV (gss_save (v_gss s)) (v_br s) (v_cv s)) in *.
      destruct X as (X1 & X2 & X3 & _). rewrite X1, X2, X3.
      destruct (Do_canvas _ _ _ _ _ _ _ _ _ E1) as [HC|(a & k & xo & Ea & N1 & N2 & N3 & _ & HC)].
      + rewrite HC. cbn [v_cv s0]. split; [reflexivity|]. 
        destruct args as [|a args]; [right; right; split; [reflexivity|]; split; [reflexivity|]; intros k xo (a & ar & E & _); discriminate E|].
        destruct (operand_name a) as [k|] eqn:EO; [|right; right; split; [reflexivity|]; split; [reflexivity|]; intros k xo (a' & ar & E & E' & _); injection E as -> ->; congruence].
        destruct (aget (rs_dict rs (bs "XObject")) k) as [xo|] eqn:EX;
          [|right; right; split; [reflexivity|]; split; [reflexivity|]; intros k' xo (a' & ar & E & E' & E2); injection E as -> ->; congruence].
        assert (forall k' xo', draws rs (COp (bs "Do") (a :: args)) k' xo' -> k' = k /\ xo' = xo) as U.
        { intros k' xo' (a' & ar & E & E' & E2). injection E as -> ->. assert (k' = k) by congruence. subst k'. split; congruence. }
        destruct (aget (cv_forms (v_cv s)) k) as [cv|] eqn:EF.
        * right. right. split; [reflexivity|]. split; [reflexivity|]. intros k' xo' Hd _. destruct (U k' xo' Hd) as [-> ->]. congruence.
        * assert (is_image xo \/ ~ is_image xo) as [HI|HI].
          { destruct xo as [| | | |[c|] d data]; try (right; intros (? & ? & E & _); discriminate E). destruct (eqlZ c (bs "Image")) eqn:Ec; [|right; intros (? & ? & E & _); injection E as -> -> ->; rewrite eqlZ_refl in Ec; discriminate].
            apply eqlZ_eq in Ec. subst c. destruct data; [right; intros (? & ? & E & Hn); injection E as <- <-; congruence|left; eexists _, _; split; [reflexivity|discriminate]]. }
          -- left. exists k, xo. split; [exists a, args; auto|]. split; [exact EF|]. split; [exact HI|].
             rewrite (Do_image rs a args k xo s0 EO EX HI EF) in E1. injection E1 as <-. cbn [v_cv s0] in HC |- *.
             split; [|reflexivity]. now rewrite <- HC at 1.
          -- right. right. split; [reflexivity|]. split; [reflexivity|]. intros k' xo' Hd [HI'|HF]; destruct (U k' xo' Hd) as [-> ->]; [contradiction|].
             pose proof (Do_form rs a args k xo s0 s1 EO EX HF E1) as HX. cbn [v_cv s0] in HX. rewrite EF in HX. destruct HX as (frs & ct & s2 & _ & _ & _ & HX).
             rewrite HC in HX. cbn [v_cv s0] in HX. exfalso. assert (cv_forms (v_cv s) = cv_forms (v_cv s) ++ [(k, v_cv s2)]) as HY by (rewrite HX at 1; reflexivity).
             apply (f_equal (@List.length _)) in HY. rewrite app_length in HY. cbn in HY. lia.
      + cbn [v_cv s0] in *. destruct args as [|a0 args]; [discriminate Ea|]. injection Ea as Ea. subst a0.
        destruct HC as [(HI & HC)|(HF & frs & ct & s2 & F1 & F2 & F3 & HC)]; rewrite HC; (split; [reflexivity|]).
        * left. exists k, xo. split; [exists a, args; auto|]. auto.
        * right. left. exists k, xo, (v_cv s2). split; [exists a, args; auto|]. split; [exact N3|]. split; [exact HF|]. split; [exists frs, ct, s2; auto|]. auto.
    - assert (name <> bs "Do") as HN by (intros ->; rewrite eqlZ_refl in EN; discriminate). destruct (n_other _ _ _ _ _ HP HN H) as (A & B & C & _).
      split; [exact C|]. right. right. split; [exact A|]. split; [exact B|]. intros k xo (a & ar & E & _). injection E as E _. exact (False_ind _ (HN E)).
  Qed.
  Lemma run_snoc rs l i s s' : run real_str show Do KPage rs (l ++ [i]) s = (Ok tt, s') ->
    exists s1, run real_str show Do KPage rs l s = (Ok tt, s1) /\ notify real_str show Do KPage rs i s1 = (Ok tt, s').
  Proof. intros H. rewrite run_app in H. apply vbind_ok in H. destruct H as ([] & s1 & E1 & E2). exists s1. split; [exact E1|]. eapply run_one. exact E2. Qed.
  Lemma inline_app a b : inline_images (a ++ b) = inline_images a ++ inline_images b.
  Proof. unfold inline_images. apply filter_app. Qed.
  Lemma aget_app {V} (d e : list (list Z * V)) k : aget (d ++ e) k = match aget d k with Some v => Some v | None => aget e k end.
  Proof. induction d as [|[k' v] d IH]; [reflexivity|]. cbn [app aget]. destruct (eqlZ k k'); [reflexivity|exact IH]. Qed.
  Lemma inline_all rs l s s' : Forall plain l -> run real_str show Do KPage rs l s = (Ok tt, s') -> cv_inline (v_cv s') = cv_inline (v_cv s) ++ inline_images l.
  Proof.
    intros HP. revert s'. induction l as [|i l IH] using rev_ind; intros s' H.
    - injection H as <-. now rewrite app_nil_r.
    - apply Forall_app in HP. destruct HP as [HP HPi]. inversion HPi as [|? ? H2 _]; subst. destruct (run_snoc _ _ _ _ _ H) as (s1 & E1 & E2). rewrite inline_app, app_assoc, <- (IH HP s1 E1).
      exact (proj1 (n_effect rs i s1 s' H2 E2)).
  Qed.
  Lemma images_all rs l s s' : Forall plain l -> cv_images (v_cv s) = [] -> cv_forms (v_cv s) = [] -> run real_str show Do KPage rs l s = (Ok tt, s') ->
    (forall k xo, aget (cv_images (v_cv s')) k = Some xo <-> is_image xo /\ exists i, In i l /\ draws rs i k xo) /\
    (forall k, aget (cv_forms (v_cv s')) k <> None <-> exists xo i, is_form xo /\ In i l /\ draws rs i k xo).
  Proof.
    intros HP Hs1 Hs2. revert s'. induction l as [|i l IH] using rev_ind; intros s' H.
    - injection H as <-. rewrite Hs1, Hs2. split; [split|split].
      + discriminate.
      + intros (_ & i & [] & _).
      + intros X; exfalso; apply X; reflexivity.
      + intros (xo & i & _ & [] & _).
    - apply Forall_app in HP. destruct HP as [HP HPi]. inversion HPi as [|? ? Hi _]; subst. destruct (run_snoc _ _ _ _ _ H) as (s1 & E1 & E2). destruct (IH HP s1 E1) as [I1 I2]. clear IH.
      assert (forall k xo, is_image xo -> aget (rs_dict rs (bs "XObject")) k = Some xo -> aget (cv_forms (v_cv s1)) k = None) as NF.
      { intros k xo HI EX. destruct (aget (cv_forms (v_cv s1)) k) eqn:E; [|reflexivity]. exfalso. destruct (proj1 (I2 k)) as (xo' & i' & HF & _ & Hd); [congruence|].
        assert (xo = xo') by (eapply draws_same; eauto). subst xo'. eapply image_not_form; eauto. }
      destruct (n_effect _ _ _ _ Hi E2) as [_ [(k & xo & Hd & EF & HI & J1 & J2)|[(k & xo & cv & Hd & EF & HF & _ & J1 & J2)|(J1 & J2 & J3)]]]; rewrite J1, J2.
      + split.
        * intros k' xo'. rewrite aget_aset. destruct (eqlZ k' k) eqn:Ek.
          -- apply eqlZ_eq in Ek. subst k'. split.
             ++ intros X. injection X as <-. split; [exact HI|]. exists i. split; [apply in_or_app; right; now left|exact Hd].
             ++ intros (_ & i' & _ & Hd'). f_equal. destruct Hd' as (a & ar & _ & _ & EX). symmetry. eapply draws_same; eauto.
          -- rewrite I1. split; intros (A & i' & B & C); (split; [exact A|]); exists i'; (split; [|exact C]); [apply in_or_app; now left|].
             apply in_app_or in B. destruct B as [B|[B|[]]]; [exact B|]. subst i'. exfalso. destruct Hd as (a & ar & Ei & N1 & _). destruct C as (a' & ar' & Ei' & N1' & _).
             rewrite Ei in Ei'. injection Ei' as <- <-. assert (k' = k) by congruence. subst k'. rewrite eqlZ_refl in Ek. discriminate.
        * intros k'. rewrite I2. split; intros (xo' & i' & A & B & C); exists xo', i'; (split; [exact A|]); (split; [|exact C]); [apply in_or_app; now left|].
          apply in_app_or in B. destruct B as [B|[B|[]]]; [exact B|]. subst i'. exfalso. destruct Hd as (a & ar & Ei & N1 & N2). destruct C as (a' & ar' & Ei' & N1' & N2').
          rewrite Ei in Ei'. injection Ei' as <- <-. assert (k' = k) by congruence. subst k'. assert (xo' = xo) by congruence. subst xo'. eapply image_not_form; eauto.
      + split.
        * intros k' xo'. rewrite I1. split; intros (A & i' & B & C); (split; [exact A|]); exists i'; (split; [|exact C]); [apply in_or_app; now left|].
          apply in_app_or in B. destruct B as [B|[B|[]]]; [exact B|]. subst i'. exfalso. destruct Hd as (a & ar & Ei & N1 & N2). destruct C as (a' & ar' & Ei' & N1' & N2').
          rewrite Ei in Ei'. injection Ei' as <- <-. assert (k' = k) by congruence. subst k'. assert (xo' = xo) by congruence. subst xo'. eapply image_not_form; eauto.
        * intros k'. rewrite aget_app. cbn [aget]. split.
          -- intros X. destruct (aget (cv_forms (v_cv s1)) k') eqn:E.
             ++ destruct (proj1 (I2 k')) as (xo' & i' & A & B & C); [congruence|]. exists xo', i'. split; [exact A|]. split; [apply in_or_app; now left|exact C].
             ++ destruct (eqlZ k' k) eqn:Ek; [|congruence]. apply eqlZ_eq in Ek. subst k'. exists xo, i. split; [exact HF|]. split; [apply in_or_app; right; now left|exact Hd].
          -- intros (xo' & i' & A & B & C). apply in_app_or in B. destruct B as [B|[B|[]]].
             ++ assert (aget (cv_forms (v_cv s1)) k' <> None) as X by (apply I2; eauto). destruct (aget (cv_forms (v_cv s1)) k'); [discriminate|congruence].
             ++ subst i'. destruct Hd as (a & ar & Ei & N1 & _). destruct C as (a' & ar' & Ei' & N1' & _). rewrite Ei in Ei'. injection Ei' as <- <-. assert (k' = k) by congruence. subst k'.
                rewrite eqlZ_refl. destruct (aget (cv_forms (v_cv s1)) k); discriminate.
      + split.
        * intros k' xo'. rewrite I1. split; intros (A & i' & B & C); (split; [exact A|]); exists i'; (split; [|exact C]); [apply in_or_app; now left|].
          apply in_app_or in B. destruct B as [B|[B|[]]]; [exact B|]. subst i'. exfalso. apply (J3 k' xo' C); [now left|]. destruct C as (a & ar & _ & _ & EX). eapply NF; eauto.
        * intros k'. rewrite I2. split; intros (xo' & i' & A & B & C).
          -- exists xo', i'. split; [exact A|]. split; [apply in_or_app; now left|exact C].
          -- apply in_app_or in B. destruct B as [B|[B|[]]]; [eauto|]. subst i'. apply (proj1 (I2 k')). apply (J3 k' xo' C). now right.
  Qed.
  Lemma forms_all rs l s s' : Forall plain l -> cv_images (v_cv s) = [] -> cv_forms (v_cv s) = [] -> run real_str show Do KPage rs l s = (Ok tt, s') ->
    forall k cv, aget (cv_forms (v_cv s')) k = Some cv <->
      exists xo pre i post s1, l = pre ++ i :: post /\ draws rs i k xo /\ is_form xo /\ (forall j xo', In j pre -> ~ draws rs j k xo') /\
        run real_str show Do KPage rs pre s = (Ok tt, s1) /\ new_form rs xo s1 cv.
  Proof.
    intros HP Hs1 Hs2. revert s'. induction l as [|i l IH] using rev_ind; intros s' H k cv.
    - injection H as <-. rewrite Hs2. split; [discriminate|]. intros (xo & pre & i & post & s1 & E & _). destruct pre; discriminate.
    - apply Forall_app in HP. destruct HP as [HP HPi]. inversion HPi as [|? ? Hi _]; subst. destruct (run_snoc _ _ _ _ _ H) as (s1 & E1 & E2). specialize (IH HP s1 E1 k cv).
      destruct (images_all rs l s s1 HP Hs1 Hs2 E1) as [_ I2].
      assert (forall xo j, is_form xo -> draws rs j k xo -> In j l -> aget (cv_forms (v_cv s1)) k <> None) as HD by (intros xo j A B C; apply I2; eauto).
      assert (forall X : Prop, (forall xo, draws rs i k xo -> is_form xo -> new_form rs xo s1 cv -> (forall j xo', In j l -> ~ draws rs j k xo') -> X) ->
        (exists xo pre i0 post s2, l ++ [i] = pre ++ i0 :: post /\ draws rs i0 k xo /\ is_form xo /\ (forall j xo', In j pre -> ~ draws rs j k xo') /\
           run real_str show Do KPage rs pre s = (Ok tt, s2) /\ new_form rs xo s2 cv) -> (aget (cv_forms (v_cv s1)) k = Some cv -> X) -> X) as Cases.
      { intros X H1 (xo & pre & i0 & post & s2 & EL & A & B & C & D & F) H2. destruct post as [|p0 post _] using rev_ind.
        - apply app_inj_tail in EL. destruct EL as [-> ->]. assert (s2 = s1) by congruence. subst s2. apply (H1 xo); auto.
        - change (pre ++ i0 :: post ++ [p0]) with (pre ++ (i0 :: post) ++ [p0]) in EL. rewrite app_assoc in EL. apply app_inj_tail in EL. destruct EL as [EL ->]. apply H2, IH. exists xo, pre, i0, post, s2. auto 10. }
      destruct (n_effect _ _ _ _ Hi E2) as [_ [(k0 & xo & Hd & EF & HI & J1 & J2)|[(k0 & xo & cv0 & Hd & EF & HF & HN & J1 & J2)|(J1 & J2 & J3)]]]; rewrite J2.
      + split.
        * intros X. apply IH in X. destruct X as (xo' & pre & i0 & post & s2 & EL & R). exists xo', pre, i0, (post ++ [i]), s2. split; [|exact R]. rewrite EL, <- app_assoc. reflexivity.
        * intros X. refine (Cases _ _ X _); [|auto]. intros xo' A B _ _. exfalso. destruct Hd as (a & ar & Ei & N1 & N2). destruct A as (a' & ar' & Ei' & N1' & N2').
          rewrite Ei in Ei'. injection Ei' as <- <-. assert (k = k0) by congruence. subst k0. assert (xo' = xo) by congruence. subst xo'. eapply image_not_form; eauto.
      + rewrite aget_app. cbn [aget]. split.
        * destruct (aget (cv_forms (v_cv s1)) k) as [cv1|] eqn:EK.
          -- intros X. injection X as ->. destruct (proj1 IH eq_refl) as (xo' & pre & i0 & post & s2 & EL & R). exists xo', pre, i0, (post ++ [i]), s2. split; [|exact R]. rewrite EL, <- app_assoc. reflexivity.
          -- destruct (eqlZ k k0) eqn:Ek; [|discriminate]. apply eqlZ_eq in Ek. subst k0. intros X. injection X as ->. exists xo, l, i, [], s1. split; [reflexivity|]. split; [exact Hd|]. split; [exact HF|].
             split; [|split; [exact E1|exact HN]]. intros j xo' Hj Hd'. assert (xo' = xo) by (destruct Hd' as (a & ar & _ & _ & X); symmetry; destruct Hd as (a1 & ar1 & _ & _ & X1); congruence). subst xo'.
             apply (HD xo j HF Hd' Hj). reflexivity.
        * intros X. refine (Cases _ _ X _).
          -- intros xo' A B C N. destruct Hd as (a & ar & Ei & N1 & N2). destruct A as (a' & ar' & Ei' & N1' & N2').
             rewrite Ei in Ei'. injection Ei' as <- <-. assert (k = k0) by congruence. subst k0. assert (xo' = xo) by congruence. subst xo'. rewrite EF, eqlZ_refl. f_equal.
             destruct HN as (f1 & c1 & t1 & A1 & A2 & A3 & ->). destruct C as (f2 & c2 & t2 & B1 & B2 & B3 & ->). rewrite A1 in B1. injection B1 as <-. rewrite A2 in B2. injection B2 as <-.
             rewrite A3 in B3. injection B3 as <-. reflexivity.
          -- intros ->. reflexivity.
      + split.
        * intros X. apply IH in X. destruct X as (xo' & pre & i0 & post & s2 & EL & R). exists xo', pre, i0, (post ++ [i]), s2. split; [|exact R]. rewrite EL, <- app_assoc. reflexivity.
        * intros X. refine (Cases _ _ X _); [|auto]. intros xo' A B _ N. exfalso. apply (J3 k xo' A (or_intror B)).
          destruct (aget (cv_forms (v_cv s1)) k) as [cv1|] eqn:EK; [|reflexivity]. exfalso. destruct (proj1 (I2 k)) as (xo2 & j & _ & Hj & Hd); [congruence|]. exact (N j xo2 Hj Hd).
  Qed.
End Painted.

Lemma firsts_snoc l k : firsts (l ++ [k]) = if existsb (eqlZ k) (firsts l) then firsts l else firsts l ++ [k].
Proof. unfold firsts. rewrite fold_left_app. reflexivity. Qed.
Lemma painted_app rs c a b : painted rs c (a ++ b) = painted rs c a ++ painted rs c b.
Proof. unfold painted. apply flat_map_app. Qed.
Lemma painted_draws rs c i k d data : data <> [] -> draws rs i k (VStm (Some c) d data) -> painted rs c [i] = [k].
Proof.
  intros Hd (a & args & -> & N & E). unfold painted. cbn [flat_map]. rewrite eqlZ_refl, N, E. destruct data; [congruence|]. now rewrite eqlZ_refl.
Qed.
Lemma painted_other rs c i : (forall k d data, data <> [] -> ~ draws rs i k (VStm (Some c) d data)) -> painted rs c [i] = [].
Proof.
  intros H. unfold painted. cbn [flat_map]. rewrite app_nil_r. destruct i as [|name [|a args]]; [reflexivity|reflexivity|]. destruct (eqlZ name (bs "Do")) eqn:E; [|reflexivity].
  apply eqlZ_eq in E. subst name. destruct (operand_name a) as [k|] eqn:EO; [|reflexivity]. destruct (aget (rs_dict rs (bs "XObject")) k) as [xo|] eqn:EX; [|reflexivity].
  destruct xo as [| | | |[c'|] d [|z data]]; try reflexivity. destruct (eqlZ c' c) eqn:Ec; [|reflexivity]. apply eqlZ_eq in Ec. subst c'. exfalso. apply (H k d (z :: data)); [discriminate|].
  exists a, args. auto.
Qed.
Lemma existsb_keys {V} (d : list (list Z * V)) k : existsb (eqlZ k) (map fst d) = amem d k.
Proof. unfold amem. induction d as [|[k' v] d IH]; [reflexivity|]. cbn [map fst existsb aget]. destruct (eqlZ k k'); [reflexivity|exact IH]. Qed.

Section C83.
  Variable real_str : bool -> Z -> Z -> list Z.
  Variable show : option bv -> obj -> res (list Z).
  Variable fc : bv -> res (list citem * option exn).
  Variable fr : bv -> res resources.
  Notation Do := (page_Do real_str show fc fr).
  Lemma order_all rs l s s' : Forall plain l -> cv_images (v_cv s) = [] -> cv_forms (v_cv s) = [] -> run real_str show Do KPage rs l s = (Ok tt, s') ->
    map fst (cv_images (v_cv s')) = firsts (painted rs (bs "Image") l) /\ map fst (cv_forms (v_cv s')) = firsts (painted rs (bs "Form") l).
  Proof.
    intros HP Hs1 Hs2. revert s'. induction l as [|i l IH] using rev_ind; intros s' H.
    - injection H as <-. rewrite Hs1, Hs2. split; reflexivity.
    - apply Forall_app in HP. destruct HP as [HP HPi]. inversion HPi as [|? ? Hi _]; subst. destruct (run_snoc _ _ _ _ _ _ _ _ _ H) as (s1 & E1 & E2). destruct (IH HP s1 E1) as [I1 I2]. clear IH.
      destruct (images_all real_str show fc fr rs l s s1 HP Hs1 Hs2 E1) as [G1 G2]. rewrite !painted_app.
      destruct (n_effect _ _ _ _ _ _ _ _ Hi E2) as [_ [(k & xo & Hd & EF & HI & J1 & J2)|[(k & xo & cv & Hd & EF & HF & _ & J1 & J2)|(J1 & J2 & J3)]]]; rewrite J1, J2.
      + pose proof HI as (d & data & -> & Hdat). rewrite (painted_draws rs (bs "Image") i k d data Hdat Hd). rewrite (painted_other rs (bs "Form") i), app_nil_r.
        * split; [|exact I2]. rewrite firsts_snoc, <- I1, existsb_keys, aset_keys. destruct (amem (cv_images (v_cv s1)) k); [apply app_nil_r|reflexivity].
        * intros k' d' data' Hdat' Hd'. destruct Hd as (a & ar & Ei & N1 & N2). destruct Hd' as (a' & ar' & Ei' & N1' & N2'). rewrite Ei in Ei'. injection Ei' as <- <-.
          assert (k' = k) by congruence. subst k'. rewrite N2 in N2'. discriminate N2'.
      + pose proof HF as (d & data & -> & Hdat). rewrite (painted_draws rs (bs "Form") i k d data Hdat Hd). rewrite (painted_other rs (bs "Image") i), app_nil_r.
        * split; [exact I1|]. rewrite firsts_snoc, <- I2, existsb_keys, map_app. unfold amem. rewrite EF. reflexivity.
        * intros k' d' data' Hdat' Hd'. destruct Hd as (a & ar & Ei & N1 & N2). destruct Hd' as (a' & ar' & Ei' & N1' & N2'). rewrite Ei in Ei'. injection Ei' as <- <-.
          assert (k' = k) by congruence. subst k'. rewrite N2 in N2'. discriminate N2'.
      + rewrite (painted_other rs (bs "Image") i), app_nil_r.
        * split; [exact I1|].
          assert (painted rs (bs "Form") [i] = [] \/ exists k, painted rs (bs "Form") [i] = [k] /\ aget (cv_forms (v_cv s1)) k <> None) as [Z0|(k & Z0 & Zk)].
          { destruct (painted rs (bs "Form") [i]) as [|k0 r0] eqn:EP; [now left|]. right.
            unfold painted in EP. cbn [flat_map] in EP. rewrite app_nil_r in EP. destruct i as [|name [|a args]]; try discriminate EP. destruct (eqlZ name (bs "Do")) eqn:E; [|discriminate EP].
            apply eqlZ_eq in E. subst name. destruct (operand_name a) as [k|] eqn:EO; [|discriminate EP]. destruct (aget (rs_dict rs (bs "XObject")) k) as [xo|] eqn:EX; [|discriminate EP].
            destruct xo as [| | | |[c'|] d [|z data]]; try discriminate EP. destruct (eqlZ c' (bs "Form")) eqn:Ec; [|discriminate EP]. apply eqlZ_eq in Ec. subst c'. injection EP as <- <-.
            exists k. split; [reflexivity|]. apply (J3 k _ (ex_intro _ a (ex_intro _ args (conj eq_refl (conj EO EX))))). right. exists d, (z :: data). split; [reflexivity|discriminate]. }
          -- rewrite Z0, app_nil_r. exact I2.
          -- rewrite Z0, firsts_snoc, <- I2, existsb_keys. unfold amem. destruct (aget (cv_forms (v_cv s1)) k); [reflexivity|congruence].
        * intros k d data Hdat Hd. assert (is_image (VStm (Some (bs "Image")) d data)) as HI by (exists d, data; auto). apply (J3 k _ Hd (or_introl HI)).
          destruct (aget (cv_forms (v_cv s1)) k) eqn:EK; [|reflexivity]. exfalso. destruct (proj1 (G2 k)) as (xo' & j & HF & _ & Hd'); [congruence|].
          assert (xo' = VStm (Some (bs "Image")) d data) as X by (destruct Hd as (? & ? & _ & _ & X); destruct Hd' as (? & ? & _ & _ & X'); congruence). rewrite X in HF. eapply image_not_form; eauto.
  Qed.
End C83.

(** C83.  A page rendered onto an empty canvas (content without operators named like the viewer's own events):
    (a) canvas.inline_images: the inline images of the content, in order; *)
Theorem C83_inline_images : forall real_str show fc fr rs l s s', Forall plain l -> cv_inline (v_cv s) = [] ->
  run real_str show (page_Do real_str show fc fr) KPage rs l s = (Ok tt, s') -> cv_inline (v_cv s') = inline_images l.
Proof. intros real_str show fc fr rs l s s' HP Hs H. rewrite (inline_all _ _ _ _ _ _ _ _ HP H), Hs. reflexivity. Qed.
(** (b) canvas.images: exactly the images painted with Do, under their resource names, in the order of their first painting; *)
Theorem C83_images : forall real_str show fc fr rs l s s', Forall plain l -> cv_images (v_cv s) = [] -> cv_forms (v_cv s) = [] ->
  run real_str show (page_Do real_str show fc fr) KPage rs l s = (Ok tt, s') ->
  (forall k xo, aget (cv_images (v_cv s')) k = Some xo <-> is_image xo /\ exists i, In i l /\ draws rs i k xo) /\
  map fst (cv_images (v_cv s')) = firsts (painted rs (bs "Image") l).
Proof.
  intros real_str show fc fr rs l s s' HP H1 H2 H. split; [apply (images_all _ _ _ _ _ _ _ _ HP H1 H2 H)|apply (order_all _ _ _ _ _ _ _ _ HP H1 H2 H)].
Qed.
(** (c) canvas.forms: exactly the forms painted, in that order; the canvas of each is what its own content draws with its own
    resources, starting from the graphics state in effect where it is painted for the first time (later paintings draw nothing). *)
Theorem C83_forms : forall real_str show fc fr rs l s s', Forall plain l -> cv_images (v_cv s) = [] -> cv_forms (v_cv s) = [] ->
  run real_str show (page_Do real_str show fc fr) KPage rs l s = (Ok tt, s') ->
  (forall k cv, aget (cv_forms (v_cv s')) k = Some cv <->
     exists xo pre i post s1 frs ct s2, l = pre ++ i :: post /\ draws rs i k xo /\ is_form xo /\ (forall j xo', In j pre -> ~ draws rs j k xo') /\
       run real_str show (page_Do real_str show fc fr) KPage rs pre s = (Ok tt, s1) /\ fr xo = Ok frs /\ fc xo = Ok ct /\
       render real_str show no_Do KForm frs ct (mkV (gss_save (v_gss s1)) [] empty_canvas) = (Ok tt, s2) /\ cv = v_cv s2) /\
  map fst (cv_forms (v_cv s')) = firsts (painted rs (bs "Form") l).
Proof.
  intros real_str show fc fr rs l s s' HP H1 H2 H. split; [|apply (order_all _ _ _ _ _ _ _ _ HP H1 H2 H)]. intros k cv. rewrite (forms_all _ _ _ _ _ _ _ _ HP H1 H2 H k cv). split.
  - intros (xo & pre & i & post & s1 & A & B & C & D & E & frs & ct & s2 & F & G & I & J). exists xo, pre, i, post, s1, frs, ct, s2. auto 10.
  - intros (xo & pre & i & post & s1 & frs & ct & s2 & A & B & C & D & E & F & G & I & J). exists xo, pre, i, post, s1. repeat (split; [assumption|]). exists frs, ct, s2. auto.
Qed.
Print Assumptions C83_inline_images.
Print Assumptions C83_images.
Print Assumptions C83_forms.

(** A page with an image, a form painted twice (once with another line width) and an inline image. *)
Definition ex_img : bv := VStm (Some (bs "Image")) [] [7].
Definition ex83_rs : resources := [(bs "XObject", RDict [(bs "X", exf); (bs "I", ex_img)])].
Definition ex83_l : list citem := [COp (bs "Do") [OName (bs "X")]; COp (bs "w") [OInt 3]; CImage [(bs "W", OInt 1)] [65]; COp (bs "Do") [OName (bs "I")]; COp (bs "Do") [OName (bs "X")]].
Definition ex83_run : res unit * vst :=
  run (fun _ _ _ => []) (fun _ _ => Ok []) (page_Do (fun _ _ _ => []) (fun _ _ => Ok []) ex_fc (fun _ => Ok [])) KPage ex83_rs ex83_l (mkV [] [] empty_canvas).
Example C83_ex : Forall plain ex83_l /\ exists s', ex83_run = (Ok tt, s') /\ cv_images (v_cv s') = [(bs "I", ex_img)] /\
  map fst (cv_forms (v_cv s')) = [bs "X"] /\ cv_inline (v_cv s') = [CImage [(bs "W", OInt 1)] [65]] /\ firsts (painted ex83_rs (bs "Form") ex83_l) = [bs "X"].
Proof. split; [repeat constructor; intros [a H]; discriminate|]. eexists. split; [vm_compute; reflexivity|]. vm_compute. repeat split. Qed.
(** The same page with an operator called navigate at the end keeps nothing. *)
Example C84_ex : exists s', run (fun _ _ _ => []) (fun _ _ => Ok []) (page_Do (fun _ _ _ => []) (fun _ _ => Ok []) ex_fc (fun _ => Ok [])) KPage ex83_rs
    (ex83_l ++ [COp (bs "navigate") []]) (mkV [] [] empty_canvas) = (Ok tt, s') /\ cv_images (v_cv s') = [] /\ cv_forms (v_cv s') = [] /\ cv_inline (v_cv s') = [].
Proof. eexists. split; [vm_compute; reflexivity|]. vm_compute. repeat split. Qed.
