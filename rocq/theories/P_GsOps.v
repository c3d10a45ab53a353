(** Operators that set graphics state parameters: C72. *)
From Coq Require Import String.
From Verif Require Import Prelude M_Parser M_Text M_Objects P_Objects M_Viewer S_Viewer L_Viewer P_GState.
Local Open Scope Z_scope.
Local Open Scope vm_scope.

Definition cv_same (a b : canvas) : Prop :=
  cv_strings a = cv_strings b /\ cv_images a = cv_images b /\ cv_forms a = cv_forms b /\ cv_inline a = cv_inline b.

Lemma notify_plain real_str show on_Do k rs name args (m : vm unit) s s' :
  alias name = name -> before_ k name = vret tt -> (forall a, after_ real_str k name a = vret tt) ->
  on_ show on_Do k rs name args = (m ;;;; vret args) ->
  notify real_str show on_Do k rs (COp name args) s = (Ok tt, s') ->
  exists s1 t, m s = (Ok tt, s1) /\ op_str real_str name args = Ok t /\ add_text t s1 = (Ok tt, s').
Proof.
  intros Ea Eb Ef Eo H. unfold notify in H. cbv zeta in H. rewrite Ea, Eb, Eo in H.
  apply vbind_ok in H. destruct H as ([] & s0 & E0 & H). inversion E0; subst s0.
  apply vbind_ok in H. destruct H as (a' & s1 & E1 & H). apply vbind_ok in E1. destruct E1 as ([] & s2 & E1 & E2). inversion E2; subst a' s2.
  rewrite Ef in H. apply vbind_ok in H. destruct H as ([] & s3 & E3 & H). inversion E3; subst s3.
  apply vbind_ok in H. destruct H as (t & s4 & E4 & H). inversion E4; subst s4. exists s1, t. auto.
Qed.

(** What an operator's operands make of its parameter. *)
Definition operand_value (all : bool) (args : list obj) (v : bv) : Prop :=
  if all then v = VArr (map raw args) else exists a rest, args = a :: rest /\ v = raw a.

Lemma gs_op_run real_str show on_Do k rs name f all args s s' : In (name, (f, all)) gs_operators ->
  notify real_str show on_Do k rs (COp name args) s = (Ok tt, s') ->
  exists v, operand_value all args v /\ v_gss s' = gss_set (v_gss s) f v /\ v_br s' = v_br s /\ cv_same (v_cv s') (v_cv s).
Proof.
  intros Hi H.
  assert (exists s1 t, (if all then set_args f args else set_arg f args) s = (Ok tt, s1) /\
    op_str real_str name args = Ok t /\ add_text t s1 = (Ok tt, s')) as (s1 & t & E1 & _ & E2).
  { unfold gs_operators in Hi. cbn [In] in Hi.
    repeat (destruct Hi as [Hi|Hi]; [injection Hi; intros; subst name f all;
      eapply notify_plain; [..|exact H]; destruct k; reflexivity|]). contradiction. }
  unfold add_text, with_cv, vmod in E2. injection E2; intros <-. cbn [v_gss v_br v_cv cv_strings cv_images cv_forms cv_inline].
  destruct all.
  - unfold set_args, with_gss, vmod in E1. injection E1; intros <-. cbn [v_gss v_br v_cv]. eexists. split; [reflexivity|].
    repeat split.
  - unfold set_arg in E1. apply vbind_ok in E1. destruct E1 as (a & s3 & E3 & E1).
    destruct args as [|a0 args]; [discriminate|]. inversion E3; subst a0 s3. unfold with_gss, vmod in *.
    injection E1; intros <-. cbn [v_gss v_br v_cv]. exists (raw a). split; [now exists a, args|].
    repeat split.
Qed.

Lemma gss_set_spec s s' f v : v_gss s' = gss_set (v_gss s) f v ->
  aget (current s') f = Some v /\ (forall g, g <> f -> aget (current s') g = aget (current s) g) /\ tl (v_gss s') = tl (v_gss s).
Proof.
  intros E. unfold current. rewrite E. destruct (v_gss s) as [|x r]; cbn [gss_set gss_state snd fst tl].
  - rewrite aget_aset, eqlZ_refl. split; [reflexivity|]. split; [|reflexivity]. intros g Hg. rewrite aget_aset.
    destruct (eqlZ g f) eqn:E2; [apply eqlZ_eq in E2; contradiction|reflexivity].
  - rewrite aget_aset, eqlZ_refl. split; [reflexivity|]. split; [|reflexivity]. intros g Hg. rewrite aget_aset.
    destruct (eqlZ g f) eqn:E2; [apply eqlZ_eq in E2; contradiction|reflexivity].
Qed.

(** C72.  Each of these operators, on pages and in forms, from any state, sets its parameter to its operand
    (or operands) and touches no other parameter, no saved state, and nothing on the canvas but the text. *)
Theorem C72_sets_parameter : forall real_str show on_Do k rs name f all args s s',
  In (name, (f, all)) gs_operators ->
  run real_str show on_Do k rs [COp name args] s = (Ok tt, s') ->
  (exists v, operand_value all args v /\ aget (current s') f = Some v) /\
  (forall g, g <> f -> aget (current s') g = aget (current s) g) /\
  tl (v_gss s') = tl (v_gss s) /\ v_br s' = v_br s /\ cv_same (v_cv s') (v_cv s).
Proof.
  intros real_str show on_Do k rs name f all args s s' Hi H. apply run_one in H.
  destruct (gs_op_run _ _ _ _ _ _ _ _ _ _ _ Hi H) as (v & Hv & Eg & Eb & Ec).
  destruct (gss_set_spec _ _ _ _ Eg) as (A & B & C). split; [exists v; auto|]. auto.
Qed.
(** They do not fail for lack of anything but an operand to take (or one that cannot be written out). *)
Theorem C72_succeeds : forall real_str show on_Do k rs name f all args t s,
  In (name, (f, all)) gs_operators -> op_str real_str name args = Ok t -> all = true \/ args <> [] ->
  exists s', run real_str show on_Do k rs [COp name args] s = (Ok tt, s').
Proof.
  intros real_str show on_Do k rs name f all args t s Hi Ht Ha.
  assert (exists s1, (if all then set_args f args else set_arg f args) s = (Ok tt, s1)) as [s1 E1].
  { destruct all; [eexists; reflexivity|]. destruct Ha as [Ha|Ha]; [discriminate|]. destruct args as [|a args]; [contradiction|]. eexists; reflexivity. }
  exists (snd (add_text t s1)). cbn [run]. unfold vbind at 1.
  assert (notify real_str show on_Do k rs (COp name args) s = (Ok tt, snd (add_text t s1))) as ->; [|reflexivity].
  unfold gs_operators in Hi. cbn [In] in Hi.
  repeat (destruct Hi as [Hi|Hi]; [injection Hi; intros; subst name f all; unfold notify; cbv zeta;
    match goal with |- context [alias ?n] => change (alias n) with n end;
    match type of E1 with ?m s = _ =>
    match goal with |- context [on_ show on_Do k rs ?n args] =>
      assert (on_ show on_Do k rs n args = (m ;;;; vret args)) as -> by (destruct k; reflexivity);
      assert (before_ k n = vret tt) as -> by (destruct k; reflexivity);
      assert (after_ real_str k n args = vret tt) as Ef by (destruct k; reflexivity)
    end end;
    unfold vbind at 1 2 3, vret at 1; rewrite E1; unfold vret at 1; rewrite Ef; unfold vbind, vret, vlift; rewrite Ht; reflexivity|]).
  contradiction.
Qed.
Theorem C72_missing_operand : forall real_str show on_Do k rs name f s, In (name, (f, false)) gs_operators ->
  exists s', run real_str show on_Do k rs [COp name []] s = (Err IndexErr, s') /\ current s' = current s.
Proof.
  intros real_str show on_Do k rs name f s Hi. unfold gs_operators in Hi. cbn [In] in Hi.
  repeat (destruct Hi as [Hi|Hi]; [try discriminate Hi; injection Hi; intros; subst; destruct k;
    (eexists; split; [reflexivity|]; unfold current; cbn [v_gss]; destruct (v_gss s); reflexivity)|]). contradiction.
Qed.

(** Histories.  [Effects l es]: the content [l], in which q and Q are balanced (and gs does not occur outside them),
    sets the parameters [es] in this order, settings between q and Q excluded. *)
Inductive Effects : list citem -> list (list Z * bv) -> Prop :=
| Ef_nil : Effects [] []
| Ef_set name f all args v : In (name, (f, all)) gs_operators -> operand_value all args v -> Effects [COp name args] [(f, v)]
| Ef_other i : (forall name args, i = COp name args -> ~ gs_operator name) ->
    ~ named "q" i -> ~ named "Q" i -> ~ named "navigate" i -> ~ named "gs" i -> Effects [i] []
| Ef_app a b ea eb : Effects a ea -> Effects b eb -> Effects (a ++ b) (ea ++ eb)
| Ef_q qa l Qa : Balanced l -> Effects (COp (bs "q") qa :: l ++ [COp (bs "Q") Qa]) [].
(** The last setting of a parameter. *)
Fixpoint last_set (es : list (list Z * bv)) (f : list Z) : option bv :=
  match es with
  | [] => None
  | (g, v) :: r => match last_set r f with Some w => Some w | None => if eqlZ f g then Some v else None end
  end.
Lemma last_set_app a b f : last_set (a ++ b) f = match last_set b f with Some w => Some w | None => last_set a f end.
Proof. induction a as [|[g v] a IH]; cbn [app last_set]; [now destruct (last_set b f)|]. rewrite IH. now destruct (last_set b f). Qed.

Definition Rc (a b : vst) : Prop := current b = current a.
Lemma Rc_refl s : Rc s s. Proof. reflexivity. Qed.
Lemma Rc_trans a b c : Rc a b -> Rc b c -> Rc a c. Proof. unfold Rc. congruence. Qed.
Ltac kc := repeat first
    [ match goal with |- keeps _ (vbind _ _) => apply keeps_bind; [exact Rc_trans| |intros ?] end
    | match goal with |- keeps _ (vret _) => apply keeps_ret; exact Rc_refl end
    | match goal with |- keeps _ (vlift _) => apply keeps_lift; exact Rc_refl end
    | match goal with |- keeps _ vget => apply keeps_get; exact Rc_refl end
    | match goal with |- keeps _ (vmod _) => apply keeps_mod; intros ?; reflexivity end ].
Lemma c_norm : keeps Rc (with_gss (fun g => snd (gss_state g))).
Proof. unfold with_gss. apply keeps_mod. intros s. unfold Rc, current. cbn [v_gss]. destruct (v_gss s); reflexivity. Qed.
Lemma c_arg0 args : keeps Rc (arg0 args). Proof. destruct args; cbn [arg0]; kc. Qed.
Lemma c_decode show rs o : keeps Rc (decode show rs o). Proof. unfold decode. kc. apply c_norm. Qed.
Lemma c_add_string t : keeps Rc (add_string t). Proof. unfold add_string, with_cv. kc. Qed.
Lemma c_add_text t : keeps Rc (add_text t). Proof. unfold add_text, with_cv. kc. Qed.
Lemma c_add_inline t : keeps Rc (add_inline t). Proof. unfold add_inline, with_cv. kc. Qed.
Lemma c_show_all show rs l : keeps Rc (show_all show rs l).
Proof. induction l as [|x l IH]; [cbn [show_all]; kc|]. destruct x; cbn [show_all]; kc; auto using c_decode, c_add_string. Qed.
Lemma c_on_Tj show rs args : keeps Rc (on_Tj show rs args).
Proof. unfold on_Tj. kc; auto using c_arg0, c_decode, c_add_string. Qed.
Lemma c_on_TJ show rs args : keeps Rc (on_TJ show rs args).
Proof. unfold on_TJ. kc; auto using c_arg0. destruct a; kc; auto using c_show_all. destruct d; kc. destruct data; kc. Qed.
Lemma c_on_props show rs args : keeps Rc (on_props show rs args).
Proof. unfold on_props. destruct args as [|t [|[] [|]]]; kc. destruct (dget d (bs "Contents")) as [[]|]; kc; auto using c_decode. Qed.

Lemma not_gs_op name : ~ gs_operator name -> forall w f all, In (w, (f, all)) gs_operators -> eqlZ name w = false.
Proof. intros H w f all Hi. destruct (eqlZ name w) eqn:E; auto. apply eqlZ_eq in E. subst. contradiction H. now exists f, all. Qed.
Lemma c_on show on_Do k rs name args : ~ gs_operator name -> eqlZ name (bs "q") = false -> eqlZ name (bs "Q") = false ->
  eqlZ name (bs "gs") = false -> eqlZ name (bs "Do") = false -> keeps Rc (on_ show on_Do k rs name args).
Proof.
  intros H0 H1 H2 H4 H5. unfold on_. rewrite H1, H2, H4, H5.
  assert (forall w f all, In (w, (f, all)) gs_operators -> eqlZ name w = false) as HN by (apply not_gs_op; auto).
  rewrite (HN (bs "cm") (bs "CTM") true), (HN (bs "w") (bs "LW") false), (HN (bs "J") (bs "LC") false), (HN (bs "j") (bs "LJ") false),
    (HN (bs "M") (bs "ML") false), (HN (bs "d") (bs "D") true), (HN (bs "ri") (bs "RI") false), (HN (bs "i") (bs "FL") false),
    (HN (bs "Tf") (bs "Font") true) by (unfold gs_operators; cbn [In]; tauto).
  assert (keeps Rc on_BT) by (unfold on_BT; kc). assert (keeps Rc on_ET) by (unfold on_ET; kc).
  repeat match goal with |- keeps _ (if ?b then _ else _) => destruct b end; kc;
    auto using c_on_Tj, c_on_TJ, c_on_props, c_add_inline; destruct k; kc.
Qed.
Lemma alias_gs name : ~ gs_operator name -> ~ gs_operator (alias name).
Proof.
  intros H (f & all & Hi). apply H. exists f, all.
  assert (eqlZ name (alias name) = true) as E; [|apply eqlZ_eq in E; now rewrite E].
  unfold alias in *. destruct (eqlZ name [39]) eqn:E1; [exfalso; revert Hi; cbn; intuition discriminate|].
  destruct (eqlZ name [34]) eqn:E2; [exfalso; revert Hi; cbn; intuition discriminate|].
  destruct (eqlZ name (bs "T*")) eqn:E3; [exfalso; revert Hi; cbn; intuition discriminate|]. apply eqlZ_refl.
Qed.
Lemma c_notify real_str show on_Do k rs i : (forall name args, i = COp name args -> ~ gs_operator name) ->
  ~ named "q" i -> ~ named "Q" i -> ~ named "navigate" i -> ~ named "gs" i -> ~ named "Do" i ->
  keeps Rc (notify real_str show on_Do k rs i).
Proof.
  intros N0 N1 N2 N3 N5 N6. destruct i as [d data|name args].
  - unfold notify. kc; auto using c_add_inline, c_add_text.
  - specialize (N0 name args eq_refl). rewrite is_named in N1, N2, N3, N5, N6 by reflexivity. unfold notify, before_, after_. cbv zeta.
    rewrite !(alias_eq name (bs "Do")) by (vm_compute; discriminate). rewrite N6.
    rewrite !(alias_eq name (bs "navigate")) by (vm_compute; discriminate). rewrite N3.
    kc; try apply c_add_text.
    + apply c_on; try (rewrite alias_eq by (vm_compute; discriminate); auto). now apply alias_gs.
    + destruct (eqlZ (alias name) (bs "handler")); kc; [apply c_add_text|]. destruct k; kc.
Qed.

(** After any such content a parameter has the value it was last set to, or the one it had before. *)
Theorem C72_last_setting_in_effect : forall real_str show fc fr rs l es s s' f,
  (forall form ct, fc form = Ok ct -> Balanced (fst ct)) -> Effects l es ->
  run real_str show (page_Do real_str show fc fr) KPage rs l s = (Ok tt, s') ->
  aget (current s') f = match last_set es f with Some v => Some v | None => aget (current s) f end.
Proof.
  intros real_str show fc fr rs l es s s' f Hf HE. revert s s'.
  induction HE as [|name g all args v Hi Hv|i N0 N1 N2 N3 N4|a b ea eb _ IHa _ IHb|qa l Qa Hl]; intros s s' E.
  - inversion E. reflexivity.
  - destruct (C72_sets_parameter _ _ _ _ _ _ _ _ _ _ _ Hi E) as ((w & Hw & A) & B & _). cbn [last_set].
    assert (w = v) as ->.
    { unfold operand_value in Hv, Hw. destruct all; [congruence|]. destruct Hv as (x & r & -> & ->). destruct Hw as (x' & r' & Ex & ->). congruence. }
    destruct (eqlZ f g) eqn:Efg; [apply eqlZ_eq in Efg; now subst|]. apply B. intros ->. rewrite eqlZ_refl in Efg. discriminate.
  - cbn [last_set]. f_equal. change (Rc s s').
    destruct (match i with COp name args => eqlZ name (bs "Do") | _ => false end) eqn:Ed.
    + destruct i as [|name args]; [discriminate|]. apply eqlZ_eq in Ed. subst name. apply C36_Do_restores in E; auto. now destruct E.
    + apply run_one in E. eapply c_notify; eauto. destruct i as [d data|name args]; [intros [a Ha]; discriminate|].
      rewrite is_named by reflexivity. exact Ed.
  - rewrite run_app in E. apply vbind_ok in E. destruct E as ([] & s1 & E1 & E2).
    rewrite (IHb _ _ E2), (IHa _ _ E1), last_set_app. destruct (last_set eb f); reflexivity.
  - apply C34_q_Q_restores in E; auto. cbn [last_set]. f_equal. now destruct E.
Qed.

Definition ex_ops : list citem :=
  [COp (bs "w") [OInt 5]; COp (bs "J") [OInt 1]; COp (bs "q") []; COp (bs "w") [OInt 7]; COp (bs "Q") []; COp (bs "j") [OInt 2]].
Lemma ex_effects : Effects ex_ops [(bs "LW", VAtom (OInt 5)); (bs "LC", VAtom (OInt 1)); (bs "LJ", VAtom (OInt 2))].
Proof.
  apply (Ef_app [_] [_; _; _; _; _] [_] [_; _]).
  { apply Ef_set with (all := false); [cbn; tauto|]. exists (OInt 5), []. split; reflexivity. }
  apply (Ef_app [_] [_; _; _; _] [_] [_]).
  { apply Ef_set with (all := false); [cbn; tauto|]. exists (OInt 1), []. split; reflexivity. }
  apply (Ef_app [_; _; _] [_] [] [_]).
  { apply (Ef_q [] [_] []). apply Ba_item; intros [a Ha]; discriminate. }
  apply Ef_set with (all := false); [cbn; tauto|]. exists (OInt 2), []. split; reflexivity.
Qed.
Example C72_ex : exists s', run (fun _ _ _ => []) (fun _ _ => Ok []) (page_Do (fun _ _ _ => []) (fun _ _ => Ok []) ex_fc (fun _ => Ok [])) KPage [] ex_ops
    (mkV [] [] empty_canvas) = (Ok tt, s') /\ aget (current s') (bs "LW") = Some (VAtom (OInt 5)) /\ aget (current s') (bs "LJ") = Some (VAtom (OInt 2)).
Proof. eexists. split; [vm_compute; reflexivity|]. split; vm_compute; reflexivity. Qed.

(** [/K gs]: every entry of the ExtGState dictionary K that is not null and names a parameter becomes that parameter's value
    (as it stands: references stay unresolved); nothing else changes.  The flatness entry FL of the standard is not in the list:
    it is ignored. *)
Definition gs_entries : list (list Z) := map bs
  ["LW"; "LC"; "LJ"; "ML"; "D"; "RI"; "Font"; "CTM"; "I"; "Tc"; "Tw"; "Tz"; "TL"; "Tr"; "Ts"]%string.
Definition from_gs (d : list (list Z * bv)) (old : gstate) (f : list Z) : option bv :=
  match (if existsb (eqlZ f) gs_entries then aget d f else None) with
  | None | Some (VAtom ONull) => aget old f
  | Some v => Some v
  end.
Lemma gs_fold other l : NoDup l -> forall s f,
  aget (fold_left (fun s g => match aget other g with None | Some (VAtom ONull) => s | Some v => aset s g v end) l s) f =
  match (if existsb (eqlZ f) l then aget other f else None) with None | Some (VAtom ONull) => aget s f | Some v => Some v end.
Proof.
  induction 1 as [|g l Hg Hl IH]; intros s f; cbn [fold_left existsb]; [reflexivity|]. rewrite IH. destruct (eqlZ f g) eqn:E; cbn [orb].
  - apply eqlZ_eq in E. subst g. assert (existsb (eqlZ f) l = false) as ->.
    { destruct (existsb (eqlZ f) l) eqn:E; [|reflexivity]. apply existsb_exists in E. destruct E as (x & Hx & E). apply eqlZ_eq in E. now subst x. }
    destruct (aget other f) as [[]|]; try reflexivity; try (rewrite aget_aset, eqlZ_refl; reflexivity). destruct o; try reflexivity; rewrite aget_aset, eqlZ_refl; reflexivity.
  - assert (forall v, aget (aset s g v) f = aget s f) as Ha by (intros v; rewrite aget_aset, E; reflexivity).
    assert (aget (match aget other g with None | Some (VAtom ONull) => s | Some v => aset s g v end) f = aget s f) as ->; [|reflexivity].
    destruct (aget other g) as [[o'| | | |]|]; try reflexivity; try apply Ha. destruct o'; try reflexivity; apply Ha.
Qed.
Lemma gs_fields_nodup : NoDup gs_fields.
Proof.
  unfold gs_fields. cbn [map]. repeat (constructor; [cbn [In]; intros Hx; repeat (destruct Hx as [Hx|Hx]; [vm_compute in Hx; discriminate Hx|]); destruct Hx|]). constructor.
Qed.
Lemma existsb_same {A} (p : A -> bool) l l' : incl l l' -> incl l' l -> existsb p l = existsb p l'.
Proof.
  intros H1 H2. destruct (existsb p l) eqn:E, (existsb p l') eqn:E'; auto; [apply existsb_exists in E; destruct E as (x & Hx & E); symmetry; rewrite <- E'|
    apply existsb_exists in E'; destruct E' as (x & Hx & E'); rewrite <- E]; apply existsb_exists; exists x; auto.
Qed.
Lemma gs_update_spec s d f : aget (gs_update s d) f = from_gs d s f.
Proof.
  unfold gs_update, from_gs. rewrite gs_fold by exact gs_fields_nodup. rewrite (existsb_same _ gs_fields gs_entries); [reflexivity|..]; intros x; cbn [In gs_fields gs_entries map]; tauto.
Qed.
Theorem C72_gs_dictionary : forall real_str show on_Do k rs key c d s s',
  aget (rs_dict rs (bs "ExtGState")) key = Some (VDict c d) -> d <> [] ->
  run real_str show on_Do k rs [COp (bs "gs") [OName key]] s = (Ok tt, s') ->
  (forall f, aget (current s') f = from_gs d (current s) f) /\
  tl (v_gss s') = tl (v_gss s) /\ v_br s' = v_br s /\ cv_same (v_cv s') (v_cv s).
Proof.
  intros real_str show on_Do k rs key c d s s' Hk Hd H. apply run_one in H.
  assert (exists s1 t, on_gs rs [OName key] s = (Ok tt, s1) /\ op_str real_str (bs "gs") [OName key] = Ok t /\ add_text t s1 = (Ok tt, s')) as (s1 & t & E1 & _ & E2).
  { eapply notify_plain; [..|exact H]; destruct k; reflexivity. }
  unfold add_text, with_cv, vmod in E2. injection E2; intros <-. unfold current. cbn [v_gss v_br v_cv].
  unfold on_gs in E1. apply vbind_ok in E1. destruct E1 as (a & s2 & E0 & E1). injection E0; intros <- <-.
  apply vbind_ok in E1. destruct E1 as (o & s3 & E3 & E1). cbn [raw name_lookup] in E3. unfold vlift in E3. rewrite Hk in E3. injection E3; intros <- <-.
  assert (btruthy (VDict c d) = true) as Hb by (destruct d; [contradiction|reflexivity]). rewrite Hb in E1.
  apply vbind_ok in E1. destruct E1 as ([] & s4 & E4 & E1). apply vbind_ok in E1. destruct E1 as ([] & s5 & E5 & E1).
  unfold with_gss, vmod in E4, E1. injection E4; intros <-. 
  assert (s5 = mkV (snd (gss_state (v_gss s))) (v_br s) (v_cv s)) as -> by (destruct (amem d (bs "self")), (amem d (bs "font_name")); unfold vlift, vret in E5; congruence).
  injection E1; intros <-. cbn [v_gss v_br v_cv].
  destruct (v_gss s) as [|x r]; cbn [gss_state snd fst tl]; (split; [intros f; apply gs_update_spec|]); repeat split.
Qed.
Definition ex_gs : resources := [(bs "ExtGState", RDict [(bs "G1", VDict None [(bs "LW", VAtom (OInt 3)); (bs "LC", VAtom ONull); (bs "FL", VAtom (OInt 1))])])].
Example C72_gs_ex : exists s', run (fun _ _ _ => []) (fun _ _ => Ok []) (page_Do (fun _ _ _ => []) (fun _ _ => Ok []) ex_fc (fun _ => Ok [])) KPage ex_gs
    [COp (bs "J") [OInt 1]; COp (bs "gs") [OName (bs "G1")]] (mkV [] [] empty_canvas) = (Ok tt, s') /\
    aget (current s') (bs "LW") = Some (VAtom (OInt 3)) /\ aget (current s') (bs "LC") = Some (VAtom (OInt 1)) /\ aget (current s') (bs "FL") = None.
Proof. eexists. split; [vm_compute; reflexivity|]. repeat split; vm_compute; reflexivity. Qed.

Print Assumptions C72_sets_parameter.
Print Assumptions C72_succeeds.
Print Assumptions C72_missing_operand.
Print Assumptions C72_last_setting_in_effect.
Print Assumptions C72_gs_dictionary.

(** C72 (gs and fonts).  The Font entry of an ExtGState dictionary is an array whose first element refers
    to a font, or a reference to such an array.  It is put into the state unresolved, and from then on
    showing any string raises TypeError. *)
Definition unresolved_font (v : bv) : Prop := (exists n g, v = VRef n g) \/ (exists n g r, v = VArr (VRef n g :: r)).
Lemma show_unresolved real_str show on_Do k rs v x args s : aget (current s) (bs "Font") = Some v -> unresolved_font v ->
  fst (run real_str show on_Do k rs [COp (bs "Tj") (x :: args)] s) = Err TypeErr.
Proof.
  intros Hv Hu. cbn [run]. unfold notify. change (alias (bs "Tj")) with (bs "Tj").
  assert (fst (decode show rs x s) = Err TypeErr) as HD.
  { unfold decode, vbind, vget, with_gss, vmod, vlift. unfold current in Hv. cbn [v_gss]. destruct (v_gss s) as [|g r]; cbn [gss_state fst snd] in *; [discriminate Hv|].
    unfold font_name. rewrite Hv. destruct Hu as [(a & b & ->)|(a & b & l & ->)]; reflexivity. }
  unfold vbind at 1 2. change (before_ k (bs "Tj") s) with (@Ok unit tt, s). cbv beta iota.
  unfold on_. change (eqlZ (bs "Tj") (bs "Tj")) with true.
  repeat match goal with |- context [eqlZ (bs "Tj") ?b] => change (eqlZ (bs "Tj") b) with false; cbv beta iota end. cbn [orb]. cbv beta iota.
  unfold on_Tj, arg0. unfold vbind. cbv beta iota. unfold vret at 1. cbv beta iota. 
  destruct (decode show rs x s) as [[t|e] s1]; cbn [fst] in HD; [discriminate|]. injection HD as ->. reflexivity.
Qed.
Theorem C72_gs_font : forall real_str show on_Do k rs key c d v x args s,
  aget (rs_dict rs (bs "ExtGState")) key = Some (VDict c d) -> aget d (bs "font_name") = None ->
  aget d (bs "Font") = Some v -> unresolved_font v ->
  fst (run real_str show on_Do k rs [COp (bs "gs") [OName key]; COp (bs "Tj") (x :: args)] s) = Err TypeErr.
Proof.
  intros real_str show on_Do k rs key c d v x args s Hk Hn Hf Hu.
  change [COp (bs "gs") [OName key]; COp (bs "Tj") (x :: args)] with ([COp (bs "gs") [OName key]] ++ [COp (bs "Tj") (x :: args)]).
  rewrite run_app. unfold vbind. destruct (run real_str show on_Do k rs [COp (bs "gs") [OName key]] s) as [[[]|e] s1] eqn:E.
  - assert (d <> []) as Hd by (intros ->; discriminate Hf).
    destruct (C72_gs_dictionary real_str show on_Do k rs key c d s s1 Hk Hd E) as [H _].
    apply (show_unresolved real_str show on_Do k rs v); [|exact Hu]. rewrite H. unfold from_gs. rewrite Hf.
    destruct Hu as [(a & b & ->)|(a & b & l & ->)]; reflexivity.
  - cbn [fst]. (* gs itself fails only for a key "self" *)
    revert E. cbn [run]. unfold notify. change (alias (bs "gs")) with (bs "gs"). unfold vbind at 1 2 3.
    change (before_ k (bs "gs") s) with (@Ok unit tt, s). cbv beta iota.
    assert (on_ show on_Do k rs (bs "gs") [OName key] = (on_gs rs [OName key] ;;;; vret [OName key])) as -> by (destruct k; reflexivity).
    unfold vbind at 1. destruct (on_gs rs [OName key] s) as [[[]|e1] s2] eqn:E1.
    + unfold vret at 1. change (after_ real_str k (bs "gs") [OName key]) with (vret tt : vm unit) || (assert (after_ real_str k (bs "gs") [OName key] = vret tt) as -> by (destruct k; reflexivity)).
      unfold vret, vbind. destruct (op_str real_str (bs "gs") [OName key]) as [t|e2] eqn:Eo; [discriminate|]. unfold op_str in Eo. discriminate Eo.
    + intros E. injection E as <- <-. unfold on_gs, arg0, vbind, vret, vlift in E1. cbn [raw name_lookup] in E1. rewrite Hk in E1.
      assert (btruthy (VDict c d) = true) as Hb by (destruct d; [discriminate Hf|reflexivity]). rewrite Hb in E1.
      unfold amem in E1. rewrite Hn in E1. unfold with_gss, vmod in E1. destruct (aget d (bs "self")); [injection E1 as <- _; reflexivity|discriminate E1].
Qed.
Print Assumptions C72_gs_font.
Definition ex_gsfont : resources := [(bs "ExtGState", RDict [(bs "G1", VDict None [(bs "Font", VArr [VRef 5 0; VAtom (OInt 12)])])])].
Example C72_gs_font_ex : fst (run (fun _ _ _ => []) (fun _ _ => Ok (bs "x")) (page_Do (fun _ _ _ => []) (fun _ _ => Ok (bs "x")) ex_fc (fun _ => Ok [])) KPage ex_gsfont
    [COp (bs "gs") [OName (bs "G1")]; COp (bs "Tj") [OStr (bs "a")]] (mkV [] [] empty_canvas)) = Err TypeErr.
Proof. apply (C72_gs_font _ _ _ _ ex_gsfont (bs "G1") None _ _ _ _ _ eq_refl eq_refl eq_refl). right. repeat eexists. Qed.
