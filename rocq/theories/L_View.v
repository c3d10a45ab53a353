(** From the document's objects to the canvas of a page (for C85). *)
From Coq Require Import String.
From Verif Require Import Prelude M_Prog M_Parser M_Filters M_Document M_Objects S_Objects P_Objects P_Pages M_Viewer S_Viewer L_Viewer S_Resources P_Resources
  M_Nav P_Nav M_Decoder M_App S_App L_AppText L_App L_App2 P_App S_Syntax S_Stream P_GState S_Canvas P_Canvas S_Page L_Page L_PageDraw.
Local Open Scope Z_scope.

(** *** Eventually, twice *)
Definition ev2 (P : nat -> nat -> Prop) : Prop := ev (fun nb => ev (fun n => P nb n)).
Lemma ev2_and P Q : ev2 P -> ev2 Q -> ev2 (fun nb n => P nb n /\ Q nb n).
Proof. intros H1 H2. eapply ev_imp; [|apply ev_and; [exact H1|exact H2]]. cbv beta. intros nb [A B]. now apply ev_and. Qed.
Lemma ev2_imp (P Q : nat -> nat -> Prop) : (forall nb n, P nb n -> Q nb n) -> ev2 P -> ev2 Q.
Proof. intros H. apply ev_imp. intros nb. apply ev_imp. intros n. apply H. Qed.
Lemma ev2_all (P : nat -> nat -> Prop) : (forall nb n, P nb n) -> ev2 P. Proof. intros H. apply ev_all. intros nb. apply ev_all. auto. Qed.
Lemma ev2_left (P : nat -> Prop) : ev P -> ev2 (fun nb _ => P nb).
Proof. apply ev_imp. intros nb H. apply ev_all. auto. Qed.
Lemma ev2_splits {A} (its : list A) (P : nat -> nat -> list A -> A -> Prop) :
  (forall pre i post, its = pre ++ i :: post -> ev2 (fun nb n => P nb n pre i)) ->
  ev2 (fun nb n => forall pre i post, its = pre ++ i :: post -> P nb n pre i).
Proof.
  intros H. assert (forall post pre, its = pre ++ post -> ev2 (fun nb n => forall mid i rest, post = mid ++ i :: rest -> P nb n (pre ++ mid) i)) as HG.
  { induction post as [|x post IH]; intros pre E.
    - apply ev2_all. intros nb n mid i rest X. destruct mid; discriminate X.
    - eapply ev2_imp; [|apply ev2_and; [exact (H pre x post E)|apply (IH (pre ++ [x])); now rewrite <- app_assoc]]. cbv beta.
      intros nb n [H1 H2] mid i rest X. destruct mid as [|y mid]; cbn [app] in X; inversion X; subst; [now rewrite app_nil_r|].
      specialize (H2 mid i rest eq_refl). now rewrite <- app_assoc in H2. }
  exact (HG its [] eq_refl).
Qed.

Section V.
  Variable o : Z -> Z -> option obj.
  Variable inflate : list Z -> option (list Z).
  Variable python : list Z -> bool.
  Variable python_decode : list Z -> list Z -> res (list Z).
  Variable ccitt : list Z -> fparams -> res (list Z).
  Variable cid : Z.
  Variable real_str : bool -> Z -> Z -> list Z.
  Notation Hdoc := (answer o).
  Notation B nb := (bld Hdoc nb).
  Notation app_show nb := (app_show python python_decode inflate ccitt cid Hdoc nb).
  Notation FT := (FontText o inflate python).
  Notation fcon := (app_form_content inflate ccitt).
  Notation fres nb n d := (app_form_resources Hdoc nb n (page_bv d)).

  (** values that are dictionaries or streams *)
  Lemma meaning_dict v w d : meaning o v w -> follow o v = ODict d -> exists c, w = VDict (Some c) (rd d).
  Proof.
    unfold meaning. intros HM Hf. destruct v as [|b|z|a b c|s|s|s|l|dd|dd data|n g|s|dd data]; cbn [follow] in Hf; try discriminate; cbn [raw] in HM.
    - inversion Hf; subst. inversion HM; subst. eexists. reflexivity.
    - inversion HM as [|n' g' x y E Hr HS| | |]; subst. rewrite (answered o n g _ Hf ltac:(discriminate)) in E. injection E as <-. cbn [raw] in HS. inversion HS; subst. eexists. reflexivity.
  Qed.
  Lemma xobject_stm d s : dget d (bs "Type") = Some (OName (bs "XObject")) -> dget d (bs "Subtype") = Some (OName s) ->
    stm_class (rd d) (if existsb (eqlZ s) xobject_classes then s else bs "XObject").
  Proof.
    intros E1 E2. left. unfold xobject. rewrite !aget_rd, E1, E2. split; [reflexivity|]. cbn [option_map raw]. unfold class_from.
    destruct (existsb (eqlZ s) xobject_classes) eqn:E.
    - apply existsb_exists in E. destruct E as (x & Hx & Ex). apply eqlZ_eq in Ex. subst. auto.
    - right. split; [|reflexivity]. intros Hin. assert (existsb (eqlZ s) xobject_classes = true); [|congruence]. apply existsb_exists. exists s. split; [exact Hin|apply eqlZ_refl].
  Qed.
  Lemma form_filtered d data b : FormData inflate d data b -> filtered inflate ccitt (map (fun p => (fst p, unraw (snd p))) (rd d)) data = Ok b.
  Proof.
    intros HD. rewrite unraw_rd. now apply decoded_filtered.
  Qed.

  (** resources found by the viewer, and by the document *)
  Definition agree (rs : resources) (ls : list dict) : Prop :=
    forall kd f, In kd dict_kinds -> match res_in o kd ls f with None => aget (rs_dict rs (bs kd)) f = None
                 | Some v => exists w, meaning o v w /\ aget (rs_dict rs (bs kd)) f = Some w end.
  Lemma simple_of rs ls i : agree rs ls -> DrawOp o ls i -> SimpleOp rs i.
  Proof.
    intros HA Hi. destruct Hi as [i Hi|w t p H1 H2 H3 H4|d data Hd|k Hk]; [now apply So_text|now apply So_mark|now apply So_image|]. apply So_gs.
    unfold gs_simple, gs_fine in *. specialize (HA "ExtGState"%string k ltac:(cbn; tauto)). destruct (res_in o "ExtGState" ls k) as [v|]; [|now rewrite HA].
    destruct HA as (w & HM & ->). destruct Hk as (d & Hf & H1 & H2 & H3). destruct (meaning_dict v w d HM Hf) as [c ->].
    exists (Some c), (rd d). rewrite !aget_rd, H1, H2, H3. auto.
  Qed.
  (** texts *)
  Definition shown_by (nb : nat) (ls : list dict) (font : option (list Z)) (its : list citem) (ts : list (list Z)) : Prop :=
    Forall2 (fun p t => match fst p with
       | None => app_show nb None (snd p) = Ok t
       | Some f => match res_in o "Font" ls f with None => app_show nb None (snd p) = Ok t | Some v => forall w, meaning o v w -> app_show nb (Some w) (snd p) = Ok t end end) (shows font [] its) ts.
  Lemma texts_shown ls font its ts : texts o FT ls font its ts -> ev (fun nb => shown_by nb ls font its ts).
  Proof.
    intros HF. apply ev_Forall2. eapply Forall2_impl; [|exact HF]. cbv beta. intros [[f|] v] t Hv; cbn [fst snd] in *.
    - destruct (res_in o "Font" ls f) as [x|]; [|apply ev_all; intros; now apply (font_text_none o inflate python)].
      destruct (font_text_some o inflate python python_decode ccitt cid x v t Hv) as (w & HM & HE). eapply ev_imp; [|exact HE]. cbv beta. intros nb H w' HM'. now rewrite (meaning_fun o x w' w HM' HM).
    - apply ev_all; intros; now apply (font_text_none o inflate python).
  Qed.
  Lemma shown_show nb rs ls font its ts : agree rs ls -> shown_by nb ls font its ts ->
    Forall2 (fun p t => app_show nb (font_of rs (fst p)) (snd p) = Ok t) (shows font [] its) ts.
  Proof.
    intros HA HS. eapply Forall2_impl; [|exact HS]. cbv beta. intros [[f|] v] t Hv; cbn [fst snd font_of] in *; [|exact Hv]. specialize (HA "Font"%string f ltac:(cbn; tauto)).
    destruct (res_in o "Font" ls f) as [x|]; [destruct HA as (w & HM & ->); auto|now rewrite HA].
  Qed.
  (** texts are determined *)
  Lemma font_text_fun f v t t' : FT f v t -> FT f v t' -> t = t'.
  Proof.
    intros H H'. destruct f as [f|].
    - destruct (font_text_some o inflate python python_decode ccitt cid f v t H) as (w & HM & HE). destruct (font_text_some o inflate python python_decode ccitt cid f v t' H') as (w' & HM' & HE').
      rewrite (meaning_fun o f w' w HM' HM) in HE'. destruct (ev_and _ _ HE HE') as [n0 Hn]. destruct (Hn n0 (Nat.le_refl _)) as [E1 E2]. congruence.
    - pose proof (font_text_none o inflate python python_decode ccitt cid v t H 0%nat). pose proof (font_text_none o inflate python python_decode ccitt cid v t' H' 0%nat). congruence.
  Qed.
  Lemma texts_fun ls font its ts ts' : texts o FT ls font its ts -> texts o FT ls font its ts' -> ts = ts'.
  Proof.
    unfold texts. generalize (shows font [] its) as l. intros l H. revert ts'. induction H as [|p t l ts Hp _ IH]; intros ts' H'; inversion H'; subst; [reflexivity|]. f_equal; [|auto].
    eapply font_text_fun; eauto.
  Qed.
  Lemma form_draws_fun ls d data font its ts its' ts' : FormDraws o inflate FT ls d data font its ts -> FormDraws o inflate FT ls d data font its' ts' -> its = its' /\ ts = ts'.
  Proof.
    intros (lead & ss & fl & D1 & S1 & C1 & _ & _ & H1 & _ & T1) (lead' & ss' & fl' & D1' & S1' & C1' & _ & _ & H1' & _ & T1').
    assert (lead ++ ss = lead' ++ ss') as E by (pose proof (form_filtered d data _ D1); pose proof (form_filtered d data _ D1'); congruence).
    pose proof (content_items_ok its ss lead C1 S1) as E1. pose proof (content_items_ok its' ss' lead' C1' S1') as E2. rewrite E, E2 in E1. inversion E1. subst its'.
    assert (fl = fl') as <- by (destruct H1 as [(r & A1 & A2 & ->)|[[A1|A1] ->]], H1' as [(r' & A1' & A2' & ->)|[[A1'|A1'] ->]]; congruence).
    split; [reflexivity|]. eapply texts_fun; eauto.
  Qed.

  (** a form, as the viewer draws it *)
  Lemma here_stm d data fl c : here o d fl -> Forall (fun r => dget r (bs "Type") = None) fl ->
    ev (fun nb => exists r, attr (B nb) (VStm (Some c) (rd d) data) (bs "Resources") = Ok r /\ (if btruthy r then [r] else []) = map lvl fl).
  Proof.
    intros Hh HT. unfold here, entry in Hh.
    assert (forall v r w, dget d (bs "Resources") = Some v -> meaning o v w -> w = r -> (if btruthy r then [r] else []) = map lvl fl ->
      ev (fun nb => exists r, attr (B nb) (VStm (Some c) (rd d) data) (bs "Resources") = Ok r /\ (if btruthy r then [r] else []) = map lvl fl)) as HK.
    { intros v r w E HM -> Hr. eapply ev_imp; [|exact (ev_build o v _ HM)]. cbv beta. intros nb Hb. exists r. cbn [attr]. rewrite aget_rd, E. cbn [option_map]. rewrite Hb. auto. }
    destruct (dget d (bs "Resources")) as [v|] eqn:E.
    - destruct Hh as [(r & E1 & Hr & ->)|[[E1|E1] ->]].
      + eapply HK; [reflexivity|apply (mean_dict o v r [] E1)|reflexivity|].
        * apply untyped_class. now inversion HT.
        * destruct r as [|e r]; [congruence|reflexivity].
      + eapply HK; [reflexivity|exact (mean_null o v E1)|reflexivity|reflexivity].
      + eapply HK; [reflexivity|apply (mean_dict o v [] [] E1); reflexivity|reflexivity|reflexivity].
    - destruct Hh as [(r & E1 & _)|[_ ->]]; [discriminate|]. apply (ev_imp (fun nb => B nb (raw ONull) = Ok (VAtom ONull))).
      + intros nb Hb. exists (VAtom ONull). cbn [attr]. rewrite aget_rd, E. cbn [option_map]. split; [exact Hb|reflexivity].
      + apply ev_build. constructor.
  Qed.
  Lemma form_fine pd ls d data font its ts : Levels o pd ls -> Forall (LevelOk o) ls -> FormDraws o inflate FT ls d data font its ts ->
    ev2 (fun nb n => FormOk (app_show nb) fcon (fres nb n pd) (VStm (Some (bs "Form")) (rd d) data) font its ts).
  Proof.
    intros HL HO (lead & ss & fl & HD & HS & HC & HB & HOps & Hh & HOf & HT).
    assert (Forall (LevelOk o) (fl ++ ls)) as HOa by now apply Forall_app.
    assert (Forall (fun r => dget r (bs "Type") = None) fl) as HTy by (eapply Forall_impl; [|exact HOf]; intros r ((H & _) & _); exact H).
    eapply ev2_imp; [|apply ev2_and; [apply ev2_left; exact (here_stm d data fl (bs "Form") Hh HTy)|apply ev2_and; [exact (page_kinds o pd fl ls HL HOa)|apply ev2_left; exact (texts_shown (fl ++ ls) font its ts HT)]]].
    cbv beta. intros nb n ((r & A1 & A2) & (rs & R1 & R2) & SH). exists rs. split.
    - unfold app_form_resources. rewrite A1. cbn [rbind]. rewrite A2. exact R1.
    - split; [unfold app_form_content; rewrite (form_filtered d data (lead ++ ss) HD); cbn [rbind]; now rewrite (content_items_ok its ss lead HC HS)|].
      split; [exact HB|]. split; [|now apply (shown_show nb rs (fl ++ ls))]. eapply Forall_impl; [|exact HOps]. cbv beta. intros i [Hi|Hi]; [left; now apply (simple_of rs (fl ++ ls))|now right].
  Qed.

  (** the XObjects *)
  Definition seen_form (nb n : nat) (pd : dict) (ls : list dict) (font : option (list Z)) (k : list Z) : Prop :=
    forall v d data, res_in o "XObject" ls k = Some v -> XObject o v "Form" d data ->
      exists its ts, FormDraws o inflate FT ls d data font its ts /\
        FormOk (app_show nb) fcon (fres nb n pd) (VStm (Some (bs "Form")) (rd d) data) font its ts.
  Lemma xobject_means v s d data w : XObject o v s d data -> In (bs s) xobject_classes -> meaning o v w -> w = VStm (Some (bs s)) (rd d) data.
  Proof.
    intros (Hf & _ & E1 & E2) Hin HM. pose proof (mean_stm o v d data _ Hf (xobject_stm d (bs s) E1 E2)) as HM2.
    rewrite (meaning_fun o v _ _ HM HM2). assert (existsb (eqlZ (bs s)) xobject_classes = true) as ->; [|reflexivity]. apply existsb_exists. exists (bs s). split; [exact Hin|apply eqlZ_refl].
  Qed.
  Lemma unseen_means v w : Unseen o v -> meaning o v w -> exists c d data, w = VStm (Some c) d data /\ (data = [] \/ c = []).
  Proof.
    intros (d & data & Hf & [E|(E0 & E1 & s & E2)]) HM.
    - rewrite (meaning_fun o v _ _ HM (mean_stm o v d data [] Hf (untyped_stm _ E))). do 3 eexists. split; [reflexivity|now right].
    - rewrite (meaning_fun o v _ _ HM (mean_stm o v d data _ Hf (xobject_stm d s E1 E2))). do 3 eexists. split; [reflexivity|now left].
  Qed.
  Lemma do_ok rs ls nb n pd font k : agree rs ls -> do_fine o inflate FT ls font k -> seen_form nb n pd ls font k ->
    DoOk (app_show nb) fcon (fres nb n pd) rs font k.
  Proof.
    intros HA HD HS. unfold DoOk, do_fine in *. specialize (HA "XObject"%string k ltac:(cbn; tauto)). destruct (res_in o "XObject" ls k) as [v|] eqn:Ev; [|now rewrite HA].
    destruct HA as (w & HM & ->). destruct HD as [HU|[(d & data & HX)|(d & data & its & ts & HX & _)]].
    - destruct (unseen_means v w HU HM) as (c & d & data & -> & [->| ->]); [left; reflexivity|right; left; reflexivity].
    - rewrite (xobject_means v "Image" d data w HX ltac:(cbn; tauto) HM). right; left. reflexivity.
    - rewrite (xobject_means v "Form" d data w HX ltac:(cbn; tauto) HM). right; right. split; [reflexivity|]. destruct (HS v d data Ev HX) as (its' & ts' & _ & HF). eauto.
  Qed.
  Lemma of_subtype_xobject v s : of_subtype o s v = true <-> exists d data, XObject o v s d data.
  Proof.
    unfold of_subtype, XObject. split.
    - destruct (follow o v) as [| | | | | | | | |d [|x data]| | |]; try discriminate. destruct (dget d (bs "Type")) as [[]|] eqn:E1; try discriminate.
      destruct (dget d (bs "Subtype")) as [[]|] eqn:E2; try discriminate. intros H. apply andb_true_iff in H. destruct H as [H1 H2]. apply eqlZ_eq in H1, H2. subst. exists d, (x :: data). repeat split; auto. discriminate.
    - intros (d & data & -> & Hn & -> & ->). destruct data; [congruence|]. now rewrite !eqlZ_refl.
  Qed.
  Lemma painted_item rs ls font s i : agree rs ls -> (s = "Image" \/ s = "Form")%string ->
    DrawOp o ls i \/ (exists k, i = COp (bs "Do") [OName k] /\ do_fine o inflate FT ls font k) -> painted rs (bs s) [i] = painted_names o ls s [i].
  Proof.
    intros HA Hs [Hi|(k & -> & HD)].
    - assert (forall w args, i = COp w args -> eqlZ w (bs "Do") = false) as Hw.
      { intros w args ->. inversion Hi as [i' Ht E|w' t p Hw _ _ _ E| |]; subst.
        - inversion Ht; subst; try reflexivity.
          all: repeat match goal with H : _ = bs _ \/ _ = bs _ |- _ => destruct H as [-> | ->]; reflexivity end.
          + match goal with H : In _ _ |- _ => cbn [In map] in H; repeat (destruct H as [<-|H]; [reflexivity|]); contradiction end.
          + match goal with H : unhandled _ |- _ => apply (unhandled_neq _ _ H); cbn; tauto end.
        - destruct Hw as [-> | ->]; reflexivity.
        - reflexivity. }
      destruct i as [d data|w args]; [reflexivity|]. specialize (Hw w args eq_refl). unfold painted, painted_names. cbn [flat_map]. rewrite Hw.
      destruct args as [|[] [|]]; reflexivity.
    - unfold painted, painted_names. cbn [flat_map]. rewrite eqlZ_refl. cbn [operand_name]. f_equal.
      specialize (HA "XObject"%string k ltac:(cbn; tauto)). unfold do_fine in HD. destruct (res_in o "XObject" ls k) as [v|]; [|now rewrite HA].
      destruct HA as (w & HM & ->). destruct (of_subtype o s v) eqn:Eo.
      + apply of_subtype_xobject in Eo. destruct Eo as (d & data & HX). rewrite (xobject_means v s d data w HX) by (destruct Hs as [-> | ->]; cbn; tauto || auto). destruct HX as (_ & Hn & _).
        destruct data; [congruence|]. now rewrite eqlZ_refl.
      + assert (forall d data, ~ XObject o v s d data) as Hno by (intros d data HX; assert (of_subtype o s v = true) by (apply of_subtype_xobject; eauto); congruence).
        destruct HD as [HU|[(d & data & HX)|(d & data & its & ts & HX & _)]].
        * destruct (unseen_means v w HU HM) as (c & d & data & -> & [->| ->]); [reflexivity|]. destruct data; [reflexivity|]. destruct Hs as [-> | ->]; reflexivity.
        * rewrite (xobject_means v "Image" d data w HX ltac:(cbn; tauto) HM). destruct Hs as [-> | ->]; [exfalso; exact (Hno _ _ HX)|]. destruct data; reflexivity.
        * rewrite (xobject_means v "Form" d data w HX ltac:(cbn; tauto) HM). destruct Hs as [-> | ->]; [|exfalso; exact (Hno _ _ HX)]. destruct data; reflexivity.
  Qed.
  Lemma painted_all rs ls s its : agree rs ls -> (s = "Image" \/ s = "Form")%string ->
    PageContent o inflate FT ls its -> painted rs (bs s) its = painted_names o ls s its.
  Proof.
    intros HA Hs HP.
    assert (forall post pre, its = pre ++ post -> painted rs (bs s) post = painted_names o ls s post) as HG; [|exact (HG its [] eq_refl)].
    induction post as [|i post IH]; intros pre E; [reflexivity|].
    change (painted rs (bs s) (i :: post)) with (painted rs (bs s) ([i] ++ post)). change (painted_names o ls s (i :: post)) with (painted_names o ls s ([i] ++ post)).
    unfold painted, painted_names. rewrite !flat_map_app. f_equal; [|apply (IH (pre ++ [i])); now rewrite <- app_assoc].
    exact (painted_item rs ls _ s i HA Hs (HP pre i post E)).
  Qed.
End V.
