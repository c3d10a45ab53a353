(** Resources of pages (for C78). *)
From Coq Require Import String.
From Verif Require Import Prelude M_Prog M_Parser M_Filters M_Document M_Objects S_Objects P_Objects P_Pages M_Viewer S_Resources P_Resources
  M_Nav P_Nav M_Decoder M_App S_App L_AppText L_App.
Local Open Scope Z_scope.

Section R.
  Variable o : Z -> Z -> option obj.
  Notation Hdoc := (answer o).
  Notation B nb := (bld Hdoc nb).
  Definition lvl (r : dict) : bv := VDict (Some []) (rd r).

  Lemma meaning_fun v w w' : meaning o v w -> meaning o v w' -> w = w'.
  Proof.
    intros H H'. destruct (ev_and _ _ (ev_build o v w H) (ev_build o v w' H')) as [n0 Hn]. destruct (Hn n0 (Nat.le_refl _)) as [E1 E2]. congruence.
  Qed.
  Lemma ev_sound x : Sound o x -> ev (fun nb => forall w, meaning o x w -> B nb (raw x) = Ok w).
  Proof. intros [w0 H0]. eapply ev_imp; [|exact (ev_build o x w0 H0)]. cbv beta. intros nb E w H. rewrite E. f_equal. eapply meaning_fun; eauto. Qed.

  Lemma mean_null v : follow o v = ONull -> meaning o v (VAtom ONull).
  Proof.
    intros Hf. unfold meaning. destruct v; cbn [follow] in Hf; try discriminate; [constructor|]. cbn [raw].
    apply St_ref with (o := raw ONull); [apply (answered o); [exact Hf|discriminate]| |constructor]. intros (a & b & E). discriminate.
  Qed.
  Lemma attr_null c d k : entry o d k = ONull -> ev (fun nb => Attr (B nb) (VDict (Some c) (rd d)) (bs k) (VAtom ONull)).
  Proof.
    unfold entry. intros H. destruct (dget d (bs k)) as [v|] eqn:E.
    - eapply ev_imp; [|exact (ev_build o v _ (mean_null v H))]. cbv beta. intros nb Hb. exists c, (rd d). split; [reflexivity|]. now rewrite aget_rd, E.
    - apply ev_all. intros nb. exists c, (rd d). split; [reflexivity|]. now rewrite aget_rd, E.
  Qed.
  Lemma attr_dict c d k r c' : entry o d k = ODict r -> dict_class (rd r) c' -> ev (fun nb => Attr (B nb) (VDict (Some c) (rd d)) (bs k) (VDict (Some c') (rd r))).
  Proof.
    unfold entry. intros H Hc. destruct (dget d (bs k)) as [v|] eqn:E; [|discriminate].
    eapply ev_imp; [|exact (ev_build o v _ (mean_dict o v r c' H Hc))]. cbv beta. intros nb Hb. exists c, (rd d). split; [reflexivity|]. now rewrite aget_rd, E.
  Qed.
  Lemma here_attr c d ls : here o d ls -> Forall (fun r => dget r (bs "Type") = None) ls ->
    exists r, ev (fun nb => Attr (B nb) (VDict (Some c) (rd d)) (bs "Resources") r) /\ (Present r /\ map lvl ls = [r] \/ Absent r /\ map lvl ls = []).
  Proof.
    intros [(r & E & Hr & ->)|[[E|E] ->]] HT.
    - inversion HT; subst. exists (lvl r). split; [apply attr_dict; auto; now apply untyped_class|]. left. split; [|reflexivity].
      exists (Some []), (rd r). split; [reflexivity|]. destruct r; [congruence|discriminate].
    - exists (VAtom ONull). split; [now apply attr_null|]. right. split; [now left|reflexivity].
    - exists (lvl []). split; [apply attr_dict; auto; now apply untyped_class|]. right. split; [right; right; now exists (Some [])|reflexivity].
  Qed.
  Lemma levels_chain d ls : Levels o d ls -> Forall (fun r => dget r (bs "Type") = None) ls -> forall c,
    ev (fun nb => Chain (B nb) (VDict (Some c) (rd d)) (map lvl ls)).
  Proof.
    induction 1 as [d ls Hh Hp|d ls p up Hh Hp Ht _ IH]; intros HT c.
    - destruct (here_attr c d ls Hh HT) as (r & E1 & HR). eapply ev_imp; [|apply ev_and; [exact E1|exact (attr_null c d "Parent" Hp)]].
      cbv beta. intros nb [A1 A2]. eapply Ch_root; eauto. now left.
    - apply Forall_app in HT. destruct HT as [HT1 HT2]. destruct (here_attr c d ls Hh HT1) as (r & E1 & HR).
      assert (dict_class (rd p) (bs "Pages")) as Hc by (apply typed_class; auto; cbn; tauto).
      eapply ev_imp; [|apply ev_and; [exact E1|apply ev_and; [exact (attr_dict c d "Parent" p (bs "Pages") Hp Hc)|exact (IH HT2 (bs "Pages"))]]].
      cbv beta. intros nb (A1 & A2 & A3). eapply Ch_up; eauto.
      + exists (Some (bs "Pages")), (rd p). split; [reflexivity|]. destruct p; discriminate.
      + rewrite map_app. destruct HR as [[H1 ->]|[H1 ->]]; [left|right]; auto.
  Qed.

  Definition kindly (kv : list Z * obj) (it : list Z * bv) : Prop :=
    fst it = fst kv /\ meaning o (snd kv) (snd it) /\
    if eqlZ (fst kv) (bs "ProcSet") then exists names, snd it = VArr (map (fun s => VAtom (OName s)) names)
    else exists d, follow o (snd kv) = ODict d /\ snd it = lvl d /\ NoDup (map fst d) /\ forall k' x, In (k', x) d -> Sound o x.
  Lemma level_kindly r : LevelOk o r -> exists items, Forall2 kindly r items.
  Proof.
    intros (_ & _ & H). induction r as [|[k v] r IH]; [exists []; constructor|].
    destruct IH as [items HI]; [intros k' v' Hin; apply H; now right|]. specialize (H k v ltac:(now left)).
    destruct (eqlZ k (bs "ProcSet")) eqn:E.
    - destruct H as [names Hn]. exists ((k, VArr (map (fun s => VAtom (OName s)) names)) :: items). constructor; [|exact HI].
      split; [reflexivity|]. cbn [fst snd]. rewrite E. split; [|eauto]. eapply mean_arr; eauto. clear. induction names; constructor; auto. constructor.
    - destruct H as (d & Hf & Ht & Hn & Hs). exists ((k, lvl d) :: items). constructor; [|exact HI].
      split; [reflexivity|]. cbn [fst snd]. rewrite E. split; [apply mean_dict; auto; now apply untyped_class|]. exists d. auto.
  Qed.
  Lemma kindly_keys r items : Forall2 kindly r items -> map fst items = map fst r.
  Proof. induction 1 as [|kv it r items (E & _) _ IH]; cbn; congruence. Qed.
  Lemma kindly_get r items k : Forall2 kindly r items ->
    match dget r k with
    | None => aget items k = None
    | Some v => exists w, aget items k = Some w /\ kindly (k, v) (k, w)
    end.
  Proof.
    induction 1 as [|[k0 v0] [k1 w0] r items HK _ IH]; [reflexivity|]. pose proof HK as (E & HM & HX). cbn [fst snd] in *. subst k1. cbn [dget aget].
    destruct (eqlZ k k0) eqn:Ek; [|exact IH]. apply eqlZ_eq in Ek. subst k0. exists w0. split; [reflexivity|]. exact HK.
  Qed.
  Lemma kindly_in items r it : Forall2 kindly r items -> In it items -> exists kv, In kv r /\ kindly kv it.
  Proof. induction 1 as [|kv i r items HK _ IH]; intros []; [subst; exists kv; split; [now left|auto]|]. destruct (IH H) as (kv' & H1 & H2). exists kv'. split; [now right|auto]. Qed.

  Definition goods (nb : nat) (items : list (list Z * bv)) (r : dict) : Prop :=
    level_items (B nb) (lvl r) = Ok items /\
    forall k v d, In (k, v) r -> k <> bs "ProcSet" -> follow o v = ODict d -> forall k' x w, In (k', x) d -> meaning o x w -> B nb (raw x) = Ok w.
  Lemma ev_goods r items : LevelOk o r -> Forall2 kindly r items -> ev (fun nb => goods nb items r).
  Proof.
    intros HO HK. apply ev_and.
    - unfold lvl, level_items. destruct HO as (_ & _ & _). induction HK as [|[k v] [k' w] r items (E & HM & _) _ IH]; [now apply ev_all|].
      cbn [fst snd] in *. subst k'. eapply ev_imp; [|apply ev_and; [exact (ev_build o v w HM)|exact IH]]. cbv beta. intros nb [E1 E2].
      unfold map_vals in *. cbn [rd map mapM fst snd] in *. rewrite E1. cbn [rbind]. unfold rd in E2. rewrite E2. reflexivity.
    - destruct HO as (_ & _ & HO). clear HK.
      assert (ev (fun nb => Forall (fun kv => fst kv <> bs "ProcSet" -> forall d, follow o (snd kv) = ODict d -> Forall (fun kx => forall w, meaning o (snd kx) w -> B nb (raw (snd kx)) = Ok w) d) r)) as HE.
      { apply ev_Forall. apply Forall_forall. intros [k v] Hin. cbn [fst snd]. specialize (HO k v Hin). destruct (eqlZ k (bs "ProcSet")) eqn:E.
        - apply eqlZ_eq in E. apply ev_all. intros n Hn. congruence.
        - destruct HO as (d & Hf & _ & _ & Hs).
          assert (ev (fun nb => Forall (fun kx => forall w, meaning o (snd kx) w -> B nb (raw (snd kx)) = Ok w) d)) as HD.
          { apply ev_Forall. apply Forall_forall. intros [k' x] Hx. cbn [snd]. apply ev_sound. eapply Hs; eauto. }
          eapply ev_imp; [|exact HD]. cbv beta. intros nb H _ d' Hd'. assert (d' = d) as -> by congruence. exact H. }
      eapply ev_imp; [|exact HE]. cbv beta. intros nb H k v d Hin Hk Hf k' x w Hx HM. rewrite Forall_forall in H. specialize (H _ Hin Hk d Hf).
      rewrite Forall_forall in H. exact (H _ Hx w HM).
  Qed.

  Lemma map_rd_fst d : map fst (rd d) = map fst d. Proof. unfold rd. rewrite map_map. reflexivity. Qed.
  Lemma page_fonts d ls : Levels o d ls -> Forall (LevelOk o) ls ->
    ev (fun nb => ev (fun n => exists rs, page_resources Hdoc nb n (page_bv d) = Ok rs /\
      forall f, match font_in o ls f with None => aget (rs_dict rs (bs "Font")) f = None
                | Some v => exists w, meaning o v w /\ aget (rs_dict rs (bs "Font")) f = Some w end)).
  Proof.
    intros HL HO.
    assert (Forall (fun r => dget r (bs "Type") = None) ls) as HT by (eapply Forall_impl; [|exact HO]; intros r ((H & _) & _); exact H).
    assert (exists itemss, Forall2 (fun r items => Forall2 kindly r items) ls itemss) as [itemss HI].
    { clear HL HT. induction HO as [|r ls Hr _ [itemss IH]]; [exists []; constructor|]. destruct (level_kindly r Hr) as [items Hi]. exists (items :: itemss). now constructor. }
    assert (ev (fun nb => Forall2 (fun r items => goods nb items r) ls itemss)) as HG.
    { apply ev_Forall2. clear HL HT. induction HI as [|r items ls itemss Hi _ IH]; [constructor|]. inversion HO; subst. constructor; auto. now apply ev_goods. }
    eapply ev_imp; [|apply ev_and; [exact HG|exact (levels_chain d ls HL HT (bs "Page"))]]. cbv beta. intros nb [HG' HC]. clear HG HT HL.
    assert (Forall2 (fun x l => level_items (B nb) x = Ok l) ([] ++ map lvl ls) itemss) as H1.
    { cbn [app]. clear - HG'. induction HG' as [|r items ls itemss [H _] _ IH]; constructor; auto. }
    assert (Forall unique_keys itemss) as H2.
    { clear - HI HO. induction HI as [|r items ls itemss Hi _ IH]; [constructor|]. inversion HO as [|? ? (_ & Hn & _) HO']; subst. constructor; auto. split.
      - now rewrite (kindly_keys _ _ Hi).
      - intros kind c d Hg. pose proof (kindly_get r items kind Hi) as HK. destruct (dget r kind) as [v|]; [|congruence]. destruct HK as (w & E & (_ & _ & HX)).
        assert (w = VDict c d) as -> by congruence. cbn [fst snd] in HX. destruct (eqlZ kind (bs "ProcSet")); [destruct HX as [names HX]; discriminate|].
        destruct HX as (d' & _ & HX & Hn' & _). inversion HX; subst. now rewrite map_rd_fst. }
    assert (well_kinded (B nb) itemss) as H3.
    { intros kind. assert (kind = bs "ProcSet" \/ kind <> bs "ProcSet") as [Hk|Hk] by (destruct (eqlZ kind (bs "ProcSet")) eqn:E; [left; now apply eqlZ_eq|right; now apply eqlZ_neq]).
      - right. intros l v Hin Hg. clear - HI Hin Hg Hk. induction HI as [|r items ls itemss Hi _ IH]; [contradiction|]. destruct Hin as [<-|Hin]; [|auto].
        pose proof (kindly_get r items kind Hi) as HK. destruct (dget r kind) as [v'|]; [|congruence]. destruct HK as (w & E & (_ & _ & HX)). cbn [fst snd] in HX.
        rewrite Hk, eqlZ_refl in HX. destruct HX as [names HX]. exists (map (fun s => VAtom (OName s)) names). split; [congruence|]. clear. induction names; constructor; eauto.
      - left. intros l v Hin Hg. clear - HI HG' Hin Hg Hk. induction HI as [|r items ls itemss Hi _ IH]; [contradiction|]. inversion HG' as [|? ? ? ? HGr HG'']; subst.
        destruct Hin as [<-|Hin]; [|auto].
        pose proof (kindly_get r items kind Hi) as HK. destruct (dget r kind) as [v'|] eqn:Ed; [|congruence]. destruct HK as (w & E & (_ & _ & HX)). cbn [fst snd] in HX.
        rewrite (proj2 (eqlZ_neq _ _) Hk) in HX. destruct HX as (d & Hf & Hw & _ & Hs). exists (Some []), (rd d). split; [unfold lvl in Hw; congruence|].
        intros k x Hx. unfold rd in Hx. apply in_map_iff in Hx. destruct Hx as ([k' x'] & Ex & Hx). cbn [fst snd] in Ex. inversion Ex; subst.
        destruct (Hs _ _ Hx) as [w' Hw']. exists w'. destruct HGr as [_ HGr]. assert (exists kv, In kv r /\ kv = (kind, v')) as (kv & Hkv & ->).
        { clear - Ed. induction r as [|[k0 v0] r IH]; [discriminate|]. cbn [dget] in Ed. destruct (eqlZ kind k0) eqn:E.
          - apply eqlZ_eq in E. subst. inversion Ed; subst. eexists. split; [left; reflexivity|reflexivity].
          - destruct (IH Ed) as (kv & H & E'). exists kv. split; [now right|auto]. }
        eapply HGr; eauto. }
    assert (no_self itemss) as H4.
    { intros l Hin. clear - HI HO Hin. induction HI as [|r items ls itemss Hi _ IH]; [contradiction|]. inversion HO as [|? ? ((_ & Hs) & _) HO']; subst.
      destruct Hin as [<-|Hin]; [|auto]. pose proof (kindly_get r items (bs "self") Hi) as HK. now rewrite Hs in HK. }
    destruct (C37_succeeds (B nb) (page_bv d) [] (map lvl ls) itemss HC H1 H2 H3 H4) as [n0 Hn0]. exists n0. intros n Hn. destruct (Hn0 n Hn) as [rs Hrs].
    exists rs. split; [exact Hrs|]. intros f.
    assert (In (bs "Font") (map bs ["ExtGState"; "ColorSpace"; "Pattern"; "Shading"; "XObject"; "Font"; "ProcSet"; "Properties"]%string)) as Hin by (do 5 right; now left).
    pose proof (fun v => C37_nearest_wins (B nb) n (page_bv d) [] (map lvl ls) itemss rs (bs "Font") f v HC H1 H2 Hrs Hin) as HN.
    assert (match font_in o ls f with None => forall w, ~ Nearest (B nb) (bs "Font") f w itemss
            | Some v => exists w, meaning o v w /\ Nearest (B nb) (bs "Font") f w itemss end) as HF.
    { clear - HI HG' HO. induction HI as [|r items ls itemss Hi _ IH].
      - cbn [font_in]. intros w Hw. inversion Hw.
      - inversion HO as [|? ? HOr HO']; subst. inversion HG' as [|? ? ? ? HGr HG'']; subst. specialize (IH HO' HG'').
        assert (Ed : forall fd, aget items (bs "Font") = Some (lvl fd) -> Silent items (bs "Font") f \/ exists x, dget fd f = Some x).
        { intros fd Ea. destruct (dget fd f) as [x|] eqn:Ex; [right; eauto|]. left. intros c dd Hd. rewrite Ea in Hd. inversion Hd; subst. now rewrite aget_rd, Ex. }
        pose proof (kindly_get r items (bs "Font") Hi) as HK. cbn [font_in]. unfold entry. destruct (dget r (bs "Font")) as [v|] eqn:Er.
        + destruct HK as (w & Ea & (_ & HM & fd & Hf & Hw & Hnd & Hs)). cbn [fst snd] in *. subst w. rewrite Hf. destruct (dget fd f) as [x|] eqn:Ex.
          * assert (exists k, In (k, x) fd) as [k Hk].
            { clear - Ex. induction fd as [|[k0 v0] r IH]; [discriminate|]. cbn [dget] in Ex. destruct (eqlZ f k0).
              - inversion Ex; subst. exists k0. now left.
              - destruct (IH Ex) as [k H]. exists k. now right. }
            destruct (Hs k x Hk) as [w Hw]. exists w. split; [exact Hw|]. apply Ne_here. exists (Some []), (rd fd), (raw x). split; [exact Ea|].
            split; [now rewrite aget_rd, Ex|]. destruct HGr as [_ HGr]. assert (In (bs "Font", v) r) as HIn.
            { clear - Er. induction r as [|[k0 v0] r IH]; [discriminate|]. cbn [dget] in Er. destruct (eqlZ (bs "Font") k0) eqn:E.
              - apply eqlZ_eq in E. subst. inversion Er; subst. now left.
              - right. auto. }
            eapply HGr; eauto. discriminate.
          * destruct (Ed fd Ea) as [HS|[x Hx]]; [|congruence]. destruct (font_in o ls f) as [v'|].
            -- destruct IH as (w & HM' & HN). exists w. split; [auto|]. now apply Ne_up.
            -- intros w Hn. inversion Hn as [? ? HD|? ? HS' HN']; subst; [|exact (IH w HN')]. destruct HD as (c & dd & y & E1 & E2 & _). rewrite (HS _ _ E1) in E2. discriminate.
        + assert (Silent items (bs "Font") f) as HS by (intros c dd E; congruence). destruct (font_in o ls f) as [v'|].
          -- destruct IH as (w & HM' & HN). exists w. split; [auto|]. now apply Ne_up.
          -- intros w Hn. inversion Hn as [? ? HD|? ? HS' HN']; subst; [|exact (IH w HN')]. destruct HD as (c & dd & y & E1 & E2 & _). congruence. }
    destruct (font_in o ls f) as [v|].
    - destruct HF as (w & HM & HNe). exists w. split; [exact HM|]. apply HN. exact HNe.
    - destruct (aget (rs_dict rs (bs "Font")) f) as [w|] eqn:E; [|reflexivity]. contradiction (HF w). apply HN. reflexivity.
  Qed.
End R.
