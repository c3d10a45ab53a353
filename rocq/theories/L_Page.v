(** Resources of pages and forms, of every kind (for C85). *)
From Coq Require Import String.
From Verif Require Import Prelude M_Prog M_Parser M_Filters M_Document M_Objects S_Objects P_Objects P_Pages M_Viewer S_Resources P_Resources
  M_Nav P_Nav M_Decoder M_App S_App L_AppText L_App L_App2 S_Page.
Local Open Scope Z_scope.

Section R.
  Variable o : Z -> Z -> option obj.
  Notation Hdoc := (answer o).
  Notation B nb := (bld Hdoc nb).
  Notation kindly := (L_App2.kindly o).
  Notation goods := (L_App2.goods o).
  Notation level_kindly := (L_App2.level_kindly o).
  Notation kindly_keys := (L_App2.kindly_keys o).
  Notation kindly_get := (L_App2.kindly_get o).
  Notation ev_goods := (L_App2.ev_goods o).
  Notation levels_chain := (L_App2.levels_chain o).
  Definition dict_kinds : list string := ["ExtGState"; "ColorSpace"; "Pattern"; "Shading"; "XObject"; "Font"; "Properties"]%string.
  Lemma page_kinds d fl lv : Levels o d lv -> Forall (LevelOk o) (fl ++ lv) ->
    ev (fun nb => ev (fun n => exists rs, from_page (B nb) n (page_bv d) (map lvl fl) = Ok rs /\
      forall kd f, In kd dict_kinds -> match res_in o kd (fl ++ lv) f with None => aget (rs_dict rs (bs kd)) f = None
                | Some v => exists w, meaning o v w /\ aget (rs_dict rs (bs kd)) f = Some w end)).
  Proof.
    intros HL HO.
    assert (Forall (fun r => dget r (bs "Type") = None) lv) as HT by (apply Forall_app in HO; destruct HO as [_ HO]; eapply Forall_impl; [|exact HO]; intros r ((H & _) & _); exact H).
    remember (fl ++ lv) as LS eqn:EL.
    assert (exists itemss, Forall2 (fun r items => Forall2 kindly r items) LS itemss) as [itemss HI].
    { clear HL HT EL. induction HO as [|r LL Hr _ [itemss IH]]; [exists []; constructor|]. destruct (level_kindly r Hr) as [items Hi]. exists (items :: itemss). now constructor. }
    assert (ev (fun nb => Forall2 (fun r items => goods nb items r) LS itemss)) as HG.
    { apply ev_Forall2. clear HL HT EL. induction HI as [|r items ls itemss Hi _ IH]; [constructor|]. inversion HO; subst. constructor; auto. now apply ev_goods. }
    eapply ev_imp; [|apply ev_and; [exact HG|exact (levels_chain d lv HL HT (bs "Page"))]]. cbv beta. intros nb [HG' HC]. clear HG HT HL.
    assert (Forall2 (fun x l => level_items (B nb) x = Ok l) (map lvl fl ++ map lvl lv) itemss) as H1.
    { rewrite <- map_app, <- EL. clear - HG'. induction HG' as [|r items ls itemss [H _] _ IH]; constructor; auto. }
    assert (Forall unique_keys itemss) as H2.
    { clear - HI HO. induction HI as [|r items ls itemss Hi _ IH]; [constructor|]. inversion HO as [|? ? (_ & Hn & _) HO']; subst. constructor; auto. split.
      - now rewrite (kindly_keys _ _ Hi).
      - intros kind c d Hg. pose proof (kindly_get r items kind Hi) as HK. destruct (dget r kind) as [v|]; [|congruence]. destruct HK as (w & E & (_ & _ & HX)).
        assert (w = VDict c d) as -> by congruence. cbn [fst snd] in HX. destruct (eqlZ kind (bs "ProcSet")); [destruct HX as [names HX]; discriminate|].
        destruct HX as (d' & _ & HX & Hn' & _). inversion HX; subst. now rewrite map_rd_fst. }
    assert (well_kinded (B nb) itemss) as H3.
    { intros kind. assert (kind = bs "ProcSet" \/ kind <> bs "ProcSet") as [Hk|Hk] by (destruct (eqlZ kind (bs "ProcSet")) eqn:E; [left; now apply eqlZ_eq|right; now apply eqlZ_neq]).
      - right. intros l v Hin Hg. clear - HI Hin Hg Hk. induction HI as [|r items ls itemss Hi _ IH]; [contradiction|]. destruct Hin as [<-|Hin]; [|auto].
        pose proof (kindly_get r items kind Hi) as HK. destruct (dget r kind) as [v'|]; [|congruence]. destruct HK as (w & E & (_ & _ & HX)). cbn [fst snd] in HX.
        rewrite Hk, eqlZ_refl in HX. destruct HX as [names HX]. exists (map (fun s => VAtom (OName s)) names). split; [congruence|]. clear. induction names; constructor; eauto.
      - left. intros l v Hin Hg. clear - HI HG' Hin Hg Hk. induction HI as [|r items ls itemss Hi _ IH]; [contradiction|]. inversion HG' as [|? ? ? ? HGr HG'']; subst.
        destruct Hin as [<-|Hin]; [|auto].
        pose proof (kindly_get r items kind Hi) as HK. destruct (dget r kind) as [v'|] eqn:Ed; [|congruence]. destruct HK as (w & E & (_ & _ & HX)). cbn [fst snd] in HX.
        rewrite (proj2 (eqlZ_neq _ _) Hk) in HX. destruct HX as (d & Hf & Hw & _ & Hs). exists (Some []), (rd d). split; [unfold lvl in Hw; congruence|].
        intros k x Hx. unfold rd in Hx. apply in_map_iff in Hx. destruct Hx as ([k' x'] & Ex & Hx). cbn [fst snd] in Ex. inversion Ex; subst.
        destruct (Hs _ _ Hx) as [w' Hw']. exists w'. destruct HGr as [_ HGr]. assert (exists kv, In kv r /\ kv = (kind, v')) as (kv & Hkv & ->).
        { clear - Ed. induction r as [|[k0 v0] r IH]; [discriminate|]. cbn [dget] in Ed. destruct (eqlZ kind k0) eqn:E.
          - apply eqlZ_eq in E. subst. inversion Ed; subst. eexists. split; [left; reflexivity|reflexivity].
          - destruct (IH Ed) as (kv & H & E'). exists kv. split; [now right|auto]. }
        eapply HGr; eauto. }
    assert (no_self itemss) as H4.
    { intros l Hin. clear - HI HO Hin. induction HI as [|r items ls itemss Hi _ IH]; [contradiction|]. inversion HO as [|? ? ((_ & Hs) & _) HO']; subst.
      destruct Hin as [<-|Hin]; [|auto]. pose proof (kindly_get r items (bs "self") Hi) as HK. now rewrite Hs in HK. }
    destruct (C37_succeeds (B nb) (page_bv d) (map lvl fl) (map lvl lv) itemss HC H1 H2 H3 H4) as [n0 Hn0]. exists n0. intros n Hn. destruct (Hn0 n Hn) as [rs Hrs].
    exists rs. split; [exact Hrs|]. intros kd f Hkd.
    assert (In (bs kd) (map bs ["ExtGState"; "ColorSpace"; "Pattern"; "Shading"; "XObject"; "Font"; "ProcSet"; "Properties"]%string) /\ bs kd <> bs "ProcSet") as [Hin Hnp].
    { cbn [In] in Hkd. destruct Hkd as [<-|[<-|[<-|[<-|[<-|[<-|[<-|[]]]]]]]]; (split; [cbn; tauto|discriminate]). }
    pose proof (fun v => C37_nearest_wins (B nb) n (page_bv d) (map lvl fl) (map lvl lv) itemss rs (bs kd) f v HC H1 H2 Hrs Hin) as HN.
    assert (match res_in o kd LS f with None => forall w, ~ Nearest (B nb) (bs kd) f w itemss
            | Some v => exists w, meaning o v w /\ Nearest (B nb) (bs kd) f w itemss end) as HF.
    { clear - HI HG' HO Hnp. induction HI as [|r items ls itemss Hi _ IH].
      - cbn [res_in]. intros w Hw. inversion Hw.
      - inversion HO as [|? ? HOr HO']; subst. inversion HG' as [|? ? ? ? HGr HG'']; subst. specialize (IH HO' HG'').
        assert (Ed : forall fd, aget items (bs kd) = Some (lvl fd) -> Silent items (bs kd) f \/ exists x, dget fd f = Some x).
        { intros fd Ea. destruct (dget fd f) as [x|] eqn:Ex; [right; eauto|]. left. intros c dd Hd. rewrite Ea in Hd. inversion Hd; subst. now rewrite aget_rd, Ex. }
        pose proof (kindly_get r items (bs kd) Hi) as HK. cbn [res_in]. unfold entry. destruct (dget r (bs kd)) as [v|] eqn:Er.
        + destruct HK as (w & Ea & (_ & HM & HX)). cbn [fst snd] in *. rewrite (proj2 (eqlZ_neq _ _) Hnp) in HX. destruct HX as (fd & Hf & Hw & Hnd & Hs). subst w. rewrite Hf. destruct (dget fd f) as [x|] eqn:Ex.
          * assert (exists k, In (k, x) fd) as [k Hk].
            { clear - Ex. induction fd as [|[k0 v0] r IH]; [discriminate|]. cbn [dget] in Ex. destruct (eqlZ f k0).
              - inversion Ex; subst. exists k0. now left.
              - destruct (IH Ex) as [k H]. exists k. now right. }
            destruct (Hs k x Hk) as [w Hw]. exists w. split; [exact Hw|]. apply Ne_here. exists (Some []), (rd fd), (raw x). split; [exact Ea|].
            split; [now rewrite aget_rd, Ex|]. destruct HGr as [_ HGr]. assert (In (bs kd, v) r) as HIn.
            { clear - Er. induction r as [|[k0 v0] r IH]; [discriminate|]. cbn [dget] in Er. destruct (eqlZ (bs kd) k0) eqn:E.
              - apply eqlZ_eq in E. subst. inversion Er; subst. now left.
              - right. auto. }
            eapply HGr; eauto.
          * destruct (Ed fd Ea) as [HS|[x Hx]]; [|congruence]. destruct (res_in o kd ls f) as [v'|].
            -- destruct IH as (w & HM' & HN). exists w. split; [auto|]. now apply Ne_up.
            -- intros w Hn. inversion Hn as [? ? HD|? ? HS' HN']; subst; [|exact (IH w HN')]. destruct HD as (c & dd & y & E1 & E2 & _). rewrite (HS _ _ E1) in E2. discriminate.
        + assert (Silent items (bs kd) f) as HS by (intros c dd E; congruence). destruct (res_in o kd ls f) as [v'|].
          -- destruct IH as (w & HM' & HN). exists w. split; [auto|]. now apply Ne_up.
          -- intros w Hn. inversion Hn as [? ? HD|? ? HS' HN']; subst; [|exact (IH w HN')]. destruct HD as (c & dd & y & E1 & E2 & _). congruence. }
    destruct (res_in o kd LS f) as [v|].
    - destruct HF as (w & HM & HNe). exists w. split; [exact HM|]. apply HN. exact HNe.
    - destruct (aget (rs_dict rs (bs kd)) f) as [w|] eqn:E; [|reflexivity]. contradiction (HF w). apply HN. reflexivity.
  Qed.
End R.
