(** Documents as the viewer sees them (for C78): from S_App.v's notions to build, pages, resources. *)
From Coq Require Import String.
From Verif Require Import Prelude M_Prog M_Parser M_Filters S_Filters L_Filters L_Filters2 M_Document M_Objects S_Objects P_Objects P_Pages M_Viewer S_Resources P_Resources
  M_Nav P_Nav M_Decoder M_App S_App L_AppText S_Stream S_Syntax L_Buffer P_Content.
Local Open Scope Z_scope.

(** *** The generator of content items *)
Lemma content_run_ok f : forall n ops out s its s', arun f (content_loop n ops out) s = (Ok its, s') ->
  exists more, its = out ++ more /\ content_run f n ops s = (more, None).
Proof.
  induction n as [|n IH]; intros ops out s its s' H; [discriminate|]. cbn [content_loop content_run] in *.
  rewrite L_Prog.arun_bind in H. destruct (arun f cur s) as [[c|e] s0]; [|discriminate]. destruct c as [c|].
  2:{ cbn [arun ret] in H. inversion H. subst. exists []. now rewrite app_nil_r. }
  rewrite L_Prog.arun_bind in H. destruct (arun f (object (fun d => ret d) FContent n) s0) as [[v|e] s1]; [|discriminate].
  assert (forall (p : prog unit (list citem)) A (q : prog unit A) r, arun f (q ;;; p)%prog s1 = (Ok r, s') -> exists x s2, arun f q s1 = (Ok x, s2) /\ arun f p s2 = (Ok r, s')) as Hseq.
  { intros p A q r E. rewrite L_Prog.arun_bind in E. destruct (arun f q s1) as [[x|e] s2]; [|discriminate]. eauto. }
  assert (forall d data, v = OInline d data -> exists more, its = out ++ more /\
     match arun f (sp n) s1 with (Err e, _) => ([CImage d data], Some e) | (Ok _, s2) => let '(l, e) := content_run f n [] s2 in (CImage d data :: l, e) end = (more, None)) as HI.
  { intros d data ->. apply Hseq in H. destruct H as (x & s2 & E & H). rewrite E. apply IH in H. destruct H as (more & -> & ->).
    exists (CImage d data :: more). split; [now rewrite <- app_assoc|reflexivity]. }
  destruct v; try (apply HI; reflexivity); clear HI;
    (destruct (is_operator _);
     [apply Hseq in H; destruct H as (xx & sx & Exx & H); rewrite Exx; apply IH in H; destruct H as (more & -> & ->); eexists (_ :: more); split; [now rewrite <- app_assoc|reflexivity]
     |apply Hseq in H; destruct H as (xx & sx & Exx & H); rewrite Exx; apply IH in H; exact H]).
Qed.
Lemma content_items_ok its ss lead : Content its ss -> Sep lead -> content_items (lead ++ ss) = (its, None).
Proof.
  intros Hc Hl. unfold content_items. set (n := Z.to_nat (4 * zlen (lead ++ ss) + 10)).
  destruct (C38_content_operators its ss lead unit [] tt n Hc Hl) as [ex E]; [unfold n; pose proof (zlen_nonneg (lead ++ ss)); lia|].
  unfold content_objects in E. rewrite L_Prog.arun_bind in E. destruct (arun (lead ++ ss) (sp n) (mkA 0 [] tt)) as [[x|e] s0]; [|discriminate].
  apply content_run_ok in E. destruct E as (more & -> & E). exact E.
Qed.

Section D.
  Variable o : Z -> Z -> option obj.
  Notation Hdoc := (answer o).
  Lemma answered n g v : meant o n g = v -> v <> OTok [] -> answer o n g = Ok (raw v).
  Proof. unfold meant, answer. destruct (o n g); intros; congruence. Qed.
  Definition rd (d : dict) : list (list Z * bv) := map (fun p => (fst p, raw (snd p))) d.
  Lemma aget_rd d k : aget (rd d) k = option_map raw (dget d k).
  Proof. induction d as [|[k' v] d IH]; [reflexivity|]. cbn [rd map aget dget fst snd]. destruct (eqlZ k k'); [reflexivity|exact IH]. Qed.

  Lemma mean_dict v d c : follow o v = ODict d -> dict_class (rd d) c -> meaning o v (VDict (Some c) (rd d)).
  Proof.
    intros Hf Hc. unfold meaning. destruct v; cbn [follow] in Hf; try discriminate.
    - inversion Hf; subst. now apply St_dict.
    - cbn [raw]. apply St_ref with (o := raw (ODict d)); [apply answered; [exact Hf|discriminate]| |now apply St_dict]. intros (a & b & E). discriminate.
  Qed.
  Lemma mean_stm v d data c : follow o v = OStream d data -> stm_class (rd d) c -> meaning o v (VStm (Some c) (rd d) data).
  Proof.
    intros Hf Hc. unfold meaning. destruct v; cbn [follow] in Hf; try discriminate.
    - inversion Hf; subst. now apply St_stm.
    - cbn [raw]. apply St_ref with (o := raw (OStream d data)); [apply answered; [exact Hf|discriminate]| |now apply St_stm]. intros (a & b & E). discriminate.
  Qed.
  Lemma mean_arr v l l' : follow o v = OArr l -> Forall2 (meaning o) l l' -> meaning o v (VArr l').
  Proof.
    intros Hf HF. assert (Stands (answer o) (raw (OArr l)) (VArr l')) as HS.
    { cbn [raw]. apply St_arr. clear Hf. induction HF; constructor; auto. }
    unfold meaning. destruct v; cbn [follow] in Hf; try discriminate.
    - inversion Hf; subst. exact HS.
    - cbn [raw]. apply St_ref with (o := raw (OArr l)); [apply answered; [exact Hf|discriminate]| |exact HS]. intros (a & b & E). discriminate.
  Qed.
  Lemma typed_class d s : dget d (bs "Type") = Some (OName s) -> In s dict_classes -> dict_class (rd d) s.
  Proof. intros E Hin. unfold dict_class. rewrite aget_rd, E. cbn. auto. Qed.
  Lemma untyped_class d : dget d (bs "Type") = None -> dict_class (rd d) [].
  Proof. intros E. unfold dict_class. rewrite aget_rd, E. reflexivity. Qed.
  Lemma untyped_stm d : dget d (bs "Type") = None -> stm_class (rd d) [].
  Proof. intros E. right. unfold xobject. rewrite aget_rd, E. cbn. split; [discriminate|reflexivity]. Qed.
  Lemma other_stm d : (dget d (bs "Type") = None \/ exists s, dget d (bs "Type") = Some (OName s) /\ s <> bs "XObject") -> exists c, stm_class (rd d) c.
  Proof.
    intros [H|(s & E & Hs)]; [exists []; now apply untyped_stm|].
    exists (if existsb (eqlZ s) stream_classes then s else []). right. unfold xobject. rewrite aget_rd, E. cbn [option_map raw]. split; [congruence|]. unfold class_from.
    destruct (existsb (eqlZ s) stream_classes) eqn:Es.
    - apply existsb_exists in Es. destruct Es as (x & Hx & Ex). apply eqlZ_eq in Ex. subst. auto.
    - right. split; [|reflexivity]. intros Hin. assert (existsb (eqlZ s) stream_classes = true); [|congruence]. apply existsb_exists. exists s. split; [exact Hin|apply eqlZ_refl].
  Qed.
  Definition page_bv (d : dict) : bv := VDict (Some (bs "Page")) (rd d).

  (** *** Eventually (for all large enough bounds) *)
  Definition ev (P : nat -> Prop) : Prop := exists n0, forall n, (n0 <= n)%nat -> P n.
  Lemma ev_and P Q : ev P -> ev Q -> ev (fun n => P n /\ Q n).
  Proof. intros [a Ha] [b Hb]. exists (a + b)%nat. intros n Hn. split; [apply Ha|apply Hb]; lia. Qed.
  Lemma ev_imp (P Q : nat -> Prop) : (forall n, P n -> Q n) -> ev P -> ev Q.
  Proof. intros H [a Ha]. exists a. auto. Qed.
  Lemma ev_all (P : nat -> Prop) : (forall n, P n) -> ev P. Proof. exists 0%nat. auto. Qed.
  Lemma ev_Forall2 {A B} (P : nat -> A -> B -> Prop) l l' : Forall2 (fun a b => ev (fun n => P n a b)) l l' -> ev (fun n => Forall2 (P n) l l').
  Proof.
    induction 1 as [|a b l l' H _ IH]; [apply ev_all; intros; constructor|]. eapply ev_imp; [|apply ev_and; [exact H|exact IH]]. cbv beta. intros n [H1 H2]. now constructor.
  Qed.
  Lemma ev_Forall {A} (P : nat -> A -> Prop) l : Forall (fun a => ev (fun n => P n a)) l -> ev (fun n => Forall (P n) l).
  Proof.
    induction 1 as [|a l H _ IH]; [apply ev_all; intros; constructor|]. eapply ev_imp; [|apply ev_and; [exact H|exact IH]]. cbv beta. intros n [H1 H2]. now constructor.
  Qed.
  Notation B nb := (bld Hdoc nb).
  Lemma ev_build v w : meaning o v w -> ev (fun nb => B nb (raw v) = Ok w).
  Proof. intros H. exact (C27_build Hdoc _ _ H). Qed.

  (** *** Page trees *)
  Scheme PagesAt_mind := Induction for PagesAt Sort Prop with PagesIn_mind := Induction for PagesIn Sort Prop.
  Combined Scheme Pages_both from PagesAt_mind, PagesIn_mind.
  Lemma pages_trees :
    (forall v ps, PagesAt o v ps -> exists c t, meaning o v c /\ ev (fun nb => PageTree (B nb) c t) /\ leaves t = map page_bv ps) /\
    (forall l ps, PagesIn o l ps -> exists cs ts, Forall2 (meaning o) l cs /\ ev (fun nb => PageTrees (B nb) cs ts) /\ all_leaves ts = map page_bv ps).
  Proof.
    apply (Pages_both o (fun v ps _ => exists c t, meaning o v c /\ ev (fun nb => PageTree (B nb) c t) /\ leaves t = map page_bv ps)
      (fun l ps _ => exists cs ts, Forall2 (meaning o) l cs /\ ev (fun nb => PageTrees (B nb) cs ts) /\ all_leaves ts = map page_bv ps)).
    - intros v d Hf Ht. exists (page_bv d), (Leaf (page_bv d)). split; [apply mean_dict; auto; apply typed_class; auto; cbn; tauto|].
      split; [|reflexivity]. apply ev_all; intros. apply PT_leaf. now exists (rd d).
    - intros v d l ps Hf Ht Hk Hps (cs & ts & HF & HE & HL). exists (VDict (Some (bs "Pages")) (rd d)), (Node ts).
      split; [apply mean_dict; auto; apply typed_class; auto; cbn; tauto|]. split; [|exact HL].
      unfold entry in Hk. destruct (dget d (bs "Kids")) as [kv|] eqn:Ek; [|discriminate].
      pose proof (ev_build _ _ (mean_arr kv l cs Hk HF)) as HB. eapply ev_imp; [|apply ev_and; [exact HE|exact HB]]. cbv beta. intros nb [H1 H2].
      apply PT_node with (l := cs); auto.
      + intros [d' E]. discriminate.
      + exists (bs "Pages"), (rd d), (raw kv). split; [reflexivity|]. split; [now rewrite aget_rd, Ek|exact H2].
    - exists [], []. split; [constructor|]. split; [apply ev_all; intros; constructor|reflexivity].
    - intros v l ps qs Hv (c & t & M1 & E1 & L1) Hl (cs & ts & M2 & E2 & L2). exists (c :: cs), (t :: ts). split; [now constructor|]. split.
      + eapply ev_imp; [|apply ev_and; [exact E1|exact E2]]. cbv beta. intros nb [H1 H2]. now constructor.
      + unfold all_leaves in *. cbn [map List.concat]. rewrite L1, L2, map_app. reflexivity.
  Qed.

  Lemma document_pages t ps : Document o t ps -> exists root, ev (fun nb => doc_root Hdoc nb t = Ok root /\
    ev (fun n => Yields (doc_pages Hdoc nb n root) (map page_bv ps))).
  Proof.
    intros (n & g & c & d & l & Et & Em & Hc & Ep & Hd & Ek & HP). exists (VDict (Some (bs "Catalog")) (rd c)).
    destruct (proj2 pages_trees l ps HP) as (cs & ts & HF & HE & HL).
    unfold entry in Ek. destruct (dget d (bs "Kids")) as [kv|] eqn:Ek'; [|discriminate].
    unfold entry in Ep. destruct (dget c (bs "Pages")) as [pv|] eqn:Ep'; [|discriminate].
    pose proof (ev_build _ _ (mean_arr kv l cs Ek HF)) as HB1.
    assert (meaning o pv (VDict (Some (bs "Pages")) (rd d))) as HM by (apply mean_dict; auto; apply typed_class; auto; cbn; tauto).
    pose proof (ev_build _ _ HM) as HB2.
    assert (ev (fun nb => (1 <= nb)%nat)) as HB3 by (exists 1%nat; auto).
    eapply ev_imp; [|apply ev_and; [exact HE|apply ev_and; [exact HB1|apply ev_and; [exact HB2|exact HB3]]]]. cbv beta. intros nb (H1 & H2 & H3 & H4). split.
    - unfold doc_root. rewrite Et. rewrite (answered _ _ _ Em) by discriminate. cbn [rbind]. destruct nb as [|nb]; [lia|]. unfold bld. apply dict_factory. exact Hc.
    - destruct (C31_document_pages (B nb) (VDict (Some (bs "Pages")) (rd d)) cs ts) as [n0 Hn0]; auto.
      + split; [|now exists (rd d)]. exists (bs "Pages"), (rd d), (raw kv). split; [reflexivity|]. split; [now rewrite aget_rd, Ek'|exact H2].
      + exists n0. intros m Hm. specialize (Hn0 m Hm). rewrite HL in Hn0. intros count. destruct (Hn0 count) as [Y1 Y2].
        unfold doc_pages, attr. rewrite aget_rd, Ep'. cbn [option_map]. rewrite H3. split; auto.
  Qed.

  (** *** Content *)
  Variable inflate : list Z -> option (list Z).
  Variable ccitt : list Z -> fparams -> res (list Z).
  Lemma passoc_none k p : dget p k = None -> passoc k (fold_right (fun kv r => match as_range (snd kv) with Some z => (fst kv, z) :: r | None => r end) [] p) = None.
  Proof.
    induction p as [|[k' v] p IH]; cbn [dget fold_right fst snd]; [reflexivity|]. destruct (eqlZ k k') eqn:E; [discriminate|]. intros H.
    destruct (as_range v); cbn [passoc]; [rewrite E|]; auto.
  Qed.
  Lemma passoc_int k p z : dget p k = Some (OInt z) -> passoc k (fold_right (fun kv r => match as_range (snd kv) with Some z => (fst kv, z) :: r | None => r end) [] p) = Some z.
  Proof.
    induction p as [|[k' v] p IH]; cbn [dget fold_right fst snd]; [discriminate|]. destruct (eqlZ k k') eqn:E.
    - intros [= ->]. cbn [as_range passoc]. now rewrite E.
    - intros H. destruct (as_range v); cbn [passoc]; [rewrite E|]; auto.
  Qed.
  Lemma unpredicted_no d : unpredicted_parms d -> no_predictor (parms_of (oget d (bs "DecodeParms"))).
  Proof.
    unfold unpredicted_parms, oget, parms_of. intros [->|[->|(p & -> & HP)]]; [exact I|exact I|]. destruct p as [|e p]; [exact I|].
    cbn [truthy]. cbn [no_predictor]. destruct HP as [HP|HP]; [left; now apply passoc_none|right; now apply passoc_int].
  Qed.
  Lemma encoded_named f b e : Encoded inflate f b e -> truthy (OName f) = true.
  Proof. intros H. assert (f <> []) as Hf by (destruct H as [f ? ? ? ? Hf|f ? ? ? Hf|f ? ? Hf|f ? ? Hf]; destruct Hf as [<-|[<-|[]]]; discriminate). destruct f; [congruence|reflexivity]. Qed.
  Lemma apply_names fs data p : apply_objs inflate ccitt (map OName fs) data p = apply_filters inflate ccitt fs data p.
  Proof. revert data. induction fs as [|f fs IH]; intros data; [reflexivity|]. cbn [map apply_objs apply_filters]. destruct (apply_filter inflate ccitt f data p); cbn [rbind]; auto. Qed.
  Lemma decoded_filtered d data b : Decoded inflate d data b -> filtered inflate ccitt d data = Ok b.
  Proof.
    intros [HF|f b' HF HP HE|fs b' HF HP HE|f cols rows Hf HF HP HR HI].
    - unfold filtered, oget. destruct HF as [->| ->]; reflexivity.
    - unfold filtered. unfold oget at 1 2. rewrite HF, (encoded_named _ _ _ HE). apply apply_encoded; [now apply unpredicted_no|exact HE].
    - unfold filtered. unfold oget at 1 2. rewrite HF. destruct fs as [|f fs].
      + inversion HE; subst. reflexivity.
      + change (truthy (OArr (map OName (f :: fs)))) with true. cbv iota. rewrite apply_names. apply chain_inverse; [now apply unpredicted_no|exact HE].
    - destruct HP as (p & k & Ep & Ek & Hk & Ec).
      assert (apply_filter inflate ccitt f data (parms_of (oget d (bs "DecodeParms"))) = Ok (List.concat rows)) as HA.
      { unfold oget. rewrite Ep. unfold parms_of. destruct p as [|e p]; [discriminate|]. change (truthy (ODict (e :: p))) with true. cbv iota. unfold apply_filter.
        assert (find_filter f filter_table = Some FFlate) as -> by (destruct Hf as [<-|[<-|[]]]; reflexivity).
        unfold run_filter. rewrite HI. unfold pget. rewrite (passoc_int _ _ _ Ek). cbn [rbind]. rewrite (passoc_int _ _ _ Ec). cbn [rbind].
        pose proof (predictor_rows k cols (map (fun r => (0, r)) rows) Hk) as X.
        assert (flat_map (fun r : Z * list Z => fst r :: snd r) (map (fun r => (0, r)) rows) = flat_map (fun r => 0 :: r) rows) as E1
          by (clear; induction rows as [|r rows IH]; [reflexivity|]; cbn [map flat_map fst snd]; now rewrite IH).
        assert (flat_map snd (map (fun r => (0, r)) rows) = List.concat rows) as E2
          by (clear; induction rows as [|r rows IH]; [reflexivity|]; cbn [map flat_map snd List.concat]; now rewrite IH).
        rewrite E1, E2 in X. apply X. intros r Hr. apply in_map_iff in Hr. destruct Hr as (r' & <- & Hr'). cbn [snd]. rewrite Forall_forall in HR. now apply HR. }
      assert (truthy (OName f) = true) as HT by (destruct Hf as [<-|[<-|[]]]; reflexivity).
      unfold filtered. unfold oget at 1 2. destruct HF as [->| ->].
      + rewrite HT. exact HA.
      + cbn [truthy]. cbn [apply_objs]. rewrite HA. reflexivity.
  Qed.
  Lemma unraw_raw v : unraw (raw v) = v.
  Proof.
    revert v. fix IH 1. destruct v as [|b|z|n c e|s|s|s|l|d|d s|n g|s|d s]; try reflexivity; cbn [raw unraw].
    - f_equal. rewrite map_map. induction l as [|x l IHl]; [reflexivity|]. cbn [map]. now rewrite IH, IHl.
    - f_equal. rewrite map_map. cbn [fst snd]. induction d as [|[k x] d IHd]; [reflexivity|]. cbn [map fst snd]. now rewrite IH, IHd.
    - f_equal. rewrite map_map. cbn [fst snd]. induction d as [|[k x] d IHd]; [reflexivity|]. cbn [map fst snd]. now rewrite IH, IHd.
  Qed.
  Lemma unraw_rd d : map (fun p => (fst p, unraw (snd p))) (rd d) = d.
  Proof. unfold rd. rewrite map_map. cbn [fst snd]. induction d as [|[k x] d IH]; [reflexivity|]. cbn [map fst snd]. now rewrite unraw_raw, IH. Qed.
  Lemma data_filtered v b : Data o inflate v b -> exists d data c, meaning o v (VStm (Some c) (rd d) data) /\
    filtered inflate ccitt (map (fun p => (fst p, unraw (snd p))) (rd d)) data = Ok b.
  Proof.
    intros (d & data & Hf & Ht & HD). destruct (other_stm d Ht) as [c Hc]. exists d, data, c. split; [apply mean_stm; auto|]. rewrite unraw_rd.
    now apply decoded_filtered.
  Qed.
  Lemma page_content d b : ContentOf o inflate d b -> ev (fun nb => page_stream inflate ccitt Hdoc nb (page_bv d) = Ok (Some b)).
  Proof.
    intros (v & Ev & HD). destruct HD as [HD|(l & bs' & Hf & HF & ->)].
    - destruct (data_filtered v b HD) as (sd & data & c & HM & HFi). eapply ev_imp; [|exact (ev_build _ _ HM)]. cbv beta. intros nb HB.
      unfold page_stream, attr, page_bv. rewrite aget_rd, Ev. cbn [option_map]. rewrite HB. cbn [rbind]. rewrite HFi. reflexivity.
    - assert (exists ws, Forall2 (meaning o) l ws /\ forall nb, mapM (part inflate ccitt Hdoc nb) ws = Ok bs') as (ws & HM & HP).
      { clear Hf. induction HF as [|x b l bs' Hx _ (ws & HM & HP)]; [exists []; split; [constructor|reflexivity]|].
        destruct (data_filtered x b Hx) as (sd & data & c & HMx & HFi). exists (VStm (Some c) (rd sd) data :: ws). split; [now constructor|]. intros nb.
        cbn [mapM part]. rewrite HFi, HP. reflexivity. }
      eapply ev_imp; [|exact (ev_build _ _ (mean_arr v l ws Hf HM))]. cbv beta. intros nb HB.
      unfold page_stream, attr, page_bv. rewrite aget_rd, Ev. cbn [option_map]. rewrite HB. cbn [rbind iter_kids]. rewrite HP. reflexivity.
  Qed.
End D.
