(** Whole documents: C76. *)
From Coq Require Import String.
From Verif Require Import Prelude M_Prog M_Parser S_Syntax L_Buffer L_Prog L_ParserWP L_Syntax L_Syntax2 S_Print L_Print
  S_Stream L_Stream M_Filters M_Document S_Document L_Document L_User L_Registry P_IndObj
  S_Xref L_Xref P_Header P_StartXref P_Xref P_Locate L_Steps S_Open.
Local Open Scope Z_scope.
Local Open Scope prog_scope.

Lemma newest_or_none ls num gen : (exists o, newest ls num gen o) \/ Forall (fun l' => forall o', last_listed true num l' <> Some (gen, o')) ls.
Proof.
  induction ls as [|l r IH]; [right; constructor|].
  destruct (last_listed true num l) as [[g o]|] eqn:E.
  - destruct (Z.eq_dec g gen) as [-> |Hg].
    + left. exists o, [], l, r. split; [reflexivity|]. split; [exact E|constructor].
    + destruct IH as [(o2 & newer & l2 & older & -> & H2 & H3)|H].
      * left. exists o2, (l :: newer), l2, older. split; [reflexivity|]. split; [exact H2|]. constructor; [|exact H3]. intros o'. rewrite E. congruence.
      * right. constructor; [|exact H]. intros o'. rewrite E. congruence.
  - destruct IH as [(o2 & newer & l2 & older & -> & H2 & H3)|H].
    + left. exists o2, (l :: newer), l2, older. split; [reflexivity|]. split; [exact H2|]. constructor; [|exact H3]. intros o'. rewrite E. congruence.
    + right. constructor; [|exact H]. intros o'. rewrite E. congruence.
Qed.

Section Open.
  Variable inflate : list Z -> option (list Z).
  Variable ccitt : list Z -> fparams -> res (list Z).
  Variables (D m : nat).
  (** no security handler *)
  Notation decrypt := (fun (_ _ : Z) (v : obj) => Ok v).
  Notation locate := (locate_object inflate ccitt decrypt D m).
  Notation iobj_of k := (reg_indirect inflate ccitt decrypt D m (length_hook (locate k))).

  Variable f : list Z.
  Hypothesis HD : (0 < D)%nat.
  Hypothesis Hm : 4 * zlen f + 8 <= Z.of_nat m.

  (** ---- opening ---- *)
  Section Trailer.
    Variable hook : dict -> prog rst dict.
    Lemma r_section_hook o l t : section_at f o l t ->
      exists q, runs f (table_section hook m) o (Ok (table_of l, t)) q.
    Proof.
      intros (pre & text & rest & Ef & Eo & HS). eexists. eapply r_section; eauto.
      - subst o. now apply At_start.
      - subst o. pose proof (zlen_nonneg pre). pose proof (zlen_nonneg f). unfold ofuel. lia.
    Qed.
    Lemma r_prev_hook : forall o ls t, Chain f o ls t ->
      forall k acc pos, 0 < o -> (List.length ls <= k)%nat ->
      exists q, runs f (prev_tables hook k m (OInt o) acc) pos (Ok (acc ++ map table_of ls)) q.
    Proof.
      induction 1 as [o l t HS HP|o l t p ls t' HS HP Hp HC IH]; intros k acc pos Ho Hk;
        (destruct k as [|k]; [cbn in Hk; lia|]); cbn [prev_tables truthy].
      - destruct (r_section_hook o l t HS) as [q Hq]. exists q.
        rewrite (proj2 (Z.eqb_neq o 0)) by lia. cbn [negb]. apply r_reset_to; [lia|].
        eapply runs_bind; [exact Hq|]. cbv beta iota. unfold oget. rewrite HP.
        destruct k; cbn [prev_tables truthy]; apply runs_ret.
      - destruct (r_section_hook o l t HS) as [q Hq].
        destruct (IH k (acc ++ [table_of l]) q Hp) as (q' & HR); [cbn in Hk; lia|]. exists q'.
        rewrite (proj2 (Z.eqb_neq o 0)) by lia. cbn [negb]. apply r_reset_to; [lia|].
        eapply runs_bind; [exact Hq|]. cbv beta iota. unfold oget. rewrite HP.
        rewrite <- app_assoc in HR. exact HR.
    Qed.
    Lemma r_trailer iobj o ls t k : offset_of f (Ok o) -> Chain f o ls t ->
      dget t (bs "xrefs") = None -> dget t (bs "self") = None -> (List.length ls <= k)%nat ->
      forall pos, exists q, runs f (pdf_trailer inflate ccitt hook iobj k m) pos (Ok (map table_of ls, t)) q.
    Proof.
      intros Hoff HC H1 H2 Hk pos.
      assert (exists q, runs f ('(x, t) <- table_section hook m ;;
              xs <- prev_tables hook k m (oget t (bs "Prev")) [x] ;; pdf_trailer_obj xs t) o (Ok (map table_of ls, t)) q /\
              is_cur (znth f o) 120 = true /\ 0 <= o) as (q & HR & Hx & Ho).
      { inversion HC as [o' l t' HS HP|o' l t' p ls' t'' HS HP Hp HC']; subst.
        - destruct (section_x _ _ _ _ HS) as [Hx Ho]. destruct (r_section_hook o l t HS) as [q Hq].
          exists q. split; [|auto]. eapply runs_bind; [exact Hq|]. cbv beta iota. unfold oget. rewrite HP.
          cbn [map]. eapply (runs_bind f _ _ q [table_of l] q); [destruct k; cbn [prev_tables truthy]; apply runs_ret|].
          unfold pdf_trailer_obj. rewrite H1, H2. apply runs_ret.
        - destruct (section_x _ _ _ _ HS) as [Hx Ho]. destruct (r_section_hook o l t HS) as [q Hq].
          destruct (r_prev_hook p ls' t'' HC' k [table_of l] q Hp) as (q' & HR); [cbn in Hk; lia|].
          exists q'. split; [|auto]. eapply runs_bind; [exact Hq|]. cbv beta iota. unfold oget. rewrite HP.
          eapply runs_bind; [exact HR|]. unfold pdf_trailer_obj. rewrite H1, H2. apply runs_ret. }
      exists q. intros st u. destruct (Hoff rst st u m pos Hm) as (q1 & ex1 & E1).
      unfold pdf_trailer. rewrite arun_bind, E1. cbn [reset bind arun a_store a_usr a_pos].
      unfold reset_pos. rewrite (proj2 (Z.leb_le 0 o)) by lia. cbn [cur bind arun a_pos]. rewrite Hx.
      destruct (HR (st ++ ex1) u) as [ex2 E2]. exists (ex1 ++ ex2). rewrite app_assoc. exact E2.
    Qed.
  End Trailer.

  Definition rst0 : rst := mkR [] None None [].
  Lemma opened k ver off o ls t : header_of f (Ok (ver, off)) -> 0 <= off ->
    offset_of f (Ok o) -> Chain f o ls t -> dget t (bs "xrefs") = None -> dget t (bs "self") = None -> (List.length ls <= k)%nat ->
    exists pos st h, arun f (open_document inflate ccitt decrypt D m k) (mkA 0 [] rst0) =
      (Ok (ver, off, t), mkA pos st (mkR [] (Some (map table_of ls)) (Some h) [])) /\ nth_error st h = Some off.
  Proof.
    intros Hh Ho Hoff HC H1 H2 Hk. destruct (Hh rst [] rst0) as [p0 E0].
    destruct (r_trailer (length_hook (locate k)) (iobj_of k) o ls t k Hoff HC H1 H2 Hk p0) as [q Hq].
    destruct (Hq [] rst0) as [ex E1].
    unfold open_document. rewrite arun_bind, E0. cbv beta iota zeta. rewrite arun_bind, E1.
    cbn [bind getu setu reset save arun a_usr a_pos a_store ret].
    unfold reset_pos. rewrite (proj2 (Z.leb_le 0 off)) by lia.
    do 3 eexists. split; [reflexivity|]. rewrite nth_error_app2 by lia. now rewrite Nat.sub_diag.
  Qed.

  (** ---- lookups ---- *)
  Variable content : contents.
  Hypothesis Hobj : forall num gen v, content num gen = Some v -> no_objstm v.
  Variable ls : list (list listed).
  Notation xs := (map table_of ls).
  Notation want := (denoted content).

  Definition Inv (u : rst) : Prop := r_xrefs u = Some xs /\ forall n g w, known u n g = Some w -> w = want n g.
  Definition frame (u u' : rst) : Prop := r_xrefs u' = r_xrefs u /\ r_bf u' = r_bf u /\ r_stack u' = r_stack u /\ grows u u'.
  Lemma frame_refl u : frame u u. Proof. repeat split; auto. apply grows_refl. Qed.
  Lemma frame_trans a b c : frame a b -> frame b c -> frame a c.
  Proof. intros (A1 & A2 & A3 & A4) (B1 & B2 & B3 & B4). repeat split; try congruence. eapply grows_trans; eauto. Qed.

  Lemma add_obj_ok u n g v : Inv u -> content n g = Some v ->
    Inv (add_obj u n g v) /\ frame u (add_obj u n g v) /\ known (add_obj u n g v) n g = Some v.
  Proof.
    intros [HX HI] Hc. unfold add_obj. destruct (is_registered (r_objs u) n g) eqn:E.
    - assert (known u n g = Some v) as HK.
      { unfold is_registered in E. unfold known. destruct (rget (r_objs u) n g) as [w|] eqn:Ew; [|discriminate].
        rewrite (HI n g w Ew). unfold denoted. now rewrite Hc. }
      split; [split; [exact HX|exact HI]|]. split; [repeat split; auto; apply extends_refl|exact HK].
    - split; [split; [exact HX|]|split; [repeat split; auto|]].
      + intros a b w. unfold known. cbn [with_objs r_objs]. rewrite rget_rset. destruct ((a =? n) && (b =? g)) eqn:Eab.
        * assert (a = n /\ b = g) as [-> ->] by (apply andb_true_iff in Eab; lia). intros H. inversion H; subst. unfold denoted. now rewrite Hc.
        * apply HI.
      + intros a b w Hw. cbn [with_objs r_objs]. rewrite rget_rset. destruct ((a =? n) && (b =? g)) eqn:Eab; [|exact Hw].
        assert (a = n /\ b = g) as [-> ->] by (apply andb_true_iff in Eab; lia). unfold is_registered in E. rewrite Hw in E. discriminate.
      + unfold known. cbn [with_objs r_objs]. now rewrite rget_rset, !Z.eqb_refl.
  Qed.

  (** sections that do not list the id with that generation are passed over *)
  Lemma table_get l k e : zget (x_inuse (table_of l)) k = Some e -> last_listed true k l = Some (e_gen e, e_off e).
  Proof.
    destruct (is_table_fold l) as (H & _). fold (table_of l) in H. rewrite (H k). destruct (last_listed true k l) as [[g o]|]; [|discriminate].
    intros E. inversion E. reflexivity.
  Qed.
  Lemma by_xref_skip loc iobj num gen : forall newer rest,
    Forall (fun l' => forall o', last_listed true num l' <> Some (gen, o')) newer ->
    by_xref loc iobj (map table_of newer ++ rest) num gen = by_xref loc iobj rest num gen.
  Proof.
    induction 1 as [|l newer Hl HF IH]; [reflexivity|]. cbn [map app by_xref].
    replace (x_comp (table_of l)) with (@nil (Z * xent)) by (symmetry; apply is_table_fold). cbn [zget].
    destruct (zget (x_inuse (table_of l)) num) as [e|] eqn:E; [|exact IH].
    destruct (e_gen e =? gen) eqn:Eg; [|exact IH]. exfalso. apply table_get in E. apply (Hl (e_off e)). rewrite E. do 2 f_equal. lia.
  Qed.

  (** reading one object that the document contains, given lookups of stream lengths *)
  Definition looks_up (loc : Z -> Z -> prog rst obj) : Prop := forall a b z p u, content a b = Some (OInt z) -> Inv u ->
    exists q, uruns f (loc a b) p u (Ok (OInt z)) q (add_obj u a b (OInt z)).
  Lemma u_hook loc d a b z p u q : dget d (bs "Length") = Some (ORef a b) ->
    uruns f (loc a b) p u (Ok (OInt z)) q (add_obj u a b (OInt z)) ->
    uruns f (length_hook loc d) p u (Ok (dset d (bs "Length") (OInt z))) p (add_obj u a b (OInt z)).
  Proof.
    intros Hd HL st. unfold length_hook. rewrite Hd. cbn [save bind arun a_pos a_store a_usr].
    destruct (HL (st ++ [p])) as [ex E]. rewrite arun_bind, E. exists ([p] ++ ex).
    cbn [restore bind arun a_store]. rewrite <- app_assoc, nth_error_app2 by lia. rewrite Nat.sub_diag. reflexivity.
  Qed.
  Lemma dget_dset d k v : dget (dset d k v) k = Some v.
  Proof. induction d as [|[k' w] d IH]; cbn [dset dget]; [now rewrite eqlZ_refl|]. destruct (eqlZ k k') eqn:E; cbn [dget]; now rewrite E. Qed.

  Definition read_state (u : rst) (n g : Z) (v : obj) (u' : rst) : Prop := Inv u' /\ frame u u' /\ known u' n g = Some v.
  Lemma u_register_ok u n g v p : content n g = Some v ->
    uruns f (do_register inflate ccitt D n g v) p u (Ok tt) p (add_obj u n g v).
  Proof.
    intros Hc. unfold do_register. apply uruns_getu. rewrite (register_no_objstm inflate ccitt (fun _ _ w => Ok w) D); [|exact HD|exact (Hobj n g v Hc)]. apply uruns_setu. apply uruns_ret.
  Qed.
  Lemma u_element loc n g v s rest p u : looks_up loc -> content n g = Some v -> ObjText content n g v s rest ->
    At f p (s ++ rest) -> Inv u ->
    exists u', uruns f (reg_indirect inflate ccitt decrypt D m (length_hook loc)) p u (Ok (n, g, v)) (p + zlen s) u' /\ read_state u n g v u'.
  Proof.
    intros HL Hc HT HA HI. assert (0 <= p) by apply HA. pose proof (zlen_nonneg f).
    destruct HT as [n g v s rest HT|n g a b d data s rest HT Hab].
    - destruct (add_obj_ok u n g v HI Hc) as (A1 & A2 & A3). exists (add_obj u n g v). split; [|split; auto].
      eapply r_iobj; eauto.
    - destruct HT as [ds1 s1 ds2 s2 s3 es s0 s sp' e data ws s4 rest a b Hh Hs0 Hsp He Heol Hw Hs4 Hd].
      set (d' := dset (dict_of es) (bs "Length") (OInt (zlen data))) in *.
      destruct (add_obj_ok u a b _ HI Hab) as (A1 & A2 & A3). set (u1 := add_obj u a b (OInt (zlen data))) in *.
      destruct (add_obj_ok u1 _ _ _ A1 Hc) as (B1 & B2 & B3).
      exists (add_obj u1 (dvalue ds1) (dvalue ds2) (OStream d' data)). split.
      2:{ split; auto. split; auto. eapply frame_trans; eauto. }
      unfold reg_indirect. eapply uruns_bind.
      + eapply (u_indirect f (length_hook loc) ds1 s1 ds2 s2 s3 es s0 s sp' e data ws s4 rest d' m p u u1); eauto.
        * apply dget_dset.
        * intros p1 Hp1. destruct (HL a b (zlen data) p1 u Hab HI) as [q1 Hq1]. eapply u_hook; eauto.
        * unfold ofuel. lia.
      + cbv beta iota. eapply uruns_bind; [apply u_register_ok; auto|apply uruns_ret].
  Qed.

  (** a lookup of a listed object, in terms of what reading it does *)
  Definition known_true (u : rst) (n g : Z) : bool := match known u n g with Some w => truthy w | None => false end.
  Lemma locate_gen k n g v o q u u' : newest ls n g o -> 0 <= o ->
    uruns f (iobj_of k) o u (Ok (n, g, v)) q u' -> Inv u -> content n g = Some v -> read_state u n g v u' ->
    forall p, exists q', uruns f (locate (S k) n g) p u (Ok v) q' (if known_true u n g then u else u').
  Proof.
    intros (newer & l & older & El & Hl & HN) Ho HU HI Hc HR p. pose proof HI as [HX HI2]. pose proof (zlen_nonneg f).
    assert (want n g = v) as Hw by (unfold denoted; now rewrite Hc).
    assert (uruns f (by_xref (locate k) (iobj_of k) xs n g) p u (Ok v) q u') as HB.
    { rewrite El, map_app, by_xref_skip by exact HN. cbn [map by_xref].
      destruct (is_table_fold l) as (HT1 & _). fold (table_of l) in HT1. rewrite (HT1 n), Hl. cbn [e_gen e_off]. rewrite Z.eqb_refl.
      eapply uruns_bind with (a := tt) (u1 := u').
      - apply uruns_catch_ok. apply uruns_reset. unfold reset_pos. rewrite (proj2 (Z.leb_le 0 o)) by lia.
        eapply uruns_bind; [exact HU|apply uruns_ret].
      - destruct HR as (_ & _ & HK). unfold registered. intros st0. exists []. cbn [bind getu ret arun a_usr]. unfold is_registered.
        unfold known in HK. rewrite HK. cbn. rewrite HK, app_nil_r. reflexivity. }
    cbn [locate_object].
    assert (forall v0, truthy v0 = false -> uruns f (if truthy v0 then ret v0 else
       match r_xrefs u with None => throw AttributeErr | Some xs => v <- by_xref (locate k) (iobj_of k) xs n g ;;
                if truthy v then ret v else brute_force inflate ccitt D m (iobj_of k) m n g ;;; reg_get n g end) p u (Ok v) q u') as HF.
    { intros v0 ->. rewrite HX. eapply uruns_bind; [exact HB|].
      destruct (truthy v); [apply uruns_ret|]. destruct HR as (_ & _ & HK').
      eapply uruns_bind with (a := tt).
      - intros st0. exists []. rewrite app_nil_r. destruct m as [|m']; [lia|]. eapply bf_known; eauto.
      - intros st0. exists []. cbn. unfold known in HK'. rewrite HK', app_nil_r. reflexivity. }
    unfold known_true. destruct (known u n g) as [w|] eqn:HK.
    - assert (w = v) as -> by (rewrite <- Hw; now apply HI2). destruct (truthy v) eqn:Et.
      + exists p. intros st0. exists []. rewrite app_nil_r. cbn [bind getu arun a_usr]. fold (known u n g). rewrite HK, Et. reflexivity.
      + exists q. intros st0. destruct (HF v Et st0) as [ex E]. exists ex. cbn [bind getu arun a_usr]. fold (known u n g). rewrite HK. exact E.
    - exists q. intros st0. destruct (HF ONull eq_refl st0) as [ex E]. exists ex. cbn [bind getu arun a_usr]. fold (known u n g). rewrite HK. exact E.
  Qed.

  Hypothesis Hlen : forall a b z, content a b = Some (OInt z) -> exists o, newest ls a b o /\ stands content f o a b (OInt z).
  Lemma int_text a b z s r : ObjText content a b (OInt z) s r -> IndObj a b (OInt z) s r.
  Proof. intros H. inversion H; auto. Qed.
  Lemma looks_up_S k : looks_up (locate (S k)).
  Proof.
    intros a b z p u Hc HI. destruct (Hlen a b z Hc) as (o & HN & pre & text & rest & Ef & Eo & HT).
    apply int_text in HT. subst o. pose proof (zlen_nonneg pre).
    assert (uruns f (iobj_of k) (zlen pre) u (Ok (a, b, OInt z)) (zlen pre + zlen text) (add_obj u a b (OInt z))) as HU.
    { eapply r_iobj; eauto. now apply At_start with (pre := pre). }
    destruct (locate_gen k a b (OInt z) (zlen pre) _ u _ HN ltac:(lia) HU HI Hc) with (p := p) as [q' Hq].
    { destruct (add_obj_ok u a b _ HI Hc) as (A1 & A2 & A3). split; auto. }
    exists q'. destruct (known_true u a b) eqn:E; [|exact Hq].
    assert (add_obj u a b (OInt z) = u) as ->; [|exact Hq].
    unfold known_true, known in E. unfold add_obj, is_registered. destruct (rget (r_objs u) a b); [|discriminate]. now destruct u.
  Qed.
  Lemma locate_listed k n g v o p u : content n g = Some v -> newest ls n g o -> stands content f o n g v -> Inv u ->
    exists q u', uruns f (locate (S (S k)) n g) p u (Ok v) q u' /\ read_state u n g v u'.
  Proof.
    intros Hc HN (pre & text & rest & Ef & Eo & HT) HI. pose proof (zlen_nonneg pre).
    destruct (u_element (locate (S k)) n g v text rest o u (looks_up_S k) Hc HT) as (u' & HU & HR); auto.
    { subst o. now apply At_start with (pre := pre). }
    destruct (locate_gen (S k) n g v o _ u u' HN ltac:(lia) HU HI Hc HR p) as [q' Hq].
    exists q'. eexists. split; [exact Hq|]. destruct (known_true u n g) eqn:E; [|exact HR].
    split; [exact HI|]. split; [apply frame_refl|]. unfold known_true in E. destruct (known u n g) as [w|] eqn:Ew; [|discriminate].
    f_equal. rewrite (proj2 HI n g w Ew). unfold denoted. now rewrite Hc.
  Qed.

  (** ---- (a) sessions on listed objects ---- *)
  Lemma session_listed k : (forall n g v, content n g = Some v -> exists o, newest ls n g o /\ stands content f o n g v) ->
    forall ids s, Inv (a_usr s) -> Forall (fun id => content (fst id) (snd id) <> None) ids ->
    fst (session inflate ccitt decrypt D m (S (S k)) f s ids) = map (fun id => Ok (want (fst id) (snd id))) ids.
  Proof.
    intros HA. induction ids as [|[n g] ids IH]; intros s HI HF; cbn [session map]; [reflexivity|].
    inversion HF as [|? ? Hid HF']; subst. cbn [fst snd] in *. destruct (content n g) as [v|] eqn:Ec; [|congruence].
    destruct (HA n g v Ec) as (o & HN & HS). destruct s as [p st u]. cbn [a_usr] in HI.
    destruct (locate_listed k n g v o p u Ec HN HS HI) as (q & u' & HU & HR). destruct (HU st) as [ex E]. rewrite E.
    specialize (IH (mkA q (st ++ ex) u') (proj1 HR) HF').
    destruct (session inflate ccitt decrypt D m (S (S k)) f (mkA q (st ++ ex) u') ids) as [vs s2]. cbn [fst] in *.
    unfold denoted at 1. rewrite Ec. now f_equal.
  Qed.

  (** ---- (b) sessions on any ids ---- *)
  (** what stands between the cursor of the body scan and the end of the body *)
  Definition behind (rest : list Z) (l : list (Z * Z * obj)) (p : Z) : Prop := exists ts, BodyText content l ts rest /\ At f p (ts ++ rest).
  Definition scan_state (rest : list Z) (l : list (Z * Z * obj)) (st : list Z) (u : rst) : Prop :=
    r_stack u = [] /\ exists h p, r_bf u = Some h /\ nth_error st h = Some p /\ behind rest l p.

  Lemma objtext_digit n g v t X : ObjText content n g v t X -> exists c t', t = c :: t' /\ is_digit c = true.
  Proof.
    intros [n0 g0 v0 s r H|n0 g0 a b d data s r H _]; [eapply ind_digit; eauto|].
    destruct H as [ds1 s1 ds2 s2 s3 es s0 s sp' e data ws s4 rest a b Hh Hs0 Hsp He Heol Hw Hs4 Hd].
    destruct Hh as (N1 & D1 & _). destruct ds1 as [|c t']; [congruence|]. inversion D1; subst. cbn [app ind_head]. eauto.
  Qed.
  Lemma bf_hit2 k pos st h p s n g v t X u j : nth_error st h = Some p -> (2 <= j)%nat ->
    At f p (s ++ t ++ X) -> Sep s -> ObjText content n g v t X -> content n g = Some v -> Inv u ->
    exists ex u', arun f (bf_tasks m (iobj_of (S k)) j [h] None) (mkA pos st u) =
                 (Ok None, mkA (p + zlen s + zlen t) (st ++ ex) u') /\ read_state u n g v u'.
  Proof.
    intros Hh Hk HA Hs HT Hc HI. pose proof (zlen_nonneg f) as HL. assert (0 <= p) as Hp by apply HA.
    destruct (objtext_digit _ _ _ _ _ HT) as (c & t' & Et & Hd).
    pose proof (At_app f p s (t ++ X) HA) as HA2.
    destruct (u_element (locate (S k)) n g v t X (p + zlen s) u (looks_up_S k) Hc HT HA2 HI) as (u' & HU & HR).
    destruct j as [|[|j]]; try lia. cbn [bf_tasks]. cbn [bind restore arun a_store a_usr]. rewrite Hh.
    assert (uruns f (sp m;;; (' ok <- catch (body_element m (iobj_of (S k));;; ret true) is_bfr (fun _ : exn => ret false);;
       (if ok : bool then ret None else skip_until_next m;;; (' h2 <- save;; bf_tasks m (iobj_of (S k)) (S j) [h2; h] (Some h2))))) p u (Ok None)
       (p + zlen s + zlen t) u') as HU2.
    { eapply uruns_bind.
      { apply uruns_of. apply (r_sp f s m p (t ++ X)); auto; [|unfold fuel; lia]. subst t. cbn [app].
        apply (digits_nosep [c] (t' ++ X)); [discriminate|repeat constructor; auto]. }
      eapply uruns_bind with (a := true); [|apply uruns_ret]. apply uruns_catch_ok. eapply uruns_bind; [|apply uruns_ret].
      unfold body_element. eapply u_cur; [exact HA2|]. rewrite Et. cbn [app hd_error p_digit]. rewrite Hd. rewrite <- Et.
      eapply uruns_bind; [exact HU|apply uruns_ret]. }
    destruct (HU2 st) as [ex E]. exists ex, u'. split; [exact E|exact HR].
  Qed.

  (** the scan finds the id, or reaches the end of the body *)
  Lemma scan2 k num gen : forall l rest,
    (forall c, hd_error rest = Some c -> is_digit c = false /\ c <> 115 /\ c <> 116) ->
    (forall n g v, In (n, g, v) l -> content n g = Some v) ->
    (forall v, content num gen = Some v -> In (num, gen, v) l) ->
    forall n pos st u, Inv u -> scan_state rest l st u -> known u num gen = None -> (List.length l + 4 <= n)%nat ->
    exists pos' st' u' l', arun f (brute_force inflate ccitt D m (iobj_of (S k)) n num gen) (mkA pos st u) = (Ok tt, mkA pos' st' u') /\
      known u' num gen = Some (want num gen) /\ Inv u' /\ scan_state rest l' st' u' /\
      (exists l0, l = l0 ++ l' /\ Forall (fun e => known u' (fst (fst e)) (snd (fst e)) <> None) l0) /\
      grows u u'.
  Proof.
    intros l rest Hc. induction l as [|[[n0 g0] v0] l IH]; intros Hin Hmem n pos st u HI (Hst & h & p & Hbf & Hh & ts & HB & HA) Hk Hn.
    - destruct n as [|[|n]]; cbn [List.length] in Hn; try lia.
      assert (content num gen = None) as HcN. { destruct (content num gen) as [v|] eqn:E; auto. exfalso. exact (Hmem v eq_refl). }
      inversion HB as [s rest' Hs Hr|]; subst.
      cbn [brute_force]. cbn [bind getu arun a_usr]. unfold is_registered. fold (known u num gen). rewrite Hk, Hst. cbn [on_stack existsb].
      set (u1 := mkR (r_objs u) (r_xrefs u) (r_bf u) [(num, gen)]).
      cbn [push bind getu arun a_usr]. cbn [setu bind arun a_usr a_pos a_store]. rewrite Hst. fold u1.
      destruct (bf_miss inflate ccitt decrypt D m f (locate (S k)) HD Hm pos st h p ts rest u1 (S n)) as [ex E]; auto; [lia|].
      set (u2 := with_objs u1 (rset (r_objs u) num gen ONull)).
      match goal with |- context [arun f (bind ?A ?B) ?S] => assert (arun f A S = (Ok false, mkA (p + zlen ts) (st ++ ex) u2)) as E2 end.
      { apply arun_catch_ok.
        assert (arun f (next_brute_force m (iobj_of (S k)) (S n);;; ret true) (mkA pos st u1) = (Err ParserExc, mkA (p + zlen ts) (st ++ ex) u1)) as E3.
        { rewrite arun_bind. unfold next_brute_force at 1. cbn [bind getu arun a_usr]. change (r_bf u1) with (r_bf u). rewrite Hbf.
          rewrite arun_bind, E. reflexivity. }
        rewrite (arun_catch_err f _ _ _ _ _ _ E3) by discriminate. cbn [is_parser_exc exn_eqb negb andb].
        unfold do_register. cbn [bind getu arun a_usr].
        rewrite (register_no_objstm inflate ccitt (fun _ _ w => Ok w) D); [|exact HD|intros d raw; discriminate].
        change (r_objs u1) with (r_objs u). unfold is_registered. fold (known u num gen). rewrite Hk. reflexivity. }
      rewrite arun_bind, E2. do 4 eexists. split; [reflexivity|].
      assert (forall a b, rget (rset (r_objs u) num gen ONull) a b = if (a =? num) && (b =? gen) then Some ONull else known u a b) as HR.
      { intros a b. rewrite rget_rset. reflexivity. }
      unfold known. cbn. rewrite HR, !Z.eqb_refl. cbn [andb].
      split; [unfold denoted; now rewrite HcN|]. split; [|split; [|split]].
      + split; [exact (proj1 HI)|]. intros a b w. unfold known. cbn. rewrite HR. destruct ((a =? num) && (b =? gen)) eqn:Eab.
        * assert (a = num /\ b = gen) as [-> ->] by (apply andb_true_iff in Eab; lia). intros X. inversion X. unfold denoted. now rewrite HcN.
        * apply (proj2 HI).
      + split; [reflexivity|]. exists h, p. split; [exact Hbf|]. split; [rewrite nth_error_app1; auto; apply nth_error_Some; congruence|].
        exists ts. split; [exact HB|exact HA].
      + exists []. split; [reflexivity|constructor].
      + intros a b w Hw. cbn. rewrite HR. destruct ((a =? num) && (b =? gen)) eqn:Eab; [|exact Hw].
        assert (a = num /\ b = gen) as [-> ->] by (apply andb_true_iff in Eab; lia). unfold known in Hk. congruence.
    - inversion HB as [|s n1 g1 v1 t l1 ts1 rest1 Hs HT HB1]; subst.
      destruct n as [|n]; cbn [List.length] in Hn; try lia.
      assert (content n0 g0 = Some v0) as Hc0 by (apply Hin; now left).
      cbn [brute_force]. cbn [bind getu arun a_usr]. unfold is_registered at 1. fold (known u num gen). rewrite Hk, Hst. cbn [on_stack existsb].
      set (u1 := mkR (r_objs u) (r_xrefs u) (r_bf u) [(num, gen)]).
      assert (Inv u1) as HI1 by exact HI.
      cbn [push bind getu arun a_usr]. cbn [setu bind arun a_usr a_pos a_store]. rewrite Hst. fold u1.
      repeat rewrite <- app_assoc in HA.
      destruct (bf_hit2 k pos st h p s n0 g0 v0 t (ts1 ++ rest) u1 n) as (ex & ue & E & HIe & (F1 & F2 & F3 & F4) & HKe); auto; [lia|].
      set (p1 := p + zlen s + zlen t) in *.
      set (h1 := List.length (st ++ ex)).
      set (u2 := mkR (r_objs ue) (r_xrefs u) (Some h1) [(num, gen)]).
      match goal with |- context [arun f (bind ?A ?B) ?S] => assert (arun f A S = (Ok true, mkA p1 ((st ++ ex) ++ [p1]) u2)) as E2 end.
      { apply arun_catch_ok. apply arun_catch_ok. rewrite arun_bind. unfold next_brute_force at 1. cbn [bind getu arun a_usr].
        change (r_bf u1) with (r_bf u). rewrite Hbf. rewrite arun_bind, E. cbn. rewrite F1, F3. reflexivity. }
      rewrite arun_bind, E2.
      set (u3 := mkR (r_objs ue) (r_xrefs u) (Some h1) []).
      change (arun f (pop;;; (if true then brute_force inflate ccitt D m (iobj_of (S k)) n num gen else ret tt)) (mkA p1 ((st ++ ex) ++ [p1]) u2))
        with (arun f (brute_force inflate ccitt D m (iobj_of (S k)) n num gen) (mkA p1 ((st ++ ex) ++ [p1]) u3)).
      assert (nth_error ((st ++ ex) ++ [p1]) h1 = Some p1) as Hh1.
      { unfold h1. rewrite nth_error_app2 by lia. now rewrite Nat.sub_diag. }
      assert (At f p1 (ts1 ++ rest)) as HA1.
      { unfold p1. apply At_app. apply (At_app f p s). exact HA. }
      assert (Inv u3) as HI3 by (split; [exact (proj1 HI)|exact (proj2 HIe)]).
      assert (scan_state rest l ((st ++ ex) ++ [p1]) u3) as HS3.
      { split; [reflexivity|]. exists h1, p1. split; [reflexivity|]. split; [exact Hh1|]. exists ts1. split; [exact HB1|exact HA1]. }
      destruct (known u3 num gen) as [w|] eqn:HK3.
      + destruct n as [|n]; [lia|].
        do 4 eexists. split; [apply (bf_known inflate ccitt decrypt D m f (locate (S k)) n num gen p1 _ u3 w HK3)|].
        split; [rewrite HK3; f_equal; now apply (proj2 HI3)|]. split; [exact HI3|]. split; [exact HS3|].
        split; [|exact F4]. exists [(n0, g0, v0)]. split; [reflexivity|]. constructor; [|constructor]. cbn [fst snd]. 
        change (known u3 n0 g0) with (known ue n0 g0). congruence.
      + assert (forall v, content num gen = Some v -> In (num, gen, v) l) as Hmem'.
        { intros v Hv. destruct (Hmem v Hv) as [X|X]; auto. exfalso. inversion X; subst. change (known u3 num gen) with (known ue num gen) in HK3. congruence. }
        destruct (IH (fun a b w X => Hin a b w (or_intror X)) Hmem' n p1 _ u3 HI3 HS3 HK3 ltac:(lia)) as (pos' & st' & u' & l' & E' & K' & I' & S' & (l0 & -> & FA) & G').
        exists pos', st', u', l'. split; [exact E'|]. split; [exact K'|]. split; [exact I'|]. split; [exact S'|].
        split; [|eapply grows_trans; [exact F4|exact G']].
        exists ((n0, g0, v0) :: l0). split; [reflexivity|]. constructor; [|exact FA]. cbn [fst snd].
        unfold known. rewrite (G' n0 g0 v0 HKe). discriminate.
  Qed.

  (** ids no table lists: the registry, then the scan *)
  Lemma by_xref_none loc iobj num gen : Forall (fun l' => forall o', last_listed true num l' <> Some (gen, o')) ls ->
    by_xref loc iobj xs num gen = reg_get num gen.
  Proof. intros H. rewrite <- (app_nil_r xs). rewrite by_xref_skip by exact H. reflexivity. Qed.

  Lemma locate_unlisted k num gen l rest pos st u :
    Forall (fun l' => forall o', last_listed true num l' <> Some (gen, o')) ls ->
    (forall c, hd_error rest = Some c -> is_digit c = false /\ c <> 115 /\ c <> 116) ->
    (forall n g v, In (n, g, v) l -> content n g = Some v) ->
    (forall v, content num gen = Some v -> known u num gen = None -> In (num, gen, v) l) ->
    Inv u -> scan_state rest l st u -> (List.length l + 4 <= m)%nat ->
    exists pos' st' u' l', arun f (locate (S (S k)) num gen) (mkA pos st u) = (Ok (want num gen), mkA pos' st' u') /\
      Inv u' /\ scan_state rest l' st' u' /\
      (exists l0, l = l0 ++ l' /\ Forall (fun e => known u' (fst (fst e)) (snd (fst e)) <> None) l0) /\ grows u u'.
  Proof.
    intros HN Hc Hin Hmem HI HS Hn.
    change (locate (S (S k)) num gen) with (locate_object inflate ccitt decrypt D m (S (S k)) num gen). cbn [locate_object].
    cbn [bind getu arun a_usr]. fold (known u num gen).
    destruct (known u num gen) as [w|] eqn:HK.
    - assert (w = want num gen) as Hw by now apply (proj2 HI). rewrite <- Hw. destruct (truthy w) eqn:Et.
      + exists pos, st, u, l. split; [reflexivity|]. split; [exact HI|]. split; [exact HS|]. split; [exists []; split; [reflexivity|constructor]|apply grows_refl].
      + rewrite (proj1 HI). 
        rewrite by_xref_none by exact HN. cbn [reg_get bind getu ret arun a_usr]. fold (known u num gen). rewrite HK, Et.
        rewrite arun_bind.
        assert (arun f (brute_force inflate ccitt D m (iobj_of (S k)) m num gen) (mkA pos st u) = (Ok tt, mkA pos st u)) as EB.
        { assert (forall j, (0 < j)%nat -> arun f (brute_force inflate ccitt D m (iobj_of (S k)) j num gen) (mkA pos st u) = (Ok tt, mkA pos st u)) as HJ.
          { intros [|j] Hj; [lia|]. apply (bf_known inflate ccitt decrypt D m f (locate (S k)) j num gen pos st u w HK). }
          apply HJ. lia. }
        match type of EB with ?A = _ => match goal with |- context [arun f (brute_force inflate ccitt D m ?X m num gen) ?S] => change (arun f (brute_force inflate ccitt D m X m num gen) S) with A end end.
        rewrite EB. exists pos, st, u, l. split; [cbn; fold (known u num gen); rewrite HK; reflexivity|].
        split; [exact HI|]. split; [exact HS|]. split; [exists []; split; [reflexivity|constructor]|apply grows_refl].
    - rewrite (proj1 HI). rewrite by_xref_none by exact HN. cbn [truthy reg_get bind getu ret arun a_usr]. fold (known u num gen). rewrite HK. cbn [truthy].
      rewrite arun_bind.
      destruct (scan2 k num gen l rest Hc Hin (fun v Hv => Hmem v Hv eq_refl) m pos st u HI HS HK Hn) as (pos' & st' & u' & l' & E' & K' & I' & S' & F' & G').
      match type of E' with ?A = _ => match goal with |- context [arun f (brute_force inflate ccitt D m ?X m num gen) ?S] => change (arun f (brute_force inflate ccitt D m X m num gen) S) with A end end.
      rewrite E'. exists pos', st', u', l'. split; [cbn; fold (known u' num gen); rewrite K'; reflexivity|].
      split; [exact I'|]. split; [exact S'|]. split; [exact F'|exact G'].
  Qed.

  Lemma session_any k lall rest : listings_right content f ls ->
    (forall c, hd_error rest = Some c -> is_digit c = false /\ c <> 115 /\ c <> 116) ->
    (forall n g v, In (n, g, v) lall <-> content n g = Some v) -> (List.length lall + 4 <= m)%nat ->
    forall ids l0 l s, lall = l0 ++ l -> Forall (fun e => known (a_usr s) (fst (fst e)) (snd (fst e)) <> None) l0 ->
    Inv (a_usr s) -> scan_state rest l (a_store s) (a_usr s) ->
    fst (session inflate ccitt decrypt D m (S (S k)) f s ids) = map (fun id => Ok (want (fst id) (snd id))) ids.
  Proof.
    intros HLR Hc Hall Hn. induction ids as [|[n g] ids IH]; intros l0 l s El HF HI HS; cbn [session map]; [reflexivity|].
    destruct s as [p st u]. cbn [a_usr a_store] in *. cbn [fst snd].
    assert (exists p' st' u' l1 l', arun f (locate (S (S k)) n g) (mkA p st u) = (Ok (want n g), mkA p' st' u') /\
      lall = l1 ++ l' /\ Forall (fun e => known u' (fst (fst e)) (snd (fst e)) <> None) l1 /\ Inv u' /\ scan_state rest l' st' u') as
      (p' & st' & u' & l1 & l' & E & El' & HF' & HI' & HS').
    { destruct (newest_or_none ls n g) as [(o & HN)|HN].
      - destruct (HLR n g o HN) as (v & Hv & HSt).
        destruct (locate_listed k n g v o p u Hv HN HSt HI) as (q & u' & HU & HIu & (F1 & F2 & F3 & F4) & HKu). destruct (HU st) as [ex E].
        exists q, (st ++ ex), u', l0, l. split; [rewrite E; unfold denoted; now rewrite Hv|]. split; [exact El|].
        split; [|split; [exact HIu|]].
        + eapply Forall_impl; [|exact HF]. intros e He. destruct (known u (fst (fst e)) (snd (fst e))) as [w|] eqn:Ew; [|congruence].
          unfold known. rewrite (F4 _ _ _ Ew). discriminate.
        + destruct HS as (S1 & h & p0 & S2 & S3 & S4). split; [congruence|]. exists h, p0. split; [congruence|]. split; [|exact S4].
          rewrite nth_error_app1; auto. apply nth_error_Some. congruence.
      - assert (forall a b w, In (a, b, w) l -> content a b = Some w) as Hin.
        { intros a b w X. apply Hall. rewrite El. apply in_or_app. now right. }
        assert (forall v, content n g = Some v -> known u n g = None -> In (n, g, v) l) as Hmem.
        { intros v Hv HK. apply Hall in Hv. rewrite El in Hv. apply in_app_or in Hv. destruct Hv as [X|X]; auto. exfalso.
          rewrite Forall_forall in HF. apply (HF _ X). exact HK. }
        assert (List.length l + 4 <= m)%nat as Hn' by (rewrite El, app_length in Hn; lia).
        destruct (locate_unlisted k n g l rest p st u HN Hc Hin Hmem HI HS Hn') as (p' & st' & u' & l' & E & I' & S' & (l2 & -> & F2) & G').
        exists p', st', u', (l0 ++ l2), l'. split; [exact E|]. split; [rewrite El, app_assoc; reflexivity|].
        split; [|split; [exact I'|exact S']]. apply Forall_app. split; [|exact F2].
        eapply Forall_impl; [|exact HF]. intros e He. destruct (known u (fst (fst e)) (snd (fst e))) as [w|] eqn:Ew; [|congruence].
        unfold known. rewrite (G' _ _ _ Ew). discriminate. }
    rewrite E. specialize (IH l1 l' (mkA p' st' u') El' HF' HI' HS').
    destruct (session inflate ccitt decrypt D m (S (S k)) f (mkA p' st' u') ids) as [vs s2]. cbn [fst] in *. now f_equal.
  Qed.
End Open.

(** ---- the theorems ---- *)
Lemma body_length content l ts rest : BodyText content l ts rest -> (List.length l <= List.length ts)%nat.
Proof.
  induction 1 as [|s n0 g0 v0 t l ts rest Hs HI HB IH]; cbn [List.length]; [lia|].
  destruct (objtext_digit _ _ _ _ _ _ HI) as (c & t' & -> & _). rewrite !app_length. cbn [List.length]. lia.
Qed.
Notation no_decrypt := (fun (_ _ : Z) (v : obj) => Ok v).

(** C76 (a).  Any file whose header, startxref and chain of tables are found: it opens, and any sequence
    of lookups of objects that stand where the newest listing says gives exactly those objects. *)
Theorem C76_listed_objects : forall inflate ccitt f ver off o ls t content,
  header_of f (Ok (ver, off)) -> offset_of f (Ok o) -> Chain f o ls t ->
  dget t (bs "xrefs") = None -> dget t (bs "self") = None ->
  all_listed content f ls -> (forall num gen v, content num gen = Some v -> no_objstm v) ->
  forall D m k, (0 < D)%nat -> 4 * zlen f + 8 <= Z.of_nat m -> (List.length ls <= k)%nat ->
  exists s, arun f (open_document inflate ccitt no_decrypt D m k) (mkA 0 [] rst0) = (Ok (ver, off, t), s) /\
  forall k' ids, (2 <= k')%nat -> Forall (fun id => content (fst id) (snd id) <> None) ids ->
    fst (session inflate ccitt no_decrypt D m k' f s ids) = map (fun id => Ok (denoted content (fst id) (snd id))) ids.
Proof.
  intros inflate ccitt f ver off o ls t content Hh Hoff HC H1 H2 HA HO D m k HD Hm Hk.
  destruct (C16_header_sound f ver off Hh) as (e & _ & Ho & _).
  destruct (opened inflate ccitt D m f HD Hm k ver off o ls t Hh Ho Hoff HC H1 H2 Hk) as (pos & st & h & E & Hst).
  eexists. split; [exact E|]. intros k' ids Hk' HF. destruct k' as [|[|k']]; try lia.
  apply (session_listed inflate ccitt D m f HD Hm content HO ls (fun a b z X => HA a b (OInt z) X) k' HA ids); auto.
  split; [reflexivity|]. cbn. discriminate.
Qed.

(** C76 (b).  If moreover the tables and the body agree - the body, from the header on, consists of the
    document's objects, and every in-use listing leads to one - then lookups of any ids, in any order,
    listed, unlisted or missing, give the object with that id, or null. *)
Theorem C76_any_objects : forall inflate ccitt f ver pre body rest o ls t content l,
  f = pre ++ body ++ rest -> header_of f (Ok (ver, zlen pre)) -> offset_of f (Ok o) -> Chain f o ls t ->
  dget t (bs "xrefs") = None -> dget t (bs "self") = None ->
  BodyText content l body rest -> (forall c, hd_error rest = Some c -> is_digit c = false /\ c <> 115 /\ c <> 116) ->
  (forall n g v, In (n, g, v) l <-> content n g = Some v) ->
  listings_right content f ls -> (forall a b z, content a b = Some (OInt z) -> exists o, newest ls a b o) ->
  (forall num gen v, content num gen = Some v -> no_objstm v) ->
  forall D m k, (0 < D)%nat -> 4 * zlen f + 8 <= Z.of_nat m -> (List.length ls <= k)%nat ->
  exists s, arun f (open_document inflate ccitt no_decrypt D m k) (mkA 0 [] rst0) = (Ok (ver, zlen pre, t), s) /\
  forall k' ids, (2 <= k')%nat ->
    fst (session inflate ccitt no_decrypt D m k' f s ids) = map (fun id => Ok (denoted content (fst id) (snd id))) ids.
Proof.
  intros inflate ccitt f ver pre body rest o ls t content l Ef Hh Hoff HC H1 H2 HB Hc Hall HLR Hints HO D m k HD Hm Hk.
  pose proof (zlen_nonneg pre) as Hp.
  destruct (opened inflate ccitt D m f HD Hm k ver (zlen pre) o ls t Hh Hp Hoff HC H1 H2 Hk) as (pos & st & h & E & Hst).
  eexists. split; [exact E|]. intros k' ids Hk'. destruct k' as [|[|k']]; try lia.
  apply (session_any inflate ccitt D m f HD Hm content HO ls) with (lall := l) (rest := rest) (l0 := []) (l := l); auto.
  - intros a b z X. destruct (Hints a b z X) as [o' Ho']. exists o'. split; [exact Ho'|].
    destruct (HLR a b o' Ho') as (v & Hv & HS). rewrite X in Hv. injection Hv as <-. exact HS.
  - pose proof (body_length _ _ _ _ HB) as HL. unfold zlen in Hm. rewrite Ef, !app_length in Hm. lia.
  - split; [reflexivity|]. cbn. discriminate.
  - split; [reflexivity|]. exists h, (zlen pre). split; [reflexivity|]. split; [exact Hst|].
    exists body. split; [exact HB|]. now apply At_start with (pre := pre).
Qed.
Print Assumptions C76_listed_objects.
Print Assumptions C76_any_objects.
