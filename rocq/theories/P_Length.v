(** C80: streams whose Length is an object that no table lists. *)
From Coq Require Import String.
From Verif Require Import Prelude M_Prog M_Parser S_Syntax L_Buffer L_Prog L_ParserWP L_Syntax L_Syntax2 S_Print L_Print
  S_Stream L_Stream M_Filters M_Document S_Document L_Document L_Registry P_IndObj
  S_Xref L_Xref P_Header P_StartXref P_Xref P_Locate S_Open P_Open S_Write P_Write L_ModWrite L_Leads S_Length L_Length.
Local Open Scope Z_scope.
Local Open Scope prog_scope.

Lemma lenbody_length content ls l ts rest : LenBody content ls l ts rest -> (List.length l <= List.length ts)%nat.
Proof.
  induction 1 as [|s n g v t l ts rest Hs HI HB IH|s n g a b o d data t l ts rest Hs HT Hab HN HB IH|s n g a b d data t l ts rest Hs HT Hun HB IH]; cbn [List.length]; [lia| | |].
  - destruct (ind_digit _ _ _ _ _ HI) as (c & t' & -> & _). rewrite !app_length. cbn [List.length]. lia.
  - destruct (len_digit _ _ _ _ _ _ _ _ HT) as (c & t' & -> & _). rewrite !app_length. cbn [List.length]. lia.
  - destruct (len_digit _ _ _ _ _ _ _ _ (clean_len _ _ _ _ _ _ _ _ HT)) as (c & t' & -> & _). rewrite !app_length. cbn [List.length] in *. lia.
Qed.

(** C80 (a).  If every stream that gives its Length as a reference refers to an integer object that a
    table lists or that is the next object in the file, lookups of any ids, in any order, give the object
    with that id - streams with exactly their data and the integer as Length - or null. *)
Theorem C80_lengths_found : forall inflate ccitt f ver pre body rest o ls t content l,
  f = pre ++ body ++ rest -> header_of f (Ok (ver, zlen pre)) -> offset_of f (Ok o) -> Chain f o ls t ->
  dget t (bs "xrefs") = None -> dget t (bs "self") = None ->
  LenBody content ls l body rest -> (forall c, hd_error rest = Some c -> is_digit c = false /\ c <> 115 /\ c <> 116) ->
  (forall n g v, In (n, g, v) l <-> content n g = Some v) ->
  listings_right content f ls -> (forall num gen v, content num gen = Some v -> no_objstm v) ->
  forall D m k, (0 < D)%nat -> 4 * zlen f + 8 <= Z.of_nat m -> (List.length ls <= k)%nat ->
  exists s, arun f (open_document inflate ccitt no_decrypt D m k) (mkA 0 [] rst0) = (Ok (ver, zlen pre, t), s) /\
  forall k' ids, (4 <= k')%nat ->
    fst (session inflate ccitt no_decrypt D m k' f s ids) = map (fun id => Ok (denoted content (fst id) (snd id))) ids.
Proof.
  intros inflate ccitt f ver pre body rest o ls t content l Ef Hh Hoff HC H1 H2 HB Hc Hall HLR HO D m k HD Hm Hk.
  pose proof (zlen_nonneg pre) as Hp.
  destruct (opened inflate ccitt D m f HD Hm k ver (zlen pre) o ls t Hh Hp Hoff HC H1 H2 Hk) as (pos & st & h & E & Hst).
  eexists. split; [exact E|]. intros k' ids Hk'. do 4 (destruct k' as [|k']; [lia|]).
  apply (session_len inflate ccitt D m f HD Hm content HO ls HLR rest Hc l Hall).
  - pose proof (lenbody_length _ _ _ _ _ HB) as HL. unfold zlen in Hm. rewrite Ef, !app_length in Hm. lia.
  - split; [split; [reflexivity|cbn; discriminate]|]. split; [reflexivity|]. exists l. split; [apply scanned_refl|].
    exists h, (zlen pre). split; [reflexivity|]. split; [exact Hst|].
    exists body. split; [exact HB|]. now apply At_start with (pre := pre).
Qed.
Print Assumptions C80_lengths_found.

(** ---- written files ---- *)
Lemma sep_nl : Sep [10]. Proof. apply Sep_ws; [reflexivity|constructor]. Qed.
Lemma dset_last d k v w : dget d k = None -> dset (d ++ [(k, v)]) k w = d ++ [(k, w)].
Proof.
  induction d as [|[k' x] d IH]; cbn [app dget dset]; [now rewrite eqlZ_refl|]. destruct (eqlZ k k') eqn:E; [discriminate|]. intros H. now rewrite IH.
Qed.
Lemma no_eo_sp : ~ has (bs "endobj") [32].
Proof. intros (a & b & E). apply (f_equal (@List.length Z)) in E. rewrite !app_length in E. cbn in E. lia. Qed.
Lemma deferred_text n g d data a b rest : 0 <= n -> 0 <= g -> 0 <= a -> 0 <= b -> printable (ODict d) -> dget d (bs "Length") = None -> ~ has (bs "endobj") data ->
  CleanStream n g a b (d ++ [(bs "Length", ORef a b)]) data (object_text n g (OStream (d ++ [(bs "Length", ORef a b)]) data)) rest.
Proof.
  intros Hn Hg Ha Hb Hd HL He. set (dl := d ++ [(bs "Length", ORef a b)]).
  assert (printable (ODict dl)) as Hdl.
  { apply printable_app; [exact Hd| |].
    - split; [repeat constructor; cbn; intuition|]. cbn. unfold bytes_ok, byte_ok. repeat split; auto; repeat constructor; lia.
    - apply Forall_forall. intros k Hk. cbn [dget]. destruct (eqlZ k (bs "Length")) eqn:E; [|reflexivity]. apply eqlZ_eq in E. subst k. apply dget_none_in in HL. contradiction. }
  destruct (dec_ok n Hn) as (E1 & _). destruct (dec_ok g Hg) as (E2 & _).
  destruct (entries_ser dl ([32] ++ bs "stream" ++ [10] ++ data ++ [10] ++ bs "endstream" ++ [32] ++ bs "endobj" ++ rest) Hdl) as [HS HE].
  pose proof (CS (dec n) [32] (dec g) [32] [32] dl [] (entries_text dl) [32] [10] data [10] [32] rest a b (ind_head_dec n g Hn Hg)) as H.
  rewrite E1, E2, HE in H.
  replace (object_text n g (OStream dl data)) with (ind_head (dec n) [32] (dec g) [32] [32] ++ stream_text [] (entries_text dl) [32] [10] data [10] ++ [32] ++ bs "endobj").
  - apply H; auto using sep_sp1, no_eo_sp.
    + constructor.
    + left; left; reflexivity.
    + repeat constructor.
    + unfold dl. rewrite dget_app by exact HL. now rewrite eqlZ_refl.
  - unfold object_text, ind_head, stream_text. cbn [value_text]. change (bs ">> stream") with (62 :: 62 :: [32] ++ bs "stream"). change (bs "<<") with [60; 60].
    repeat (rewrite <- ?app_assoc; cbn [app]). reflexivity.
Qed.

Lemma items_app (sel : Z -> bool) : forall items start n g o, last_listed true n (item_listings sel start items) = Some (g, o) ->
  exists it i1 i2, items = i1 ++ it :: i2 /\ item_id it = (n, g) /\ o = start + zlen (flat_map item_text i1).
Proof.
  induction items as [|it items IH]; intros start n g o; cbn [item_listings]; [discriminate|].
  assert (last_listed true n (item_listings sel (start + zlen (item_text it)) items) = Some (g, o) ->
    exists it' i1 i2, it :: items = i1 ++ it' :: i2 /\ item_id it' = (n, g) /\ o = start + zlen (flat_map item_text i1)) as Later.
  { intros H. destruct (IH _ _ _ _ H) as (it' & i1 & i2 & -> & E2 & ->). exists it', (it :: i1), i2. split; [reflexivity|]. split; [exact E2|].
    cbn [flat_map]. rewrite zlen_app. lia. }
  destruct (sel (fst (item_id it))); cbn [app]; [|exact Later]. cbn [last_listed].
  destruct (last_listed true n (item_listings sel (start + zlen (item_text it)) items)) as [y|] eqn:E; [exact Later|].
  cbn [li_num li_used li_gen li_off Bool.eqb]. destruct (fst (item_id it) =? n) eqn:En; [|discriminate]. cbn [andb]. intros H. injection H as <- <-.
  exists it, [], items. split; [reflexivity|]. split; [destruct (item_id it); cbn [fst snd] in *; f_equal; lia|]. cbn [flat_map]. change (zlen []) with 0. lia.
Qed.
Lemma item_id_in it : exists v, In (item_id it, v) (item_objs it).
Proof. destruct it; cbn [item_id item_objs In]; eauto. Qed.
Lemma nodup_cut {A B} (h : A -> B) l1 x l2 y : NoDup (map h (l1 ++ x :: l2)) -> In y (l1 ++ l2) -> h x <> h y.
Proof.
  intros H Hy E. rewrite map_app in H. cbn [map] in H. apply NoDup_remove_2 in H. apply H. rewrite E, <- map_app. now apply in_map.
Qed.

Section Written.
  Variables (a b : Z) (sel : Z -> bool) (items : list item) (t : dict).
  Hypothesis (Ha : is_digit a = true) (Hb : is_digit b = true) (Hok : items_ok items t).
  Hypothesis Hlt : zlen (deferred_file a b sel items t) < 10 ^ 10.
  Notation f := (deferred_file a b sel items t).
  Notation objs := (flat_map item_objs items).
  Notation content := (find_obj objs).
  Notation start := (zlen (version_line a b)).
  Definition lst : list listed := item_listings sel start items.
  Definition sec : list Z := section_text lst t ++ end_text (start + zlen (flat_map item_text items)).
  Lemma f_eq : f = version_line a b ++ flat_map item_text items ++ sec.
  Proof. reflexivity. Qed.
  Lemma content_in n g v : In (n, g, v) objs <-> content n g = Some v.
  Proof. destruct Hok as (_ & ND & _). now apply find_In. Qed.

  Lemma length_unlisted n g d data x y : In (Deferred n g d data x y) items -> forall o, ~ newest [lst] x y o.
  Proof.
    intros Hin o (newer & l' & older & E1 & E2 & _). destruct newer as [|z newer]; [|destruct newer; discriminate]. injection E1 as <- <-.
    destruct (items_app sel items start x y o E2) as (it & i1 & i2 & Ei & Eid & _).
    destruct Hok as (_ & ND & _). destruct (item_id_in it) as [v Hv]. rewrite Eid in Hv.
    assert (In (x, y, OInt (zlen data)) (item_objs (Deferred n g d data x y))) as Hx by (cbn [item_objs In]; auto).
    (* the item with that id is not the one with that length *)
    apply in_split in Hin. destruct Hin as (j1 & j2 & Ej).
    assert (forall e1 e2, In e1 objs -> In e2 objs -> fst (fst e1) = fst (fst e2) -> e1 = e2) as Uniq.
    { intros e1 e2 H1 H2 E. apply in_split in H1. destruct H1 as (l1 & l2 & El). rewrite El in ND, H2. apply in_app_or in H2.
      destruct H2 as [H2|[H2|H2]]; [|exact H2|]; exfalso; apply (nodup_cut (fun e : Z * Z * obj => fst (fst e)) l1 e1 l2 e2 ND); auto; apply in_or_app; auto. }
    assert (In (x, y, v) objs) as I1 by (apply in_flat_map; exists it; rewrite Ei; split; [apply in_or_app; right; now left|exact Hv]).
    assert (In (x, y, OInt (zlen data)) objs) as I2 by (apply in_flat_map; eexists; rewrite Ej; split; [apply in_or_app; right; left; reflexivity|exact Hx]).
    assert (v = OInt (zlen data)) as -> by (pose proof (Uniq _ _ I1 I2 eq_refl) as X; now injection X).
    (* so it is a whole integer object, or that very stream: both impossible *)
    rewrite Ej, flat_map_app in ND. cbn [flat_map item_objs app] in ND. rewrite map_app in ND. cbn [map fst] in ND.
    rewrite Ej in Ei. apply app_split in Ei. destruct Ei as [(e & E3 & E4)|(e & He & E3 & E4)].
    - destruct e as [|e0 e].
      + cbn [app] in E4. injection E4 as -> _. cbn [item_id] in Eid. injection Eid as -> ->. apply NoDup_remove_2 in ND. apply ND. apply in_or_app. right. now left.
      + injection E4 as <- E4. assert (In (x, y, OInt (zlen data)) (flat_map item_objs j1)) as I3.
        { rewrite E3. apply in_flat_map. exists it. split; [apply in_or_app; right; now left|exact Hv]. }
        apply (in_map (fun e : Z * Z * obj => fst (fst e))) in I3. cbn [fst] in I3. apply NoDup_remove in ND. destruct ND as [ND _].
        apply NoDup_remove_2 in ND. apply ND. apply in_or_app. now left.
    - destruct e as [|e0 e]; [congruence|]. injection E4 as <- E4. destruct e as [|e1 e].
      + cbn [app] in E4. assert (In (x, y, OInt (zlen data)) (flat_map item_objs j2)) as I3 by (rewrite E4; cbn [flat_map]; apply in_or_app; now left).
        apply (in_map (fun e : Z * Z * obj => fst (fst e))) in I3. cbn [fst] in I3. apply NoDup_remove in ND. destruct ND as [ND _].
        apply NoDup_remove_2 in ND. apply ND. apply in_or_app. now right.
      + assert (In (x, y, OInt (zlen data)) (flat_map item_objs j2)) as I3.
        { rewrite E4. apply in_flat_map. exists it. split; [apply in_or_app; right; now left|exact Hv]. }
        apply (in_map (fun e : Z * Z * obj => fst (fst e))) in I3. cbn [fst] in I3. apply NoDup_remove in ND. destruct ND as [ND _].
        apply NoDup_remove_2 in ND. apply ND. apply in_or_app. now right.
  Qed.
  Lemma body_written : forall its s, (forall it, In it its -> In it items) -> Sep s ->
    match its with [] => LenBody content [lst] [] s sec
                 | _ => LenBody content [lst] (flat_map item_objs its) (s ++ flat_map item_text its) sec end.
  Proof.
    destruct Hok as (HF & _). rewrite Forall_forall in HF.
    induction its as [|it its IH]; intros s Hin Hs; [now constructor|].
    assert (LenBody content [lst] (flat_map item_objs its) ([10] ++ flat_map item_text its) sec) as HR.
    { specialize (IH [10] (fun i X => Hin i (or_intror X)) sep_nl). destruct its; [rewrite app_nil_r|]; exact IH. }
    specialize (HF it (Hin it (or_introl eq_refl))). destruct it as [n g v|n g d data x y]; cbn [flat_map item_text item_objs app] in *.
    - destruct HF as (A & B & C). rewrite <- app_assoc. apply LB_direct; auto. apply object_text_ok; auto. lia.
    - destruct HF as (A & B & A2 & B2 & C1 & C2 & C3 & C4). rewrite <- !app_assoc.
      pose proof (LB_next content [lst] s n g x y (d ++ [(bs "Length", ORef x y)]) data (object_text n g (OStream (d ++ [(bs "Length", ORef x y)]) data)) (flat_map item_objs its)
        ([10] ++ object_text x y (OInt (zlen data)) ++ [10] ++ flat_map item_text its) sec Hs) as H.
      unfold with_length in H. rewrite dset_last in H by exact C2. cbn [app] in *. rewrite <- ?app_assoc. cbn [app]. apply H.
      + apply deferred_text; auto. lia.
      + apply (length_unlisted n g d data x y). apply Hin. now left.
      + apply (LB_direct content [lst] [10] x y (OInt (zlen data)) (object_text x y (OInt (zlen data)))); [apply sep_nl|apply object_text_ok; auto; exact I|exact HR].
  Qed.
  Lemma key_printable d v : printable (ODict d) -> dget d (bs "Length") = None -> printable v -> printable (ODict (d ++ [(bs "Length", v)])).
  Proof.
    intros Hd HL Hv. apply printable_app; [exact Hd| |].
    - split; [repeat constructor; cbn; intuition|]. cbn. unfold bytes_ok, byte_ok. repeat split; auto; repeat constructor; lia.
    - apply Forall_forall. intros k Hk. cbn [dget]. destruct (eqlZ k (bs "Length")) eqn:E; [|reflexivity]. apply eqlZ_eq in E. subst k. apply dget_none_in in HL. contradiction.
  Qed.
  Lemma objs_written n g v : content n g = Some v -> 0 <= n /\ 0 <= g /\ writable v.
  Proof.
    intros Hv. apply content_in in Hv. apply in_flat_map in Hv. destruct Hv as (it & Hit & Hv).
    destruct Hok as (HF & _). rewrite Forall_forall in HF. specialize (HF it Hit).
    destruct it as [n0 g0 v0|n0 g0 d data x y]; cbn [item_objs item_ok In] in *.
    - destruct Hv as [Hv|[]]. injection Hv as <- <- <-. destruct HF as (A & B & C). repeat split; auto; lia.
    - destruct HF as (A & B & A2 & B2 & C1 & C2 & C3 & C4). destruct Hv as [Hv|[Hv|[]]].
      + assert (n = n0 /\ g = g0 /\ v = OStream (d ++ [(bs "Length", OInt (zlen data))]) data) as (-> & -> & ->) by (repeat split; congruence).
        split; [exact A|]. split; [lia|]. split; [apply key_printable; auto; exact I|]. split.
        * rewrite dget_app by exact C2. now rewrite eqlZ_refl.
        * destruct (dget d (bs "Type")) as [w|] eqn:Ew.
          -- rewrite (dget_app2 d _ (bs "Type")), Ew. exact C3.
          -- rewrite dget_app by exact Ew. discriminate.
      + assert (n = x /\ g = y /\ v = OInt (zlen data)) as (-> & -> & ->) by (repeat split; congruence). repeat split; auto.
  Qed.
  Lemma items_fit : forall its s, (forall it, In it its -> In it items) -> 0 <= s -> s + zlen (flat_map item_text its) < 10 ^ 10 -> fits (item_listings sel s its).
  Proof.
    destruct Hok as (HF & _). rewrite Forall_forall in HF.
    induction its as [|it its IH]; intros s Hin Hs Hl; [constructor|]. cbn [item_listings flat_map] in *. rewrite zlen_app in Hl.
    pose proof (zlen_nonneg (item_text it)). pose proof (zlen_nonneg (flat_map item_text its)).
    apply Forall_app. split; [|apply IH; auto; [intros i X; apply Hin; now right|lia|lia]].
    destruct (sel (fst (item_id it))); constructor; [|constructor]. cbn [li_num li_gen li_off].
    specialize (HF it (Hin it (or_introl eq_refl))). destruct it; cbn [item_ok item_id fst snd] in *; lia.
  Qed.
  Lemma sizes : 0 <= start /\ start + zlen (flat_map item_text items) < 10 ^ 10 /\ 22 <= zlen f.
  Proof.
    rewrite f_eq in *. unfold sec in *. rewrite !zlen_app in *. pose proof (zlen_nonneg (version_line a b)). pose proof (zlen_nonneg (flat_map item_text items)).
    unfold section_text, end_text in *. rewrite !zlen_app in *.
    repeat match goal with H : context [zlen (bs ?x)] |- _ => let n := eval vm_compute in (zlen (bs x)) in change (zlen (bs x)) with n in H end.
    repeat match goal with |- context [zlen (bs ?x)] => let n := eval vm_compute in (zlen (bs x)) in change (zlen (bs x)) with n end.
    change (zlen [10]) with 1 in *. pose proof (zlen_nonneg (flat_map row_text lst)). pose proof (zlen_nonneg (entries_text t)).
    pose proof (zlen_nonneg (dec (start + zlen (flat_map item_text items)))). lia.
  Qed.
  Lemma listed_right : listings_right content f [lst].
  Proof.
    intros n g o (newer & l' & older & E1 & E2 & _). destruct newer as [|z newer]; [|destruct newer; discriminate]. injection E1 as <- <-.
    destruct (items_app sel items start n g o E2) as (it & i1 & i2 & Ei & Eid & Eo).
    destruct Hok as (HF & _). rewrite Forall_forall in HF.
    assert (In it items) as Hit by (rewrite Ei; apply in_or_app; right; now left). specialize (HF it Hit).
    destruct it as [n0 g0 v0|n0 g0 d data x y]; cbn [item_id item_ok] in *; injection Eid as -> ->.
    - exists v0. split; [apply content_in, in_flat_map; eexists; split; [exact Hit|now left]|].
      exists (version_line a b ++ flat_map item_text i1), (object_text n g v0), ([10] ++ flat_map item_text i2 ++ sec).
      split; [rewrite f_eq, Ei, flat_map_app; cbn [flat_map item_text]; now rewrite <- !app_assoc|]. split; [rewrite zlen_app; exact Eo|].
      apply OT_direct. apply object_text_ok; [lia|lia|apply HF].
    - destruct HF as (A & B & A2 & B2 & C1 & C2 & C3 & C4).
      eexists. split; [apply content_in, in_flat_map; eexists; split; [exact Hit|now left]|].
      exists (version_line a b ++ flat_map item_text i1), (object_text n g (OStream (d ++ [(bs "Length", ORef x y)]) data)),
        ([10] ++ object_text x y (OInt (zlen data)) ++ [10] ++ flat_map item_text i2 ++ sec).
      split; [rewrite f_eq, Ei, flat_map_app; cbn [flat_map item_text]; now rewrite <- !app_assoc|]. split; [rewrite zlen_app; exact Eo|].
      rewrite <- (dset_last d (bs "Length") (ORef x y)) by exact C2. apply OT_length with (a := x) (b := y).
      + eapply clean_len. apply deferred_text; auto. lia.
      + apply content_in, in_flat_map. eexists. split; [exact Hit|]. right. now left.
  Qed.
  Lemma written_chain : Chain f (start + zlen (flat_map item_text items)) [lst] t.
  Proof.
    destruct sizes as (S1 & S2 & S3). destruct Hok as (HF & ND & HP & H1 & H2 & H3). apply Ch_last; [|exact H1].
    exists (version_line a b ++ flat_map item_text items), (section_text lst t), (end_text (start + zlen (flat_map item_text items))).
    split; [rewrite f_eq; unfold sec; now rewrite <- !app_assoc|]. split; [now rewrite zlen_app|].
    apply section_ok; [|exact HP]. apply items_fit; auto.
  Qed.
  Lemma version_sep : Sep (version_line a b).
  Proof.
    unfold version_line. replace (bs "%PDF-" ++ [a; 46; b] ++ [10]) with (37 :: (bs "PDF-" ++ [a; 46; b]) ++ [10] ++ []) by reflexivity.
    apply (Sep_comment (bs "PDF-" ++ [a; 46; b]) [10] []); [|left; reflexivity|constructor].
    unfold is_digit in Ha, Hb. repeat constructor; cbn; lia.
  Qed.
End Written.

(** C80 (b).  A writer that puts each stream's Length into the object after the stream, and leaves these
    objects (and any others it likes) out of the table: every lookup, in any order, gives what was written. *)
Theorem C80_written : forall inflate ccitt a b sel items t,
  is_digit a = true -> is_digit b = true -> items_ok items t -> zlen (deferred_file a b sel items t) < 10 ^ 10 ->
  forall D m k, (0 < D)%nat -> 4 * zlen (deferred_file a b sel items t) + 8 <= Z.of_nat m -> (1 <= k)%nat ->
  exists s, arun (deferred_file a b sel items t) (open_document inflate ccitt no_decrypt D m k) (mkA 0 [] rst0) = (Ok ([a; 46; b], 0, t), s) /\
  forall k' ids, (4 <= k')%nat ->
    fst (session inflate ccitt no_decrypt D m k' (deferred_file a b sel items t) s ids) =
    map (fun id => Ok (match find_obj (flat_map item_objs items) (fst id) (snd id) with Some v => v | None => ONull end)) ids.
Proof.
  intros inflate ccitt a b sel items t Ha Hb Hok Hlt D m k HD Hm Hk.
  pose proof Hok as (_ & _ & _ & _ & K2 & K3).
  destruct (sizes a b sel items t Ha Hb Hlt) as (S1 & S2 & S3). pose proof (zlen_nonneg (flat_map item_text items)) as Hz.
  assert (exists body, LenBody (find_obj (flat_map item_objs items)) [lst a b sel items] (flat_map item_objs items) body (sec a b sel items t) /\
    deferred_file a b sel items t = [] ++ body ++ sec a b sel items t) as (body & HB & Ef).
  { pose proof (body_written a b sel items t Ha Hb Hok items (version_line a b) (fun it X => X) (version_sep a b Ha Hb)) as HB.
    exists (version_line a b ++ flat_map item_text items). split; [|rewrite f_eq; now rewrite <- app_assoc].
    revert HB. generalize (find_obj (flat_map item_objs items)) (lst a b sel items) (sec a b sel items t). clear. intros. destruct items; [rewrite app_nil_r|]; exact HB. }
  assert (header_of (deferred_file a b sel items t) (Ok ([a; 46; b], zlen (@nil Z)))) as Hh by (eapply header_written; [exact Ha|exact Hb|apply f_eq|exact S3]).
  assert (offset_of (deferred_file a b sel items t) (Ok (zlen (version_line a b) + zlen (flat_map item_text items)))) as Hoff.
  { rewrite f_eq. unfold sec. rewrite !app_assoc. apply offset_written. lia. }
  destruct (C80_lengths_found inflate ccitt (deferred_file a b sel items t) [a; 46; b] [] body (sec a b sel items t) _ [lst a b sel items] t
    (find_obj (flat_map item_objs items)) (flat_map item_objs items) Ef Hh Hoff (written_chain a b sel items t Ha Hb Hok Hlt) K2 K3 HB) with (D := D) (m := m) (k := k) as (s & E & HS); auto.
  - intros c X. inversion X. repeat split; discriminate.
  - intros n g v. eapply content_in. exact Hok.
  - apply listed_right; auto.
  - intros n g v Hv. destruct (objs_written a b items t Ha Hb Hok n g v Hv) as (A & B & C). apply (object_text_ok n g v [] A B C).
  - exists s. split; [exact E|]. exact HS.
Qed.
Print Assumptions C80_written.

(** ---- the other case: the next object is another one ---- *)
Section Hang.
  Variable inflate : list Z -> option (list Z).
  Variable ccitt : list Z -> fparams -> res (list Z).
  Variables (D m : nat) (f : list Z).
  Hypothesis HD : (0 < D)%nat.
  Hypothesis Hm : 4 * zlen f + 8 <= Z.of_nat m.
  Variable ls : list (list listed).
  Notation none := (fun _ _ : Z => @None obj).
  Notation locate := (locate_object inflate ccitt no_decrypt D m).
  Notation iobj_of k := (reg_indirect inflate ccitt no_decrypt D m (length_hook (locate k))).
  Lemma none_ok : forall num gen v, none num gen = Some v -> no_objstm v.
  Proof. discriminate. Qed.
  Variables (p : Z) (s t s2 t2 X : list Z) (n g a b n2 g2 : Z) (d : dict) (data : list Z) (v2 : obj).
  Hypothesis (HA : At f p (s ++ t ++ s2 ++ t2 ++ X)) (Hs : Sep s) (HT : CleanStream n g a b d data t (s2 ++ t2 ++ X)) (Hs2 : Sep s2)
    (HI : IndObj n2 g2 v2 t2 X) (Hv : no_objstm v2) (Hne : (n2, g2) <> (a, b)) (Hun : forall o, ~ newest ls a b o).

  Definition stuck (u : rst) : Prop := known u a b = None /\ on_stack (r_stack u) a b = true /\ r_xrefs u = Some (map table_of ls).
  Lemma stuck_add u : stuck u -> stuck (add_obj u n2 g2 v2).
  Proof.
    intros (A & B & C). unfold add_obj. destruct (is_registered (r_objs u) n2 g2); [repeat split; auto; now destruct u|].
    repeat split; auto. unfold known. cbn [with_objs r_objs]. rewrite rget_rset. destruct ((a =? n2) && (b =? g2)) eqn:E; [|exact A].
    exfalso. apply Hne. apply andb_true_iff in E. f_equal; lia.
  Qed.
  Lemma tasks_hang k : forall j pos st u h dp, nth_error st h = Some p -> stuck u ->
    (exists s', arun f (bf_tasks m (iobj_of (S k)) j [h] dp) (mkA pos st u) = (Err OutOfFuel, s')) /\
    (forall h2, nth_error st h2 = Some (p + zlen s + zlen t + zlen s2) ->
      exists s', arun f (bf_tasks m (iobj_of (S k)) j [h2; h] dp) (mkA pos st u) = (Err OutOfFuel, s')).
  Proof.
    destruct (len_digit _ _ _ _ _ _ _ _ (clean_len _ _ _ _ _ _ _ _ HT)) as (c & t' & Et & Hc). destruct (ind_digit _ _ _ _ _ HI) as (c2 & t2' & Et2 & Hc2).
    pose proof (At_app f p s _ HA) as HA1. pose proof (At_app f _ t _ HA1) as HA2. pose proof (At_app f _ s2 _ HA2) as HA3.
    assert (nosep (t2 ++ X)) as Hns. { rewrite Et2. apply (digits_nosep [c2] (t2' ++ X)); [discriminate|repeat constructor; auto]. }
    assert (At f p (s ++ c :: t' ++ s2 ++ t2 ++ X)) as HAc by (rewrite Et in HA; exact HA).
    induction j as [|j IH]; intros pos st u h dp Hh Hu; [split; [|intros h2 Hh2]; eexists; reflexivity|].
    split; [|intros h2 Hh2].
    - destruct (read_bfr inflate ccitt D m f HD Hm none none_ok (locate (S k)) n g a b d data t s2 (t2 ++ X) (p + zlen s) u HT Hs2 Hns) as (q & HB & HSk); auto.
      { intros p1. destruct Hu as (A & B & C). apply (locate_bfr inflate ccitt D m f HD Hm none none_ok ls); auto. }
      destruct (bf_slide inflate ccitt D m f HD Hm none none_ok (iobj_of (S k)) pos st h p s c _ u j [] dp q _ Hh HAc Hs Hc HB HSk) as [ex1 E1].
      rewrite E1. apply IH; [apply ext_nth, ext_nth, Hh|exact Hu|]. rewrite nth_error_app2 by lia. now rewrite Nat.sub_diag.
    - assert (At f (p + zlen s + zlen t + zlen s2) ([] ++ c2 :: t2' ++ X)) as HA3c by (cbn [app]; rewrite Et2 in HA3; exact HA3).
      set (q2 := p + zlen s + zlen t + zlen s2) in *.
      assert (uruns f (iobj_of (S k)) (q2 + zlen (@nil Z)) u (Ok (n2, g2, v2)) (q2 + zlen (@nil Z) + zlen t2) (add_obj u n2 g2 v2)) as HR2.
      { eapply r_iobj; eauto. change (zlen (@nil Z)) with 0. rewrite Z.add_0_r. exact HA3. }
      destruct (bf_ok inflate ccitt D m f HD Hm none none_ok (iobj_of (S k)) pos st h2 q2 [] c2 (t2' ++ X) u j [h] dp _ _ _ Hh2 HA3c ltac:(constructor) Hc2 HR2) as [ex2 E2].
      rewrite E2. apply IH; [apply ext_nth, Hh|now apply stuck_add].
  Qed.
  Lemma locate_hangs k pos st h : nth_error st h = Some p ->
    fst (arun f (locate (S (S k)) a b) (mkA pos st (mkR [] (Some (map table_of ls)) (Some h) []))) = Err OutOfFuel.
  Proof.
    intros Hh. set (u := mkR [] (Some (map table_of ls)) (Some h) []). pose proof (zlen_nonneg f) as Hf. destruct m as [|m'] eqn:Em; [lia|]. rewrite <- Em in *.
    change (locate (S (S k)) a b) with (locate_object inflate ccitt no_decrypt D m (S (S k)) a b). cbn [locate_object].
    cbn [bind getu arun a_usr r_objs r_xrefs u rget]. cbn [truthy].
    rewrite (pass_none inflate ccitt D m f HD none none_ok ls) by exact Hun. cbn [reg_get bind getu ret arun a_usr r_objs rget truthy u].
    rewrite arun_bind.
    set (u1 := mkR [] (Some (map table_of ls)) (Some h) [(a, b)]).
    assert (stuck u1) as Hu1. { repeat split; auto. cbn. now rewrite !Z.eqb_refl. }
    destruct (tasks_hang k m' pos st u1 h None Hh Hu1) as [(s' & E) _].
    assert (exists s', arun f (brute_force inflate ccitt D m (iobj_of (S k)) m a b) (mkA pos st u) = (Err OutOfFuel, s')) as (s'' & E2).
    { assert (forall j, j = S m' -> exists s', arun f (brute_force inflate ccitt D m (iobj_of (S k)) j a b) (mkA pos st u) = (Err OutOfFuel, s')) as G; [|apply (G m Em)].
      intros j ->. cbn [brute_force]. cbn [bind getu arun a_usr r_objs rget is_registered u on_stack existsb r_stack].
      cbn [push bind getu arun a_usr]. cbn [setu bind arun a_usr a_pos a_store r_objs r_xrefs r_bf r_stack u]. fold u1.
      match goal with |- context [arun f (bind ?A ?B) ?S] => assert (arun f A S = (Err OutOfFuel, s')) as E2 end.
      { rewrite (arun_catch_err f _ _ _ _ OutOfFuel s'); [reflexivity| |discriminate].
        rewrite (arun_catch_err f _ _ _ _ OutOfFuel s'); [reflexivity| |discriminate].
        rewrite arun_bind. unfold next_brute_force at 1. cbn [bind getu arun a_usr r_bf u1]. rewrite arun_bind. fold u1. rewrite E. reflexivity. }
      eexists. rewrite arun_bind, E2. reflexivity. }
    match type of E2 with ?A = _ => match goal with |- context [arun f (brute_force inflate ccitt D m ?X m a b) ?S] => change (arun f (brute_force inflate ccitt D m X m a b) S) with A end end.
    rewrite E2. reflexivity.
  Qed.
End Hang.

(** C80 (c).  If the first object of the file is such a stream, its length object is listed nowhere and
    the next object is another one, looking up the length object never ends: whatever number of steps is
    allowed, they are used up. *)
Theorem C80_other_next_hangs : forall inflate ccitt f ver pre s t s2 t2 X o ls tr n g a b d data n2 g2 v2,
  f = pre ++ s ++ t ++ s2 ++ t2 ++ X -> header_of f (Ok (ver, zlen pre)) -> offset_of f (Ok o) -> Chain f o ls tr ->
  dget tr (bs "xrefs") = None -> dget tr (bs "self") = None ->
  Sep s -> CleanStream n g a b d data t (s2 ++ t2 ++ X) -> Sep s2 -> IndObj n2 g2 v2 t2 X -> no_objstm v2 ->
  (n2, g2) <> (a, b) -> (forall o', ~ newest ls a b o') ->
  forall D m k, (0 < D)%nat -> 4 * zlen f + 8 <= Z.of_nat m -> (List.length ls <= k)%nat ->
  exists st, arun f (open_document inflate ccitt no_decrypt D m k) (mkA 0 [] rst0) = (Ok (ver, zlen pre, tr), st) /\
  forall k', (2 <= k')%nat -> fst (arun f (locate_object inflate ccitt no_decrypt D m k' a b) st) = Err OutOfFuel.
Proof.
  intros inflate ccitt f ver pre s t s2 t2 X o ls tr n g a b d data n2 g2 v2 Ef Hh Hoff HC H1 H2 Hs HT Hs2 HI Hv Hne Hun D m k HD Hm Hk.
  pose proof (zlen_nonneg pre) as Hp.
  destruct (opened inflate ccitt D m f HD Hm k ver (zlen pre) o ls tr Hh Hp Hoff HC H1 H2 Hk) as (pos & st & h & E & Hst).
  eexists. split; [exact E|]. intros k' Hk'. do 2 (destruct k' as [|k']; [lia|]).
  assert (At f (zlen pre) (s ++ t ++ s2 ++ t2 ++ X)) as HA by (apply At_start; exact Ef).
  apply (locate_hangs inflate ccitt D m f HD Hm ls (zlen pre) s t s2 t2 X n g a b n2 g2 d data v2 HA Hs HT Hs2 HI Hv Hne Hun k' pos st h Hst).
Qed.
Print Assumptions C80_other_next_hangs.

(** A file that meets the hypotheses of (b): a stream whose Length 6 0 follows it, and which no table
    lists, then two more objects of which one is listed. *)
Definition ex_items : list item :=
  [Deferred 5 0 [] (bs "BT (endob) Tj ET") 6 0;
   Whole 1 0 (ODict [(bs "Pages", ORef 2 0)]);
   Deferred 2 0 [(bs "Type", OName (bs "X"))] (bs "endstream") 3 0].
Definition only_one (n : Z) : bool := n =? 1.
Lemma has_bound w x : has w x -> exists k, (k <= List.length x)%nat /\ firstn (List.length w) (skipn k x) = w.
Proof.
  intros (a & b & ->). exists (List.length a). split; [rewrite app_length; lia|].
  rewrite skipn_app, skipn_all, Nat.sub_diag. cbn [skipn app]. rewrite firstn_app, Nat.sub_diag, firstn_all. cbn [firstn]. apply app_nil_r.
Qed.
Ltac no_has := let H := fresh in intros H; apply has_bound in H; destruct H as (k & Hk & E); vm_compute in Hk;
  do 20 (destruct k as [|k]; [vm_compute in E; discriminate E|]); lia.
Example ex_items_ok : items_ok ex_items [(bs "Root", ORef 1 0)] /\ zlen (deferred_file 49 55 only_one ex_items [(bs "Root", ORef 1 0)]) < 10 ^ 10.
Proof.
  split; [|vm_compute; reflexivity]. split; [|split; [|split; [|split; [reflexivity|split; reflexivity]]]].
  - repeat (apply Forall_cons; [|]); try apply Forall_nil; cbn [item_ok].
    + repeat split; try lia; try reflexivity; try (cbn; discriminate); [constructor|no_has].
    + repeat split; try lia; cbn; repeat constructor; cbn; intuition; unfold byte_ok; try lia.
    + split; [lia|]. split; [lia|]. split; [lia|]. split; [lia|]. split; [|split; [reflexivity|split; [cbn; discriminate|no_has]]].
      repeat split; cbn; repeat constructor; cbn; intuition; unfold byte_ok; try lia.
  - cbn [ex_items flat_map item_objs app map fst]. repeat (constructor; [cbn; lia|]). constructor.
  - repeat split; cbn; repeat constructor; cbn; intuition; unfold byte_ok; try lia.
Qed.
(** and one for (c): the same stream, but object 1 comes between it and object 6 *)
Definition ex_stream : list Z := object_text 5 0 (OStream [(bs "Length", ORef 6 0)] (bs "BT ET")).
Definition ex_hang_body : list Z := [10] ++ object_text 1 0 (OInt 7) ++ [10] ++ object_text 6 0 (OInt 5) ++ [10].
Definition ex_hang_start : Z := zlen (version_line 49 55 ++ ex_stream ++ ex_hang_body).
Definition ex_hang : list Z := version_line 49 55 ++ ex_stream ++ ex_hang_body ++ section_text [] [(bs "Root", ORef 1 0)] ++ end_text ex_hang_start.
Example ex_hang_ok : exists X,
  ex_hang = [] ++ version_line 49 55 ++ ex_stream ++ [10] ++ object_text 1 0 (OInt 7) ++ X /\
  header_of ex_hang (Ok ([49; 46; 55], zlen (@nil Z))) /\ offset_of ex_hang (Ok ex_hang_start) /\ Chain ex_hang ex_hang_start [[]] [(bs "Root", ORef 1 0)] /\
  Sep (version_line 49 55) /\ CleanStream 5 0 6 0 [(bs "Length", ORef 6 0)] (bs "BT ET") ex_stream ([10] ++ object_text 1 0 (OInt 7) ++ X) /\ Sep [10] /\
  IndObj 1 0 (OInt 7) (object_text 1 0 (OInt 7)) X /\ (1, 0) <> (6, 0) /\ (forall o', ~ newest [[]] 6 0 o').
Proof.
  eexists. split; [|split; [|split; [|split; [|split; [|split; [|split; [|split; [|split]]]]]]]].
  - unfold ex_hang, ex_hang_body. cbn [app]. rewrite <- !app_assoc. cbn [app]. reflexivity.
  - eapply (header_written 49 55 ex_hang); [reflexivity|reflexivity|unfold ex_hang; reflexivity|vm_compute; discriminate].
  - unfold ex_hang. rewrite !app_assoc. apply offset_written. vm_compute. discriminate.
  - apply Ch_last; [|reflexivity]. exists (version_line 49 55 ++ ex_stream ++ ex_hang_body), (section_text [] [(bs "Root", ORef 1 0)]), (end_text ex_hang_start).
    split; [unfold ex_hang; now rewrite <- !app_assoc|]. split; [reflexivity|]. apply section_ok; [constructor|].
    repeat split; cbn; repeat constructor; cbn; intuition; unfold byte_ok; try lia.
  - apply version_sep; reflexivity.
  - apply (deferred_text 5 0 []); try lia; try reflexivity; [repeat constructor|no_has].
  - apply sep_nl.
  - apply object_text_ok; try lia. exact I.
  - discriminate.
  - intros o' (newer & l' & older & E1 & E2 & _). destruct newer as [|z newer]; [|destruct newer; discriminate]. injection E1 as <- <-. discriminate.
Qed.
