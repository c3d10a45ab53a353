(** C89: documents saved by incremental updates are shown as they are now. *)
From Coq Require Import String.
From Verif Require Import Prelude M_Prog M_Buffer S_Buffer L_Prog M_Parser M_Filters M_Document M_Objects S_Objects P_Objects P_Pages M_Viewer S_Viewer S_Syntax S_Stream S_Print L_Print S_Document P_Locate P_Open S_Write P_Write
  M_Decoder M_App M_Nav P_Content L_App3 S_App L_AppText L_App P_App S_Canvas S_Page P_View S_Blocks P_Blocks S_Xref S_Freed P_Freed.
Local Open Scope Z_scope.

(** [revs], newest first; the objects of the document are the newest of each id ([current], S_Write.v).  The viewer asks for no
    other id: over lookups that do not answer those, it shows every page of the document as it is now. *)
Theorem C89_updated_file : forall real_str python python_decode inflate ccitt cid a b revs ps pages,
  is_digit a = true -> is_digit b = true -> revs <> [] -> Forall rev_ok revs -> zlen (file_of a b revs) < 10 ^ 10 ->
  let o := current revs in let t := trailer_of_file a b revs in
  Document o t ps -> ps <> [] -> Forall2 (page_is o inflate python) ps pages ->
  forall D m k, (0 < D)%nat -> 4 * zlen (file_of a b revs) + 8 <= Z.of_nat m -> (List.length revs <= k)%nat ->
  exists s, arun (file_of a b revs) (open_document inflate ccitt no_decrypt D m k) (mkA 0 [] rst0) = (Ok ([a; 46; b], 0, t), s) /\
  (forall k' ids vs, (2 <= k')%nat -> map (fun id => o (fst id) (snd id)) ids = map Some vs ->
     fst (session inflate ccitt no_decrypt D m k' (file_of a b revs) s ids) = map Ok vs) /\
  viewer_over real_str python python_decode inflate ccitt cid o t (fun cs => Forall2 (drawn_as o inflate python) pages cs).
Proof.
  intros real_str python python_decode inflate ccitt cid a b revs ps pages Ha Hb Hr HF Hlt o t HD Hne HP D m k H1 H2 H3.
  destruct (C76_written_documents inflate ccitt a b revs Ha Hb Hr HF Hlt D m k H1 H2 H3) as (s & E & HS). exists s. split; [exact E|]. split.
  - intros k' ids vs Hk Hv. apply somes_inj. rewrite (HS k' ids Hk).
    + clear - Hv. revert vs Hv. induction ids as [|id ids IH]; intros [|v vs] Hv; cbn [map] in *; try discriminate; [reflexivity|]. injection Hv as Hv Hvs. unfold o in Hv. rewrite Hv. f_equal. now apply IH.
    + clear - Hv. revert vs Hv. induction ids as [|id ids IH]; intros [|v vs] Hv; cbn [map] in *; try discriminate; constructor; injection Hv as Hv Hvs; [unfold o in Hv; rewrite Hv; discriminate|eauto].
  - exact (C85_viewer o inflate python python_decode ccitt cid real_str t ps pages HD Hne HP).
Qed.
(** The same through the buffer, for every block size. *)
Theorem C89_updated_blocks : forall real_str python python_decode inflate ccitt cid a b revs ps pages B, 0 < B ->
  is_digit a = true -> is_digit b = true -> revs <> [] -> Forall rev_ok revs -> zlen (file_of a b revs) < 10 ^ 10 ->
  let o := current revs in let t := trailer_of_file a b revs in
  Document o t ps -> ps <> [] -> Forall2 (page_is o inflate python) ps pages ->
  forall D m k, (0 < D)%nat -> 4 * zlen (file_of a b revs) + 8 <= Z.of_nat m -> (List.length revs <= k)%nat ->
  exists c, crun (file_of a b revs) B (open_document inflate ccitt no_decrypt D m k) (mkC (b_reset (file_of a b revs) B 0) [] rst0) = (Ok ([a; 46; b], 0, t), c) /\
  (forall k' ids vs, (2 <= k')%nat -> map (fun id => o (fst id) (snd id)) ids = map Some vs ->
     fst (buffered_session inflate ccitt no_decrypt D m k' B (file_of a b revs) c ids) = map Ok vs) /\
  viewer_over real_str python python_decode inflate ccitt cid o t (fun cs => Forall2 (drawn_as o inflate python) pages cs).
Proof.
  intros real_str python python_decode inflate ccitt cid a b revs ps pages B HB Ha Hb Hr HF Hlt o t HD Hne HP D m k H1 H2 H3.
  destruct (C89_updated_file real_str python python_decode inflate ccitt cid a b revs ps pages Ha Hb Hr HF Hlt HD Hne HP D m k H1 H2 H3) as (s & E & HS & HV).
  assert (ends_properly (file_of a b revs)) as He by (destruct revs; [congruence|apply file_ends]).
  destruct (C88_open_document inflate ccitt no_decrypt D m k _ B _ s HB He H2 E) as (c & C & _ & HC). exists c. split; [exact C|]. split; [|exact HV].
  intros k' ids vs Hk Hv. rewrite (proj1 (HC no_decrypt D m k' ids)). now apply HS.
Qed.

(** ---- A document of one page, then an update that replaces its content and adds a second page. ---- *)
Definition u_c (s : string) : list citem := [COp (bs "BT") []; COp (bs "Tj") [OStr (bs s)]; COp (bs "ET") []].
Definition u_stream (s : string) : obj := OStream [(bs "Length", OInt (zlen (content_text (u_c s))))] (content_text (u_c s)).
Definition u_page (c : Z) : dict := [(bs "Type", OName (bs "Page")); (bs "Parent", ORef 2 0); (bs "Contents", ORef c 0)].
Definition u_node (kids : list obj) : dict := [(bs "Type", OName (bs "Pages")); (bs "Kids", OArr kids); (bs "Count", OInt (zlen kids))].
Definition u_old : revision :=
  mkRev [(1, 0, ODict [(bs "Type", OName (bs "Catalog")); (bs "Pages", ORef 2 0)]); (2, 0, ODict (u_node [ORef 3 0])); (3, 0, ODict (u_page 5)); (5, 0, u_stream "draft")]
        [(bs "Root", ORef 1 0); (bs "Size", OInt 6)].
Definition u_new : revision :=
  mkRev [(2, 0, ODict (u_node [ORef 3 0; ORef 4 0])); (4, 0, ODict (u_page 6)); (5, 0, u_stream "final"); (6, 0, u_stream "more")]
        [(bs "Root", ORef 1 0); (bs "Size", OInt 7)].
Example u_ok : Forall rev_ok [u_new; u_old].
Proof.
  assert (forall s, forallb (fun c => (0 <=? c) && (c <? 256)) s = true -> bytes_ok s) as Hb.
  { intros s H. rewrite forallb_forall in H. apply Forall_forall. intros c Hc. specialize (H c Hc). unfold byte_ok. lia. }
  constructor; [|constructor; [|constructor]];
  unfold rev_ok, u_old, u_new, u_stream, u_page, u_node; cbn [rv_objs rv_trailer map fst snd writable printable fold_right];
  wr; first [apply Hb; reflexivity | reflexivity | discriminate | (vm_compute; discriminate) | idtac].
Qed.
Lemma u_page_is (o : Z -> Z -> option obj) c s inflate python kids : forallb (fun c => (0 <=? c) && (c <? 256)) (bs s) = true ->
  o c 0 = Some (u_stream s) -> o 2 0 = Some (ODict (u_node kids)) -> page_is o inflate python (u_page c) (u_c s, [], [bs s]).
Proof.
  intros Hs Hc H2. unfold page_is. cbn [fst snd]. exists [], (content_text (u_c s)).
  assert (follow o (ORef c 0) = u_stream s) as Hf by (cbn [follow]; unfold meant; now rewrite Hc).
  split. { exists (ORef c 0). split; [reflexivity|left]. exists [(bs "Length", OInt (zlen (content_text (u_c s))))], (content_text (u_c s)). split; [exact Hf|]. split; [left; reflexivity|]. apply De_plain; left; reflexivity. }
  split; [constructor|]. split; [apply content_written; unfold u_c; wops; cbn [printable]; try (apply bytes_ok_b; exact Hs); exact I|].
  split. { change (@nil dict) with (@nil dict ++ []). apply (Le_up o (u_page c) [] (u_node kids) []).
    - right. split; [left; reflexivity|reflexivity].
    - unfold entry. change (dget (u_page c) (bs "Parent")) with (Some (ORef 2 0)). cbn [follow]. unfold meant. now rewrite H2.
    - reflexivity.
    - apply Le_top; [right; split; [left; reflexivity|reflexivity]|reflexivity]. }
  split; [constructor|]. split.
  - apply each_page. unfold u_c. cbn [each_ok app]. split; [left; apply Do_text; textop|]. split; [left; apply Do_text; textop|]. split; [left; apply Do_text; textop|exact I].
  - unfold texts. change (shows None [] (u_c s)) with [(@None (list Z), OStr (bs s))]. constructor; [|constructor]. cbn [fst snd]. apply Ft_none. apply ex_bytes; [exact Hs|auto].
Qed.
Example u_document : Document (current [u_new; u_old]) (trailer_of_file 49 55 [u_new; u_old]) [u_page 5; u_page 6].
Proof.
  exists 1, 0, [(bs "Type", OName (bs "Catalog")); (bs "Pages", ORef 2 0)], (u_node [ORef 3 0; ORef 4 0]), [ORef 3 0; ORef 4 0].
  split; [reflexivity|]. split; [reflexivity|]. split; [apply typed_class; cbn; auto|]. split; [reflexivity|]. split; [reflexivity|]. split; [reflexivity|].
  apply (Pi_cons _ (ORef 3 0) _ [u_page 5] [u_page 6]); [apply Pa_page with (d := u_page 5); reflexivity|].
  apply (Pi_cons _ (ORef 4 0) _ [u_page 6] []); [apply Pa_page with (d := u_page 6); reflexivity|constructor].
Qed.
(** page 1 now says "final", page 2 "more"; 1024 is the block size of the code *)
Example C89_ex real_str python python_decode inflate ccitt cid : exists m c,
  let file := file_of 49 55 [u_new; u_old] in
  crun file 1024 (open_document inflate ccitt no_decrypt 1 m 2) (mkC (b_reset file 1024 0) [] rst0) = (Ok (bs "1.7", 0, trailer_of_file 49 55 [u_new; u_old]), c) /\
  fst (buffered_session inflate ccitt no_decrypt 1 m 2 1024 file c [(5, 0); (3, 0); (5, 0)]) = [Ok (u_stream "final"); Ok (ODict (u_page 5)); Ok (u_stream "final")] /\
  viewer_over real_str python python_decode inflate ccitt cid (current [u_new; u_old]) (trailer_of_file 49 55 [u_new; u_old]) (fun cs => map cv_strings cs = [[bs "final"]; [bs "more"]]).
Proof.
  assert (zlen (file_of 49 55 [u_new; u_old]) <? 10 ^ 10 = true) as Hlt by reflexivity. apply Z.ltb_lt in Hlt.
  set (m := Z.to_nat (4 * zlen (file_of 49 55 [u_new; u_old]) + 8)). assert (4 * zlen (file_of 49 55 [u_new; u_old]) + 8 <= Z.of_nat m) as Hm by (unfold m; rewrite Z2Nat.id; [apply Z.le_refl|pose proof (zlen_nonneg (file_of 49 55 [u_new; u_old])); lia]).
  clearbody m. exists m.
  assert (Forall2 (page_is (current [u_new; u_old]) inflate python) [u_page 5; u_page 6] [(u_c "final", [], [bs "final"]); (u_c "more", [], [bs "more"])]) as HP.
  { constructor; [|constructor; [|constructor]]; [apply (u_page_is _ 5 "final" inflate python [ORef 3 0; ORef 4 0])|apply (u_page_is _ 6 "more" inflate python [ORef 3 0; ORef 4 0])]; reflexivity. }
  destruct (C89_updated_blocks real_str python python_decode inflate ccitt cid 49 55 [u_new; u_old] [u_page 5; u_page 6] [(u_c "final", [], [bs "final"]); (u_c "more", [], [bs "more"])] 1024
    eq_refl eq_refl eq_refl ltac:(discriminate) u_ok Hlt u_document ltac:(discriminate) HP 1%nat m 2%nat (le_n 1) Hm (le_n 2)) as (c & E & HS & HV).
  exists c. split; [exact E|]. split.
    + apply (HS 2%nat [(5, 0); (3, 0); (5, 0)] [u_stream "final"; ODict (u_page 5); u_stream "final"] (le_n 2) eq_refl).
    + eapply viewer_over_imp; [|exact HV]. cbv beta. intros cs H. inversion H as [|p1 c1 l1 cs1 (A & _) H1]; subst. inversion H1 as [|p2 c2 l2 cs2 (A2 & _) H2]; subst. inversion H2; subst.
      cbn [map]. rewrite A, A2. reflexivity.
Qed.
Print Assumptions C89_updated_file.
Print Assumptions C89_updated_blocks.

(** C92, through the buffer and the viewer: tables with any free rows (the row of object 0, deleted objects) show the document whose
    objects are the newest written for each id. *)
Lemma free_ends a b x older : ends_properly (free_file a b (x :: older)).
Proof.
  unfold free_file. cbn [write_free]. destruct (write_free a b older) as [g p] eqn:E. cbn [fst]. unfold up_text. rewrite !app_assoc. apply ends_written.
  pose proof (zlen_nonneg g). pose proof (zlen_nonneg (body_text (rv_objs (up_rev x)))). lia.
Qed.
Theorem C92_viewed : forall real_str python python_decode inflate ccitt cid a b ups ps pages B, 0 < B ->
  is_digit a = true -> is_digit b = true -> ups <> [] -> Forall upd_ok ups -> zlen (free_file a b ups) < 10 ^ 10 ->
  let o := current (map up_rev ups) in let t := free_trailer a b ups in
  Document o t ps -> ps <> [] -> Forall2 (page_is o inflate python) ps pages ->
  forall D m k, (0 < D)%nat -> 4 * zlen (free_file a b ups) + 8 <= Z.of_nat m -> (List.length ups <= k)%nat ->
  exists c, crun (free_file a b ups) B (open_document inflate ccitt no_decrypt D m k) (mkC (b_reset (free_file a b ups) B 0) [] rst0) = (Ok ([a; 46; b], 0, t), c) /\
  (forall k' ids vs, (2 <= k')%nat -> map (fun id => o (fst id) (snd id)) ids = map Some vs ->
     fst (buffered_session inflate ccitt no_decrypt D m k' B (free_file a b ups) c ids) = map Ok vs) /\
  viewer_over real_str python python_decode inflate ccitt cid o t (fun cs => Forall2 (drawn_as o inflate python) pages cs).
Proof.
  intros real_str python python_decode inflate ccitt cid a b ups ps pages B HB Ha Hb Hr HF Hlt o t HD Hne HP D m k H1 H2 H3.
  destruct (C92_free_rows inflate ccitt a b ups Ha Hb Hr HF Hlt D m k H1 H2 H3) as (s & E & HS).
  assert (ends_properly (free_file a b ups)) as He by (destruct ups; [congruence|apply free_ends]).
  destruct (C88_open_document inflate ccitt no_decrypt D m k _ B _ s HB He H2 E) as (c & C & _ & HC). exists c. split; [exact C|]. split.
  - intros k' ids vs Hk Hv. rewrite (proj1 (HC no_decrypt D m k' ids)). apply somes_inj. rewrite (HS k' ids Hk).
    + clear - Hv. revert vs Hv. induction ids as [|id ids IH]; intros [|v vs] Hv; cbn [map] in *; try discriminate; [reflexivity|]. injection Hv as Hv Hvs. unfold o in Hv. rewrite Hv. f_equal. now apply IH.
    + clear - Hv. revert vs Hv. induction ids as [|id ids IH]; intros [|v vs] Hv; cbn [map] in *; try discriminate; constructor; injection Hv as Hv Hvs; [unfold o in Hv; rewrite Hv; discriminate|eauto].
  - exact (C85_viewer o inflate python python_decode ccitt cid real_str t ps pages HD Hne HP).
Qed.
(** The document above, written with free rows, then an update that deletes its second page and the content of the first: nothing changes. *)
Definition u_ups : list update :=
  [mkUpd (mkRev [] [(bs "Root", ORef 1 0); (bs "Size", OInt 7)]) [mkListed 0 65535 4 false; mkListed 4 1 5 false; mkListed 5 1 0 false];
   mkUpd u_new []; mkUpd u_old [mkListed 0 65535 0 false]].
Example C92_viewed_ex real_str python python_decode inflate ccitt cid : freed u_ups 4 /\ freed u_ups 5 /\ exists m c,
  let file := free_file 49 55 u_ups in
  crun file 1024 (open_document inflate ccitt no_decrypt 1 m 3) (mkC (b_reset file 1024 0) [] rst0) = (Ok (bs "1.7", 0, free_trailer 49 55 u_ups), c) /\
  fst (buffered_session inflate ccitt no_decrypt 1 m 2 1024 file c [(5, 0)]) = [Ok (u_stream "final")] /\
  viewer_over real_str python python_decode inflate ccitt cid (current (map up_rev u_ups)) (free_trailer 49 55 u_ups) (fun cs => map cv_strings cs = [[bs "final"]; [bs "more"]]).
Proof.
  split; [left; right; left; reflexivity|]. split; [left; right; right; left; reflexivity|].
  assert (zlen (free_file 49 55 u_ups) <? 10 ^ 10 = true) as Hlt by reflexivity. apply Z.ltb_lt in Hlt.
  set (m := Z.to_nat (4 * zlen (free_file 49 55 u_ups) + 8)). assert (4 * zlen (free_file 49 55 u_ups) + 8 <= Z.of_nat m) as Hm by (unfold m; rewrite Z2Nat.id; [apply Z.le_refl|pose proof (zlen_nonneg (free_file 49 55 u_ups)); lia]).
  clearbody m. exists m.
  assert (Forall upd_ok u_ups) as HU.
  { pose proof u_ok as HK. inversion HK as [|? ? K1 K2]; subst. inversion K2 as [|? ? K3 _]; subst.
    constructor; [|constructor; [|constructor; [|constructor]]]; (split; [|repeat constructor; cbn; lia]); [|exact K1|exact K3].
    unfold rev_ok. cbn [rv_objs rv_trailer up_rev map fst snd writable printable fold_right].
    assert (forall s, forallb (fun c => (0 <=? c) && (c <? 256)) s = true -> bytes_ok s) as Hb.
    { intros s H. rewrite forallb_forall in H. apply Forall_forall. intros c Hc. specialize (H c Hc). unfold byte_ok. lia. }
    wr; first [apply Hb; reflexivity | reflexivity | discriminate | (vm_compute; discriminate) | idtac]. }
  assert (Document (current (map up_rev u_ups)) (free_trailer 49 55 u_ups) [u_page 5; u_page 6]) as HD.
  { exists 1, 0, [(bs "Type", OName (bs "Catalog")); (bs "Pages", ORef 2 0)], (u_node [ORef 3 0; ORef 4 0]), [ORef 3 0; ORef 4 0].
    split; [reflexivity|]. split; [reflexivity|]. split; [apply typed_class; cbn; auto|]. split; [reflexivity|]. split; [reflexivity|]. split; [reflexivity|].
    apply (Pi_cons _ (ORef 3 0) _ [u_page 5] [u_page 6]); [apply Pa_page with (d := u_page 5); reflexivity|].
    apply (Pi_cons _ (ORef 4 0) _ [u_page 6] []); [apply Pa_page with (d := u_page 6); reflexivity|constructor]. }
  assert (Forall2 (page_is (current (map up_rev u_ups)) inflate python) [u_page 5; u_page 6] [(u_c "final", [], [bs "final"]); (u_c "more", [], [bs "more"])]) as HP.
  { constructor; [|constructor; [|constructor]]; [apply (u_page_is _ 5 "final" inflate python [ORef 3 0; ORef 4 0])|apply (u_page_is _ 6 "more" inflate python [ORef 3 0; ORef 4 0])]; reflexivity. }
  destruct (C92_viewed real_str python python_decode inflate ccitt cid 49 55 u_ups [u_page 5; u_page 6] [(u_c "final", [], [bs "final"]); (u_c "more", [], [bs "more"])] 1024
    eq_refl eq_refl eq_refl ltac:(discriminate) HU Hlt HD ltac:(discriminate) HP 1%nat m 3%nat (le_n 1) Hm (le_n 3)) as (c & E & HS & HV).
  exists c. split; [exact E|]. split.
    + apply (HS 2%nat [(5, 0)] [u_stream "final"] (le_n 2) eq_refl).
    + eapply viewer_over_imp; [|exact HV]. cbv beta. intros cs H. inversion H as [|p1 c1 l1 cs1 (A & _) H1]; subst. inversion H1 as [|p2 c2 l2 cs2 (A2 & _) H2]; subst. inversion H2; subst.
      cbn [map]. rewrite A, A2. reflexivity.
Qed.
Print Assumptions C92_viewed.
