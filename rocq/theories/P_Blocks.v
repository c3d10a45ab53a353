(** C88: documents opened through the real, block-loading buffer are the documents the theorems about the plain cursor speak of. *)
From Coq Require Import String.
From Verif Require Import Prelude M_Prog M_Buffer S_Buffer L_Buffer L_Prog M_Parser L_Blocks L_BlocksP L_BlocksD L_BlocksL L_BlocksO M_Filters M_Document M_Crypto
  S_Syntax S_Print L_Print S_Document P_StartXref P_Locate P_Open S_Write P_Write S_ModWrite P_ModWrite M_Secure M_App M_Viewer M_Nav S_Length P_Length S_Xref P_Xref P_Header S_Open L_User P_Registry S_Crypto P_Crypto S_Sealed P_Secure S_App S_Page P_View S_Blocks.
Local Open Scope Z_scope.
Local Open Scope prog_scope.

Lemma ends_before f n : ends_properly f -> 4 * zlen f + 8 <= Z.of_nat n ->
  forall s : ast rst, a_pos (snd (arun f (xref_offset n : prog rst Z) s)) < zlen f.
Proof.
  intros (A & sep & ds & r & T & Ef & H1 & H2 & H3 & H4 & H5 & H6 & H7 & H8) Hn [pos st u]. rewrite Ef in *.
  destruct (@startxref_at rst A (sep ++ ds ++ r) T sep ds r n pos) as (q & Hq & Hlt); auto. destruct (Hq st u) as [ex E]. rewrite E. exact Hlt.
Qed.

Lemma crun_bind {U A C} f B (p : prog U A) (g : A -> prog U C) : forall s,
  crun f B (bind p g) s = match crun f B p s with (Ok a, s') => crun f B (g a) s' | (Err e, s') => (Err e, s') end.
Proof.
  induction p as [a|e|k IH|k IH|k IH|o k IH|k IH|h k IH|k IH|k IH|u k IH]; intros s; cbn [bind crun]; auto;
    try (destruct (b_current f B (c_buf s)) as [[? ?]|]; auto); try (destruct (nth_error (c_store s) h)); auto.
Qed.
Section S.
  Variable inflate : list Z -> option (list Z).
  Variable ccitt : list Z -> fparams -> res (list Z).
  Variables (D m : nat).
  Variables (f : list Z) (B : Z).
  Hypothesis HB : 0 < B.
  Notation u0 := (mkR [] None None []).

  Lemma linked_session dec k ids : forall s c, linked f B s c ->
    fst (buffered_session inflate ccitt dec D m k B f c ids) = fst (session inflate ccitt dec D m k f s ids) /\
    linked f B (snd (session inflate ccitt dec D m k f s ids)) (snd (buffered_session inflate ccitt dec D m k B f c ids)).
  Proof.
    induction ids as [|[num gen] ids IH]; intros s c H; cbn [session buffered_session]; [split; auto|].
    destruct (linked_jw f B _ _ s c HB H (j_locate inflate ccitt dec D m f B k num gen 0)) as [E H1].
    destruct (crun f B (locate_object inflate ccitt dec D m k num gen) c) as [v c1]. destruct (arun f (locate_object inflate ccitt dec D m k num gen) s) as [v' s1].
    cbn [fst snd] in E, H1. subst v'. destruct (IH s1 c1 H1) as [E2 H2].
    destruct (buffered_session inflate ccitt dec D m k B f c1 ids) as [vs c2]. destruct (session inflate ccitt dec D m k f s1 ids) as [vs' s2].
    cbn [fst snd] in *. subst. auto.
  Qed.

  Hypothesis Hends : ends_properly f.
  Hypothesis Hm : 4 * zlen f + 8 <= Z.of_nat m.
  Lemma open_linked dec k r s : arun f (open_document inflate ccitt dec D m k) (mkA 0 [] u0) = (Ok r, s) ->
    exists c, crun f B (open_document inflate ccitt dec D m k) (mkC (b_reset f B 0) [] u0) = (Ok r, c) /\ linked f B s c.
  Proof.
    intros E. destruct (linked_jwo f B _ _ _ _ HB (linked_start f B HB) (jo_open inflate ccitt dec D m f B k 0 (ends_before f m Hends Hm)) (ex_intro _ r (ex_intro _ s E))) as [E1 H1].
    rewrite E in E1, H1. cbn [fst snd] in E1, H1. destruct (crun f B _ _) as [r' c]. cbn [fst snd] in E1, H1. subst r'. exists c. split; [reflexivity|exact H1].
  Qed.

  (** PDFDocument with an Encrypt dictionary that the tables lead to. *)
  Variables md5 sha256 : list Z -> list Z.
  Variable rc4_size : Z -> bool.
  Variable aes_dec : list Z -> list Z -> list Z.
  Notation idd := (fun _ _ v => Ok v).
  Notation loc0 k := (locate_object inflate ccitt idd D m k).
  Lemma jo_encrypt k num gen s xs v s2 : r_xrefs (a_usr s) = Some xs ->
    arun f (by_xref (loc0 k) (reg_indirect inflate ccitt idd D m (length_hook (loc0 k))) xs num gen) s = (Ok v, s2) -> truthy v = true ->
    forall w vs, stored w (a_pos s) -> Forall2 stored vs (a_store s) -> I (a_usr s) (List.length (a_store s)) ->
    dw f B (locate_encrypt inflate ccitt D m idd k num gen) s w vs (jpost I (a_store s) vs (fun _ _ => True)).
  Proof.
    intros Hxs Hby Ht w vs Hw HF HI. unfold locate_encrypt, reg_get. cbn [getu bind ret dw].
    destruct (truthy match rget (r_objs (a_usr s)) num gen with Some v0 => v0 | None => ONull end).
    { cbn [ret dw]. unfold jpost. split; [apply grown_refl|]. auto. }
    cbn [getu bind dw]. rewrite Hxs.
    assert (Forall xok xs) as Hx by (destruct HI as [_ HI]; rewrite Hxs in HI; exact HI).
    destruct s as [pos st u]. cbn [a_pos a_store a_usr] in *.
    eapply dw_bind_det; [apply (j_by_xref inflate ccitt idd D m f B (loc0 k) (j_locate inflate ccitt idd D m f B k) num gen xs 0 Hx st u w vs pos Hw HF HI ltac:(lia))| |].
    - intros v' s' w' vs' E (G & HI' & Hw' & _). rewrite Hby in E. injection E as <- <-. rewrite Ht. cbn [ret dw]. unfold jpost. auto.
    - intros e s' w' vs' E HX. rewrite Hby in E. discriminate.
  Qed.
  Lemma linked_dw {A} (p : prog rst A) R s c : linked f B s c ->
    (forall w vs, stored w (a_pos s) -> Forall2 stored vs (a_store s) -> I (a_usr s) (List.length (a_store s)) -> dw f B p s w vs (jpost I (a_store s) vs R)) ->
    fst (crun f B p c) = fst (arun f p s) /\ linked f B (snd (arun f p s)) (snd (crun f B p c)).
  Proof.
    intros (v & vs & Hs & Hv & HF & HI) Hj.
    destruct (dw_sim f B p HB _ _ _ _ _ Hs (Hj v vs Hv HF HI)) as (v' & vs' & E & Hs' & G & HI' & Hv' & _).
    split; [exact E|]. exists v', vs'. split; [exact Hs'|]. split; [exact Hv'|]. split; [eapply grown_stored; eauto|exact HI'].
  Qed.
  Lemma open_pdf_linked k pw r s : arun f (open_pdf inflate ccitt D m md5 sha256 rc4_size aes_dec k pw) (mkA 0 [] u0) = (Ok r, s) ->
    encrypt_listed inflate ccitt D m k f ->
    exists c, crun f B (open_pdf inflate ccitt D m md5 sha256 rc4_size aes_dec k pw) (mkC (b_reset f B 0) [] u0) = (Ok r, c) /\ linked f B s c.
  Proof.
    unfold open_pdf. intros E HE. rewrite arun_bind in E. rewrite crun_bind.
    destruct (arun f (open_document inflate ccitt idd D m k) (mkA 0 [] u0)) as [[[[ver off] t]|] s1] eqn:E1; [|discriminate].
    destruct (open_linked idd k _ s1 E1) as (c1 & C1 & L1). rewrite C1.
    rewrite arun_bind in E. rewrite crun_bind.
    set (pe := match dget t (bs "Encrypt") with Some (ORef n g) => locate_encrypt inflate ccitt D m idd k n g | _ => ret ONull end) in *.
    assert (fst (crun f B pe c1) = fst (arun f pe s1) /\ linked f B (snd (arun f pe s1)) (snd (crun f B pe c1))) as [X1 X2].
    { specialize (HE ver off t s1). unfold pe. destruct (dget t (bs "Encrypt")) as [[| | | | | | | | | |n g| |]|]; try (split; [reflexivity|exact L1]).
      destruct (HE n g E1 eq_refl) as (xs & v & s' & Hxs & Hv & Hby). apply (linked_dw _ (fun _ _ => True) s1 c1 L1).
      intros w vs Hw HF HI. eapply jo_encrypt; eauto. }
    destruct (arun f pe s1) as [[e|] s2]; [|discriminate]. destruct (crun f B pe c1) as [e' c2]. cbn [fst snd] in X1, X2. subst e'. clearbody pe.
    destruct (trailer_handler md5 sha256 rc4_size aes_dec (fun _ _ => e) t pw) as [h|]; [|discriminate].
    rewrite arun_bind in E. rewrite crun_bind.
    set (pr := match dget t (bs "Root") with Some (ORef n g) => locate_object inflate ccitt (decrypt_object md5 rc4_size aes_dec h) D m k n g
               | Some _ => throw AttributeErr | None => throw KeyErr end) in *.
    assert (fst (crun f B pr c2) = fst (arun f pr s2) /\ linked f B (snd (arun f pr s2)) (snd (crun f B pr c2))) as [Y1 Y2].
    { unfold pr. destruct (dget t (bs "Root")) as [[| | | | | | | | | |n g| |]|]; try (split; [reflexivity|exact X2]).
      apply (linked_jw f B _ (fun _ _ => True) s2 c2 HB X2). apply j_locate. }
    destruct (arun f pr s2) as [[root|] s3]; [|discriminate]. destruct (crun f B pr c2) as [root' c3]. cbn [fst snd] in Y1, Y2. subst root'.
    cbn in E |- *. injection E as <- <-. eauto.
  Qed.
End S.

(** C88.  Opening a document and looking objects up, on the buffer: the same results as on the plain cursor, for any block
    size, any file that ends properly and any lookups, whether they succeed or raise. *)
Theorem C88_open_document : forall inflate ccitt dec D m k f B r s,
  0 < B -> ends_properly f -> 4 * zlen f + 8 <= Z.of_nat m ->
  arun f (open_document inflate ccitt dec D m k) (mkA 0 [] rst0) = (Ok r, s) ->
  exists c, crun f B (open_document inflate ccitt dec D m k) (mkC (b_reset f B 0) [] rst0) = (Ok r, c) /\ c_usr c = a_usr s /\
  forall dec' D' m' k' ids,
    fst (buffered_session inflate ccitt dec' D' m' k' B f c ids) = fst (session inflate ccitt dec' D' m' k' f s ids) /\
    c_usr (snd (buffered_session inflate ccitt dec' D' m' k' B f c ids)) = a_usr (snd (session inflate ccitt dec' D' m' k' f s ids)).
Proof.
  intros inflate ccitt dec D m k f B r s HB He Hm E. destruct (open_linked inflate ccitt D m f B HB He Hm dec k r s E) as (c & C & L).
  exists c. split; [exact C|]. split; [exact (linked_usr f B s c L)|]. intros dec' D' m' k' ids.
  destruct (linked_session inflate ccitt D' m' f B HB dec' k' ids s c L) as [H1 H2]. split; [exact H1|]. exact (linked_usr _ _ _ _ H2).
Qed.

(** Two block sizes never differ: neither in what opening gives nor in any later lookup. *)
Theorem C88_block_size : forall inflate ccitt dec D m k f B1 B2 r s,
  0 < B1 -> 0 < B2 -> ends_properly f -> 4 * zlen f + 8 <= Z.of_nat m ->
  arun f (open_document inflate ccitt dec D m k) (mkA 0 [] rst0) = (Ok r, s) ->
  exists c1 c2, crun f B1 (open_document inflate ccitt dec D m k) (mkC (b_reset f B1 0) [] rst0) = (Ok r, c1) /\
    crun f B2 (open_document inflate ccitt dec D m k) (mkC (b_reset f B2 0) [] rst0) = (Ok r, c2) /\ c_usr c1 = c_usr c2 /\
  forall dec' D' m' k' ids,
    fst (buffered_session inflate ccitt dec' D' m' k' B1 f c1 ids) = fst (buffered_session inflate ccitt dec' D' m' k' B2 f c2 ids).
Proof.
  intros inflate ccitt dec D m k f B1 B2 r s H1 H2 He Hm E.
  destruct (C88_open_document inflate ccitt dec D m k f B1 r s H1 He Hm E) as (c1 & C1 & U1 & S1).
  destruct (C88_open_document inflate ccitt dec D m k f B2 r s H2 He Hm E) as (c2 & C2 & U2 & S2).
  exists c1, c2. split; [exact C1|]. split; [exact C2|]. split; [congruence|]. intros. destruct (S1 dec' D' m' k' ids), (S2 dec' D' m' k' ids). congruence.
Qed.

Theorem C88_open_pdf : forall inflate ccitt D m md5 sha256 rc4_size aes_dec k pw f B r s,
  0 < B -> ends_properly f -> 4 * zlen f + 8 <= Z.of_nat m -> encrypt_listed inflate ccitt D m k f ->
  arun f (open_pdf inflate ccitt D m md5 sha256 rc4_size aes_dec k pw) (mkA 0 [] rst0) = (Ok r, s) ->
  exists c, crun f B (open_pdf inflate ccitt D m md5 sha256 rc4_size aes_dec k pw) (mkC (b_reset f B 0) [] rst0) = (Ok r, c) /\ c_usr c = a_usr s /\
  forall dec' D' m' k' ids,
    fst (buffered_session inflate ccitt dec' D' m' k' B f c ids) = fst (session inflate ccitt dec' D' m' k' f s ids) /\
    c_usr (snd (buffered_session inflate ccitt dec' D' m' k' B f c ids)) = a_usr (snd (session inflate ccitt dec' D' m' k' f s ids)).
Proof.
  intros inflate ccitt D m md5 sha256 rc4_size aes_dec k pw f B r s HB He Hm Hl E.
  destruct (open_pdf_linked inflate ccitt D m f B HB He Hm md5 sha256 rc4_size aes_dec k pw r s E Hl) as (c & C & L).
  exists c. split; [exact C|]. split; [exact (linked_usr f B s c L)|]. intros dec' D' m' k' ids.
  destruct (linked_session inflate ccitt D' m' f B HB dec' k' ids s c L) as [H1 H2]. split; [exact H1|]. exact (linked_usr _ _ _ _ H2).
Qed.

(** Files as they are written end properly. *)
Lemma ends_written A o : 0 <= o -> ends_properly (A ++ end_text o).
Proof.
  intros Ho. destruct (dec_ok o Ho) as (D1 & D2 & D3). exists (A ++ [10]), [10], (dec o), [10], [10]. unfold end_text.
  split; [repeat rewrite <- app_assoc; reflexivity|]. split; [destruct A; discriminate|]. split; [change (zlen [10]) with 1; lia|].
  split; [apply last_occ_check; try reflexivity; [|discriminate]; eexists; reflexivity|].
  split. { apply startxref_last. intros X. apply in_app_or in X. destruct X as [[X|[]]|X]; [discriminate|].
    apply in_app_or in X. destruct X as [X|[X|[]]]; [|discriminate]. unfold digits_ok in D2. rewrite Forall_forall in D2. apply D2 in X. discriminate. }
  split; [apply Sep_ws; [reflexivity|constructor]|]. split; [exact D3|]. split; [exact D2|]. reflexivity.
Qed.
Lemma file_ends a b r older : ends_properly (file_of a b (r :: older)).
Proof.
  unfold file_of. cbn [write]. destruct (write a b older) as [g p] eqn:E. cbn [fst]. unfold rev_text. rewrite !app_assoc. apply ends_written.
  pose proof (zlen_nonneg g). pose proof (zlen_nonneg (body_text (rv_objs r))). lia.
Qed.
Lemma modern_ends deflate a b r older : ends_properly (modern_file deflate a b (r :: older)).
Proof.
  unfold modern_file. cbn [mwrite]. destruct (mwrite deflate a b older) as [g p] eqn:E. cbn [fst]. unfold mrev_text. rewrite !app_assoc. apply ends_written.
  pose proof (zlen_nonneg g). match goal with |- 0 <= _ + zlen ?x => pose proof (zlen_nonneg x) end. lia.
Qed.

Lemma deferred_ends a b sel items t : ends_properly (deferred_file a b sel items t).
Proof.
  unfold deferred_file. rewrite !app_assoc. apply ends_written. pose proof (zlen_nonneg (version_line a b)). pose proof (zlen_nonneg (flat_map item_text items)). lia.
Qed.

(** On the buffer: a file written with any number of revisions (C76) ... *)
Theorem C88_written : forall inflate ccitt a b revs B, 0 < B ->
  is_digit a = true -> is_digit b = true -> revs <> [] -> Forall rev_ok revs -> zlen (file_of a b revs) < 10 ^ 10 ->
  forall D m k, (0 < D)%nat -> 4 * zlen (file_of a b revs) + 8 <= Z.of_nat m -> (List.length revs <= k)%nat ->
  exists c, crun (file_of a b revs) B (open_document inflate ccitt no_decrypt D m k) (mkC (b_reset (file_of a b revs) B 0) [] rst0) =
              (Ok ([a; 46; b], 0, trailer_of_file a b revs), c) /\
  forall k' ids, (2 <= k')%nat -> Forall (fun id => current revs (fst id) (snd id) <> None) ids ->
    map Some (fst (buffered_session inflate ccitt no_decrypt D m k' B (file_of a b revs) c ids)) =
    map (fun id => match current revs (fst id) (snd id) with Some v => Some (Ok v) | None => None end) ids.
Proof.
  intros inflate ccitt a b revs B HB Ha Hb Hne HF Hlt D m k HD Hm Hk.
  destruct (C76_written_documents inflate ccitt a b revs Ha Hb Hne HF Hlt D m k HD Hm Hk) as (s & E & HS).
  assert (ends_properly (file_of a b revs)) as He by (destruct revs; [congruence|apply file_ends]).
  destruct (C88_open_document inflate ccitt no_decrypt D m k _ B _ s HB He Hm E) as (c & C & _ & HC). exists c. split; [exact C|].
  intros k' ids H1 H2. rewrite (proj1 (HC no_decrypt D m k' ids)). now apply HS.
Qed.
(** ... with one revision, looking up any ids ... *)
Theorem C88_written_once : forall inflate ccitt a b r B, 0 < B ->
  is_digit a = true -> is_digit b = true -> rev_ok r -> zlen (file_of a b [r]) < 10 ^ 10 ->
  forall D m k, (0 < D)%nat -> 4 * zlen (file_of a b [r]) + 8 <= Z.of_nat m -> (1 <= k)%nat ->
  exists c, crun (file_of a b [r]) B (open_document inflate ccitt no_decrypt D m k) (mkC (b_reset (file_of a b [r]) B 0) [] rst0) =
              (Ok ([a; 46; b], 0, rv_trailer r), c) /\
  forall k' ids, (2 <= k')%nat ->
    fst (buffered_session inflate ccitt no_decrypt D m k' B (file_of a b [r]) c ids) =
    map (fun id => Ok (match find_obj (rv_objs r) (fst id) (snd id) with Some v => v | None => ONull end)) ids.
Proof.
  intros inflate ccitt a b r B HB Ha Hb Hr Hlt D m k HD Hm Hk.
  destruct (C76_written_once inflate ccitt a b r Ha Hb Hr Hlt D m k HD Hm Hk) as (s & E & HS).
  destruct (C88_open_document inflate ccitt no_decrypt D m k _ B _ s HB (file_ends a b r []) Hm E) as (c & C & _ & HC). exists c. split; [exact C|].
  intros k' ids H1. rewrite (proj1 (HC no_decrypt D m k' ids)). now apply HS.
Qed.
(** ... with cross-reference streams and object streams (C79) ... *)
Theorem C88_modern : forall inflate ccitt deflate a b r older B, 0 < B ->
  (forall x, inflate (deflate x) = Some x) -> is_digit a = true -> is_digit b = true ->
  let file := modern_file deflate a b (r :: older) in
  Forall mrev_ok (r :: older) -> zlen file < 256 ^ 4 -> NoDup (map fst (file_contents deflate a b (r :: older))) ->
  forall D m k, (2 <= D)%nat -> 4 * zlen file + 8 <= Z.of_nat m -> (List.length older <= k)%nat ->
  exists c, crun file B (open_document inflate ccitt no_decrypt D m k) (mkC (b_reset file B 0) [] rst0) =
              (Ok ([a; 46; b], 0, trailer_read (snd (mwrite deflate a b older)) (mr_trailer r)), c) /\
  forall k' ids, (1 <= k')%nat ->
    fst (buffered_session inflate ccitt no_decrypt D m k' B file c ids) =
    map (fun id => Ok (match find_obj (file_contents deflate a b (r :: older)) (fst id) (snd id) with Some v => v | None => ONull end)) ids.
Proof.
  intros inflate ccitt deflate a b r older B HB Hrd Ha Hb file HF Hlt Hnd D m k HD Hm Hk.
  destruct (C79_written inflate ccitt deflate a b r older Hrd Ha Hb HF Hlt Hnd D m k HD Hm Hk) as (s & E & HS).
  destruct (C88_open_document inflate ccitt no_decrypt D m k _ B _ s HB (modern_ends deflate a b r older) Hm E) as (c & C & _ & HC). exists c. split; [exact C|].
  intros k' ids H1. unfold file. rewrite (proj1 (HC no_decrypt D m k' ids)). now apply HS.
Qed.
(** ... with stream lengths in objects no table lists (C80) ... *)
Theorem C88_deferred : forall inflate ccitt a b sel items t B, 0 < B ->
  is_digit a = true -> is_digit b = true -> items_ok items t -> let file := deferred_file a b sel items t in zlen file < 10 ^ 10 ->
  forall D m k, (0 < D)%nat -> 4 * zlen file + 8 <= Z.of_nat m -> (1 <= k)%nat ->
  exists c, crun file B (open_document inflate ccitt no_decrypt D m k) (mkC (b_reset file B 0) [] rst0) = (Ok ([a; 46; b], 0, t), c) /\
  forall k' ids, (4 <= k')%nat ->
    fst (buffered_session inflate ccitt no_decrypt D m k' B file c ids) =
    map (fun id => Ok (match find_obj (flat_map item_objs items) (fst id) (snd id) with Some v => v | None => ONull end)) ids.
Proof.
  intros inflate ccitt a b sel items t B HB Ha Hb Hok file Hlt D m k HD Hm Hk.
  destruct (C80_written inflate ccitt a b sel items t Ha Hb Hok Hlt D m k HD Hm Hk) as (s & E & HS).
  destruct (C88_open_document inflate ccitt no_decrypt D m k _ B _ s HB (deferred_ends a b sel items t) Hm E) as (c & C & _ & HC). exists c. split; [exact C|].
  intros k' ids H1. unfold file. rewrite (proj1 (HC no_decrypt D m k' ids)). now apply HS.
Qed.

(** ... encrypted, opened with either password (C81) ... *)
Lemma listed_encrypt inflate ccitt f ver off o ls t raw D m k : header_of f (Ok (ver, off)) -> offset_of f (Ok o) -> Chain f o ls t ->
  dget t (bs "xrefs") = None -> dget t (bs "self") = None -> all_listed raw f ls ->
  (forall en eg, dget t (bs "Encrypt") = Some (ORef en eg) -> exists e, raw en eg = Some (ODict e) /\ e <> []) ->
  (0 < D)%nat -> 4 * zlen f + 8 <= Z.of_nat m -> (List.length ls <= k)%nat -> encrypt_listed inflate ccitt D m k f.
Proof.
  intros Hh Hoff HC H1 H2 HA HE HD Hm Hk ver' off' t' s n g E HE'.
  destruct (C16_header_sound f ver off Hh) as (x & _ & Ho & _).
  destruct (opened inflate ccitt D m f HD Hm k ver off o ls t Hh Ho Hoff HC H1 H2 Hk) as (pos & st & hb & E' & Hst).
  match type of E with ?X = _ => match type of E' with ?Y = _ => change X with Y in E end end. rewrite E' in E. injection E as <- <- <- <-. destruct (HE n g HE') as (e & He & Hne). destruct (HA n g _ He) as (eo & HN & HS).
  destruct (encrypt_by_xref inflate ccitt (fun x => x) (fun x => x) (fun _ => true) (fun _ x => x) D m f HD Hm raw ls k n g e eo pos (mkR [] (Some (map table_of ls)) (Some hb) []) eq_refl HN HS) as [q HB].
  destruct (HB st) as [ex EB]. exists (map table_of ls), (ODict e). eexists. split; [reflexivity|]. split; [destruct e; [congruence|reflexivity]|exact EB].
Qed.
Lemma written_encrypt inflate ccitt a b revs D m k : is_digit a = true -> is_digit b = true -> revs <> [] -> Forall rev_ok revs -> zlen (file_of a b revs) < 10 ^ 10 ->
  (forall en eg, dget (trailer_of_file a b revs) (bs "Encrypt") = Some (ORef en eg) -> exists e, current revs en eg = Some (ODict e) /\ e <> []) ->
  (0 < D)%nat -> 4 * zlen (file_of a b revs) + 8 <= Z.of_nat m -> (List.length revs <= k)%nat -> encrypt_listed inflate ccitt D m k (file_of a b revs).
Proof.
  intros Ha Hb Hne HF Hlt HE HD Hm Hk. unfold file_of in *. destruct (written_facts a b revs Ha Hb Hne HF Hlt) as (o & Hh & Hoff & HC).
  eapply (listed_encrypt inflate ccitt _ _ 0 o (tables a b revs) (trailer_of_file a b revs) (current revs)); eauto using trailer_keys.
  - intros n g v Hv. destruct (written_listed a b (current revs) revs HF [] n g v Hv) as [H _]. now rewrite app_nil_r in H.
  - now rewrite tables_len.
Qed.
Theorem C88_encrypted : forall inflate ccitt md5 sha256 rc4_size aes_dec a b r en eg e rn rg V R P len id0 ids0 id opw upw key pw B, 0 < B ->
  (forall x, List.length (md5 x) = 16%nat) -> (forall k, 5 <= k <= 16 -> rc4_size k = true) ->
  is_digit a = true -> is_digit b = true -> rev_ok r ->
  Forall (fun e => fst (fst e) <= 4294967295 /\ not_string (snd e)) (rv_objs r) ->
  let file := file_of a b [mkRev (seal_all md5 key (rv_objs r)) (rv_trailer r)] in zlen file < 10 ^ 10 ->
  dget (rv_trailer r) (bs "Encrypt") = Some (ORef en eg) -> find_obj (rv_objs r) en eg = Some (ODict e) ->
  dget (rv_trailer r) (bs "Root") = Some (ORef rn rg) ->
  dget (rv_trailer r) (bs "ID") = Some (OArr (OHex id0 :: ids0)) -> M_CMap.fromhex id0 = Ok id ->
  In V [1; 2; 3] -> In R [2; 3] -> written md5 e V R P len id opw upw key ->
  pw = upw \/ (pw = opw /\ ~ passes md5 e R P len id opw) ->
  forall D m k, (0 < D)%nat -> 4 * zlen file + 8 <= Z.of_nat m -> (2 <= k)%nat ->
  exists c, crun file B (open_pdf inflate ccitt D m md5 sha256 rc4_size aes_dec k pw) (mkC (b_reset file B 0) [] rst0) =
              (Ok ([a; 46; b], rv_trailer r, Some (HBase key), match find_obj (rv_objs r) rn rg with Some v => v | None => ONull end), c) /\
  forall ids, fst (buffered_session inflate ccitt (decrypt_object md5 rc4_size aes_dec (Some (HBase key))) D m k B file c ids) =
    map (fun id => Ok (match find_obj (rv_objs r) (fst id) (snd id) with Some v => v | None => ONull end)) ids.
Proof.
  intros inflate ccitt md5 sha256 rc4_size aes_dec a b r en eg e rn rg V R P len id0 ids0 id opw upw key pw B HB
    H1 H2 H3 H4 H5 H6 file H7 H8 H9 H10 H11 H12 H13 H14 H15 H16 D m k K1 K2 K3.
  destruct (C81_passwords inflate ccitt md5 sha256 rc4_size aes_dec a b r en eg e rn rg V R P len id0 ids0 id opw upw key pw H1 H2 H3 H4 H5 H6 H7 H8 H9 H10 H11 H12 H13 H14 H15 H16 D m k K1 K2 K3) as (s & E & HS).
  assert (encrypt_listed inflate ccitt D m k file) as HL.
  { apply written_encrypt; auto; [discriminate|constructor; [now apply seal_all_rev|constructor]| |cbn; lia].
    intros en' eg' HE. change (dget (rv_trailer r) (bs "Encrypt") = Some (ORef en' eg')) in HE. rewrite H8 in HE. injection HE as <- <-. exists e. split.
    - cbn [current rv_objs]. rewrite seal_all_find, H9. reflexivity.
    - destruct H15 as (O & U & (X & _) & _). intros ->. clear - X. discriminate. }
  destruct (C88_open_pdf inflate ccitt D m md5 sha256 rc4_size aes_dec k pw _ B _ s HB (file_ends a b _ []) K2 HL E) as (c & C & _ & HC).
  exists c. split; [exact C|]. intros ids. unfold file. rewrite (proj1 (HC (decrypt_object md5 rc4_size aes_dec (Some (HBase key))) D m k ids)). apply HS.
Qed.

(** ... and shown page by page (C85). *)
Theorem C88_viewer : forall real_str python python_decode inflate ccitt cid a b r ps pages B, 0 < B ->
  is_digit a = true -> is_digit b = true -> rev_ok r -> zlen (file_of a b [r]) < 10 ^ 10 ->
  let o := or_null (find_obj (rv_objs r)) in
  Document o (rv_trailer r) ps -> ps <> [] -> Forall2 (page_is o inflate python) ps pages ->
  forall D m k, (0 < D)%nat -> 4 * zlen (file_of a b [r]) + 8 <= Z.of_nat m -> (1 <= k)%nat ->
  exists c t, crun (file_of a b [r]) B (open_document inflate ccitt no_decrypt D m k) (mkC (b_reset (file_of a b [r]) B 0) [] rst0) = (Ok ([a; 46; b], 0, t), c) /\
  exists look, (forall k' ids, (2 <= k')%nat ->
     fst (buffered_session inflate ccitt no_decrypt D m k' B (file_of a b [r]) c ids) = map (fun id => Ok (look (fst id) (snd id))) ids) /\
  viewer_gives real_str python python_decode inflate ccitt cid look t (fun cs => Forall2 (drawn_as o inflate python) pages cs).
Proof.
  intros real_str python python_decode inflate ccitt cid a b r ps pages B HB Ha Hb Hr Hlt o HD Hne HF D m k H1 H2 H3.
  destruct (C85_written_file real_str python python_decode inflate ccitt cid a b r ps pages Ha Hb Hr Hlt HD Hne HF D m k H1 H2 H3) as (s & t & E & look & HS & HV).
  destruct (C88_open_document inflate ccitt no_decrypt D m k _ B _ s HB (file_ends a b r []) H2 E) as (c & C & _ & HC). exists c, t. split; [exact C|]. exists look. split; [|exact HV].
  intros k' ids Hk. rewrite (proj1 (HC no_decrypt D m k' ids)). now apply HS.
Qed.

(** "startxref" must be preceded by something and the number be there: without a number before %%EOF the parser reads on, and
    after it has read backwards past the last block, the bytes it meets at the end of the file are the first ones again. *)
Definition hole : list Z := bs "xx  12startxref%%EOF" ++ [10; 57].
Theorem C88_refuted : exists f B, 0 < B /\
  fst (arun f (xref_offset 200 : prog rst Z) (mkA 0 [] rst0)) = Ok 9 /\
  fst (crun f B (xref_offset 200 : prog rst Z) (mkC (b_reset f B 0) [] rst0)) = Ok 912.
Proof. exists hole, 4. split; [lia|]. vm_compute. auto. Qed.

(** ---- Examples: the document of P_View.v through blocks of 1024 bytes; the encrypted document of P_Secure.v through blocks of 16. ---- *)
Example C88_ex real_str python python_decode inflate ccitt cid : exists m c t,
  let file := file_of 49 55 [mkRev v_objs v_trailer] in
  crun file 1024 (open_document inflate ccitt no_decrypt 1 m 2) (mkC (b_reset file 1024 0) [] rst0) = (Ok (bs "1.7", 0, t), c) /\
  exists look, (forall ids, fst (buffered_session inflate ccitt no_decrypt 1 m 2 1024 file c ids) = map (fun id => Ok (look (fst id) (snd id))) ids) /\
  viewer_gives real_str python python_decode inflate ccitt cid look t v_canvases.
Proof.
  set (f := file_of 49 55 [mkRev v_objs v_trailer]). exists (Z.to_nat (4 * zlen f + 8)).
  destruct (C88_viewer real_str python python_decode inflate ccitt cid 49 55 (mkRev v_objs v_trailer) [v_page1; v_page2]
    [(v_its1, [v_l1; v_l2], [bs "Hi"; bs "end"]); (v_its2, [v_l2], [])] 1024 eq_refl eq_refl eq_refl v_ok ltac:(vm_compute; reflexivity) (v_document v_trailer eq_refl) ltac:(discriminate)
    ltac:(constructor; [apply v_page1_is|constructor; [apply v_page2_is|constructor]]) 1%nat (Z.to_nat (4 * zlen f + 8)) 2%nat ltac:(apply le_n)) as (c & t & E & look & HS & HV).
  - fold f. pose proof (zlen_nonneg f). lia.
  - apply le_S, le_n.
  - exists c, t. split; [exact E|]. exists look. split; [intros ids; apply HS, le_n|]. eapply viewer_gives_imp; [|exact HV]. apply v_drawn.
Qed.
Example C88_sealed_ex inflate ccitt : exists c m,
  let file := file_of 49 55 [mkRev (seal_all toy_md5 ex_key (rv_objs ex_doc)) (rv_trailer ex_doc)] in
  crun file 16 (open_pdf inflate ccitt 1 m toy_md5 toy_md5 (fun _ => true) (fun _ b => b) 2 (bs "user")) (mkC (b_reset file 16 0) [] rst0) =
    (Ok (bs "1.7", rv_trailer ex_doc, Some (HBase ex_key), ODict [(bs "Type", OName (bs "Catalog")); (bs "Title", OStr (bs "kept as is"))]), c) /\
  fst (buffered_session inflate ccitt (decrypt_object toy_md5 (fun _ => true) (fun _ b => b) (Some (HBase ex_key))) 1 m 2 16 file c [(2, 3); (9, 0); (2, 3)]) =
    [Ok (OStream [(bs "Length", OInt 5)] (bs "hello")); Ok ONull; Ok (OStream [(bs "Length", OInt 5)] (bs "hello"))].
Proof.
  assert (zlen (file_of 49 55 [mkRev (seal_all toy_md5 ex_key (rv_objs ex_doc)) (rv_trailer ex_doc)]) < 10 ^ 10) as Hlt by (vm_compute; reflexivity).
  destruct (C88_encrypted inflate ccitt toy_md5 toy_md5 (fun _ => true) (fun _ b => b) 49 55 ex_doc 4 0 ex_dict 1 0 2 3 (-44) 128
    (bs "010203FF") [OHex (bs "010203FF")] ex_id (bs "owner") (bs "user") ex_key (bs "user") 16 eq_refl toy_md5_len (fun _ _ => eq_refl) eq_refl eq_refl ex_doc_ok) with
    (D := 1%nat) (m := Z.to_nat (4 * zlen (file_of 49 55 [mkRev (seal_all toy_md5 ex_key (rv_objs ex_doc)) (rv_trailer ex_doc)]) + 8)) (k := 2%nat)
    as (c & E & HS); try reflexivity; try exact Hlt.
  all: lazymatch goal with
    | |- Forall _ _ => repeat constructor; cbn; lia
    | |- In _ _ => cbn; auto
    | |- written _ _ _ _ _ _ _ _ _ _ => exact C61_ex_written
    | |- _ \/ _ => left; reflexivity
    | |- (_ < _)%nat => apply le_n
    | |- (_ <= _)%nat => apply le_n
    | |- _ <= Z.of_nat _ => pose proof (zlen_nonneg (file_of 49 55 [mkRev (seal_all toy_md5 ex_key (rv_objs ex_doc)) (rv_trailer ex_doc)])) as H0; rewrite Z2Nat.id; [apply Z.le_refl|clear -H0; lia]
    | |- _ => idtac
    end.
  eexists _, _. split; [exact E|]. exact (HS [(2, 3); (9, 0); (2, 3)]).
Qed.
Print Assumptions C88_open_document.
Print Assumptions C88_block_size.
Print Assumptions C88_open_pdf.
Print Assumptions C88_written.
Print Assumptions C88_written_once.
Print Assumptions C88_modern.
Print Assumptions C88_deferred.
Print Assumptions C88_encrypted.
Print Assumptions C88_viewer.
Print Assumptions C88_refuted.
