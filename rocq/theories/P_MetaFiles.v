(** C98, continued: metadata of files with cross-reference streams and object streams, of files whose streams' lengths no
    table lists, and of files read through the block-loading buffer. *)
From Coq Require Import String.
From Verif Require Import Prelude M_Prog M_Buffer M_Parser S_Print M_Filters M_Document L_Prog S_Open S_Write P_Locate P_Open S_ModWrite P_ModWrite
  S_Length P_Length L_Blocks L_BlocksL L_BlocksO S_Blocks P_Blocks M_Meta M_Metadata P_Metadata.
Local Open Scope Z_scope.

(** C98 (d).  Files written with cross-reference streams and object streams, in any number of revisions, no id used twice:
    after any lookups the metadata is that of the information dictionary, also when it is inside an object stream. *)
Theorem C98_modern : forall DT (parse_date : list Z -> res DT) inflate ccitt deflate a b r older n g d,
  usual_dates parse_date -> (forall x, inflate (deflate x) = Some x) -> is_digit a = true -> is_digit b = true ->
  let file := modern_file deflate a b (r :: older) in
  Forall mrev_ok (r :: older) -> zlen file < 256 ^ 4 -> NoDup (map fst (file_contents deflate a b (r :: older))) ->
  let t := trailer_read (snd (mwrite deflate a b older)) (mr_trailer r) in
  dget t (bs "Info") = Some (ORef n g) -> find_obj (file_contents deflate a b (r :: older)) n g = Some (ODict d) ->
  forall D m k, (2 <= D)%nat -> 4 * zlen file + 8 <= Z.of_nat m -> (List.length older <= k)%nat ->
  exists s, arun file (open_document inflate ccitt no_decrypt D m k) (mkA 0 [] rst0) = (Ok ([a; 46; b], 0, t), s) /\
  exists shown, metadata_shown parse_date d shown /\
  forall k' ids, (1 <= k')%nat ->
    fst (arun file (read_metadata parse_date (locate_object inflate ccitt no_decrypt D m k') t)
           (snd (session inflate ccitt no_decrypt D m k' file s ids))) = Ok (Some shown).
Proof.
  intros DT parse_date inflate ccitt deflate a b r older n g d HP Hrd Ha Hb file HF Hlt Hnd t HI Hc D m k HD Hm Hk.
  destruct (C79_written inflate ccitt deflate a b r older Hrd Ha Hb HF Hlt Hnd D m k HD Hm Hk) as (s & E & HS).
  exists s. split; [exact E|]. destruct (metadata_of_dict parse_date HP d) as (shown & Er & Hr). exists shown. split; [exact Hr|].
  intros k' ids Hk'. specialize (HS k' (ids ++ [(n, g)]) Hk').
  pose proof (last_lookup inflate ccitt no_decrypt D m k' file s ids n g _ HS) as HL. cbn [fst snd] in HL. rewrite Hc in HL.
  rewrite (read_run parse_date file _ t n g (ODict d) _ HI HL). now rewrite Er.
Qed.
Print Assumptions C98_modern.

(** C98 (e).  Files whose streams have their lengths in objects that no table lists. *)
Theorem C98_deferred : forall DT (parse_date : list Z -> res DT) inflate ccitt a b sel items t n g d,
  usual_dates parse_date -> is_digit a = true -> is_digit b = true ->
  let file := deferred_file a b sel items t in
  items_ok items t -> zlen file < 10 ^ 10 ->
  dget t (bs "Info") = Some (ORef n g) -> find_obj (flat_map item_objs items) n g = Some (ODict d) ->
  forall D m k, (0 < D)%nat -> 4 * zlen file + 8 <= Z.of_nat m -> (1 <= k)%nat ->
  exists s, arun file (open_document inflate ccitt no_decrypt D m k) (mkA 0 [] rst0) = (Ok ([a; 46; b], 0, t), s) /\
  exists shown, metadata_shown parse_date d shown /\
  forall k' ids, (4 <= k')%nat ->
    fst (arun file (read_metadata parse_date (locate_object inflate ccitt no_decrypt D m k') t)
           (snd (session inflate ccitt no_decrypt D m k' file s ids))) = Ok (Some shown).
Proof.
  intros DT parse_date inflate ccitt a b sel items t n g d HP Ha Hb file Hok Hlt HI Hc D m k HD Hm Hk.
  destruct (C80_written inflate ccitt a b sel items t Ha Hb Hok Hlt D m k HD Hm Hk) as (s & E & HS).
  exists s. split; [exact E|]. destruct (metadata_of_dict parse_date HP d) as (shown & Er & Hr). exists shown. split; [exact Hr|].
  intros k' ids Hk'. specialize (HS k' (ids ++ [(n, g)]) Hk').
  pose proof (last_lookup inflate ccitt no_decrypt D m k' file s ids n g _ HS) as HL. cbn [fst snd] in HL. rewrite Hc in HL.
  rewrite (read_run parse_date file _ t n g (ODict d) _ HI HL). now rewrite Er.
Qed.
Print Assumptions C98_deferred.

(** C98 (f).  Read through the block-loading buffer, whatever the block size, the metadata is what it is on the plain cursor,
    exceptions included: for any file that ends properly and opens, after any lookups. *)
Theorem C98_blocks : forall DT (parse_date : list Z -> res DT) inflate ccitt dec D m k f B r s,
  0 < B -> ends_properly f -> 4 * zlen f + 8 <= Z.of_nat m ->
  arun f (open_document inflate ccitt dec D m k) (mkA 0 [] rst0) = (Ok r, s) ->
  exists c, crun f B (open_document inflate ccitt dec D m k) (mkC (b_reset f B 0) [] rst0) = (Ok r, c) /\
  forall dec' D' m' k' ids t,
    fst (crun f B (read_metadata parse_date (locate_object inflate ccitt dec' D' m' k') t)
           (snd (buffered_session inflate ccitt dec' D' m' k' B f c ids))) =
    fst (arun f (read_metadata parse_date (locate_object inflate ccitt dec' D' m' k') t)
           (snd (session inflate ccitt dec' D' m' k' f s ids))).
Proof.
  intros DT parse_date inflate ccitt dec D m k f B r s HB He Hm E.
  destruct (open_linked inflate ccitt D m f B HB He Hm dec k r s E) as (c & C & L). exists c. split; [exact C|].
  intros dec' D' m' k' ids t. destruct (linked_session inflate ccitt D' m' f B HB dec' k' ids s c L) as [_ L2].
  set (s2 := snd (session inflate ccitt dec' D' m' k' f s ids)) in *. set (c2 := snd (buffered_session inflate ccitt dec' D' m' k' B f c ids)) in *.
  clearbody s2 c2. unfold read_metadata. cbv zeta. destruct (truthy (oget t (bs "Info"))); [|reflexivity].
  destruct (oget t (bs "Info")) as [| | | | | | | | | |n g| |]; try reflexivity.
  destruct (linked_jw f B _ _ s2 c2 HB L2 (j_locate inflate ccitt dec' D' m' f B k' n g 0)) as [EL _].
  rewrite arun_bind, crun_bind.
  destruct (arun f (locate_object inflate ccitt dec' D' m' k' n g) s2) as [v s3]. destruct (crun f B (locate_object inflate ccitt dec' D' m' k' n g) c2) as [v' c3].
  cbn [fst] in EL. subst v'. destruct v as [v|e]; [|reflexivity]. cbv beta iota. destruct (metadata_of parse_date v); reflexivity.
Qed.
Print Assumptions C98_blocks.

(** A file with two revisions whose information dictionary is in the object stream of the new one. *)
Definition mex_info : mrev :=
  mkMRev [(4, 1, OStr (bs "new"))] [(12, [(5, ODict [(bs "Title", OStr (bs "Report")); (bs "Creator", OName (bs "me"))])])] 13 3 11
         [(bs "Size", OInt 14); (bs "Root", ORef 1 0); (bs "Info", ORef 5 0)].
Example mex_info_ok : mrev_ok mex_info. Proof. unfold mex_info. mwr. Qed.
Example C98_ex_modern ccitt : let f := modern_file store_only 49 53 [mex_info; mex_old] in exists s m t shown,
  arun f (open_document Some ccitt no_decrypt 2 m 1) (mkA 0 [] rst0) = (Ok (bs "1.5", 0, t), s) /\
  fst (arun f (read_metadata toy_dates (locate_object Some ccitt no_decrypt 2 m 1) t)
    (snd (session Some ccitt no_decrypt 2 m 1 f s [(3, 0); (5, 0); (9, 0)]))) = Ok (Some shown) /\
  metadata_shown toy_dates [(bs "Title", OStr (bs "Report")); (bs "Creator", OName (bs "me"))] shown.
Proof.
  cbv zeta. set (m := Z.to_nat (4 * zlen (modern_file store_only 49 53 [mex_info; mex_old]) + 8)).
  assert (4 * zlen (modern_file store_only 49 53 [mex_info; mex_old]) + 8 <= Z.of_nat m) as Hm.
  { unfold m. pose proof (zlen_nonneg (modern_file store_only 49 53 [mex_info; mex_old])). rewrite Z2Nat.id; lia. }
  clearbody m.
  destruct (C98_modern (list Z) toy_dates Some ccitt store_only 49 53 mex_info [mex_old] 5 0 [(bs "Title", OStr (bs "Report")); (bs "Creator", OName (bs "me"))] ltac:(intros t e H; discriminate H) (fun x => eq_refl) eq_refl eq_refl
    (Forall_cons _ mex_info_ok (Forall_cons _ mex_old_ok (Forall_nil _))) ltac:(vm_compute; reflexivity)) with (D := 2%nat) (m := m) (k := 1%nat)
    as (s & E & shown & Hr & HS); [ |reflexivity|reflexivity|apply le_n|exact Hm|apply le_n|].
  - assert (map fst (file_contents store_only 49 53 [mex_info; mex_old]) = [(1, 0); (10, 0); (2, 0); (3, 0); (11, 0); (4, 1); (12, 0); (5, 0); (13, 0)]) as -> by reflexivity.
    repeat (constructor; [cbn [In]; intros X; repeat (destruct X as [X|X]; [discriminate X|]); exact X|]). constructor.
  - eexists s, m, _, shown. split; [exact E|]. split; [apply HS, le_n|exact Hr].
Qed.
