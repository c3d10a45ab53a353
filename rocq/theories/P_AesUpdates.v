(** C102, continued: AES-encrypted documents that were saved by incremental updates. *)
From Coq Require Import String.
From Verif Require Import Prelude M_Prog M_Parser M_Filters S_Filters M_Document M_Objects S_Objects P_Objects M_Viewer S_Viewer L_Viewer
  M_Nav P_Nav M_Decoder M_App S_App L_App L_App2 L_App3 P_App S_Syntax S_Stream P_Text P_Echo S_Page L_View P_View
  S_Print L_Print S_Xref S_Document S_Open P_Locate P_Open S_Write P_Write P_Content P_Codec P_Syntax
  M_Secure M_Crypto S_Crypto P_Crypto P_Decrypt S_Sealed P_Secure P_Retold S_Split P_Split P_Aes.
Local Open Scope Z_scope.

(** The revisions in the file, and those of the document: the same ids, what is stored is encrypted. *)
Definition stored_revisions md5 aes_enc h (revs raws : list revision) : Prop :=
  Forall2 (fun d r => stored_objects md5 aes_enc h (rv_objs d) (rv_objs r)) revs raws.

Lemma stored_find md5 aes_enc h objs raw n g : stored_objects md5 aes_enc h objs raw ->
  match find_obj objs n g with Some v => exists v', find_obj raw n g = Some v' /\ Stored md5 aes_enc h n g v v' | None => find_obj raw n g = None end.
Proof.
  induction 1 as [|[[n0 g0] v0] [[n1 g1] v1] objs raw (A & B & C) HF IH]; [reflexivity|]. cbn [fst snd] in *. injection A as <- <-. cbn [find_obj].
  destruct ((n0 =? n) && (g0 =? g)) eqn:E; [|exact IH]. apply andb_true_iff in E. assert (n0 = n /\ g0 = g) as [-> ->] by lia. eauto.
Qed.
Lemma stored_current md5 aes_enc h revs raws n g : stored_revisions md5 aes_enc h revs raws ->
  match current revs n g with Some v => exists v', current raws n g = Some v' /\ Stored md5 aes_enc h n g v v' | None => current raws n g = None end.
Proof.
  induction 1 as [|d r revs raws H HF IH]; [reflexivity|]. cbn [current]. pose proof (stored_find md5 aes_enc h _ _ n g H) as HX.
  destruct (find_obj (rv_objs d) n g); [destruct HX as (v' & -> & HX); eauto|rewrite HX; exact IH].
Qed.
Lemma stored_reads md5 aes_enc h revs raws : stored_revisions md5 aes_enc h revs raws -> Forall (fun d => streams_end (rv_objs d)) revs ->
  exists reads, Forall2 (fun r d => sealed_objects md5 aes_enc h (rv_objs r) (rv_objs d)) raws reads /\
    Forall2 (fun d x => Forall2 (fun x y => fst x = fst y /\ Keeps (snd x) (snd y)) (rv_objs d) (rv_objs x)) revs reads.
Proof.
  induction 1 as [|d r revs raws H HF IH]; intros HE; [exists []; split; constructor|]. inversion HE as [|? ? H1 H2]; subst.
  destruct (IH H2) as (reads & A & B). destruct (stored_read _ _ _ _ _ H H1) as (read & C & E).
  exists (mkRev read [] :: reads). split; constructor; auto.
Qed.
Lemma keeps_current revs reads n g :
  Forall2 (fun d x => Forall2 (fun x y : Z * Z * obj => fst x = fst y /\ Keeps (snd x) (snd y)) (rv_objs d) (rv_objs x)) revs reads ->
  match current revs n g with Some v => exists v', current reads n g = Some v' /\ Keeps v v' | None => current reads n g = None end.
Proof.
  induction 1 as [|d x revs reads H HF IH]; [reflexivity|]. cbn [current]. pose proof (keeps_find _ _ n g H) as HX.
  destruct (find_obj (rv_objs d) n g); [destruct HX as (v' & -> & HX); eauto|rewrite HX; exact IH].
Qed.
Lemma map_somes {X} (o : X -> option obj) ids vs : map o ids = map Some vs ->
  Forall (fun id => o id <> None) ids /\ map (fun id => Ok (match o id with Some v => v | None => ONull end)) ids = map (@Ok obj) vs.
Proof.
  revert vs. induction ids as [|id ids IH]; intros [|v vs] H; try discriminate; [split; constructor|]. cbn [map] in H. injection H as H1 H2.
  destruct (IH vs H2) as [A B]. split; [constructor; [congruence|exact A]|]. cbn [map]. now rewrite H1, B.
Qed.

(** C102.  The document's revisions, newest first; what the viewer shows is the document as it is now ([current]).  Lookups of its
    ids, in any order, answer its newest objects, but streams have their padding after their data. *)
Theorem C102_updated : forall real_str python python_decode inflate ccitt cid md5 sha256 rc4_size aes_enc aes_dec a b raws revs en eg e rn rg pw h ps pages,
  (forall x pad y, inflate x = Some y -> inflate (x ++ pad) = Some y) ->
  (forall x, List.length (md5 x) = 16%nat) -> (forall k, 5 <= k <= 16 -> rc4_size k = true) -> cipher aes_enc aes_dec ->
  is_digit a = true -> is_digit b = true -> raws <> [] -> Forall rev_ok raws -> zlen (file_of a b raws) < 10 ^ 10 ->
  stored_revisions md5 aes_enc h revs raws -> Forall (fun d => streams_end (rv_objs d)) revs ->
  let o := current revs in let t := trailer_of_file a b raws in
  dget t (bs "Encrypt") = Some (ORef en eg) -> o en eg = Some (ODict e) -> e <> [] ->
  dget t (bs "Root") = Some (ORef rn rg) ->
  trailer_handler md5 sha256 rc4_size aes_dec (fun _ _ => ODict e) t pw = Ok (Some h) ->
  Document o t ps -> ps <> [] -> Forall2 (page_is o inflate python) ps pages ->
  forall D m k, (0 < D)%nat -> 4 * zlen (file_of a b raws) + 8 <= Z.of_nat m -> (List.length raws <= k)%nat -> (2 <= k)%nat ->
  exists s v look, arun (file_of a b raws) (open_pdf inflate ccitt D m md5 sha256 rc4_size aes_dec k pw) (mkA 0 [] rst0) = (Ok ([a; 46; b], t, Some h, v), s) /\
  (forall ids vs, map (fun id => look (fst id) (snd id)) ids = map Some vs ->
     fst (session inflate ccitt (decrypt_object md5 rc4_size aes_dec (Some h)) D m k (file_of a b raws) s ids) = map Ok vs) /\
  (forall n g, match o n g with Some v => exists v', look n g = Some v' /\ Keeps v v' | None => look n g = None end) /\
  viewer_over real_str python python_decode inflate ccitt cid look t (fun cs => Forall2 (drawn_as look inflate python) pages cs) /\
  viewer_over real_str python python_decode inflate ccitt cid look t (fun cs => Forall2 (retold_as look inflate python real_str) pages cs).
Proof.
  intros real_str python python_decode inflate ccitt cid md5 sha256 rc4_size aes_enc aes_dec a b raws revs en eg e rn rg pw h ps pages
    Hinf H1 H2 H3 H4 H5 Hra H6 H7 HSt HEnd o t H8 H9 H10 H11 H12 HD Hne HF D m k K1 K2 K3 K4.
  destruct (stored_reads _ _ _ _ _ HSt HEnd) as (reads & HS & HKp).
  assert (forall n g, match o n g with Some v => exists v', current reads n g = Some v' /\ Keeps v v' | None => current reads n g = None end) as HK
    by (intros n g; exact (keeps_current revs reads n g HKp)).
  assert (current raws en eg = Some (ODict e)) as H9'.
  { pose proof (stored_current _ _ _ _ _ en eg HSt) as X. unfold o in H9. rewrite H9 in X. destruct X as (v' & -> & X). inversion X; subst. reflexivity. }
  assert (current raws rn rg <> None) as H11'.
  { destruct HD as (n & g & c & d & l & X1 & X2 & _). rewrite H11 in X1. injection X1 as <- <-. unfold meant in X2.
    pose proof (stored_current _ _ _ _ _ rn rg HSt) as X. fold o in X. destruct (o rn rg); [|discriminate X2]. destruct X as (v' & -> & _). discriminate. }
  destruct (C81_written_documents inflate ccitt md5 sha256 rc4_size aes_enc aes_dec a b raws reads en eg e rn rg pw h H1 H2 H3 H4 H5 Hra H6 H7 HS H8 H9' H10 H11 H11' H12 D m k K1 K2 K3 K4) as (s & E & HSe).
  exists s, (denoted (current reads) rn rg), (current reads). split; [exact E|]. split; [|split; [exact HK|]].
  - intros ids vs Hv. destruct (map_somes (fun id => current reads (fst id) (snd id)) ids vs Hv) as [A B]. rewrite (HSe ids A). exact B.
  - pose proof (document_keeps o (current reads) HK t ps HD) as HD'.
    assert (Forall2 (page_is (current reads) inflate python) ps pages) as HF'.
    { eapply Forall2_impl; [|exact HF]. intros d p Hp. unfold page_is in *. eapply (page_keeps o (current reads) inflate python HK Hinf). exact Hp. }
    split; [exact (C85_viewer (current reads) inflate python python_decode ccitt cid real_str t ps pages HD' Hne HF')|exact (C100_viewer (current reads) inflate python python_decode ccitt cid real_str t ps pages HD' Hne HF')].
Qed.
Print Assumptions C102_updated.

(** The document of P_Aes.v, whose content was added by an update: first the object 5 was an empty array. *)
Definition u_old : revision := mkRev (a_front ++ (5, 0, OArr []) :: a_back) v_sealed_trailer.
Definition u_new : revision := mkRev [(5, 0, OStream [(bs "Length", OInt (zlen a_data)); (bs "Filter", OName (bs "FlateDecode"))] a_data)] v_sealed_trailer.
Definition u_raw : revision := mkRev [(5, 0, OStream [(bs "Length", OInt (zlen a_cipher)); (bs "Filter", OName (bs "FlateDecode"))] a_cipher)] v_sealed_trailer.
Notation u_o := (current [u_new; u_old]).
Notation u_t := (trailer_of_file 49 55 [u_raw; u_old]).
Ltac u_wr :=
  wr; first [apply bytes_ok_b; reflexivity | reflexivity | discriminate | (vm_compute; discriminate) | idtac];
  let x := eval vm_compute in (bs "010203FF") in change (bs "010203FF") with x;
    repeat (constructor; [first [exists 0; split; [lia|reflexivity] | exists 1; split; [lia|reflexivity] | exists 2; split; [lia|reflexivity]
      | exists 3; split; [lia|reflexivity] | exists 15; split; [lia|reflexivity]]|]); constructor.
Example u_old_ok : rev_ok u_old.
Proof.
  unfold rev_ok, u_old, a_front, a_back, v_sealed_trailer, r_page, P_App.ex_font2, v_lf, a_dict, a_cf. cbn [app rv_objs rv_trailer map fst snd writable printable fold_right]. u_wr.
Qed.
Example u_raw_ok : rev_ok u_raw.
Proof.
  unfold rev_ok, u_raw, v_sealed_trailer. cbn [app rv_objs rv_trailer map fst snd writable printable fold_right]. u_wr.
Qed.
Example u_stored : stored_revisions toy_md5 (fun _ b => b) (HCrypt a_key true Aes128 Aes128) [u_new; u_old] [u_raw; u_old].
Proof.
  constructor; [|constructor; [|constructor]].
  - constructor; [|constructor]. pose proof a_stored as H. unfold stored_objects, a_objs, a_raw, a_front in H. cbn [app] in H.
    inversion H as [|? ? ? ? _ H1]; subst. inversion H1 as [|? ? ? ? _ H2]; subst. inversion H2 as [|? ? ? ? _ H3]; subst. inversion H3 as [|? ? ? ? H4 _]; subst. exact H4.
  - unfold stored_objects, u_old, a_front, a_back. cbn [rv_objs app].
    repeat (apply Forall2_cons; [cbn [fst snd]; split; [reflexivity|]; split; [lia|apply So_plain; [exact I|discriminate]]|]). apply Forall2_nil.
Qed.
Example u_document : Document u_o u_t [r_page].
Proof.
  exists 1, 0, [(bs "Type", OName (bs "Catalog")); (bs "Pages", ORef 2 0)], [(bs "Type", OName (bs "Pages")); (bs "Kids", OArr [ORef 3 0]); (bs "Count", OInt 1)], [ORef 3 0].
  split; [vm_compute; reflexivity|]. split; [reflexivity|]. split; [apply typed_class; cbn; auto|]. split; [reflexivity|]. split; [reflexivity|]. split; [reflexivity|].
  apply (Pi_cons _ (ORef 3 0) _ [r_page] []); [apply Pa_page with (d := r_page); reflexivity|constructor].
Qed.
Example u_level : LevelOk u_o v_lf.
Proof.
  split; [split; reflexivity|]. split; [repeat constructor; cbn; intuition discriminate|]. intros k v [E|[]]; injection E as <- <-.
  change (eqlZ (bs "Font") (bs "ProcSet")) with false. exists [(bs "F1", ORef 8 0)]. split; [reflexivity|]. split; [reflexivity|]. split; [repeat constructor; auto|].
  intros k' x [E|[]]. injection E as _ <-. exists (VDict (Some (bs "Font")) (rd P_App.ex_font2)). apply mean_dict; [reflexivity|apply typed_class; [reflexivity|cbn; auto 20]].
Qed.
Example u_page_is python : page_is u_o a_inflate python r_page (r_its, [v_lf], [bs "Hi"; [196]; bs "a(b"]).
Proof.
  unfold page_is. cbn [fst snd]. exists [], (S_App.content_text r_its). split.
  { exists (ORef 5 0). split; [reflexivity|left]. eexists _, a_data. split; [reflexivity|]. split; [left; reflexivity|].
    apply De_one with (f := bs "FlateDecode"); [reflexivity|left; reflexivity|]. apply Enc_fl; [left; reflexivity|vm_compute; reflexivity]. }
  split; [constructor|]. split.
  { apply content_written. unfold r_its. wops; cbn [printable fold_right]; try (apply bytes_ok_b; reflexivity); try exact I; repeat split; try (apply bytes_ok_b; reflexivity); try lia.
    repeat constructor; [exists 8|exists 0]; split; try lia; reflexivity. }
  split. { change [v_lf] with ([v_lf] ++ []). apply Le_up with (p := [(bs "Type", OName (bs "Pages")); (bs "Kids", OArr [ORef 3 0]); (bs "Count", OInt 1)]);
    [left; exists v_lf; repeat split; discriminate|reflexivity|reflexivity|]. apply Le_top; [right; split; [left; reflexivity|reflexivity]|reflexivity]. }
  split; [constructor; [apply u_level|constructor]|]. split.
  - apply each_page. unfold r_its. cbn [each_ok app]. repeat (split; [left; drawop|]). exact I.
  - unfold texts. change (shows None [] r_its) with [(Some (bs "F1"), OStr (bs "Hi")); (Some (bs "F1"), OHex (bs "80")); (@None (list Z), OStr (bs "a(b"))].
    assert (forall v s, Bytes v s -> FontText u_o a_inflate python (res_in u_o "Font" [v_lf] (bs "F1")) v (flat_map (char_of (base_of (Some (bs "MacRomanEncoding")))) s)) as HM.
    { intros v s Hv. change (res_in u_o "Font" [v_lf] (bs "F1")) with (Some (ORef 8 0)).
      apply (Ft_base u_o a_inflate python (ORef 8 0) P_App.ex_font2 [(bs "Type", OName (bs "Encoding")); (bs "BaseEncoding", OName (bs "MacRomanEncoding"))] (bs "MacRomanEncoding") v s); try reflexivity; try discriminate; [split; reflexivity|exact Hv]. }
    constructor; [|constructor; [|constructor; [|constructor]]]; cbn [fst snd].
    + change (bs "Hi") with (flat_map (char_of (base_of (Some (bs "MacRomanEncoding")))) (bs "Hi")). apply HM. apply ex_bytes; [reflexivity|left; reflexivity].
    + change [196] with (flat_map (char_of (base_of (Some (bs "MacRomanEncoding")))) [128]). apply HM. apply ex_bytes; [reflexivity|right; reflexivity].
    + apply Ft_none. apply ex_bytes; [reflexivity|left; reflexivity].
Qed.
Example C102_updated_ex real_str python python_decode ccitt cid :
  let f := file_of 49 55 [u_raw; u_old] in
  exists m s v look, arun f (open_pdf a_inflate ccitt 1 m toy_md5 (fun x => toy_md5 x ++ toy_md5 x) (fun _ => true) (fun _ b => b) 2 (bs "user")) (mkA 0 [] rst0) =
    (Ok (bs "1.7", u_t, Some (HCrypt a_key true Aes128 Aes128), v), s) /\
  viewer_over real_str python python_decode a_inflate ccitt cid look u_t (fun cs => exists c, cs = [c] /\ cv_strings c = [bs "Hi"; [196]; bs "a(b"]).
Proof.
  assert (cipher (fun _ b => b) (fun _ b => b)) as HC by (intros k b _ Hb; split; [exact Hb|reflexivity]).
  intros f. set (m := Z.to_nat (4 * zlen f + 8)).
  destruct (C102_passwords toy_md5 (fun x => toy_md5 x ++ toy_md5 x) (fun _ => true) (fun _ b => b) (fun _ b => b) u_t 20 0 a_dict (-44) 128 (bs "010203FF") [OHex (bs "010203FF")] ex_id (bs "owner") (bs "user")
    a_cf true Aes128 a_O a_U) as [H4 _]; auto.
  { apply toy_md5_len. } { intros x. rewrite app_length, toy_md5_len. reflexivity. } { left. vm_compute. reflexivity. } { left. split; reflexivity. }
  assert (names_method false a_dict a_cf (bs "StmF") Aes128 /\ names_method false a_dict a_cf (bs "StrF") Aes128) as [N1 N2].
  { assert (filter_entry false (ODict [(bs "CFM", OName (bs "AESV2"))]) Aes128) as HF by (exists [(bs "CFM", OName (bs "AESV2"))], (bs "AESV2"); repeat split; right; split; reflexivity).
    split; exists (bs "StdCF"); (split; [reflexivity|]); right; (split; [discriminate|]); exists (ODict [(bs "CFM", OName (bs "AESV2"))]); (split; [left; reflexivity|exact HF]). }
  assert (trailer_handler toy_md5 (fun x => toy_md5 x ++ toy_md5 x) (fun _ => true) (fun _ b => b) (fun _ _ => ODict a_dict) u_t (bs "user") = Ok (Some (HCrypt a_key true Aes128 Aes128))) as Hth.
  { apply H4.
    - repeat split; try reflexivity; left; reflexivity.
    - lia.
    - split; [reflexivity|]. split; [repeat constructor; auto|]. intros k v [X|[]]. injection X as <- <-. exists Aes128, [(bs "CFM", OName (bs "AESV2"))], (bs "AESV2"). repeat split. right. split; reflexivity.
    - exact N1.
    - exact N2.
    - vm_compute. reflexivity.
    - vm_compute. reflexivity.
    - unfold user_entry. vm_compute. reflexivity. }
  destruct (C102_updated real_str python python_decode a_inflate ccitt cid toy_md5 (fun x => toy_md5 x ++ toy_md5 x) (fun _ => true) (fun _ b => b) (fun _ b => b) 49 55 [u_raw; u_old] [u_new; u_old] 20 0 a_dict 1 0 (bs "user")
    (HCrypt a_key true Aes128 Aes128) [r_page] [(r_its, [v_lf], [bs "Hi"; [196]; bs "a(b"])]) with (D := 1%nat) (m := m) (k := 2%nat) as (s & v & look & E & HS & HKp & HV & _); auto.
  - apply a_inflate_ends.
  - apply toy_md5_len.
  - discriminate.
  - constructor; [apply u_raw_ok|constructor; [apply u_old_ok|constructor]].
  - vm_compute. reflexivity.
  - apply u_stored.
  - constructor; [|constructor; [|constructor]].
    + unfold streams_end. cbn [u_new rv_objs]. constructor; [|constructor]. intros d data X. cbn [snd] in X. injection X as <- <-. split; [discriminate|exists (bs "FlateDecode"); split; [cbn; auto 10|left; reflexivity]].
    + unfold streams_end, u_old, a_front, a_back. cbn [rv_objs app]. repeat (constructor; [intros d data X; cbn [snd] in X; discriminate X|]). constructor.
  - discriminate.
  - apply u_document.
  - discriminate.
  - constructor; [apply u_page_is|constructor].
  - subst m. rewrite Z2Nat.id; [apply Z.le_refl|]. pose proof (zlen_nonneg f). clear - H. lia.
  - exists m, s, v, look. split; [exact E|].
    revert HV. unfold viewer_over. intros (root & nb0 & HV). exists root, nb0. intros nb Hnb. destruct (HV nb Hnb) as [n0 HV']. exists n0. intros n Hn.
    destruct (HV' n Hn) as (cs & w & H1 & H2 & H3). exists cs, w. split; [exact H1|]. split; [|exact H3]. inversion H2 as [|p c ps' cs' Hd HR]; subst. inversion HR; subst. exists c. split; [reflexivity|]. apply Hd.
Qed.
