(** C97, continued: the pages of encrypted documents with cross-reference streams. *)
From Coq Require Import String.
From Verif Require Import Prelude M_Prog M_Parser M_Filters S_Filters M_Document M_Objects S_Objects P_Objects M_Viewer S_Viewer L_Viewer
  M_Nav P_Nav M_Decoder M_App S_App L_App L_App2 L_App3 P_App S_Syntax S_Stream P_Text P_Echo S_Page L_View P_View
  S_Print L_Print S_Xref S_Document S_Open P_Locate P_Open S_Write P_Write P_Content P_Codec P_Syntax S_XrefStream S_Modern S_ModWrite P_ModWrite
  M_Secure M_Crypto S_Crypto P_Crypto P_Decrypt L_Sealed S_Sealed P_Secure P_Retold S_Split P_Split P_Aes P_Locked.
Local Open Scope Z_scope.

(** What stands in the file for the document's objects: decrypted, it is the object, with nothing or - if its data end by
    themselves - the padding after them. *)
Definition encrypted_objects md5 aes_enc h (objs raw : list (Z * Z * obj)) : Prop :=
  Forall2 (fun x y => fst x = fst y /\ fst (fst x) <= 4294967295 /\
    exists w, Sealed md5 aes_enc h (fst (fst x)) (snd (fst x)) (snd y) w /\ Keeps (snd x) w) objs raw.
(** the length of the keys that AES needs *)
Definition key_fits (h : handler) : Prop :=
  match h with HCrypt key _ Aes128 _ => List.length key = 16%nat | HCrypt key _ Aes256 _ => List.length key = 32%nat | _ => True end.

Lemma stored_encrypted md5 aes_enc h objs raw : stored_objects md5 aes_enc h objs raw -> streams_end objs -> encrypted_objects md5 aes_enc h objs raw.
Proof.
  intros H HE. destruct (stored_read _ _ _ _ _ H HE) as (read & H1 & H2). clear H HE. revert raw H1. unfold encrypted_objects.
  induction H2 as [|[i v] [i' w] objs read (A & B) _ IH]; intros raw H1; inversion H1 as [|[i2 u] ? raw' ? (C & D & E) HF]; subst; constructor; auto.
  cbn [fst snd] in *. subst i2 i'. split; [reflexivity|]. split; [exact D|]. eauto.
Qed.
Lemma encrypted_read md5 aes_enc h objs raw : encrypted_objects md5 aes_enc h objs raw ->
  exists read, sealed_objects md5 aes_enc h raw read /\ Forall2 (fun x y => fst x = fst y /\ Keeps (snd x) (snd y)) objs read.
Proof.
  induction 1 as [|[i v] [i' u] objs raw (A & B & w & C & D) _ (read & IH1 & IH2)]; [exists []; split; constructor|]. cbn [fst snd] in *. subst i'.
  exists ((i, w) :: read). split; constructor; auto.
Qed.
Lemma dget_printable d k v : printable (ODict d) -> dget d k = Some v -> printable v.
Proof.
  intros [_ H]. induction d as [|[k0 v0] d IH]; [discriminate|]. cbn [dget]. destruct H as (_ & H1 & H2). destruct (eqlZ k k0); [intros X; injection X as <-; exact H1|auto].
Qed.
Lemma writable_held inflate ccitt md5 aes_enc h n g v w : writable v -> Sealed md5 aes_enc h n g v w -> S_Modern.Held inflate ccitt w [].
Proof.
  intros Hv HS. apply H_plain. intros d0 r0 ->.
  assert (exists d r, v = OStream d r /\ dget d0 (bs "Type") = dget d (bs "Type")) as (d & r & -> & ->).
  { inversion HS as [x H1 H2 E1 E2|key d data H E1 E2|key d data iv blocks H1 H2 H3 H4 H5 E1 E2|key d data iv blocks H1 H2 H3 H4 H5 E1 E2|key stm str d data H HT E1 E2]; subst;
      [exfalso; eapply H2; reflexivity|..]; eexists _, _; (split; [reflexivity|]); try reflexivity; apply dset_type. }
  destruct Hv as (HP & _ & HT). intros [X|[X|[X|[]]]]; [now rewrite X in HT|..]; symmetry in X; apply (dget_printable d _ _ HP) in X; cbn [printable] in X; [|exact X].
  destruct X as [X _]. apply Forall_inv in X. destruct X as (y & Hy & E). clear - Hy E.
  assert (hexdig y <= 102) as HH by (unfold hexdig; destruct (y <? 10); lia). assert (hexdig y <> 79) by (unfold hexdig in *; destruct (y <? 10) eqn:?; lia).
  apply H. symmetry. exact E.
Qed.
Lemma sealed_viewed inflate ccitt md5 rc4_size aes_enc aes_dec h raw read :
  (forall x, List.length (md5 x) = 16%nat) -> (forall k, 5 <= k <= 16 -> rc4_size k = true) -> cipher aes_enc aes_dec ->
  Forall (fun e : Z * Z * obj => 0 <= fst (fst e) /\ 0 <= snd (fst e) < 256 ^ 2 /\ writable (snd e)) raw -> sealed_objects md5 aes_enc h raw read ->
  Forall2 (fun x c => Viewed inflate ccitt (decrypt_object md5 rc4_size aes_dec (Some h)) x (c, [])) raw read.
Proof.
  intros Hm Hr HC HF HS. induction HS as [|[[n g] v] [[n' g'] w] raw read (A & B & C) _ IH]; constructor.
  - cbn [fst snd] in *. injection A as <- <-. inversion HF as [|? ? (F1 & F2 & F3) _]; subst. cbn [fst snd] in *. split; [reflexivity|]. split; [reflexivity|]. split.
    + apply (sealed_reads md5 rc4_size aes_enc aes_dec); auto; unfold id32; lia.
    + eapply writable_held; eauto.
  - apply IH. now inversion HF.
Qed.
(** The cross-reference stream, which is not encrypted: decrypting it succeeds, or AES refuses its length. *)
Lemma xref_stream md5 rc4_size aes_dec h n d data : (forall x, List.length (md5 x) = 16%nat) -> (forall k, 5 <= k <= 16 -> rc4_size k = true) -> key_fits h -> id32 n ->
  dget d (bs "Type") = Some (OName (bs "XRef")) ->
  (exists data', decrypt_object md5 rc4_size aes_dec (Some h) n 0 (OStream d data) = Ok (OStream (dset d (bs "Length") (OInt (zlen data'))) data')) \/
  (exists key meta stm str, h = HCrypt key meta stm str /\ (stm = Aes128 \/ stm = Aes256)) /\ (zlen data < 16 \/ zlen data mod 16 <> 0).
Proof.
  intros Hm Hr Hk Hn HT. assert (id32 0) as H0 by (unfold id32; lia). assert (is_metadata d = false) as HM by (unfold is_metadata; now rewrite HT).
  assert (forall key, memZ (zlen key) [16; 24; 32] = true -> zlen data < 16 \/ zlen data mod 16 <> 0 \/ exists p, aes_cbc aes_dec key (firstn 16 data) (skipn 16 data) = Ok p) as HA.
  { intros key Hl. destruct (Z_lt_dec (zlen data) 16) as [H|H]; [auto|]. destruct (Z.eq_dec (zlen data mod 16) 0) as [E|E]; [|auto]. right. right. unfold aes_cbc. rewrite Hl.
    assert (zlen (firstn 16 data) = 16) as -> by (unfold zlen in *; rewrite firstn_length; lia).
    assert (zlen (skipn 16 data) = zlen data - 16) as -> by (unfold zlen in *; rewrite skipn_length; lia).
    assert ((zlen data - 16) mod 16 = 0) as -> by (replace (zlen data - 16) with (zlen data + -1 * 16) by lia; now rewrite Z.mod_add by lia). eexists. reflexivity. }
  destruct h as [key|key meta stm str]; cbn [decrypt_object decrypt_with andb].
  - left. cbn [run_method]. rewrite decrypt_rc4_ok by assumption. eexists. reflexivity.
  - rewrite HM, andb_false_r. destruct stm; cbn [run_method].
    + left. rewrite decrypt_rc4_ok by assumption. eexists. reflexivity.
    + cbn [key_fits] in Hk. unfold decrypt_aes128. rewrite !pack_ok by assumption. cbn [rbind]. cbv zeta.
      match goal with |- context [aes_cbc aes_dec ?kk _ _] => assert (memZ (zlen kk) [16; 24; 32] = true) as Hl end.
      { match goal with |- memZ ?z _ = true => assert (z = 16) as -> end; [|reflexivity]. unfold zlen. rewrite firstn_length, Hm, !app_length, Hk. lia. }
      destruct (HA _ Hl) as [H|[H|[p ->]]]; [right|right|left; eexists; reflexivity]; (split; [eauto 10|auto]).
    + cbn [key_fits] in Hk. unfold decrypt_aes256. assert (memZ (zlen key) [16; 24; 32] = true) as Hl by (unfold zlen; rewrite Hk; reflexivity).
      destruct (HA _ Hl) as [H|[H|[p ->]]]; [right|right|left; eexists; reflexivity]; (split; [eauto 10|auto]).
    + left. eexists. reflexivity.
Qed.

(** C97 (f).  A document written with a cross-reference stream and encrypted, its streams with RC4 or - if they tell where their data end -
    with AES: it opens, and the viewer shows the pages as the document has them, whether or not the cross-reference
    stream can be "decrypted".  Lookups of the document's ids, in any order, answer its objects, but streams may have padding after their data. *)
Theorem C97_pages : forall real_str python python_decode inflate ccitt cid deflate md5 sha256 rc4_size aes_enc aes_dec a b r objs en eg e rn rg pw h ps pages,
  (forall x, inflate (deflate x) = Some x) -> (forall x pad y, inflate x = Some y -> inflate (x ++ pad) = Some y) -> (forall x, deflate x <> []) ->
  (forall x, List.length (md5 x) = 16%nat) -> (forall k, 5 <= k <= 16 -> rc4_size k = true) -> cipher aes_enc aes_dec ->
  is_digit a = true -> is_digit b = true ->
  let f := modern_file deflate a b [r] in let t := trailer_read None (mr_trailer r) in let o := find_obj objs in
  mrev_ok r -> mr_stms r = [] -> zlen f < 256 ^ 4 -> mr_num r < 256 ^ 4 ->
  NoDup (map (fun x => fst (fst x)) (mr_objs r) ++ [mr_num r]) ->
  encrypted_objects md5 aes_enc h objs (mr_objs r) -> key_fits h ->
  mr_first r <= en < mr_first r + Z.of_nat (mr_count r) -> o en eg = Some (ODict e) -> e <> [] ->
  dget (mr_trailer r) (bs "Encrypt") = Some (ORef en eg) -> dget (mr_trailer r) (bs "Root") = Some (ORef rn rg) ->
  trailer_handler md5 sha256 rc4_size aes_dec (fun _ _ => ODict e) t pw = Ok (Some h) ->
  Document o t ps -> ps <> [] -> Forall2 (page_is o inflate python) ps pages ->
  forall D m k, (2 <= D)%nat -> 4 * zlen f + 8 <= Z.of_nat m -> (1 <= k)%nat ->
  exists s v look, arun f (open_pdf inflate ccitt D m md5 sha256 rc4_size aes_dec k pw) (mkA 0 [] rst0) = (Ok ([a; 46; b], t, Some h, v), s) /\
  (forall k' ids vs, (1 <= k')%nat -> map (fun id => look (fst id) (snd id)) ids = map Some vs ->
     fst (session inflate ccitt (decrypt_object md5 rc4_size aes_dec (Some h)) D m k' f s ids) = map Ok vs) /\
  (forall n g, match o n g with Some v => exists v', look n g = Some v' /\ Keeps v v' | None => look n g = None end) /\
  viewer_over real_str python python_decode inflate ccitt cid look t (fun cs => Forall2 (drawn_as look inflate python) pages cs) /\
  viewer_over real_str python python_decode inflate ccitt cid look t (fun cs => Forall2 (retold_as look inflate python real_str) pages cs).
Proof.
  intros real_str python python_decode inflate ccitt cid deflate md5 sha256 rc4_size aes_enc aes_dec a b r objs en eg e rn rg pw h ps pages
    Hround Hinf Hne Hmd Hrc HC Ha Hb f t o Hr Hst Hlt Hnum Hnd HEnc Hkf Hen HE He HtE HtR Hth HD Hps HF D m k HD2 Hm Hk.
  destruct (encrypted_read _ _ _ _ _ HEnc) as (read & HS & HKp).
  assert (forall n g, match o n g with Some v => exists v', find_obj read n g = Some v' /\ Keeps v v' | None => find_obj read n g = None end) as HK
    by (intros n g; exact (keeps_find objs read n g HKp)).
  pose proof (sealed_viewed inflate ccitt md5 rc4_size aes_enc aes_dec h _ _ Hmd Hrc HC (proj1 Hr) HS) as HV.
  assert (In (en, eg, ODict e) (mr_objs r)) as Hin.
  { pose proof (HK en eg) as X. rewrite HE in X. destruct X as (v' & X & Y). inversion Y; subst. pose proof (sealed_find md5 aes_enc h _ _ en eg HS) as Z1.
    destruct (find_obj (mr_objs r) en eg) as [u|] eqn:Eu; [|rewrite X in Z1; discriminate]. destruct Z1 as (w & Hw & _ & HSe). rewrite X in Hw. injection Hw as <-.
    inversion HSe; subst. now apply in_find. }
  assert (In (rn, rg) (map fst read)) as Hroot.
  { destruct HD as (n & g & c & d & l & X1 & X2 & _). assert (dget t (bs "Root") = dget (mr_trailer r) (bs "Root")) as Et.
    { unfold t, trailer_read. cbn [map]. rewrite HtR. reflexivity. }
    rewrite Et, HtR in X1. injection X1 as <- <-. unfold meant in X2. pose proof (HK rn rg) as X. destruct (o rn rg); [|discriminate X2]. destruct X as (v' & X & _).
    apply in_find in X. exact (in_map fst _ _ X). }
  set (stream := xvalue deflate (zlen (version_line a b)) None r).
  assert (exists data, stream = OStream (xdict None r ++ [(bs "Filter", OName (bs "FlateDecode")); (bs "Length", OInt (zlen data))]) data /\ data <> []) as (data & Estm & Hdata).
  { eexists. split; [reflexivity|apply Hne]. }
  assert (exists s v, arun f (open_pdf inflate ccitt D m md5 sha256 rc4_size aes_dec k pw) (mkA 0 [] rst0) = (Ok ([a; 46; b], t, Some h, v), s) /\
    forall k' ids vs, (1 <= k')%nat -> map (fun id => find_obj read (fst id) (snd id)) ids = map Some vs ->
      fst (session inflate ccitt (decrypt_object md5 rc4_size aes_dec (Some h)) D m k' f s ids) = map Ok vs) as (s & v & E & HSe).
  { destruct (xref_stream md5 rc4_size aes_dec h (mr_num r) (xdict None r ++ [(bs "Filter", OName (bs "FlateDecode")); (bs "Length", OInt (zlen data))]) data Hmd Hrc Hkf) as [[data' Ed]|[(key & meta & stm & str & Eh & Hstm) Hbad]].
    - unfold id32. destruct Hr as (_ & _ & Hr0 & _). lia.
    - reflexivity.
    - destruct (C97_written inflate ccitt deflate md5 sha256 rc4_size aes_dec a b r en eg e rn rg pw h read (OStream (dset (xdict None r ++ [(bs "Filter", OName (bs "FlateDecode")); (bs "Length", OInt (zlen data))]) (bs "Length") (OInt (zlen data'))) data')
        Hround Ha Hb Hr Hst Hlt Hnd Hen Hin He HtE HtR Hth HV) with (D := D) (m := m) (k := k) as (s & E & HSe); auto.
      + fold stream. rewrite Estm. split; [reflexivity|]. split; [reflexivity|]. split; [exact Ed|]. apply H_plain. intros d0 r0 X.
        match type of X with OStream ?d1 _ = _ => assert (dget d1 (bs "Type") = Some (OName (bs "XRef"))) as Hd by (rewrite dset_type; reflexivity); assert (d1 = d0) as Edd by congruence; rewrite Edd in Hd end.
        rewrite Hd. intros [Y|[Y|[Y|[]]]]; discriminate Y.
      + exists s. eexists. split; [exact E|]. intros k' ids vs Hk' Hids. etransitivity; [exact (HSe k' ids Hk')|]. clear - Hids. revert vs Hids.
        induction ids as [|id ids IH]; intros [|v vs] H; try discriminate; [reflexivity|]. cbn [map] in *. injection H as H1 H2. rewrite H1. f_equal. auto.
    - subst h. destruct (C97_written_refuted inflate ccitt deflate md5 sha256 rc4_size aes_dec a b r en eg e rn rg pw key meta stm str read
        Hround Ha Hb Hr Hst Hlt Hnum Hnd Hen Hin He HtE HtR Hth Hstm HV Hroot) with (D := D) (m := m) (k := k) as (s & root & E & _ & HSe); auto.
      + fold stream. rewrite Estm. intros data0 X. injection X as _ X. subst data0. auto.
      + exists s, root. split; [exact E|]. intros k' ids vs Hk' Hids. etransitivity; [exact (HSe k' ids Hk')|]. clear - Hids. revert vs Hids.
        induction ids as [|id ids IH]; intros [|v vs] H; try discriminate; [reflexivity|]. cbn [map] in *. injection H as H1 H2. rewrite H1. f_equal. auto. }
  exists s, v, (find_obj read). split; [exact E|]. split; [exact HSe|]. split; [exact HK|].
  pose proof (document_keeps o (find_obj read) HK t ps HD) as HD'.
  assert (Forall2 (page_is (find_obj read) inflate python) ps pages) as HF'.
  { eapply Forall2_impl; [|exact HF]. intros d p Hp. unfold page_is in *. eapply (page_keeps o (find_obj read) inflate python HK Hinf). exact Hp. }
  split; [exact (C85_viewer (find_obj read) inflate python python_decode ccitt cid real_str t ps pages HD' Hps HF')|exact (C100_viewer (find_obj read) inflate python python_decode ccitt cid real_str t ps pages HD' Hps HF')].
Qed.
Print Assumptions C97_pages.

(** *** The AES-128 document of C102, written with a cross-reference stream *)
Definition q_rev : mrev := mkMRev a_raw [] 21 0 22 v_sealed_trailer.
Definition q_deflate (x : list Z) : list Z := zlen x :: x.
Lemma q_round x : a_inflate (q_deflate x) = Some x.
Proof. cbn [a_inflate q_deflate]. rewrite Z.leb_refl. unfold zlen. now rewrite Nat2Z.id, firstn_all. Qed.
Example q_ok : mrev_ok q_rev.
Proof.
  destruct a_ok as (H1 & _ & H3 & _). unfold mrev_ok. cbn [q_rev mr_objs mr_stms mr_num mr_first mr_trailer rv_objs rv_trailer] in *.
  split; [|split; [constructor|split; [lia|split; [lia|split; [exact H3|repeat (constructor; [reflexivity|]); constructor]]]]].
  assert (Forall (fun e : Z * Z * obj => snd (fst e) = 0) a_raw) as H0 by (unfold a_raw, a_front, a_back; cbn [app]; repeat (constructor; [reflexivity|]); constructor).
  rewrite Forall_forall in *. intros x Hx. destruct (H1 x Hx) as (A & _ & C). split; [exact A|]. split; [rewrite (H0 x Hx); lia|exact C].
Qed.
Definition q_t : dict := Eval vm_compute in trailer_read None v_sealed_trailer.
Notation q_o := (find_obj a_objs).
Example q_document : Document q_o q_t [r_page].
Proof.
  exists 1, 0, [(bs "Type", OName (bs "Catalog")); (bs "Pages", ORef 2 0)], [(bs "Type", OName (bs "Pages")); (bs "Kids", OArr [ORef 3 0]); (bs "Count", OInt 1)], [ORef 3 0].
  split; [reflexivity|]. split; [reflexivity|]. split; [apply typed_class; cbn; auto|]. split; [reflexivity|]. split; [reflexivity|]. split; [reflexivity|].
  apply (Pi_cons _ (ORef 3 0) _ [r_page] []); [apply Pa_page with (d := r_page); reflexivity|constructor].
Qed.
Example q_level : LevelOk q_o v_lf.
Proof.
  split; [split; reflexivity|]. split; [repeat constructor; cbn; intuition discriminate|]. intros k v [E|[]]; injection E as <- <-.
  change (eqlZ (bs "Font") (bs "ProcSet")) with false. exists [(bs "F1", ORef 8 0)]. split; [reflexivity|]. split; [reflexivity|]. split; [repeat constructor; auto|].
  intros k' x [E|[]]. injection E as _ <-. exists (VDict (Some (bs "Font")) (rd P_App.ex_font2)). apply mean_dict; [reflexivity|apply typed_class; [reflexivity|cbn; auto 20]].
Qed.
Example q_page_is python : page_is q_o a_inflate python r_page (r_its, [v_lf], [bs "Hi"; [196]; bs "a(b"]).
Proof.
  unfold page_is. cbn [fst snd]. exists [], (S_App.content_text r_its). split.
  { exists (ORef 5 0). split; [reflexivity|left]. eexists _, a_data. split; [reflexivity|]. split; [left; reflexivity|].
    apply De_one with (f := bs "FlateDecode"); [reflexivity|left; reflexivity|]. apply Enc_fl; [left; reflexivity|vm_compute; reflexivity]. }
  split; [constructor|]. split.
  { apply content_written. unfold r_its. wops; cbn [printable fold_right]; try (apply bytes_ok_b; reflexivity); try exact I; repeat split; try (apply bytes_ok_b; reflexivity); try lia.
    repeat constructor; [exists 8|exists 0]; split; try lia; reflexivity. }
  split. { change [v_lf] with ([v_lf] ++ []). apply Le_up with (p := [(bs "Type", OName (bs "Pages")); (bs "Kids", OArr [ORef 3 0]); (bs "Count", OInt 1)]);
    [left; exists v_lf; repeat split; discriminate|reflexivity|reflexivity|]. apply Le_top; [right; split; [left; reflexivity|reflexivity]|reflexivity]. }
  split; [constructor; [apply q_level|constructor]|]. split.
  - apply each_page. unfold r_its. cbn [each_ok app]. repeat (split; [left; drawop|]). exact I.
  - unfold texts. change (shows None [] r_its) with [(Some (bs "F1"), OStr (bs "Hi")); (Some (bs "F1"), OHex (bs "80")); (@None (list Z), OStr (bs "a(b"))].
    assert (forall v s, Bytes v s -> FontText q_o a_inflate python (res_in q_o "Font" [v_lf] (bs "F1")) v (flat_map (char_of (base_of (Some (bs "MacRomanEncoding")))) s)) as HM.
    { intros v s Hv. change (res_in q_o "Font" [v_lf] (bs "F1")) with (Some (ORef 8 0)).
      apply (Ft_base q_o a_inflate python (ORef 8 0) P_App.ex_font2 [(bs "Type", OName (bs "Encoding")); (bs "BaseEncoding", OName (bs "MacRomanEncoding"))] (bs "MacRomanEncoding") v s); try reflexivity; try discriminate; [split; reflexivity|exact Hv]. }
    constructor; [|constructor; [|constructor; [|constructor]]]; cbn [fst snd].
    + change (bs "Hi") with (flat_map (char_of (base_of (Some (bs "MacRomanEncoding")))) (bs "Hi")). apply HM. apply ex_bytes; [reflexivity|left; reflexivity].
    + change [196] with (flat_map (char_of (base_of (Some (bs "MacRomanEncoding")))) [128]). apply HM. apply ex_bytes; [reflexivity|right; reflexivity].
    + apply Ft_none. apply ex_bytes; [reflexivity|left; reflexivity].
Qed.
Example C97_pages_ex real_str python python_decode ccitt cid :
  let f := modern_file q_deflate 49 55 [q_rev] in
  exists m s v look, arun f (open_pdf a_inflate ccitt 2 m toy_md5 (fun x => toy_md5 x ++ toy_md5 x) (fun _ => true) (fun _ b => b) 2 (bs "user")) (mkA 0 [] rst0) =
    (Ok (bs "1.7", q_t, Some (HCrypt a_key true Aes128 Aes128), v), s) /\
  (exists w, look 5 0 = Some w /\ Keeps (OStream [(bs "Length", OInt (zlen a_data)); (bs "Filter", OName (bs "FlateDecode"))] a_data) w) /\
  viewer_over real_str python python_decode a_inflate ccitt cid look q_t (fun cs => exists c, cs = [c] /\ cv_strings c = [bs "Hi"; [196]; bs "a(b"]).
Proof.
  assert (cipher (fun _ b => b) (fun _ b => b)) as HC by (intros k b _ Hb; split; [exact Hb|reflexivity]).
  intros f. set (m := Z.to_nat (4 * zlen f + 8)).
  destruct (C102_passwords toy_md5 (fun x => toy_md5 x ++ toy_md5 x) (fun _ => true) (fun _ b => b) (fun _ b => b) q_t 20 0 a_dict (-44) 128 (bs "010203FF") [OHex (bs "010203FF")] ex_id (bs "owner") (bs "user")
    a_cf true Aes128 a_O a_U) as [H4 _]; auto.
  { apply toy_md5_len. } { intros x. rewrite app_length, toy_md5_len. reflexivity. } { left. vm_compute. reflexivity. } { left. split; reflexivity. }
  assert (names_method false a_dict a_cf (bs "StmF") Aes128 /\ names_method false a_dict a_cf (bs "StrF") Aes128) as [N1 N2].
  { assert (filter_entry false (ODict [(bs "CFM", OName (bs "AESV2"))]) Aes128) as HF by (exists [(bs "CFM", OName (bs "AESV2"))], (bs "AESV2"); repeat split; right; split; reflexivity).
    split; exists (bs "StdCF"); (split; [reflexivity|]); right; (split; [discriminate|]); exists (ODict [(bs "CFM", OName (bs "AESV2"))]); (split; [left; reflexivity|exact HF]). }
  assert (trailer_handler toy_md5 (fun x => toy_md5 x ++ toy_md5 x) (fun _ => true) (fun _ b => b) (fun _ _ => ODict a_dict) q_t (bs "user") = Ok (Some (HCrypt a_key true Aes128 Aes128))) as Hth.
  { apply H4.
    - repeat split; try reflexivity; left; reflexivity.
    - lia.
    - split; [reflexivity|]. split; [repeat constructor; auto|]. intros k v [X|[]]. injection X as <- <-. exists Aes128, [(bs "CFM", OName (bs "AESV2"))], (bs "AESV2"). repeat split. right. split; reflexivity.
    - exact N1.
    - exact N2.
    - vm_compute. reflexivity.
    - vm_compute. reflexivity.
    - unfold user_entry. vm_compute. reflexivity. }
  destruct (C97_pages real_str python python_decode a_inflate ccitt cid q_deflate toy_md5 (fun x => toy_md5 x ++ toy_md5 x) (fun _ => true) (fun _ b => b) (fun _ b => b) 49 55 q_rev a_objs 20 0 a_dict 1 0 (bs "user")
    (HCrypt a_key true Aes128 Aes128) [r_page] [(r_its, [v_lf], [bs "Hi"; [196]; bs "a(b"])]) with (D := 2%nat) (m := m) (k := 2%nat) as (s & v & look & E & HS & HKp & HV & _); auto.
  - apply q_round.
  - apply a_inflate_ends.
  - intros x. discriminate.
  - apply toy_md5_len.
  - apply q_ok.
  - vm_compute. reflexivity.
  - cbn; lia.
  - unfold q_rev, a_raw, a_front, a_back. cbn [mr_objs mr_num map fst app]. repeat (constructor; [cbn [In]; lia|]). constructor.
  - apply stored_encrypted; [apply a_stored|].
    unfold streams_end, a_objs, a_front, a_back. cbn [app]. repeat (constructor; [intros d data X; cbn [snd] in X; first [discriminate X|injection X as <- <-; split; [discriminate|exists (bs "FlateDecode"); split; [cbn; auto 10|left; reflexivity]]]|]). constructor.
  - vm_compute. reflexivity.
  - cbn; lia.
  - discriminate.
  - apply q_document.
  - discriminate.
  - constructor; [apply q_page_is|constructor].
  - subst m. rewrite Z2Nat.id; [apply Z.le_refl|]. pose proof (zlen_nonneg f). clear - H. lia.
  - exists m, s, v, look. split; [exact E|]. split; [exact (HKp 5 0)|].
    revert HV. unfold viewer_gives, viewer_over. intros (root & nb0 & HV). exists root, nb0. intros nb Hnb. destruct (HV nb Hnb) as [n0 HV']. exists n0. intros n Hn.
    destruct (HV' n Hn) as (cs & w & H1 & H2 & H3). exists cs, w. split; [exact H1|]. split; [|exact H3]. inversion H2 as [|p c ps' cs' Hd HR]; subst. inversion HR; subst. exists c. split; [reflexivity|]. apply Hd.
Qed.
