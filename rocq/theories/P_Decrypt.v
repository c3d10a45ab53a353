(** Encrypted objects: C60 (RC4 streams), C62 (strings), C63 (AES streams), C74 (permissions). *)
From Coq Require Import String.
From Verif Require Import Prelude M_Prog L_Prog M_Parser S_Syntax L_ParserWP L_Syntax L_Syntax2 P_Syntax M_CMap M_Document S_Document L_Document L_User L_Registry P_Locate M_Crypto S_Crypto P_Crypto.
Local Open Scope Z_scope.

Definition id32 (n : Z) : Prop := 0 <= n <= 4294967295.
Lemma pack_ok n : id32 n -> pack_L n = Ok (le4 n).
Proof. unfold id32, pack_L. intros H. now replace ((0 <=? n) && (n <=? 4294967295)) with true by lia. Qed.
Lemma object_key_len md5 k n g s : (forall x, List.length (md5 x) = 16%nat) -> 5 <= zlen (object_key md5 k n g s) <= 16.
Proof. intros H. unfold object_key, zlen. rewrite firstn_length, H. lia. Qed.
Lemma decrypt_rc4_ok md5 rc4_size k n g data : (forall x, List.length (md5 x) = 16%nat) -> (forall k, 5 <= k <= 16 -> rc4_size k = true) -> id32 n -> id32 g ->
  decrypt_rc4 md5 rc4_size k n g data = Ok (rc4_core (object_key md5 k n g []) data).
Proof.
  intros Hm Hr Hn Hg. unfold decrypt_rc4. rewrite !pack_ok by assumption. cbn [rbind]. cbv zeta.
  change (firstn 3 (le4 n)) with (low3 n). change (firstn 2 (le4 g)) with (low2 g).
  assert (firstn (Nat.min (List.length (k ++ low3 n ++ low2 g)) 16) (md5 (k ++ low3 n ++ low2 g)) = object_key md5 k n g []) as ->.
  { unfold object_key. rewrite !app_nil_r. rewrite !app_length. reflexivity. }
  apply rc4_ok; [exact Hr|]. now apply object_key_len.
Qed.
(** does the handler decrypt streams like [d] with RC4 under this file key? *)
Definition rc4_streams (h : handler) (key : list Z) (d : dict) : Prop :=
  h = HBase key \/ (exists meta str, h = HCrypt key meta Rc4 str /\ (meta = true \/ is_metadata d = false)).

(** C60.  A stream encrypted with RC4 under its object key is read as its data, Length being set to their number. *)
Theorem C60_stream : forall md5 rc4_size aes_dec h key d num gen data,
  (forall x, List.length (md5 x) = 16%nat) -> (forall k, 5 <= k <= 16 -> rc4_size k = true) -> id32 num -> id32 gen -> rc4_streams h key d ->
  decrypt_object md5 rc4_size aes_dec (Some h) num gen (OStream d (rc4_core (object_key md5 key num gen []) data)) =
  Ok (OStream (dset d (bs "Length") (OInt (zlen data))) data).
Proof.
  intros md5 rc4_size aes_dec h key d num gen data Hm Hr Hn Hg HH. unfold decrypt_object.
  destruct HH as [-> | (meta & str & -> & HM)]; unfold decrypt_with.
  - cbn [andb run_method]. rewrite decrypt_rc4_ok by assumption. cbn [rbind]. now rewrite rc4_inv.
  - replace (negb meta && is_metadata d) with false by (destruct HM as [-> | ->]; [reflexivity|now rewrite andb_false_r]).
    cbn [run_method]. rewrite decrypt_rc4_ok by assumption. cbn [rbind]. now rewrite rc4_inv.
Qed.
(** Only the low 24 bits of the object number and the low 16 bits of the generation matter. *)
Theorem C60_key_bits : forall md5 rc4_size aes_dec h key d num gen num' gen' data,
  (forall x, List.length (md5 x) = 16%nat) -> (forall k, 5 <= k <= 16 -> rc4_size k = true) -> id32 num -> id32 gen -> id32 num' -> id32 gen' -> rc4_streams h key d ->
  num mod 2 ^ 24 = num' mod 2 ^ 24 -> gen mod 2 ^ 16 = gen' mod 2 ^ 16 ->
  decrypt_object md5 rc4_size aes_dec (Some h) num gen (OStream d data) = decrypt_object md5 rc4_size aes_dec (Some h) num' gen' (OStream d data).
Proof.
  intros md5 rc4_size aes_dec h key d num gen num' gen' data Hm Hr Hn Hg Hn' Hg' HH EN EG.
  assert (low3 num = low3 num') as E3.
  { unfold low3. change (2 ^ 24) with 16777216 in EN.
    assert (forall x, x mod 256 = (x mod 16777216) mod 256 /\ x / 256 mod 256 = (x mod 16777216) / 256 mod 256 /\ x / 65536 mod 256 = (x mod 16777216) / 65536 mod 256) as HX.
    { intros x. pose proof (Z.div_mod x 16777216 ltac:(lia)) as E. set (y := x / 16777216) in *. pose proof (Z.mod_pos_bound x 16777216 ltac:(lia)). set (z := x mod 16777216) in *.
      assert (x = z + (y * 65536) * 256) as E1 by lia. split; [rewrite E1; apply Z.mod_add; lia|].
      split; [rewrite E1, Z.div_add by lia; replace (y * 65536) with ((y * 256) * 256) by lia; apply Z.mod_add; lia|].
      assert (x = z + (y * 256) * 65536) as E2 by lia. rewrite E2, Z.div_add by lia. apply Z.mod_add. lia. }
    destruct (HX num) as (-> & -> & ->). destruct (HX num') as (-> & -> & ->). now rewrite EN. }
  assert (low2 gen = low2 gen') as E2.
  { unfold low2. change (2 ^ 16) with 65536 in EG.
    assert (forall x, x mod 256 = (x mod 65536) mod 256 /\ x / 256 mod 256 = (x mod 65536) / 256 mod 256) as HX.
    { intros x. pose proof (Z.div_mod x 65536 ltac:(lia)) as E. set (y := x / 65536) in *. set (z := x mod 65536) in *.
      assert (x = z + (y * 256) * 256) as E1 by lia. split; [rewrite E1; apply Z.mod_add; lia|]. rewrite E1, Z.div_add by lia. apply Z.mod_add. lia. }
    destruct (HX gen) as (-> & ->). destruct (HX gen') as (-> & ->). now rewrite EG. }
  assert (object_key md5 key num gen [] = object_key md5 key num' gen' []) as EK by (unfold object_key; now rewrite E3, E2).
  unfold decrypt_object. destruct HH as [-> | (meta & str & -> & HM)]; unfold decrypt_with; cbn [run_method]; rewrite !decrypt_rc4_ok by assumption; now rewrite EK.
Qed.
(** In a document: an encrypted stream that the newest section lists is looked up as its plain data. *)
Theorem C60_located : forall inflate ccitt md5 rc4_size aes_dec h key D m k f u newer x older num gen e d data pre text rest,
  (forall x, List.length (md5 x) = 16%nat) -> (forall k, 5 <= k <= 16 -> rc4_size k = true) -> rc4_streams h key d -> id32 num -> id32 gen ->
  r_xrefs u = Some (newer ++ x :: older) -> known u num gen = None -> Forall (passed_over f num gen) newer ->
  zget (x_inuse x) num = Some e -> e_gen e = gen -> f = pre ++ text ++ rest -> e_off e = zlen pre ->
  IndObj num gen (OStream d (rc4_core (object_key md5 key num gen []) data)) text rest ->
  is_name (oget d (bs "Type")) (bs "ObjStm") = false -> (0 < D)%nat -> 4 * zlen f + 8 <= Z.of_nat m ->
  forall pos st, exists s', arun f (locate_object inflate ccitt (decrypt_object md5 rc4_size aes_dec (Some h)) D m (S k) num gen) (mkA pos st u) =
    (Ok (OStream (dset d (bs "Length") (OInt (zlen data))) data), s').
Proof.
  intros inflate ccitt md5 rc4_size aes_dec h key D m k f u newer x older num gen e d data pre text rest Hm Hr HH Hn Hg HX HK HF He Hge Hf Ho HI HO HD Hmm pos st.
  eapply C26_newest_revision; eauto.
  - apply C60_stream with (key := key); auto.
  - rewrite (register_no_objstm inflate ccitt (fun _ _ v => Ok v) D); auto. intros d' raw E. injection E; intros <- <-. revert HO. unfold oget. rewrite dget_dset. exact (fun H => H).
Qed.

(** C62.  An encrypted string object: whatever the handler, it is never read. *)
Theorem C62_string_object_refuted : forall md5 rc4_size aes_dec h num gen v,
  (exists s, v = OStr s) \/ (exists s, v = OHex s) -> forall r, decrypt_object md5 rc4_size aes_dec (Some h) num gen v <> Ok r.
Proof.
  intros md5 rc4_size aes_dec h num gen v HV r. unfold decrypt_object.
  destruct HV as [[s ->] | [s ->]]; destruct h as [key | key meta stm str]; unfold decrypt_with.
  - destruct (run_method _ _ _ Rc4 key num gen s); discriminate.
  - destruct (run_method _ _ _ str key num gen s); discriminate.
  - destruct (packs Rc4 num gen); discriminate.
  - destruct (packs str num gen); discriminate.
Qed.
(** In a document: looking it up raises AttributeError (or the error of the decryption itself). *)
Lemma uruns_catch_pass {U A} f (p : prog U A) hd h pos (u : U) e q u1 : uruns f p pos u (Err e) q u1 -> hd e = false -> e <> KeyErr -> e <> OutOfFuel ->
  uruns f (catch p hd h) pos u (Err e) q u1.
Proof.
  intros H Hh HK HO st. destruct (H st) as [ex E]. exists ex. now rewrite (arun_catch_err f p hd h _ _ _ E HK), Hh.
Qed.
Theorem C62_located_refuted : forall inflate ccitt md5 rc4_size aes_dec h key D m k f u newer x older num gen e s pre text rest,
  (forall x, List.length (md5 x) = 16%nat) -> (forall k, 5 <= k <= 16 -> rc4_size k = true) ->
  h = HBase key \/ (exists meta stm, h = HCrypt key meta stm Rc4) -> id32 num -> id32 gen ->
  r_xrefs u = Some (newer ++ x :: older) -> known u num gen = None -> Forall (passed_over f num gen) newer ->
  zget (x_inuse x) num = Some e -> e_gen e = gen -> f = pre ++ text ++ rest -> e_off e = zlen pre ->
  IndObj num gen (OStr s) text rest -> 4 * zlen f + 8 <= Z.of_nat m ->
  forall pos st, exists s', arun f (locate_object inflate ccitt (decrypt_object md5 rc4_size aes_dec (Some h)) D m (S k) num gen) (mkA pos st u) = (Err AttributeErr, s').
Proof.
  intros inflate ccitt md5 rc4_size aes_dec h key D m k f u newer x older num gen e s pre text rest Hm Hr HH Hn Hg HX HK HF He Hge Hf Ho HI Hmm pos st.
  pose proof (zlen_nonneg f) as HL.
  assert (decrypt_object md5 rc4_size aes_dec (Some h) num gen (OStr s) = Err AttributeErr) as HD.
  { unfold decrypt_object. destruct HH as [-> | (meta & stm & ->)]; unfold decrypt_with; cbn [run_method]; rewrite decrypt_rc4_ok by assumption; reflexivity. }
  set (dec := decrypt_object md5 rc4_size aes_dec (Some h)) in *.
  assert (exists q, uruns f (by_xref (locate_object inflate ccitt dec D m k) (reg_indirect inflate ccitt dec D m (length_hook (locate_object inflate ccitt dec D m k))) (newer ++ x :: older) num gen) pos u (Err AttributeErr) q u) as [q Hq].
  { apply by_xref_passed; auto; [lia|]. intros p0. exists (zlen pre + zlen text). cbn [by_xref]. rewrite He, Hge, Z.eqb_refl.
    apply uruns_bind_err. eapply uruns_catch_pass; [|reflexivity|discriminate|discriminate].
    apply uruns_reset. pose proof (zlen_nonneg pre). unfold reset_pos. rewrite Ho, (proj2 (Z.leb_le 0 (zlen pre))) by lia.
    apply uruns_bind_err. unfold reg_indirect. eapply uruns_bind.
    - apply uruns_of. eapply (r_indirect f (length_hook (locate_object inflate ccitt dec D m k))).
      + intros d z p Hd. unfold length_hook. rewrite Hd. apply runs_ret.
      + exact HI.
      + now apply At_start with (pre := pre).
      + unfold ofuel. lia.
    - cbv beta iota. rewrite HD. intros st0. exists []. rewrite app_nil_r. reflexivity. }
  cbn [locate_object]. cbn [bind getu arun a_usr]. fold (known u num gen). rewrite HK, HX. cbn [truthy].
  rewrite arun_bind. destruct (Hq st) as [ex E]. rewrite E. eexists. reflexivity.
Qed.
(** Strings inside dictionaries and arrays stay as they are in the file: encrypted. *)
Theorem C62_nested_untouched : forall md5 rc4_size aes_dec h num gen v,
  (exists d, v = ODict d) \/ (exists l, v = OArr l) -> decrypt_object md5 rc4_size aes_dec h num gen v = Ok v.
Proof.
  intros md5 rc4_size aes_dec h num gen v HV. unfold decrypt_object. destruct HV as [[d ->] | [l ->]]; destruct h as [[key | key meta stm str]|]; reflexivity.
Qed.
(** The same for the dictionaries of streams, except for Length. *)
Theorem C62_stream_dictionary : forall md5 rc4_size aes_dec h num gen d data v,
  decrypt_object md5 rc4_size aes_dec h num gen (OStream d data) = Ok v ->
  exists d' data', v = OStream d' data' /\ forall k, k <> bs "Length" -> dget d' k = dget d k.
Proof.
  intros md5 rc4_size aes_dec h num gen d data v. unfold decrypt_object.
  assert (forall a b c key, decrypt_with md5 rc4_size aes_dec a b c key num gen (OStream d data) = Ok v ->
    exists d' data', v = OStream d' data' /\ forall k, k <> bs "Length" -> dget d' k = dget d k) as G.
  { intros a b c key. unfold decrypt_with. destruct (c && is_metadata d).
    - intros E. inversion E; subst. eauto.
    - destruct (run_method _ _ _ a key num gen data) as [s|]; [|discriminate]. cbn [rbind]. intros E. assert (v = OStream (dset d (bs "Length") (OInt (zlen s))) s) as -> by congruence. clear E.
      do 2 eexists. split; [reflexivity|]. intros k Hk. rewrite dget_dset. destruct (eqlZ k (bs "Length")) eqn:EK; [apply eqlZ_eq in EK; contradiction|reflexivity]. }
  destruct h as [[key | key meta stm str]|]; [apply G|apply G|]. intros E. inversion E; subst. eauto.
Qed.

(** C63.  AES: the data of a stream are read with the padding still at their end. *)
Definition aes_streams (h : handler) (key : list Z) (d : dict) (m : method) : Prop :=
  exists meta str, h = HCrypt key meta m str /\ (meta = true \/ is_metadata d = false).
Lemma blocks_exist : forall n data, (List.length data <= 16 * n)%nat -> bytes_ok data ->
  exists blocks, List.concat blocks = data ++ padding5 data /\ Forall block blocks.
Proof.
  induction n as [|n IH]; intros data HL HB.
  - destruct data; [|cbn in HL; lia]. exists [repeat 16 16]. split; [reflexivity|]. repeat constructor; unfold byte_ok; lia.
  - destruct (le_lt_dec 16 (List.length data)) as [Hge|Hlt].
    + destruct (IH (skipn 16 data)) as (bl & E & HF); [rewrite skipn_length; lia| |].
      { unfold bytes_ok in *. rewrite <- (firstn_skipn 16 data) in HB. apply Forall_app in HB. apply HB. }
      exists (firstn 16 data :: bl). cbn [List.concat]. rewrite E. split.
      * rewrite app_assoc, firstn_skipn. f_equal. unfold padding5. assert (zlen (skipn 16 data) = zlen data - 16) as EZ by (unfold zlen; rewrite skipn_length; lia).
        rewrite EZ. replace (zlen data) with ((zlen data - 16) + 1 * 16) at 3 4 by lia. now rewrite Z.mod_add by lia.
      * constructor; [|exact HF]. split; [rewrite firstn_length; lia|]. unfold bytes_ok in *. rewrite <- (firstn_skipn 16 data) in HB. apply Forall_app in HB. apply HB.
    + exists [data ++ padding5 data]. cbn [List.concat]. rewrite app_nil_r. split; [reflexivity|]. constructor; [|constructor].
      assert (zlen data mod 16 = zlen data) as EM by (apply Z.mod_small; unfold zlen; lia). unfold padding5. rewrite EM. split.
      * rewrite app_length, repeat_length. unfold zlen. lia.
      * apply Forall_app. split; [exact HB|]. apply Forall_forall. intros y Hy. apply repeat_spec in Hy. subst. unfold byte_ok, zlen. lia.
Qed.
Theorem C63_aes128_padding_kept : forall md5 rc4_size aes_enc aes_dec h key d num gen data iv blocks,
  (forall x, List.length (md5 x) = 16%nat) -> cipher aes_enc aes_dec -> id32 num -> id32 gen -> aes_streams h key d Aes128 -> List.length key = 16%nat ->
  block iv -> List.concat blocks = data ++ padding5 data -> Forall block blocks ->
  decrypt_object md5 rc4_size aes_dec (Some h) num gen (OStream d (iv ++ cbc_enc aes_enc (object_key md5 key num gen (bs "sAlT")) iv blocks)) =
  Ok (OStream (dset d (bs "Length") (OInt (zlen (data ++ padding5 data)))) (data ++ padding5 data)).
Proof.
  intros md5 rc4_size aes_enc aes_dec h key d num gen data iv blocks Hm HC Hn Hg (meta & str & -> & HM) HK Hiv EB HF.
  unfold decrypt_object, decrypt_with. replace (negb meta && is_metadata d) with false by (destruct HM as [-> | ->]; [reflexivity|now rewrite andb_false_r]).
  cbn [run_method]. unfold decrypt_aes128. rewrite !pack_ok by assumption. cbn [rbind]. cbv zeta.
  change (firstn 3 (le4 num)) with (low3 num). change (firstn 2 (le4 gen)) with (low2 gen).
  assert (firstn (Nat.min (List.length (key ++ low3 num ++ low2 gen ++ bs "sAlT")) 16) (md5 (key ++ low3 num ++ low2 gen ++ bs "sAlT")) = object_key md5 key num gen (bs "sAlT")) as ->.
  { unfold object_key. rewrite !app_length, HK. reflexivity. }
  destruct Hiv as [Li Hi]. rewrite firstn_app, Li, Nat.sub_diag, firstn_O, app_nil_r. rewrite (firstn_all2 iv) by lia.
  rewrite skipn_app, Li, Nat.sub_diag, skipn_O, (skipn_all2 iv) by lia. cbn [app].
  rewrite (aes_ok aes_enc); auto.
  - cbn [rbind]. now rewrite EB.
  - left. unfold object_key, zlen. rewrite firstn_length, Hm, HK. reflexivity.
  - split; auto.
Qed.
Theorem C63_aes256_padding_kept : forall md5 rc4_size aes_enc aes_dec h key d num gen data iv blocks,
  cipher aes_enc aes_dec -> aes_streams h key d Aes256 -> List.length key = 32%nat ->
  block iv -> List.concat blocks = data ++ padding5 data -> Forall block blocks ->
  decrypt_object md5 rc4_size aes_dec (Some h) num gen (OStream d (iv ++ cbc_enc aes_enc key iv blocks)) =
  Ok (OStream (dset d (bs "Length") (OInt (zlen (data ++ padding5 data)))) (data ++ padding5 data)).
Proof.
  intros md5 rc4_size aes_enc aes_dec h key d num gen data iv blocks HC (meta & str & -> & HM) HK Hiv EB HF.
  unfold decrypt_object, decrypt_with. replace (negb meta && is_metadata d) with false by (destruct HM as [-> | ->]; [reflexivity|now rewrite andb_false_r]).
  cbn [run_method]. unfold decrypt_aes256.
  destruct Hiv as [Li Hi]. rewrite firstn_app, Li, Nat.sub_diag, firstn_O, app_nil_r. rewrite (firstn_all2 iv) by lia.
  rewrite skipn_app, Li, Nat.sub_diag, skipn_O, (skipn_all2 iv) by lia. cbn [app].
  rewrite (aes_ok aes_enc); auto.
  - cbn [rbind]. now rewrite EB.
  - unfold zlen. rewrite HK. cbn. auto.
  - split; auto.
Qed.
(** Never the original data: at least one byte too many. *)
Theorem C63_padding_refuted : forall data, data ++ padding5 data <> data /\ 1 <= zlen (padding5 data) <= 16.
Proof.
  intros data. assert (1 <= zlen (padding5 data) <= 16) as H.
  { unfold padding5, zlen. rewrite repeat_length. pose proof (Z.mod_pos_bound (Z.of_nat (List.length data)) 16 ltac:(lia)). lia. }
  split; [|exact H]. intros E. apply (f_equal (@zlen Z)) in E. rewrite zlen_app in E. lia.
Qed.

(** Metadata streams of documents with EncryptMetadata false are not touched. *)
Theorem C60_metadata : forall md5 rc4_size aes_dec key stm str num gen d data, dget d (bs "Type") = Some (OName (bs "Metadata")) ->
  decrypt_object md5 rc4_size aes_dec (Some (HCrypt key false stm str)) num gen (OStream d data) = Ok (OStream d data).
Proof. intros. unfold decrypt_object, decrypt_with, is_metadata. rewrite H, eqlZ_refl. reflexivity. Qed.

(** C74.  The permissions are single bits of P, however large or negative it is. *)
Theorem C74_bits : forall p, is_printable p = Z.testbit p 2 /\ is_modifiable p = Z.testbit p 3 /\ is_extractable p = Z.testbit p 4.
Proof.
  assert (forall p k, 0 <= k -> negb (Z.land p (2 ^ k) =? 0) = Z.testbit p k) as G.
  { intros p k Hk. destruct (Z.testbit p k) eqn:E.
    - destruct (Z.land p (2 ^ k) =? 0) eqn:E0; [|reflexivity]. apply Z.eqb_eq in E0. apply (f_equal (fun x => Z.testbit x k)) in E0.
      rewrite Z.land_spec, E, Z.pow2_bits_true, Z.bits_0 in E0 by exact Hk. discriminate.
    - assert (Z.land p (2 ^ k) = 0) as ->; [|reflexivity]. apply Z.bits_inj. intros n. rewrite Z.land_spec, Z.bits_0.
      destruct (Z.eq_dec n k) as [-> | Hn]; [now rewrite E|]. rewrite (Z.pow2_bits_false k n) by lia. apply andb_false_r. }
  intros p. unfold is_printable, is_modifiable, is_extractable. split; [exact (G p 2 ltac:(lia))|]. split; [exact (G p 3 ltac:(lia))|exact (G p 4 ltac:(lia))].
Qed.

(** The hypotheses can be met. *)
Example C60_ex : decrypt_object toy_md5 (fun _ => true) (fun _ b => b) (Some (HBase ex_key)) 12 0
  (OStream [(bs "Length", OInt 5)] (rc4_core (object_key toy_md5 ex_key 12 0 []) (bs "Hello"))) = Ok (OStream [(bs "Length", OInt 5)] (bs "Hello")).
Proof. vm_compute. reflexivity. Qed.
Example C63_ex : cipher (fun _ b => rev b) (fun _ b => rev b) /\ exists blocks, List.concat blocks = bs "Hello" ++ padding5 (bs "Hello") /\ Forall block blocks.
Proof.
  split.
  - intros k b _ [L H]. split; [|apply rev_involutive]. split; [now rewrite rev_length|]. unfold bytes_ok. now apply Forall_rev.
  - apply (blocks_exist 1); [cbn; lia|]. unfold bytes_ok. repeat constructor; unfold byte_ok; cbn; lia.
Qed.

Print Assumptions C60_stream.
Print Assumptions C60_key_bits.
Print Assumptions C60_located.
Print Assumptions C60_metadata.
Print Assumptions C62_string_object_refuted.
Print Assumptions C62_located_refuted.
Print Assumptions C62_nested_untouched.
Print Assumptions C62_stream_dictionary.
Print Assumptions C63_aes128_padding_kept.
Print Assumptions C63_aes256_padding_kept.
Print Assumptions C63_padding_refuted.
Print Assumptions C74_bits.
