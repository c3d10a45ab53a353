(** Encryption: C60 (RC4 streams), C61 (passwords), C62 (strings), C63 (AES), C74 (permissions). *)
From Coq Require Import String.
From Verif Require Import Prelude M_Parser M_CMap M_Document M_Crypto S_Crypto.
Local Open Scope Z_scope.

(** ---- RC4 ---- *)
Lemma prga_inv : forall data s i j, prga s i j (prga s i j data) = data.
Proof.
  induction data as [|c r IH]; intros s i j; cbn [prga]; [reflexivity|]. cbv zeta. rewrite IH, Z.lxor_assoc, Z.lxor_nilpotent, Z.lxor_0_r. reflexivity.
Qed.
Lemma rc4_inv key data : rc4_core key (rc4_core key data) = data.
Proof. apply prga_inv. Qed.
Lemma prga_len : forall data s i j, List.length (prga s i j data) = List.length data.
Proof. induction data as [|c r IH]; intros; cbn [prga List.length]; [reflexivity|]. cbv zeta. now rewrite IH. Qed.
Lemma rc4_len key data : List.length (rc4_core key data) = List.length data.
Proof. apply prga_len. Qed.
(** The published test vectors. *)
Example rc4_vector1 : rc4_core (bs "Key") (bs "Plaintext") = [187; 243; 22; 232; 217; 64; 175; 10; 211].
Proof. vm_compute. reflexivity. Qed.
Example rc4_vector2 : rc4_core (bs "Wiki") (bs "pedia") = [16; 33; 191; 4; 32].
Proof. vm_compute. reflexivity. Qed.

Lemma chain_app key a b x : chain key (a ++ b) x = chain key b (chain key a x).
Proof. revert x; induction a as [|i a IH]; intros x; cbn [app chain]; [reflexivity|apply IH]. Qed.
Lemma chain_inv key l x : chain key (rev l) (chain key l x) = x.
Proof.
  revert x. induction l as [|i l IH]; intros x; [reflexivity|]. cbn [rev chain]. rewrite chain_app, IH. cbn [chain]. apply rc4_inv.
Qed.
Lemma chain_len key l x : List.length (chain key l x) = List.length x.
Proof. revert x. induction l as [|i l IH]; intros x; [reflexivity|]. cbn [chain]. now rewrite IH, rc4_len. Qed.
Lemma lxor0 key : map (fun c => Z.lxor c 0) key = key.
Proof. rewrite <- map_id. apply map_ext. apply Z.lxor_0_r. Qed.

Lemma times_md5 md5 n k x : md5_rounds md5 k (Z.of_nat n) x = times k (fun x => md5 (firstn n x)) x.
Proof.
  revert x. induction k as [|k IH]; intros x; [reflexivity|]. cbn [md5_rounds times]. unfold pre at 1.
  replace (Z.of_nat n <? 0) with false by lia. rewrite Nat2Z.id. apply IH.
Qed.
Lemma md5_again_times md5 k x : md5_again md5 k x = times k md5 x.
Proof. revert x. induction k as [|k IH]; intros x; [reflexivity|]. cbn [md5_again times]. apply IH. Qed.
Lemma pad_std : PADDING = pad_string. Proof. reflexivity. Qed.
Lemma padded_len pw : List.length (padded pw) = 32%nat.
Proof. unfold padded. rewrite firstn_length, app_length. change (List.length pad_string) with 32%nat. lia. Qed.
Lemma padded_again pw : padded (padded pw) = padded pw.
Proof. unfold padded at 1. rewrite firstn_app, padded_len, Nat.sub_diag, firstn_O, app_nil_r. rewrite <- (padded_len pw). apply firstn_all. Qed.
Lemma low4_le4 P : le4 P = low4 P.
Proof. reflexivity. Qed.

Section P.
  Variables (md5 : list Z -> list Z) (rc4_size : Z -> bool).
  Hypothesis md5_len : forall x, List.length (md5 x) = 16%nat.
  Hypothesis rc4_sizes : forall n, 5 <= n <= 16 -> rc4_size n = true.

  Lemma rc4_ok key data : 5 <= zlen key <= 16 -> rc4 rc4_size key data = Ok (rc4_core key data).
  Proof. intros H. unfold rc4. now rewrite rc4_sizes. Qed.
  Lemma rounds_ok key l x : 5 <= zlen key <= 16 -> rc4_rounds rc4_size key l x = Ok (chain key l x).
  Proof.
    intros H. revert x. induction l as [|i l IH]; intros x; [reflexivity|]. cbn [rc4_rounds chain].
    rewrite rc4_ok by (unfold zlen in *; rewrite map_length; lia). cbn [rbind]. apply IH.
  Qed.

  (** a setting: revision 2, or 3 or 4 with a key of 5 to 16 (or more) bytes *)
  Definition setting (r len : Z) : Prop := r = 2 \/ ((r = 3 \/ r = 4) /\ 40 <= len).
  Lemma times_len16 k (f : list Z -> list Z) x : (forall y, List.length (f y) = 16%nat) -> List.length x = 16%nat -> List.length (times k f x) = 16%nat.
  Proof. intros Hf. revert x. induction k as [|k IH]; intros x Hx; [exact Hx|]. cbn [times]. apply IH, Hf. Qed.
  Lemma klen_ge r len : setting r len -> (5 <= klen r len)%nat.
  Proof.
    clear md5_len rc4_sizes.
    unfold klen. intros [-> | [H Hl]]; [cbn; lia|]. replace (r =? 2) with false by lia.
    pose proof (Z.div_le_mono 40 len 8 ltac:(lia) Hl) as Hd. change (40 / 8) with 5 in Hd. lia.
  Qed.
  Lemma key_size r len (x : list Z) : setting r len -> List.length x = 16%nat -> 5 <= zlen (firstn (klen r len) x) <= 16.
  Proof. intros H E. pose proof (klen_ge r len H). unfold zlen. rewrite firstn_length, E. lia. Qed.
  Lemma klen_z r len : setting r len -> r <> 2 -> len / 8 = Z.of_nat (klen r len).
  Proof.
    clear md5_len rc4_sizes. unfold klen. intros [H | [H Hl]] Hr; [lia|]. replace (r =? 2) with false by lia.
    pose proof (Z.div_le_mono 40 len 8 ltac:(lia) Hl) as Hd. change (40 / 8) with 5 in Hd. lia.
  Qed.
  Lemma pre_nat n l : pre (Z.of_nat n) l = firstn n l.
  Proof. unfold pre. replace (Z.of_nat n <? 0) with false by lia. now rewrite Nat2Z.id. Qed.

  Lemma user_key q pw : setting (q_r q) (q_len q) -> -2147483648 <= q_p q <= 2147483647 ->
    compute_encryption_key md5 q pw = Ok (file_key md5 (q_r q) (q_len q) (q_p q) (q_o q) (q_docid q) (q_meta q) pw).
  Proof.
    intros HS HP. unfold compute_encryption_key, file_key, pack_l. replace ((-2147483648 <=? q_p q) && (q_p q <=? 2147483647)) with true by lia.
    cbn [rbind]. cbv zeta. rewrite low4_le4. fold (padded pw). replace (4 <=? q_r q) with (q_r q >=? 4) by lia.
    set (h := md5 _). destruct (Z.eq_dec (q_r q) 2) as [E|E].
    - rewrite E. reflexivity.
    - replace (q_r q >=? 3) with true by (destruct HS; lia). replace (q_r q =? 2) with false by lia.
      rewrite (klen_z _ _ HS E), pre_nat, times_md5. reflexivity.
  Qed.
  Lemma file_key_size r len P O id meta pw : setting r len -> 5 <= zlen (file_key md5 r len P O id meta pw) <= 16.
  Proof.
    intros HS. unfold file_key. cbv zeta. apply key_size; [exact HS|]. destruct (r =? 2); [apply md5_len|]. apply times_len16; [|apply md5_len]. intros; apply md5_len.
  Qed.
  Lemma verify_ok q key : setting (q_r q) (q_len q) -> 5 <= zlen key <= 16 ->
    exists b, verify_encryption_key md5 rc4_size q key = Ok b /\ (b = true <-> user_entry md5 (q_r q) (q_docid q) key (q_u q)).
  Proof.
    intros HS HK. unfold verify_encryption_key, compute_u, user_entry. rewrite pad_std. destruct (q_r q =? 2) eqn:E.
    - rewrite rc4_ok by exact HK. cbn [rbind]. eexists. split; [reflexivity|]. rewrite eqlZ_eq. split; congruence.
    - cbv zeta. rewrite rc4_ok by exact HK. cbn [rbind]. rewrite rounds_ok by exact HK. cbn [rbind]. eexists. split; [reflexivity|].
      rewrite eqlZ_eq.
      assert (chain key upto19 (md5 (pad_string ++ q_docid q)) = chain key range_1_20 (rc4_core key (md5 (pad_string ++ q_docid q)))) as ->.
      { change upto19 with (0 :: range_1_20). cbn [chain]. now rewrite lxor0. }
      set (x := chain key range_1_20 _). assert (List.length x = 16%nat) as Hx by (unfold x; now rewrite chain_len, rc4_len).
      rewrite firstn_app, Hx. change (16 - 16)%nat with 0%nat. rewrite firstn_O, app_nil_r. rewrite <- Hx at 1. rewrite firstn_all. split; congruence.
  Qed.
  Definition UserOk q pw := user_entry md5 (q_r q) (q_docid q) (file_key md5 (q_r q) (q_len q) (q_p q) (q_o q) (q_docid q) (q_meta q) pw) (q_u q).
  Lemma auth_user q pw : setting (q_r q) (q_len q) -> -2147483648 <= q_p q <= 2147483647 ->
    exists o, authenticate_user_password md5 rc4_size q pw = Ok o /\
      (UserOk q pw -> o = Some (file_key md5 (q_r q) (q_len q) (q_p q) (q_o q) (q_docid q) (q_meta q) pw)) /\ (~ UserOk q pw -> o = None).
  Proof.
    intros HS HP. unfold authenticate_user_password. rewrite user_key by auto. cbn [rbind]. unfold UserOk.
    set (k := file_key _ _ _ _ _ _ _ _). destruct (verify_ok q k HS) as (b & -> & Hb); [apply file_key_size; exact HS|].
    cbn [rbind]. eexists. split; [reflexivity|]. destruct b; split; intros H; try reflexivity; exfalso.
    - apply H, Hb. reflexivity.
    - apply Hb in H. discriminate.
  Qed.
  (** the user password an owner password recovers from the O entry *)
  Definition recovered (r len : Z) (O pw : list Z) : list Z := chain (owner_key md5 r len pw) (if r =? 2 then [0] else rev upto19) O.
  Lemma auth_owner q pw : setting (q_r q) (q_len q) ->
    authenticate_owner_password md5 rc4_size q pw = authenticate_user_password md5 rc4_size q (recovered (q_r q) (q_len q) (q_o q) pw).
  Proof.
    intros HS. unfold authenticate_owner_password, recovered. cbv zeta. rewrite pad_std. fold (padded pw).
    assert (pre (if q_r q >=? 3 then q_len q / 8 else 5) (if q_r q >=? 3 then md5_again md5 50 (md5 (padded pw)) else md5 (padded pw)) = owner_key md5 (q_r q) (q_len q) pw) as ->.
    { unfold owner_key. cbv zeta. destruct (Z.eq_dec (q_r q) 2) as [E|E]; [rewrite E; reflexivity|].
      replace (q_r q >=? 3) with true by (destruct HS; lia). replace (q_r q =? 2) with false by lia.
      rewrite (klen_z _ _ HS E), pre_nat, md5_again_times. reflexivity. }
    assert (5 <= zlen (owner_key md5 (q_r q) (q_len q) pw) <= 16) as HK.
    { unfold owner_key. cbv zeta. apply key_size; [exact HS|]. destruct (q_r q =? 2); [apply md5_len|]. apply times_len16; auto. }
    destruct (q_r q =? 2) eqn:E.
    - rewrite rc4_ok by exact HK. cbn [rbind chain]. now rewrite lxor0.
    - rewrite rounds_ok by exact HK. cbn [rbind]. reflexivity.
  Qed.
  Lemma recovered_owner r len opw upw : recovered r len (owner_entry md5 r len opw upw) opw = padded upw.
  Proof.
    unfold recovered, owner_entry. destruct (r =? 2).
    - change [0] with (rev [0]) at 1. apply chain_inv.
    - apply chain_inv.
  Qed.
  Lemma file_key_padded r len P O id meta pw : file_key md5 r len P O id meta (padded pw) = file_key md5 r len P O id meta pw.
  Proof. unfold file_key. now rewrite padded_again. Qed.

  (** The complete behaviour of authentication: first as a user password, then as an owner password. *)
  Lemma auth_spec q pw : setting (q_r q) (q_len q) -> -2147483648 <= q_p q <= 2147483647 ->
    let key p := file_key md5 (q_r q) (q_len q) (q_p q) (q_o q) (q_docid q) (q_meta q) p in
    let rec := recovered (q_r q) (q_len q) (q_o q) pw in
    (UserOk q pw -> authenticate md5 rc4_size q pw = Ok (Some (key pw))) /\
    (~ UserOk q pw -> UserOk q rec -> authenticate md5 rc4_size q pw = Ok (Some (key rec))) /\
    (~ UserOk q pw -> ~ UserOk q rec -> authenticate md5 rc4_size q pw = Ok None).
  Proof.
    intros HS HP key rec. unfold authenticate. destruct (auth_user q pw HS HP) as (o & -> & H1 & H2). cbn [rbind].
    split; [intros H; now rewrite (H1 H)|]. split; intros H H'; rewrite (H2 H), auth_owner by exact HS; fold rec;
      destruct (auth_user q rec HS HP) as (o' & -> & H3 & H4); f_equal; auto.
  Qed.

  (** ---- from the Encrypt dictionary ---- *)
  Lemma entry_ok e k b : has_bytes e k b -> rbind (need e k) entry_bytes = Ok b.
  Proof. intros [H | (h & H & E)]; unfold need; rewrite H; cbn [rbind entry_bytes]; [reflexivity|exact E]. Qed.
  Lemma init_ok e V R P O U len id : standard e V R P O U -> length_entry e len -> init_params id e = Ok (mkPar id R P O U len true).
  Proof.
    intros (H1 & H2 & H3 & H4 & H5 & H6) HL. unfold init_params. unfold need at 1 2. rewrite H3, H4. cbn [rbind].
    pose proof (entry_ok _ _ _ H5) as E5. pose proof (entry_ok _ _ _ H6) as E6.
    destruct (need e (bs "O")) as [o|]; [|discriminate]. cbn [rbind] in *. rewrite E5. cbn [rbind].
    destruct (need e (bs "U")) as [u|]; [|discriminate]. cbn [rbind] in *. rewrite E6. cbn [rbind need_int].
    destruct HL as [HL | [HL ->]]; rewrite HL; reflexivity.
  Qed.
  Lemma handler_base sha256 aes_dec deref n g e V R P O U idv id len pw : deref n g = ODict e -> standard e V R P O U -> In V [1; 2; 3] -> In R [2; 3] ->
    length_entry e len -> id_array idv id ->
    document_handler md5 sha256 rc4_size aes_dec (ORef n g) deref idv pw =
    rbind (init_key (authenticate md5 rc4_size (mkPar id R P O U len true) pw)) (fun k => Ok (Some (HBase k))).
  Proof.
    clear md5_len rc4_sizes. intros Hd HS HV HR HL (h & rest & -> & Hid). unfold document_handler. cbn [otruthy negb]. rewrite Hd.
    pose proof HS as (H1 & H2 & _). destruct e as [|x e']; [discriminate|]. rewrite H1, eqlZ_refl. unfold security_handler_factory. rewrite H2. cbn [rbind need_int].
    replace (memZ V [1; 2; 3; 4; 5]) with true by (symmetry; apply memZ_In; cbn [In] in *; intuition). cbn [negb]. cbn [docid_bytes]. rewrite Hid. cbn [rbind].
    replace (V =? 4) with false by (cbn [In] in *; lia). replace (V =? 5) with false by (cbn [In] in *; lia).
    unfold make_base. rewrite (init_ok _ _ _ _ _ _ _ _ HS HL). cbn [rbind q_r]. replace (memZ R [2; 3]) with true by (symmetry; now apply memZ_In).
    destruct (init_key _); reflexivity.
  Qed.
End P.

(** C61.  Passwords of versions 1 to 3 (revisions 2 and 3). [e]: the Encrypt dictionary, as the writer made it from
    a user and an owner password. *)
Definition written (md5 : list Z -> list Z) (e : dict) (V R P len : Z) (id opw upw key : list Z) : Prop :=
  exists O U, standard e V R P O U /\ length_entry e len /\ (R = 3 -> 40 <= len) /\ -2147483648 <= P <= 2147483647 /\
    O = owner_entry md5 R len opw upw /\ key = file_key md5 R len P O id true upw /\ user_entry md5 R id key U.
(** the test that a password passes as a user password *)
Definition passes (md5 : list Z -> list Z) (e : dict) (R P len : Z) (id pw : list Z) : Prop :=
  exists O U, has_bytes e (bs "O") O /\ has_bytes e (bs "U") U /\ user_entry md5 R id (file_key md5 R len P O id true pw) U.

Lemma has_bytes_fun e k a b : has_bytes e k a -> has_bytes e k b -> a = b.
Proof. intros [H | (h & H & E)] [H' | (h' & H' & E')]; rewrite H in H'; inversion H'; subst; try reflexivity. rewrite E in E'. now inversion E'. Qed.

Theorem C61_opens : forall md5 sha256 rc4_size aes_dec deref n g e V R P len idv id opw upw key,
  (forall x, List.length (md5 x) = 16%nat) -> (forall k, 5 <= k <= 16 -> rc4_size k = true) ->
  deref n g = ODict e -> id_array idv id -> In V [1; 2; 3] -> In R [2; 3] -> written md5 e V R P len id opw upw key ->
  document_handler md5 sha256 rc4_size aes_dec (ORef n g) deref idv upw = Ok (Some (HBase key)) /\
  (document_handler md5 sha256 rc4_size aes_dec (ORef n g) deref idv opw = Ok (Some (HBase key)) \/ passes md5 e R P len id opw).
Proof.
  intros md5 sha256 rc4_size aes_dec deref n g e V R P len idv id opw upw key Hm Hr Hd Hid HV HR (O & U & HS & HL & Hl & HP & HO & HK & HU).
  pose proof (fun pw => handler_base md5 rc4_size sha256 aes_dec deref n g e V R P O U idv id len pw Hd HS HV HR HL Hid) as HB.
  set (q := mkPar id R P O U len true) in *. assert (setting (q_r q) (q_len q)) as HSet by (unfold setting; cbn [q q_r q_len In] in *; lia).
  split; rewrite HB.
  - destruct (auth_spec md5 rc4_size Hm Hr q upw HSet HP) as (H1 & _ & _). rewrite H1; [cbn; now rewrite HK|]. unfold UserOk. cbn [q q_r q_len q_p q_o q_docid q_meta q_u]. now rewrite <- HK.
  - destruct (auth_spec md5 rc4_size Hm Hr q opw HSet HP) as (H1 & H2 & _).
    assert (UserOk md5 q opw \/ ~ UserOk md5 q opw) as [HY | HN].
    { unfold UserOk, user_entry. destruct (q_r q =? 2).
      - match goal with |- ?a = ?b \/ _ => destruct (list_eq_dec Z.eq_dec a b); auto end.
      - match goal with |- ?a = ?b \/ _ => destruct (list_eq_dec Z.eq_dec a b); auto end. }
    + right. exists O, U. destruct HS as (_ & _ & _ & _ & A & B). auto.
    + left. assert (recovered md5 R len O opw = padded upw) as ER by (rewrite HO; apply recovered_owner).
      assert (file_key md5 R len P O id true (recovered md5 R len O opw) = key) as EK by (now rewrite ER, file_key_padded).
      rewrite H2; [|exact HN|].
      * cbn [rbind init_key q q_r q_len q_p q_o q_docid q_meta q_u]. now rewrite EK.
      * unfold UserOk. cbn [q q_r q_len q_p q_o q_docid q_meta q_u]. rewrite EK. exact HU.
Qed.
(** Every password, every such dictionary: what opens the document, and what does not. *)
Theorem C61_exact : forall md5 sha256 rc4_size aes_dec deref n g e V R P len idv id O U pw,
  (forall x, List.length (md5 x) = 16%nat) -> (forall k, 5 <= k <= 16 -> rc4_size k = true) ->
  deref n g = ODict e -> id_array idv id -> In V [1; 2; 3] -> In R [2; 3] -> standard e V R P O U -> length_entry e len -> (R = 3 -> 40 <= len) ->
  -2147483648 <= P <= 2147483647 ->
  let key p := file_key md5 R len P O id true p in
  let as_user := chain (owner_key md5 R len pw) (if R =? 2 then [0] else rev upto19) O in
  let open := document_handler md5 sha256 rc4_size aes_dec (ORef n g) deref idv pw in
  (user_entry md5 R id (key pw) U -> open = Ok (Some (HBase (key pw)))) /\
  (~ user_entry md5 R id (key pw) U -> user_entry md5 R id (key as_user) U -> open = Ok (Some (HBase (key as_user)))) /\
  (~ user_entry md5 R id (key pw) U -> ~ user_entry md5 R id (key as_user) U -> open = Err ValueErr).
Proof.
  intros md5 sha256 rc4_size aes_dec deref n g e V R P len idv id O U pw Hm Hr Hd Hid HV HR HS HL Hl HP key as_user open.
  unfold open. rewrite (handler_base md5 rc4_size sha256 aes_dec deref n g e V R P O U idv id len pw Hd HS HV HR HL Hid).
  set (q := mkPar id R P O U len true) in *. assert (setting (q_r q) (q_len q)) as HSet by (unfold setting; cbn [q q_r q_len In] in *; lia).
  destruct (auth_spec md5 rc4_size Hm Hr q pw HSet HP) as (H1 & H2 & H3).
  split; [|split].
  - intros H. rewrite H1 by exact H. reflexivity.
  - intros H H'. rewrite H2; [reflexivity|exact H|exact H'].
  - intros H H'. rewrite H3; [reflexivity|exact H|exact H'].
Qed.

(** Versions 4 and 5: crypt filters. *)
Definition method_name (v5 : bool) (n : list Z) (m : method) : Prop :=
  if v5 then n = bs "AESV3" /\ m = Aes256 else (n = bs "V2" /\ m = Rc4) \/ (n = bs "AESV2" /\ m = Aes128).
(** The CF dictionary lists known filters only; [names_method]: what StmF or StrF stands for. *)
Definition filter_entry (v5 : bool) (v : obj) (m : method) : Prop := exists d n, v = ODict d /\ dget d (bs "CFM") = Some (OName n) /\ method_name v5 n m.
Definition crypt_filters (v5 : bool) (e : dict) (cf : dict) : Prop :=
  dget e (bs "CF") = Some (ODict cf) /\ NoDup (map fst cf) /\ forall k v, In (k, v) cf -> exists m, filter_entry v5 v m.
Definition names_method (v5 : bool) (e cf : dict) (key : list Z) (m : method) : Prop :=
  exists s, dget e key = Some (OName s) /\
    ((s = bs "Identity" /\ m = Identity) \/ (s <> bs "Identity" /\ exists v, In (s, v) cf /\ filter_entry v5 v m)).
Lemma get_cfm_ok v5 n m : method_name v5 n m -> get_cfm v5 (OName n) = Some m.
Proof. destruct v5; cbn [method_name get_cfm]; [intros [-> ->]|intros [[-> ->] | [-> ->]]]; reflexivity. Qed.
Lemma cfms_ok v5 cf : (forall k v, In (k, v) cf -> exists m, filter_entry v5 v m) -> forall acc,
  exists l, cfms v5 cf acc = Ok (acc ++ l) /\ map fst l = map fst cf /\ forall k v m, In (k, v) cf -> filter_entry v5 v m -> In (k, m) l.
Proof.
  induction cf as [|[k v] cf IH]; intros H acc.
  - exists []. rewrite app_nil_r. split; [reflexivity|]. split; [reflexivity|]. intros ? ? ? [].
  - destruct (H k v (or_introl eq_refl)) as (m & d & n & -> & Hd & Hm). cbn [cfms]. unfold need. rewrite Hd. cbn [rbind].
    rewrite (get_cfm_ok _ _ _ Hm). destruct (IH (fun k v Hk => H k v (or_intror Hk)) (acc ++ [(k, m)])) as (l & E & E1 & E2).
    exists ((k, m) :: l). rewrite E, <- app_assoc. split; [reflexivity|]. split; [cbn [map fst]; now rewrite E1|].
    intros k' v' m' [Hk | Hk] Hm'; [|right; eauto]. inversion Hk; subst. left. destruct Hm' as (d' & n' & Ed & Hd' & Hm').
    inversion Ed; subst. rewrite Hd in Hd'. inversion Hd'; subst. apply get_cfm_ok in Hm, Hm'. congruence.
Qed.
Lemma cfm_get_none l s : ~ In s (map fst l) -> cfm_get l s = None.
Proof.
  induction l as [|[k m] l IH]; intros H; [reflexivity|]. cbn [cfm_get]. cbn [map fst In] in H.
  rewrite IH by tauto. destruct (eqlZ s k) eqn:E; [apply eqlZ_eq in E; exfalso; apply H; left; auto|reflexivity].
Qed.
Lemma cfm_get_in l s m : NoDup (map fst l) -> In (s, m) l -> cfm_get l s = Some m.
Proof.
  induction l as [|[k m0] l IH]; intros HN HI; [contradiction|]. cbn [map fst] in HN. inversion HN as [|? ? H1 H2]; subst. cbn [cfm_get].
  destruct HI as [HI | HI].
  - inversion HI; subst. rewrite cfm_get_none by exact H1. now rewrite eqlZ_refl.
  - rewrite (IH H2 HI). reflexivity.
Qed.
Lemma cfm_get_identity l s : cfm_get (l ++ [(bs "Identity", Identity)]) s = if eqlZ s (bs "Identity") then Some Identity else cfm_get l s.
Proof.
  induction l as [|[k m] l IH].
  - reflexivity.
  - cbn [app cfm_get]. rewrite IH. destruct (eqlZ s (bs "Identity")); reflexivity.
Qed.
Lemma cfm_of_ok v5 e cf key m : crypt_filters v5 e cf -> names_method v5 e cf key m ->
  exists l, cfms v5 cf [] = Ok l /\ rbind (need e key) (cfm_of l) = Ok m.
Proof.
  intros (H1 & H2 & H3) (s & Hs & HM). destruct (cfms_ok v5 cf H3 []) as (l & E & E1 & E2). exists l. split; [exact E|].
  unfold need. rewrite Hs. cbn [rbind cfm_of]. rewrite cfm_get_identity. destruct HM as [[-> ->] | (Hn & v & Hv & Hm)].
  - now rewrite eqlZ_refl.
  - destruct (eqlZ s (bs "Identity")) eqn:EI; [apply eqlZ_eq in EI; contradiction|]. rewrite (cfm_get_in l s m); [reflexivity|now rewrite E1|eauto].
Qed.
(** EncryptMetadata: true unless given as false *)
Definition metadata_flag (e : dict) (b : bool) : Prop := (dget e (bs "EncryptMetadata") = None /\ b = true) \/ dget e (bs "EncryptMetadata") = Some (OBool b).
Lemma metadata_ok e b : metadata_flag e b -> match dget e (bs "EncryptMetadata") with None => true | Some v => otruthy v end = b.
Proof. intros [[-> ->] | ->]; [reflexivity|destruct b; reflexivity]. Qed.

Section V45.
  Variables (md5 sha256 : list Z -> list Z) (rc4_size : Z -> bool) (aes_dec : list Z -> list Z -> list Z).
  Lemma handler_v4 deref n g e P O U idv id len pw cf meta stm str :
    deref n g = ODict e -> standard e 4 4 P O U -> length_entry e len -> id_array idv id ->
    crypt_filters false e cf -> names_method false e cf (bs "StmF") stm -> names_method false e cf (bs "StrF") str -> metadata_flag e meta ->
    document_handler md5 sha256 rc4_size aes_dec (ORef n g) deref idv pw =
    rbind (init_key (authenticate md5 rc4_size (mkPar id 4 P O U 128 meta) pw)) (fun k => Ok (Some (HCrypt k meta stm str))).
  Proof.
    intros Hd HS HL (h & rest & -> & Hid) HC HM1 HM2 HE. unfold document_handler. cbn [otruthy negb]. rewrite Hd.
    pose proof HS as (H1 & H2 & _). destruct e as [|x e']; [discriminate|]. rewrite H1, eqlZ_refl. unfold security_handler_factory. rewrite H2.
    cbn [rbind need_int memZ Z.eqb Pos.eqb orb negb docid_bytes]. rewrite Hid. cbn [rbind]. remember (x :: e') as e.
    unfold make_crypt. rewrite (init_ok _ _ _ _ _ _ _ _ HS HL). cbn [rbind q_r q_docid q_p q_o q_u].
    destruct (cfm_of_ok _ _ _ _ _ HC HM1) as (l & El & E1). destruct (cfm_of_ok _ _ _ _ _ HC HM2) as (l' & El' & E2).
    rewrite El in El'. inversion El'; subst l'. destruct (need e (bs "StmF")) as [sf|]; [|discriminate]. destruct (need e (bs "StrF")) as [tf|]; [|discriminate].
    cbn [rbind] in *. destruct HC as (HC & _). rewrite HC, El. cbn [rbind]. rewrite E2. cbn [rbind]. rewrite E1. cbn [rbind].
    rewrite (metadata_ok _ _ HE). cbn [Z.eqb Pos.eqb]. destruct (init_key _); reflexivity.
  Qed.
  Lemma handler_v5 deref n g e P O U idv id len pw cf meta stm str oe ue :
    deref n g = ODict e -> standard e 5 5 P O U -> length_entry e len -> id_array idv id ->
    crypt_filters true e cf -> names_method true e cf (bs "StmF") stm -> names_method true e cf (bs "StrF") str -> metadata_flag e meta ->
    dget e (bs "OE") = Some (OStr oe) -> dget e (bs "UE") = Some (OStr ue) ->
    document_handler md5 sha256 rc4_size aes_dec (ORef n g) deref idv pw =
    rbind (init_key (authenticate5 sha256 aes_dec (mkPar id 5 P O U 256 meta) oe ue pw)) (fun k => Ok (Some (HCrypt k meta stm str))).
  Proof.
    intros Hd HS HL (h & rest & -> & Hid) HC HM1 HM2 HE HOE HUE. unfold document_handler. cbn [otruthy negb]. rewrite Hd.
    pose proof HS as (H1 & H2 & _). destruct e as [|x e']; [discriminate|]. rewrite H1, eqlZ_refl. unfold security_handler_factory. rewrite H2.
    cbn [rbind need_int memZ Z.eqb Pos.eqb orb negb docid_bytes]. rewrite Hid. cbn [rbind]. remember (x :: e') as e.
    unfold make_crypt. rewrite (init_ok _ _ _ _ _ _ _ _ HS HL). cbn [rbind q_r q_docid q_p q_o q_u].
    destruct (cfm_of_ok _ _ _ _ _ HC HM1) as (l & El & E1). destruct (cfm_of_ok _ _ _ _ _ HC HM2) as (l' & El' & E2).
    rewrite El in El'. inversion El'; subst l'. destruct (need e (bs "StmF")) as [sf|]; [|discriminate]. destruct (need e (bs "StrF")) as [tf|]; [|discriminate].
    cbn [rbind] in *. destruct HC as (HC & _). rewrite HC, El. cbn [rbind]. rewrite E2. cbn [rbind]. rewrite E1. cbn [rbind].
    rewrite (metadata_ok _ _ HE). unfold need at 1 2. rewrite HOE, HUE. cbn [rbind Z.eqb Pos.eqb]. destruct (init_key _); reflexivity.
  Qed.
End V45.

Theorem C61_opens_v4 : forall md5 sha256 rc4_size aes_dec deref n g e P len idv id opw upw cf meta stm str O U key,
  (forall x, List.length (md5 x) = 16%nat) -> (forall k, 5 <= k <= 16 -> rc4_size k = true) ->
  deref n g = ODict e -> id_array idv id -> standard e 4 4 P O U -> length_entry e len -> -2147483648 <= P <= 2147483647 ->
  crypt_filters false e cf -> names_method false e cf (bs "StmF") stm -> names_method false e cf (bs "StrF") str -> metadata_flag e meta ->
  O = owner_entry md5 4 128 opw upw -> key = file_key md5 4 128 P O id meta upw -> user_entry md5 4 id key U ->
  document_handler md5 sha256 rc4_size aes_dec (ORef n g) deref idv upw = Ok (Some (HCrypt key meta stm str)) /\
  (document_handler md5 sha256 rc4_size aes_dec (ORef n g) deref idv opw = Ok (Some (HCrypt key meta stm str)) \/
   user_entry md5 4 id (file_key md5 4 128 P O id meta opw) U).
Proof.
  intros md5 sha256 rc4_size aes_dec deref n g e P len idv id opw upw cf meta stm str O U key Hm Hr Hd Hid HS HL HP HC HM1 HM2 HE HO HK HU.
  pose proof (fun pw => handler_v4 md5 sha256 rc4_size aes_dec deref n g e P O U idv id len pw cf meta stm str Hd HS HL Hid HC HM1 HM2 HE) as HB.
  set (q := mkPar id 4 P O U 128 meta) in *. assert (setting (q_r q) (q_len q)) as HSet by (unfold setting; cbn [q q_r q_len]; lia).
  split; rewrite HB.
  - destruct (auth_spec md5 rc4_size Hm Hr q upw HSet HP) as (H1 & _ & _). rewrite H1.
    + cbn [rbind init_key q q_r q_len q_p q_o q_docid q_meta]. now rewrite HK.
    + unfold UserOk. cbn [q q_r q_len q_p q_o q_docid q_meta q_u]. now rewrite <- HK.
  - destruct (auth_spec md5 rc4_size Hm Hr q opw HSet HP) as (H1 & H2 & _).
    assert (UserOk md5 q opw \/ ~ UserOk md5 q opw) as [HY | HN].
    { unfold UserOk, user_entry. cbn [q q_r Z.eqb Pos.eqb]. match goal with |- ?a = ?b \/ _ => destruct (list_eq_dec Z.eq_dec a b); auto end. }
    + right. exact HY.
    + left. assert (recovered md5 4 128 O opw = padded upw) as ER by (rewrite HO; apply recovered_owner).
      assert (file_key md5 4 128 P O id meta (recovered md5 4 128 O opw) = key) as EK by (now rewrite ER, file_key_padded).
      rewrite H2; [|exact HN|].
      * cbn [rbind init_key q q_r q_len q_p q_o q_docid q_meta q_u]. now rewrite EK.
      * unfold UserOk. cbn [q q_r q_len q_p q_o q_docid q_meta q_u]. rewrite EK. exact HU.
Qed.

(** ---- CBC ---- *)
Definition block (b : list Z) : Prop := List.length b = 16%nat /\ bytes_ok b.
(** the block cipher, on keys of the sizes AES has *)
Definition cipher (aes_enc aes_dec : list Z -> list Z -> list Z) : Prop :=
  forall k b, In (zlen k) [16; 24; 32] -> block b -> block (aes_enc k b) /\ aes_dec k (aes_enc k b) = b.
Lemma lxor_byte a b : byte_ok a -> byte_ok b -> byte_ok (Z.lxor a b).
Proof.
  unfold byte_ok. intros Ha Hb.
  assert (forallb (fun n => forallb (fun m => (0 <=? Z.lxor (Z.of_nat n) (Z.of_nat m)) && (Z.lxor (Z.of_nat n) (Z.of_nat m) <? 256)) (seq 0 256)) (seq 0 256) = true) as HF by (vm_compute; reflexivity).
  rewrite forallb_forall in HF. assert (In (Z.to_nat a) (seq 0 256)) as I1 by (apply in_seq; lia). assert (In (Z.to_nat b) (seq 0 256)) as I2 by (apply in_seq; lia).
  specialize (HF _ I1). cbv beta in HF. rewrite forallb_forall in HF. specialize (HF _ I2). cbv beta in HF. rewrite !Z2Nat.id in HF by lia.
  apply andb_true_iff in HF. destruct HF as [H1 H2]. apply Z.leb_le in H1. apply Z.ltb_lt in H2. auto.
Qed.
Lemma xor_block a b : block a -> block b -> block (xor_bytes a b).
Proof.
  intros [La Ha] [Lb Hb]. split; [unfold xor_bytes; rewrite map_length, combine_length; lia|]. clear La Lb. revert b Hb.
  unfold xor_bytes. induction Ha as [|x a Hx Ha IH]; intros b Hb; [constructor|]. destruct Hb as [|y b Hy Hb]; [constructor|].
  cbn [combine map]. constructor; [now apply lxor_byte|now apply IH].
Qed.
Lemma xor_twice a b : List.length a = List.length b -> xor_bytes (xor_bytes a b) b = a.
Proof.
  unfold xor_bytes. revert b. induction a as [|x a IH]; intros [|y b] E; try discriminate; [reflexivity|]. cbn [combine map].
  rewrite IH by (cbn in E; lia). now rewrite Z.lxor_assoc, Z.lxor_nilpotent, Z.lxor_0_r.
Qed.
Lemma cbc_ok aes_enc aes_dec : cipher aes_enc aes_dec -> forall key blocks prev n, In (zlen key) [16; 24; 32] -> block prev -> Forall block blocks ->
  (List.length blocks <= n)%nat -> cbc_dec aes_dec n key prev (cbc_enc aes_enc key prev blocks) = List.concat blocks.
Proof.
  intros HC key blocks. induction blocks as [|b blocks IH]; intros prev n HK Hp HB Hn.
  - cbn [cbc_enc List.concat]. destruct n; reflexivity.
  - inversion HB as [|? ? Hb HB']; subst. cbn [cbc_enc]. cbv zeta. set (c := aes_enc key (xor_bytes b prev)).
    assert (block (xor_bytes b prev)) as Hx by now apply xor_block. destruct (HC key _ HK Hx) as [[Lc Hc] ED]. fold c in Lc, Hc, ED.
    destruct n as [|n]; [cbn in Hn; lia|]. set (rest := cbc_enc aes_enc key c blocks).
    cbn [cbc_dec]. assert (exists z zs, c ++ rest = z :: zs) as (z & zs & Ez) by (destruct c as [|z zs]; [discriminate|cbn; eauto]).
    rewrite Ez. rewrite <- Ez. assert (firstn 16 (c ++ rest) = c) as E1 by (rewrite <- Lc, firstn_app, firstn_all, Nat.sub_diag, firstn_O; apply app_nil_r).
    assert (skipn 16 (c ++ rest) = rest) as E2 by (rewrite <- Lc, skipn_app, skipn_all, Nat.sub_diag; reflexivity).
    rewrite E1, E2, ED. cbn [List.concat]. f_equal.
    + apply xor_twice. destruct Hb, Hp. lia.
    + apply IH; auto; [split; auto|cbn in Hn; lia].
Qed.
Lemma cbc_enc_len aes_enc aes_dec : cipher aes_enc aes_dec -> forall key blocks prev, In (zlen key) [16; 24; 32] -> block prev -> Forall block blocks ->
  List.length (cbc_enc aes_enc key prev blocks) = (16 * List.length blocks)%nat.
Proof.
  intros HC key blocks. induction blocks as [|b blocks IH]; intros prev HK Hp HB; [reflexivity|]. inversion HB; subst. cbn [cbc_enc List.length]. cbv zeta.
  destruct (HC key (xor_bytes b prev) HK) as [Hc _]; [now apply xor_block|]. rewrite app_length, IH; auto. destruct Hc. lia.
Qed.
Lemma aes_ok aes_enc aes_dec key iv blocks : cipher aes_enc aes_dec -> In (zlen key) [16; 24; 32] -> block iv -> Forall block blocks ->
  aes_cbc aes_dec key iv (cbc_enc aes_enc key iv blocks) = Ok (List.concat blocks).
Proof.
  intros HC HK Hiv HB. unfold aes_cbc. rewrite (proj2 (memZ_In _ _) HK). cbn [negb].
  pose proof (cbc_enc_len _ _ HC key blocks iv HK Hiv HB) as HL. destruct Hiv as [Li Hi].
  replace (zlen iv =? 16) with true by (unfold zlen; lia). cbn [negb].
  assert (zlen (cbc_enc aes_enc key iv blocks) = Z.of_nat (List.length blocks) * 16) as E by (unfold zlen; lia).
  rewrite E, Z.mod_mul by lia. cbn [Z.eqb negb]. f_equal. apply cbc_ok with (aes_enc := aes_enc); auto; [split; auto|]. lia.
Qed.

(** Version 5: the O and U entries hold a hash and two salts; OE and UE the file key, enciphered. *)
Definition entry5 (sha256 : list Z -> list Z) (pw vsalt ksalt more : list Z) : list Z := sha256 (pw ++ vsalt ++ more) ++ vsalt ++ ksalt.
Theorem C61_opens_v5 : forall md5 sha256 rc4_size aes_enc aes_dec deref n g e P len idv id opw upw cf meta stm str O U k1 k2 uv uk ov ok,
  (forall x, List.length (sha256 x) = 32%nat) -> cipher aes_enc aes_dec ->
  deref n g = ODict e -> id_array idv id -> standard e 5 5 P O U -> length_entry e len ->
  crypt_filters true e cf -> names_method true e cf (bs "StmF") stm -> names_method true e cf (bs "StrF") str -> metadata_flag e meta ->
  (List.length upw <= 127)%nat -> (List.length opw <= 127)%nat -> List.length uv = 8%nat -> List.length ov = 8%nat -> block k1 -> block k2 ->
  U = entry5 sha256 upw uv uk [] -> O = entry5 sha256 opw ov ok U ->
  dget e (bs "UE") = Some (OStr (cbc_enc aes_enc (sha256 (upw ++ uk)) (repeat 0 16) [k1; k2])) ->
  dget e (bs "OE") = Some (OStr (cbc_enc aes_enc (sha256 (opw ++ ok ++ U)) (repeat 0 16) [k1; k2])) ->
  document_handler md5 sha256 rc4_size aes_dec (ORef n g) deref idv opw = Ok (Some (HCrypt (k1 ++ k2) meta stm str)) /\
  (document_handler md5 sha256 rc4_size aes_dec (ORef n g) deref idv upw = Ok (Some (HCrypt (k1 ++ k2) meta stm str)) \/
   sha256 (upw ++ ov ++ U) = firstn 32 O).
Proof.
  intros md5 sha256 rc4_size aes_enc aes_dec deref n g e P len idv id opw upw cf meta stm str O U k1 k2 uv uk ov ok
    Hsha HC Hd Hid HS HL HCF HM1 HM2 HE Lu Lo Luv Lov Hk1 Hk2 EU EO HUE HOE.
  pose proof (fun pw => handler_v5 md5 sha256 rc4_size aes_dec deref n g e P O U idv id len pw cf meta stm str _ _ Hd HS HL Hid HCF HM1 HM2 HE HOE HUE) as HB.
  assert (forall x v s, List.length v = 8%nat -> firstn 32 (sha256 x ++ v ++ s) = sha256 x /\ firstn 8 (skipn 32 (sha256 x ++ v ++ s)) = v /\ skipn 40 (sha256 x ++ v ++ s) = s) as HX.
  { intros x v s Hv. specialize (Hsha x). remember (sha256 x) as h. clear Heqh.
    assert (firstn 32 (h ++ v ++ s) = h) as E1 by (rewrite <- Hsha, firstn_app, firstn_all, Nat.sub_diag, firstn_O; apply app_nil_r).
    assert (skipn 32 (h ++ v ++ s) = v ++ s) as E2 by (rewrite <- Hsha, skipn_app, skipn_all, Nat.sub_diag; reflexivity).
    split; [exact E1|]. split; [rewrite E2, <- Hv, firstn_app, firstn_all, Nat.sub_diag, firstn_O; apply app_nil_r|].
    rewrite app_assoc. replace 40%nat with (List.length (h ++ v)) by (rewrite app_length; lia). rewrite skipn_app, skipn_all, Nat.sub_diag. reflexivity. }
  assert (block (repeat 0 16)) as Hz by (split; [reflexivity|repeat constructor; unfold byte_ok; lia]).
  assert (forall x, In (zlen (sha256 x)) [16; 24; 32]) as HK by (intros x; unfold zlen; rewrite Hsha; cbn; auto).
  assert (List.concat [k1; k2] = k1 ++ k2) as EC by (cbn [List.concat]; now rewrite app_nil_r).
  destruct (HX (opw ++ ov ++ U) ov ok Lov) as (O1 & O2 & O3). fold (entry5 sha256 opw ov ok U) in O1, O2, O3. rewrite <- EO in O1, O2, O3.
  destruct (HX (upw ++ uv ++ []) uv uk Luv) as (U1 & U2 & U3). fold (entry5 sha256 upw uv uk []) in U1, U2, U3. rewrite <- EU in U1, U2, U3.
  rewrite app_nil_r in U1. split; rewrite HB; unfold authenticate5; cbv zeta; cbn [q_o q_u]; rewrite O1, O2, O3, U1, U2, U3, firstn_all2 by lia.
  - rewrite eqlZ_refl. rewrite (aes_ok _ _ _ _ _ HC) by auto. now rewrite EC.
  - destruct (eqlZ (sha256 (upw ++ ov ++ U)) (sha256 (opw ++ ov ++ U))) eqn:E.
    + right. now apply eqlZ_eq.
    + left. rewrite eqlZ_refl. rewrite (aes_ok _ _ _ _ _ HC) by auto. now rewrite EC.
Qed.

(** From the trailer: its Encrypt entry and its ID (if that is missing or empty, Id) decide; without an Encrypt entry
    there is no handler, whatever the password. *)
Theorem C61_trailer : forall md5 sha256 rc4_size aes_dec deref t pw,
  (dget t (bs "Encrypt") = None -> trailer_handler md5 sha256 rc4_size aes_dec deref t pw = Ok None) /\
  (forall enc idv, dget t (bs "Encrypt") = Some enc -> dget t (bs "ID") = Some (OArr idv) -> idv <> [] ->
     trailer_handler md5 sha256 rc4_size aes_dec deref t pw = document_handler md5 sha256 rc4_size aes_dec enc deref (OArr idv) pw) /\
  (forall enc idv, dget t (bs "Encrypt") = Some enc -> dget t (bs "ID") = None -> dget t (bs "Id") = Some idv ->
     trailer_handler md5 sha256 rc4_size aes_dec deref t pw = document_handler md5 sha256 rc4_size aes_dec enc deref idv pw).
Proof.
  intros md5 sha256 rc4_size aes_dec deref t pw. unfold trailer_handler, trailer_id. split; [intros ->; reflexivity|]. split.
  - intros enc idv -> -> Hne. destruct idv; [congruence|]. reflexivity.
  - intros enc idv -> -> ->. reflexivity.
Qed.
Print Assumptions C61_trailer.
(** What goes wrong.  Documents whose ID is written with literal strings cannot be opened with any password. *)
Theorem C61_literal_id_refuted : forall md5 sha256 rc4_size aes_dec deref n g e V R P O U s r pw,
  deref n g = ODict e -> standard e V R P O U -> In V [1; 2; 3; 4; 5] ->
  document_handler md5 sha256 rc4_size aes_dec (ORef n g) deref (OArr (OStr s :: r)) pw = Err TypeErr.
Proof.
  intros md5 sha256 rc4_size aes_dec deref n g e V R P O U s r pw Hd HS HV. unfold document_handler. cbn [otruthy negb]. rewrite Hd.
  pose proof HS as (H1 & H2 & _). destruct e as [|x e']; [discriminate|]. rewrite H1, eqlZ_refl. unfold security_handler_factory. rewrite H2. cbn [rbind need_int].
  replace (memZ V [1; 2; 3; 4; 5]) with true by (symmetry; now apply memZ_In). reflexivity.
Qed.
(** Nor can documents with the Encrypt dictionary itself in the trailer. *)
Theorem C61_direct_refuted : forall md5 sha256 rc4_size aes_dec deref e idv pw, e <> [] ->
  document_handler md5 sha256 rc4_size aes_dec (ODict e) deref idv pw = Err AttributeErr.
Proof. intros md5 sha256 rc4_size aes_dec deref e idv pw H. unfold document_handler. destruct e; [contradiction|reflexivity]. Qed.
(** Nor can documents with P written as an unsigned number. *)
Theorem C61_unsigned_refuted : forall md5 sha256 rc4_size aes_dec deref n g e V R P len O U idv id pw,
  deref n g = ODict e -> id_array idv id -> In V [1; 2; 3] -> In R [2; 3] -> standard e V R P O U -> length_entry e len -> 2147483648 <= P ->
  document_handler md5 sha256 rc4_size aes_dec (ORef n g) deref idv pw = Err StructErr.
Proof.
  intros md5 sha256 rc4_size aes_dec deref n g e V R P len O U idv id pw Hd Hid HV HR HS HL HP.
  rewrite (handler_base md5 rc4_size sha256 aes_dec deref n g e V R P O U idv id len pw Hd HS HV HR HL Hid).
  unfold authenticate, authenticate_user_password, compute_encryption_key, pack_l. cbn [q_p]. replace ((-2147483648 <=? P) && (P <=? 2147483647)) with false by lia. reflexivity.
Qed.

(** The hypotheses are met: revision 3, a 128-bit key, a toy hash; the literal O and U entries. *)
Definition toy_md5 (l : list Z) : list Z := firstn 16 (map (fun c => Z.lxor c (fold_left (fun a c => (31 * a + c) mod 256) l 7)) (firstn 16 (l ++ repeat 0 16))).
Lemma toy_md5_len x : List.length (toy_md5 x) = 16%nat.
Proof. unfold toy_md5. rewrite firstn_length, map_length, firstn_length, app_length, repeat_length. lia. Qed.
Definition ex_id : list Z := [1; 2; 3; 255].
Definition ex_O : list Z := Eval vm_compute in owner_entry toy_md5 3 128 (bs "owner") (bs "user").
Definition ex_key : list Z := Eval vm_compute in file_key toy_md5 3 128 (-44) ex_O ex_id true (bs "user").
Definition ex_U : list Z := Eval vm_compute in chain ex_key upto19 (toy_md5 (pad_string ++ ex_id)) ++ repeat 0 16.
Definition ex_dict : dict :=
  [(bs "Filter", OName (bs "Standard")); (bs "V", OInt 2); (bs "R", OInt 3); (bs "Length", OInt 128); (bs "P", OInt (-44)); (bs "O", OStr ex_O); (bs "U", OStr ex_U)].
Example C61_ex_written : written toy_md5 ex_dict 2 3 (-44) 128 ex_id (bs "owner") (bs "user") ex_key.
Proof.
  exists ex_O, ex_U. unfold standard, length_entry, has_bytes.
  split; [repeat split; try reflexivity; left; reflexivity|]. split; [left; reflexivity|]. split; [lia|]. split; [lia|].
  split; [vm_compute; reflexivity|]. split; [vm_compute; reflexivity|]. unfold user_entry. vm_compute. reflexivity.
Qed.
Example C61_ex_id : id_array (OArr [OHex (bs "010203FF"); OHex (bs "010203FF")]) ex_id.
Proof. exists (bs "010203FF"), [OHex (bs "010203FF")]. split; reflexivity. Qed.
Example C61_ex_wrong : document_handler toy_md5 toy_md5 (fun _ => true) (fun _ b => b) (ORef 5 0) (fun _ _ => ODict ex_dict)
  (OArr [OHex (bs "010203FF"); OHex (bs "010203FF")]) (bs "guess") = Err ValueErr.
Proof. vm_compute. reflexivity. Qed.

(** Versions 4 and 5 insist on what the standard leaves optional: without StmF or StrF (meaning Identity) or without CF nothing
    can be opened, whatever the password; nor if any entry of CF, used or not, is no dictionary, has no CFM or one that is
    not known - also the method None, which the standard has - or if StmF or StrF names no entry. *)
Theorem C61_crypt_filters_refuted : forall md5 sha256 rc4_size aes_dec deref n g e v R P O U len idv id pw,
  deref n g = ODict e -> v = 4 \/ v = 5 -> standard e v R P O U -> length_entry e len -> id_array idv id ->
  let opened := document_handler md5 sha256 rc4_size aes_dec (ORef n g) deref idv pw in
  (dget e (bs "StmF") = None \/ dget e (bs "StrF") = None -> opened = Err KeyErr) /\
  (forall sm st, dget e (bs "StmF") = Some sm -> dget e (bs "StrF") = Some st ->
    (dget e (bs "CF") = None -> opened = Err AttributeErr) /\
    (forall before k x after, dget e (bs "CF") = Some (ODict (before ++ (k, x) :: after)) ->
      (forall k' y, In (k', y) before -> exists m, filter_entry (v =? 5) y m) ->
      ((forall d, x <> ODict d) -> opened = Err TypeErr) /\
      (forall d, x = ODict d -> dget d (bs "CFM") = None -> opened = Err KeyErr) /\
      (forall d name, x = ODict d -> dget d (bs "CFM") = Some (OName name) -> (forall m, ~ method_name (v =? 5) name m) -> opened = Err ValueErr)) /\
    (forall cf name, crypt_filters (v =? 5) e cf -> name <> bs "Identity" -> ~ In name (map fst cf) ->
      st = OName name -> opened = Err ValueErr)).
Proof.
  intros md5 sha256 rc4_size aes_dec deref n g e v R P O U len idv id pw Hd HV HS HL (h & rest & -> & Hid) opened.
  assert (opened = rbind (make_crypt md5 sha256 rc4_size aes_dec (v =? 5) id e pw) (fun h => Ok (Some h))) as EO.
  { unfold opened, document_handler. cbn [otruthy negb]. rewrite Hd. pose proof HS as (H1 & H2 & _). destruct e as [|x e']; [discriminate|].
    rewrite H1, eqlZ_refl. unfold security_handler_factory. rewrite H2. cbn [rbind need_int]. destruct HV as [-> | ->]; cbn [memZ Z.eqb Pos.eqb orb negb docid_bytes]; rewrite Hid; reflexivity. }
  rewrite EO. clear EO opened. unfold make_crypt. rewrite (init_ok _ _ _ _ _ _ _ _ HS HL). cbn [rbind].
  split; [|intros sm st E1 E2; split; [|split]].
  - unfold need at 1 2. intros [E|E]; [rewrite E; reflexivity|]. destruct (dget e (bs "StmF")); cbn [rbind]; [rewrite E; reflexivity|reflexivity].
  - intros E. unfold need at 1 2. rewrite E1, E2, E. reflexivity.
  - intros before k x after E HB. assert (need e (bs "StmF") = Ok sm) as N1 by (unfold need; now rewrite E1). assert (need e (bs "StrF") = Ok st) as N2 by (unfold need; now rewrite E2).
    rewrite N1, N2, E. cbn [rbind].
    assert (forall en acc, (forall acc, cfms (v =? 5) ((k, x) :: after) acc = Err en) -> cfms (v =? 5) (before ++ (k, x) :: after) acc = Err en) as HC.
    { clear E. intros en acc He. revert acc. induction before as [|[k' y] before IH]; intros acc; [apply He|].
      destruct (HB k' y (or_introl eq_refl)) as (m & d & nm & -> & Hdm & Hm). cbn [app cfms]. unfold need. rewrite Hdm. cbn [rbind]. rewrite (get_cfm_ok _ _ _ Hm).
      apply IH. intros k2 y2 H2. apply (HB k2 y2). now right. }
    repeat apply conj.
    + intros Hx. rewrite (HC TypeErr [] ltac:(intros acc; cbn [cfms]; destruct x; try reflexivity; exfalso; eapply Hx; reflexivity)). reflexivity.
    + intros d -> Hn. rewrite (HC KeyErr [] ltac:(intros acc; cbn [cfms]; unfold need; rewrite Hn; reflexivity)). reflexivity.
    + intros d name -> Hn Hm. rewrite (HC ValueErr [] ltac:(intros acc; cbn [cfms]; unfold need; rewrite Hn; cbn [rbind];
        destruct (get_cfm (v =? 5) (OName name)) as [m|] eqn:G; [|reflexivity]; exfalso; apply (Hm m); revert G; unfold get_cfm, method_name; destruct (v =? 5);
        [destruct (eqlZ name (bs "AESV3")) eqn:E3; [|discriminate]; intros G; injection G as <-; apply eqlZ_eq in E3; now split
        |destruct (eqlZ name (bs "V2")) eqn:E3; [intros G; injection G as <-; apply eqlZ_eq in E3; left; now split|];
         destruct (eqlZ name (bs "AESV2")) eqn:E4; [|discriminate]; intros G; injection G as <-; apply eqlZ_eq in E4; right; now split])). reflexivity.
  - intros cf name (HC1 & HC2 & HC3) Hne Hnin ->. unfold need at 1 2. rewrite E1, E2, HC1. cbn [rbind]. destruct (cfms_ok _ cf HC3 []) as (l & El & EM & _).
    cbn [app] in El. rewrite El. cbn [rbind cfm_of]. rewrite cfm_get_identity. destruct (eqlZ name (bs "Identity")) eqn:EI; [apply eqlZ_eq in EI; contradiction|].
    rewrite cfm_get_none; [reflexivity|]. rewrite EM. exact Hnin.
Qed.
Example C61_crypt_filters_ex : let e := [(bs "Filter", OName (bs "Standard")); (bs "V", OInt 4); (bs "R", OInt 4); (bs "P", OInt (-44)); (bs "O", OStr ex_id); (bs "U", OStr ex_id);
    (bs "StmF", OName (bs "StdCF")); (bs "StrF", OName (bs "StdCF"));
    (bs "CF", ODict [(bs "StdCF", ODict [(bs "CFM", OName (bs "AESV2"))]); (bs "Unused", ODict [(bs "CFM", OName (bs "None"))])])] in
  standard e 4 4 (-44) ex_id ex_id /\ length_entry e 40 /\ (forall m, ~ method_name false (bs "None") m) /\
  filter_entry false (ODict [(bs "CFM", OName (bs "AESV2"))]) Aes128.
Proof.
  cbv zeta. unfold standard, length_entry, has_bytes, filter_entry, method_name. split; [repeat split; try reflexivity; left; reflexivity|].
  split; [right; split; reflexivity|]. split; [intros m [[H _]|[H _]]; discriminate H|]. eexists _, _. split; [reflexivity|]. split; [reflexivity|]. right. split; reflexivity.
Qed.

Print Assumptions C61_opens.
Print Assumptions C61_crypt_filters_refuted.
Print Assumptions C61_exact.
Print Assumptions C61_opens_v4.
Print Assumptions C61_opens_v5.
Print Assumptions C61_literal_id_refuted.
Print Assumptions C61_direct_refuted.
Print Assumptions C61_unsigned_refuted.
Example C61_trailer_ex : let t := [(bs "Root", ORef 1 0); (bs "Encrypt", ORef 4 0); (bs "ID", OArr [OHex (bs "00FF"); OHex (bs "00FF")])] in
  dget t (bs "Encrypt") = Some (ORef 4 0) /\ dget t (bs "ID") = Some (OArr [OHex (bs "00FF"); OHex (bs "00FF")]).
Proof. split; reflexivity. Qed.
