(** C98: from the bytes of a file to its metadata. *)
From Coq Require Import String.
From Verif Require Import Prelude M_Prog M_Parser S_Print M_Filters M_Document M_Crypto M_Secure S_Crypto P_Crypto L_Prog S_Open P_Locate P_Open S_Write P_Write S_Sealed P_Secure
  M_Meta P_Meta M_Metadata.
Local Open Scope Z_scope.

(** Specification.  Text strings are written in ASCII, in UTF-16BE after the mark FE FF, in UTF-8 after the mark EF BB BF,
    or in PDFDocEncoding, which has the codes of Latin-1 for the characters A1 to FF. *)
Definition utf16 (c : Z) : list Z :=
  let unit u := [u / 256; u mod 256] in
  if c <? 65536 then unit c else unit (55296 + (c - 65536) / 1024) ++ unit (56320 + (c - 65536) mod 1024).
Definition utf16_string (t : list Z) : list Z := [254; 255] ++ flat_map utf16 t.
Definition utf8_string (t : list Z) : list Z := [239; 187; 191] ++ utf8_text t.
Definition ascii (t : list Z) : Prop := Forall (fun c => 0 <= c < 128) t.
Definition latin (t : list Z) : Prop := Forall (fun c => 0 <= c < 128 \/ 161 <= c <= 255) t.

Section Spec.
  Context {DT : Type}.
  Variable parse_date : list Z -> res DT.
  (** What the metadata has for the entry [k], [v] of the information dictionary:
      - ASCII text is given as text, and PDF dates under the date keys as dates (as text when the date parser refuses them);
      - UTF-16 strings are not decoded; the mark of UTF-8 strings is taken as a character; a PDFDocEncoding string with
        characters beyond ASCII is never given as its text;
      - text is always the UTF-8 reading of a string;
      - what is not a literal string - hexadecimal strings and references included - is given as it is. *)
  Definition entry_shown (k : list Z) (v : obj) (shown : mval DT) : Prop :=
    (forall t, v = OStr t -> ascii t -> ~ is_date_key k -> shown = MText t) /\
    (forall x d, v = OStr (date_text x) -> fields_ok is_digit x -> is_date_key k -> parse_date (iso_text x) = Ok d -> shown = MDate d) /\
    (forall x e, v = OStr (date_text x) -> fields_ok is_digit x -> is_date_key k -> parse_date (iso_text x) = Err e -> shown = MText (date_text x)) /\
    (forall t, v = OStr t -> ascii t -> is_date_key k -> (forall x tail, fields_ok re_d x -> tail = [] \/ tail = [10] -> t <> date_text x ++ tail) -> shown = MText t) /\
    (forall t, v = OStr (utf16_string t) -> shown = MObj v) /\
    (forall t, v = OStr (utf8_string t) -> Forall scalar t -> shown = MText (65279 :: t)) /\
    (forall t, v = OStr t -> latin t -> ~ ascii t -> shown <> MText t) /\
    ((forall s, v <> OStr s) -> shown = MObj v) /\
    (forall t, shown = MText t -> Forall scalar t /\ v = OStr (utf8_text t)).
  (** The same keys, in the same order. *)
  Definition metadata_shown (d : dict) (r : list (list Z * mval DT)) : Prop :=
    Forall2 (fun kv kv' => fst kv' = fst kv /\ entry_shown (fst kv) (snd kv) (snd kv')) d r.
End Spec.

Lemma utf8_ascii t : ascii t -> utf8_text t = t.
Proof.
  unfold utf8_text. induction 1 as [|c t Hc Ht IH]; [reflexivity|]. cbn [map List.concat]. rewrite IH. unfold utf8.
  replace (c <? 128) with true by lia. reflexivity.
Qed.
Lemma ascii_scalar t : ascii t -> Forall scalar t.
Proof. intros H. eapply Forall_impl; [|exact H]. cbv beta. intros c Hc. left. lia. Qed.
Lemma utf8_inj s t : Forall scalar s -> Forall scalar t -> utf8_text s = utf8_text t -> s = t.
Proof. intros Hs Ht E. apply utf8_decode_encode in Hs, Ht. rewrite E in Hs. congruence. Qed.
Lemma utf8_head t b r : Forall scalar t -> utf8_text t = b :: r -> b <= 244.
Proof.
  destruct t as [|c t]; [discriminate|]. intros H E. inversion H as [|? ? Hc _]; subst. unfold utf8_text in E. cbn [map List.concat] in E.
  apply (f_equal (hd 0)) in E. cbn [hd] in E. subst b. unfold utf8, scalar in *. destruct (c <? 128) eqn:E1; [cbn [hd app]; lia|].
  destruct (c <? 2048) eqn:E2; [cbn [hd app]; assert (c / 64 < 32) by (apply Z.div_lt_upper_bound; lia); lia|].
  destruct (c <? 65536) eqn:E3; cbn [hd app]; [assert (c / 4096 < 16) by (apply Z.div_lt_upper_bound; lia); lia|].
  assert (c / 262144 <= 4) by (apply Z.lt_succ_r; apply Z.div_lt_upper_bound; lia). lia.
Qed.
Lemma utf8_longer t : (List.length t <= List.length (utf8_text t))%nat /\ (latin t -> ~ ascii t -> (List.length t < List.length (utf8_text t))%nat).
Proof.
  unfold utf8_text. induction t as [|c t [IH1 IH2]]; [split; [auto|intros _ []; constructor]|].
  cbn [map List.concat]. rewrite app_length. cbn [List.length].
  assert ((1 <= List.length (utf8 c))%nat /\ (128 <= c -> (2 <= List.length (utf8 c))%nat)) as [L1 L2].
  { unfold utf8. destruct (c <? 128) eqn:E1; [cbn; split; lia|]. destruct (c <? 2048), (c <? 65536); cbn; split; lia. }
  split; [lia|]. intros HL HN. inversion HL as [|? ? Hc HL']; subst. destruct (Z_lt_dec c 128) as [Hlt|Hge]; [|specialize (L2 ltac:(lia)); lia].
  assert (~ ascii t) as HN' by (intros X; apply HN; constructor; [lia|exact X]). specialize (IH2 HL' HN'). lia.
Qed.
Lemma ascii_date x : fields_ok is_digit x -> ascii (date_text x).
Proof.
  intros (H1 & H2 & H3 & H4 & H5 & H6 & H7 & H8 & H9). unfold ascii, date_text.
  assert (forall n l, all_of is_digit n l -> Forall (fun c => 0 <= c < 128) l) as HD.
  { intros n l [_ H]. eapply Forall_impl; [|exact H]. cbv beta. unfold is_digit. intros; lia. }
  assert (Forall (fun c => 0 <= c < 128) [f_sign x]) as Hs.
  { change (bs "+-Zz") with [43; 45; 90; 122] in H7. cbn [In] in H7. apply Forall_cons; [lia|apply Forall_nil]. }
  change (bs "D:") with [68; 58]. change (bs "'") with [39].
  repeat (apply Forall_app; split); eauto; repeat (apply Forall_cons; [lia|]); apply Forall_nil.
Qed.

Section Reads.
  Context {DT : Type}.
  Variable parse_date : list Z -> res DT.
  Lemma reads_shown k v shown : Reads parse_date k (MObj v) shown -> entry_shown parse_date k v shown.
  Proof.
    intros HR. unfold entry_shown.
    assert (forall t, Forall scalar t -> v = OStr (utf8_text t) ->
      (~ is_date_key k /\ shown = MText t) \/ (is_date_key k /\ exists d, from_pdf_datetime parse_date t = Ok d /\ shown = MDate d) \/
      (is_date_key k /\ exists e, from_pdf_datetime parse_date t = Err e /\ shown = MText t)) as HU.
    { intros t Ht E. inversion HR as [t' d Ht' Hk Hd E1 E2|t' e Ht' Hk Hd E1 E2|t' Ht' Hk E1 E2|s Hs E1 E2|v' Hv E1 E2].
      - rewrite E in E1. injection E1 as E1. apply utf8_inj in E1; auto. subst t'. right. left. eauto.
      - rewrite E in E1. injection E1 as E1. apply utf8_inj in E1; auto. subst t'. right. right. eauto.
      - rewrite E in E1. injection E1 as E1. apply utf8_inj in E1; auto. subst t'. left. auto.
      - rewrite E in E1. injection E1 as E1. exfalso. exact (Hs t Ht E1).
      - exfalso. apply (Hv (utf8_text t)). now rewrite E. }
    assert (forall t, ascii t -> v = OStr t -> Forall scalar t /\ v = OStr (utf8_text t)) as HA.
    { intros t Ht E. split; [now apply ascii_scalar|]. now rewrite utf8_ascii. }
    split; [|split; [|split; [|split; [|split; [|split; [|split; [|split]]]]]]].
    - intros t E Ht Hk. destruct (HA t Ht E) as [Hs E']. destruct (HU t Hs E') as [[_ X]|[[X _]|[X _]]]; [exact X|contradiction|contradiction].
    - intros x d E Hx Hk Hd. destruct (HA _ (ascii_date x Hx) E) as [Hs E'].
      destruct (HU _ Hs E') as [[X _]|[[_ (d' & Hd' & X)]|[_ (e' & Hd' & X)]]]; [contradiction| |]; rewrite (C67_fields_kept parse_date x Hx), Hd in Hd'; congruence.
    - intros x e E Hx Hk Hd. destruct (HA _ (ascii_date x Hx) E) as [Hs E'].
      destruct (HU _ Hs E') as [[X _]|[[_ (d' & Hd' & X)]|[_ (e' & Hd' & X)]]]; [contradiction| |exact X]; rewrite (C67_fields_kept parse_date x Hx), Hd in Hd'; congruence.
    - intros t E Ht Hk Hno. destruct (HA t Ht E) as [Hs E']. destruct (HU t Hs E') as [[_ X]|[[_ (d' & Hd' & X)]|[_ (e' & Hd' & X)]]]; [exact X| |exact X].
      destruct (C67_exactly parse_date t) as [(x & tail & Hx & Htl & Et & _)|[_ Er]]; [exfalso; exact (Hno x tail Hx Htl Et)|congruence].
    - intros t E. inversion HR as [t' d Ht' Hk Hd E1 E2|t' e Ht' Hk Hd E1 E2|t' Ht' Hk E1 E2|s Hs E1 E2|v' Hv E1 E2]; try reflexivity;
        exfalso; rewrite E in E1; injection E1 as E1; apply utf8_head in E1; auto; lia.
    - intros t E Ht. assert (Forall scalar (65279 :: t)) as Hs by (constructor; [right; lia|exact Ht]).
      destruct (HU _ Hs E) as [[_ X]|[[_ (d' & Hd' & X)]|[_ (e' & Hd' & X)]]]; [exact X| |exact X].
      destruct (C67_exactly parse_date (65279 :: t)) as [(x & tail & Hx & Htl & Et & _)|[_ Er]]; [discriminate Et|congruence].
    - intros t E HL HN X. pose proof (proj2 (utf8_longer t) HL HN) as HX.
      assert (forall t', OStr (utf8_text t') = v -> MText (DT := DT) t' = shown -> False) as HC.
      { intros t' E1 E2. rewrite X in E2. rewrite E in E1. injection E2 as ->. injection E1 as E1. rewrite E1 in HX. lia. }
      inversion HR as [t' d Ht' Hk Hd E1 E2|t' e Ht' Hk Hd E1 E2|t' Ht' Hk E1 E2|s Hs E1 E2|v' Hv E1 E2]; rewrite X in E2; try discriminate E2;
        apply (HC t' E1); rewrite X; exact E2.
    - intros Hv. inversion HR as [t' d Ht' Hk Hd E1 E2|t' e Ht' Hk Hd E1 E2|t' Ht' Hk E1 E2|s Hs E1 E2|v' Hv' E1 E2]; try reflexivity;
        exfalso; eapply Hv; symmetry; exact E1.
    - intros t X. rewrite X in HR. inversion HR; subst; auto.
  Qed.
  Hypothesis HP : forall t e, parse_date t = Err e -> e = ValueErr \/ e = TypeErr \/ e = UnicodeErr.
  Lemma metadata_of_dict d : exists r, metadata_of parse_date (ODict d) = Ok r /\ metadata_shown parse_date d r.
  Proof.
    set (l := map (fun kv => (fst kv, MObj (DT := DT) (snd kv))) d).
    destruct (C66_succeeds parse_date 0 0 (fun _ _ => Ok (CDict l)) l HP eq_refl) as (r & h' & E).
    pose proof (C66_entries parse_date 0 0 (fun _ _ => Ok (CDict l)) l r h' eq_refl E) as HF.
    unfold metadata in E. cbn [truthy] in E. unfold metadata_of. fold l. destruct (meta_pass parse_date l) as [d' [e|]]; [discriminate|].
    injection E as -> _. exists r. split; [reflexivity|]. unfold metadata_shown. subst l. clear - HF.
    revert r HF. induction d as [|[k v] d IH]; intros r HF; inversion HF as [|? [k' v'] ? r' [H1 H2] HF']; subst; constructor; auto.
    cbn [fst snd] in *. split; [exact H1|]. now apply reads_shown.
  Qed.
End Reads.

Lemma session_last inflate ccitt decrypt D m k f : forall ids s n g,
  fst (session inflate ccitt decrypt D m k f s (ids ++ [(n, g)])) =
  fst (session inflate ccitt decrypt D m k f s ids) ++ [fst (arun f (locate_object inflate ccitt decrypt D m k n g) (snd (session inflate ccitt decrypt D m k f s ids)))].
Proof.
  induction ids as [|[n0 g0] ids IH]; intros s n g; cbn [app session].
  - cbn [fst snd app]. destruct (arun f (locate_object inflate ccitt decrypt D m k n g) s) as [v s1]. reflexivity.
  - destruct (arun f (locate_object inflate ccitt decrypt D m k n0 g0) s) as [v s1]. specialize (IH s1 n g).
    destruct (session inflate ccitt decrypt D m k f s1 (ids ++ [(n, g)])) as [vs s2]. destruct (session inflate ccitt decrypt D m k f s1 ids) as [ws s3].
    cbn [fst snd] in *. now rewrite IH.
Qed.
Lemma last_lookup inflate ccitt decrypt D m k f s ids n g (want : Z * Z -> res obj) :
  fst (session inflate ccitt decrypt D m k f s (ids ++ [(n, g)])) = map want (ids ++ [(n, g)]) ->
  fst (arun f (locate_object inflate ccitt decrypt D m k n g) (snd (session inflate ccitt decrypt D m k f s ids))) = want (n, g).
Proof.
  rewrite session_last, map_app. cbn [map]. intros H. apply app_inj_tail in H. apply H.
Qed.

Section Read.
  Context {DT : Type}.
  Variable parse_date : list Z -> res DT.
  Lemma read_run f locate t n g v s : dget t (bs "Info") = Some (ORef n g) -> fst (arun f (locate n g) s) = Ok v ->
    fst (arun f (read_metadata parse_date locate t) s) = match metadata_of parse_date v with Ok r => Ok (Some r) | Err e => Err e end.
  Proof.
    intros HI HL. unfold read_metadata, oget. rewrite HI. cbn [truthy]. rewrite arun_bind. destruct (arun f (locate n g) s) as [r s1]. cbn [fst] in HL. subst r.
    cbv beta iota. destruct (metadata_of parse_date v); reflexivity.
  Qed.
End Read.

(** The exceptions of the date parser that the library expects. *)
Definition usual_dates {DT} (parse_date : list Z -> res DT) : Prop :=
  forall t e, parse_date t = Err e -> e = ValueErr \/ e = TypeErr \/ e = UnicodeErr.

(** C98 (a).  Files with any number of revisions: after any lookups, the metadata is that of the newest information
    dictionary. *)
Theorem C98_written : forall DT (parse_date : list Z -> res DT) inflate ccitt a b revs n g d,
  usual_dates parse_date -> is_digit a = true -> is_digit b = true -> revs <> [] -> Forall rev_ok revs -> zlen (file_of a b revs) < 10 ^ 10 ->
  let t := trailer_of_file a b revs in
  dget t (bs "Info") = Some (ORef n g) -> current revs n g = Some (ODict d) ->
  forall D m k, (0 < D)%nat -> 4 * zlen (file_of a b revs) + 8 <= Z.of_nat m -> (List.length revs <= k)%nat ->
  exists s, arun (file_of a b revs) (open_document inflate ccitt no_decrypt D m k) (mkA 0 [] rst0) = (Ok ([a; 46; b], 0, t), s) /\
  exists r, metadata_shown parse_date d r /\
  forall k' ids, (2 <= k')%nat -> Forall (fun id => current revs (fst id) (snd id) <> None) ids ->
    fst (arun (file_of a b revs) (read_metadata parse_date (locate_object inflate ccitt no_decrypt D m k') t)
           (snd (session inflate ccitt no_decrypt D m k' (file_of a b revs) s ids))) = Ok (Some r).
Proof.
  intros DT parse_date inflate ccitt a b revs n g d HP Ha Hb Hne HF Hlt t HI Hc D m k HD Hm Hk.
  destruct (C76_written_documents inflate ccitt a b revs Ha Hb Hne HF Hlt D m k HD Hm Hk) as (s & E & HS).
  exists s. split; [exact E|]. destruct (metadata_of_dict parse_date HP d) as (r & Er & Hr). exists r. split; [exact Hr|].
  intros k' ids Hk' Hids. rewrite (read_run parse_date (file_of a b revs) _ t n g (ODict d)); [now rewrite Er|exact HI|].
  assert (Forall (fun id => current revs (fst id) (snd id) <> None) (ids ++ [(n, g)])) as Hids2
    by (apply Forall_app; split; [exact Hids|constructor; [cbn [fst snd]; congruence|constructor]]).
  specialize (HS k' _ Hk' Hids2).
  assert (fst (session inflate ccitt no_decrypt D m k' (file_of a b revs) s (ids ++ [(n, g)])) =
          map (fun id => Ok (denoted (current revs) (fst id) (snd id))) (ids ++ [(n, g)])) as HS2.
  { apply somes_inj. rewrite HS, map_map. apply map_ext_in. intros [x y] Hin. rewrite Forall_forall in Hids2. specialize (Hids2 _ Hin). cbn [fst snd] in *.
    unfold denoted. destruct (current revs x y); [reflexivity|congruence]. }
  rewrite (last_lookup inflate ccitt no_decrypt D m k' (file_of a b revs) s ids n g _ HS2). cbn [fst snd]. unfold denoted. now rewrite Hc.
Qed.
Print Assumptions C98_written.

(** C98 (b).  No information dictionary named in the trailer: None.  One that is not in the file, or is not a dictionary:
    an exception. *)
Theorem C98_none : forall DT (parse_date : list Z -> res DT) locate f t s,
  dget t (bs "Info") = None \/ dget t (bs "Info") = Some ONull ->
  arun f (read_metadata parse_date locate t) s = (Ok None, s).
Proof. intros DT parse_date locate f t s [H|H]; unfold read_metadata, oget; rewrite H; reflexivity. Qed.
Print Assumptions C98_none.
Theorem C98_no_dictionary : forall DT (parse_date : list Z -> res DT) inflate ccitt a b r n g,
  is_digit a = true -> is_digit b = true -> rev_ok r -> zlen (file_of a b [r]) < 10 ^ 10 ->
  dget (rv_trailer r) (bs "Info") = Some (ORef n g) -> (forall d, find_obj (rv_objs r) n g <> Some (ODict d)) ->
  forall D m k, (0 < D)%nat -> 4 * zlen (file_of a b [r]) + 8 <= Z.of_nat m -> (1 <= k)%nat ->
  exists s, arun (file_of a b [r]) (open_document inflate ccitt no_decrypt D m k) (mkA 0 [] rst0) = (Ok ([a; 46; b], 0, rv_trailer r), s) /\
  forall k' ids, (2 <= k')%nat ->
    let st := snd (session inflate ccitt no_decrypt D m k' (file_of a b [r]) s ids) in
    fst (arun (file_of a b [r]) (read_metadata parse_date (locate_object inflate ccitt no_decrypt D m k') (rv_trailer r)) st) =
    Err (match find_obj (rv_objs r) n g with Some (OStream _ _) => TypeErr | _ => AttributeErr end).
Proof.
  intros DT parse_date inflate ccitt a b r n g Ha Hb Hr Hlt HI Hno D m k HD Hm Hk.
  destruct (C76_written_once inflate ccitt a b r Ha Hb Hr Hlt D m k HD Hm Hk) as (s & E & HS).
  exists s. split; [exact E|]. intros k' ids Hk' st. specialize (HS k' (ids ++ [(n, g)]) Hk').
  pose proof (last_lookup inflate ccitt no_decrypt D m k' (file_of a b [r]) s ids n g _ HS) as HL. cbn [fst snd] in HL.
  rewrite (read_run parse_date (file_of a b [r]) _ (rv_trailer r) n g _ st HI HL).
  destruct (find_obj (rv_objs r) n g) as [v|]; [|reflexivity]. destruct v; try reflexivity. exfalso. eapply Hno. reflexivity.
Qed.
Print Assumptions C98_no_dictionary.

(** C98 (c).  Encrypted files: the strings of the information dictionary are shown as they stand in the file. *)
Theorem C98_encrypted : forall DT (parse_date : list Z -> res DT) inflate ccitt md5 sha256 rc4_size aes_enc aes_dec a b raws docs en eg e rn rg pw h n g d,
  usual_dates parse_date -> (forall x, List.length (md5 x) = 16%nat) -> (forall k, 5 <= k <= 16 -> rc4_size k = true) -> cipher aes_enc aes_dec ->
  is_digit a = true -> is_digit b = true -> raws <> [] -> Forall rev_ok raws -> zlen (file_of a b raws) < 10 ^ 10 ->
  Forall2 (fun r d => sealed_objects md5 aes_enc h (rv_objs r) (rv_objs d)) raws docs ->
  let t := trailer_of_file a b raws in
  dget t (bs "Encrypt") = Some (ORef en eg) -> current raws en eg = Some (ODict e) -> e <> [] ->
  dget t (bs "Root") = Some (ORef rn rg) -> current raws rn rg <> None ->
  trailer_handler md5 sha256 rc4_size aes_dec (fun _ _ => ODict e) t pw = Ok (Some h) ->
  dget t (bs "Info") = Some (ORef n g) -> current raws n g = Some (ODict d) ->
  forall D m k, (0 < D)%nat -> 4 * zlen (file_of a b raws) + 8 <= Z.of_nat m -> (List.length raws <= k)%nat -> (2 <= k)%nat ->
  exists s, arun (file_of a b raws) (open_pdf inflate ccitt D m md5 sha256 rc4_size aes_dec k pw) (mkA 0 [] rst0) =
              (Ok ([a; 46; b], t, Some h, denoted (current docs) rn rg), s) /\
  exists r, metadata_shown parse_date d r /\
  forall ids, Forall (fun id => current docs (fst id) (snd id) <> None) ids ->
    fst (arun (file_of a b raws) (read_metadata parse_date (locate_object inflate ccitt (decrypt_object md5 rc4_size aes_dec (Some h)) D m k) t)
           (snd (session inflate ccitt (decrypt_object md5 rc4_size aes_dec (Some h)) D m k (file_of a b raws) s ids))) = Ok (Some r).
Proof.
  intros DT parse_date inflate ccitt md5 sha256 rc4_size aes_enc aes_dec a b raws docs en eg e rn rg pw h n g d HP Hmd Hrc HCi Ha Hb Hne HF Hlt HSe t HE Hraw He HR Hrr Hth HI Hc D m k HD Hm Hk Hk2.
  destruct (C81_written_documents inflate ccitt md5 sha256 rc4_size aes_enc aes_dec a b raws docs en eg e rn rg pw h Hmd Hrc HCi Ha Hb Hne HF Hlt HSe HE Hraw He HR Hrr Hth D m k HD Hm Hk Hk2) as (s & E & HS).
  exists s. split; [exact E|]. destruct (metadata_of_dict parse_date HP d) as (r & Er & Hr). exists r. split; [exact Hr|].
  intros ids Hids. rewrite (read_run parse_date (file_of a b raws) _ t n g (ODict d)); [now rewrite Er|exact HI|].
  pose proof (sealed_current md5 aes_enc h raws docs n g HSe) as HX. rewrite Hc in HX. destruct HX as (w & Hw & _ & HSl).
  assert (w = ODict d) as -> by (inversion HSl; reflexivity).
  assert (Forall (fun id => current docs (fst id) (snd id) <> None) (ids ++ [(n, g)])) as Hids2
    by (apply Forall_app; split; [exact Hids|constructor; [cbn [fst snd]; congruence|constructor]]).
  rewrite (last_lookup inflate ccitt _ D m k (file_of a b raws) s ids n g _ (HS _ Hids2)). cbn [fst snd]. unfold denoted. now rewrite Hw.
Qed.
Print Assumptions C98_encrypted.
(** So a dictionary whose strings were encrypted, as the standard asks ([enc] encrypts one string), is not shown decrypted:
    an entry is shown as its text only if encryption left the text unchanged. *)
Definition encrypt_strings (enc : list Z -> list Z) (d : dict) : dict :=
  map (fun kv => (fst kv, match snd kv with OStr s => OStr (enc s) | v => v end)) d.
Theorem C98_encrypted_strings_refuted : forall DT (parse_date : list Z -> res DT) (enc : list Z -> list Z) d r,
  metadata_shown parse_date (encrypt_strings enc d) r ->
  forall i k text shown, nth_error d i = Some (k, OStr text) -> nth_error r i = Some (k, shown) -> ascii text ->
    shown = MText text -> enc text = text.
Proof.
  intros DT parse_date enc d r HM i k text shown Hd Hr Ht Hs.
  assert (nth_error (encrypt_strings enc d) i = Some (k, OStr (enc text))) as Hd' by (unfold encrypt_strings; rewrite nth_error_map, Hd; reflexivity).
  assert (entry_shown parse_date k (OStr (enc text)) shown) as HX.
  { clear - HM Hd' Hr. revert i Hd' Hr. induction HM as [|[k0 v0] [k1 v1] l l' [H1 H2] HM IH]; intros i A B; [destruct i; discriminate|].
    destruct i as [|i]; cbn [nth_error] in A, B; [|eapply IH; eauto]. injection A as -> ->. injection B as -> ->. exact H2. }
  destruct HX as (_ & _ & _ & _ & _ & _ & _ & _ & H9). destruct (H9 _ Hs) as [_ X]. injection X as X. rewrite X. now apply utf8_ascii.
Qed.
Print Assumptions C98_encrypted_strings_refuted.

(** A file whose information dictionary was replaced by an update. *)
Definition ex_meta_old : revision :=
  mkRev [(1, 0, ODict [(bs "Type", OName (bs "Catalog"))]); (5, 0, ODict [(bs "Title", OStr (bs "draft"))])]
        [(bs "Root", ORef 1 0); (bs "Info", ORef 5 0)].
Definition ex_info : dict :=
  [(bs "Title", OStr (bs "Report")); (bs "Author", OStr [254; 255; 0; 65]); (bs "Subject", OStr [67; 97; 102; 233]);
   (bs "ModDate", OStr (bs "D:20210212014204Z00'00'")); (bs "CreationDate", OStr (bs "then")); (bs "Creator", ORef 1 0)].
Definition ex_meta_new : revision := mkRev [(5, 0, ODict ex_info)] [(bs "Root", ORef 1 0); (bs "Info", ORef 5 0)].
Ltac revs_ok d := unfold rev_ok, d; cbn [rv_objs rv_trailer map fst snd S_Write.writable printable fold_right];
  assert (forall s, forallb (fun c => (0 <=? c) && (c <? 256)) s = true -> bytes_ok s) as Hb
    by (intros s H; rewrite forallb_forall in H; apply Forall_forall; intros c Hc; specialize (H c Hc); unfold byte_ok; lia);
  wr; first [apply Hb; reflexivity | reflexivity | discriminate | (vm_compute; discriminate) | idtac].
Example ex_meta_old_ok : rev_ok ex_meta_old.
Proof. revs_ok ex_meta_old. Qed.
Example ex_meta_new_ok : rev_ok ex_meta_new.
Proof. unfold ex_meta_new, ex_info. revs_ok ex_meta_new. Qed.
Definition toy_dates (t : list Z) : res (list Z) := Ok t.
Example C98_ex inflate ccitt : let f := file_of 49 55 [ex_meta_new; ex_meta_old] in exists s m r,
  arun f (open_document inflate ccitt no_decrypt 1 m 2) (mkA 0 [] rst0) = (Ok (bs "1.7", 0, trailer_of_file 49 55 [ex_meta_new; ex_meta_old]), s) /\
  fst (arun f (read_metadata toy_dates (locate_object inflate ccitt no_decrypt 1 m 2) (trailer_of_file 49 55 [ex_meta_new; ex_meta_old]))
    (snd (session inflate ccitt no_decrypt 1 m 2 f s [(1, 0); (5, 0)]))) = Ok (Some r) /\ metadata_shown toy_dates ex_info r.
Proof.
  cbv zeta. destruct (C98_written (list Z) toy_dates inflate ccitt 49 55 [ex_meta_new; ex_meta_old] 5 0 ex_info ltac:(intros t e H; discriminate H) eq_refl eq_refl ltac:(discriminate)
    (Forall_cons _ ex_meta_new_ok (Forall_cons _ ex_meta_old_ok (Forall_nil _)))) with (D := 1%nat) (m := Z.to_nat (4 * zlen (file_of 49 55 [ex_meta_new; ex_meta_old]) + 8)) (k := 2%nat)
    as (s & E & r & Hr & HS); [vm_compute; reflexivity|reflexivity|reflexivity|apply le_n| |apply le_n|].
  - pose proof (zlen_nonneg (file_of 49 55 [ex_meta_new; ex_meta_old])) as H0. rewrite Z2Nat.id; [apply Z.le_refl|clear -H0; lia].
  - exists s, (Z.to_nat (4 * zlen (file_of 49 55 [ex_meta_new; ex_meta_old]) + 8)), r. split; [exact E|]. split; [|exact Hr].
    apply (HS 2%nat [(1, 0); (5, 0)]); [apply le_n|]. constructor; [cbn; discriminate|]. constructor; [cbn; discriminate|constructor].
Qed.
Example C98_ex_result : metadata_of toy_dates (ODict ex_info) =
  Ok [(bs "Title", MText (bs "Report")); (bs "Author", MObj (OStr [254; 255; 0; 65])); (bs "Subject", MObj (OStr [67; 97; 102; 233]));
      (bs "ModDate", MDate (bs "2021-02-12T01:42:04+00:00")); (bs "CreationDate", MText (bs "then")); (bs "Creator", MObj (ORef 1 0))].
Proof. vm_compute. reflexivity. Qed.
(** Two bytes that are one character in UTF-8: Latin-1 text is misread. *)
Example C98_ex_latin : latin [195; 169] /\ ~ ascii [195; 169] /\ metadata_of toy_dates (ODict [(bs "Title", OStr [195; 169])]) = Ok [(bs "Title", MText [233])].
Proof.
  split; [repeat constructor; lia|]. split; [|vm_compute; reflexivity]. intros H. inversion H. lia.
Qed.

(** The encrypted document of P_Secure.v, with an information dictionary: the hypotheses of C98_encrypted hold. *)
Definition ex_doc98 : revision := mkRev (rv_objs ex_doc ++ [(7, 0, ODict [(bs "Title", OStr (bs "secret"))])]) (rv_trailer ex_doc ++ [(bs "Info", ORef 7 0)]).
Example ex_doc98_ok : rev_ok ex_doc98.
Proof.
  unfold rev_ok, ex_doc98, ex_doc, ex_dict. cbn [app rv_objs rv_trailer map fst snd S_Write.writable printable fold_right].
  assert (forall s, forallb (fun c => (0 <=? c) && (c <? 256)) s = true -> bytes_ok s) as Hb.
  { intros s H. rewrite forallb_forall in H. apply Forall_forall. intros c Hc. specialize (H c Hc). unfold byte_ok. lia. }
  wr; first [apply Hb; reflexivity | reflexivity | discriminate | (vm_compute; discriminate) | idtac].
  all: let x := eval vm_compute in (bs "010203FF") in change (bs "010203FF") with x;
    repeat (constructor; [first [exists 0; split; [lia|reflexivity] | exists 1; split; [lia|reflexivity] | exists 2; split; [lia|reflexivity]
      | exists 3; split; [lia|reflexivity] | exists 15; split; [lia|reflexivity]]|]); constructor.
Qed.
Example C98_ex_encrypted : let raw := mkRev (seal_all toy_md5 ex_key (rv_objs ex_doc98)) (rv_trailer ex_doc98) in
  Forall rev_ok [raw] /\ Forall2 (fun r d => sealed_objects toy_md5 (fun _ b => rev b) (HBase ex_key) (rv_objs r) (rv_objs d)) [raw] [ex_doc98] /\
  dget (trailer_of_file 49 55 [raw]) (bs "Encrypt") = Some (ORef 4 0) /\ current [raw] 4 0 = Some (ODict ex_dict) /\
  dget (trailer_of_file 49 55 [raw]) (bs "Root") = Some (ORef 1 0) /\ current [raw] 1 0 <> None /\
  trailer_handler toy_md5 toy_md5 (fun _ => true) (fun _ b => rev b) (fun _ _ => ODict ex_dict) (trailer_of_file 49 55 [raw]) (bs "user") = Ok (Some (HBase ex_key)) /\
  dget (trailer_of_file 49 55 [raw]) (bs "Info") = Some (ORef 7 0) /\ current [raw] 7 0 = Some (ODict [(bs "Title", OStr (bs "secret"))]).
Proof.
  cbv zeta. split; [constructor; [apply seal_all_rev, ex_doc98_ok|constructor]|]. split.
  { constructor; [|constructor]. cbn [rv_objs]. apply seal_all_ok. destruct ex_doc98_ok as (R1 & _). rewrite Forall_forall in *.
    intros x Hx. destruct (R1 x Hx) as (_ & _ & C). split; [|split; [exact C|]].
    - unfold ex_doc98, ex_doc in Hx. cbn [rv_objs app In] in Hx. repeat (destruct Hx as [<-|Hx]; [cbn; lia|]). destruct Hx.
    - unfold ex_doc98, ex_doc in Hx. cbn [rv_objs app In] in Hx. repeat (destruct Hx as [<-|Hx]; [exact I|]). destruct Hx. }
  split; [reflexivity|]. split; [reflexivity|]. split; [reflexivity|]. split; [discriminate|]. split; [|split; reflexivity].
  assert (id_array (OArr [OHex (bs "010203FF"); OHex (bs "010203FF")]) ex_id) as HIA by (exists (bs "010203FF"), [OHex (bs "010203FF")]; split; reflexivity).
  destruct (C61_opens toy_md5 toy_md5 (fun _ => true) (fun _ b => rev b) (fun _ _ => ODict ex_dict) 4 0 ex_dict 2 3 (-44) 128 (OArr [OHex (bs "010203FF"); OHex (bs "010203FF")]) ex_id (bs "owner") (bs "user") ex_key
    toy_md5_len (fun _ _ => eq_refl) eq_refl HIA ltac:(cbn; auto) ltac:(cbn; auto) C61_ex_written) as [HU _].
  destruct (C61_trailer toy_md5 toy_md5 (fun _ => true) (fun _ b => rev b) (fun _ _ => ODict ex_dict) (rv_trailer ex_doc98) (bs "user")) as (_ & HT & _).
  change (trailer_of_file 49 55 [mkRev (seal_all toy_md5 ex_key (rv_objs ex_doc98)) (rv_trailer ex_doc98)]) with (rv_trailer ex_doc98).
  rewrite (HT (ORef 4 0) [OHex (bs "010203FF"); OHex (bs "010203FF")] eq_refl eq_refl) by discriminate. exact HU.
Qed.
