(** C82: an Encrypt dictionary that no cross-reference table lists. *)
From Coq Require Import String.
From Verif Require Import Prelude M_Prog M_Parser S_Syntax L_Buffer L_Prog L_ParserWP S_Print L_Print S_Stream M_Filters M_Document S_Document
  L_Document L_User L_Registry S_Xref P_Header P_StartXref P_Xref P_Locate S_Open P_Open S_Write P_Write M_Crypto S_Crypto P_Crypto P_Decrypt
  S_Length L_Length P_Length M_Secure L_Sealed S_Sealed S_Back L_Back P_Secure.
Local Open Scope Z_scope.
Local Open Scope prog_scope.

(** C82 (a).  The dictionary is not listed, but stands among the last objects of the file, not as the first of all: it is
    found there, and the document opens and reads as if it were listed. *)
Theorem C82_unlisted_encrypt : forall inflate ccitt md5 sha256 rc4_size aes_dec f ver pre body rest o ls t raw clear l en eg e A s inner later z X rn rg pw h,
  f = pre ++ body ++ rest -> header_of f (Ok (ver, zlen pre)) -> offset_of f (Ok o) -> Chain f o ls t ->
  dget t (bs "xrefs") = None -> dget t (bs "self") = None ->
  BodyText raw l body rest -> (forall c, hd_error rest = Some c -> is_digit c = false /\ c <> 115 /\ c <> 116) ->
  (forall n g v, In (n, g, v) l <-> raw n g = Some v) ->
  listings_right raw f ls -> (forall a b z, raw a b = Some (OInt z) -> exists o, newest ls a b o) ->
  dget t (bs "Encrypt") = Some (ORef en eg) -> 0 <= en -> 0 <= eg -> raw en eg = Some (ODict e) -> e <> [] ->
  (forall l', In l' ls -> forall o', last_listed true en l' <> Some (eg, o')) ->
  last_objects f en eg o A s inner later z X ->
  IndObj en eg (ODict e) (header_text en eg ++ inner ++ bs "endobj") (flat_map block_text later ++ z ++ X) ->
  dget t (bs "Root") = Some (ORef rn rg) ->
  trailer_handler md5 sha256 rc4_size aes_dec (fun _ _ => ODict e) t pw = Ok (Some h) ->
  reads_as md5 rc4_size aes_dec h raw clear ->
  forall D m k, (0 < D)%nat -> 4 * zlen f + 8 <= Z.of_nat m -> (List.length ls <= k)%nat -> (2 <= k)%nat ->
  exists s, arun f (open_pdf inflate ccitt D m md5 sha256 rc4_size aes_dec k pw) (mkA 0 [] rst0) = (Ok (ver, t, Some h, denoted clear rn rg), s) /\
  forall ids, fst (session inflate ccitt (decrypt_object md5 rc4_size aes_dec (Some h)) D m k f s ids) = map (fun id => Ok (denoted clear (fst id) (snd id))) ids.
Proof.
  intros inflate ccitt md5 sha256 rc4_size aes_dec f ver pre body rest o ls t raw clear l en eg e A s inner later z X rn rg pw h
    Ef Hh Hoff HC H1 H2 HB Hc Hall HLR Hints HE Hen Heg Hraw He HUn HLO HIO HR Hth HRd D m k HD Hm Hk Hk2.
  assert (finds_encrypt inflate ccitt D m f ls k en eg e) as HFE.
  { intros p u HX HK.
    assert (no_objstm (ODict e)) as HO by (intros ? ?; discriminate).
    set (lc := locate_object inflate ccitt (fun _ _ v => Ok v) D m k).
    pose proof (locate_backwards_found inflate ccitt D m f HD Hm lc o en eg (ODict e) A s inner later z X p u Hoff Hen Heg HLO HO HK HIO) as HB2.
    exists p. intros st. destruct (HB2 st) as [ex E]. exists ex. unfold locate_encrypt. fold lc.
    cbn [reg_get bind getu ret arun a_usr]. fold (known u en eg). rewrite HK. cbn [truthy bind getu arun a_usr]. rewrite HX.
    assert (forall num gen v, (fun _ _ : Z => @None obj) num gen = Some v -> no_objstm v) as HNo by (intros ? ? ? X1; discriminate X1).
    rewrite <- (app_nil_r (map table_of ls)). rewrite (by_xref_skip inflate ccitt D m f HD (fun _ _ => None) HNo) by (now apply Forall_forall).
    cbn [by_xref reg_get bind getu ret arun a_usr]. fold (known u en eg). rewrite HK. cbn [truthy].
    rewrite arun_bind, E. destruct e; [congruence|]. reflexivity. }
  apply (any_objects inflate ccitt md5 sha256 rc4_size aes_dec f ver pre body rest o ls t raw clear l en eg e rn rg pw h); auto.
Qed.
Print Assumptions C82_unlisted_encrypt.

(** ---- written files ---- *)
Definition upto_endobj (n g : Z) (v : obj) : list Z := header_text n g ++ [32] ++ value_text v ++ [32].
Lemma object_text_split n g v : object_text n g v = upto_endobj n g v ++ eo.
Proof. unfold object_text, upto_endobj, header_text, eo. change (bs " obj") with ([32] ++ bs "obj"). rewrite <- !app_assoc. reflexivity. Qed.
Lemma digits_no_e ds : digits_ok ds -> no_e ds.
Proof. unfold digits_ok, no_e. apply Forall_impl. intros c H. unfold is_digit in H. lia. Qed.
Lemma header_no_e n g : 0 <= n -> 0 <= g -> no_e (header_text n g).
Proof.
  intros Hn Hg. destruct (dec_ok n Hn) as (_ & D1 & _). destruct (dec_ok g Hg) as (_ & D2 & _). unfold header_text, no_e. repeat (apply Forall_app; split).
  - now apply digits_no_e.
  - repeat constructor. discriminate.
  - now apply digits_no_e.
  - repeat constructor; discriminate.
Qed.
Lemma upto_clean s n g v : no_e s -> 0 <= n -> 0 <= g -> ~ has eo (value_text v) -> clean (s ++ upto_endobj n g v).
Proof.
  intros Hs Hn Hg Hv. apply clean_no_e; [exact Hs|]. unfold upto_endobj. apply clean_no_e; [now apply header_no_e|].
  apply (clean_no_e [32]); [repeat constructor; discriminate|]. apply clean_app; [exact Hv| |].
  - apply clean_cons_ne; [discriminate|apply clean_nil].
  - cbn. intuition discriminate.
Qed.
Lemma nosep_header n g W : 0 <= n -> nosep (header_text n g ++ W).
Proof. intros Hn. destruct (dec_ok n Hn) as (_ & D1 & D2). unfold header_text. rewrite <- !app_assoc. now apply digits_nosep. Qed.
(** two numbers followed by a space are the same text only if they are the same number *)
Lemma dec_space_inj n n' W W' : 0 <= n -> 0 <= n' -> dec n ++ [32] ++ W = dec n' ++ [32] ++ W' -> n = n'.
Proof.
  intros Hn Hn' E. destruct (dec_ok n Hn) as (V1 & D1 & _). destruct (dec_ok n' Hn') as (V2 & D2 & _). rewrite <- V1, <- V2. f_equal.
  revert E. generalize (dec n) (dec n') D1 D2. clear. induction l as [|c l IH]; intros [|c' l'] H1 H2 E; cbn [app] in E; [reflexivity| | |].
  - injection E as <- _. inversion H2. discriminate.
  - injection E as -> _. inversion H1. discriminate.
  - injection E as -> E. inversion H1; inversion H2; subst. f_equal. auto.
Qed.
Lemma zlen_pos_dec n : 0 <= n -> 1 <= zlen (dec n).
Proof. intros Hn. destruct (dec_ok n Hn) as (_ & _ & D2). destruct (dec n); [congruence|]. rewrite zlen_cons. pose proof (zlen_nonneg l). lia. Qed.


Lemma block_written n g v en eg : 0 <= n -> 0 <= g -> 0 <= en -> n <> en -> zlen (header_text en eg) <= 14 -> ~ has eo (value_text v) ->
  block_ok (header_text en eg) ([10], upto_endobj n g v).
Proof.
  intros Hn Hg Hen Hne Hh Hv. unfold block_ok. cbn [fst snd]. split; [apply sep_nl|]. split; [now apply nosep_header|].
  assert (9 <= zlen (upto_endobj n g v)) as HL.
  { unfold upto_endobj, header_text. rewrite !zlen_app. pose proof (zlen_pos_dec n Hn). pose proof (zlen_pos_dec g Hg). pose proof (zlen_nonneg (value_text v)).
    change (zlen [32]) with 1. change (zlen (bs " obj")) with 4. lia. }
  split; [intros E; rewrite E in HL; cbn in HL; lia|]. split; [apply (upto_clean [10]); auto; repeat constructor; discriminate|]. split; [lia|].
  intros E. apply Hne.
  assert (upto_endobj n g v ++ bs "endobj" = header_text en eg ++ skipn (List.length (header_text en eg)) (upto_endobj n g v ++ bs "endobj")) as E2.
  { rewrite <- (firstn_skipn (List.length (header_text en eg)) (upto_endobj n g v ++ bs "endobj")) at 1. now rewrite E. }
  unfold upto_endobj at 1, header_text at 1 2 in E2. rewrite <- !app_assoc in E2. eapply dec_space_inj; eauto.
Qed.

Lemma items_objs objs : flat_map item_objs (unlisted_items objs) = objs.
Proof. induction objs as [|[[n g] v] objs IH]; [reflexivity|]. cbn [unlisted_items map flat_map item_objs fst snd app]. unfold unlisted_items in IH. now rewrite IH. Qed.
Lemma items_text objs : flat_map item_text (unlisted_items objs) = body_text objs.
Proof. induction objs as [|[[n g] v] objs IH]; [reflexivity|]. cbn [unlisted_items map flat_map item_text fst snd body_text]. unfold unlisted_items in IH. rewrite IH, <- app_assoc. reflexivity. Qed.
Lemma body_text_app x y : body_text (x ++ y) = body_text x ++ body_text y.
Proof. induction x as [|[[n g] v] x IH]; [reflexivity|]. cbn [app body_text]. rewrite IH, <- !app_assoc. reflexivity. Qed.
Definition blocks_of (objs : list (Z * Z * obj)) : list (list Z * list Z) := map (fun x => ([10], upto_endobj (fst (fst x)) (snd (fst x)) (snd x))) objs.
Lemma blocks_text : forall objs W, [10] ++ body_text objs ++ W = flat_map block_text (blocks_of objs) ++ [10] ++ W.
Proof.
  induction objs as [|[[n g] v] objs IH]; intros W; [reflexivity|]. cbn [body_text blocks_of map flat_map fst snd]. unfold block_text at 1. cbn [fst snd].
  rewrite object_text_split, <- !app_assoc. fold eo. do 3 f_equal. apply IH.
Qed.
Lemma items_fine objs t : rev_ok (mkRev objs t) -> items_ok (unlisted_items objs) t.
Proof.
  intros (R1 & R2 & R3). unfold items_ok. rewrite items_objs. cbn [rv_objs rv_trailer] in *. split; [|split; [exact R2|exact R3]].
  unfold unlisted_items. apply Forall_map. eapply Forall_impl; [|exact R1]. intros [[n g] v] H. exact H.
Qed.
(** which objects the table lists *)
Lemma listed_but en : forall objs start n g v, In (n, g, v) objs -> NoDup (map (fun e : Z * Z * obj => fst (fst e)) objs) -> n <> en ->
  exists o, last_listed true n (item_listings (fun x => negb (x =? en)) start (unlisted_items objs)) = Some (g, o).
Proof.
  induction objs as [|[[n0 g0] v0] objs IH]; intros start n g v HI ND Hne; [contradiction|]. cbn [map fst] in ND. inversion ND as [|? ? HN ND']; subst.
  cbn [unlisted_items map item_listings item_id fst snd].
  change (map (fun x => Whole (fst (fst x)) (snd (fst x)) (snd x)) objs) with (unlisted_items objs).
  set (start2 := start + zlen (item_text (Whole n0 g0 v0))).
  destruct HI as [HI|HI].
  - injection HI as -> -> ->. rewrite (proj2 (Z.eqb_neq n en) Hne). cbn [negb app].
    assert (forall start, last_listed true n (item_listings (fun x => negb (x =? en)) start (unlisted_items objs)) = None) as HL.
    { intros st. destruct (last_listed true n (item_listings (fun x => negb (x =? en)) st (unlisted_items objs))) as [[g' o']|] eqn:E; [|reflexivity]. exfalso. apply HN.
      destruct (items_app _ _ _ _ _ _ E) as (it & i1 & i2 & Ei & Eid & _).
      assert (In it (unlisted_items objs)) as Hit by (rewrite Ei; apply in_or_app; right; now left).
      apply in_map_iff in Hit. destruct Hit as ([[n1 g1] v1] & <- & HI1). cbn [item_id fst snd] in Eid. injection Eid as -> ->. apply in_map_iff. exists (n, g', v1). auto. }
    cbn [last_listed li_num li_used li_gen li_off]. rewrite HL. rewrite Z.eqb_refl. cbn. eauto.
  - destruct (IH start2 n g v HI ND' Hne) as [o Ho]. exists o. destruct (negb (n0 =? en)); [|exact Ho]. cbn [app last_listed]. now rewrite Ho.
Qed.
Lemma unlisted_but en objs start g o : last_listed true en (item_listings (fun x => negb (x =? en)) start (unlisted_items objs)) <> Some (g, o).
Proof.
  revert start. induction objs as [|[[n0 g0] v0] objs IH]; intros start; [discriminate|]. cbn [unlisted_items map item_listings item_id fst snd].
  change (map (fun x => Whole (fst (fst x)) (snd (fst x)) (snd x)) objs) with (unlisted_items objs).
  destruct (n0 =? en) eqn:E; [cbn [negb app]; apply IH|]. cbn [negb app last_listed li_num li_used].
  specialize (IH (start + zlen (item_text (Whole n0 g0 v0)))).
  destruct (last_listed true en (item_listings (fun x => negb (x =? en)) (start + zlen (item_text (Whole n0 g0 v0))) (unlisted_items objs))) as [[g' o']|] eqn:E2; [exact IH|].
  rewrite E. discriminate.
Qed.
Lemma no_j_clean x : Forall (fun c => c <> 106) x -> ~ has eo x.
Proof. intros H (p & q & ->). apply Forall_app in H. destruct H as [_ H]. apply Forall_app in H. destruct H as [H _]. unfold eo in H. cbn in H. repeat (inversion H as [|? ? ? H']; subst; clear H; rename H' into H; try congruence). Qed.
Lemma forall_firstn {A} (Q : A -> Prop) k : forall l, Forall Q l -> Forall Q (firstn k l).
Proof. induction k as [|k IH]; intros [|x l] H; cbn; constructor; inversion H; auto. Qed.
Lemma digits_no_j ds : digits_ok ds -> Forall (fun c => c <> 106) ds.
Proof. unfold digits_ok. apply Forall_impl. intros c H. unfold is_digit in H. lia. Qed.
Lemma fixed_no_j w : forall z, Forall (fun c => c <> 106) (fixed_dec w z).
Proof. induction w as [|w IH]; intros z; cbn [fixed_dec]; [constructor|]. apply Forall_app. split; [apply IH|]. constructor; [|constructor]. pose proof (Z.mod_pos_bound z 10). lia. Qed.
Lemma rows_no_j l : fits l -> Forall (fun c => c <> 106) (flat_map row_text l).
Proof.
  induction 1 as [|x l Hx HF IH]; cbn [flat_map]; [constructor|]. apply Forall_app. split; [|exact IH]. unfold row_text.
  destruct (dec_ok (li_num x)) as (_ & D1 & _); [lia|].
  repeat first [apply fixed_no_j | apply Forall_app; split]; try (now apply digits_no_j); try (destruct (li_used x); repeat constructor; discriminate).
Qed.
Lemma sec_split l t T : section_text l t ++ T = (bs "xref" ++ [10] ++ flat_map row_text l ++ bs "trailer" ++ [10] ++ bs "<<") ++ entries_text t ++ bs ">>" ++ T.
Proof. unfold section_text. now rewrite <- !app_assoc. Qed.
Lemma sec_start l t T k : fits l -> (k <= 14)%nat -> ~ has eo ([10] ++ firstn k (section_text l t ++ T)).
Proof.
  intros HF Hk. apply no_j_clean. constructor; [discriminate|]. rewrite sec_split. rewrite firstn_app.
  match goal with |- Forall _ (firstn k ?x ++ _) => set (P := x) end.
  assert (15 <= List.length P)%nat as HP by (unfold P; rewrite !app_length; cbn; lia).
  replace (k - List.length P)%nat with 0%nat by lia. rewrite firstn_O, app_nil_r. apply forall_firstn. unfold P.
  repeat (apply Forall_app; split); try (now apply rows_no_j); repeat constructor; discriminate.
Qed.
Lemma sec_long l t T : (14 <= List.length (section_text l t ++ T))%nat.
Proof. rewrite sec_split. rewrite !app_length. cbn. lia. Qed.
Lemma sec_not_header l t T en eg : 0 <= en -> firstn (List.length (header_text en eg)) (section_text l t ++ T) <> header_text en eg.
Proof.
  intros He E. destruct (dec_ok en He) as (_ & D1 & D2). unfold header_text in E. destruct (dec en) as [|c ds]; [congruence|]. inversion D1 as [|? ? Hc _]; subst.
  cbn in E. injection E as E _. subst c. discriminate.
Qed.

(** C82 (b).  A one-revision file whose table leaves out the Encrypt dictionary only, which is not the first object. *)
Theorem C82_written : forall inflate ccitt md5 sha256 rc4_size aes_enc aes_dec a b before after t objs en eg e rn rg pw h,
  (forall x, List.length (md5 x) = 16%nat) -> (forall k, 5 <= k <= 16 -> rc4_size k = true) -> cipher aes_enc aes_dec ->
  is_digit a = true -> is_digit b = true ->
  let raw := before ++ (en, eg, ODict e) :: after in let f := unlisted_file a b en raw t in
  rev_ok (mkRev raw t) -> zlen f < 10 ^ 10 -> before <> [] -> zlen (header_text en eg) <= 14 ->
  Forall (fun x => ~ has (bs "endobj") (value_text (snd x))) ((en, eg, ODict e) :: after) ->
  sealed_objects md5 aes_enc h raw objs ->
  dget t (bs "Encrypt") = Some (ORef en eg) -> e <> [] -> dget t (bs "Root") = Some (ORef rn rg) ->
  trailer_handler md5 sha256 rc4_size aes_dec (fun _ _ => ODict e) t pw = Ok (Some h) ->
  forall D m k, (0 < D)%nat -> 4 * zlen f + 8 <= Z.of_nat m -> (2 <= k)%nat ->
  exists s, arun f (open_pdf inflate ccitt D m md5 sha256 rc4_size aes_dec k pw) (mkA 0 [] rst0) =
              (Ok ([a; 46; b], t, Some h, match find_obj objs rn rg with Some v => v | None => ONull end), s) /\
  forall ids, fst (session inflate ccitt (decrypt_object md5 rc4_size aes_dec (Some h)) D m k f s ids) =
    map (fun id => Ok (match find_obj objs (fst id) (snd id) with Some v => v | None => ONull end)) ids.
Proof.
  intros inflate ccitt md5 sha256 rc4_size aes_enc aes_dec a b before after t objs en eg e rn rg pw h Hmd Hrc HCi Ha Hb raw f Hr Hlt Hbe Hh HEO HSe HE He HR Hth D m k HD Hm Hk.
  pose proof (items_fine raw t Hr) as Hok. set (items := unlisted_items raw) in *. set (sel := fun n => negb (n =? en)).
  change f with (deferred_file a b sel items t) in *. clear f.
  pose proof Hok as (_ & _ & _ & _ & K2 & K3). pose proof Hr as (R1 & R2 & _). cbn [rv_objs rv_trailer] in R1, R2.
  destruct (sizes a b sel items t Ha Hb Hlt) as (S1 & S2 & S3). pose proof (zlen_nonneg (flat_map item_text items)) as Hz.
  assert (flat_map item_text items = body_text raw) as Et by apply items_text.
  set (sc := sec a b sel items t).
  assert (nosep sc) as Hns by exact I || reflexivity.
  assert (exists body, BodyText (find_obj raw) raw body sc /\ deferred_file a b sel items t = [] ++ body ++ sc) as (body & HB & Ef).
  { pose proof (body_ok (find_obj raw) sc Hns raw (version_line a b) R1 (version_sep a b Ha Hb)) as HB. rewrite f_eq, Et. fold sc. destruct raw as [|[[n g] v] rs] eqn:Er.
    - exists (version_line a b). split; [exact HB|]. reflexivity.
    - eexists. split; [exact HB|]. cbn [body_text app]. rewrite <- !app_assoc. reflexivity. }
  assert (header_of (deferred_file a b sel items t) (Ok ([a; 46; b], zlen (@nil Z)))) as Hhd by (eapply header_written; [exact Ha|exact Hb|apply f_eq|exact S3]).
  set (o := zlen (version_line a b) + zlen (flat_map item_text items)) in *.
  assert (offset_of (deferred_file a b sel items t) (Ok o)) as Hoff.
  { rewrite f_eq. unfold sec, o. rewrite !app_assoc. apply offset_written. lia. }
  assert (In (en, eg, ODict e) raw) as HIn by (apply in_or_app; right; now left).
  assert (0 <= en /\ 0 <= eg) as [Hen Heg] by (rewrite Forall_forall in R1; specialize (R1 _ HIn); cbn [fst snd] in R1; lia).
  assert (forall n g v, In (n, g, v) raw <-> find_obj raw n g = Some v) as Hall by (intros n g v; now apply find_In).
  assert (fits (lst a b sel items)) as Hfit by (unfold lst; eapply items_fit; eauto).
  assert (forall n g, current [mkRev raw t] n g = find_obj raw n g) as Ec by (intros n g; cbn [current rv_objs]; now destruct (find_obj raw n g)).
  assert (forall n g, current [mkRev objs []] n g = find_obj objs n g) as Ec2 by (intros n g; cbn [current rv_objs]; now destruct (find_obj objs n g)).
  destruct (exists_last Hbe) as (b0 & [[pn pg] pv] & Eb).
  set (A := version_line a b ++ body_text b0 ++ upto_endobj pn pg pv).
  set (inner := [32] ++ value_text (ODict e) ++ [32]).
  assert (NoDup (map (fun e0 : Z * Z * obj => fst (fst e0)) raw)) as ND by exact R2.
  assert (last_objects (deferred_file a b sel items t) en eg o A [10] inner (blocks_of after) [10] sc) as HLO.
  { unfold last_objects. pose proof (Forall_inv HEO) as HEe. pose proof (Forall_inv_tail HEO) as HEa. cbn [snd] in HEe. repeat split.
    - rewrite <- (blocks_text after sc). rewrite f_eq, Et. fold sc. unfold raw. rewrite body_text_app, Eb, body_text_app. cbn [body_text]. rewrite !object_text_split.
      unfold A, inner, upto_endobj. fold eo. rewrite ?app_nil_r, <- ?app_assoc. reflexivity.
    - rewrite f_eq. fold sc. rewrite !zlen_app. unfold o. lia.
    - apply sep_nl.
    - apply (upto_clean [10] en eg (ODict e)); auto. repeat constructor; discriminate.
    - unfold blocks_of. apply Forall_map. apply Forall_forall. intros [[n g] v] HI. cbn [fst snd].
      rewrite Forall_forall in R1, HEa. specialize (HEa _ HI). specialize (R1 (n, g, v)). cbn [fst snd] in *.
      assert (In (n, g, v) raw) as HI2 by (apply in_or_app; right; now right). specialize (R1 HI2). apply block_written; auto; try lia.
      intros ->. unfold raw in ND. rewrite map_app in ND. cbn [map fst] in ND. apply NoDup_remove_2 in ND. apply ND. apply in_or_app. right.
      apply in_map_iff. exists (en, g, v). auto.
    - unfold sc, sec. pose proof (sec_long (lst a b sel items) t (end_text o)) as HL. unfold zlen in Hh. fold o. lia.
    - apply sec_not_header. exact Hen.
    - apply sec_start; [exact Hfit|]. unfold zlen in Hh. lia. }
  destruct (C82_unlisted_encrypt inflate ccitt md5 sha256 rc4_size aes_dec (deferred_file a b sel items t) [a; 46; b] [] body sc o [lst a b sel items] t
    (find_obj raw) (find_obj objs) raw en eg e A [10] inner (blocks_of after) [10] sc rn rg pw h Ef Hhd Hoff (written_chain a b sel items t Ha Hb Hok Hlt) K2 K3 HB) with (D := D) (m := m) (k := k) as (s & E & HS); auto.
  - intros c X. inversion X. repeat split; discriminate.
  - pose proof (listed_right a b sel items t Ha Hb Hok) as HL. unfold items in HL. rewrite items_objs in HL. exact HL.
  - intros n g z Hv. apply Hall in Hv. destruct (Z.eq_dec n en) as [->|Hne].
    { exfalso. unfold raw in ND. apply (in_map (fun x => x)) in Hv. rewrite map_id in Hv.
      assert (find_obj raw en g = Some (OInt z)) as F1 by now apply Hall.
      apply in_split in HIn. destruct HIn as (l1 & l2 & El). fold raw in ND. rewrite El in ND.
      assert (In (en, g, OInt z) (l1 ++ l2)) as H0.
      { fold raw in Hv. rewrite El in Hv. apply in_app_or in Hv. apply in_or_app. destruct Hv as [Hv|[Hv|Hv]]; auto. discriminate Hv. }
      apply (nodup_cut (fun e : Z * Z * obj => fst (fst e)) l1 _ l2 _ ND H0). reflexivity. }
    destruct (listed_but en raw (zlen (version_line a b)) n g (OInt z) Hv ND Hne) as [o' Ho']. exists o', [], (lst a b sel items), []. repeat split; auto.
  - apply Hall. exact HIn.
  - intros l' [<-|[]] o'. apply unlisted_but.
  - rewrite Forall_forall in R1. specialize (R1 _ HIn). cbn [fst snd] in R1.
    pose proof (object_text_ok en eg (ODict e) (flat_map block_text (blocks_of after) ++ [10] ++ sc) Hen Heg (proj2 (proj2 R1))) as [HI _].
    rewrite object_text_split in HI. unfold upto_endobj in HI. rewrite <- !app_assoc in HI. unfold inner. rewrite <- !app_assoc. exact HI.
  - assert (reads_as md5 rc4_size aes_dec h (current [mkRev raw t]) (current [mkRev objs []])) as HRd.
    { apply (sealed_reads_as md5 rc4_size aes_enc aes_dec); [exact Hmd|exact Hrc|exact HCi|constructor; [exact Hr|constructor]| |constructor; [exact HSe|constructor]].
      intros n g v Hv. rewrite Ec in Hv. apply Hall in Hv. rewrite Forall_forall in R1. specialize (R1 _ Hv). cbn [fst snd] in R1.
      apply (object_text_ok n g v []); try lia. apply R1. }
    destruct HRd as [H1 H2]. split; intros n g.
    + intros v Hv. rewrite <- Ec in Hv. destruct (H1 n g v Hv) as (w & Hw & Hx). exists w. rewrite Ec2 in Hw. auto.
    + intros Hv. rewrite <- Ec in Hv. rewrite <- Ec2. auto.
  - cbn [List.length]. lia.
  - exists s. split; [exact E|]. exact HS.
Qed.
Print Assumptions C82_written.

(** The document of P_Secure.v, its table without the Encrypt dictionary, opened with the user password. *)
Definition ex_before : list (Z * Z * obj) := seal_all toy_md5 ex_key (firstn 2 (rv_objs ex_doc)).
Definition ex_unlisted : list Z := unlisted_file 49 55 4 (ex_before ++ [(4, 0, ODict ex_dict)]) (rv_trailer ex_doc).
Example C82_ex inflate ccitt : exists s m,
  arun ex_unlisted (open_pdf inflate ccitt 1 m toy_md5 toy_md5 (fun _ => true) (fun _ b => b) 2 (bs "user")) (mkA 0 [] rst0) =
    (Ok (bs "1.7", rv_trailer ex_doc, Some (HBase ex_key), ODict [(bs "Type", OName (bs "Catalog")); (bs "Title", OStr (bs "kept as is"))]), s) /\
  fst (session inflate ccitt (decrypt_object toy_md5 (fun _ => true) (fun _ b => b) (Some (HBase ex_key))) 1 m 2 ex_unlisted s [(2, 3); (9, 0); (4, 0)]) =
    [Ok (OStream [(bs "Length", OInt 5)] (bs "hello")); Ok ONull; Ok (ODict ex_dict)].
Proof.
  set (raw := ex_before ++ [(4, 0, ODict ex_dict)]).
  assert (zlen (unlisted_file 49 55 4 raw (rv_trailer ex_doc)) < 10 ^ 10) as Hlt by (vm_compute; reflexivity).
  assert (raw = seal_all toy_md5 ex_key (rv_objs ex_doc)) as Eraw by reflexivity.
  assert (cipher (fun _ b : list Z => b) (fun _ b => b)) as HCi by (intros ? ? ?; split; auto).
  assert (rev_ok (mkRev raw (rv_trailer ex_doc))) as Hr by (rewrite Eraw; apply (seal_all_rev toy_md5 ex_key ex_doc), ex_doc_ok).
  assert (sealed_objects toy_md5 (fun _ b => b) (HBase ex_key) raw (rv_objs ex_doc)) as HSe.
  { rewrite Eraw. apply seal_all_ok. destruct ex_doc_ok as (R1 & _). cbn [ex_doc rv_objs] in *.
    repeat match goal with H : Forall _ (_ :: _) |- _ => apply Forall_cons_iff in H; destruct H as [(_ & _ & ?) H] end.
    repeat (apply Forall_cons; [split; [vm_compute; discriminate|split; [assumption|exact I]]|]). constructor. }
  assert (zlen (header_text 4 0) <= 14) as Hh by (vm_compute; discriminate).
  assert (Forall (fun x => ~ has (bs "endobj") (value_text (snd x))) ([(4, 0, ODict ex_dict)] : list (Z * Z * obj))) as HEO.
  { constructor; [|constructor]. apply no_j_clean. cbn [snd]. apply Forall_forall. intros c Hc E. subst c. revert Hc. vm_compute. intuition discriminate. }
  assert (trailer_handler toy_md5 toy_md5 (fun _ => true) (fun _ b => b) (fun _ _ => ODict ex_dict) (rv_trailer ex_doc) (bs "user") = Ok (Some (HBase ex_key))) as Hth by (vm_compute; reflexivity).
  assert (ex_before <> []) as Hbe by discriminate. assert (ex_dict <> []) as Hde by discriminate.
  pose proof (C82_written inflate ccitt toy_md5 toy_md5 (fun _ => true) (fun _ b => b) (fun _ b => b) 49 55 ex_before [] (rv_trailer ex_doc) (rv_objs ex_doc) 4 0 ex_dict 1 0 (bs "user") (HBase ex_key)
    toy_md5_len (fun _ _ => eq_refl) HCi eq_refl eq_refl Hr Hlt Hbe Hh HEO HSe eq_refl Hde eq_refl Hth) as H. cbv zeta in H. fold raw ex_unlisted in H.
  assert (4 * zlen ex_unlisted + 8 <= Z.of_nat (Z.to_nat (4 * zlen ex_unlisted + 8))) as Hm.
  { pose proof (zlen_nonneg ex_unlisted) as H0. rewrite Z2Nat.id; [apply Z.le_refl|clear -H0; lia]. }
  destruct (H 1%nat _ 2%nat (le_n _) Hm (le_n _)) as (s & E & HS).
  exists s, (Z.to_nat (4 * zlen ex_unlisted + 8)). split; [exact E|]. exact (HS [(2, 3); (9, 0); (4, 0)]).
Qed.

(** C82 (c).  Refuted: that an unlisted Encrypt dictionary is found in time however it is written.  Here its header has two
    spaces; the search from the end misses it, the search from the start finds it, but files the streams it passes undecrypted:
    the document opens with its password and the handler, and the stream, though listed, is read as it was encrypted. *)
Definition ex_spaced : list Z :=
  let body := version_line 49 55 ++ object_text 1 0 (OStream [(bs "Length", OInt 5)] (rc4_core (object_key toy_md5 ex_key 1 0 []) (bs "hello"))) ++ [10] ++
    bs "4  0 obj " ++ value_text (ODict ex_dict) ++ bs " endobj" ++ [10] in
  body ++ section_text [mkListed 1 0 (zlen (version_line 49 55)) true] (rv_trailer ex_doc) ++ end_text (zlen body).
Theorem C82_other_spelling_refuted : forall inflate ccitt, exists ver t root s data,
  arun ex_spaced (open_pdf inflate ccitt 1 1400 toy_md5 toy_md5 (fun _ => true) (fun _ b => b) 2 (bs "user")) (mkA 0 [] rst0) =
    (Ok (ver, t, Some (HBase ex_key), root), s) /\
  fst (session inflate ccitt (decrypt_object toy_md5 (fun _ => true) (fun _ b => b) (Some (HBase ex_key))) 1 1400 2 ex_spaced s [(1, 0)]) =
    [Ok (OStream [(bs "Length", OInt 5)] data)] /\
  data <> bs "hello" /\
  decrypt_object toy_md5 (fun _ => true) (fun _ b => b) (Some (HBase ex_key)) 1 0 (OStream [(bs "Length", OInt 5)] data) = Ok (OStream [(bs "Length", OInt 5)] (bs "hello")).
Proof.
  intros inflate ccitt. exists (bs "1.7"), (rv_trailer ex_doc), (OStream [(bs "Length", OInt 5)] [47; 102; 196; 53; 117]).
  eexists. exists [47; 102; 196; 53; 117]. split; [vm_compute; reflexivity|]. split; [vm_compute; reflexivity|]. split; [discriminate|]. vm_compute. reflexivity.
Qed.
Print Assumptions C82_other_spelling_refuted.
