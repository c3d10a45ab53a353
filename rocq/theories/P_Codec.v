(** Single-byte encodings, glyph names, Differences: C56, C57, C58, C59, and C70, C71. *)
From Coq Require Import String.
From Verif Require Import Prelude M_Parser M_Objects D_Glyphs M_Codec.
Local Open Scope Z_scope.

(** *** C59 *)
(** Lookups made so far, by any classes; a class always has the same use_ZapfDingbats. *)
Inductive Looked (zapf_of : Z -> bool) : gcache -> Prop :=
| L_none : Looked zapf_of []
| L_one c cls name : Looked zapf_of c -> c_zapf cls = zapf_of (c_id cls) -> Looked zapf_of (snd (glyph_name_to_string cls name c)).

Lemma eqlZ_true a b : eqlZ a b = true <-> a = b.
Proof. apply eqlZ_eq. Qed.
Definition right (zapf_of : Z -> bool) (c : gcache) : Prop := forall id name v, cget c id name = Some v ->
  forall cls, c_id cls = id -> c_zapf cls = zapf_of id -> v = fst (glyph_name_to_string cls name []).
Lemma looked_right zo c : Looked zo c -> right zo c.
Proof.
  induction 1 as [|c cls name _ IH Hz]; [intros id n v H; discriminate|].
  unfold glyph_name_to_string. destruct (cget c (c_id cls) name) as [v|] eqn:E; [exact IH|]. cbn [snd].
  intros id n v H cls' Hi Hz'. cbn [cget] in H. destruct ((id =? c_id cls) && eqlZ n name) eqn:B.
  - apply andb_true_iff in B. destruct B as [B1 B2]. apply Z.eqb_eq in B1. apply eqlZ_true in B2. subst n.
    inversion H. unfold glyph_name_to_string. cbn [cget fst]. rewrite Hz, Hz', B1. reflexivity.
  - eapply IH; eauto.
Qed.
Lemma glyph_any zo c cls name : right zo c -> c_zapf cls = zo (c_id cls) ->
  fst (glyph_name_to_string cls name c) = fst (glyph_name_to_string cls name []).
Proof.
  intros R Hz. unfold glyph_name_to_string at 1. destruct (cget c (c_id cls) name) as [v|] eqn:E; [|reflexivity].
  cbn [fst]. eapply R; eauto.
Qed.
Theorem C59_cache_transparent : forall zapf_of c cls name, Looked zapf_of c -> c_zapf cls = zapf_of (c_id cls) ->
  fst (glyph_name_to_string cls name c) = fst (glyph_name_to_string cls name []).
Proof. intros. eapply glyph_any; eauto. now apply looked_right. Qed.
Example C59_ex : Looked (fun i => 0 <? i) (snd (glyph_name_to_string winansi (bs "a100") (snd (glyph_name_to_string (mkCodec 0 false [] []) (bs "a100") [])))) /\
  fst (glyph_name_to_string winansi (bs "a100") []) = [10078] /\ fst (glyph_name_to_string (mkCodec 0 false [] []) (bs "a100") []) = [].
Proof. split; [apply L_one; [apply L_one; [apply L_none|reflexivity]|reflexivity]|]. split; vm_compute; reflexivity. Qed.

(** *** C56 *)
(** A class that decodes to names only: the built-in ones, and those made of Differences with names only. *)
Definition names_only (cls : codec) : Prop := Forall (fun p => exists s, snd p = OName s) (c_decode cls).
(** what a byte alone decodes to *)
Definition char_of (cls : codec) (b : Z) : list Z := match fst (decode cls [b] []) with Ok (t, _) => t | Err _ => [] end.

Lemma zassoc_in {A} (d : list (Z * A)) k v : zassoc d k = Some v -> In (k, v) d.
Proof. induction d as [|[k' v'] d IH]; cbn; [discriminate|]. destruct (k =? k') eqn:E; [intros H; inversion H; apply Z.eqb_eq in E; subst; auto|auto]. Qed.
Lemma names_item cls b o : names_only cls -> zassoc (c_decode cls) b = Some o -> exists s, o = OName s.
Proof. intros H E. apply zassoc_in in E. unfold names_only in H. rewrite Forall_forall in H. destruct (H _ E) as [s Hs]. eauto. Qed.
Lemma char_listed cls b s : zassoc (c_decode cls) b = Some (OName s) -> char_of cls b = fst (glyph_name_to_string cls s []).
Proof.
  intros E. unfold char_of, decode. cbn [decode_loop]. rewrite E. cbn [glyph_item].
  destruct (glyph_name_to_string cls s []) as [v c']. reflexivity.
Qed.
Lemma char_unlisted cls b : zassoc (c_decode cls) b = None -> char_of cls b = [b].
Proof. intros E. unfold char_of, decode. cbn [decode_loop]. rewrite E. reflexivity. Qed.
Lemma right_step zo cls name c : right zo c -> c_zapf cls = zo (c_id cls) -> right zo (snd (glyph_name_to_string cls name c)).
Proof.
  intros R Hz. unfold glyph_name_to_string. destruct (cget c (c_id cls) name) as [v|] eqn:E; [exact R|]. cbn [snd].
  intros id n v H cls' Hi Hz'. cbn [cget] in H. destruct ((id =? c_id cls) && eqlZ n name) eqn:B.
  - apply andb_true_iff in B. destruct B as [B1 B2]. apply Z.eqb_eq in B1. apply eqlZ_true in B2. subst n.
    inversion H. unfold glyph_name_to_string. cbn [cget fst]. rewrite Hz, Hz', B1. reflexivity.
  - eapply R; eauto.
Qed.
Lemma decode_loop_chars zo cls l : names_only cls -> c_zapf cls = zo (c_id cls) -> forall acc c, right zo c ->
  fst (decode_loop cls l acc c) = Ok (acc ++ flat_map (char_of cls) l).
Proof.
  intros Hn Hz. induction l as [|b l IH]; intros acc c R; cbn [decode_loop flat_map].
  - now rewrite app_nil_r.
  - destruct (zassoc (c_decode cls) b) as [o|] eqn:E.
    + destruct (names_item cls b o Hn E) as [s ->]. cbn [glyph_item].
      pose proof (glyph_any zo c cls s R Hz) as G. pose proof (right_step zo cls s c R Hz) as R'.
      destruct (glyph_name_to_string cls s c) as [v c']. cbn [fst snd] in *. rewrite (IH _ _ R'), (char_listed _ _ _ E), G, app_assoc. reflexivity.
    + rewrite (IH _ _ R), (char_unlisted _ _ E), app_assoc. reflexivity.
Qed.
(** Whatever was decoded before, decoding a byte string gives the texts of its bytes one after the other, uses
    all of them and never fails. *)
Theorem C56_bytewise : forall zapf_of cls l c, names_only cls -> Looked zapf_of c -> c_zapf cls = zapf_of (c_id cls) ->
  fst (decode cls l c) = Ok (flat_map (char_of cls) l, zlen l).
Proof.
  intros zo cls l c Hn Hl Hz. unfold decode. pose proof (decode_loop_chars zo cls l Hn Hz [] c (looked_right _ _ Hl)) as H.
  destruct (decode_loop cls l [] c) as [r c']. cbn [fst] in H. subst r. reflexivity.
Qed.
Theorem C56_unlisted_byte : forall cls b, zassoc (c_decode cls) b = None -> char_of cls b = [b].
Proof. exact char_unlisted. Qed.
Lemma names_table_only id z e d : names_only (mkCodec id z e (names_table d)).
Proof. unfold names_only, names_table. cbn [c_decode]. induction d; constructor; cbn; eauto. Qed.
Theorem C56_builtin : forall l, let zapf_of := fun _ => true in
  forall cls c, In cls [winansi; standard; macroman; pdfdoc] -> Looked zapf_of c ->
    fst (decode cls l c) = Ok (flat_map (char_of cls) l, zlen l).
Proof.
  intros l zo cls c Hin Hc. apply (C56_bytewise zo); auto.
  - repeat (destruct Hin as [<-|Hin]; [apply names_table_only|]). destruct Hin.
  - repeat (destruct Hin as [<-|Hin]; [reflexivity|]). destruct Hin.
Qed.

(** *** C57 *)
Definition round (cls : codec) (b : Z) : bool := match char_of cls b with [x] => encode_char cls x =? b | _ => false end.
Definition bytes_all : list Z := map Z.of_nat (seq 0 256).
Definition exceptions (cls : codec) (l : list Z) : list Z := filter (fun b => negb (round cls b)) l.

Lemma in_bytes b : 0 <= b < 256 -> In b bytes_all.
Proof. intros H. unfold bytes_all. apply in_map_iff. exists (Z.to_nat b). split; [lia|]. apply in_seq. lia. Qed.
Lemma not_exception cls b l ex : exceptions cls l = ex -> In b l -> ~ In b ex -> round cls b = true.
Proof.
  intros <- Hb H. destruct (round cls b) eqn:E; [reflexivity|]. exfalso. apply H. unfold exceptions. apply filter_In. split; [exact Hb|now rewrite E].
Qed.
Lemma is_exception cls b l ex : exceptions cls l = ex -> In b ex -> round cls b = false.
Proof. intros <- H. unfold exceptions in H. apply filter_In in H. destruct H as [_ H]. destruct (round cls b); [discriminate H|reflexivity]. Qed.
Definition agrees (cls : codec) (bad : list Z) : Prop := forall b, 0 <= b < 256 ->
  (~ In b bad -> exists x, fst (decode cls [b] []) = Ok ([x], 1) /\ encode cls [x] = ([b], 1)) /\
  (In b bad -> forall x, fst (decode cls [b] []) = Ok ([x], 1) -> encode cls [x] <> ([b], 1)).
Lemma agrees_by cls bad : exceptions cls bytes_all = bad -> names_only cls -> agrees cls bad.
Proof.
  intros HE Hn b Hb.
  assert (fst (decode cls [b] []) = Ok (char_of cls b, 1)) as Hd.
  { rewrite (C56_bytewise (fun _ => c_zapf cls) cls [b] []); auto using L_none. cbn [flat_map]. rewrite app_nil_r. reflexivity. }
  split; intros H.
  - pose proof (not_exception _ _ _ _ HE (in_bytes b Hb) H) as R. unfold round in R. destruct (char_of cls b) as [|x [|y r]]; try discriminate.
    exists x. split; [exact Hd|]. unfold encode. cbn [map]. apply Z.eqb_eq in R. now rewrite R.
  - pose proof (is_exception _ _ _ _ HE H) as R. intros x E F. rewrite Hd in E. inversion E as [E']. unfold round in R. rewrite E' in R.
    unfold encode in F. cbn [map] in F. inversion F as [F']. rewrite F' in R. now rewrite Z.eqb_refl in R.
Qed.
(** For every byte but the listed ones, decoding gives one character that encodes to that byte; for the listed
    ones it does not. *)
Theorem C57_winansi : agrees winansi [160; 164].
Proof. apply agrees_by; [vm_compute; reflexivity|apply names_table_only]. Qed.
Theorem C57_standard : agrees standard [160; 168; 176; 183; 202; 216; 223; 230].
Proof. apply agrees_by; [vm_compute; reflexivity|apply names_table_only]. Qed.
Theorem C57_macroman : agrees macroman [161; 176; 182; 183; 184; 186; 195; 197; 198; 202; 219; 251].
Proof. apply agrees_by; [vm_compute; reflexivity|apply names_table_only]. Qed.
Theorem C57_pdfdoc : agrees pdfdoc [30; 164; 176].
Proof. apply agrees_by; [vm_compute; reflexivity|apply names_table_only]. Qed.
(** Byte strings without exceptional bytes survive decoding and encoding. *)
Theorem C57_strings : forall cls bad l, agrees cls bad -> names_only cls -> Forall (fun b => 0 <= b < 256 /\ ~ In b bad) l ->
  exists t, fst (decode cls l []) = Ok (t, zlen l) /\ encode cls t = (l, zlen l).
Proof.
  intros cls bad l HA Hn HF. rewrite (C56_bytewise (fun _ => c_zapf cls) cls l []); auto using L_none.
  exists (flat_map (char_of cls) l). split; [reflexivity|]. unfold encode.
  assert (map (encode_char cls) (flat_map (char_of cls) l) = l /\ zlen (flat_map (char_of cls) l) = zlen l) as [E1 E2]; [|now rewrite E1, E2].
  induction HF as [|b l [Hb Hb2] HF [IH1 IH2]]; [split; reflexivity|].
  destruct (HA b Hb) as [H1 _]. destruct (H1 Hb2) as (x & Hx & Ex).
  rewrite (C56_bytewise (fun _ => c_zapf cls) cls [b] []) in Hx by auto using L_none. cbn [flat_map] in Hx. rewrite app_nil_r in Hx.
  inversion Hx as [Hx']. cbn [flat_map]. rewrite Hx'. cbn [app map]. unfold encode in Ex. cbn [map] in Ex. inversion Ex as [Ex'].
  rewrite IH1. split; [now rewrite Ex'|]. rewrite !zlen_cons. lia.
Qed.
Example C57_ex : exists t, fst (decode macroman (bs "Na" ++ [149; 118; 101; 222]) []) = Ok (t, 6) /\ t = [78; 97; 239; 118; 101; 64257].
Proof. eexists. split; [vm_compute; reflexivity|reflexivity]. Qed.

(** *** C58 *)
Definition is_int (o : obj) : bool := match o with OInt _ | OBool _ => true | _ => false end.
(** A Differences array in sections: a starting code and the items for it and the following codes. *)
Definition flatten (segs : list (Z * list obj)) : list obj := flat_map (fun s => OInt (fst s) :: snd s) segs.
Definition segments (segs : list (Z * list obj)) : Prop := Forall (fun s => Forall (fun o => is_int o = false) (snd s)) segs.
(** The item that section [s] assigns to code [b]. *)
Definition assigns (s : Z * list obj) (b : Z) : option obj := if b <? fst s then None else nth_error (snd s) (Z.to_nat (b - fst s)).
(** The last section that assigns [b] assigns it [o]. *)
Definition LastAssigned (segs : list (Z * list obj)) (b : Z) (o : obj) : Prop :=
  exists s1 s s2, segs = s1 ++ s :: s2 /\ assigns s b = Some o /\ Forall (fun s' => assigns s' b = None) s2.

Lemma zset_get {A} (d : list (Z * A)) k v b : zassoc (zset d k v) b = if b =? k then Some v else zassoc d b.
Proof.
  induction d as [|[k' v'] d IH]; cbn [zset zassoc]; [reflexivity|]. destruct (k =? k') eqn:E.
  - apply Z.eqb_eq in E. subst k'. cbn [zassoc]. destruct (b =? k); reflexivity.
  - cbn [zassoc]. rewrite IH. destruct (b =? k') eqn:E1; [|reflexivity]. apply Z.eqb_eq in E1. subst. now rewrite Z.eqb_sym, E.
Qed.
Lemma diff_names items : Forall (fun o => is_int o = false) items -> forall dt z rest,
  exists dt', apply_differences dt (Some z) (items ++ rest) = apply_differences dt' (Some (z + zlen items)) rest /\
    forall b, zassoc dt' b = match assigns (z, items) b with Some o => Some o | None => zassoc dt b end.
Proof.
  induction 1 as [|o items Ho _ IH]; intros dt z rest.
  - exists dt. cbn [app zlen List.length]. rewrite Z.add_0_r. split; [reflexivity|]. intros b. unfold assigns. cbn [fst snd].
    destruct (b <? z); [reflexivity|]. destruct (Z.to_nat (b - z)); reflexivity.
  - destruct (IH (zset dt z o) (z + 1) rest) as (dt' & E & F). exists dt'. split.
    + rewrite zlen_cons. replace (z + (1 + zlen items)) with (z + 1 + zlen items) by lia. rewrite <- E.
      destruct o; try discriminate; reflexivity.
    + intros b. rewrite F, zset_get. unfold assigns. cbn [fst snd]. destruct (b <? z + 1) eqn:E1, (b <? z) eqn:E2; try lia.
      * assert (b =? z = false) as -> by lia. reflexivity.
      * assert (b = z) as -> by lia. rewrite Z.sub_diag. cbn. rewrite Z.eqb_refl. reflexivity.
      * replace (Z.to_nat (b - z)) with (S (Z.to_nat (b - (z + 1)))) by lia. cbn [nth_error].
        assert (b =? z = false) as -> by lia. reflexivity.
Qed.
Lemma diff_segs segs : segments segs -> forall dt code,
  exists dt', apply_differences dt code (flatten segs) = Ok dt' /\
    forall b, (forall o, LastAssigned segs b o -> zassoc dt' b = Some o) /\
              (Forall (fun s => assigns s b = None) segs -> zassoc dt' b = zassoc dt b).
Proof.
  induction 1 as [|[z items] segs Hi _ IH]; intros dt code.
  - exists dt. split; [reflexivity|]. intros b. split; [|auto]. intros o (s1 & s & s2 & E & _). destruct s1; discriminate.
  - cbn [snd] in Hi. cbn [flatten flat_map fst snd app apply_differences].
    destruct (diff_names items Hi dt z (flatten segs)) as (d1 & E1 & F1). fold (flatten segs). rewrite E1.
    destruct (IH d1 (Some (z + zlen items))) as (d2 & E2 & F2). exists d2. split; [exact E2|]. intros b. destruct (F2 b) as [G1 G2]. split.
    + intros o (s1 & s & s2 & E & A & F). destruct s1 as [|s0 s1]; inversion E; subst.
      * rewrite (G2 F), F1, A. reflexivity.
      * apply G1. exists s1, s, s2. auto.
    + intros F. inversion F; subst. rewrite (G2 H2), F1, H1. reflexivity.
Qed.
Lemma last_or_none segs b : (exists o, LastAssigned segs b o) \/ Forall (fun s => assigns s b = None) segs.
Proof.
  induction segs as [|s segs [(o & s1 & s' & s2 & E & A & F)|IH]]; [right; constructor| |].
  - left. exists o, (s :: s1), s', s2. subst. auto.
  - destruct (assigns s b) as [o|] eqn:E; [left; exists o, [], s, segs; auto|right; constructor; auto].
Qed.
(** The base encoding: the four named ones; StandardEncoding for any other name, or none. *)
Definition base_of (base : option (list Z)) : codec :=
  match base with
  | None => standard
  | Some n => if eqlZ n (bs "MacRomanEncoding") then macroman else if eqlZ n (bs "WinAnsiEncoding") then winansi
              else if eqlZ n (bs "PDFDocEncoding") then pdfdoc else standard
  end.
Lemma base_of_ok base : match base with None => standard | Some n => match base_codec n with Some c => c | None => standard end end = base_of base.
Proof.
  unfold base_of, base_codec. destruct base as [n|]; [|reflexivity].
  destruct (eqlZ n (bs "MacRomanEncoding")) eqn:E; [apply eqlZ_eq in E; subst n; reflexivity|].
  destruct (eqlZ n (bs "WinAnsiEncoding")); [reflexivity|]. destruct (eqlZ n (bs "PDFDocEncoding")); [reflexivity|].
  destruct (eqlZ n (bs "StandardEncoding")); reflexivity.
Qed.
(** A code that a section assigns a name decodes to that name's text (the last section wins); every other code
    decodes as in the base encoding. *)
Theorem C58_differences : forall id base segs, segments segs -> exists cls, differences_codec id base (flatten segs) = Ok cls /\
  forall b, (forall n, LastAssigned segs b (OName n) ->
               fst (decode cls [b] []) = Ok (fst (glyph_name_to_string cls n []), 1)) /\
            (Forall (fun s => assigns s b = None) segs -> fst (decode cls [b] []) = fst (decode (base_of base) [b] [])).
Proof.
  intros id base segs HS. unfold differences_codec.
  rewrite base_of_ok.
  destruct (diff_segs segs HS (c_decode (base_of base)) None) as (dt & E & F). rewrite E. eexists. split; [reflexivity|]. intros b. destruct (F b) as [F1 F2]. split.
  - intros n Hn. unfold decode. cbn [decode_loop c_decode]. rewrite (F1 _ Hn). cbn [glyph_item].
    destruct (glyph_name_to_string _ n []) as [v c']. reflexivity.
  - intros H. unfold decode. cbn [decode_loop c_decode]. rewrite (F2 H).
    assert (names_only (base_of base) /\ c_zapf (base_of base) = true) as [Hn Hz].
    { unfold base_of. destruct base as [n|]; [|split; [apply names_table_only|reflexivity]].
      repeat (destruct (eqlZ n _); [split; [apply names_table_only|reflexivity]|]). split; [apply names_table_only|reflexivity]. }
    destruct (zassoc (c_decode (base_of base)) b) as [o|] eqn:Eb; [|reflexivity].
    destruct (names_item _ _ _ Hn Eb) as [s ->]. cbn [glyph_item].
    unfold glyph_name_to_string. cbn [cget c_zapf c_id]. rewrite Hz. reflexivity.
Qed.
(** Every array that starts with a number is in sections; one that starts with a name fails. *)
Theorem C58_sections_exist : forall ds, (exists z r, ds = OInt z :: r) -> (forall b, ~ In (OBool b) ds) ->
  exists segs, segments segs /\ flatten segs = ds.
Proof.
  intros ds (z & r & ->) Hb. assert (forall b, ~ In (OBool b) r) as Hb' by (intros b H; apply (Hb b); now right). clear Hb. revert z.
  induction r as [|o r IH]; intros z.
  - exists [(z, [])]. split; [repeat constructor|reflexivity].
  - assert (forall b, ~ In (OBool b) r) as Hb2 by (intros b H; apply (Hb' b); now right).
    destruct (is_int o) eqn:Eo.
    + destruct o; try discriminate; [exfalso; apply (Hb' b); now left|]. destruct (IH Hb2 z0) as (segs & S & F).
      exists ((z, []) :: segs). split; [constructor; [constructor|exact S]|]. cbn [flatten flat_map fst snd app]. f_equal. exact F.
    + destruct (IH Hb2 z) as (segs & S & F). destruct segs as [|[z' items] segs]; [discriminate|].
      cbn [flatten flat_map fst snd app] in F. inversion F. subst z'. exists ((z, o :: items) :: segs). split.
      * inversion S; subst. constructor; [constructor; auto|auto].
      * cbn [flatten flat_map fst snd app]. now rewrite H1.
Qed.
Theorem C58_leading_name_fails : forall id base n r, differences_codec id base (OName n :: r) = Err UnboundLocal.
Proof. reflexivity. Qed.
Example C58_ex : let segs := [(65, [OName (bs "W"); OName (bs "Y")]); (66, [OName (bs "copyright"); OName (bs "uni20AC")])] in
  segments segs /\ LastAssigned segs 66 (OName (bs "copyright")) /\ LastAssigned segs 65 (OName (bs "W")) /\
  Forall (fun s => assigns s 68 = None) segs /\
  match differences_codec 9 (Some (bs "WinAnsiEncoding")) (flatten segs) with
  | Ok cls => fst (decode cls (bs "ABCD") []) = Ok ([87; 169; 8364; 68], 4) | Err _ => False end.
Proof.
  split; [repeat constructor|]. split; [|split; [|split]].
  - exists [(65, [OName (bs "W"); OName (bs "Y")])], (66, [OName (bs "copyright"); OName (bs "uni20AC")]), []. repeat split; constructor.
  - exists [], (65, [OName (bs "W"); OName (bs "Y")]), [(66, [OName (bs "copyright"); OName (bs "uni20AC")])]. repeat split; repeat constructor.
  - repeat constructor.
  - vm_compute. reflexivity.
Qed.

(** *** C70: a font's Encoding name *)
(** Every Encoding name that Python itself does not know is decoded with WinAnsiEncoding - also MacRomanEncoding,
    StandardEncoding and PDFDocEncoding. *)
Theorem C70_named_encoding_is_winansi : forall python pd id n s c, python n = false ->
  encoding_decode python pd id (EName n) s c = decode_loop winansi s [] c.
Proof. intros python pd id n s c H. unfold encoding_decode, codecs_lookup, first_found. cbn [fold_left]. rewrite H. reflexivity. Qed.
Theorem C70_macroman_refuted : forall python pd id, python (bs "MacRomanEncoding") = false ->
  fst (encoding_decode python pd id (EName (bs "MacRomanEncoding")) [128] []) = Ok [8364] /\
  fst (decode macroman [128] []) = Ok ([196], 1).
Proof. intros python pd id H. rewrite C70_named_encoding_is_winansi by exact H. split; vm_compute; reflexivity. Qed.
(** With an Encoding dictionary the named base encoding is used. *)
Theorem C70_dictionary_base : forall python pd id base s c zapf_of, Looked zapf_of c -> zapf_of id = true ->
  fst (encoding_decode python pd id (EDict base []) s c) = Ok (flat_map (char_of (base_of base)) s).
Proof.
  intros python pd id base s c zo Hc Hid. unfold encoding_decode, differences_codec.
  rewrite base_of_ok.
  cbn [apply_differences].
  assert (names_only (base_of base) /\ c_zapf (base_of base) = true) as [Hn Hz].
  { unfold base_of. destruct base as [n|]; [|split; [apply names_table_only|reflexivity]].
    repeat (destruct (eqlZ n _); [split; [apply names_table_only|reflexivity]|]). split; [apply names_table_only|reflexivity]. }
  set (cls := mkCodec id true (c_encode (base_of base)) (c_decode (base_of base))).
  rewrite (decode_loop_chars zo cls s); [|exact Hn|symmetry; exact Hid|now apply looked_right].
  cbn [app]. f_equal. apply flat_map_ext. intros b. unfold char_of, decode. cbn [decode_loop].
  change (c_decode cls) with (c_decode (base_of base)). destruct (zassoc (c_decode (base_of base)) b) as [o|] eqn:Eb; [|reflexivity].
  destruct (names_item _ _ _ Hn Eb) as [x ->]. cbn [glyph_item]. unfold glyph_name_to_string. cbn [cget c_zapf c_id cls]. rewrite Hz. reflexivity.
Qed.

(** *** C71: glyph names that spell code points *)
Definition hex4 (v : Z) : list Z := map hexdig [v / 4096; v / 256 mod 16; v / 16 mod 16; v mod 16].
Definition no_glyph (p : list Z) (k : nat) (d : list (list Z * list Z)) : bool :=
  forallb (fun e => negb (eqlZ (firstn (List.length p) (fst e)) p && Nat.eqb (List.length (fst e)) (List.length p + k)
                          && forallb (fun c => match hexval c with Some _ => true | None => false end) (skipn (List.length p) (fst e)))) d.
Lemma no_glyph_get p k d x : no_glyph p k d = true -> List.length x = k -> Forall (fun c => exists v, hexval c = Some v) x -> aget d (p ++ x) = None.
Proof.
  intros H Hk Hx. induction d as [|[key v] d IH]; [reflexivity|]. cbn [no_glyph forallb fst] in H. apply andb_true_iff in H. destruct H as [H1 H2].
  cbn [aget]. destruct (eqlZ (p ++ x) key) eqn:E; [|now apply IH]. exfalso. apply eqlZ_true in E. subst key.
  rewrite firstn_app, Nat.sub_diag, firstn_all, firstn_O, app_nil_r, eqlZ_refl, app_length, Hk, Nat.eqb_refl, skipn_app, Nat.sub_diag, skipn_all, skipn_O in H1.
  cbn [app andb] in H1. assert (forallb (fun c => match hexval c with Some _ => true | None => false end) x = true) as E.
  { apply forallb_forall. intros c Hc. rewrite Forall_forall in Hx. destruct (Hx c Hc) as [w ->]. reflexivity. }
  rewrite E in H1. discriminate.
Qed.
Lemma no_uni_agl : no_glyph (bs "uni") 4 agl = true. Proof. vm_compute. reflexivity. Qed.
Lemma no_uni_zapf : no_glyph (bs "uni") 4 zapf = true. Proof. vm_compute. reflexivity. Qed.
Definition is_hexdig (c : Z) : Prop := (48 <= c <= 57) \/ (65 <= c <= 70) \/ (97 <= c <= 102).
Lemma hexdig_is v : 0 <= v < 16 -> is_hexdig (hexdig v).
Proof. unfold is_hexdig, hexdig. intros H. destruct (v <? 10) eqn:E; lia. Qed.
Lemma hex_lstrip x l : is_hexdig x -> lstrip (x :: l) = x :: l.
Proof. unfold is_hexdig. intros H. cbn [lstrip]. assert (py_space x = false) as -> by (unfold py_space; lia). reflexivity. Qed.
Lemma hex_strip l : Forall is_hexdig l -> strip l = l.
Proof.
  intros H. unfold strip. destruct l as [|x r]; [reflexivity|]. rewrite hex_lstrip by now inversion H.
  assert (Forall is_hexdig (rev (x :: r))) as H2 by now apply Forall_rev. destruct (rev (x :: r)) as [|y q] eqn:E.
  - apply (f_equal (@rev Z)) in E. rewrite rev_involutive in E. discriminate.
  - rewrite hex_lstrip by now inversion H2. rewrite <- E. apply rev_involutive.
Qed.
Lemma hex_digits_val ds : Forall (fun v => 0 <= v < 16) ds -> forall acc, hex_digits acc (map hexdig ds) = Some (fold_left (fun a v => 16 * a + v) ds acc).
Proof. induction 1 as [|v ds Hv _ IH]; intros acc; cbn [map hex_digits fold_left]; [reflexivity|]. rewrite hexval_hexdig by exact Hv. apply IH. Qed.
Lemma py_int16_hex ds : ds <> [] -> Forall (fun v => 0 <= v < 16) ds -> py_int16 (map hexdig ds) = Some (fold_left (fun a v => 16 * a + v) ds 0).
Proof.
  intros Hne H. assert (Forall is_hexdig (map hexdig ds)) as HF.
  { apply Forall_map. eapply Forall_impl; [|exact H]. intros v Hv. now apply hexdig_is. }
  unfold py_int16. rewrite hex_strip by exact HF. pose proof (hex_digits_val ds H 0) as HD. destruct (map hexdig ds) as [|x r] eqn:E.
  - destruct ds; [congruence|discriminate].
  - assert (hex_nat (x :: r) = hex_digits 0 (x :: r)) as E1.
    { unfold hex_nat. destruct (Z.eq_dec x 48) as [->|Hx].
      - destruct r as [|y q]; [reflexivity|]. inversion HF as [|? ? _ HF2]. inversion HF2 as [|? ? Hy _]. subst. unfold is_hexdig in Hy.
        assert ((y =? 120) || (y =? 88) = false) as -> by lia. reflexivity.
      - repeat (match goal with |- context [match ?e with _ => _ end] => is_var e; destruct e; try reflexivity end); congruence. }
    rewrite <- HD, <- E1. inversion HF as [|? ? Hx _]. unfold is_hexdig in Hx. clear - Hx.
    repeat (match goal with |- context [match ?e with _ => _ end] => is_var e; destruct e; try reflexivity end); lia.
Qed.
Lemma hex4_val v : 0 <= v < 65536 -> fold_left (fun a v => 16 * a + v) [v / 4096; v / 256 mod 16; v / 16 mod 16; v mod 16] 0 = v /\
  Forall (fun v => 0 <= v < 16) [v / 4096; v / 256 mod 16; v / 16 mod 16; v mod 16].
Proof.
  intros H. split.
  - cbn [fold_left].
    pose proof (Z.div_mod v 16 ltac:(lia)). pose proof (Z.div_mod (v / 16) 16 ltac:(lia)). pose proof (Z.div_mod (v / 16 / 16) 16 ltac:(lia)).
    rewrite !Z.div_div in * by lia. change (16 * 16) with 256 in *. change (256 * 16) with 4096 in *. lia.
  - repeat constructor; try (apply Z.mod_pos_bound; lia); [apply Z.div_pos; lia|apply Z.div_lt_upper_bound; lia].
Qed.
(** "uni" and four hexadecimal digits name the character with that code, for every codec class and whatever
    was looked up before. *)
Theorem C71_uni_names : forall zapf_of cls c v, Looked zapf_of c -> c_zapf cls = zapf_of (c_id cls) -> 0 <= v < 65536 ->
  fst (glyph_name_to_string cls (bs "uni" ++ hex4 v) c) = [v].
Proof.
  intros zo cls c v Hc Hz Hv. rewrite (C59_cache_transparent zo) by assumption. unfold glyph_name_to_string. cbn [cget fst].
  destruct (hex4_val v Hv) as [E F].
  assert (Forall (fun c => is_hexdig c) (hex4 v)) as HF by (apply Forall_map; eapply Forall_impl; [|exact F]; intros x Hx; now apply hexdig_is).
  assert (Forall (fun c => exists w, hexval c = Some w) (hex4 v)) as HF2.
  { apply Forall_map. eapply Forall_impl; [|exact F]. intros x Hx. eexists. now apply hexval_hexdig. }
  assert (components (bs "uni" ++ hex4 v) = [bs "uni" ++ hex4 v]) as EC.
  { clear -HF. unfold components, hex4 in *. cbn [map] in *.
    repeat match goal with H : Forall _ (_ :: _) |- _ => inversion H; clear H; subst end. unfold is_hexdig in *.
    change (bs "uni") with [117; 110; 105]. cbn [app split_on].
    repeat match goal with |- context [hexdig ?a =? ?b] => let E := fresh in assert (hexdig a =? b = false) as E by lia; rewrite E; clear E end.
    cbn [Z.eqb Pos.eqb hd]. cbn [split_on].
    repeat match goal with |- context [hexdig ?a =? ?b] => let E := fresh in assert (hexdig a =? b = false) as E by lia; rewrite E; clear E end.
    reflexivity. }
  rewrite EC. cbn [fold_left app]. unfold component.
  rewrite (no_glyph_get (bs "uni") 4 agl) by (auto using no_uni_agl). rewrite (no_glyph_get (bs "uni") 4 zapf) by (auto using no_uni_zapf).
  assert (eqlZ (firstn 3 (bs "uni" ++ hex4 v)) (bs "uni") && ((zlen (bs "uni" ++ hex4 v) - 3) mod 4 =? 0) = true) as -> by reflexivity.
  change (Z.to_nat ((zlen (bs "uni" ++ hex4 v) - 3) / 4)) with 1%nat. change (skipn 3 (bs "uni" ++ hex4 v)) with (hex4 v).
  cbn [uni_chars]. change (firstn 4 (hex4 v)) with (hex4 v). unfold hex4. rewrite py_int16_hex by (auto; discriminate). rewrite E.
  assert (py_chr v = Some v) as -> by (unfold py_chr; assert ((0 <=? v) && (v <=? 1114111) = true) as -> by lia; reflexivity).
  destruct (c_zapf cls); reflexivity.
Qed.
Lemma no_u_agl : no_glyph (bs "u") 4 agl && no_glyph (bs "u") 5 agl && no_glyph (bs "u") 6 agl = true. Proof. vm_compute. reflexivity. Qed.
Lemma no_u_zapf : no_glyph (bs "u") 4 zapf && no_glyph (bs "u") 5 zapf && no_glyph (bs "u") 6 zapf = true. Proof. vm_compute. reflexivity. Qed.
(** The value of hexadecimal digits, most significant first. *)
Definition hex_value (ds : list Z) : Z := fold_left (fun a v => 16 * a + v) ds 0.
(** "u" and four to six hexadecimal digits likewise; a number that is no code point gives nothing. *)
Theorem C71_u_names : forall zapf_of cls c ds, Looked zapf_of c -> c_zapf cls = zapf_of (c_id cls) ->
  (4 <= List.length ds <= 6)%nat -> Forall (fun v => 0 <= v < 16) ds ->
  fst (glyph_name_to_string cls (bs "u" ++ map hexdig ds) c) = if hex_value ds <? 1114112 then [hex_value ds] else [].
Proof.
  intros zo cls c ds Hc Hz Hl F. rewrite (C59_cache_transparent zo) by assumption. unfold glyph_name_to_string. cbn [cget fst].
  assert (Forall is_hexdig (map hexdig ds)) as HF by (apply Forall_map; eapply Forall_impl; [|exact F]; intros x Hx; now apply hexdig_is).
  assert (Forall (fun c => exists w, hexval c = Some w) (map hexdig ds)) as HF2.
  { apply Forall_map. eapply Forall_impl; [|exact F]. intros x Hx. eexists. now apply hexval_hexdig. }
  assert (forall c, c = 46 \/ c = 95 -> split_on c (bs "u" ++ map hexdig ds) = [bs "u" ++ map hexdig ds]) as HS.
  { intros x Hx. change (bs "u" ++ map hexdig ds) with (117 :: map hexdig ds). cbn [split_on]. assert (117 =? x = false) as -> by lia.
    assert (split_on x (map hexdig ds) = [map hexdig ds]) as ->; [|reflexivity]. clear - HF Hx. induction HF as [|y l Hy _ IH]; [reflexivity|].
    cbn [split_on]. unfold is_hexdig in Hy. assert (y =? x = false) as -> by lia. now rewrite IH. }
  unfold components. rewrite HS by auto. cbn [hd]. rewrite HS by auto. cbn [fold_left app]. unfold component.
  pose proof no_u_agl as HA. pose proof no_u_zapf as HB. rewrite !andb_true_iff in HA, HB. destruct HA as [[A1 A2] A3]. destruct HB as [[B1 B2] B3].
  assert (aget agl (bs "u" ++ map hexdig ds) = None /\ aget zapf (bs "u" ++ map hexdig ds) = None) as [-> ->].
  { assert (List.length ds = 4 \/ List.length ds = 5 \/ List.length ds = 6)%nat as [E|[E|E]] by lia; split.
    1: apply (no_glyph_get _ 4); auto. 1: now rewrite map_length. 1: apply (no_glyph_get _ 4); auto; now rewrite map_length.
    1: apply (no_glyph_get _ 5); auto; now rewrite map_length. 1: apply (no_glyph_get _ 5); auto; now rewrite map_length.
    1: apply (no_glyph_get _ 6); auto; now rewrite map_length. apply (no_glyph_get _ 6); auto; now rewrite map_length. }
  assert (zlen (bs "u" ++ map hexdig ds) = 1 + Z.of_nat (List.length ds)) as HZ by (rewrite zlen_app; unfold zlen; rewrite map_length; reflexivity).
  assert (eqlZ (firstn 3 (bs "u" ++ map hexdig ds)) (bs "uni") = false) as ->.
  { destruct ds as [|a ds]; [cbn in Hl; lia|]. change (bs "u" ++ map hexdig (a :: ds)) with (117 :: hexdig a :: map hexdig ds). change (bs "uni") with [117; 110; 105].
    inversion HF as [|? ? Ha _]. unfold is_hexdig in Ha. cbn [firstn eqlZ]. assert (hexdig a =? 110 = false) as -> by lia. reflexivity. }
  cbn [andb]. change (firstn 1 (bs "u" ++ map hexdig ds)) with (bs "u"). change (eqlZ (bs "u") (bs "u")) with true. rewrite HZ.
  assert ((true && (5 <=? 1 + Z.of_nat (List.length ds)) && (1 + Z.of_nat (List.length ds) <=? 7)) = true) as -> by lia.
  change (skipn 1 (bs "u" ++ map hexdig ds)) with (map hexdig ds). rewrite py_int16_hex by (auto; intros ->; cbn in Hl; lia). fold (hex_value ds).
  assert (0 <= hex_value ds) as Hp.
  { unfold hex_value. assert (forall l a, 0 <= a -> Forall (fun v => 0 <= v < 16) l -> 0 <= fold_left (fun a v => 16 * a + v) l a) as HH; [|apply HH; [lia|exact F]].
    induction l as [|x l IH]; intros a Ha Hf; cbn [fold_left]; [exact Ha|]. inversion Hf; subst. apply IH; [lia|assumption]. }
  unfold py_chr. assert ((0 <=? hex_value ds) && (hex_value ds <=? 1114111) = (hex_value ds <? 1114112)) as -> by lia.
  destruct (hex_value ds <? 1114112), (c_zapf cls); reflexivity.
Qed.
Example C71_u_ex : hex_value [0; 1; 15; 6; 0; 0] = 128512 /\ bs "u" ++ map hexdig [0; 1; 15; 6; 0; 0] = bs "u01F600". Proof. split; reflexivity. Qed.
Print Assumptions C71_u_names.
Lemma split_none c l : Forall (fun x => x <> c) l -> split_on c l = [l].
Proof. induction 1 as [|x l Hx _ IH]; [reflexivity|]. cbn [split_on]. assert (x =? c = false) as -> by lia. now rewrite IH. Qed.
Lemma split_app c a b : Forall (fun x => x <> c) a -> split_on c (a ++ c :: b) = a :: split_on c b.
Proof. induction 1 as [|x a Hx _ IH]; cbn [app split_on]; [now rewrite Z.eqb_refl|]. assert (x =? c = false) as -> by lia. now rewrite IH. Qed.
Fixpoint joined (c : Z) (ws : list (list Z)) : list Z := match ws with [] => [] | [w] => w | w :: r => w ++ c :: joined c r end.
Lemma split_joined c ws : ws <> [] -> Forall (Forall (fun x => x <> c)) ws -> split_on c (joined c ws) = ws.
Proof.
  intros Hne H. induction H as [|w ws Hw HF IH]; [congruence|]. destruct ws as [|w2 ws]; cbn [joined].
  - now apply split_none.
  - rewrite split_app by exact Hw. f_equal. apply IH. discriminate.
Qed.
(** A name made of components joined by underscores, with any suffix after a full stop, stands for the texts of
    its components. *)
Theorem C71_components : forall zapf_of cls c ws suffix, Looked zapf_of c -> c_zapf cls = zapf_of (c_id cls) ->
  ws <> [] -> Forall (Forall (fun x => x <> 95 /\ x <> 46)) ws ->
  fst (glyph_name_to_string cls (joined 95 ws ++ 46 :: suffix) c) = List.concat (map (fun w => fst (glyph_name_to_string cls w [])) ws) /\
  fst (glyph_name_to_string cls (joined 95 ws) c) = List.concat (map (fun w => fst (glyph_name_to_string cls w [])) ws).
Proof.
  intros zo cls c ws suffix Hc Hz Hne HF. 
  assert (Forall (fun x => x <> 46) (joined 95 ws)) as HJ.
  { clear - HF. induction HF as [|w ws Hw HF IH]; [constructor|]. assert (Forall (fun x => x <> 46) w) as Hw' by (eapply Forall_impl; [|exact Hw]; intros ? [? ?]; assumption).
    destruct ws; cbn [joined]; [exact Hw'|]. apply Forall_app. split; [exact Hw'|]. constructor; [lia|exact IH]. }
  assert (Forall (Forall (fun x => x <> 95)) ws) as HU by (eapply Forall_impl; [|exact HF]; intros w Hw; eapply Forall_impl; [|exact Hw]; intros ? [? ?]; assumption).
  assert (forall l, fold_left (fun r g => r ++ component (c_zapf cls) g) ws l = l ++ List.concat (map (fun w => fst (glyph_name_to_string cls w [])) ws)) as HL.
  { clear Hne HJ HU. induction HF as [|w ws Hw HF IH]; intros l; cbn [fold_left map List.concat]; [now rewrite app_nil_r|].
    rewrite IH, <- app_assoc.
    f_equal. f_equal. unfold glyph_name_to_string. cbn [cget fst].
      assert (components w = [w]) as ->.
      { unfold components. rewrite (split_none 46 w) by (eapply Forall_impl; [|exact Hw]; intros ? [? ?]; assumption). cbn [hd]. apply split_none. eapply Forall_impl; [|exact Hw]; intros ? [? ?]; assumption. }
      reflexivity. }
  split; rewrite (C59_cache_transparent zo) by assumption; unfold glyph_name_to_string at 1; cbn [cget fst]; unfold components.
  - rewrite split_app by exact HJ. cbn [hd]. rewrite split_joined by assumption. now rewrite HL.
  - rewrite (split_none 46) by exact HJ. cbn [hd]. rewrite split_joined by assumption. rewrite HL. reflexivity.
Qed.
Example C71_ex : 0 <= 8364 < 65536 /\ hex4 8364 = bs "20AC" /\
  Forall (Forall (fun x => x <> 95 /\ x <> 46)) [bs "Lcommaaccent"; bs "uni20AC"; bs "u1040C"] /\
  joined 95 [bs "Lcommaaccent"; bs "uni20AC"; bs "u1040C"] = bs "Lcommaaccent_uni20AC_u1040C" /\
  fst (glyph_name_to_string winansi (bs "Lcommaaccent_uni20AC_u1040C.alternate") []) = [315; 8364; 66572].
Proof. split; [lia|]. split; [reflexivity|]. split; [repeat constructor; discriminate|]. split; [reflexivity|]. vm_compute. reflexivity. Qed.

(** What Python's int() also takes for hexadecimal digits: white space around them, a sign, 0x before them.  Glyph names
    which no list has thus name characters although they should name none. *)
Definition white (c : Z) : Prop := In c [9; 10; 11; 12; 13; 28; 29; 30; 31; 32; 133; 160].
Lemma white_space c : white c -> py_space c = true.
Proof. unfold white. intros H. repeat (destruct H as [<-|H]; [reflexivity|]). destruct H. Qed.
Lemma lstrip_white w l : Forall white w -> lstrip (w ++ l) = lstrip l.
Proof. induction 1 as [|c w Hc _ IH]; [reflexivity|]. cbn [app lstrip]. now rewrite white_space. Qed.
Lemma lstrip_solid x l : py_space x = false -> lstrip (x :: l) = x :: l.
Proof. intros H. cbn [lstrip]. now rewrite H. Qed.
Lemma strip_white pre body post : Forall white pre -> Forall white post -> body <> [] -> py_space (hd 0 body) = false -> py_space (last body 0) = false ->
  strip (pre ++ body ++ post) = body.
Proof.
  intros H1 H2 Hb Hh Hl. unfold strip. rewrite lstrip_white by exact H1. destruct body as [|x r]; [congruence|]. cbn [hd] in Hh.
  cbn [app]. rewrite lstrip_solid by exact Hh. change (x :: r ++ post) with ((x :: r) ++ post). rewrite rev_app_distr, lstrip_white by now apply Forall_rev.
  destruct (@exists_last _ (x :: r)) as (q & y & E); [discriminate|]. rewrite E in *. rewrite last_last in Hl. rewrite rev_app_distr. cbn [rev app].
  rewrite lstrip_solid by exact Hl. cbn [rev]. rewrite rev_involutive. reflexivity.
Qed.
Lemma hex_nat_hex ds : ds <> [] -> Forall (fun v => 0 <= v < 16) ds -> hex_nat (map hexdig ds) = Some (hex_value ds).
Proof.
  intros Hne H. assert (Forall is_hexdig (map hexdig ds)) as HF.
  { apply Forall_map. eapply Forall_impl; [|exact H]. intros v Hv. now apply hexdig_is. }
  pose proof (hex_digits_val ds H 0) as HD. fold (hex_value ds) in HD. rewrite <- HD. destruct (map hexdig ds) as [|x r] eqn:E.
  - destruct ds; [congruence|discriminate].
  - unfold hex_nat. destruct (Z.eq_dec x 48) as [->|Hx].
    + destruct r as [|y q]; [reflexivity|]. inversion HF as [|? ? _ HF2]. inversion HF2 as [|? ? Hy _]. subst. unfold is_hexdig in Hy.
      assert ((y =? 120) || (y =? 88) = false) as -> by lia. reflexivity.
    + repeat (match goal with |- context [match ?e with _ => _ end] => is_var e; destruct e; try reflexivity end); congruence.
Qed.
Definition sloppy (pre sign zx ds post : list Z) : list Z := pre ++ (sign ++ zx ++ map hexdig ds) ++ post.
Definition Sloppy (pre sign zx ds post : list Z) : Prop := Forall white pre /\ Forall white post /\ In sign [[]; bs "+"; bs "-"] /\ In zx [[]; bs "0x"; bs "0X"] /\
  ds <> [] /\ Forall (fun v => 0 <= v < 16) ds.
Lemma last_map_in (f : Z -> Z) ds d : ds <> [] -> exists v, In v ds /\ last (map f ds) d = f v.
Proof.
  intros H. destruct (@exists_last _ ds H) as (q & y & ->). exists y. split; [apply in_or_app; right; now left|]. rewrite map_app. cbn [map]. apply last_last.
Qed.
Lemma py_int16_sloppy pre sign zx ds post : Sloppy pre sign zx ds post ->
  py_int16 (sloppy pre sign zx ds post) = Some (if eqlZ sign (bs "-") then - hex_value ds else hex_value ds).
Proof.
  intros (H1 & H2 & H3 & H4 & H5 & H6). unfold py_int16, sloppy.
  assert (forall s, last (s ++ map hexdig ds) 0 = last (map hexdig ds) 0) as HL.
  { intros s. destruct (@exists_last _ ds H5) as (q & y & ->). rewrite map_app, app_assoc. cbn [map]. now rewrite !last_last. }
  assert (py_space (last (map hexdig ds) 0) = false) as HP.
  { destruct (last_map_in hexdig ds 0 H5) as (v & Hv & ->). rewrite Forall_forall in H6. specialize (H6 v Hv). pose proof (hexdig_is v H6) as D. unfold is_hexdig in D. unfold py_space. lia. }
  pose proof (hex_nat_hex ds H5 H6) as HN. pose proof (hex_digits_val ds H6 0) as HD. fold (hex_value ds) in HD.
  assert (exists x r, map hexdig ds = x :: r /\ is_hexdig x) as (x & r & E & Hx).
  { destruct ds as [|v ds]; [congruence|]. cbn [map]. exists (hexdig v), (map hexdig ds). split; [reflexivity|]. inversion H6; subst. now apply hexdig_is. }
  rewrite strip_white; try assumption.
  - assert (hex_nat (zx ++ map hexdig ds) = Some (hex_value ds)) as HZ.
    { cbn [In] in H4. destruct H4 as [<-|[<-|[<-|[]]]]; cbn [app].
      - exact HN.
      - change (bs "0x") with [48; 120]. cbn [app]. unfold hex_nat. cbn [Z.eqb Pos.eqb orb]. rewrite E in HD |- *. exact HD.
      - change (bs "0X") with [48; 88]. cbn [app]. unfold hex_nat. cbn [Z.eqb Pos.eqb orb]. rewrite E in HD |- *. exact HD. }
    cbn [In] in H3. destruct H3 as [<-|[<-|[<-|[]]]].
    + cbn [app]. assert (exists x r, zx ++ map hexdig ds = x :: r /\ is_hexdig x) as (x' & r' & E' & Hx').
      { cbn [In] in H4. destruct H4 as [<-|[<-|[<-|[]]]]; cbn [app]; [exists x, r; now split| |];
        (eexists 48, _; split; [reflexivity|unfold is_hexdig; lia]). }
      change (eqlZ [] (bs "-")) with false. cbv iota. rewrite <- HZ. rewrite E'. unfold is_hexdig in Hx'. clear - Hx'.
      repeat (match goal with |- context [match ?e with _ => _ end] => is_var e; destruct e; try reflexivity end); lia.
    + change (bs "+") with [43]. cbn [app]. exact HZ.
    + change (bs "-") with [45]. cbn [app]. rewrite HZ. reflexivity.
  - rewrite E. destruct sign, zx; discriminate.
  - cbn [In] in H3, H4. destruct H3 as [<-|[<-|[<-|[]]]]; [|reflexivity|reflexivity].
    destruct H4 as [<-|[<-|[<-|[]]]]; [|reflexivity|reflexivity]. cbn [app]. rewrite E. cbn [hd]. unfold is_hexdig in Hx. unfold py_space. lia.
  - rewrite app_assoc, HL. exact HP.
Qed.
Theorem C71_sloppy_names_refuted : forall zapf_of cls c pre sign zx ds post, Looked zapf_of c -> c_zapf cls = zapf_of (c_id cls) ->
  Sloppy pre sign zx ds post -> let number := pre ++ (sign ++ zx ++ map hexdig ds) ++ post in let v := if eqlZ sign (bs "-") then - hex_value ds else hex_value ds in
  let character := if (0 <=? v) && (v <? 1114112) then [v] else [] in
  (aget agl (bs "u" ++ number) = None -> aget zapf (bs "u" ++ number) = None -> (4 <= List.length number <= 6)%nat ->
   fst (glyph_name_to_string cls (bs "u" ++ number) c) = character) /\
  (aget agl (bs "uni" ++ number) = None -> aget zapf (bs "uni" ++ number) = None -> List.length number = 4%nat ->
   fst (glyph_name_to_string cls (bs "uni" ++ number) c) = character).
Proof.
  intros zo cls c pre sign zx ds post Hc Hz HS. cbv zeta. pose proof (py_int16_sloppy _ _ _ _ _ HS) as HP. unfold sloppy in HP.
  destruct HS as (H1 & H2 & H3 & H4 & H5 & H6). set (v := if eqlZ sign (bs "-") then - hex_value ds else hex_value ds) in *.
  assert (Forall (fun x => x <> 46 /\ x <> 95 /\ x <> 110) (pre ++ (sign ++ zx ++ map hexdig ds) ++ post)) as HF.
  { assert (forall w, Forall white w -> Forall (fun x => x <> 46 /\ x <> 95 /\ x <> 110) w) as HW.
    { intros w Hw. eapply Forall_impl; [|exact Hw]. intros x Hx. unfold white in Hx. repeat (destruct Hx as [<-|Hx]; [lia|]). destruct Hx. }
    rewrite !Forall_app. repeat apply conj.
    - now apply HW.
    - cbn [In] in H3. destruct H3 as [<-|[<-|[<-|[]]]]; [apply Forall_nil| |]; (apply Forall_cons; [repeat apply conj; vm_compute; discriminate|apply Forall_nil]).
    - cbn [In] in H4. destruct H4 as [<-|[<-|[<-|[]]]]; [apply Forall_nil| |]; (apply Forall_cons; [repeat apply conj; vm_compute; discriminate|apply Forall_cons; [repeat apply conj; vm_compute; discriminate|apply Forall_nil]]).
    - apply Forall_map. eapply Forall_impl; [|exact H6]. intros x Hx. pose proof (hexdig_is x Hx) as D. unfold is_hexdig in D. lia.
    - now apply HW. }
  set (number := pre ++ (sign ++ zx ++ map hexdig ds) ++ post) in *. clearbody number v.
  assert (forall p, Forall (fun x => x <> 46 /\ x <> 95) p -> components (p ++ number) = [p ++ number]) as HC.
  { intros p Hp. unfold components.
    assert (Forall (fun x => x <> 46) (p ++ number) /\ Forall (fun x => x <> 95) (p ++ number)) as [F1 F2].
    { split; apply Forall_app; (split; [eapply Forall_impl; [|exact Hp]; cbn; tauto|eapply Forall_impl; [|exact HF]; cbn; tauto]). }
    rewrite (split_none 46 (p ++ number) F1). cbn [hd]. now rewrite (split_none 95 (p ++ number) F2). }
  assert (match py_chr v with Some ch => [ch] | None => [] end = if (0 <=? v) && (v <? 1114112) then [v] else []) as EV.
  { unfold py_chr. assert ((0 <=? v) && (v <=? 1114111) = (0 <=? v) && (v <? 1114112)) as -> by lia. destruct ((0 <=? v) && (v <? 1114112)); reflexivity. }
  split; intros A1 A2 HL; rewrite (C59_cache_transparent zo) by assumption; unfold glyph_name_to_string; cbn [cget fst]; rewrite HC by (repeat (apply Forall_cons; [split; vm_compute; discriminate|]); apply Forall_nil);
    cbn [fold_left app]; unfold component; rewrite A1, A2.
  - assert (eqlZ (firstn 3 (bs "u" ++ number)) (bs "uni") = false) as ->.
    { destruct number as [|y q]; [cbn in HL; lia|]. inversion HF as [|? ? Hy _]; subst. change (bs "u" ++ y :: q) with (117 :: y :: q). change (bs "uni") with [117; 110; 105].
      cbn [firstn eqlZ]. assert (y =? 110 = false) as -> by lia. reflexivity. }
    cbn [andb]. change (firstn 1 (bs "u" ++ number)) with (bs "u"). change (eqlZ (bs "u") (bs "u")) with true.
    assert (zlen (bs "u" ++ number) = 1 + Z.of_nat (List.length number)) as -> by (rewrite zlen_app; reflexivity).
    assert ((true && (5 <=? 1 + Z.of_nat (List.length number)) && (1 + Z.of_nat (List.length number) <=? 7)) = true) as -> by lia.
    change (skipn 1 (bs "u" ++ number)) with number. rewrite HP, EV. destruct (c_zapf cls); reflexivity.
  - assert (zlen (bs "uni" ++ number) = 7) as -> by (rewrite zlen_app; unfold zlen; rewrite HL; reflexivity).
    change (firstn 3 (bs "uni" ++ number)) with (bs "uni"). change (eqlZ (bs "uni") (bs "uni") && ((7 - 3) mod 4 =? 0)) with true. cbv iota.
    change (Z.to_nat ((7 - 3) / 4)) with 1%nat. change (skipn 3 (bs "uni" ++ number)) with number. cbn [uni_chars].
    rewrite firstn_all2 by lia. rewrite HP. assert (match py_chr v with Some c0 => Some [c0] | None => None end = match (if (0 <=? v) && (v <? 1114112) then [v] else []) with [] => None | l => Some l end) as ->.
    { rewrite <- EV. destruct (py_chr v); reflexivity. }
    destruct ((0 <=? v) && (v <? 1114112)), (c_zapf cls); reflexivity.
Qed.
Example C71_sloppy_ex : Sloppy [28] (bs "-") [] [4; 1] [] /\ aget agl (bs "uni" ++ [28] ++ bs "-41") = None /\ aget zapf (bs "uni" ++ [28] ++ bs "-41") = None /\
  Sloppy [32] (bs "+") [] [4; 1] [] /\ Sloppy [] [] (bs "0x") [4; 1] [9].
Proof.
  assert (forall a b, 0 <= a < 16 -> 0 <= b < 16 -> Forall (fun v => 0 <= v < 16) [a; b]) as D by (intros; constructor; [assumption|constructor; [assumption|constructor]]).
  assert (Forall (fun v => 0 <= v < 16) [4; 1]) as D' by (apply D; lia).
  repeat apply conj; try assumption; try reflexivity; try discriminate; try (constructor; fail).
  all: try (constructor; [cbn; tauto|constructor]). all: cbn; tauto.
Qed.
(** Items of a Differences array that are not names.  Bytes they are assigned to cannot be decoded: a number, a truth value,
    null or an operator word raises AttributeError, anything else but a hexadecimal string TypeError. *)
Theorem C58_other_items_refuted : forall zapf_of cls b o pre text post c, Looked zapf_of c ->
  zassoc (c_decode cls) b = Some o -> fst (decode cls pre c) = Ok text ->
  ((o = ONull \/ (exists z, o = OInt z) \/ (exists t, o = OBool t) \/ (exists neg m e, o = OReal neg m e)) -> fst (decode cls (pre ++ b :: post) c) = Err AttributeErr) /\
  (((exists s, o = OStr s) \/ (exists l, o = OArr l) \/ (exists d, o = ODict d) \/ (exists d s, o = OStream d s) \/ (exists n g, o = ORef n g)) ->
   fst (decode cls (pre ++ b :: post) c) = Err TypeErr) /\
  (forall s, o = OHex s -> c_zapf cls = zapf_of (c_id cls) -> fst (decode cls [b] c) = Ok (fst (glyph_name_to_string cls s []), 1)).
Proof.
  intros zo cls b o pre text post c HL Hb Hp.
  assert (forall e, (forall c', fst (glyph_item cls o c') = Err e) -> fst (decode cls (pre ++ b :: post) c) = Err e) as HE.
  { intros e He. unfold decode in *. assert (forall l acc c0 t, fst (decode_loop cls l acc c0) = Ok t -> fst (decode_loop cls (l ++ b :: post) acc c0) = Err e) as HH.
    { induction l as [|x l IH]; intros acc c0 t H; cbn [app decode_loop] in *.
      - rewrite Hb. specialize (He c0). destruct (glyph_item cls o c0) as [r c1]. cbn [fst] in He. subst r. reflexivity.
      - destruct (zassoc (c_decode cls) x) as [i|]; [|eapply IH; exact H]. destruct (glyph_item cls i c0) as [[g|e'] c1]; [eapply IH; exact H|discriminate]. }
    destruct (decode_loop cls pre [] c) as [[t|e'] c1] eqn:E; [|discriminate].
    specialize (HH pre [] c t). rewrite E in HH. specialize (HH eq_refl). destruct (decode_loop cls (pre ++ b :: post) [] c) as [r c2]. cbn [fst] in HH. subst r. reflexivity. }
  repeat apply conj.
  - intros [->|[(z & ->)|[(t & ->)|(n & m & e & ->)]]]; apply HE; reflexivity.
  - intros [(s & ->)|[(l & ->)|[(d & ->)|[(d & s & ->)|(n & g & ->)]]]]; apply HE; reflexivity.
  - intros s -> Hz. unfold decode. cbn [decode_loop]. rewrite Hb. cbn [glyph_item].
    pose proof (C59_cache_transparent zo c cls s HL Hz) as HT. destruct (glyph_name_to_string cls s c) as [v c'] eqn:E. cbn [fst] in HT. subst v. reflexivity.
Qed.
Example C58_other_items_ex : exists cls, differences_codec 7 None [OInt 65; OName (bs "A"); ONull; OStr (bs "x")] = Ok cls /\
  zassoc (c_decode cls) 66 = Some ONull /\ zassoc (c_decode cls) 67 = Some (OStr (bs "x")) /\ fst (decode cls [65; 66] []) = Err AttributeErr /\ fst (decode cls [67] []) = Err TypeErr.
Proof. eexists. repeat apply conj; reflexivity. Qed.
Print Assumptions C56_bytewise.
Print Assumptions C56_unlisted_byte.
Print Assumptions C56_builtin.
Print Assumptions C57_winansi.
Print Assumptions C57_standard.
Print Assumptions C57_macroman.
Print Assumptions C57_pdfdoc.
Print Assumptions C57_strings.
Print Assumptions C58_differences.
Print Assumptions C58_sections_exist.
Print Assumptions C58_leading_name_fails.
Print Assumptions C59_cache_transparent.
Print Assumptions C70_named_encoding_is_winansi.
Print Assumptions C70_macroman_refuted.
Print Assumptions C70_dictionary_base.
Print Assumptions C71_uni_names.
Print Assumptions C71_components.
Print Assumptions C71_sloppy_names_refuted.
Print Assumptions C58_other_items_refuted.
