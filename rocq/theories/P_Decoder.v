(** C75: a font's text is decoded by its ToUnicode CMap, else by its Encoding, else by its name. *)
From Coq Require Import String.
From Verif Require Import Prelude M_Prog M_Parser M_Filters M_Document M_Objects M_Viewer M_Codec P_Codec M_CMap S_Syntax S_CMap S_CMapFile L_CMap P_CMap
  P_CMapDecode M_CMapParser P_CMapFile D_PSNames D_CMaps M_Decoder L_CMaps.
Local Open Scope Z_scope.


Lemma aget_In {V} (d : list (list Z * V)) k v : aget d k = Some v -> In (k, v) d.
Proof.
  induction d as [|[k' w] d IH]; [discriminate|]. cbn [aget]. destruct (eqlZ k k') eqn:E; intros H.
  - injection H as <-. apply eqlZ_true in E. subst. now left.
  - right. auto.
Qed.
Lemma aget_key {V} (d : list (list Z * V)) k : existsb (fun q => eqlZ k (fst q)) d = true -> exists v, aget d k = Some v.
Proof.
  induction d as [|[k' w] d IH]; [discriminate|]. cbn [aget existsb fst]. destruct (eqlZ k k') eqn:E; [eauto|]. intros H. apply IH. exact H.
Qed.

(** *** Predefined CMaps.  Their files parse, but hold character collections' codes only: no code has a text. *)
Theorem C75_predefined_files : forall name, In name (map fst predefined_cmaps) ->
  exists c, predefined name = Ok c /\ cm_bf c = [] /\ cm_notdef c = [] /\ cm_cid c <> [] /\
    Forall (fun m => exists r, m = MMap r (r_begin r)) (cm_cid c).
Proof.
  intros name Hn. unfold predefined.
  destruct (aget_key predefined_cmaps name) as [f Ef].
  { apply existsb_exists. apply in_map_iff in Hn. destruct Hn as (p & <- & Hp). exists p. split; [exact Hp|apply eqlZ_refl]. }
  rewrite Ef. apply aget_In in Ef.
  pose proof names_have_files as HN. rewrite forallb_forall in HN. specialize (HN _ Ef). cbn [snd] in HN.
  destruct (aget_key cmap_files f HN) as [b Eb]. rewrite Eb. apply aget_In in Eb.
  pose proof files_checked as HF. rewrite forallb_forall in HF. specialize (HF _ Eb). exact (check_ok b HF).
Qed.

(** The bytes other than zero, and the last one. *)
Definition visible (s : list Z) : list Z :=
  match s with [] => [] | _ => filter (fun x => negb (x =? 0)) (removelast s) ++ [last s 0] end.
Lemma visible_cons x y r : visible (x :: y :: r) = if x =? 0 then visible (y :: r) else x :: visible (y :: r).
Proof. unfold visible. change (removelast (x :: y :: r)) with (x :: removelast (y :: r)). change (last (x :: y :: r) 0) with (last (y :: r) 0).
  cbn [filter]. destruct (x =? 0); reflexivity. Qed.
Lemma greedy_empty s t : Greedy (lookup []) Ok s t -> t = visible s.
Proof.
  intros H. induction H as [|x r t u E _ _|x y r t u _ E _ _|x y r t u _ _ Hx E _ IH|y r u _ _ _ IH|x t _ E]; try discriminate E.
  - reflexivity.
  - injection E as <-. rewrite visible_cons, <- IH. destruct (x =? 0) eqn:X; [lia|reflexivity].
  - rewrite visible_cons, <- IH. reflexivity.
  - injection E as <-. reflexivity.
Qed.
Lemma decode_empty s : Forall (fun x => 0 <= x < 256) s -> cm_decode_string (lookup []) Ok s = Ok (visible s).
Proof.
  intros H. destruct (C54_decode_string (lookup []) Ok s) as (t & E & G); auto.
  - intros c _. right. reflexivity.
  - intros x _. eexists. reflexivity.
  - apply greedy_empty in G. now subst t.
Qed.

(** *** Fonts *)
Section Fonts.
  Variable python : list Z -> bool.
  Variable python_decode : list Z -> list Z -> res (list Z).
  Variable inflate : list Z -> option (list Z).
  Variable ccitt : list Z -> fparams -> res (list Z).
  Variable bld : bv -> res bv.
  Variable id : Z.
  Notation says font k v := (font_get bld font (bs k) = Ok v).
  Notation show_text := (show_text python python_decode inflate ccitt bld id).
  Notation decode_bytes := (decode_bytes python python_decode bld id).

  (** The encoding of a font, when it is one: not a predefined CMap's name, not missing, null or empty. *)
  Definition own_encoding (en : bv) : option bv := if is_predefined en then None else if btruthy en then Some en else None.
  Definition other_bytes (en : bv) (s : list Z) : res (list Z) := match own_encoding en with Some e => decode_bytes e s | None => Ok s end.

  Lemma fallback_eq en s : fallback python python_decode bld id (if is_predefined en then none else en) s = other_bytes en s.
  Proof. unfold fallback, other_bytes, own_encoding. destruct (is_predefined en); [reflexivity|]. destruct (btruthy en); reflexivity. Qed.

  Lemma cm_loop_ext bf enc enc' n : (forall s, enc s = enc' s) -> forall codes code r, cm_loop bf enc n codes code r = cm_loop bf enc' n codes code r.
  Proof.
    intros H. assert (forall h, enc_hex enc h = enc_hex enc' h) as HE by (intros h; unfold enc_hex; destruct (fromhex h); cbn [rbind]; auto).
    induction n as [|n IH]; intros [|c cs] code r; cbn [cm_loop]; try reflexivity; try (destruct code; [reflexivity|now rewrite HE]).
    destruct (bf (code ++ c)) as [ch|[]]; try reflexivity; [apply IH|]. destruct (zlen (code ++ c) <? 4); [apply IH|].
    destruct (eqlZ _ _); [apply IH|]. rewrite HE. destruct (enc_hex enc' _); cbn [rbind]; [apply IH|reflexivity].
  Qed.

  (** With a ToUnicode stream that parses, its CMap decodes; the bytes it does not know go to the font's own
      encoding, or to latin-1 without one. *)
  Theorem C75_tounicode : forall font tu en b c s h, says font "ToUnicode" tu -> btruthy tu = true -> filtered_of inflate ccitt bld tu = Ok b ->
    parse_cmap b = Ok c -> says font "Encoding" en ->
    show_text (Some font) (OStr s) = cm_decode_string (lookup (cm_bf c)) (other_bytes en) s /\
    show_text (Some font) (OHex h) = cm_decode_hex (lookup (cm_bf c)) (other_bytes en) h.
  Proof.
    intros font tu en b c s h H1 H2 H3 H4 H5. unfold M_Decoder.show_text, decoder_of, get_cmap_encoding.
    rewrite H1. cbn [rbind]. rewrite H5. cbn [rbind]. rewrite H2, H3. cbn [rbind]. rewrite H4. cbn [rbind run_decoder].
    unfold cm_decode_string, cm_decode_hex. split; apply cm_loop_ext; intros x; apply fallback_eq.
  Qed.
  (** A ToUnicode stream that does not parse fails the text, whatever else the font has. *)
  Theorem C75_tounicode_broken : forall font tu en b e o, says font "ToUnicode" tu -> btruthy tu = true -> filtered_of inflate ccitt bld tu = Ok b ->
    parse_cmap b = Err e -> says font "Encoding" en -> show_text (Some font) o = Err e.
  Proof.
    intros font tu en b e o H1 H2 H3 H4 H5. unfold M_Decoder.show_text, decoder_of, get_cmap_encoding.
    rewrite H1. cbn [rbind]. rewrite H5. cbn [rbind]. rewrite H2, H3. cbn [rbind]. rewrite H4. reflexivity.
  Qed.
  (** Without one (missing, null, empty), a predefined CMap's name as Encoding. *)
  Theorem C75_predefined_names : forall font tu name s, says font "ToUnicode" tu -> btruthy tu = false ->
    says font "Encoding" (VAtom (OName name)) -> In name (map fst predefined_cmaps) -> Forall (fun x => 0 <= x < 256) s ->
    show_text (Some font) (OStr s) = Ok (visible s) /\ show_text (Some font) (OHex (bytes_hex s)) = Ok (visible s).
  Proof.
    intros font tu name s H1 H2 H3 H4 Hs. destruct (C75_predefined_files name H4) as (c & Ec & Hb & _).
    assert (is_predefined (VAtom (OName name)) = true) as Hp.
    { unfold is_predefined. destruct (aget_key predefined_cmaps name) as [f ->]; [|reflexivity].
      apply existsb_exists. apply in_map_iff in H4. destruct H4 as (p & <- & Hp). exists p. split; [exact Hp|apply eqlZ_refl]. }
    unfold M_Decoder.show_text, decoder_of, get_cmap_encoding. rewrite H1. cbn [rbind]. rewrite H3. cbn [rbind]. rewrite H2, Hp, Ec.
    cbn [rbind run_decoder]. rewrite Hb. pose proof (decode_empty s Hs) as HD. unfold cm_decode_string in *.
    assert (forall x, fallback python python_decode bld id none x = Ok x) as HE by reflexivity.
    split; (etransitivity; [|exact HD]); unfold cm_decode_hex; apply cm_loop_ext; exact HE.
  Qed.
  (** Any other encoding that is not null, missing or empty decodes the bytes. *)
  Theorem C75_encoding : forall font tu en s h, says font "ToUnicode" tu -> btruthy tu = false ->
    says font "Encoding" en -> is_predefined en = false -> btruthy en = true ->
    show_text (Some font) (OStr s) = decode_bytes en s /\ show_text (Some font) (OHex h) = rbind (fromhex h) (decode_bytes en).
  Proof.
    intros font tu en s h H1 H2 H3 H4 H5. assert (is_none en = false) as Hn by (destruct en as [[]| | | |]; try reflexivity; discriminate H5).
    unfold M_Decoder.show_text, decoder_of, get_cmap_encoding. rewrite H1. cbn [rbind]. rewrite H3. cbn [rbind]. rewrite H2, H4.
    assert ((match en with VAtom (OName n) => if false then rbind (predefined n) (fun c => Ok (Some c)) else Ok None | _ => Ok None end) = Ok (A:=option cmap_file) None) as ->
      by (destruct en as [[]| | | |]; reflexivity).
    cbn [rbind]. rewrite Hn. cbn [rbind]. rewrite H5. split; reflexivity.
  Qed.
  (** Without Encoding either: the standard fonts are decoded as WinAnsiEncoding, others as latin-1. *)
  Theorem C75_by_name : forall font tu bf s, says font "ToUnicode" tu -> btruthy tu = false ->
    says font "Encoding" none -> says font "BaseFont" (VAtom (OName bf)) -> python (bs "Identity-H") = false ->
    show_text (Some font) (OStr s) =
      if existsb (eqlZ bf) guessed_fonts then fst (decode_loop winansi s [] []) else Ok s.
  Proof.
    intros font tu bf s H1 H2 H3 H4 H5. unfold M_Decoder.show_text, decoder_of, get_cmap_encoding. rewrite H1. cbn [rbind]. rewrite H3. cbn [rbind]. rewrite H2.
    cbn [none rbind is_predefined is_none]. rewrite H4. cbn [rbind guess].
    destruct (existsb (eqlZ bf) guessed_fonts); cbn [rbind]; [|reflexivity].
    change (btruthy (VAtom (OName (bs "Identity-H")))) with true. cbn [rbind run_decoder]. unfold M_Decoder.decode_bytes. cbn [to_encoding rbind].
    now rewrite C70_named_encoding_is_winansi.
  Qed.
  (** A font that is missing from the resources, or has none of the three entries. *)
  Theorem C75_nothing_known : forall font tu s, says font "ToUnicode" tu -> btruthy tu = false ->
    says font "Encoding" none -> says font "BaseFont" none ->
    show_text (Some font) (OStr s) = Ok s /\ show_text None (OStr s) = Ok s.
  Proof.
    intros font tu s H1 H2 H3 H4. unfold M_Decoder.show_text, decoder_of, get_cmap_encoding. rewrite H1. cbn [rbind]. rewrite H3. cbn [rbind]. rewrite H2.
    cbn [none rbind is_predefined is_none]. rewrite H4. split; reflexivity.
  Qed.

  (** *** From the CMap file's text to the page's text *)
  (** The first entry that covers the code gives the text. *)
  Definition FirstGives (es : list entry) (code t : list Z) : Prop :=
    exists pre e post, es = pre ++ e :: post /\ Forall (fun x => ~ covers x code) pre /\ covers e code /\ gives e code t.
  (** A string of one- and two-byte codes: a code of one byte goes first. *)
  Inductive CodesTo (es : list entry) : list Z -> list Z -> Prop :=
  | CT_nil : CodesTo es [] []
  | CT_one x r t u : FirstGives es (hex2 x) t -> CodesTo es r u -> CodesTo es (x :: r) (t ++ u)
  | CT_two x y r t u : Forall (fun e => ~ covers e (hex2 x)) es -> FirstGives es (hex2 x ++ hex2 y) t -> CodesTo es r u ->
      CodesTo es (x :: y :: r) (t ++ u).

  Lemma gives_fun e code t t' : gives e code t -> gives e code t' -> t = t'.
  Proof.
    destruct e as [b e s|b d]; cbn [gives]; [congruence|]. intros H1 H2.
    pose proof (units_text d t H1 (S (List.length d)) ltac:(lia)) as E1. pose proof (units_text d t' H2 (S (List.length d)) ltac:(lia)) as E2. congruence.
  Qed.
  Lemma first_fun es code : forall pre e post pre' e' post', es = pre ++ e :: post -> es = pre' ++ e' :: post' ->
    Forall (fun x => ~ covers x code) pre -> Forall (fun x => ~ covers x code) pre' -> covers e code -> covers e' code -> e = e'.
  Proof.
    induction es as [|x es IH]; intros pre e post pre' e' post' E1 E2 F1 F2 C1 C2; [destruct pre; discriminate|].
    destruct pre as [|p pre], pre' as [|p' pre']; cbn [app] in E1, E2.
    - congruence.
    - injection E1 as -> _. injection E2 as -> _. inversion F2. contradiction.
    - injection E1 as -> _. injection E2 as -> _. inversion F1. contradiction.
    - injection E1 as _ E1. injection E2 as _ E2. inversion F1. inversion F2. eapply IH; eauto.
  Qed.
  Lemma lookup_first es ms code t : Forall entry_ok es -> Forall2 built es ms -> UpperCode code -> FirstGives es code t -> lookup ms code = Ok t.
  Proof.
    intros Ho Hb Hu (pre & e & post & E & F & C & G). destruct (C51_lookup es ms code Ho Hb Hu) as [(p & e' & q & t' & E' & F' & C' & G' & ->)|[H _]].
    - assert (e = e') as -> by (eapply first_fun; eauto). f_equal. eapply gives_fun; eauto.
    - subst es. apply Forall_app in H. destruct H as [_ H]. inversion H. contradiction.
  Qed.
  Lemma lookup_none es ms code : Forall entry_ok es -> Forall2 built es ms -> UpperCode code -> Forall (fun e => ~ covers e code) es -> lookup ms code = Err KeyErr.
  Proof.
    intros Ho Hb Hu H. destruct (C51_lookup es ms code Ho Hb Hu) as [(p & e' & q & t' & E' & F' & C' & _)|[_ ->]]; [|reflexivity].
    subst es. apply Forall_app in H. destruct H as [_ H]. inversion H. contradiction.
  Qed.
  Lemma hex22_up x y : 0 <= x < 256 -> 0 <= y < 256 -> UpperCode (hex2 x ++ hex2 y).
  Proof. intros Hx Hy. destruct (hex2_up x Hx) as [A1 B1], (hex2_up y Hy) as [A2 B2]. split; [discriminate|]. apply Forall_app. auto. Qed.

  (** A font whose ToUnicode stream holds (decoded) a CMap file in any layout shows every string of mapped codes as
      the concatenation of the texts the file's bf sections give. *)
  Theorem C75_text : forall font tu en lead text size cs cid_r cid_c nd_r nd_c bf_r bf_c s t,
    says font "ToUnicode" tu -> btruthy tu = true -> filtered_of inflate ccitt bld tu = Ok (lead ++ text) -> says font "Encoding" en ->
    Sep lead -> Items (header size ++ flat_map chunk_items cs) text -> 0 <= size -> Forall plain_ok cs ->
    Forall (fun be => HexCode (fst be) /\ HexCode (snd be) /\ zlen (fst be) = zlen (snd be) /\ hnum (fst be) <= hnum (snd be)) (codespace_of cs) ->
    RangesOf Cid cs cid_r -> CharsOf Cid cs cid_c -> RangesOf Notdef cs nd_r -> CharsOf Notdef cs nd_c ->
    RangesOf Bf cs bf_r -> CharsOf Bf cs bf_c ->
    Forall (fun x => 0 <= x < 256) s -> CodesTo (bf_r ++ bf_c) s t ->
    show_text (Some font) (OStr s) = Ok t /\ show_text (Some font) (OHex (bytes_hex s)) = Ok t.
  Proof.
    intros font tu en lead text size cs cid_r cid_c nd_r nd_c bf_r bf_c s t H1 H2 H3 H4 Hl Hi Hz Hp Hc R1 C1 R2 C2 R3 C3 Hs HT.
    destruct (C55_sections lead text size cs cid_r cid_c nd_r nd_c bf_r bf_c unit [] tt (Z.to_nat (4 * zlen (lead ++ text) + 60)) Hl Hi Hz Hp Hc R1 C1 R2 C2 R3 C3)
      as (c & s' & E & _ & _ & _ & _ & _ & HB); [pose proof (zlen_nonneg (lead ++ text)); lia|].
    assert (parse_cmap (lead ++ text) = Ok c) as EP by (unfold parse_cmap; now rewrite E).
    assert (Forall entry_ok (bf_r ++ bf_c)) as Ho by (apply Forall_app; split; [eapply ranges_entry_ok; eauto|eapply chars_entry_ok; eauto]).
    assert (Mapped (lookup (cm_bf c)) s t) as HM.
    { revert Hs. induction HT as [|x r t u HG _ IH|x y r t u HN HG _ IH]; intros Hs; [constructor| |].
      - inversion Hs; subst. apply M_one; auto. eapply lookup_first; eauto. now apply hex2_up.
      - inversion Hs as [|? ? Hx Hs']; subst. inversion Hs'; subst. apply M_two; auto; [eapply lookup_none; eauto; now apply hex2_up|].
        eapply lookup_first; eauto. now apply hex22_up. }
    destruct (C75_tounicode font tu en _ c s (bytes_hex s) H1 H2 H3 EP H4) as [-> ->].
    split; apply (C54_mapped (lookup (cm_bf c)) _ s t HM Hs).
  Qed.
End Fonts.

(** Two-byte codes of predefined CMaps come out as two characters. *)
Theorem C75_two_byte_codes_refuted : forall python pd inflate ccitt bld id font tu name hi lo,
  font_get bld font (bs "ToUnicode") = Ok tu -> btruthy tu = false -> font_get bld font (bs "Encoding") = Ok (VAtom (OName name)) ->
  In name (map fst predefined_cmaps) -> 0 < hi < 256 -> 0 <= lo < 256 ->
  show_text python pd inflate ccitt bld id (Some font) (OStr [hi; lo]) = Ok [hi; lo].
Proof.
  intros python pd inflate ccitt bld id font tu name hi lo H1 H2 H3 H4 Hh Hl.
  destruct (C75_predefined_names python pd inflate ccitt bld id font tu name [hi; lo] H1 H2 H3 H4) as [-> _]; [repeat constructor; lia|].
  rewrite visible_cons. destruct (hi =? 0) eqn:E; [lia|]. reflexivity.
Qed.
(** Fonts whose entries are of unexpected types: no text can be shown with them.  A name as ToUnicode, like Identity-H, is one of
    these. *)
Theorem C75_types_refuted : forall python pd inflate ccitt bld id font o,
  let shown := show_text python pd inflate ccitt bld id (Some font) o in
  ((forall c d, font <> VDict c d) -> (forall c d data, font <> VStm c d data) -> shown = Err AttributeErr) /\
  (forall tu en, font_get bld font (bs "ToUnicode") = Ok tu -> font_get bld font (bs "Encoding") = Ok en -> btruthy tu = true ->
    ((exists n, tu = VAtom (OName n)) \/ (exists s, tu = VAtom (OStr s)) \/ (exists z, tu = VAtom (OInt z)) \/ (exists l, tu = VArr l) -> shown = Err AttributeErr) /\
    (forall c d x, tu = VDict (Some c) d -> dict_entry bld (Some c) d (bs "filtered") = Ok (Some x) ->
       x <> VAtom ONull -> (forall s, x <> VAtom (OStr s)) -> shown = Err TypeErr)) /\
  (forall tu en s, font_get bld font (bs "ToUnicode") = Ok tu -> font_get bld font (bs "Encoding") = Ok en -> btruthy tu = false -> btruthy en = true ->
    (exists z, en = VAtom (OInt z)) \/ (exists s, en = VAtom (OStr s)) \/ (exists l, en = VArr l) \/ (exists c d data, en = VStm c d data) ->
    o = OStr s -> shown = Err TypeErr).
Proof.
  intros python pd inflate ccitt bld id font o shown. unfold shown. split; [|split].
  - intros H1 H2. unfold M_Decoder.show_text, decoder_of, get_cmap_encoding. destruct font as [a|c d|c d data|l|n g]; try reflexivity; exfalso; eauto.
    all: try (eapply H1; reflexivity); eapply H2; reflexivity.
  - intros tu en E1 E2 E3. split.
    + intros H. unfold M_Decoder.show_text, decoder_of, get_cmap_encoding. rewrite E1. cbn [rbind]. rewrite E2. cbn [rbind]. rewrite E3.
      destruct H as [(x & ->)|[(x & ->)|[(x & ->)|(x & ->)]]]; reflexivity.
    + intros c d x -> E4 Hx Hs. unfold M_Decoder.show_text, decoder_of, get_cmap_encoding. rewrite E1. cbn [rbind]. rewrite E2. cbn [rbind]. rewrite E3.
      cbn [filtered_of]. rewrite E4. cbn [rbind or_none]. destruct x as [a| | | |]; try reflexivity. destruct a; try reflexivity; [congruence|exfalso; eapply Hs; reflexivity].
  - intros tu en s E1 E2 E3 E4 H ->. destruct (C75_encoding python pd inflate ccitt bld id font tu en s [] E1 E3 E2) as [X _].
    + destruct H as [(x & ->)|[(x & ->)|[(x & ->)|(c & x & data & ->)]]]; reflexivity.
    + exact E4.
    + unfold M_Decoder.show_text in *. rewrite X. unfold decode_bytes. destruct H as [(x & ->)|[(x & ->)|[(x & ->)|(c & x & data & ->)]]]; reflexivity.
Qed.
Example C75_types_ex bld : font_get bld (VDict None [(bs "ToUnicode", VAtom (OName (bs "Identity-H"))); (bs "Encoding", VAtom (OInt 1))]) (bs "ToUnicode") =
    Ok (VAtom (OName (bs "Identity-H"))) /\ btruthy (VAtom (OName (bs "Identity-H"))) = true /\ btruthy (VAtom (OInt 1)) = true.
Proof. repeat apply conj; reflexivity. Qed.
(** The fourteen standard fonts (PDF 32000-1, 9.6.2.2).  The code knows them all but one, which it spells differently. *)
Definition standard_fonts : list (list Z) := map bs
  ["Times-Roman"; "Times-Bold"; "Times-Italic"; "Times-BoldItalic"; "Helvetica"; "Helvetica-Bold"; "Helvetica-Oblique"; "Helvetica-BoldOblique";
   "Courier"; "Courier-Bold"; "Courier-Oblique"; "Courier-BoldOblique"; "Symbol"; "ZapfDingbats"]%string.
Theorem C75_standard_fonts : forall python pd inflate ccitt bld id font tu bf s,
  font_get bld font (bs "ToUnicode") = Ok tu -> btruthy tu = false -> font_get bld font (bs "Encoding") = Ok none ->
  font_get bld font (bs "BaseFont") = Ok (VAtom (OName bf)) -> python (bs "Identity-H") = false -> bf <> bs "Helvetica-Oblique" -> bf <> bs "Helvetica-Qblique" ->
  (In bf standard_fonts -> show_text python pd inflate ccitt bld id (Some font) (OStr s) = fst (decode_loop winansi s [] [])) /\
  (~ In bf standard_fonts -> show_text python pd inflate ccitt bld id (Some font) (OStr s) = Ok s).
Proof.
  intros python pd inflate ccitt bld id font tu bf s H1 H2 H3 H4 H5 N1 N2. rewrite (C75_by_name python pd inflate ccitt bld id font tu bf s H1 H2 H3 H4 H5).
  assert (existsb (eqlZ bf) guessed_fonts = true <-> In bf standard_fonts) as HI.
  { rewrite existsb_exists. split.
    - intros (y & Hy & E). apply eqlZ_eq in E. subst y. unfold guessed_fonts in Hy. unfold standard_fonts. cbn [map In] in *. intuition congruence.
    - intros H. exists bf. split; [|apply eqlZ_refl]. unfold guessed_fonts. unfold standard_fonts in H. cbn [map In] in *. intuition congruence. }
  destruct (existsb (eqlZ bf) guessed_fonts); split; intros H; try reflexivity; [exfalso; apply H, HI; reflexivity|]. apply HI in H. discriminate.
Qed.
(** Helvetica-Oblique is not among the known names. *)
Theorem C75_helvetica_oblique_refuted : forall python pd inflate ccitt bld id font tu,
  font_get bld font (bs "ToUnicode") = Ok tu -> btruthy tu = false -> font_get bld font (bs "Encoding") = Ok none ->
  font_get bld font (bs "BaseFont") = Ok (VAtom (OName (bs "Helvetica-Oblique"))) -> python (bs "Identity-H") = false ->
  show_text python pd inflate ccitt bld id (Some font) (OStr [146]) = Ok [146] /\ fst (decode_loop winansi [146] [] []) = Ok [8217].
Proof.
  intros python pd inflate ccitt bld id font tu H1 H2 H3 H4 H5.
  rewrite (C75_by_name python pd inflate ccitt bld id font tu _ _ H1 H2 H3 H4 H5). split; vm_compute; reflexivity.
Qed.

(** *** The hypotheses are met *)
Definition ex_font : bv :=
  VDict (Some (bs "Font")) [(bs "BaseFont", VAtom (OName (bs "F+Times"))); (bs "Encoding", VAtom (OName (bs "Identity-H")));
    (bs "ToUnicode", VStm (Some []) [(bs "Length", VAtom (OInt 1))] ((bs "%!PS" ++ [10]) ++ items_text (header 12 ++ flat_map chunk_items ex_chunks)))].
Ltac ncov := first [intros [? _]; discriminate|intros [_ [? _]]; vm_compute in *; congruence|intros [_ [? ?]]; vm_compute in *; intuition congruence|intros ?; discriminate].
Example C75_text_ex : forall python pd inflate ccitt id,
  let s := [0; 16; 0; 32; 0; 51; 0; 3] in
  let t := [65; 102; 102; 51; 32; 65] in
  CodesTo (ex_bf ++ [EChar (bs "0003") (bs "00200041")]) s t /\
  show_text python pd inflate ccitt Ok id (Some ex_font) (OStr s) = Ok t.
Proof.
  intros python pd inflate ccitt id s t.
  assert (CodesTo (ex_bf ++ [EChar (bs "0003") (bs "00200041")]) s t) as HC.
  { apply (CT_two _ 0 16 [0; 32; 0; 51; 0; 3] [65] [102; 102; 51; 32; 65]).
    { repeat (apply Forall_cons; [ncov|]). apply Forall_nil. }
    { exists [], (ERange (bs "0010") (bs "001F") 65), (tl ex_bf ++ [EChar (bs "0003") (bs "00200041")]). repeat split; try constructor; vm_compute; congruence. }
    apply (CT_two _ 0 32 [0; 51; 0; 3] [102; 102] [51; 32; 65]).
    { repeat (apply Forall_cons; [ncov|]). apply Forall_nil. }
    { exists [ERange (bs "0010") (bs "001F") 65], (EChar (bs "0020") (bs "00660066")), (skipn 2 ex_bf ++ [EChar (bs "0003") (bs "00200041")]).
      split; [reflexivity|]. split; [constructor; [ncov|constructor]|]. split; [reflexivity|].
      apply (U_cons (bs "0066") (bs "0066") [102]); [hexc|reflexivity|]. apply (units4 (bs "0066")); reflexivity. }
    apply (CT_two _ 0 51 [0; 3] [51] [32; 65]).
    { repeat (apply Forall_cons; [ncov|]). apply Forall_nil. }
    { exists (firstn 3 ex_bf), (ERange (bs "0030") (bs "0039") 48), [EChar (bs "0003") (bs "00200041")].
      split; [reflexivity|]. split; [repeat (apply Forall_cons; [ncov|]); apply Forall_nil|]. repeat split; vm_compute; congruence. }
    apply (CT_two _ 0 3 [] [32; 65] []).
    { repeat (apply Forall_cons; [ncov|]). apply Forall_nil. }
    { exists ex_bf, (EChar (bs "0003") (bs "00200041")), [].
      split; [reflexivity|]. split; [repeat (apply Forall_cons; [ncov|]); apply Forall_nil|]. split; [reflexivity|].
      apply (U_cons (bs "0020") (bs "0041") [65]); [hexc|reflexivity|]. apply (units4 (bs "0041")); reflexivity. }
    constructor. }
  split; [exact HC|]. destruct C55_ex as (E1 & E2 & E3 & E4 & E5 & E6 & E7 & E8 & E9 & _).
  refine (proj1 (C75_text python pd inflate ccitt Ok id ex_font _ (VAtom (OName (bs "Identity-H"))) _ _ 12 _ _ _ _ _ _ _ s t
    eq_refl eq_refl eq_refl eq_refl E1 C55_ex_items _ E2 E3 E4 E5 E6 E7 E8 E9 _ HC)); [lia|].
  apply Forall_forall. intros x Hx. cbn in Hx. intuition lia.
Qed.
Definition ex_plain (l : list (list Z * bv)) : bv := VDict (Some (bs "Font")) l.
Example C75_ex : forall python pd inflate ccitt, python (bs "Identity-H") = false -> python (bs "WinAnsiEncoding") = false ->
  let sh f s := show_text python pd inflate ccitt Ok 5 (Some f) (OStr s) in
  In (bs "Identity-H") (map fst predefined_cmaps) /\
  sh (ex_plain [(bs "Encoding", VAtom (OName (bs "WinAnsiEncoding")))]) [65; 146] = Ok [65; 8217] /\
  sh (ex_plain [(bs "Encoding", VDict (Some (bs "Encoding")) [(bs "Differences", VArr [VAtom (OInt 65); VAtom (OName (bs "Euro"))])])]) [65; 66] = Ok [8364; 66] /\
  sh (ex_plain [(bs "BaseFont", VAtom (OName (bs "Helvetica")))]) [146] = Ok [8217] /\
  sh (ex_plain []) [146] = Ok [146].
Proof.
  intros python pd inflate ccitt H1 H2 sh. split; [vm_compute; repeat (first [left; reflexivity|right])|]. unfold sh.
  split. { rewrite (proj1 (C75_encoding python pd inflate ccitt Ok 5 (ex_plain [(bs "Encoding", VAtom (OName (bs "WinAnsiEncoding")))]) none (VAtom (OName (bs "WinAnsiEncoding"))) _ [] eq_refl eq_refl eq_refl eq_refl eq_refl)).
    unfold decode_bytes. cbn [to_encoding rbind]. rewrite C70_named_encoding_is_winansi by exact H2. vm_compute. reflexivity. }
  split. { vm_compute. reflexivity. }
  split. { rewrite (C75_by_name python pd inflate ccitt Ok 5 (ex_plain [(bs "BaseFont", VAtom (OName (bs "Helvetica")))]) none (bs "Helvetica") _ eq_refl eq_refl eq_refl eq_refl H1). vm_compute. reflexivity. }
  reflexivity.
Qed.
Print Assumptions C75_predefined_files.
Print Assumptions C75_tounicode.
Print Assumptions C75_tounicode_broken.
Print Assumptions C75_predefined_names.
Print Assumptions C75_encoding.
Print Assumptions C75_by_name.
Print Assumptions C75_nothing_known.
Print Assumptions C75_text.
Print Assumptions C75_two_byte_codes_refuted.
Print Assumptions C75_helvetica_oblique_refuted.
Print Assumptions C75_standard_fonts.
Print Assumptions C75_types_refuted.
