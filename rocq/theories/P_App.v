(** C78: from the file to the text of its pages. *)
From Coq Require Import String.
From Verif Require Import Prelude M_Prog M_Parser M_Filters S_Filters M_Document M_Objects S_Objects P_Objects P_Pages M_Viewer S_Viewer S_Resources P_Resources
  M_Nav P_Nav M_Codec P_Codec S_CMap S_CMapFile M_CMap P_CMapDecode D_PSNames D_CMaps M_Decoder P_Decoder M_App S_App L_AppText L_App L_App2 L_App3 P_Content S_Stream S_Syntax
  S_Print L_Print S_Xref S_Document S_Open P_Locate P_Open S_Write P_Write.
Local Open Scope Z_scope.

Lemma Forall2_impl {A B} (P Q : A -> B -> Prop) l l' : (forall a b, P a b -> Q a b) -> Forall2 P l l' -> Forall2 Q l l'.
Proof. induction 2; constructor; auto. Qed.

(** a decode table of names only *)
Lemma decode_named zo cls l : (forall b x, zassoc (c_decode cls) b = Some x -> exists s, x = OName s) -> c_zapf cls = zo (c_id cls) -> forall acc c, right zo c ->
  fst (decode_loop cls l acc c) = Ok (acc ++ flat_map (char_of cls) l).
Proof.
  intros Hn Hz. induction l as [|b l IH]; intros acc c R; cbn [decode_loop flat_map].
  - now rewrite app_nil_r.
  - destruct (zassoc (c_decode cls) b) as [o|] eqn:E.
    + destruct (Hn b o E) as [s ->]. cbn [glyph_item].
      pose proof (glyph_any zo c cls s R Hz) as G. pose proof (right_step zo cls s c R Hz) as R'.
      destruct (glyph_name_to_string cls s c) as [v c']. cbn [fst snd] in *. rewrite (IH _ _ R'), (char_listed _ _ _ E), G, app_assoc. reflexivity.
    + rewrite (IH _ _ R), (char_unlisted _ _ E), app_assoc. reflexivity.
Qed.
Lemma fold_flat {A B} (h : A -> list B) l : fold_left (fun r g => r ++ h g) l [] = flat_map h l.
Proof.
  assert (forall acc, fold_left (fun r g => r ++ h g) l acc = acc ++ flat_map h l) as H; [|apply H].
  induction l as [|x l IH]; intros acc; cbn [fold_left flat_map]; [now rewrite app_nil_r|]. rewrite IH. now rewrite app_assoc.
Qed.
(** *** What a font makes of a string *)
Section Font.
  Variable o : Z -> Z -> option obj.
  Variable inflate : list Z -> option (list Z).
  Variable python : list Z -> bool.
  (** A string operand, literal or hexadecimal, of the bytes [s]. *)
  Definition Bytes (v : obj) (s : list Z) : Prop := Forall (fun x => 0 <= x < 256) s /\ (v = OStr s \/ v = OHex (bytes_hex s)).
  Definition FontDict (f : obj) (d : dict) : Prop := follow o f = ODict d /\ dget d (bs "Type") = Some (OName (bs "Font")).
  (** Encoding dictionaries: of type Encoding or without type; their base encoding, if named; their differences, in sections
      of a code and the names for that code and the following ones *)
  Definition EncodingDict (e : dict) : Prop := e <> [] /\ (dget e (bs "Type") = None \/ dget e (bs "Type") = Some (OName (bs "Encoding"))).
  Definition Base (e : dict) (base : option (list Z)) : Prop :=
    match base with None => entry o e "BaseEncoding" = ONull | Some b => entry o e "BaseEncoding" = OName b /\ b <> [] end.
  Definition Differences (e : dict) (segs : list (Z * list (list Z))) : Prop :=
    segs = [] /\ entry o e "Differences" = ONull \/ entry o e "Differences" = OArr (flat_map (fun s => OInt (fst s) :: map OName (snd s)) segs).
  (** the name that the last section with a name for [b] has for it *)
  Fixpoint diff_name (segs : list (Z * list (list Z))) (b : Z) : option (list Z) :=
    match segs with
    | [] => None
    | (c, names) :: r => match diff_name r b with
                         | Some n => Some n
                         | None => if b <? c then None else nth_error names (Z.to_nat (b - c))
                         end
    end.
  (** the text of a byte: that of its glyph name, if there is a difference, else as in the base encoding *)
  Definition DiffChar (base : option (list Z)) (segs : list (Z * list (list Z))) (b : Z) (t : list Z) : Prop :=
    match diff_name segs b with
    | Some n => t = flat_map (component true) (components n)
    | None => t = char_of (base_of base) b
    end.
  Inductive FontText : option obj -> obj -> list Z -> Prop :=
  (** no font: the bytes are the characters *)
  | Ft_none v s : Bytes v s -> FontText None v s
  (** a font of which nothing is known: likewise *)
  | Ft_unknown f d v s : FontDict f d -> entry o d "ToUnicode" = ONull -> entry o d "Encoding" = ONull -> entry o d "BaseFont" = ONull ->
      Bytes v s -> FontText (Some f) v s
  (** a named encoding (no predefined CMap, and no codec of Python's): byte by byte, by the WinAnsi table (C70) *)
  | Ft_named f d n v s : FontDict f d -> entry o d "ToUnicode" = ONull -> entry o d "Encoding" = OName n -> n <> [] ->
      ~ In n (map fst predefined_cmaps) -> python n = false -> Bytes v s ->
      FontText (Some f) v (flat_map (char_of winansi) s)
  (** no encoding, but the name of one of the standard fonts: the WinAnsi table too; any other name: the bytes are the characters *)
  | Ft_standard f d n v s : FontDict f d -> entry o d "ToUnicode" = ONull -> entry o d "Encoding" = ONull -> entry o d "BaseFont" = OName n ->
      In n guessed_fonts -> python (bs "Identity-H") = false -> Bytes v s -> FontText (Some f) v (flat_map (char_of winansi) s)
  | Ft_other f d n v s : FontDict f d -> entry o d "ToUnicode" = ONull -> entry o d "Encoding" = ONull -> entry o d "BaseFont" = OName n ->
      ~ In n guessed_fonts -> Bytes v s -> FontText (Some f) v s
  (** a predefined CMap: it has no texts, so the bytes other than 0 (but for the last) are the characters (C75) *)
  | Ft_predefined f d n v s : FontDict f d -> entry o d "ToUnicode" = ONull -> entry o d "Encoding" = OName n -> In n (map fst predefined_cmaps) -> Bytes v s ->
      FontText (Some f) v (visible s)
  (** an encoding dictionary: byte by byte, by the table of its base encoding and its differences *)
  | Ft_dict f d e base segs v s ts : FontDict f d -> entry o d "ToUnicode" = ONull -> entry o d "Encoding" = ODict e -> EncodingDict e -> Base e base -> Differences e segs ->
      Bytes v s -> Forall2 (DiffChar base segs) s ts -> FontText (Some f) v (List.concat ts)
  (** a ToUnicode CMap: code by code, by its first entry for the code *)
  | Ft_cmap f d tv sd data en lead text size cs cid_r cid_c nd_r nd_c bf_r bf_c v s t : FontDict f d ->
      dget d (bs "ToUnicode") = Some tv -> follow o tv = OStream sd data -> data <> [] -> Data o inflate tv (lead ++ text) ->
      dget d (bs "Encoding") = en -> (forall x, en = Some x -> Sound o x) ->
      Sep lead -> Items (header size ++ flat_map chunk_items cs) text -> 0 <= size -> Forall plain_ok cs ->
      Forall (fun be => HexCode (fst be) /\ HexCode (snd be) /\ zlen (fst be) = zlen (snd be) /\ hnum (fst be) <= hnum (snd be)) (codespace_of cs) ->
      RangesOf Cid cs cid_r -> CharsOf Cid cs cid_c -> RangesOf Notdef cs nd_r -> CharsOf Notdef cs nd_c -> RangesOf Bf cs bf_r -> CharsOf Bf cs bf_c ->
      Bytes v s -> CodesTo (bf_r ++ bf_c) s t -> FontText (Some f) v t.

  (** in particular, without differences *)
  Lemma Ft_base f d e b v s : FontDict f d -> entry o d "ToUnicode" = ONull -> entry o d "Encoding" = ODict e -> dget e (bs "Type") = Some (OName (bs "Encoding")) ->
    entry o e "BaseEncoding" = OName b -> b <> [] -> entry o e "Differences" = ONull -> Bytes v s -> FontText (Some f) v (flat_map (char_of (base_of (Some b))) s).
  Proof.
    intros H1 H2 H3 H4 H5 H6 H7 H8. rewrite flat_map_concat_map. apply (Ft_dict f d e (Some b) [] v s); auto.
    - split; [destruct e; discriminate|auto].
    - split; auto.
    - left. auto.
    - clear. induction s as [|x s IH]; cbn [map]; constructor; [reflexivity|exact IH].
  Qed.
  (** A page whose content shows [ts]: its content data are text operators; each string shown is decoded by the font in
      effect, looked up in the page's resources. *)
  Definition PageShows (d : dict) (ts : list (list Z)) : Prop :=
    exists lead ss its ls, ContentOf o inflate d (lead ++ ss) /\ Sep lead /\ Content its ss /\ Forall TextOp its /\
      Levels o d ls /\ Forall (LevelOk o) ls /\
      Forall2 (fun p t => FontText (match fst p with None => None | Some f => font_in o ls f end) (snd p) t) (shows None [] its) ts.

  Variable python_decode : list Z -> list Z -> res (list Z).
  Variable ccitt : list Z -> fparams -> res (list Z).
  Variable cid : Z.
  Notation Hdoc := (answer o).
  Notation B nb := (bld Hdoc nb).
  Notation app_show nb := (app_show python python_decode inflate ccitt cid Hdoc nb).

  Lemma fromhex_bytes s : Forall (fun x => 0 <= x < 256) s -> fromhex (bytes_hex s) = Ok s.
  Proof.
    induction 1 as [|x s Hx _ IH]; [reflexivity|]. unfold bytes_hex in *. cbn [flat_map app fromhex].
    assert (0 <= x / 16 < 16) by (split; [apply Z.div_pos; lia|apply Z.div_lt_upper_bound; lia]). pose proof (Z.mod_pos_bound x 16 ltac:(lia)).
    rewrite !hexval_hexdig by lia. cbn [fromhex]. rewrite IH. cbn [rbind]. do 2 f_equal. rewrite (Z.div_mod x 16) at 3 by lia. lia.
  Qed.
  Lemma font_says d k x w c : dget d (bs k) = Some x -> meaning o x w -> ev (fun nb => font_get (B nb) (VDict (Some c) (rd d)) (bs k) = Ok w).
  Proof.
    intros E HM. eapply ev_imp; [|exact (ev_build o x w HM)]. cbv beta. intros nb Hb. cbn [font_get]. unfold dict_entry. rewrite aget_rd, E. cbn [option_map]. now rewrite Hb.
  Qed.
  Lemma font_null d k c : entry o d k = ONull -> ev (fun nb => font_get (B nb) (VDict (Some c) (rd d)) (bs k) = Ok none).
  Proof.
    unfold entry. intros H. destruct (dget d (bs k)) as [x|] eqn:E; [apply (font_says d k x _ c E), mean_null, H|].
    apply ev_all. intros nb. cbn [font_get]. unfold dict_entry. now rewrite aget_rd, E.
  Qed.
  Lemma mean_name v n : follow o v = OName n -> meaning o v (VAtom (OName n)).
  Proof.
    intros Hf. unfold meaning. destruct v; cbn [follow] in Hf; try discriminate; [inversion Hf; constructor|]. cbn [raw].
    apply St_ref with (o := raw (OName n)); [apply (answered o); [exact Hf|discriminate]| |constructor]. intros (a & b & E). discriminate.
  Qed.
  Lemma font_entry_is d k (c : list Z) : entry o d k <> ONull -> exists x, dget d (bs k) = Some x /\ entry o d k = follow o x.
  Proof. unfold entry. destruct (dget d (bs k)) as [x|]; [eauto|congruence]. Qed.
  Lemma dict_says d k c w : (exists x, dget d (bs k) = Some x /\ meaning o x w) -> ev (fun nb => dict_entry (B nb) (Some c) (rd d) (bs k) = Ok (Some w)).
  Proof.
    intros (x & E & HM). eapply ev_imp; [|exact (ev_build o x w HM)]. cbv beta. intros nb Hb. unfold dict_entry. rewrite aget_rd, E. cbn [option_map]. now rewrite Hb.
  Qed.
  Lemma dict_null d k c : entry o d k = ONull -> ev (fun nb => exists r, dict_entry (B nb) (Some c) (rd d) (bs k) = Ok r /\ or_none r = none).
  Proof.
    unfold entry. intros H. destruct (dget d (bs k)) as [x|] eqn:E.
    - eapply ev_imp; [|apply (dict_says d k c none); exists x; split; [exact E|now apply mean_null]]. cbv beta. intros nb Hb. exists (Some none). auto.
    - apply ev_all. intros nb. unfold dict_entry. rewrite aget_rd, E. cbn. exists None. auto.
  Qed.

  (** differences *)
  Lemma diff_last segs b : match diff_name segs b with
    | Some n => LastAssigned (map (fun s => (fst s, map OName (snd s))) segs) b (OName n)
    | None => Forall (fun s => assigns s b = None) (map (fun s => (fst s, map OName (snd s))) segs) end.
  Proof.
    induction segs as [|[c names] r IH]; cbn [diff_name map fst snd]; [constructor|].
    assert (assigns (c, map OName names) b = option_map OName (if b <? c then None else nth_error names (Z.to_nat (b - c)))) as EA.
    { unfold assigns. cbn [fst snd]. destruct (b <? c); [reflexivity|]. apply nth_error_map. }
    destruct (diff_name r b) as [n|].
    - destruct IH as (s1 & s & s2 & E & A & F). exists ((c, map OName names) :: s1), s, s2. rewrite E. auto.
    - destruct (if b <? c then None else nth_error names (Z.to_nat (b - c))) as [n|].
      + exists [], (c, map OName names), (map (fun s => (fst s, map OName (snd s))) r). auto.
      + constructor; auto.
  Qed.
  Lemma diff_decode base segs s ts : Forall2 (DiffChar base segs) s ts ->
    fst (encoding_decode python python_decode cid (EDict base (flat_map (fun s => OInt (fst s) :: map OName (snd s)) segs)) s []) = Ok (List.concat ts).
  Proof.
    intros HF. set (segs' := map (fun s => (fst s, map OName (snd s))) segs).
    assert (flat_map (fun s => OInt (fst s) :: map OName (snd s)) segs = flatten segs') as EF.
    { unfold segs', flatten. clear. induction segs as [|x r IH]; [reflexivity|]. cbn [flat_map map fst snd]. now rewrite IH. }
    assert (segments segs') as HS.
    { unfold segs'. clear. induction segs as [|x r IH]; constructor; [|exact IH]. cbn [snd]. apply Forall_forall. intros y Hy. apply in_map_iff in Hy. destruct Hy as (n & <- & _). reflexivity. }
    rewrite EF. unfold encoding_decode, differences_codec. rewrite base_of_ok.
    destruct (diff_segs segs' HS (c_decode (base_of base)) None) as (dt & E & F). rewrite E.
    assert (names_only (base_of base) /\ c_zapf (base_of base) = true) as [Hn Hz].
    { unfold base_of. destruct base as [n|]; [|split; [apply names_table_only|reflexivity]].
      repeat (destruct (eqlZ n _); [split; [apply names_table_only|reflexivity]|]). split; [apply names_table_only|reflexivity]. }
    set (cls := mkCodec cid true (c_encode (base_of base)) dt).
    assert (forall b, zassoc dt b = match diff_name segs b with Some n => Some (OName n) | None => zassoc (c_decode (base_of base)) b end) as HA.
    { intros b. destruct (F b) as [F1 F2]. pose proof (diff_last segs b) as HL. fold segs' in HL. destruct (diff_name segs b); auto. }
    rewrite (decode_named (fun _ => true) cls s); [|intros b x|reflexivity|exact (looked_right _ _ (L_none _))].
    2:{ change (c_decode cls) with dt. rewrite HA. destruct (diff_name segs b); [intros H; injection H as <-; eauto|]. apply names_item, Hn. }
    cbn [app]. f_equal. clear - HF HA Hn Hz. induction HF as [|b t s ts Hb _ IH]; [reflexivity|]. cbn [flat_map List.concat]. rewrite IH. f_equal.
    unfold DiffChar in Hb. specialize (HA b). destruct (diff_name segs b) as [n|].
    - assert (zassoc (c_decode cls) b = Some (OName n)) as Hc by exact HA. rewrite (char_listed _ _ _ Hc), Hb. unfold glyph_name_to_string. cbn [cget fst]. change (c_zapf cls) with true.
      apply fold_flat.
    - rewrite Hb. destruct (zassoc (c_decode (base_of base)) b) as [x|] eqn:Ex.
      + destruct (names_item _ _ _ Hn Ex) as [m ->]. rewrite (char_listed _ _ _ Ex). assert (zassoc (c_decode cls) b = Some (OName m)) as Hc by exact HA.
        rewrite (char_listed _ _ _ Hc). unfold glyph_name_to_string. cbn [cget fst]. change (c_zapf cls) with true. now rewrite Hz.
      + assert (zassoc (c_decode cls) b = None) as Hc by exact HA. now rewrite (char_unlisted _ _ Ex), (char_unlisted _ _ Hc).
  Qed.
  (** the decoder does what FontText says *)
  Lemma font_text_none v t : FontText None v t -> forall nb, app_show nb None v = Ok t.
  Proof. intros H nb. inversion H as [? s [Hb [-> | ->]]| | | | | | |]; subst; [reflexivity|]. cbn. now apply fromhex_bytes. Qed.
  Lemma font_text_some f v t : FontText (Some f) v t -> exists w, meaning o f w /\ ev (fun nb => app_show nb (Some w) v = Ok t).
  Proof.
    intros H. remember (Some f) as fo eqn:Ef. destruct H as [v s H|f' d v s [Hf Ht] T E F [Hb Hv]|f' d n v s [Hf Ht] T E Hn0 Hn Hp [Hb Hv]
      |f' d n v s [Hf Ht] T E F HG Hp [Hb Hv]|f' d n v s [Hf Ht] T E F HG [Hb Hv]|f' d n v s [Hf Ht] T E Hin [Hb Hv]
      |f' d e base segs v s ts [Hf Ht] T E [Hne Et] Eb Ed [Hb Hv] HDC
      |f' d tv sd data en lead text size cs cid_r cid_c nd_r nd_c bf_r bf_c v s t [Hf Ht] T Hst Hne HD E HS Hl Hi Hz Hpl Hc R1 C1 R2 C2 R3 C3 [Hb Hv] HC]; [discriminate|..];
      inversion Ef; subst f'; clear Ef;
      (assert (meaning o f (VDict (Some (bs "Font")) (rd d))) as HM by (apply mean_dict; auto; apply typed_class; auto; cbn; tauto));
      exists (VDict (Some (bs "Font")) (rd d)); (split; [exact HM|]).
    - eapply ev_imp; [|apply ev_and; [exact (font_null d "ToUnicode" (bs "Font") T)|apply ev_and; [exact (font_null d "Encoding" (bs "Font") E)|exact (font_null d "BaseFont" (bs "Font") F)]]].
      cbv beta. intros nb (S1 & S2 & S3). unfold M_App.app_show.
      unfold show_text, decoder_of, get_cmap_encoding. rewrite S1. cbn [rbind]. rewrite S2. cbn [rbind]. change (btruthy none) with false. cbv iota. cbn [none rbind is_predefined is_none].
      rewrite S3. cbn [rbind]. change (guess none) with (Ok none). cbn [rbind btruthy none]. destruct Hv as [-> | ->]; [reflexivity|]. cbn. now apply fromhex_bytes.
    - assert (entry o d "Encoding" <> ONull) as En by congruence. destruct (font_entry_is d "Encoding" (bs "Font") En) as (x & Ex & Ef). rewrite E in Ef. symmetry in Ef.
      eapply ev_imp; [|apply ev_and; [exact (font_null d "ToUnicode" (bs "Font") T)|exact (font_says d "Encoding" x _ (bs "Font") Ex (mean_name x n Ef))]].
      cbv beta. intros nb (S1 & S2). unfold M_App.app_show.
      assert (is_predefined (VAtom (OName n)) = false) as Hip.
      { cbn [is_predefined]. destruct (aget predefined_cmaps n) eqn:Ea; [|reflexivity]. exfalso. apply Hn. exact (in_map fst _ _ (aget_In _ _ _ Ea)). }
      destruct n as [|c0 n0]; [congruence|]. set (n := c0 :: n0) in *.
      destruct (C75_encoding python python_decode inflate ccitt (B nb) cid (VDict (Some (bs "Font")) (rd d)) none (VAtom (OName n)) s (bytes_hex s) S1 eq_refl S2 Hip eq_refl) as [D1 D2].
      assert (decode_bytes python python_decode (B nb) cid (VAtom (OName n)) s = Ok (flat_map (char_of winansi) s)) as ED.
      { unfold decode_bytes. cbn [to_encoding rbind]. rewrite (C70_named_encoding_is_winansi python python_decode cid n s [] Hp).
        pose proof (C56_bytewise (fun _ => true) winansi s [] (names_table_only _ _ _ _) (L_none _) eq_refl) as H56. unfold decode in H56.
        destruct (decode_loop winansi s [] []) as [[t|e] c]; cbn [fst] in *; congruence. }
      destruct Hv as [-> | ->]; [now rewrite D1|]. rewrite D2, fromhex_bytes by exact Hb. exact ED.
    - assert (entry o d "BaseFont" <> ONull) as En by congruence. destruct (font_entry_is d "BaseFont" (bs "Font") En) as (x & Ex & Ef). rewrite F in Ef. symmetry in Ef.
      eapply ev_imp; [|apply ev_and; [exact (font_null d "ToUnicode" (bs "Font") T)|apply ev_and; [exact (font_null d "Encoding" (bs "Font") E)|exact (font_says d "BaseFont" x _ (bs "Font") Ex (mean_name x n Ef))]]].
      cbv beta. intros nb (S1 & S2 & S3). unfold M_App.app_show.
      assert (existsb (eqlZ n) guessed_fonts = true) as Hex by (apply existsb_exists; exists n; split; [exact HG|apply eqlZ_refl]).
      pose proof (C56_bytewise (fun _ => true) winansi s [] (names_table_only _ _ _ _) (L_none _) eq_refl) as H56. unfold decode in H56.
      pose proof (C75_by_name python python_decode inflate ccitt (B nb) cid (VDict (Some (bs "Font")) (rd d)) none n s S1 eq_refl S2 S3 Hp) as D1. rewrite Hex in D1.
      assert (fst (decode_loop winansi s [] []) = Ok (flat_map (char_of winansi) s)) as ED by (destruct (decode_loop winansi s [] []) as [[t|e] c]; cbn [fst] in *; congruence).
      rewrite ED in D1. destruct Hv as [-> | ->]; [exact D1|].
      rewrite <- D1. unfold show_text, decoder_of, get_cmap_encoding. rewrite S1. cbn [rbind]. rewrite S2. cbn [rbind]. change (btruthy none) with false. cbv iota. cbn [none rbind is_predefined is_none].
      rewrite S3. cbn [rbind guess]. rewrite Hex. cbn [rbind]. change (btruthy (VAtom (OName (bs "Identity-H")))) with true. cbv iota. cbn [run_decoder]. rewrite fromhex_bytes by exact Hb. reflexivity.
    - assert (entry o d "BaseFont" <> ONull) as En by congruence. destruct (font_entry_is d "BaseFont" (bs "Font") En) as (x & Ex & Ef). rewrite F in Ef. symmetry in Ef.
      eapply ev_imp; [|apply ev_and; [exact (font_null d "ToUnicode" (bs "Font") T)|apply ev_and; [exact (font_null d "Encoding" (bs "Font") E)|exact (font_says d "BaseFont" x _ (bs "Font") Ex (mean_name x n Ef))]]].
      cbv beta. intros nb (S1 & S2 & S3). unfold M_App.app_show.
      assert (existsb (eqlZ n) guessed_fonts = false) as Hex.
      { destruct (existsb (eqlZ n) guessed_fonts) eqn:X; [|reflexivity]. apply existsb_exists in X. destruct X as (y & Hy & Ey). apply eqlZ_eq in Ey. subst y. contradiction. }
      unfold show_text, decoder_of, get_cmap_encoding. rewrite S1. cbn [rbind]. rewrite S2. cbn [rbind]. change (btruthy none) with false. cbv iota. cbn [none rbind is_predefined is_none].
      rewrite S3. cbn [rbind guess]. rewrite Hex. cbn [rbind none btruthy]. destruct Hv as [-> | ->]; [reflexivity|]. cbn. now apply fromhex_bytes.
    - assert (entry o d "Encoding" <> ONull) as En by congruence. destruct (font_entry_is d "Encoding" (bs "Font") En) as (x & Ex & Ef). rewrite E in Ef. symmetry in Ef.
      eapply ev_imp; [|apply ev_and; [exact (font_null d "ToUnicode" (bs "Font") T)|exact (font_says d "Encoding" x _ (bs "Font") Ex (mean_name x n Ef))]].
      cbv beta. intros nb (S1 & S2). unfold M_App.app_show.
      destruct (C75_predefined_names python python_decode inflate ccitt (B nb) cid (VDict (Some (bs "Font")) (rd d)) none n s S1 eq_refl S2 Hin Hb) as [D1 D2].
      destruct Hv as [-> | ->]; assumption.
    - assert (entry o d "Encoding" <> ONull) as En by congruence. destruct (font_entry_is d "Encoding" (bs "Font") En) as (x & Ex & Ef). rewrite E in Ef. symmetry in Ef.
      assert (exists c, meaning o x (VDict (Some c) (rd e))) as [c HMe].
      { destruct Et as [Et|Et]; [exists []|exists (bs "Encoding")]; apply mean_dict; auto; [now apply untyped_class|apply typed_class; auto; cbn; tauto]. }
      assert (ev (fun nb => exists r, dict_entry (B nb) (Some c) (rd e) (bs "BaseEncoding") = Ok r /\
                 (if btruthy (or_none r) then match or_none r with VAtom (OName n) | VAtom (OHex n) => Ok (Some n) | VAtom _ => Ok (Some []) | _ => Err TypeErr end else Ok None) = Ok base)) as HB.
      { destruct base as [b|].
        - destruct Eb as [Eb Hb0]. assert (entry o e "BaseEncoding" <> ONull) as En2 by congruence. destruct (font_entry_is e "BaseEncoding" (bs "Encoding") En2) as (y & Ey & Efy). rewrite Eb in Efy. symmetry in Efy.
          eapply ev_imp; [|apply (dict_says e "BaseEncoding" c (VAtom (OName b))); exists y; split; [exact Ey|now apply mean_name]]. cbv beta. intros nb Hn. eexists. split; [exact Hn|].
          cbn [or_none]. destruct b; [congruence|reflexivity].
        - eapply ev_imp; [|exact (dict_null e "BaseEncoding" c Eb)]. cbv beta. intros nb (r & H1 & H2). exists r. split; [exact H1|]. rewrite H2. reflexivity. }
      set (ds := flat_map (fun s => OInt (fst s) :: map OName (snd s)) segs) in *.
      assert (ev (fun nb => exists r, dict_entry (B nb) (Some c) (rd e) (bs "Differences") = Ok r /\
                 (or_none r = VArr (map raw ds) \/ or_none r = none /\ ds = []))) as HDf.
      { destruct Ed as [[Es Ed]|Ed].
        - eapply ev_imp; [|exact (dict_null e "Differences" c Ed)]. cbv beta. intros nb (r & H1 & H2). exists r. split; [exact H1|]. right. split; [exact H2|]. unfold ds. now rewrite Es.
        - assert (entry o e "Differences" <> ONull) as En2 by congruence. destruct (font_entry_is e "Differences" (bs "Encoding") En2) as (y & Ey & Efy). rewrite Ed in Efy. symmetry in Efy.
          assert (meaning o y (VArr (map raw ds))) as HMy.
          { apply (mean_arr o y ds); [exact Efy|]. unfold ds. clear. induction segs as [|[z ns] r IH]; [constructor|]. cbn [flat_map fst snd app map]. constructor; [constructor|].
            rewrite map_app. apply Forall2_app; [|exact IH]. clear. induction ns as [|n ns IH]; cbn [map]; constructor; [constructor|exact IH]. }
          eapply ev_imp; [|apply (dict_says e "Differences" c (VArr (map raw ds))); exists y; split; [exact Ey|exact HMy]]. cbv beta. intros nb Hn. eexists. split; [exact Hn|]. left. reflexivity. }
      eapply ev_imp; [|apply ev_and; [exact (font_null d "ToUnicode" (bs "Font") T)|apply ev_and; [exact (font_says d "Encoding" x _ (bs "Font") Ex HMe)|apply ev_and; [exact HB|exact HDf]]]].
      cbv beta. intros nb (S1 & S2 & (r1 & S3 & Hr1) & (r2 & S4 & Hr2)). unfold M_App.app_show.
      assert (btruthy (VDict (Some c) (rd e)) = true) as Hbt by (destruct e; [congruence|reflexivity]).
      destruct (C75_encoding python python_decode inflate ccitt (B nb) cid (VDict (Some (bs "Font")) (rd d)) none _ s (bytes_hex s) S1 eq_refl S2 eq_refl Hbt) as [D1 D2].
      assert (decode_bytes python python_decode (B nb) cid (VDict (Some c) (rd e)) s = Ok (List.concat ts)) as ED.
      { unfold decode_bytes. cbn [to_encoding]. rewrite S3. cbn [rbind]. cbv zeta. rewrite Hr1. cbn [rbind]. rewrite S4. cbn [rbind]. rewrite <- (diff_decode base segs s ts HDC). fold ds.
        assert (map unraw (map raw ds) = ds) as EU by (rewrite map_map; clear; induction ds as [|y l IH]; [reflexivity|]; cbn [map]; now rewrite unraw_raw, IH).
        destruct Hr2 as [-> |[-> Hd]].
        - destruct ds as [|y l] eqn:Eds; [reflexivity|]. change (btruthy (VArr (map raw (y :: l)))) with true. cbv iota. cbn [rbind]. now rewrite EU.
        - rewrite Hd. reflexivity. }
      destruct Hv as [-> | ->]; [now rewrite D1|]. rewrite D2, fromhex_bytes by exact Hb. exact ED.
    - assert (exists enw, ev (fun nb => font_get (B nb) (VDict (Some (bs "Font")) (rd d)) (bs "Encoding") = Ok enw)) as [enw HEe].
      { destruct en as [x|]; [destruct (HS x eq_refl) as [enw HMe]; exists enw; exact (font_says d "Encoding" x _ (bs "Font") E HMe)|].
        exists none. apply font_null. unfold entry. now rewrite E. }
      destruct (data_filtered o inflate ccitt tv _ HD) as (sd' & data' & c & HMt & HFi).
      assert (data' = data) as ->.
      { destruct HD as (sd2 & data2 & E2 & Ht2 & _). assert (sd2 = sd /\ data2 = data) as [-> ->] by (split; congruence).
        destruct (other_stm sd Ht2) as [c2 Hc2]. pose proof (meaning_fun o tv _ _ HMt (mean_stm o tv sd data c2 Hst Hc2)) as Em. congruence. }
      eapply ev_imp; [|apply ev_and; [exact (font_says d "ToUnicode" tv _ (bs "Font") T HMt)|exact HEe]].
      cbv beta. intros nb (S1 & S2). unfold M_App.app_show.
      assert (btruthy (VStm (Some c) (rd sd') data) = true) as Hbt by (destruct data; [congruence|reflexivity]).
      assert (filtered_of inflate ccitt (B nb) (VStm (Some c) (rd sd') data) = Ok (lead ++ text)) as HFo by (cbn [filtered_of]; now rewrite HFi).
      destruct (C75_text python python_decode inflate ccitt (B nb) cid _ _ enw lead text size cs cid_r cid_c nd_r nd_c bf_r bf_c s t S1 Hbt HFo S2 Hl Hi Hz Hpl Hc R1 C1 R2 C2 R3 C3 Hb HC) as [D1 D2].
      destruct Hv as [-> | ->]; assumption.
  Qed.

  (** *** Pages and canvases *)
  Variable real_str : bool -> Z -> Z -> list Z.
  Definition draws (nb n : nat) (d : dict) (c : canvas) : Prop :=
    fresh (page_resources Hdoc nb n) (page_stream inflate ccitt Hdoc nb) (app_draw real_str python python_decode inflate ccitt cid Hdoc nb n) (page_bv d) c.
  Lemma page_drawn d ts : PageShows d ts -> ev (fun nb => ev (fun n => exists c, draws nb n d c /\ cv_strings c = ts)).
  Proof.
    intros (lead & ss & its & ls & HC & Hl & Hi & HT & HL & HO & HF).
    pose proof (page_content o inflate ccitt d _ HC) as E1. pose proof (page_fonts o d ls HL HO) as E2.
    assert (ev (fun nb => Forall2 (fun p t => match fst p with
       | None => app_show nb None (snd p) = Ok t
       | Some f => match font_in o ls f with None => app_show nb None (snd p) = Ok t | Some v => forall w, meaning o v w -> app_show nb (Some w) (snd p) = Ok t end end) (shows None [] its) ts)) as E3.
    { apply ev_Forall2. eapply Forall2_impl; [|exact HF]. cbv beta. intros [[f|] v] t Hv; cbn [fst snd] in *.
      - destruct (font_in o ls f) as [x|]; [|apply ev_all; intros; now apply font_text_none].
        destruct (font_text_some x v t Hv) as (w & HM & HE). eapply ev_imp; [|exact HE]. cbv beta. intros nb H w' HM'. now rewrite (meaning_fun o x w' w HM' HM).
      - apply ev_all; intros; now apply font_text_none. }
    eapply ev_imp; [|apply ev_and; [exact E1|apply ev_and; [exact E2|exact E3]]]. cbv beta. intros nb (S1 & S2 & S3).
    eapply ev_imp; [|exact S2]. cbv beta. intros n (rs & R1 & R2).
    assert (Forall2 (fun p t => app_show nb (font_of rs (fst p)) (snd p) = Ok t) (shows None [] its) ts) as H4.
    { eapply Forall2_impl; [|exact S3]. cbv beta. intros [[f|] v] t Hv; cbn [fst snd font_of] in *; [|exact Hv]. specialize (R2 f).
      destruct (font_in o ls f) as [x|]; [destruct R2 as (w & HM & ->); auto|now rewrite R2]. }
    destruct (text_run real_str (app_show nb) (page_Do real_str (app_show nb) (app_form_content inflate ccitt) (app_form_resources Hdoc nb n (page_bv d)))
       rs its HT [] [] empty_canvas None [] ts) as (s' & E & Es); [left; auto|exact H4|].
    exists (v_cv s'). split; [|exact Es]. exists rs, (Some (lead ++ ss)), s'. split; [exact R1|]. split; [exact S1|]. split; [|reflexivity].
    unfold app_draw, render_page, render. rewrite (content_items_ok its ss lead Hi Hl). cbn [fst snd]. unfold vbind. rewrite E. reflexivity.
  Qed.

  Lemma viewer_ok : forall t ps tss, Document o t ps -> ps <> [] -> Forall2 PageShows ps tss ->
    exists root, ev (fun nb => doc_root Hdoc nb t = Ok root /\ ev (fun n => exists s cs,
      app_open inflate ccitt Hdoc nb n t = Ok (root, s) /\ map cv_strings cs = tss /\
      forall more, fst (app_canvases real_str python python_decode inflate ccitt cid Hdoc nb n root (List.length cs + more) s) = map Ok cs ++ repeat (Err StopIter) more)).
  Proof.
    intros t ps tss HD Hne HF. destruct (document_pages o t ps HD) as [root HE]. exists root.
    assert (ev (fun nb => ev (fun n => exists cs, Forall2 (draws nb n) ps cs /\ map cv_strings cs = tss))) as HC.
    { clear HD Hne HE. induction HF as [|d ts ps tss Hd _ IH].
      - apply ev_all. intros nb. apply ev_all. intros n. exists []. split; [constructor|reflexivity].
      - eapply ev_imp; [|apply ev_and; [exact (page_drawn d ts Hd)|exact IH]]. cbv beta. intros nb [H1 H2].
        eapply ev_imp; [|apply ev_and; [exact H1|exact H2]]. cbv beta. intros n [(c & A1 & A2) (cs & B1 & B2)]. exists (c :: cs). split; [now constructor|]. cbn [map]. congruence. }
    eapply ev_imp; [|apply ev_and; [exact HE|exact HC]]. cbv beta. intros nb [[R1 R2] H2]. split; [exact R1|].
    eapply ev_imp; [|apply ev_and; [exact R2|exact H2]]. cbv beta. intros n [HY (cs & D1 & D2)].
    set (gen := doc_pages Hdoc nb n root) in *.
    destruct ps as [|d ps]; [congruence|]. assert (exists c cs', cs = c :: cs' /\ draws nb n d c) as (c & cs' & -> & Hd) by (inversion D1; subst; eauto).
    pose proof Hd as (rs & st & v & G1 & G2 & _).
    destruct (navigate_loads gen (page_resources Hdoc nb n) (page_stream inflate ccitt Hdoc nb) (map page_bv (d :: ps)) HY 1 (mkN [] 1 [empty_canvas] 0 [] [] [] [] None) (page_bv d) rs st) as [s Hs]; auto.
    { intros k p Hk. discriminate. }
    assert (M_Nav.open gen (page_resources Hdoc nb n) (page_stream inflate ccitt Hdoc nb) = (Ok tt, s)) as HO by exact Hs.
    exists s, (c :: cs'). split; [unfold app_open; rewrite R1; cbn [rbind]; fold gen; now rewrite HO|]. split; [exact D2|].
    intros more. unfold app_canvases. fold gen.
    pose proof (Re_open gen (page_resources Hdoc nb n) (page_stream inflate ccitt Hdoc nb) (app_draw real_str python python_decode inflate ccitt cid Hdoc nb n) (map page_bv (d :: ps)) s HO) as HR.
    refine (C32_canvases gen (page_resources Hdoc nb n) (page_stream inflate ccitt Hdoc nb) _ (map page_bv (d :: ps)) HY (c :: cs') s [] false 0%nat more HR (or_introl eq_refl) _ _).
    - destruct (navigate_ok gen (page_resources Hdoc nb n) (page_stream inflate ccitt Hdoc nb) (map page_bv (d :: ps)) HY 1 (mkN [] 1 [empty_canvas] 0 [] [] [] [] None) s ltac:(intros k p Hk; discriminate Hk) Hs) as (p' & rs' & st' & pg & _ & _ & _ & _ & _ & ->). reflexivity.
    - cbn [skipn]. clear - D1. induction D1 as [|x y l l' H _ IH]; cbn [map]; constructor; auto.
  Qed.

  (** The viewer over a document's objects: for all large enough bounds on the recursion of build ([nb]) and on the walks
      along Kids and Parent ([n]), iterating the viewer gives one canvas for each page, with its strings, and then ends.
      Ids without an object are not answered at all: no handler of the model catches OutOfFuel, so the viewer only ever
      asks for objects the document has. *)
  Theorem C78_viewer : forall t ps tss, Document o t ps -> ps <> [] -> Forall2 PageShows ps tss ->
    let look := fun n g => match o n g with Some v => Ok (raw v) | None => Err OutOfFuel end in
    exists root nb0, forall nb, (nb0 <= nb)%nat -> doc_root look nb t = Ok root /\ exists n0, forall n, (n0 <= n)%nat -> exists s cs,
      app_open inflate ccitt look nb n t = Ok (root, s) /\ map cv_strings cs = tss /\
      forall more, fst (app_canvases real_str python python_decode inflate ccitt cid look nb n root (List.length cs + more) s) = map Ok cs ++ repeat (Err StopIter) more.
  Proof. exact viewer_ok. Qed.
End Font.

(** The same from the bytes of the file: a document written as a file (S_Write.v) opens, every history of lookups
    answers by one and the same function, and the viewer over that function shows the text of each page, in order. *)
Theorem C78_written_file : forall real_str python python_decode inflate ccitt cid a b r ps tss,
  is_digit a = true -> is_digit b = true -> rev_ok r -> zlen (file_of a b [r]) < 10 ^ 10 ->
  let o := or_null (find_obj (rv_objs r)) in
  Document o (rv_trailer r) ps -> ps <> [] ->
  Forall2 (PageShows o inflate python) ps tss ->
  exists (look : Z -> Z -> obj) root nb0, forall D m k, (0 < D)%nat -> 4 * zlen (file_of a b [r]) + 8 <= Z.of_nat m -> (1 <= k)%nat ->
  exists s t, arun (file_of a b [r]) (open_document inflate ccitt no_decrypt D m k) (mkA 0 [] rst0) = (Ok ([a; 46; b], 0, t), s) /\
  (forall k' ids, (2 <= k')%nat ->
     fst (session inflate ccitt no_decrypt D m k' (file_of a b [r]) s ids) = map (fun id => Ok (look (fst id) (snd id))) ids) /\
  forall nb, (nb0 <= nb)%nat -> exists n0, forall n, (n0 <= n)%nat -> exists v cs,
    app_open inflate ccitt (fun x g => Ok (raw (look x g))) nb n t = Ok (root, v) /\ map cv_strings cs = tss /\
    forall more, fst (app_canvases real_str python python_decode inflate ccitt cid (fun x g => Ok (raw (look x g))) nb n root (List.length cs + more) v) =
      map Ok cs ++ repeat (Err StopIter) more.
Proof.
  intros real_str python python_decode inflate ccitt cid a b r ps tss Ha Hb Hr Hlt o HD Hne HF.
  destruct (C78_viewer (or_null (find_obj (rv_objs r))) inflate python python_decode ccitt cid real_str (rv_trailer r) ps tss HD Hne HF) as (root & nb0 & HV).
  exists (meant (or_null (find_obj (rv_objs r)))), root, nb0. intros D m k H1 H2 H3.
  destruct (C76_written_once inflate ccitt a b r Ha Hb Hr Hlt D m k H1 H2 H3) as (s & E & HS). exists s, (rv_trailer r). split; [exact E|]. split; [exact HS|].
  intros nb Hnb. destruct (HV nb Hnb) as [_ (n0 & Hn)]. exists n0. intros n Hle. exact (Hn n Hle).
Qed.

(** A document of two pages: the first takes its font, of which nothing is known, from the page tree's root; the second
    has a font of its own by the same name, whose encoding is MacRoman, and its content in two streams. *)
Definition ex_c1 : list citem := [COp (bs "BT") []; COp (bs "Tf") [OName (bs "F1"); OInt 12]; COp (bs "Td") [OInt 10; OReal false 205 (-1)]; COp (bs "Tj") [OStr (bs "Hi (you)")]; COp (bs "ET") []].
Definition ex_c2 : list citem := [COp (bs "q") []; COp (bs "Tf") [OName (bs "F2"); OInt 9]; COp (bs "Tj") [OStr (bs "abc")]; COp (bs "Q") [];
  COp (bs "TJ") [OArr [OStr [72]; OInt (-120); OHex (bs "80")]]].
Definition ex_stream (its : list citem) : obj := OStream [(bs "Length", OInt (zlen (content_text its)))] (content_text its).
Definition ex_page1 : dict := [(bs "Type", OName (bs "Page")); (bs "Parent", ORef 2 0); (bs "Contents", ORef 5 0)].
Definition ex_page2 : dict := [(bs "Type", OName (bs "Page")); (bs "Parent", ORef 2 0); (bs "Contents", OArr [ORef 5 0; ORef 6 0]); (bs "Resources", ORef 9 0)].
Definition ex_node : dict := [(bs "Type", OName (bs "Pages")); (bs "Kids", OArr [ORef 3 0; ORef 4 0]); (bs "Count", OInt 2);
  (bs "Resources", ODict [(bs "ProcSet", OArr [OName (bs "PDF"); OName (bs "Text")]); (bs "Font", ODict [(bs "F1", ORef 7 0)])])].
Definition ex_font2 : dict := [(bs "Type", OName (bs "Font")); (bs "Encoding", ODict [(bs "Type", OName (bs "Encoding")); (bs "BaseEncoding", OName (bs "MacRomanEncoding"))])].
Definition ex_doc : revision :=
  mkRev [(1, 0, ODict [(bs "Type", OName (bs "Catalog")); (bs "Pages", ORef 2 0)]);
         (2, 0, ODict ex_node); (3, 0, ODict ex_page1); (4, 0, ODict ex_page2);
         (5, 0, ex_stream ex_c1); (6, 0, ex_stream ex_c2);
         (7, 0, ODict [(bs "Type", OName (bs "Font")); (bs "Name", OName (bs "F1"))]); (8, 0, ODict ex_font2);
         (9, 0, ODict [(bs "Font", ODict [(bs "F1", ORef 8 0)])])]
        [(bs "Root", ORef 1 0); (bs "Size", OInt 10)].
Example ex_doc_ok : rev_ok ex_doc.
Proof.
  unfold rev_ok, ex_doc, ex_stream, ex_page1, ex_page2, ex_node, ex_font2. cbn [rv_objs rv_trailer map fst snd writable printable fold_right].
  assert (forall s, forallb (fun c => (0 <=? c) && (c <? 256)) s = true -> bytes_ok s) as Hb.
  { intros s H. rewrite forallb_forall in H. apply Forall_forall. intros c Hc. specialize (H c Hc). unfold byte_ok. lia. }
  wr; first [apply Hb; reflexivity | reflexivity | discriminate | (vm_compute; discriminate) | idtac].
Qed.
Notation ex_o := (or_null (find_obj (rv_objs ex_doc))).
Example ex_document : Document ex_o (rv_trailer ex_doc) [ex_page1; ex_page2].
Proof.
  exists 1, 0, [(bs "Type", OName (bs "Catalog")); (bs "Pages", ORef 2 0)], ex_node, [ORef 3 0; ORef 4 0].
  split; [reflexivity|]. split; [reflexivity|]. split; [apply typed_class; cbn; auto|]. split; [reflexivity|]. split; [reflexivity|]. split; [reflexivity|].
  apply (Pi_cons _ (ORef 3 0) _ [ex_page1] [ex_page2]); [apply Pa_page with (d := ex_page1); reflexivity|].
  apply (Pi_cons _ (ORef 4 0) _ [ex_page2] []); [apply Pa_page with (d := ex_page2); reflexivity|constructor].
Qed.
Ltac wops := repeat apply Forall_cons; try apply Forall_nil; try (split; [opname|]; split; [first [left; reflexivity|right; reflexivity]|]); repeat apply Forall_cons; try apply Forall_nil; try (split; [|reflexivity]).
Lemma bytes_ok_b s : forallb (fun c => (0 <=? c) && (c <? 256)) s = true -> bytes_ok s.
Proof. intros H. rewrite forallb_forall in H. apply Forall_forall. intros c Hc. specialize (H c Hc). unfold byte_ok. lia. Qed.
Example ex_c1_ok : Forall writable_op ex_c1.
Proof. unfold ex_c1. wops; cbn [printable]; try (apply bytes_ok_b; reflexivity); try exact I. repeat split; lia. Qed.
Example ex_c2_ok : Forall writable_op ex_c2.
Proof.
  unfold ex_c2. wops; cbn [printable fold_right]; try (apply bytes_ok_b; reflexivity); try exact I.
  repeat split. repeat constructor; [exists 8|exists 0]; split; try lia; reflexivity.
Qed.
(** [forall n g, find n g] for a reference to a stream of the example *)
Lemma ex_data v its inflate : follow ex_o v = ex_stream its -> Data ex_o inflate v (content_text its).
Proof. intros H. exists [(bs "Length", OInt (zlen (content_text its)))], (content_text its). split; [exact H|]. split; [left; reflexivity|]. apply De_plain. left. reflexivity. Qed.
(** data under two filters: (q) as a literal run, and that as hexadecimal digits; and rows of three bytes *)
Example ex_decoded inflate : inflate [1; 2; 3] = Some [0; 113; 32; 10; 0; 81; 32; 10] ->
  Decoded inflate [(bs "Filter", OArr [OName (bs "AHx"); OName (bs "RunLengthDecode")]); (bs "DecodeParms", ODict [(bs "Predictor", OInt 1)])] (bs "01 710a 80>") [113; 10] /\
  Decoded inflate [(bs "Filter", OName (bs "FlateDecode")); (bs "DecodeParms", ODict [(bs "Columns", OInt 3); (bs "Predictor", OInt 12)])] [1; 2; 3] [113; 32; 10; 81; 32; 10].
Proof.
  intros HI. split.
  - apply De_many with (fs := [bs "AHx"; bs "RunLengthDecode"]); [reflexivity|right; right; eexists; split; [reflexivity|right; reflexivity]|].
    apply EC_cons with (m := [1; 113; 10; 128]).
    + change (bs "01 710a 80>") with (bs "01 710a 80" ++ 62 :: []). apply Enc_hex with (ds := bs "01710a80"); [right; left; reflexivity| |].
      * apply (HD_pair 48 49 0 1); [reflexivity..|]. apply (HD_pair 55 49 7 1); [reflexivity..|]. apply (HD_pair 48 97 0 10); [reflexivity..|].
        apply (HD_pair 56 48 8 0); [reflexivity..|]. constructor.
      * apply IL_ch, IL_ch, IL_ws; [reflexivity|]. apply IL_ch, IL_ch, IL_ch, IL_ch, IL_ws; [reflexivity|]. apply IL_ch, IL_ch. constructor.
    + apply EC_cons with (m := [113; 10]); [|constructor]. apply (Enc_rl inflate (bs "RunLengthDecode") [Lit [113; 10]] []); [left; reflexivity|repeat constructor].
  - apply (De_rows inflate _ _ (bs "FlateDecode") 3 [[113; 32; 10]; [81; 32; 10]]); [left; reflexivity|left; reflexivity| |repeat constructor|exact HI].
    eexists _, 12. split; [reflexivity|]. split; [reflexivity|]. split; [lia|reflexivity].
Qed.
Lemma content_app x y : content_text (x ++ y) = content_text x ++ content_text y.
Proof. unfold content_text. apply flat_map_app. Qed.
Ltac textop := first [apply To_save | apply To_restore | apply To_bracket; auto; fail | apply To_font; exact I | apply To_show; [auto; fail|reflexivity]
  | apply To_show_many; repeat constructor | apply To_other; [unfold unhandled; cbn; intuition discriminate|repeat constructor]].
Example ex_c1_text : Forall TextOp ex_c1. Proof. unfold ex_c1. repeat apply Forall_cons; try apply Forall_nil; textop. Qed.
Example ex_c2_text : Forall TextOp ex_c2. Proof. unfold ex_c2. repeat apply Forall_cons; try apply Forall_nil; textop. Qed.
(** a font with differences: 65 is the Euro sign, 66 two letters, 67 (overruled) A, and 68 as in MacRoman *)
Example ex_differences o inflate python :
  FontText o inflate python (Some (ODict [(bs "Type", OName (bs "Font")); (bs "Encoding", ODict [(bs "BaseEncoding", OName (bs "MacRomanEncoding"));
    (bs "Differences", OArr [OInt 65; OName (bs "Euro"); OName (bs "f_i.alt"); OName (bs "B"); OInt 67; OName (bs "A")])])])) (OHex (bs "41424380")) [8364; 102; 105; 65; 196].
Proof.
  change [8364; 102; 105; 65; 196] with (List.concat [[8364]; [102; 105]; [65]; [196]]).
  apply (Ft_dict o inflate python (ODict [(bs "Type", OName (bs "Font")); (bs "Encoding", ODict [(bs "BaseEncoding", OName (bs "MacRomanEncoding"));
    (bs "Differences", OArr [OInt 65; OName (bs "Euro"); OName (bs "f_i.alt"); OName (bs "B"); OInt 67; OName (bs "A")])])])
    [(bs "Type", OName (bs "Font")); (bs "Encoding", ODict [(bs "BaseEncoding", OName (bs "MacRomanEncoding"));
    (bs "Differences", OArr [OInt 65; OName (bs "Euro"); OName (bs "f_i.alt"); OName (bs "B"); OInt 67; OName (bs "A")])])]
    [(bs "BaseEncoding", OName (bs "MacRomanEncoding")); (bs "Differences", OArr [OInt 65; OName (bs "Euro"); OName (bs "f_i.alt"); OName (bs "B"); OInt 67; OName (bs "A")])]
    (Some (bs "MacRomanEncoding")) [(65, [bs "Euro"; bs "f_i.alt"; bs "B"]); (67, [bs "A"])] (OHex (bs "41424380")) [65; 66; 67; 128]).
  - split; reflexivity.
  - reflexivity.
  - reflexivity.
  - split; [discriminate|left; reflexivity].
  - split; [reflexivity|discriminate].
  - right. reflexivity.
  - split; [apply Forall_forall; intros x Hx; cbn [In] in Hx; lia|right; reflexivity].
  - repeat (constructor; [vm_compute; reflexivity|]). constructor.
Qed.
Definition ex_l1 : dict := [(bs "ProcSet", OArr [OName (bs "PDF"); OName (bs "Text")]); (bs "Font", ODict [(bs "F1", ORef 7 0)])].
Definition ex_l2 : dict := [(bs "Font", ODict [(bs "F1", ORef 8 0)])].
Example ex_sound : Sound ex_o (ORef 7 0) /\ Sound ex_o (ORef 8 0).
Proof.
  split.
  - exists (VDict (Some (bs "Font")) (rd [(bs "Type", OName (bs "Font")); (bs "Name", OName (bs "F1"))])). apply mean_dict; [reflexivity|apply typed_class; [reflexivity|cbn; auto 20]].
  - exists (VDict (Some (bs "Font")) (rd ex_font2)). apply mean_dict; [reflexivity|apply typed_class; [reflexivity|cbn; auto 20]].
Qed.
Example ex_level1 : LevelOk ex_o ex_l1.
Proof.
  split; [split; reflexivity|]. split; [repeat constructor; cbn; intuition discriminate|]. intros k v [E|[E|[]]]; injection E as <- <-.
  - change (eqlZ (bs "ProcSet") (bs "ProcSet")) with true. exists [bs "PDF"; bs "Text"]. reflexivity.
  - change (eqlZ (bs "Font") (bs "ProcSet")) with false. exists [(bs "F1", ORef 7 0)]. split; [reflexivity|]. split; [reflexivity|]. split; [repeat constructor; auto|].
    intros k' x [E|[]]. injection E as _ <-. apply ex_sound.
Qed.
Example ex_level2 : LevelOk ex_o ex_l2.
Proof.
  split; [split; reflexivity|]. split; [repeat constructor; cbn; intuition discriminate|]. intros k v [E|[]]; injection E as <- <-.
  change (eqlZ (bs "Font") (bs "ProcSet")) with false. exists [(bs "F1", ORef 8 0)]. split; [reflexivity|]. split; [reflexivity|]. split; [repeat constructor; auto|].
  intros k' x [E|[]]. injection E as _ <-. apply ex_sound.
Qed.
Example ex_levels : Levels ex_o ex_page1 [ex_l1] /\ Levels ex_o ex_page2 [ex_l2; ex_l1].
Proof.
  assert (Levels ex_o ex_node [ex_l1]) as Hn by (apply Le_top; [left; exists ex_l1; repeat split; discriminate|reflexivity]).
  split; [apply (Le_up ex_o ex_page1 [] ex_node [ex_l1])|apply (Le_up ex_o ex_page2 [ex_l2] ex_node [ex_l1])]; try reflexivity; try exact Hn.
  - right. split; [left; reflexivity|reflexivity].
  - left. exists ex_l2. repeat split. discriminate.
Qed.
Lemma ex_bytes v s : forallb (fun c => (0 <=? c) && (c <? 256)) s = true -> v = OStr s \/ v = OHex (bytes_hex s) -> Bytes v s.
Proof. intros H Hv. split; [exact (bytes_ok_b s H)|exact Hv]. Qed.
Example ex_shows1 inflate python : PageShows ex_o inflate python ex_page1 [bs "Hi (you)"].
Proof.
  exists [], (content_text ex_c1), ex_c1, [ex_l1]. split; [exists (ORef 5 0); split; [reflexivity|left; now apply ex_data]|].
  split; [constructor|]. split; [apply content_written, ex_c1_ok|]. split; [apply ex_c1_text|]. split; [apply ex_levels|]. split; [constructor; [apply ex_level1|constructor]|].
  change (shows None [] ex_c1) with [(Some (bs "F1"), OStr (bs "Hi (you)"))]. constructor; [|constructor]. cbn [fst snd]. change (font_in ex_o [ex_l1] (bs "F1")) with (Some (ORef 7 0)).
  apply (Ft_unknown ex_o inflate python (ORef 7 0) [(bs "Type", OName (bs "Font")); (bs "Name", OName (bs "F1"))]); try reflexivity; [split; reflexivity|].
  apply ex_bytes; [reflexivity|auto].
Qed.
(** in MacRoman, byte 128 is the letter A with diaeresis (196) *)
Example ex_shows2 inflate python : PageShows ex_o inflate python ex_page2 [bs "Hi (you)"; bs "abc"; [72]; [196]].
Proof.
  exists [], (content_text (ex_c1 ++ ex_c2)), (ex_c1 ++ ex_c2), [ex_l2; ex_l1].
  split. { exists (OArr [ORef 5 0; ORef 6 0]). split; [reflexivity|right]. exists [ORef 5 0; ORef 6 0], [content_text ex_c1; content_text ex_c2]. split; [reflexivity|]. split.
    - constructor; [now apply ex_data|]. constructor; [now apply ex_data|constructor].
    - rewrite content_app. cbn [List.concat app]. now rewrite app_nil_r. }
  split; [constructor|]. split; [apply content_written, Forall_app; split; [apply ex_c1_ok|apply ex_c2_ok]|]. split; [apply Forall_app; split; [apply ex_c1_text|apply ex_c2_text]|].
  split; [apply ex_levels|]. split; [constructor; [apply ex_level2|constructor; [apply ex_level1|constructor]]|].
  change (shows None [] (ex_c1 ++ ex_c2)) with [(Some (bs "F1"), OStr (bs "Hi (you)")); (Some (bs "F2"), OStr (bs "abc")); (Some (bs "F1"), OStr [72]); (Some (bs "F1"), OHex (bs "80"))].
  assert (forall v s, Bytes v s -> FontText ex_o inflate python (Some (ORef 8 0)) v (flat_map (char_of (base_of (Some (bs "MacRomanEncoding")))) s)) as HM.
  { intros v s Hv. apply (Ft_base ex_o inflate python (ORef 8 0) ex_font2 [(bs "Type", OName (bs "Encoding")); (bs "BaseEncoding", OName (bs "MacRomanEncoding"))]); try reflexivity; try discriminate; [split; reflexivity|exact Hv]. }
  constructor; [|constructor; [|constructor; [|constructor; [|constructor]]]]; cbn [fst snd].
  - apply (HM (OStr (bs "Hi (you)")) (bs "Hi (you)")). apply ex_bytes; [reflexivity|auto].
  - apply Ft_none. apply ex_bytes; [reflexivity|auto].
  - apply (HM (OStr [72]) [72]). apply ex_bytes; [reflexivity|auto].
  - apply (HM (OHex (bs "80")) [128]). apply ex_bytes; [reflexivity|right; reflexivity].
Qed.
Example C78_ex real_str python python_decode inflate ccitt cid : exists (look : Z -> Z -> obj) root nb0, forall D m k, (0 < D)%nat -> 4 * zlen (file_of 49 55 [ex_doc]) + 8 <= Z.of_nat m -> (1 <= k)%nat ->
  exists s t, arun (file_of 49 55 [ex_doc]) (open_document inflate ccitt no_decrypt D m k) (mkA 0 [] rst0) = (Ok (bs "1.7", 0, t), s) /\
  (forall k' ids, (2 <= k')%nat ->
     fst (session inflate ccitt no_decrypt D m k' (file_of 49 55 [ex_doc]) s ids) = map (fun id => Ok (look (fst id) (snd id))) ids) /\
  forall nb, (nb0 <= nb)%nat -> exists n0, forall n, (n0 <= n)%nat -> exists v cs,
    app_open inflate ccitt (fun x g => Ok (raw (look x g))) nb n t = Ok (root, v) /\
    map cv_strings cs = [[bs "Hi (you)"]; [bs "Hi (you)"; bs "abc"; bs "H"; [196]]] /\
    forall more, fst (app_canvases real_str python python_decode inflate ccitt cid (fun x g => Ok (raw (look x g))) nb n root (List.length cs + more) v) =
      map Ok cs ++ repeat (Err StopIter) more.
Proof.
  apply (C78_written_file real_str python python_decode inflate ccitt cid 49 55 ex_doc [ex_page1; ex_page2]); try reflexivity; [apply ex_doc_ok|apply ex_document|discriminate|].
  constructor; [apply ex_shows1|]. constructor; [apply ex_shows2|constructor].
Qed.
Print Assumptions C78_viewer.
Print Assumptions C78_written_file.
