(** Properties C43-C48: stream filters. *)
From Verif Require Import Prelude M_Filters S_Filters L_Filters L_Filters2 L_LZW.
From Coq Require Import String.
Local Open Scope Z_scope.

(** C43.  Any hexadecimal text of [data] (either case, white space anywhere, odd last digit) up to
    '>' or to the end of the data decodes to [data]; what follows '>' is ignored. *)
Theorem C43_asciihex_inverse : forall data ds text tail,
  HexDigits data ds -> Interleaved text ds -> (tail = [] \/ exists junk, tail = 62 :: junk) ->
  asciihex_decode (text ++ tail) = Ok data.
Proof. exact asciihex_inverse. Qed.
Print Assumptions C43_asciihex_inverse.

Theorem C43_asciihex_total : forall data, exists out, asciihex_decode data = Ok out.
Proof. exact asciihex_total. Qed.
Print Assumptions C43_asciihex_total.

Example C43_example : HexDigits [100; 160] (bs "64a") /\ Interleaved (bs "6 4a ") (bs "64a").
Proof.
  split.
  - apply (HD_pair 54 52 6 4); [reflexivity|reflexivity|]. apply (HD_odd 97 10). reflexivity.
  - apply IL_ch, IL_ws; [reflexivity|]. apply IL_ch, IL_ch, IL_ws; [reflexivity|]. constructor.
Qed.

(** C44. *)
Theorem C44_ascii85_inverse : forall data t text,
  A85Text data t -> Interleaved text (t ++ [126; 62]) -> ascii85_decode text = Ok data.
Proof. exact ascii85_inverse. Qed.
Print Assumptions C44_ascii85_inverse.

Theorem C44_ascii85_total : forall data, exists out, ascii85_decode data = Ok out.
Proof. exact ascii85_total. Qed.
Print Assumptions C44_ascii85_total.

Example C44_example : A85Text [0; 0; 0; 0; 255; 255; 255; 255; 7] (bs "zs8W-!#6") /\
  ascii85_decode (bs "z s8W-!#6~ >") = Ok [0; 0; 0; 0; 255; 255; 255; 255; 7].
Proof.
  split; [|vm_compute; reflexivity].
  apply A85_z.
  change (bs "s8W-!#6") with (digits85 (word32 255 255 255 255) ++ firstn 2 (digits85 (word32 7 0 0 0))).
  apply A85_4; try (unfold byte_ok; lia). apply A85_1. unfold byte_ok; lia.
Qed.

(** C45. *)
Theorem C45_runlength_inverse : forall runs junk, Forall run_ok runs ->
  runlength_decode (flat_map run_enc runs ++ 128 :: junk) = Ok (flat_map run_data runs).
Proof. exact runlength_inverse. Qed.
Print Assumptions C45_runlength_inverse.

Theorem C45_runlength_truncated : forall runs k, Forall run_ok runs ->
  runlength_decode (firstn k (flat_map run_enc runs)) = Ok [].
Proof. exact runlength_truncated. Qed.
Print Assumptions C45_runlength_truncated.

Theorem C45_runlength_total : forall data, exists out, runlength_decode data = Ok out.
Proof. exact runlength_total. Qed.
Print Assumptions C45_runlength_total.

Example C45_example : Forall run_ok [Lit [1; 2; 3]; Rep 128 7; Rep 2 0; Lit (repeat 5 128)].
Proof. repeat constructor; simpl; lia. Qed.

(** C46.  A stream of codes conforming to 7.4.4.2 but for the end-of-data code (any number of clear codes, any code
    widths, codes that refer to the entry they complete allowed): decoding never fails, never gives more than the
    original bytes, and gives exactly them if and only if no code refers to the entry it completes itself. *)
Theorem C46_lzw_right_iff : forall segs data pad predictor columns,
  Forall (fun s => segment_ok true (fst s) (snd s)) segs ->
  bits_of_bytes data = stream_bits (map snd segs) ++ pad -> zlen pad < 8 -> predictor = None \/ predictor = Some 1 ->
  exists out, lzw_decode data predictor columns = Ok out /\
    zlen out <= zlen (flat_map (fun s => List.concat (fst s)) segs) /\
    (out = flat_map (fun s => List.concat (fst s)) segs <-> Forall (fun s => segment_ok false (fst s) (snd s)) segs).
Proof.
  intros segs data pad predictor columns H E Hp Hpr. destruct (lzw_right_iff segs data pad H E Hp) as (out & E1 & E2). exists out.
  split; [|exact E2]. unfold lzw_decode. rewrite E1. cbn [rbind]. destruct Hpr as [-> | ->]; reflexivity.
Qed.
Print Assumptions C46_lzw_right_iff.
Theorem C46_lzw_inverse : forall segs data pad,
  Forall (fun s => segment_ok false (fst s) (snd s)) segs ->
  bits_of_bytes data = stream_bits (map snd segs) ++ pad -> zlen pad < 8 ->
  lzw_decode data None None = Ok (flat_map (fun s => List.concat (fst s)) segs).
Proof. intros segs data pad H E Hp. unfold lzw_decode. rewrite (lzw_inverse segs data pad H E Hp). reflexivity. Qed.
Print Assumptions C46_lzw_inverse.

(** ... and every conforming stream that ends with EOD (257), as 7.4.4.2 demands, decodes to b''. *)
Theorem C46_lzw_eod_refuted : forall segs lastp lastc data pad predictor columns,
  Forall (fun s => segment_ok true (fst s) (snd s)) segs -> segment_ok true lastp lastc ->
  bits_of_bytes data = stream_bits (map snd segs ++ [lastc ++ [257]]) ++ pad ->
  lzw_decode data predictor columns = Ok [].
Proof. exact lzw_eod_empty_all. Qed.
Print Assumptions C46_lzw_eod_refuted.

(** Self-referring codes do occur in conforming streams. *)
Theorem C46_lzw_kwkwk_refuted : exists phrases codes data pad,
  segment_ok true phrases codes /\ bits_of_bytes data = stream_bits [codes] ++ pad /\ zlen pad < 8 /\
  lzw_decode data None None <> Ok (List.concat phrases).
Proof.
  exists [[97]; [97; 97]], [97; 258], [48; 192; 128], (repeat 0 6).
  split.
  - split; [reflexivity|]. split; [repeat constructor; discriminate|].
    intros [|[|[|i]]] c H; inversion H; subst.
    + left. exists 97. split; [unfold byte_ok; lia|]. split; reflexivity.
    + right. exists 0%nat. split; [reflexivity|]. split; [simpl; lia|]. reflexivity.
  - split; [vm_compute; reflexivity|]. split; [vm_compute; reflexivity|]. vm_compute. discriminate.
Qed.
Print Assumptions C46_lzw_kwkwk_refuted.

(** No input makes LZWDecode fail with anything but TypeError (and TypeError does occur). *)
Theorem C46_lzw_total : forall data predictor columns,
  (exists out, lzw_decode data predictor columns = Ok out) \/ lzw_decode data predictor columns = Err TypeErr.
Proof. exact lzw_decode_total. Qed.
Print Assumptions C46_lzw_total.

(** What a stream gives for the filter is that function of its data, under both names, with the entries of DecodeParms. *)
Definition parm (p : fparams) (k : list Z) : option Z := match pget p k with Ok v => v | Err _ => None end.
Theorem C46_lzw_filter : forall inflate ccitt n data p, In n [bs "LZWDecode"; bs "LZW"] -> p <> PArray ->
  apply_filter inflate ccitt n data p = lzw_decode data (parm p (bs "Predictor")) (parm p (bs "Columns")).
Proof.
  intros inflate ccitt n data p [<-|[<-|[]]] Hp; unfold apply_filter; match goal with |- context [find_filter ?a ?b] => change (find_filter a b) with (Some FLzw) end;
    cbn [run_filter]; unfold lzw_decode; (destruct (lzw_decompress data) as [d|e]; cbn [rbind]; [|reflexivity]); destruct p; try reflexivity; now destruct Hp.
Qed.
Print Assumptions C46_lzw_filter.
(** Data that cannot be decoded gives no bytes, not an exception: here a first code that is the end marker. *)
Theorem C46_lzw_undecodable : forall inflate ccitt n data p, In n [bs "LZWDecode"; bs "LZW"] -> lzw_decompress data = Err ValueErr ->
  apply_filter inflate ccitt n data p = Ok [].
Proof.
  intros inflate ccitt n data p [<-|[<-|[]]] Hd; unfold apply_filter; match goal with |- context [find_filter ?a ?b] => change (find_filter a b) with (Some FLzw) end;
    cbn [run_filter]; rewrite Hd; reflexivity.
Qed.
Print Assumptions C46_lzw_undecodable.
Example C46_undecodable_ex : lzw_decompress [128; 128; 0] = Err ValueErr.
Proof. vm_compute. reflexivity. Qed.
Theorem C46_lzw_never_raises_refuted : exists data, lzw_decode data None None = Err TypeErr.
Proof. exists [255; 255]. vm_compute. reflexivity. Qed.
Print Assumptions C46_lzw_never_raises_refuted.

Example C46_example : exists phrases codes data pad,
  segment_ok false phrases codes /\ In 258 codes /\
  bits_of_bytes data = stream_bits [[]; codes; []] ++ pad /\ zlen pad < 8.
Proof.
  exists [[97]; [98]; [97; 98]], [97; 98; 258]. 
  exists [128; 24; 76; 80; 40; 0], (repeat 0 3).
  split; [|split; [vm_compute; auto|split; vm_compute; reflexivity]].
  split; [reflexivity|]. split; [repeat constructor; discriminate|].
  intros [|[|[|[|i]]]] c H; inversion H; subst.
  - left. exists 97. split; [unfold byte_ok; lia|]. split; reflexivity.
  - left. exists 98. split; [unfold byte_ok; lia|]. split; reflexivity.
  - right. exists 0%nat. split; [reflexivity|]. split; [simpl; lia|]. reflexivity.
Qed.

(** C47.  Rows filtered with PNG type None are restored for every declared PNG predictor. *)
Theorem C47_predictor_none : forall p cols bpp rows prev, 10 <= p <= 15 ->
  Forall (fun r => List.length r = cols /\ Forall byte_ok r) rows ->
  remove_predictors (png_rows bpp prev (map (fun r => (0, r)) rows)) (Some p) (Some (Z.of_nat cols))
  = Ok (List.concat rows).
Proof. exact predictor_none. Qed.
Print Assumptions C47_predictor_none.

(** Whatever the row filters, only the tag bytes are removed. *)
Theorem C47_predictor_strips_tags : forall p cols rows, 10 <= p <= 15 ->
  (forall r, In r rows -> List.length (snd r) = cols) ->
  remove_predictors (flat_map (fun r : Z * list Z => fst r :: snd r) rows) (Some p) (Some (Z.of_nat cols))
  = Ok (flat_map snd rows).
Proof. exact predictor_rows. Qed.
Print Assumptions C47_predictor_strips_tags.

(** PNG rows (any filter types, mixed) come out right if and only if nothing was predicted, i.e. the prediction is
    zero at every byte. *)
Fixpoint unpredicted (bpp : nat) (prev : list Z) (rows : list (Z * list Z)) : Prop :=
  match rows with
  | [] => True
  | (t, row) :: r => (forall i, (i < List.length row)%nat -> png_pred t bpp prev row i mod 256 = 0) /\ unpredicted bpp row r
  end.
Lemma app_len_inj {A} (a b c d : list A) : List.length a = List.length c -> a ++ b = c ++ d -> a = c /\ b = d.
Proof.
  revert c. induction a as [|x a IH]; intros [|y c] H E; try discriminate; [auto|]. cbn [app] in E. injection E as -> E. destruct (IH c) as [-> ->]; auto.
Qed.
Lemma row_unchanged t bpp prev row : Forall byte_ok row ->
  (map (fun i => (nthz row i - png_pred t bpp prev row i) mod 256) (seq 0 (List.length row)) = row <->
   forall i, (i < List.length row)%nat -> png_pred t bpp prev row i mod 256 = 0).
Proof.
  intros Hb.
  assert (forall i, (i < List.length row)%nat ->
    nth i (map (fun i => (nthz row i - png_pred t bpp prev row i) mod 256) (seq 0 (List.length row))) 0 = (nthz row i - png_pred t bpp prev row i) mod 256) as N.
  { intros i Hi. rewrite nth_indep with (d' := (fun i => (nthz row i - png_pred t bpp prev row i) mod 256) 0%nat) by (rewrite map_length, seq_length; exact Hi).
    rewrite (map_nth (fun i => (nthz row i - png_pred t bpp prev row i) mod 256)). rewrite seq_nth by exact Hi. reflexivity. }
  assert (forall i, (i < List.length row)%nat -> 0 <= nthz row i < 256) as B.
  { intros i Hi. unfold nthz. rewrite Forall_forall in Hb. apply (Hb (nth i row 0)). now apply nth_In. }
  split.
  - intros E i Hi. specialize (N i Hi). rewrite E in N. specialize (B i Hi). fold (nthz row i) in N. set (a := nthz row i) in *. set (q := png_pred t bpp prev row i) in *.
    clearbody a q. clear - N B. assert ((a - q) mod 256 = a mod 256) as M by (rewrite <- N; symmetry; now apply Z.mod_small).
    replace q with (a - (a - q)) by lia. rewrite Zminus_mod, M, Z.sub_diag. reflexivity.
  - intros H. apply nth_ext with (d := 0) (d' := 0); [now rewrite map_length, seq_length|].
    intros i Hi. rewrite map_length, seq_length in Hi. rewrite (N i Hi). specialize (H i Hi). specialize (B i Hi). unfold nthz in *.
    rewrite Zminus_mod, H, Z.sub_0_r, Z.mod_mod by lia. now apply Z.mod_small.
Qed.
Theorem C47_right_iff : forall p cols bpp rows prev, 10 <= p <= 15 ->
  Forall (fun r => List.length (snd r) = cols /\ Forall byte_ok (snd r)) rows ->
  (remove_predictors (png_rows bpp prev rows) (Some p) (Some (Z.of_nat cols)) = Ok (flat_map snd rows) <-> unpredicted bpp prev rows).
Proof.
  intros p cols bpp rows prev Hp H.
  set (enc := fix enc (prev : list Z) (rows : list (Z * list Z)) : list (Z * list Z) := match rows with [] => []
    | (t, row) :: r => (t, map (fun i => (nthz row i - png_pred t bpp prev row i) mod 256) (seq 0 (List.length row))) :: enc row r end).
  assert (forall rows prev, png_rows bpp prev rows = flat_map (fun r : Z * list Z => fst r :: snd r) (enc prev rows)) as E.
  { clear. induction rows as [|[t row] r IH]; intros prev; [reflexivity|]. cbn [png_rows enc flat_map fst snd]. rewrite IH. reflexivity. }
  rewrite E, C47_predictor_strips_tags; [|exact Hp|].
  2: { clear - H. revert prev. induction H as [|[t row] r (H & _) _ IH]; intros prev x Hx; [destruct Hx|]. cbn [enc] in Hx. destruct Hx as [<-|Hx]; [|apply (IH row x Hx)].
    cbn [snd] in *. now rewrite map_length, seq_length. }
  transitivity (flat_map snd (enc prev rows) = flat_map snd rows).
  { split; [intros X; injection X; auto|intros ->; reflexivity]. }
  clear E. revert prev. induction H as [|[t row] r (H & Hb) _ IH]; intros prev; [split; auto; intros _; exact I|]. cbn [snd] in *.
  change (flat_map snd (enc prev ((t, row) :: r))) with (map (fun i => (nthz row i - png_pred t bpp prev row i) mod 256) (seq 0 (List.length row)) ++ flat_map snd (enc row r)).
  change (flat_map snd ((t, row) :: r)) with (row ++ flat_map snd r). cbn [unpredicted]. split.
  - intros X. destruct (app_len_inj _ _ _ _ (eq_trans (map_length _ _) (seq_length _ _)) X) as (X1 & X2). split; [apply (row_unchanged t bpp prev row Hb), X1|apply IH, X2].
  - intros (X1 & X2). f_equal; [apply (row_unchanged t bpp prev row Hb), X1|apply IH, X2].
Qed.
Print Assumptions C47_right_iff.
(** The TIFF predictor (2) is not supported: nothing is read from LZW streams, Flate streams fail with ValueError. *)
Theorem C47_tiff : forall inflate data d columns, lzw_decompress data = Ok d -> inflate data = Some d ->
  lzw_decode data (Some 2) columns = Ok [] /\ flate_decode inflate data (Some 2) columns = Err ValueErr.
Proof. intros inflate data d columns H1 H2. unfold lzw_decode, flate_decode. rewrite H1, H2. split; reflexivity. Qed.
Print Assumptions C47_tiff.
(** Columns counts samples, not bytes: rows of more than one byte per sample are cut at the wrong places, even if nothing was predicted. *)
Theorem C47_colors_refuted : exists rows columns colors,
  Forall (fun r => List.length r = (columns * colors)%nat /\ Forall byte_ok r) rows /\
  remove_predictors (png_rows colors [] (map (fun r => (0, r)) rows)) (Some 10) (Some (Z.of_nat columns)) <> Ok (List.concat rows).
Proof.
  exists [[1; 2; 3; 4]; [5; 6; 7; 8]], 2%nat, 2%nat. split; [repeat constructor; unfold byte_ok; lia|]. vm_compute. discriminate.
Qed.
Print Assumptions C47_colors_refuted.

Theorem C47_predictors_refuted : forall t, 1 <= t <= 4 -> exists rows cols,
  Forall (fun r => List.length r = cols /\ Forall byte_ok r) rows /\
  remove_predictors (png_rows 1 (repeat 0 cols) (map (fun r => (t, r)) rows)) (Some (10 + t)) (Some (Z.of_nat cols))
  <> Ok (List.concat rows).
Proof.
  intros t Ht. exists [[1; 2]; [3; 4]], 2%nat. split.
  - repeat constructor; unfold byte_ok; lia.
  - assert (t = 1 \/ t = 2 \/ t = 3 \/ t = 4) as [->|[->|[->| ->]]] by lia; vm_compute; discriminate.
Qed.
Print Assumptions C47_predictors_refuted.

Example C47_example : Forall (fun r => List.length r = 2%nat /\ Forall byte_ok r) [[1; 255]; [0; 7]].
Proof. repeat constructor; unfold byte_ok; lia. Qed.

(** C48. *)
Theorem C48_filter_chain : forall inflate ccitt fs d e p,
  no_predictor p -> EncodedChain inflate fs d e ->
  apply_filter_multi inflate ccitt (FEArray fs) e p = Ok d.
Proof. intros; apply chain_inverse; assumption. Qed.
Print Assumptions C48_filter_chain.

Theorem C48_single_name : forall inflate ccitt f d e p,
  no_predictor p -> Encoded inflate f d e -> f <> [] ->
  apply_filter_multi inflate ccitt (FEName f) e p = Ok d.
Proof.
  intros inflate ccitt f d e p Hp H Hf. destruct f as [|c f]; [congruence|].
  cbn [apply_filter_multi apply_filters]. rewrite (apply_encoded _ _ _ _ _ _ Hp H). reflexivity.
Qed.
Print Assumptions C48_single_name.

Theorem C48_left_to_right : forall inflate ccitt fs gs x p,
  apply_filter_multi inflate ccitt (FEArray (fs ++ gs)) x p =
  match apply_filter_multi inflate ccitt (FEArray fs) x p with
  | Ok y => apply_filter_multi inflate ccitt (FEArray gs) y p
  | Err e => Err e
  end.
Proof. intros; apply apply_filters_app. Qed.
Print Assumptions C48_left_to_right.

Theorem C48_no_filter : forall inflate ccitt x p,
  apply_filter_multi inflate ccitt FENone x p = Ok x /\ apply_filter_multi inflate ccitt (FEArray []) x p = Ok x.
Proof. intros; split; reflexivity. Qed.
Print Assumptions C48_no_filter.

Theorem C48_unknown : forall inflate ccitt fs f rest d e p,
  no_predictor p -> EncodedChain inflate fs d e -> ~ In f known_filters ->
  apply_filter_multi inflate ccitt (FEArray (fs ++ f :: rest)) e p = Err NotImpl.
Proof. intros; eapply chain_unknown; eassumption. Qed.
Print Assumptions C48_unknown.

Theorem C48_aliases : forall inflate ccitt a b x p,
  In (a, b) [(bs "ASCII85Decode", bs "A85"); (bs "ASCIIHexDecode", bs "AHx"); (bs "FlateDecode", bs "Fl");
             (bs "LZWDecode", bs "LZW"); (bs "RunLengthDecode", bs "RL"); (bs "CCITTFaxDecode", bs "CCF");
             (bs "DCTDecode", bs "DCT")] ->
  apply_filter inflate ccitt a x p = apply_filter inflate ccitt b x p.
Proof. exact alias_same. Qed.
Print Assumptions C48_aliases.

Example C48_example : EncodedChain (fun _ => None) [bs "AHx"; bs "RL"] (bs "aaa") (bs "fE61 80>").
Proof.
  eapply EC_cons; [|eapply EC_cons; [|apply EC_nil]].
  - change (bs "fE61 80>") with (bs "fE61 80" ++ 62 :: []). eapply Enc_hex with (ds := bs "fE6180") (d := [254; 97; 128]).
    + right; left; reflexivity.
    + apply (HD_pair 102 69 15 14); try reflexivity. apply (HD_pair 54 49 6 1); try reflexivity.
      apply (HD_pair 56 48 8 0); try reflexivity. constructor.
    + repeat first [apply IL_nil | apply IL_ws; [reflexivity|] | apply IL_ch].
  - change [254; 97; 128] with (flat_map run_enc [Rep 3 97] ++ 128 :: []).
    change (bs "aaa") with (flat_map run_data [Rep 3 97]). apply Enc_rl; [right; left; reflexivity|].
    repeat constructor; simpl; lia.
Qed.
