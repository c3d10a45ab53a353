(** Filter chains, and the failures of LZW and predictors. *)
From Verif Require Import Prelude M_Filters S_Filters L_Filters.
From Coq Require Import String.
Local Open Scope Z_scope.

Definition no_predictor (p : fparams) : Prop :=
  match p with
  | PNone => True
  | PDict d => passoc (bs "Predictor") d = None \/ passoc (bs "Predictor") d = Some 1
  | PArray => False
  end.

Section Chain.
  Variable inflate : list Z -> option (list Z).
  Variable ccitt : list Z -> fparams -> res (list Z).

  Lemma apply_encoded f d e p : no_predictor p -> Encoded inflate f d e -> apply_filter inflate ccitt f e p = Ok d.
  Proof.
    intros Hp H. unfold apply_filter. destruct H as [f d ds text junk Hf H I|f d t text Hf H I|f rs junk Hf H|f d e Hf H].
    - assert (E : find_filter f filter_table = Some FAsciiHex) by (destruct Hf as [<-|[<-|[]]]; reflexivity).
      rewrite E. cbn [run_filter]. eapply asciihex_inverse; [eassumption|eassumption|right; eauto].
    - assert (E : find_filter f filter_table = Some FAscii85) by (destruct Hf as [<-|[<-|[]]]; reflexivity).
      rewrite E. cbn [run_filter]. eapply ascii85_inverse; eassumption.
    - assert (E : find_filter f filter_table = Some FRunLength) by (destruct Hf as [<-|[<-|[]]]; reflexivity).
      rewrite E. cbn [run_filter]. apply runlength_inverse; assumption.
    - assert (E : find_filter f filter_table = Some FFlate) by (destruct Hf as [<-|[<-|[]]]; reflexivity).
      rewrite E. cbn [run_filter]. rewrite H.
      destruct p as [|dd|]; [reflexivity| |contradiction]. cbn [pget rbind].
      destruct Hp as [Hp|Hp]; rewrite Hp; reflexivity.
  Qed.

  Lemma apply_filters_app a : forall b x p,
    apply_filters inflate ccitt (a ++ b) x p =
    match apply_filters inflate ccitt a x p with Ok y => apply_filters inflate ccitt b y p | Err e => Err e end.
  Proof.
    induction a as [|f a IH]; intros b x p; cbn [app apply_filters]; [reflexivity|].
    destruct (apply_filter inflate ccitt f x p); [apply IH|reflexivity].
  Qed.

  Lemma chain_inverse fs d e p : no_predictor p -> EncodedChain inflate fs d e ->
    apply_filters inflate ccitt fs e p = Ok d.
  Proof.
    intros Hp. induction 1 as [d|f fs d m e He H IH]; cbn [apply_filters]; [reflexivity|].
    rewrite (apply_encoded _ _ _ _ Hp He). exact IH.
  Qed.

  Lemma find_filter_unknown f : ~ In f known_filters -> find_filter f filter_table = None.
  Proof.
    intros H. unfold filter_table.
    assert (G : forall t, (forall k, In k (map fst t) -> In k known_filters) -> find_filter f t = None).
    { induction t as [|[k v] t IH]; intros Ht; [reflexivity|]. cbn [find_filter].
      destruct (eqlZ f k) eqn:E.
      - apply eqlZ_eq in E; subst. exfalso. apply H, Ht. left; reflexivity.
      - apply IH. intros k' Hk'. apply Ht. right; assumption. }
    apply G. intros k. unfold known_filters.
    assert (M : map fst filter_table = known_filters) by reflexivity.
    unfold filter_table in M. rewrite M. auto.
  Qed.

  Lemma chain_unknown fs f rest d e p : no_predictor p -> EncodedChain inflate fs d e -> ~ In f known_filters ->
    apply_filters inflate ccitt (fs ++ f :: rest) e p = Err NotImpl.
  Proof.
    intros Hp H Hf. rewrite apply_filters_app, (chain_inverse _ _ _ _ Hp H).
    cbn [apply_filters]. unfold apply_filter. rewrite find_filter_unknown by assumption. reflexivity.
  Qed.

  Lemma alias_same a b x p :
    In (a, b) [(bs "ASCII85Decode", bs "A85"); (bs "ASCIIHexDecode", bs "AHx"); (bs "FlateDecode", bs "Fl");
               (bs "LZWDecode", bs "LZW"); (bs "RunLengthDecode", bs "RL"); (bs "CCITTFaxDecode", bs "CCF");
               (bs "DCTDecode", bs "DCT")] ->
    apply_filter inflate ccitt a x p = apply_filter inflate ccitt b x p.
  Proof. intros H. repeat destruct H as [H|H]; [inversion H; subst; reflexivity..|destruct H]. Qed.
End Chain.

(** * LZW with the end-of-data code *)

Lemma unp_run_any bits : forall pre o cs w rest,
  bits <> [] -> zlen pre + zlen bits = w ->
  exists st, unpack (mkUnp pre o 0 cs w) (bits ++ rest) = intfrombits (pre ++ bits) :: unpack st rest.
Proof.
  induction bits as [|b bits IH]; intros pre o cs w rest Hne Hw; [congruence|].
  cbn [app unpack]. unfold unp_step. cbn [u_ignore u_bits u_offset u_codesize u_width].
  change (0 <? 0) with false. cbv iota zeta.
  assert (Hl : zlen (pre ++ [b]) = zlen pre + 1) by (rewrite zlen_app, zlen_cons, zlen_nil; lia).
  rewrite zlen_cons in Hw. rewrite Hl.
  destruct bits as [|b' bits].
  - rewrite zlen_nil in Hw. replace (zlen pre + 1 =? w) with true by lia. cbv iota. eexists. reflexivity.
  - pose proof (zlen_nonneg bits). rewrite zlen_cons in Hw.
    replace (zlen pre + 1 =? w) with false by lia. cbv iota.
    destruct (IH (pre ++ [b]) ((o + 1) mod 8) cs w rest) as [st E].
    + congruence.
    + rewrite Hl, zlen_cons. lia.
    + exists st. rewrite E. rewrite <- app_assoc. reflexivity.
Qed.

Lemma unp_eod n o rest : exists st,
  unpack (mkUnp [] o 0 (258 + Z.of_nat n) (wz n)) (to_bits (lzw_width n) 257 ++ rest) = 257 :: unpack st rest.
Proof.
  destruct (wz_spec n) as (A & B & C).
  assert (I : intfrombits (to_bits (lzw_width n) 257) = 257).
  { rewrite intfrombits_to_bits by lia. apply Z.mod_small. unfold wz in *. lia. }
  destruct (unp_run_any (to_bits (lzw_width n) 257) [] o (258 + Z.of_nat n) (wz n) rest) as [st E].
  - intros E. apply (f_equal (@List.length Z)) in E. rewrite to_bits_length in E.
    unfold wz in A. simpl in E. lia.
  - unfold zlen at 2. rewrite to_bits_length. rewrite zlen_nil. unfold wz. lia.
  - exists st. cbn [app] in E. rewrite I in E. exact E.
Qed.

Lemma unp_stream_eod segs last : forall o pad, Forall (codes_fit 0) segs -> codes_fit 0 last ->
  exists junk, unpack (mkUnp [] o 0 258 9) (stream_bits (segs ++ [last ++ [257]]) ++ pad) =
    flat_map (fun s => s ++ [256]) segs ++ last ++ 257 :: junk.
Proof.
  induction segs as [|s segs IH]; intros o pad H Hl.
  - cbn [app stream_bits flat_map]. rewrite segment_bits_app, <- app_assoc.
    destruct (unp_segment last 0 o (segment_bits (0 + List.length last) [257] ++ pad) Hl) as [o' E].
    change (wz 0) with 9 in E. change (258 + Z.of_nat 0) with 258 in E. rewrite E.
    cbn [segment_bits]. rewrite app_nil_r.
    destruct (unp_eod (0 + List.length last) o' pad) as [st E2]. rewrite E2. eexists. reflexivity.
  - inversion H as [|x l Hs Hr]; subst.
    assert (SB : stream_bits ((s :: segs) ++ [last ++ [257]]) =
                 segment_bits 0 (s ++ [256]) ++ stream_bits (segs ++ [last ++ [257]])).
    { cbn [app]. destruct (segs ++ [last ++ [257]]) eqn:Q; [destruct segs; discriminate|reflexivity]. }
    rewrite SB, segment_bits_app, <- !app_assoc.
    destruct (unp_segment s 0 o (segment_bits (0 + List.length s) [256] ++ stream_bits (segs ++ [last ++ [257]]) ++ pad) Hs) as [o' E].
    change (wz 0) with 9 in E. change (258 + Z.of_nat 0) with 258 in E. rewrite E.
    cbn [segment_bits flat_map]. rewrite app_nil_r.
    destruct (wz_spec (0 + List.length s)) as (A & B & C).
    destruct (unp_code (0 + List.length s) 256 o' (stream_bits (segs ++ [last ++ [257]]) ++ pad)) as [o2 E2]; [lia|lia|].
    change (256 =? 256) with true in E2. cbv iota in E2. rewrite E2.
    destruct (IH o2 pad Hr Hl) as [junk E3]. rewrite E3. exists junk.
    rewrite <- !app_assoc. reflexivity.
Qed.

Lemma lzw_eod_empty segs lastp lastc data pad predictor columns :
  Forall (fun s => segment_ok false (fst s) (snd s)) segs -> segment_ok false lastp lastc ->
  bits_of_bytes data = stream_bits (map snd segs ++ [lastc ++ [257]]) ++ pad ->
  lzw_decode data predictor columns = Ok [].
Proof.
  intros H Hl E. unfold lzw_decode, lzw_decompress. rewrite bytestobits_spec, E.
  unfold unp_init, lzw_init_codesize, lzw_minwidth.
  destruct (unp_stream_eod (map snd segs) lastc 0 pad) as [junk U].
  { apply Forall_map; eapply Forall_impl; [|exact H]; intros s Hs; eapply segment_codes_fit; exact Hs. }
  { eapply segment_codes_fit; eassumption. }
  rewrite U.
  assert (G : forall l, Forall (fun s => segment_ok false (fst s) (snd s)) l -> forall acc,
     lzw_decode_codes lzw_clear (flat_map (fun s => s ++ [256]) (map snd l) ++ lastc ++ 257 :: junk) acc = Err ValueErr).
  { assert (CL : lzw_clear = mkDec (table_for []) (last_opt [])) by (unfold lzw_clear, table_for; rewrite app_nil_r; reflexivity).
    induction 1 as [|[ph cs] l (Hlen & Hn & Hc) Hr IH]; intros acc.
    - destruct Hl as (Hlen & Hn & Hc). cbn [map flat_map app].
      destruct (decode_segment lastp [] lastc acc (257 :: junk) Hn Hlen) as [d' E'].
      { intros i c Hi. apply Hc. exact Hi. }
      rewrite CL, E'. reflexivity.
    - cbn [map flat_map fst snd] in *. rewrite <- !app_assoc.
      destruct (decode_segment ph [] cs acc ([256] ++ flat_map (fun s => s ++ [256]) (map snd l) ++ lastc ++ 257 :: junk) Hn Hlen) as [d' E'].
      { intros i c Hi. apply Hc. exact Hi. }
      rewrite CL, E'. cbn [app lzw_decode_codes]. unfold decode_codepoint.
      change (256 =? 256) with true. cbv iota. apply IH. }
  rewrite (G segs H). reflexivity.
Qed.

(** * Every input: LZW either returns bytes or raises TypeError. *)
Lemma lzw_codes_err cps : forall d acc e, lzw_decode_codes d cps acc = Err e -> e = ValueErr \/ e = TypeErr.
Proof.
  induction cps as [|c cps IH]; intros d acc e; cbn [lzw_decode_codes]; [congruence|].
  unfold decode_codepoint.
  destruct (c =? 256); [apply IH|]. destruct (c =? 257); [intros H; inversion H; auto|].
  destruct (nth_error (d_table d) (Z.to_nat c)); [apply IH|].
  destruct (d_prefix d); [apply IH|]. intros H; inversion H; auto.
Qed.

Lemma remove_predictors_err data p c e : remove_predictors data p c = Err e -> e = ValueErr \/ e = TypeErr.
Proof.
  unfold remove_predictors.
  destruct (_ =? 1); [congruence|]. destruct (_ =? 2); [intros H; inversion H; auto|].
  destruct (_ && _); [|intros H; inversion H; auto].
  destruct c; [|intros H; inversion H; auto].
  destruct (_ =? 0); [intros H; inversion H; auto|]. destruct (_ <? 0); congruence.
Qed.

Lemma lzw_decode_total data p c : (exists out, lzw_decode data p c = Ok out) \/ lzw_decode data p c = Err TypeErr.
Proof.
  unfold lzw_decode. destruct (lzw_decompress data) as [d|e] eqn:E; cbn [rbind].
  - destruct (remove_predictors d p c) as [v|e] eqn:E2; [eauto|].
    destruct (remove_predictors_err _ _ _ _ E2); subst; simpl; eauto.
  - unfold lzw_decompress in E. destruct (lzw_codes_err _ _ _ _ E); subst; simpl; eauto.
Qed.
