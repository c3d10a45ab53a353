(** C49, C50: the Group 4 fax filter. *)
From Coq Require Import String.
From Verif Require Import Prelude M_Filters D_CCITT M_CCITT S_CCITT L_CCITT L_CCITT2 L_CCITT3.
Local Open Scope Z_scope.

(** *** Packing rows *)
Definition nz (x : Z) : bool := negb (x =? 0).
Lemma out_byte_bits l i : bits8 (out_byte l i) = map (fun k => nz (nth k l 0)) (seq (8 * i) 8) /\ byte_ok (out_byte l i).
Proof.
  unfold out_byte, nz, byte_ok. cbn [fold_left seq map nth].
  replace (8 * i + 0)%nat with (8 * i)%nat by lia. replace (8 * i + 1)%nat with (S (8 * i)) by lia.
  replace (8 * i + 2)%nat with (S (S (8 * i))) by lia. replace (8 * i + 3)%nat with (S (S (S (8 * i)))) by lia.
  replace (8 * i + 4)%nat with (S (S (S (S (8 * i))))) by lia. replace (8 * i + 5)%nat with (S (S (S (S (S (8 * i)))))) by lia.
  replace (8 * i + 6)%nat with (S (S (S (S (S (S (8 * i))))))) by lia. replace (8 * i + 7)%nat with (S (S (S (S (S (S (S (8 * i)))))))) by lia.
  repeat match goal with |- context [?x =? 0] => match x with nth _ _ _ => generalize (x =? 0); intros [|] end end; (split; [reflexivity|lia]).
Qed.
Lemma pack_bits l n : forall i, bits_of (map (out_byte l) (seq i n)) = map (fun k => nz (nth k l 0)) (seq (8 * i) (8 * n)).
Proof.
  induction n as [|n IH]; intros i; [replace (8 * 0)%nat with 0%nat by lia; reflexivity|].
  cbn [seq map]. unfold bits_of. cbn [flat_map]. fold (bits_of (map (out_byte l) (seq (S i) n))). rewrite IH, (proj1 (out_byte_bits l i)).
  rewrite <- map_app. f_equal. replace (8 * S n)%nat with (8 + 8 * n)%nat by lia. rewrite seq_app. f_equal. f_equal. lia.
Qed.
Lemma map_nth_seq {A} (d : A) l k : map (fun j => nth j l d) (seq 0 (List.length l + k)) = l ++ repeat d k.
Proof.
  induction l as [|x l IH]; cbn [List.length Nat.add app].
  - induction k as [|k IHk]; [reflexivity|]. rewrite seq_S, map_app, IHk. cbn [map Nat.add]. 
    replace (nth k [] d) with d by (destruct k; reflexivity). change (repeat d (S k)) with (d :: repeat d k). now rewrite repeat_cons.
  - cbn [seq map nth]. f_equal. rewrite <- seq_shift, map_map. exact IH.
Qed.

Lemma packed_row rev row : bits_of (output_line rev (map col row)) = row_bits rev row /\ bytes_ok (output_line rev (map col row)).
Proof.
  split.
  - unfold output_line, row_bits, row_pad. rewrite pack_bits. change (8 * 0)%nat with 0%nat.
    assert (zlen (map col row) = zlen row) as El by (unfold zlen; now rewrite map_length). rewrite El.
    set (l := out_bits rev (map col row)).
    assert (List.length l = List.length row) as Ll by (unfold l, out_bits; destruct rev; now rewrite ?map_length).
    replace (8 * Z.to_nat ((zlen row + 7) / 8))%nat with (List.length l + Z.to_nat ((- zlen row) mod 8))%nat.
    2:{ rewrite Ll. unfold zlen. set (n := List.length row). pose proof (Z.div_mod (Z.of_nat n + 7) 8). pose proof (Z.mod_pos_bound (Z.of_nat n + 7) 8).
        pose proof (Z.div_mod (- Z.of_nat n) 8). pose proof (Z.mod_pos_bound (- Z.of_nat n) 8). lia. }
    rewrite <- (map_map (fun k => nth k l 0) nz). rewrite map_nth_seq, map_app. f_equal.
    + unfold l, out_bits. destruct rev; rewrite ?map_map; apply map_ext; intros []; reflexivity.
    + generalize (Z.to_nat ((- zlen row) mod 8)). induction n; cbn; congruence.
  - unfold output_line. apply Forall_forall. intros x Hx. apply in_map_iff in Hx. destruct Hx as (i & <- & _). apply out_byte_bits.
Qed.
Lemma packed_rows rev rows : Packed rev rows (flat_map (fun r => output_line rev (map col r)) rows).
Proof.
  split.
  - apply Forall_forall. intros x Hx. apply in_flat_map in Hx. destruct Hx as (r & _ & Hx). pose proof (proj2 (packed_row rev r)) as HB.
    unfold bytes_ok in HB. rewrite Forall_forall in HB. auto.
  - unfold bits_of. induction rows as [|r rows IH]; [reflexivity|]. cbn [flat_map]. rewrite flat_map_app, IH. f_equal. apply packed_row.
Qed.
Lemma bitl_col l : bitl l -> exists row, l = map col row /\ zlen row = zlen l.
Proof.
  induction 1 as [|x l Hx _ (row & -> & E)]; [exists []; auto|].
  exists ((x =? 0) :: row). rewrite !zlen_cons, E. split; [|lia]. cbn [map]. f_equal. unfold col. destruct Hx as [-> | ->]; reflexivity.
Qed.
Lemma rows_packed width rev buf : rows_buf width rev buf -> exists rows, Forall (fun r => zlen r = width) rows /\ Packed rev rows buf.
Proof.
  intros (rows & HF & ->).
  assert (exists rs, rows = map (map col) rs /\ Forall (fun r => zlen r = width) rs) as (rs & -> & H).
  { induction HF as [|r rows (Hr & Hb) _ (rs & -> & IH)]; [exists []; split; constructor|].
    destruct (bitl_col r Hb) as (row & -> & E). exists (row :: rs). split; [reflexivity|]. constructor; [congruence|auto]. }
  exists rs. split; [exact H|]. replace (flat_map (output_line rev) (map (map col) rs)) with (flat_map (fun r => output_line rev (map col r)) rs); [apply packed_rows|].
  clear. induction rs; cbn; congruence.
Qed.

(** *** C49 *)
(** DecodeParms asking for Group 4 with [w] columns *)
Definition g4_params (p : fparams) (w : Z) (align black_is_1 : bool) : Prop :=
  exists d, p = PDict d /\ passoc (bs "K") d = Some (-1) /\ passoc (bs "Columns") d = Some w /\
    truthy_opt (passoc (bs "EncodedByteAlign") d) = align /\ truthy_opt (passoc (bs "BlackIs1") d) = black_is_1.
Lemma decode_g4 p w align rev data : g4_params p w align rev -> ccittfaxdecode data p = g4_decode w align rev data.
Proof. intros (d & -> & E1 & E2 & E3 & E4). unfold ccittfaxdecode. cbn [pget rbind]. rewrite E1, E2, E3, E4. reflexivity. Qed.

(** Any data: whole rows of the given width, or InvalidData. *)
Theorem C49_whole_rows : forall data p w align black_is_1, 1 <= w -> g4_params p w align black_is_1 ->
  ccittfaxdecode data p = Err InvalidData \/
  exists out rows, ccittfaxdecode data p = Ok out /\ Forall (fun row => zlen row = w) rows /\ Packed black_is_1 rows out /\
    zlen out = zlen rows * ((w + 7) / 8).
Proof.
  intros data p w align rev Hw Hp. rewrite (decode_g4 _ _ _ _ _ Hp). unfold g4_decode.
  pose proof (feedbytes_ok w align rev Hw data (init w) (inv_init w rev Hw)) as H.
  assert (forall buf, rows_buf w rev buf -> exists out rows, Ok buf = Ok out /\ Forall (fun row => zlen row = w) rows /\ Packed rev rows out /\
    zlen out = zlen rows * ((w + 7) / 8)) as HB.
  { intros buf Hb. destruct (rows_packed w rev buf Hb) as (rows & HF & HP). exists buf, rows. repeat split; auto; try apply HP.
    destruct HP as (_ & HP). apply (f_equal zlen) in HP.
    assert (zlen (bits_of buf) = 8 * zlen buf) as E1.
    { clear. induction buf as [|b buf IH]; [reflexivity|]. unfold bits_of in *. cbn [flat_map]. rewrite zlen_app, IH, zlen_cons. change (zlen (bits8 b)) with 8. lia. }
    assert (zlen (flat_map (row_bits rev) rows) = 8 * (zlen rows * ((w + 7) / 8))) as E2.
    { clear -HF Hw. induction HF as [|r rows Hr _ IH]; [reflexivity|]. cbn [flat_map]. rewrite zlen_app, IH, zlen_cons. unfold row_bits, row_pad.
      rewrite zlen_app, Hr. unfold zlen at 1 2. rewrite map_length, repeat_length. unfold zlen in Hr. rewrite Hr.
      pose proof (Z.div_mod (w + 7) 8). pose proof (Z.mod_pos_bound (w + 7) 8). pose proof (Z.div_mod (- w) 8). pose proof (Z.mod_pos_bound (- w) 8). lia. }
    lia. }
  destruct (feedbytes w align rev data (init w)) as [s|s|e]; cbn [fed_ok] in H.
  - right. apply HB. eapply inv_buf. exact H.
  - right. now apply HB.
  - left. now rewrite H.
Qed.

(** Other parameters *)
(** Truncated data gives the first rows; data after an error does not matter. *)
Lemma flush_grows w align rev s : exists e, g_buf (snd (flush_line w align rev s)) = g_buf s ++ e.
Proof.
  unfold flush_line. destruct (w <=? g_pos s); cbn [snd reset_line g_buf]; eexists; [reflexivity|symmetry; apply app_nil_r].
Qed.
Definition grows (b : list Z) (o : out) : Prop :=
  match o with GNext s _ | GSkip s | GEofb s => exists e, g_buf s = b ++ e | GFail _ => True end.
Lemma grows_flush w align rev s t : grows (g_buf s) (flush_to w align rev s t).
Proof.
  unfold flush_to. pose proof (flush_grows w align rev s) as H. destruct (flush_line w align rev s) as [[] s']; exact H.
Qed.
Lemma grows_unc w align rev bits : forall s t, grows (g_buf s) (do_uncompressed w align rev bits s t).
Proof.
  induction bits as [|c bits IH]; intros s t; cbn [do_uncompressed].
  - exists []. symmetry. apply app_nil_r.
  - destruct (aset (g_cur s) (g_pos s) (c - 48)) as [l|e]; [|exact I].
    match goal with |- context [flush_line w align rev ?x] => set (s1 := x); pose proof (flush_grows w align rev s1) as H; change (g_buf s) with (g_buf s1); clearbody s1 end.
    destruct (flush_line w align rev s1) as [[] s2]; cbn [snd] in H; [exact H|]. destruct H as (e & He).
    specialize (IH s2 t). destruct (do_uncompressed w align rev bits s2 t); cbn [grows] in *; auto; destruct IH as (e2 & ->); rewrite He, <- app_assoc; eauto.
Qed.
Lemma grows_same b s t : g_buf s = b -> grows b (GNext s t).
Proof. intros <-. exists []. symmetry. apply app_nil_r. Qed.
Lemma grows_bit w align rev s x : grows (g_buf s) (parse_bit w align rev s x).
Proof.
  assert (forall v, grows (g_buf s) (do_accept w align rev s v)) as Ha.
  { intros v. unfold do_accept. destruct (g_acc s).
    - destruct v as [[d|m]|]; cbn [parse_mode]; [| |exact I].
      + unfold do_vertical. destruct (find_b1 _ _ _ _) as [b|]; cbn [rbind]; [|exact I].
        match goal with |- context [rbind ?r _] => destruct r; cbn [rbind]; [|exact I] end.
        match goal with |- context [flush_to _ _ _ ?q _] => apply (grows_flush w align rev q) end.
      + destruct (eqlZ m (bs "p")).
        { unfold do_pass. destruct (find_b1 _ _ _ _) as [b|]; cbn [rbind]; [|exact I]. destruct (find_b2 _ _ _ _) as [b'|]; cbn [rbind]; [|exact I].
          match goal with |- context [rbind ?r _] => destruct r; cbn [rbind]; [|exact I] end.
          match goal with |- context [flush_to _ _ _ ?q _] => apply (grows_flush w align rev q) end. }
        destruct (eqlZ m (bs "h")); [apply grows_same; reflexivity|]. destruct (eqlZ m (bs "u")); [apply grows_same; reflexivity|].
        destruct (eqlZ m (bs "e")); [exists []; symmetry; apply app_nil_r|exact I].
    - destruct v as [[d|m]|]; cbn [parse_horiz1]; try exact I. destruct (d <? 64); apply grows_same; reflexivity.
    - destruct v as [[d|m]|]; cbn [parse_horiz2]; try exact I. destruct (d <? 64); [|apply grows_same; reflexivity].
      unfold do_horizontal. match goal with |- context [rbind ?r _] => destruct r as [[l1 x1]|]; cbn [rbind]; [|exact I] end.
      match goal with |- context [rbind ?r _] => destruct r as [[l2 x2]|]; cbn [rbind]; [|exact I] end.
      match goal with |- context [flush_to _ _ _ ?q _] => apply (grows_flush w align rev q) end.
    - destruct v as [[d|m]|]; cbn [parse_uncompressed]; [destruct (d =? 0); exact I| |exact I].
      destruct m as [|c m]; [exact I|].
      repeat match goal with |- context [match ?y with _ => _ end] => is_var y; destruct y; try exact I end;
        first [apply (grows_unc w align rev)|apply (grows_unc w align rev _ (with_color (with_acc s AMode) _))]. }
  unfold parse_bit. destruct (g_state s) as [|v|z o]; try exact I. destruct (if x then o else z); auto. apply grows_same. reflexivity.
Qed.
Definition fgrows (b : list Z) (o : fed) : Prop := match o with FGo s | FStop s => exists e, g_buf s = b ++ e | FErr _ => True end.
Lemma grows_bits w align rev c : forall s, fgrows (g_buf s) (feed_bits w align rev c s).
Proof.
  induction c as [|x c IH]; intros s; cbn [feed_bits]; [exists []; symmetry; apply app_nil_r|].
  pose proof (grows_bit w align rev s x) as H. destruct (parse_bit w align rev s x) as [s' t|s'|s'|e]; cbn [grows fgrows] in *; auto.
  destruct H as (e & H). specialize (IH (with_state s' t)). destruct (feed_bits w align rev c (with_state s' t)); cbn [fgrows] in *; auto;
    destruct IH as (e2 & ->); cbn [with_state g_buf]; rewrite H, <- app_assoc; eauto.
Qed.
Lemma grows_bytes w align rev data : forall s, fgrows (g_buf s) (feedbytes w align rev data s).
Proof.
  induction data as [|b data IH]; intros s; cbn [feedbytes]; [exists []; symmetry; apply app_nil_r|].
  pose proof (grows_bits w align rev (byte_bits b) s) as H. destruct (feed_bits w align rev (byte_bits b) s) as [s'|s'|e]; auto.
  destruct H as (e & H). specialize (IH s'). destruct (feedbytes w align rev data s'); cbn [fgrows] in *; auto;
    destruct IH as (e2 & ->); rewrite H, <- app_assoc; eauto.
Qed.
Lemma feed_app w align rev a : forall b s, feedbytes w align rev (a ++ b) s =
  match feedbytes w align rev a s with FGo s' => feedbytes w align rev b s' | o => o end.
Proof.
  induction a as [|x a IH]; intros b s; [reflexivity|]. cbn [app feedbytes]. destruct (feed_bits w align rev (byte_bits x) s); auto.
Qed.
Theorem C49_truncated : forall a b p w align black_is_1, 1 <= w -> g4_params p w align black_is_1 ->
  (forall out, ccittfaxdecode (a ++ b) p = Ok out -> exists out1 out2, ccittfaxdecode a p = Ok out1 /\ out = out1 ++ out2) /\
  (ccittfaxdecode a p = Err InvalidData -> ccittfaxdecode (a ++ b) p = Err InvalidData).
Proof.
  intros a b p w align rev Hw Hp. rewrite !(decode_g4 _ _ _ _ _ Hp). unfold g4_decode. rewrite feed_app.
  destruct (feedbytes w align rev a (init w)) as [s|s|e].
  - pose proof (grows_bytes w align rev b s) as H. split; [|discriminate].
    destruct (feedbytes w align rev b s) as [s'|s'|e]; cbn [fgrows] in H; intros out E; try discriminate; injection E as <-; destruct H as (x & ->); eauto.
  - split; [|discriminate]. intros out E. injection E as <-. exists (g_buf s), []. now rewrite app_nil_r.
  - split; [discriminate|auto].
Qed.

(** Without K, or with K other than -1 (also other negative values, which mean Group 4 too), the data comes back unchanged;
    without Columns (default 1728) decoding fails. *)
Theorem C49_parameters_refuted :
  (forall data d, passoc (bs "K") d <> Some (-1) -> ccittfaxdecode data (PDict d) = Ok data) /\
  (forall data, ccittfaxdecode data PNone = Ok data) /\
  (forall data d, passoc (bs "K") d = Some (-1) -> passoc (bs "Columns") d = None -> ccittfaxdecode data (PDict d) = Err TypeErr) /\
  (forall data, ccittfaxdecode data PArray = Err AttributeErr) /\
  (forall data d, In data [[128]; [3; 255]] -> passoc (bs "K") d = Some (-1) -> passoc (bs "Columns") d = Some 0 -> ccittfaxdecode data (PDict d) = Err IndexErr).
Proof.
  split; [|split; [|split; [|split]]].
  - intros data d H. unfold ccittfaxdecode. cbn [pget rbind]. destruct (passoc (bs "K") d) as [z|]; [|reflexivity].
    destruct (Z.eqb_spec z (-1)) as [->|Hz]; [congruence|]. destruct z as [|q|q]; try reflexivity. destruct q; try reflexivity. congruence.
  - reflexivity.
  - intros data d H1 H2. unfold ccittfaxdecode. cbn [pget rbind]. now rewrite H1, H2.
  - reflexivity.
  - intros data d Hd H1 H2. unfold ccittfaxdecode. cbn [pget rbind]. rewrite H1, H2.
    destruct Hd as [<-|[<-|[]]]; destruct (truthy_opt (passoc (bs "EncodedByteAlign") d)), (truthy_opt (passoc (bs "BlackIs1") d)); reflexivity.
Qed.

(** *** C50 *)
Lemma bits8_inj a b : byte_ok a -> byte_ok b -> bits8 a = bits8 b -> a = b.
Proof.
  unfold byte_ok. intros Ha Hb H. unfold bits8 in H. cbn [map] in H. injection H as H7 H6 H5 H4 H3 H2 H1 H0.
  apply Z.bits_inj'. intros n Hn. destruct (Z.lt_ge_cases n 8) as [Hl|Hl].
  - assert (n = 0 \/ n = 1 \/ n = 2 \/ n = 3 \/ n = 4 \/ n = 5 \/ n = 6 \/ n = 7) as Hc by (clear -Hn Hl; lia).
    destruct Hc as [->|[->|[->|[->|[->|[->|[->| ->]]]]]]]; assumption.
  - assert (forall c, 0 <= c < 256 -> Z.testbit c n = false) as Hz; [|rewrite (Hz a Ha), (Hz b Hb); reflexivity]. clear -Hl.
    intros c Hc. destruct (Z.eq_dec c 0) as [->|]; [apply Z.bits_0|]. apply Z.bits_above_log2; [lia|].
    assert (Z.log2 c < 8); [|lia]. apply Z.log2_lt_pow2; lia.
Qed.
Lemma bits_of_inj a : forall b, bytes_ok a -> bytes_ok b -> bits_of a = bits_of b -> a = b.
Proof.
  induction a as [|x a IH]; intros [|y b] Ha Hb H; try discriminate; [reflexivity|]. rewrite !bits_of_cons in H.
  inversion Ha as [|? ? Hx Ha']; subst. inversion Hb as [|? ? Hy Hb']; subst.
  pose proof (f_equal (firstn 8) H) as E1. change (bits8 x = bits8 y) in E1.
  pose proof (f_equal (skipn 8) H) as E2. change (bits_of a = bits_of b) in E2.
  f_equal; [now apply bits8_inj|now apply IH].
Qed.

Lemma t6_codeline ref cur a0 black c : T6Line ref cur a0 black c -> CodeLine ref cur a0 black c.
Proof.
  induction 1 as [|a0 black a1 b1 b2 c H1 H2 H3 H4 _ IH|a0 black a1 b1 b2 v c H1 H2 H3 H4 H5 _ IH|a0 black a1 a2 b1 b2 r1 r2 c H1 H2 H3 H4 H5 H6 H7 H8 _ IH].
  - constructor.
  - eapply CL_pass; eauto.
  - eapply CL_vertical; eauto.
  - eapply CL_horizontal; eauto.
Qed.
Lemma t6_coded align w rows data : T6Coded align w rows data -> Coded align w rows data.
Proof.
  intros (Hb & H). split; [exact Hb|]. induction H as [ref more|ref k Hk|ref row rows c pad more H1 H2 H3 _ IH]; try constructor; auto.
  now apply t6_codeline.
Qed.

Lemma zeros_run w align rev s ref buf k : start w s ref buf -> (k < 8)%nat -> exists s', runb w align rev (repeat false k) s = RGo s' /\ g_buf s' = buf.
Proof.
  intros [T1 T2 T3 T4 T5 T6 T7 T8] Hk.
  assert (exists t, inside MODE (repeat false k) = Some t) as (t & Ht) by (do 8 (destruct k as [|k]; [eexists; reflexivity|]); lia).
  exists (with_state s t). split; [|exact T8]. apply runb_inside; rewrite T7; [exact I|exact Ht].
Qed.
Lemma eofb_run w align rev s ref buf more : start w s ref buf -> exists s', runb w align rev (eofb ++ more) s = RStop s' /\ g_buf s' = buf.
Proof.
  intros [T1 T2 T3 T4 T5 T6 T7 T8]. destruct (runb_code w align rev eofb (CS (bs "e")) s) as (t & Ht); [rewrite T7; reflexivity|].
  rewrite Ht. unfold do_accept. cbn [g_acc with_state]. rewrite T6. cbn [parse_mode]. 
  replace (eqlZ (bs "e") (bs "p")) with false by reflexivity. replace (eqlZ (bs "e") (bs "h")) with false by reflexivity.
  replace (eqlZ (bs "e") (bs "u")) with false by reflexivity. replace (eqlZ (bs "e") (bs "e")) with true by reflexivity.
  exists (with_state s t). split; [reflexivity|exact T8].
Qed.
Lemma zlen_bits_of data : zlen (bits_of data) = 8 * zlen data.
Proof. induction data as [|b data IH]; [reflexivity|]. rewrite bits_of_cons, zlen_app, IH, zlen_cons. change (zlen (bits8 b)) with 8. lia. Qed.

Lemma rows_ok w align rev (Hw : 1 <= w) ref rows c : CodeRows CodeLine align w ref rows c ->
  forall data s buf, c = bits_of data -> start w s ref buf ->
  exists s', (feedbytes w align rev data s = FGo s' \/ feedbytes w align rev data s = FStop s') /\
    g_buf s' = buf ++ flat_map (fun r => output_line rev (map col r)) rows.
Proof.
  assert (forall (row : list bool) rows, flat_map (fun r => output_line rev (map col r)) (row :: rows) = output_line rev (map col row) ++ flat_map (fun r => output_line rev (map col r)) rows) as Hfm by reflexivity.
  destruct align.
  - induction 1 as [ref more|ref k Hk|ref row rows c pad more H1 H2 H3 HR IH]; intros data s buf E HS.
    + destruct (eofb_run w true rev s ref buf more HS) as (s' & R & B). rewrite E in R. exists s'. split; [right; now apply feed_stop|].
      cbn [flat_map]. now rewrite app_nil_r.
    + destruct (zeros_run w true rev s ref buf k HS Hk) as (s' & R & B). rewrite E in R. exists s'. split; [left; now apply feed_go|].
      cbn [flat_map]. now rewrite app_nil_r.
    + destruct H3 as (Hpad & Hmod). destruct (row_ok w true rev Hw ref row c s buf H1 H2 HS) as (s1 & R & ST).
      specialize (R (pad ++ more)). rewrite E in R. unfold row_done in R. apply feed_skip in R. destruct R as (x & data2 & Er & Hx & ->).
      assert (zlen x = zlen pad) as El.
      { apply (f_equal zlen) in E. rewrite zlen_bits_of in E. pose proof (f_equal zlen Er) as Er'. rewrite !zlen_app in *. rewrite zlen_bits_of in Er'.
        pose proof (Z.div_mod (zlen c + zlen pad) 8). pose proof (zlen_nonneg x). pose proof (zlen_nonneg pad). lia. }
      assert (pad = x /\ more = bits_of data2) as (<- & Em).
      { clear -Er El. revert x Er El. induction pad as [|p pad IHp]; intros [|y x] Er El; rewrite ?zlen_cons, ?zlen_nil in El;
          try (pose proof (zlen_nonneg pad); lia); try (pose proof (zlen_nonneg x); lia); [auto|].
        cbn [app] in Er. injection Er as -> Er. destruct (IHp x Er) as (-> & ->); [lia|auto]. }
      destruct (IH data2 s1 _ Em ST) as (s' & F & B). exists s'. split; [exact F|]. rewrite Hfm, app_assoc. exact B.
  - intros HR data s buf E HS.
    assert (forall s buf, start w s ref buf -> exists s', (runb w false rev c s = RGo s' \/ runb w false rev c s = RStop s') /\
      g_buf s' = buf ++ flat_map (fun r => output_line rev (map col r)) rows) as HB.
    { clear -HR Hfm Hw. induction HR as [ref more|ref k Hk|ref row rows c pad more H1 H2 H3 HR IH]; intros s buf HS.
      - destruct (eofb_run w false rev s ref buf more HS) as (s' & R & B). exists s'. split; [auto|]. cbn [flat_map]. now rewrite app_nil_r.
      - destruct (zeros_run w false rev s ref buf k HS Hk) as (s' & R & B). exists s'. split; [auto|]. cbn [flat_map]. now rewrite app_nil_r.
      - subst pad. destruct (row_ok w false rev Hw ref row c s buf H1 H2 HS) as (s1 & R & ST). 
        destruct (IH s1 _ ST) as (s' & F & B). exists s'. split; [|rewrite Hfm, app_assoc; exact B].
        cbn [app]. rewrite R. exact F. }
    destruct (HB s buf HS) as (s' & F & B). exists s'. split; [|exact B]. rewrite E in F.
    destruct F as [F|F]; [left; now apply feed_go|right; now apply feed_stop].
Qed.

(** Decoding a Group 4 picture gives its rows. *)
Theorem C50_decodes : forall p w align black_is_1 rows data, 1 <= w -> g4_params p w align black_is_1 -> Coded align w rows data ->
  exists out, ccittfaxdecode data p = Ok out /\ Packed black_is_1 rows out /\ (forall out', Packed black_is_1 rows out' -> out' = out).
Proof.
  intros p w align rev rows data Hw Hp (Hb & HC). rewrite (decode_g4 _ _ _ _ _ Hp). unfold g4_decode.
  assert (start w (init w) (white_line w) []) as HS.
  { destruct (blank_ok w Hw) as (B & _). constructor; cbn; auto.
    - unfold blank, white_line. now rewrite map_repeat.
    - unfold zlen, white_line. rewrite repeat_length. lia. }
  destruct (rows_ok w align rev Hw _ _ _ HC data (init w) [] eq_refl HS) as (s' & F & B). cbn [app] in B.
  exists (g_buf s'). split; [destruct F as [-> | ->]; reflexivity|]. rewrite B. split; [apply packed_rows|].
  intros out' (O1 & O2). destruct (packed_rows rev rows) as (P1 & P2). apply bits_of_inj; auto. congruence.
Qed.

(** *** Every picture has a T.6 code *)
Lemma next_exists l (okb : Z -> bool) (ok : Z -> Prop) : (forall x, okb x = true <-> ok x) -> forall a, -1 <= a < zlen l ->
  exists x, NextChange l ok a x.
Proof.
  intros Hok a Ha. remember (Z.to_nat (zlen l - a)) as n eqn:En. revert a Ha En. induction n as [|n IH]; intros a Ha En; [lia|].
  destruct (Z.eq_dec (a + 1) (zlen l)) as [E|Hn].
  - exists (zlen l). split; [lia|]. split; [lia|]. intros y Hy. lia.
  - assert ((changing l (a + 1) /\ ok (a + 1)) \/ ~ (changing l (a + 1) /\ ok (a + 1))) as [Hy|Hnot].
    { specialize (Hok (a + 1)). unfold changing. destruct (pix l (a + 1)), (pix l (a + 1 - 1)), (okb (a + 1));
        try (left; split; [discriminate|now apply Hok]); right; intros (Hc & Hk); try congruence; apply Hok in Hk; discriminate. }
    + exists (a + 1). split; [lia|]. split; [auto|]. intros y Hy'. lia.
    + destruct (IH (a + 1)) as (x & H1 & H2 & H3); try lia. exists x. split; [lia|]. split; [auto|].
      intros y Hy. destruct (Z.eq_dec y (a + 1)) as [->|]; [exact Hnot|]. apply H3. lia.
Qed.
Lemma a1_exists l a : -1 <= a < zlen l -> exists x, NextChange l always a x.
Proof. apply (next_exists l (fun _ => true)). intros x. split; [intros _; exact I|auto]. Qed.
Lemma after_exists l x : 0 <= x <= zlen l -> exists y, After l x y.
Proof.
  intros H. destruct (Z.eq_dec x (zlen l)) as [E|Hn]; [exists x; left; auto|]. destruct (a1_exists l x) as (y & Hy); [lia|]. exists y. right. exact Hy.
Qed.
Lemma run_exists black n : 0 <= n -> exists c, RunCode black n c.
Proof.
  intros Hn. remember (Z.to_nat (n / 64)) as k eqn:Ek. revert n Hn Ek. induction k as [|k IH]; intros n Hn Ek.
  - pose proof (Z.div_mod n 64). pose proof (Z.mod_pos_bound n 64). assert (0 <= n / 64) by (apply Z.div_pos; lia).
    destruct (nth_error (term_codes black) (Z.to_nat n)) as [s|] eqn:E.
    + exists (bits s). replace n with (Z.of_nat (Z.to_nat n)) by lia. now constructor.
    + apply nth_error_None in E. assert (List.length (term_codes black) = 64%nat) by (destruct black; reflexivity). lia.
  - destruct (IH (n - 64)) as (c & Hc).
    + pose proof (Z.div_mod n 64). pose proof (Z.mod_pos_bound n 64). lia.
    + replace (n - 64) with (n + (-1) * 64) by lia. rewrite Z.div_add by lia. lia.
    + destruct (nth_error (makeup_codes black) 0) as [s|] eqn:E; [|destruct black; discriminate E].
      exists (bits s ++ c). replace n with (64 * (Z.of_nat 0 + 1) + (n - 64)) by lia. now apply RC_makeup.
Qed.
Lemma t6_exists ref cur : zlen ref = zlen cur -> forall n a0 black, -1 <= a0 <= zlen cur -> zlen cur - a0 <= Z.of_nat n -> exists c, T6Line ref cur a0 black c.
Proof.
  intros Hl. induction n as [|n IH]; intros a0 black Ha Hn.
  - replace a0 with (zlen cur) by lia. exists []. constructor.
  - destruct (Z.eq_dec a0 (zlen cur)) as [->|Hne]; [exists []; constructor|].
    destruct (a1_exists cur a0) as (a1 & H1); [lia|].
    destruct (next_exists ref (fun x => Bool.eqb (pix ref x) (negb black)) (fun x => pix ref x = negb black)) with (a := a0) as (b1 & HB).
    { intros x. apply eqb_true_iff. }
    { lia. }
    destruct (after_exists ref b1) as (b2 & HA); [destruct HB; lia|].
    assert (b1 <= b2 <= zlen ref) as Hb12 by (destruct HB as (HB & _), HA as [(? & ->)|(HA & _)]; lia).
    destruct (Z_lt_le_dec b2 a1) as [Hp|Hp].
    + destruct (IH b2 black) as (c & Hc); [destruct HB; lia|destruct HB; lia|]. exists (bits "0001" ++ c). eapply T6_pass; eauto.
    + destruct (vertical_code (a1 - b1)) as [v|] eqn:Ev.
      * destruct (IH a1 (negb black)) as (c & Hc); [destruct H1; lia|destruct H1; lia|]. exists (v ++ c). eapply T6_vertical; eauto.
      * destruct (after_exists cur a1) as (a2 & HA2); [destruct H1; lia|].
        assert (a1 <= a2 <= zlen cur) as H12 by (destruct H1 as (H1 & _), HA2 as [(? & ->)|(HA2 & _)]; lia).
        destruct (run_exists black (a1 - Z.max 0 a0)) as (r1 & R1); [destruct H1; lia|].
        destruct (run_exists (negb black) (a2 - a1)) as (r2 & R2); [lia|].
        destruct (IH a2 black) as (c & Hc); [destruct H1; lia|destruct H1; lia|]. exists (bits "001" ++ r1 ++ r2 ++ c).
        eapply T6_horizontal; eauto.
        destruct (Z_lt_le_dec 3 (Z.abs (a1 - b1))) as [|Hle]; [assumption|exfalso].
        assert (a1 - b1 = 0 \/ a1 - b1 = 1 \/ a1 - b1 = 2 \/ a1 - b1 = 3 \/ a1 - b1 = -1 \/ a1 - b1 = -2 \/ a1 - b1 = -3) as Hd by lia.
        destruct Hd as [E|[E|[E|[E|[E|[E|E]]]]]]; rewrite E in Ev; discriminate Ev.
Qed.
Lemma pad_mod k : (k + (- k) mod 8) mod 8 = 0.
Proof. rewrite Zplus_mod_idemp_r. replace (k + - k) with 0 by lia. reflexivity. Qed.
Lemma coderows_exist align w rows : 1 <= w -> Forall (fun r => zlen r = w) rows -> forall ref k, zlen ref = w -> (align = true -> k mod 8 = 0) ->
  exists c, CodeRows T6Line align w ref rows c /\ (k + zlen c) mod 8 = 0.
Proof.
  intros Hw H. induction H as [|row rows Hr _ IH]; intros ref k Hl Hk.
  - exists (eofb ++ repeat false (Z.to_nat ((- (k + 24)) mod 8))). split; [constructor|]. rewrite zlen_app. change (zlen eofb) with 24.
    unfold zlen. rewrite repeat_length. pose proof (Z.mod_pos_bound (- (k + 24)) 8). rewrite Z2Nat.id by lia. rewrite Z.add_assoc. apply pad_mod.
  - destruct (t6_exists ref row ltac:(congruence) (Z.to_nat (w + 1)) (-1) false) as (c & Hc); [lia|lia|].
    destruct align.
    + set (pad := repeat false (Z.to_nat ((- zlen c) mod 8))). pose proof (Z.mod_pos_bound (- zlen c) 8) as Hm.
      assert (zlen pad = (- zlen c) mod 8) as Ep by (unfold pad, zlen at 1; rewrite repeat_length; lia).
      assert (zlen (c ++ pad) mod 8 = 0) as Ecp by (rewrite zlen_app, Ep; apply pad_mod).
      destruct (IH row (k + zlen (c ++ pad)) Hr) as (c2 & H2 & H3).
      { intros _. rewrite Z.add_mod, Hk, Ecp by (auto; lia). reflexivity. }
      exists (c ++ pad ++ c2). split; [apply CR_row; auto; split; [lia|exact Ecp]|].
      rewrite app_assoc, zlen_app. rewrite Z.add_assoc. exact H3.
    + destruct (IH row (k + zlen c) Hr) as (c2 & H2 & H3); [discriminate|].
      exists (c ++ [] ++ c2). split; [apply CR_row; auto|]. cbn [app]. rewrite zlen_app, Z.add_assoc. exact H3.
Qed.
Lemma bytes_exist c : zlen c mod 8 = 0 -> exists data, bytes_ok data /\ bits_of data = c.
Proof.
  intros H. exists (output_line true (map col c)). destruct (packed_row true c) as (H1 & H2). split; [exact H2|].
  rewrite H1. unfold row_bits, row_pad. rewrite Z.mod_opp_l_z by lia. cbn [Z.to_nat repeat]. rewrite app_nil_r. apply map_id.
Qed.

(** Every picture: its T.6 code exists and is decoded to it. *)
Theorem C50_every_picture : forall p w align black_is_1 rows, 1 <= w -> g4_params p w align black_is_1 -> Forall (fun row => zlen row = w) rows ->
  exists data out, T6Coded align w rows data /\ ccittfaxdecode data p = Ok out /\ Packed black_is_1 rows out.
Proof.
  intros p w align rev rows Hw Hp HF.
  destruct (coderows_exist align w rows Hw HF (white_line w) 0) as (c & HC & Hm).
  { unfold zlen, white_line. rewrite repeat_length. lia. }
  { reflexivity. }
  destruct (bytes_exist c Hm) as (data & Hd & E). rewrite <- E in HC.
  assert (T6Coded align w rows data) as HT by (split; auto).
  destruct (C50_decodes p w align rev rows data Hw Hp (t6_coded _ _ _ _ HT)) as (out & H1 & H2 & _). exists data, out. auto.
Qed.

(** *** Examples *)
Definition ex_params : fparams := PDict [(bs "K", -1); (bs "Columns", 6); (bs "BlackIs1", 1)].
Example C49_ex_params : g4_params ex_params 6 false true.
Proof. eexists. repeat split. Qed.
(** Two rows of six pixels: ..##.. and .###.. : horizontal 2 white 2 black, V0; VL1, V0, V0; EOFB. *)
Example C50_ex : ccittfaxdecode [47; 214; 0; 32; 2] ex_params = Ok [48; 112].
Proof. vm_compute. reflexivity. Qed.
Example C50_ex_rows : Packed true [[false; false; true; true; false; false]; [false; true; true; true; false; false]] [48; 112] /\
  exists data, T6Coded false 6 [[false; false; true; true; false; false]; [false; true; true; true; false; false]] data.
Proof.
  split; [split; [repeat constructor; unfold byte_ok; lia|reflexivity]|].
  destruct (C50_every_picture ex_params 6 false true [[false; false; true; true; false; false]; [false; true; true; true; false; false]]) as (d & _ & H & _);
    [lia|apply C49_ex_params|repeat constructor|eauto].
Qed.
Example C49_ex_invalid : ccittfaxdecode [2; 0] ex_params = Err InvalidData.
Proof. vm_compute. reflexivity. Qed.
Print Assumptions C49_whole_rows.
Print Assumptions C49_truncated.
Print Assumptions C49_parameters_refuted.
Print Assumptions C50_decodes.
Print Assumptions C50_every_picture.
