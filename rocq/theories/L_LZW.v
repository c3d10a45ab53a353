(** LZW streams with codes that refer to the entry they complete: what the decoder loses. *)
From Coq Require Import String.
From Verif Require Import Prelude M_Filters S_Filters L_Filters L_Filters2.
Local Open Scope Z_scope.

(** The self-referring codes of a segment: code number i is 258 + (i - 1). *)
Fixpoint self_refs (i : Z) (codes : list Z) : Z :=
  match codes with [] => 0 | c :: r => (if c =? 258 + (i - 1) then 1 else 0) + self_refs (i + 1) r end.
Lemma self_refs_nonneg codes : forall i, 0 <= self_refs i codes.
Proof. induction codes as [|c r IH]; intros i; cbn [self_refs]; [lia|]. specialize (IH (i + 1)). destruct (c =? 258 + (i - 1)); lia. Qed.

Definition shorter (a b : list Z) : Prop := zlen a <= zlen b.
Definition shorter_opt (a b : option (list Z)) : Prop :=
  match a, b with Some x, Some y => shorter x y | None, None => True | _, _ => False end.

Lemma entries_length l : forall p, List.length (entries p l) = List.length l.
Proof. induction l as [|x l IH]; intros p; cbn [entries List.length]; [reflexivity|]. now rewrite IH. Qed.
Lemma table_for_length done x : List.length (table_for (done ++ [x])) = (258 + List.length done)%nat.
Proof.
  unfold table_for. rewrite app_length, base_table_length. destruct done as [|p r]; [reflexivity|]. cbn [app].
  rewrite entries_length, app_length. cbn [List.length]. lia.
Qed.
Lemma last_opt_none done : last_opt done = None -> done = [].
Proof.
  destruct done as [|p r]; [auto|]. intros E. destruct (last_opt_cons r p) as (y & Ey). congruence.
Qed.
Lemma last_opt_nth done y : last_opt done = Some y -> nth_error done (List.length done - 1) = Some y.
Proof.
  induction done as [|p r IH]; [discriminate|]. intros E. destruct r as [|q r]; [exact E|].
  change (last_opt (p :: q :: r)) with (last_opt (q :: r)) in E. specialize (IH E). cbn [List.length] in *.
  replace (S (S (List.length r)) - 1)%nat with (S (S (List.length r) - 1)) by lia. exact IH.
Qed.
Lemma zlen_firstn1 (a : list Z) : zlen (firstn 1 a) <= 1.
Proof. destruct a as [|x a]; [cbn; lia|]. cbn [firstn]. rewrite zlen_cons, zlen_nil. lia. Qed.

Lemma lossy_segment todo : forall done codes T pre acc tail,
  Forall (fun p => p <> []) (done ++ todo) ->
  List.length codes = List.length todo ->
  (forall i c, nth_error codes i = Some c -> code_denotes true (done ++ todo) (List.length done + i) c) ->
  Forall2 shorter T (table_for done) -> (forall b, byte_ok b -> nth_error T (Z.to_nat b) = Some [b]) ->
  shorter_opt pre (last_opt done) ->
  exists d out, lzw_decode_codes (mkDec T pre) (codes ++ tail) acc = lzw_decode_codes d tail (acc ++ out) /\
    zlen out + self_refs (Z.of_nat (List.length done)) codes <= zlen (List.concat todo).
Proof.
  induction todo as [|p todo IH]; intros done codes T pre acc tail Hne Hl Hc HT HB Hpre.
  - destruct codes; [|discriminate]. eexists _, []. cbn [app List.concat self_refs]. rewrite app_nil_r. split; [reflexivity|]. cbn. lia.
  - destruct codes as [|c codes]; [discriminate|].
    pose proof (Hc 0%nat c eq_refl) as D. rewrite Nat.add_0_r in D.
    assert (Np : nth_error (done ++ p :: todo) (List.length done) = Some p).
    { rewrite nth_error_app2, Nat.sub_diag by lia. reflexivity. }
    assert (Hp : p <> []).
    { rewrite Forall_forall in Hne. apply Hne. apply in_or_app; right; left; reflexivity. }
    assert (HLT : List.length T = List.length (table_for done)) by (clear - HT; induction HT; cbn [List.length]; congruence).
    assert (G : forall (ret : list Z) k, shorter_opt (Some ret) (Some p) -> zlen ret + k <= zlen p -> 0 <= k ->
      k = (if c =? 258 + (Z.of_nat (List.length done) - 1) then 1 else 0) ->
      forall T', Forall2 shorter T' (table_for (done ++ [p])) -> (forall b, byte_ok b -> nth_error T' (Z.to_nat b) = Some [b]) ->
      decode_codepoint (mkDec T pre) c = Ok (mkDec T' (Some ret), ret) ->
      exists d out, lzw_decode_codes (mkDec T pre) ((c :: codes) ++ tail) acc = lzw_decode_codes d tail (acc ++ out) /\
        zlen out + self_refs (Z.of_nat (List.length done)) (c :: codes) <= zlen (List.concat (p :: todo))).
    { intros ret k Hr Hk Hk0 Ek T' HT' HB' E.
      destruct (IH (done ++ [p]) codes T' (Some ret) (acc ++ ret) tail) as (d & out & E1 & E2); auto.
      + rewrite <- app_assoc. exact Hne.
      + intros i c' Hi. rewrite <- app_assoc. cbn [app]. rewrite app_length. cbn [List.length].
        replace (List.length done + 1 + i)%nat with (List.length done + S i)%nat by lia. apply Hc. exact Hi.
      + rewrite last_opt_snoc. exact Hr.
      + exists d, (ret ++ out). cbn [app lzw_decode_codes]. rewrite E, E1, <- app_assoc. split; [reflexivity|].
        cbn [self_refs List.concat]. rewrite !zlen_app. rewrite app_length in E2. cbn [List.length] in E2.
        replace (Z.of_nat (List.length done + 1)) with (Z.of_nat (List.length done) + 1) in E2 by lia. rewrite <- Ek. lia. }
    (* the table after a code found in the table *)
    assert (HTn : forall ret, shorter ret p -> Forall2 shorter
        (match pre with Some q => T ++ [q ++ firstn 1 ret] | None => T end) (table_for (done ++ [p]))).
    { intros ret Hr. rewrite table_snoc. destruct pre as [q'|], (last_opt done) as [q|]; cbn [shorter_opt] in Hpre; try contradiction; [|exact HT].
      apply Forall2_app; [exact HT|]. constructor; [|constructor]. unfold shorter in *. rewrite !zlen_app.
      destruct p as [|x p]; [congruence|]. pose proof (zlen_firstn1 ret). change (firstn 1 (x :: p)) with [x]. rewrite (zlen_cons x []), zlen_nil. lia. }
    assert (HBn : forall x b, byte_ok b -> nth_error (match pre with Some q => T ++ [q ++ x] | None => T end) (Z.to_nat b) = Some [b]).
    { intros x b Hb. destruct pre as [q|]; [|auto]. rewrite nth_error_app1; [auto|]. apply nth_error_Some. rewrite HB by exact Hb. discriminate. }
    destruct D as [(b & Hb & -> & E)|(j & -> & Hj & E)].
    + rewrite Np in E. injection E as ->.
      apply (G [b] 0) with (T' := match pre with Some q => T ++ [q ++ firstn 1 [b]] | None => T end); [cbn; unfold shorter; lia|lia|lia| |apply (HTn [b]); unfold shorter; lia|intros b' Hb'; apply (HBn (firstn 1 [b]) b' Hb')|].
      * unfold byte_ok in Hb. destruct (Z.eqb_spec b (258 + (Z.of_nat (List.length done) - 1))); lia.
      * unfold decode_codepoint. unfold byte_ok in Hb. replace (b =? 256) with false by lia. replace (b =? 257) with false by lia.
        cbn [d_table d_prefix]. rewrite HB by (unfold byte_ok; lia). reflexivity.
    + rewrite Np in E. destruct (Nat.eq_dec (S j) (List.length done)) as [Es|Es].
      * (* self reference *)
        assert (last_opt done <> None) as Hd by (intros H0%last_opt_none; subst done; cbn in Es; lia).
        destruct (last_opt done) as [q|] eqn:Elo; [|congruence]. destruct pre as [q'|]; [|contradiction]. cbn [shorter_opt] in Hpre.
        unfold lzw_entry in E.
        assert (nth_error (done ++ p :: todo) j = Some q) as Ej.
        { rewrite nth_error_app1 by lia. apply last_opt_nth in Elo. replace (List.length done - 1)%nat with j in Elo by lia. exact Elo. }
        rewrite Ej in E. replace (S j) with (List.length done) in E. rewrite Np in E. destruct p as [|x p']; [congruence|].
        injection E as E.
        assert (zlen q + 1 = zlen (x :: p')) as Elen by (rewrite <- E, zlen_app, zlen_cons, zlen_nil; lia).
        assert (nth_error T (Z.to_nat (258 + Z.of_nat j)) = None) as En.
        { apply nth_error_None. rewrite HLT. destruct (exists_last (l:=done)) as (d0 & y & ->); [intros ->; cbn in Es; lia|].
          rewrite table_for_length. rewrite app_length in Es. cbn [List.length] in Es. lia. }
        apply (G q' 1) with (T' := T ++ [q']); [cbn [shorter_opt]; unfold shorter in *; lia|unfold shorter in *; lia|lia| | | |].
        -- destruct (Z.eqb_spec (258 + Z.of_nat j) (258 + (Z.of_nat (List.length done) - 1))); lia.
        -- rewrite table_snoc, Elo. apply Forall2_app; [exact HT|]. constructor; [|constructor]. unfold shorter in *. rewrite zlen_app. cbn [firstn].
           rewrite zlen_cons, zlen_nil. lia.
        -- intros b Hb. specialize (HBn [] b Hb). rewrite app_nil_r in HBn. exact HBn.
        -- unfold decode_codepoint. replace (258 + Z.of_nat j =? 256) with false by lia. replace (258 + Z.of_nat j =? 257) with false by lia.
           cbn [d_table d_prefix]. rewrite En. cbn [firstn]. rewrite app_nil_r. reflexivity.
      * assert (S j < List.length done)%nat as Hj' by (cbn in Hj; lia).
        assert (exists ret, nth_error T (Z.to_nat (258 + Z.of_nat j)) = Some ret /\ shorter ret p) as (ret & Er & Hr).
        { unfold lzw_entry in E. rewrite !nth_error_app1 in E by lia.
          destruct (nth_error done j) as [a|] eqn:Ea; [|discriminate].
          destruct (nth_error done (S j)) as [[|y b]|] eqn:Eb; try discriminate. injection E as E.
          assert (nth_error (table_for done) (Z.to_nat (258 + Z.of_nat j)) = Some p) as Ep.
          { unfold table_for. rewrite nth_error_app2 by (rewrite base_table_length; lia).
            rewrite base_table_length. replace (Z.to_nat (258 + Z.of_nat j) - 258)%nat with j by lia.
            destruct done as [|p0 r]; [cbn in Hj'; lia|]. rewrite (entries_nth r p0 j a (y :: b)) by assumption. cbn [firstn]. now rewrite E. }
          clear - HT Ep. revert Ep. generalize (Z.to_nat (258 + Z.of_nat j)). induction HT as [|x y l l' Hxy _ IH]; intros [|n] Ep; try discriminate.
          - injection Ep as <-. exists x. split; [reflexivity|exact Hxy].
          - apply (IH n Ep). }
        apply (G ret 0) with (T' := match pre with Some q => T ++ [q ++ firstn 1 ret] | None => T end); [exact Hr|unfold shorter in Hr; lia|lia| |apply (HTn ret Hr)|intros b Hb; apply (HBn (firstn 1 ret) b Hb)|].
        -- destruct (Z.eqb_spec (258 + Z.of_nat j) (258 + (Z.of_nat (List.length done) - 1))); lia.
        -- unfold decode_codepoint. replace (258 + Z.of_nat j =? 256) with false by lia. replace (258 + Z.of_nat j =? 257) with false by lia.
           cbn [d_table d_prefix]. rewrite Er. reflexivity.
Qed.

Lemma shorter_refl l : Forall2 shorter l l.
Proof. induction l; constructor; auto. unfold shorter. lia. Qed.
Lemma clear_table : lzw_clear = mkDec (table_for []) (last_opt []).
Proof. unfold lzw_clear, table_for. rewrite app_nil_r. reflexivity. Qed.
Lemma lossy_from_clear ph cs acc tail : segment_ok true ph cs ->
  exists d out, lzw_decode_codes lzw_clear (cs ++ tail) acc = lzw_decode_codes d tail (acc ++ out) /\
    zlen out + self_refs 0 cs <= zlen (List.concat ph).
Proof.
  intros (Hl & Hn & Hc). rewrite clear_table. apply (lossy_segment ph [] cs (table_for []) None acc tail); auto.
  - apply shorter_refl.
  - intros b Hb. unfold table_for. rewrite app_nil_r. apply base_table_byte. exact Hb.
  - exact I.
Qed.
Lemma defer_codes_fit phrases codes : segment_ok true phrases codes -> codes_fit 0 codes.
Proof.
  intros (Hl & Hn & Hc).
  assert (G : forall cs n, (forall i c, nth_error cs i = Some c -> code_denotes true phrases (n + i) c) -> codes_fit n cs).
  { induction cs as [|c cs IH]; intros n H; [exact I|]. split.
    - specialize (H 0%nat c eq_refl). rewrite Nat.add_0_r in H.
      destruct H as [(b & Hb & -> & E)|(j & -> & Hj & E)]; unfold code_fits, byte_ok in *; lia.
    - apply IH. intros i c' Hi. replace (S n + i)%nat with (n + S i)%nat by lia. apply H. exact Hi. }
  apply G. exact Hc.
Qed.
Definition all_refs (segs : list (list (list Z) * list Z)) : Z := fold_right (fun s a => self_refs 0 (snd s) + a) 0 segs.
Lemma lossy_segments segs : forall d acc, Forall (fun s => segment_ok true (fst s) (snd s)) segs ->
  exists out, lzw_decode_codes d (flat_map (fun x => 256 :: x) (map snd segs)) acc = Ok (acc ++ out) /\
    zlen out + all_refs segs <= zlen (flat_map (fun s => List.concat (fst s)) segs).
Proof.
  induction segs as [|[ph cs] segs IH]; intros d acc H.
  - exists []. cbn. rewrite app_nil_r. split; [reflexivity|lia].
  - inversion H as [|x l Hs Hr]; subst. cbn [fst snd] in Hs.
    cbn [map flat_map fst snd app lzw_decode_codes all_refs fold_right]. fold (all_refs segs). unfold decode_codepoint.
    change (256 =? 256) with true. cbv iota. rewrite app_nil_r.
    destruct (lossy_from_clear ph cs acc (flat_map (fun x => 256 :: x) (map snd segs)) Hs) as (d' & out & E & Hlen).
    rewrite E. destruct (IH d' (acc ++ out) Hr) as (out2 & E2 & Hlen2). rewrite E2. exists (out ++ out2). rewrite <- app_assoc.
    split; [reflexivity|]. rewrite !zlen_app. lia.
Qed.
Lemma lzw_lossy segs data pad :
  Forall (fun s => segment_ok true (fst s) (snd s)) segs ->
  bits_of_bytes data = stream_bits (map snd segs) ++ pad -> zlen pad < 8 ->
  exists out, lzw_decompress data = Ok out /\ zlen out + all_refs segs <= zlen (flat_map (fun s => List.concat (fst s)) segs).
Proof.
  intros H E Hp. unfold lzw_decompress. rewrite bytestobits_spec, E.
  unfold unp_init, lzw_init_codesize, lzw_minwidth. rewrite unp_stream; [|
    apply Forall_map; eapply Forall_impl; [|exact H]; intros s Hs; eapply defer_codes_fit; exact Hs|exact Hp].
  destruct segs as [|[ph cs] segs]; [exists []; split; [reflexivity|cbn; lia]|].
  cbn [map snd]. destruct (lossy_segments ((ph, cs) :: segs) lzw_clear [] H) as (out & D & Hl). exists out. split; [|exact Hl].
  cbn [map snd flat_map app lzw_decode_codes] in D. unfold decode_codepoint in D.
  change (256 =? 256) with true in D. cbv iota in D. exact D.
Qed.

(** Without self-referring codes the segment is exact. *)
Lemma self_refs_zero : forall codes n, self_refs (Z.of_nat n) codes = 0 -> forall i c, nth_error codes i = Some c -> c <> 258 + (Z.of_nat (n + i) - 1).
Proof.
  induction codes as [|x codes IH]; intros n H i c Hi; [destruct i; discriminate|]. cbn [self_refs] in H.
  pose proof (self_refs_nonneg codes (Z.of_nat n + 1)) as Hn. destruct i as [|i].
  - injection Hi as ->. rewrite Nat.add_0_r. intros ->. rewrite Z.eqb_refl in H. lia.
  - cbn [nth_error] in Hi. replace (n + S i)%nat with (S n + i)%nat by lia. apply (IH (S n)); [|exact Hi].
    replace (Z.of_nat (S n)) with (Z.of_nat n + 1) by lia. destruct (x =? _); lia.
Qed.
Lemma no_self_refs ph cs : segment_ok true ph cs -> self_refs 0 cs = 0 -> segment_ok false ph cs.
Proof.
  intros (Hl & Hn & Hc) H0. split; [exact Hl|]. split; [exact Hn|]. intros i c Hi. pose proof (self_refs_zero cs 0 H0 i c Hi) as Hne. cbn [Nat.add] in Hne.
  destruct (Hc i c Hi) as [Hb|(j & -> & Hj & E)]; [left; exact Hb|]. right. exists j. split; [reflexivity|]. split; [lia|exact E].
Qed.
Lemma self_refs_of_ok ph cs : segment_ok false ph cs -> self_refs 0 cs = 0.
Proof.
  intros (Hl & Hn & Hc).
  assert (G : forall l n, (forall i c, nth_error l i = Some c -> code_denotes false ph (n + i) c) -> self_refs (Z.of_nat n) l = 0).
  { induction l as [|c l IH]; intros n H; [reflexivity|]. cbn [self_refs].
    replace (Z.of_nat n + 1) with (Z.of_nat (S n)) by lia. rewrite IH.
    - pose proof (H 0%nat c eq_refl) as D. rewrite Nat.add_0_r in D. destruct (Z.eqb_spec c (258 + (Z.of_nat n - 1))) as [->|]; [|reflexivity].
      destruct D as [(b & Hb & E & _)|(j & E & Hj & _)]; [unfold byte_ok in Hb; lia|lia].
    - intros i c' Hi. replace (S n + i)%nat with (n + S i)%nat by lia. apply H. exact Hi. }
  apply (G cs 0%nat). exact Hc.
Qed.
Lemma all_refs_zero segs : Forall (fun s => segment_ok true (fst s) (snd s)) segs -> all_refs segs <= 0 ->
  Forall (fun s => segment_ok false (fst s) (snd s)) segs.
Proof.
  induction 1 as [|[ph cs] segs Hs Hr IH]; intros H; constructor; cbn [all_refs fold_right fst snd] in *; fold (all_refs segs) in *.
  - apply no_self_refs; [exact Hs|]. pose proof (self_refs_nonneg cs 0).
    assert (0 <= all_refs segs) by (clear; induction segs as [|s l IH]; cbn [all_refs fold_right]; [lia|]; fold (all_refs l); pose proof (self_refs_nonneg (snd s) 0); lia). lia.
  - apply IH. pose proof (self_refs_nonneg cs 0). lia.
Qed.

Lemma lzw_right_iff segs data pad :
  Forall (fun s => segment_ok true (fst s) (snd s)) segs ->
  bits_of_bytes data = stream_bits (map snd segs) ++ pad -> zlen pad < 8 ->
  exists out, lzw_decompress data = Ok out /\ zlen out <= zlen (flat_map (fun s => List.concat (fst s)) segs) /\
    (out = flat_map (fun s => List.concat (fst s)) segs <-> Forall (fun s => segment_ok false (fst s) (snd s)) segs).
Proof.
  intros H E Hp. destruct (lzw_lossy segs data pad H E Hp) as (out & E1 & Hl). exists out. split; [exact E1|].
  assert (0 <= all_refs segs) as Hn by (clear; induction segs as [|s l IH]; cbn [all_refs fold_right]; [lia|]; fold (all_refs l); pose proof (self_refs_nonneg (snd s) 0); lia).
  split; [lia|]. split.
  - intros ->. apply all_refs_zero; [exact H|]. lia.
  - intros Hf. rewrite (lzw_inverse segs data pad Hf E Hp) in E1. now injection E1 as <-.
Qed.

Lemma lzw_eod_empty_all segs lastp lastc data pad predictor columns :
  Forall (fun s => segment_ok true (fst s) (snd s)) segs -> segment_ok true lastp lastc ->
  bits_of_bytes data = stream_bits (map snd segs ++ [lastc ++ [257]]) ++ pad ->
  lzw_decode data predictor columns = Ok [].
Proof.
  intros H Hl E. unfold lzw_decode, lzw_decompress. rewrite bytestobits_spec, E.
  unfold unp_init, lzw_init_codesize, lzw_minwidth.
  destruct (unp_stream_eod (map snd segs) lastc 0 pad) as [junk U].
  { apply Forall_map; eapply Forall_impl; [|exact H]; intros s Hs; eapply defer_codes_fit; exact Hs. }
  { eapply defer_codes_fit; eassumption. }
  rewrite U.
  assert (G : forall l, Forall (fun s => segment_ok true (fst s) (snd s)) l -> forall acc,
     lzw_decode_codes lzw_clear (flat_map (fun s => s ++ [256]) (map snd l) ++ lastc ++ 257 :: junk) acc = Err ValueErr).
  { induction 1 as [|[ph cs] l Hs Hr IH]; intros acc.
    - cbn [map flat_map app]. destruct (lossy_from_clear lastp lastc acc (257 :: junk) Hl) as (d' & out & E' & _). rewrite E'. reflexivity.
    - cbn [map flat_map fst snd] in *. rewrite <- !app_assoc.
      destruct (lossy_from_clear ph cs acc ([256] ++ flat_map (fun s => s ++ [256]) (map snd l) ++ lastc ++ 257 :: junk) Hs) as (d' & out & E' & _).
      rewrite E'. cbn [app lzw_decode_codes]. unfold decode_codepoint.
      change (256 =? 256) with true. cbv iota. apply IH. }
  rewrite (G segs H). reflexivity.
Qed.
