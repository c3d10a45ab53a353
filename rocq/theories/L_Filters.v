(** Proofs about the filter models. *)
From Verif Require Import Prelude M_Filters S_Filters.
From Coq Require Import String.
Local Open Scope Z_scope.
Ltac Zify.zify_post_hook ::= Z.div_mod_to_equations.

(** * ASCIIHex *)

Lemma hexval_not_ws h v : hexval h = Some v -> is_ws h = false /\ (h =? 62) = false /\ py_isspace h = false.
Proof.
  unfold hexval, is_ws, whitespaces, py_isspace. cbn [memZ].
  destruct ((48 <=? h) && (h <=? 57)) eqn:E1; [intros _; lia|].
  destruct ((65 <=? h) && (h <=? 70)) eqn:E2; [intros _; lia|].
  destruct ((97 <=? h) && (h <=? 102)) eqn:E3; [intros _; lia|congruence].
Qed.

Lemma ahx_interleaved t k : Interleaved t k -> forall tail buf acc,
  ahx_loop (t ++ tail) buf acc = ahx_loop (k ++ tail) buf acc.
Proof.
  induction 1 as [|c t k Hc H IH|c t k H IH]; intros tail buf acc; cbn [app ahx_loop].
  - reflexivity.
  - rewrite Hc. apply IH.
  - destruct (is_ws c); [apply IH|].
    destruct (c =? 62); [reflexivity|].
    destruct (1 <? zlen (buf ++ [c])); [|apply IH].
    destruct (fromhex (buf ++ [c])); [apply IH|reflexivity].
Qed.

Lemma ahx_digits data ds : HexDigits data ds -> forall tail acc,
  (tail = [] \/ exists j, tail = 62 :: j) ->
  ahx_loop (ds ++ tail) [] acc = (acc ++ data, None).
Proof.
  induction 1 as [|h v Hv|h l v w data ds Hv Hw H IH]; intros tail acc Ht.
  - cbn [app]. rewrite app_nil_r.
    destruct Ht as [->|[j ->]]; reflexivity.
  - destruct (hexval_not_ws _ _ Hv) as (A & B & C).
    cbn [app ahx_loop]. rewrite A, B. cbn [app]. change (1 <? zlen [h]) with false. cbv iota.
    assert (F : ahx_final [h] acc = (acc ++ [16 * v], None)).
    { unfold ahx_final. change (zlen [h] =? 1) with true. cbv iota. cbn [app fromhex].
      rewrite C, Hv. change (hexval 48) with (Some 0). cbv iota beta. rewrite Z.add_0_r. reflexivity. }
    destruct Ht as [->|[j ->]]; cbn [ahx_loop]; exact F.
  - destruct (hexval_not_ws _ _ Hv) as (A & B & C).
    destruct (hexval_not_ws _ _ Hw) as (A' & B' & C').
    cbn [app ahx_loop]. rewrite A, B. cbn [app]. change (1 <? zlen [h]) with false. cbv iota.
    rewrite A', B'. change (1 <? zlen [h; l]) with true. cbv iota.
    cbn [fromhex]. rewrite C, Hv, Hw.
    rewrite IH by assumption. rewrite <- app_assoc. reflexivity.
Qed.

Lemma asciihex_inverse data ds text tail :
  HexDigits data ds -> Interleaved text ds ->
  (tail = [] \/ exists j, tail = 62 :: j) ->
  asciihex_decode (text ++ tail) = Ok data.
Proof.
  intros H I T. unfold asciihex_decode.
  rewrite (ahx_interleaved _ _ I), (ahx_digits _ _ H _ _ T). reflexivity.
Qed.

Lemma fromhex_err n : forall s e, (List.length s <= n)%nat -> fromhex s = Err e -> e = ValueErr.
Proof.
  induction n as [|n IH]; intros s e Hn.
  - destruct s; simpl in *; [congruence|lia].
  - destruct s as [|a r]; simpl in *; [congruence|].
    destruct (py_isspace a). { apply IH; lia. }
    destruct (hexval a); [|congruence].
    destruct r as [|b r']; [congruence|]. simpl in Hn.
    destruct (hexval b); [|congruence].
    destruct (fromhex r') eqn:E; [congruence|]. intros H; inversion H; subst.
    apply (IH r'); [lia|assumption].
Qed.

Lemma ahx_final_err buf acc r e : ahx_final buf acc = (r, Some e) -> e = ValueErr.
Proof.
  unfold ahx_final. destruct buf as [|a b]; [congruence|].
  destruct (fromhex _) eqn:E; [congruence|]. intros H; inversion H; subst.
  eapply fromhex_err; [|exact E]. apply le_n.
Qed.

Lemma ahx_loop_err data : forall buf acc r e, ahx_loop data buf acc = (r, Some e) -> e = ValueErr.
Proof.
  induction data as [|c t IH]; intros buf acc r e; cbn [ahx_loop].
  - apply ahx_final_err.
  - destruct (is_ws c); [apply IH|].
    destruct (c =? 62); [apply ahx_final_err|].
    destruct (1 <? zlen (buf ++ [c])); [|apply IH].
    destruct (fromhex (buf ++ [c])) eqn:E; [apply IH|].
    intros H; inversion H; subst. eapply fromhex_err; [|exact E]. apply le_n.
Qed.

Lemma asciihex_total data : exists out, asciihex_decode data = Ok out.
Proof.
  unfold asciihex_decode. destruct (ahx_loop data [] []) as [acc [e|]] eqn:E; [|eauto].
  rewrite (ahx_loop_err _ _ _ _ _ E). simpl. eauto.
Qed.

(** * Ascii85 *)

Lemma filter_interleaved t k : Interleaved t k ->
  filter (fun n => negb (is_ws n)) t = filter (fun n => negb (is_ws n)) k.
Proof.
  induction 1 as [|c t k Hc H IH|c t k H IH]; cbn [filter]; [reflexivity| |].
  - rewrite Hc. exact IH.
  - destruct (is_ws c); simpl; congruence.
Qed.

Lemma digits85_range w : 0 <= w < 4294967296 -> Forall (fun x => 33 <= x <= 117) (digits85 w).
Proof. intros H. unfold digits85. repeat constructor; lia. Qed.

Lemma a85_acc_digits w : 0 <= w < 4294967296 -> a85_acc (digits85 w) = w.
Proof. intros H. unfold a85_acc, digits85. cbn [fold_left]. lia. Qed.

Lemma a85_step x r curr decoded : 33 <= x <= 117 ->
  a85_loop (x :: r) curr decoded =
  (let curr' := curr ++ [x] in
   if zlen curr' =? 5 then
     match packI (a85_acc curr') with Ok w => a85_loop r [] (decoded ++ w) | Err e => Err e end
   else a85_loop r curr' decoded).
Proof. intros H. cbn [a85_loop]. replace ((33 <=? x) && (x <=? 117)) with true by lia. reflexivity. Qed.

Lemma a85_five a b c d e r decoded :
  Forall (fun x => 33 <= x <= 117) [a; b; c; d; e] ->
  a85_loop (a :: b :: c :: d :: e :: r) [] decoded =
  match packI (a85_acc [a; b; c; d; e]) with Ok w => a85_loop r [] (decoded ++ w) | Err e => Err e end.
Proof.
  intros H.
  repeat match goal with H : Forall _ (_ :: _) |- _ => inversion H; clear H; subst end.
  repeat (rewrite a85_step by assumption; cbn [app]; cbv zeta;
          match goal with |- context [zlen ?l =? 5] => change (zlen l =? 5) with false end; cbv iota).
  rewrite a85_step by assumption. reflexivity.
Qed.

Lemma packI_word a b c d : byte_ok a -> byte_ok b -> byte_ok c -> byte_ok d ->
  packI (word32 a b c d) = Ok [a; b; c; d].
Proof.
  unfold byte_ok, packI, word32. intros.
  replace (_ && _) with true by lia.
  repeat f_equal; lia.
Qed.

Lemma word32_range a b c d : byte_ok a -> byte_ok b -> byte_ok c -> byte_ok d ->
  0 <= word32 a b c d < 4294967296.
Proof. unfold byte_ok, word32. lia. Qed.

(** Final group of [n+1] digits padded with "u". *)
Lemma a85_tail_gen (k : nat) w decoded rest :
  Forall (fun x => 33 <= x <= 117) rest ->
  (k <= 3)%nat -> List.length rest = S k ->
  0 <= a85_acc (rest ++ repeat 117 (4 - k)) <= 4294967295 ->
  w = a85_acc (rest ++ repeat 117 (4 - k)) ->
  a85_loop (rest ++ [117; 117; 117; 117]) [] decoded =
  Ok (decoded ++ [w / 16777216; (w / 65536) mod 256; (w / 256) mod 256; w mod 256],
      repeat 117 k).
Proof.
  intros F Hk Hl Hr ->.
  assert (F5 : Forall (fun x => 33 <= x <= 117) (rest ++ repeat 117 (4 - k))).
  { apply Forall_app; split; [assumption|]. apply Forall_forall. intros x Hx.
    apply repeat_spec in Hx. lia. }
  destruct k as [|[|[|[|k]]]]; [| | | |lia];
    destruct rest as [|a [|b [|c [|d [|e rest]]]]]; simpl in Hl; try lia;
    cbn [app repeat Nat.sub] in *;
    rewrite a85_five by assumption; unfold packI;
    match goal with |- context [?a && ?b] => replace (a && b) with true by lia end; cbv iota;
    cbn [a85_loop app];
    repeat match goal with |- context [(33 <=? 117) && (117 <=? 117)] => change ((33 <=? 117) && (117 <=? 117)) with true end;
    repeat match goal with |- context [zlen ?l =? 5] => let v := eval vm_compute in (zlen l =? 5) in change (zlen l =? 5) with v end; cbv iota;
    reflexivity.
Qed.

Lemma Forall_firstn' {A} (P : A -> Prop) n l : Forall P l -> Forall P (firstn n l).
Proof. intros Hl. rewrite <- (firstn_skipn n l) in Hl. apply Forall_app in Hl. tauto. Qed.

Lemma a85_acc2 w : 0 <= w < 4294967296 -> exists q, q * 614125 <= w < (q + 1) * 614125 /\
  a85_acc (firstn 2 (digits85 w) ++ [117; 117; 117]) = q * 614125 + 614124.
Proof.
  intros H. exists (w / 614125). split; [lia|].
  unfold a85_acc, digits85. cbn [firstn app fold_left].
  assert (E : w / 52200625 = w / 614125 / 85) by (rewrite Z.div_div by lia; reflexivity).
  rewrite E. generalize (w / 614125). intros q. lia.
Qed.
Lemma a85_acc3 w : 0 <= w < 4294967296 -> exists q, q * 7225 <= w < (q + 1) * 7225 /\
  a85_acc (firstn 3 (digits85 w) ++ [117; 117]) = q * 7225 + 7224.
Proof.
  intros H. exists (w / 7225). split; [lia|].
  unfold a85_acc, digits85. cbn [firstn app fold_left].
  assert (E : w / 614125 = w / 7225 / 85) by (rewrite Z.div_div by lia; reflexivity).
  assert (E2 : w / 52200625 = w / 7225 / 85 / 85) by (rewrite !Z.div_div by lia; reflexivity).
  rewrite E, E2. generalize (w / 7225). intros q. lia.
Qed.
Lemma a85_acc4 w : 0 <= w < 4294967296 -> exists q, q * 85 <= w < (q + 1) * 85 /\
  a85_acc (firstn 4 (digits85 w) ++ [117]) = q * 85 + 84.
Proof.
  intros H. exists (w / 85). split; [lia|].
  unfold a85_acc, digits85. cbn [firstn app fold_left].
  assert (E : w / 7225 = w / 85 / 85) by (rewrite Z.div_div by lia; reflexivity).
  assert (E1 : w / 614125 = w / 85 / 85 / 85) by (rewrite !Z.div_div by lia; reflexivity).
  assert (E2 : w / 52200625 = w / 85 / 85 / 85 / 85) by (rewrite !Z.div_div by lia; reflexivity).
  rewrite E, E1, E2. generalize (w / 85). intros q. lia.
Qed.

Lemma a85_text data t : A85Text data t -> forall decoded,
  exists k extra, (k <= 4)%nat /\ List.length extra = (4 - k)%nat /\
    a85_loop (t ++ [117; 117; 117; 117]) [] decoded = Ok (decoded ++ data ++ extra, repeat 117 k).
Proof.
  assert (B0 : byte_ok 0) by (unfold byte_ok; lia).
  induction 1 as [|data t H IH|a b c d data t Ha Hb Hc Hd H IH|a Ha|a b Ha Hb|a b c Ha Hb Hc]; intros decoded.
  - exists 4%nat, []. repeat split; [lia|]. rewrite !app_nil_r. reflexivity.
  - destruct (IH (decoded ++ [0;0;0;0])) as (k & ex & Hk & Hl & E).
    exists k, ex. repeat split; [lia|assumption|].
    cbn [app a85_loop]. change ((33 <=? 122) && (122 <=? 117)) with false.
    change (122 =? 122) with true. cbv iota. rewrite E, <- app_assoc. reflexivity.
  - destruct (IH (decoded ++ [a;b;c;d])) as (k & ex & Hk & Hl & E).
    exists k, ex. repeat split; [lia|assumption|].
    pose proof (word32_range a b c d Ha Hb Hc Hd) as Hr.
    pose proof (digits85_range _ Hr) as HF. pose proof (a85_acc_digits _ Hr) as HA.
    unfold digits85 in *. cbn [app]. rewrite a85_five by assumption. rewrite HA.
    rewrite packI_word by assumption. rewrite E, <- app_assoc. reflexivity.
  - pose proof (a85_acc2 (word32 a 0 0 0) (word32_range a 0 0 0 Ha B0 B0 B0)) as (q & Hq & E2).
    exists 1%nat, [((q * 614125 + 614124) / 65536) mod 256; ((q * 614125 + 614124) / 256) mod 256; (q * 614125 + 614124) mod 256].
    split; [lia|]. split; [reflexivity|].
    unfold byte_ok, word32 in Ha, Hq.
    rewrite (a85_tail_gen 1 (q * 614125 + 614124)).
    + do 3 f_equal. cbn [app]. f_equal. clear - Ha Hq. symmetry. apply Z.div_unique with (r := q * 614125 + 614124 - a * 16777216); lia.
    + apply Forall_firstn', digits85_range, word32_range; assumption.
    + lia.
    + reflexivity.
    + cbn [Nat.sub repeat]. rewrite E2. clear - Ha Hq. lia.
    + cbn [Nat.sub repeat]. symmetry. exact E2.
  - pose proof (a85_acc3 (word32 a b 0 0) (word32_range a b 0 0 Ha Hb B0 B0)) as (q & Hq & E2).
    exists 2%nat, [((q * 7225 + 7224) / 256) mod 256; (q * 7225 + 7224) mod 256].
    split; [lia|]. split; [reflexivity|].
    unfold byte_ok, word32 in Ha, Hb, Hq.
    rewrite (a85_tail_gen 2 (q * 7225 + 7224)).
    + do 3 f_equal. cbn [app].
      assert (D : (q * 7225 + 7224) / 65536 = a * 256 + b).
      { clear - Ha Hb Hq. symmetry. apply Z.div_unique with (r := q * 7225 + 7224 - (a * 256 + b) * 65536); lia. }
      rewrite D. change 16777216 with (65536 * 256). rewrite <- Z.div_div by lia. rewrite D.
      clear - Ha Hb. f_equal; [lia|]. f_equal. lia.
    + apply Forall_firstn', digits85_range, word32_range; assumption.
    + lia.
    + reflexivity.
    + cbn [Nat.sub repeat]. rewrite E2. clear - Ha Hb Hq. lia.
    + cbn [Nat.sub repeat]. symmetry. exact E2.
  - pose proof (a85_acc4 (word32 a b c 0) (word32_range a b c 0 Ha Hb Hc B0)) as (q & Hq & E2).
    exists 3%nat, [(q * 85 + 84) mod 256].
    split; [lia|]. split; [reflexivity|].
    unfold byte_ok, word32 in Ha, Hb, Hc, Hq.
    rewrite (a85_tail_gen 3 (q * 85 + 84)).
    + do 3 f_equal. cbn [app].
      assert (D : (q * 85 + 84) / 256 = (a * 256 + b) * 256 + c).
      { clear - Ha Hb Hc Hq. symmetry. apply Z.div_unique with (r := q * 85 + 84 - ((a * 256 + b) * 256 + c) * 256); lia. }
      assert (D2 : (q * 85 + 84) / 65536 = a * 256 + b).
      { change 65536 with (256 * 256). rewrite <- Z.div_div by lia. rewrite D. clear - Ha Hb Hc. lia. }
      rewrite D, D2. change 16777216 with (65536 * 256). rewrite <- Z.div_div by lia. rewrite D2.
      clear - Ha Hb Hc. f_equal; [lia|]. f_equal; [lia|]. f_equal. lia.
    + apply Forall_firstn', digits85_range, word32_range; assumption.
    + lia.
    + reflexivity.
    + cbn [Nat.sub repeat]. rewrite E2. clear - Ha Hb Hc Hq. lia.
    + cbn [Nat.sub repeat]. symmetry. exact E2.
Qed.

Lemma a85decode_text data t : A85Text data t -> a85decode t = Ok data.
Proof.
  intros H. unfold a85decode. destruct (a85_text _ _ H []) as (k & ex & Hk & Hl & E).
  rewrite E. cbn [app].
  assert (Z1 : zlen (repeat 117 k) = Z.of_nat k) by (unfold zlen; rewrite repeat_length; lia).
  rewrite Z1. destruct (4 - Z.of_nat k =? 0) eqn:E0.
  - destruct ex; [|cbn [List.length] in Hl; lia]. rewrite app_nil_r. reflexivity.
  - f_equal. rewrite zlen_app. unfold zlen.
    replace (Z.to_nat _) with (List.length data + 0)%nat by lia.
    rewrite firstn_app_2. apply app_nil_r.
Qed.

Lemma a85_no_ws data t : A85Text data t -> Forall (fun x => is_ws x = false) t.
Proof.
  assert (D : forall w, 0 <= w < 4294967296 -> Forall (fun x => is_ws x = false) (digits85 w)).
  { intros w Hw. eapply Forall_impl; [|apply digits85_range; exact Hw].
    intros x Hx. cbv beta in Hx. unfold is_ws, whitespaces. cbn [memZ]. clear - Hx. lia. }
  assert (B0 : byte_ok 0) by (unfold byte_ok; lia).
  assert (FN : forall n (l : list Z), Forall (fun x => is_ws x = false) l -> Forall (fun x => is_ws x = false) (firstn n l)).
  { intros n l Hl. rewrite <- (firstn_skipn n l) in Hl. apply Forall_app in Hl. tauto. }
  induction 1.
  - constructor.
  - constructor; [reflexivity|assumption].
  - apply Forall_app; split; [apply D, word32_range; assumption|assumption].
  - apply FN, D, word32_range; assumption.
  - apply FN, D, word32_range; assumption.
  - apply FN, D, word32_range; assumption.
Qed.

Lemma filter_no_ws t : Forall (fun x => is_ws x = false) t -> filter (fun n => negb (is_ws n)) t = t.
Proof.
  induction 1 as [|x l Hx H IH]; [reflexivity|]. cbn [filter]. rewrite Hx. simpl. congruence.
Qed.

Lemma ascii85_inverse data t text :
  A85Text data t -> Interleaved text (t ++ [126; 62]) -> ascii85_decode text = Ok data.
Proof.
  intros H I. unfold ascii85_decode.
  rewrite (filter_interleaved _ _ I).
  rewrite filter_no_ws.
  2:{ apply Forall_app; split; [eapply a85_no_ws; eassumption|]. repeat constructor. }
  unfold ends_with. rewrite !app_length. cbn [List.length].
  replace (List.length t + 2 - 2)%nat with (List.length t) by lia.
  rewrite skipn_app, skipn_all, Nat.sub_diag. cbn [skipn app].
  change (eqlZ [126; 62] [126; 62]) with true. cbv iota.
  rewrite firstn_app, Nat.sub_diag, firstn_all. cbn [firstn]. rewrite app_nil_r.
  rewrite (a85decode_text _ _ H). reflexivity.
Qed.

Lemma a85_loop_err b : forall curr dec e, a85_loop b curr dec = Err e -> e = ValueErr.
Proof.
  induction b as [|x r IH]; intros curr dec e; cbn [a85_loop]; [congruence|].
  destruct ((33 <=? x) && (x <=? 117)).
  - cbv zeta. destruct (zlen (curr ++ [x]) =? 5); [|apply IH].
    unfold packI. destruct (_ && _); [apply IH|congruence].
  - destruct (x =? 122); [destruct curr; [apply IH|congruence]|].
    destruct (a85_ignore x); [apply IH|congruence].
Qed.

Lemma ascii85_total data : exists out, ascii85_decode data = Ok out.
Proof.
  unfold ascii85_decode. destruct (ends_with _ _); [|simpl; eauto].
  unfold a85decode. destruct (a85_loop _ [] []) as [[r c]|e] eqn:E.
  - destruct (_ =? 0); eauto.
  - rewrite (a85_loop_err _ _ _ _ E). simpl. eauto.
Qed.

(** * RunLength *)

Lemma rl_lit l : forall c tail buffer acc, c = zlen buffer + zlen l - 1 -> l <> [] ->
  rl_loop (l ++ tail) NeedMany c buffer acc = rl_loop tail NeedLength c [] (acc ++ buffer ++ l).
Proof.
  induction l as [|x l IH]; intros c tail buffer acc Hc Hl; [congruence|].
  cbn [app rl_loop]. cbv zeta.
  rewrite zlen_cons in Hc. pose proof (zlen_app buffer [x]) as Hb. rewrite zlen_cons, zlen_nil in Hb.
  destruct l as [|y l].
  - rewrite zlen_nil in Hc. replace (zlen (buffer ++ [x]) =? c + 1) with true by lia. reflexivity.
  - pose proof (zlen_nonneg l). rewrite zlen_cons in Hc.
    replace (zlen (buffer ++ [x]) =? c + 1) with false by lia.
    rewrite IH; [|rewrite zlen_cons; lia|congruence].
    rewrite <- (app_assoc buffer). reflexivity.
Qed.

Lemma rl_run r : run_ok r -> forall n tail acc,
  exists n', rl_loop (run_enc r ++ tail) NeedLength n [] acc = rl_loop tail NeedLength n' [] (acc ++ run_data r).
Proof.
  destruct r as [l|k c]; simpl run_ok; intros H n tail acc.
  - exists (zlen l - 1). cbn [run_enc app rl_loop]. unfold zlen in *.
    replace (Z.of_nat (List.length l) - 1 =? 128) with false by lia.
    replace (129 <=? Z.of_nat (List.length l) - 1) with false by lia.
    rewrite rl_lit; [reflexivity| |].
    + unfold zlen. cbn [List.length]. lia.
    + intros ->. simpl in H. lia.
  - exists (257 - Z.of_nat k). cbn [run_enc app rl_loop].
    replace (257 - Z.of_nat k =? 128) with false by lia.
    replace (129 <=? 257 - Z.of_nat k) with true by lia.
    replace (Z.to_nat (257 - (257 - Z.of_nat k))) with k by lia. reflexivity.
Qed.

Lemma rl_runs rs : Forall run_ok rs -> forall n tail acc,
  exists n', rl_loop (flat_map run_enc rs ++ tail) NeedLength n [] acc
           = rl_loop tail NeedLength n' [] (acc ++ flat_map run_data rs).
Proof.
  induction 1 as [|r rs Hr H IH]; intros n tail acc.
  - exists n. cbn [flat_map app]. rewrite app_nil_r. reflexivity.
  - cbn [flat_map]. rewrite <- app_assoc.
    destruct (rl_run r Hr n (flat_map run_enc rs ++ tail) acc) as [n1 E1].
    destruct (IH n1 tail (acc ++ run_data r)) as [n2 E2].
    exists n2. rewrite E1, E2, <- app_assoc. reflexivity.
Qed.

Lemma runlength_inverse rs junk : Forall run_ok rs ->
  runlength_decode (flat_map run_enc rs ++ 128 :: junk) = Ok (flat_map run_data rs).
Proof.
  intros H. unfold runlength_decode.
  destruct (rl_runs rs H 0 (128 :: junk) []) as [n E]. rewrite E. reflexivity.
Qed.

(** Truncation anywhere before EOD: the loop never reaches [done]. *)
Lemma rl_many_prefix k : forall l c buffer acc, (k < List.length l)%nat -> c = zlen buffer + zlen l - 1 ->
  fst (rl_loop (firstn k l) NeedMany c buffer acc) <> RLDone.
Proof.
  induction k as [|k IH]; intros l c buffer acc Hk Hc; [simpl; discriminate|].
  destruct l as [|x l]; [simpl in Hk; lia|]. cbn [firstn rl_loop]. cbv zeta.
  rewrite zlen_cons in Hc. cbn [List.length] in Hk.
  pose proof (zlen_app buffer [x]) as Hb. rewrite zlen_cons, zlen_nil in Hb.
  unfold zlen at 2 in Hc.
  replace (zlen (buffer ++ [x]) =? c + 1) with false by lia.
  apply IH; [lia|]. unfold zlen in *. lia.
Qed.

Lemma rl_trunc rs : Forall run_ok rs -> forall k n acc,
  fst (rl_loop (firstn k (flat_map run_enc rs)) NeedLength n [] acc) <> RLDone.
Proof.
  induction 1 as [|r rs Hr H IH]; intros k n acc.
  - cbn [flat_map]. rewrite firstn_nil. simpl. discriminate.
  - cbn [flat_map]. rewrite firstn_app.
    destruct (Nat.le_gt_cases (List.length (run_enc r)) k) as [Hk|Hk].
    + rewrite firstn_all2 by lia.
      destruct (rl_run r Hr n (firstn (k - List.length (run_enc r)) (flat_map run_enc rs)) acc) as [n' E].
      rewrite E. apply IH.
    + replace (k - List.length (run_enc r))%nat with 0%nat by lia.
      cbn [firstn]. rewrite app_nil_r.
      destruct r as [l|m c]; simpl run_ok in Hr.
      * cbn [run_enc] in *. destruct k as [|k]; [simpl; discriminate|]. cbn [firstn rl_loop].
        unfold zlen in *. cbn [List.length] in Hk.
        replace (Z.of_nat (List.length l) - 1 =? 128) with false by lia.
        replace (129 <=? Z.of_nat (List.length l) - 1) with false by lia.
        apply rl_many_prefix; [lia|]. unfold zlen. cbn [List.length]. lia.
      * cbn [run_enc List.length] in *. destruct k as [|[|k]]; [simpl; discriminate| |lia].
        cbn [firstn rl_loop].
        replace (257 - Z.of_nat m =? 128) with false by lia.
        replace (129 <=? 257 - Z.of_nat m) with true by lia. simpl. discriminate.
Qed.

Lemma runlength_truncated rs k : Forall run_ok rs ->
  runlength_decode (firstn k (flat_map run_enc rs)) = Ok [].
Proof.
  intros H. unfold runlength_decode.
  pose proof (rl_trunc rs H k 0 []) as T. destruct (rl_loop _ _ _ _ _) as [[] r]; simpl in T; congruence.
Qed.

Lemma runlength_total data : exists out, runlength_decode data = Ok out.
Proof. unfold runlength_decode. destruct (rl_loop _ _ _ _ _) as [[] r]; eauto. Qed.

(** * Predictors *)

Lemma pred_rows_concat (cols : nat) rows : (forall r, In r rows -> List.length (snd r) = cols) ->
  forall fuel, (List.length (flat_map (fun r : Z * list Z => fst r :: snd r) rows) <= fuel)%nat ->
  pred_rows fuel (flat_map (fun r => fst r :: snd r) rows) (S cols) = flat_map snd rows.
Proof.
  induction rows as [|[t row] rows IH]; intros Hl fuel Hf.
  - destruct fuel; reflexivity.
  - cbn [flat_map fst snd app] in *. destruct fuel as [|fuel]; [simpl in Hf; lia|].
    cbn [pred_rows skipn].
    assert (L : List.length row = cols) by (apply (Hl (t, row)); left; reflexivity).
    replace (S cols - 1)%nat with cols by lia.
    rewrite firstn_app, <- L, Nat.sub_diag, firstn_all. cbn [firstn]. rewrite app_nil_r.
    f_equal. rewrite skipn_app, skipn_all, Nat.sub_diag. cbn [skipn app]. rewrite L.
    apply IH; [intros r Hr; apply Hl; right; assumption|].
    simpl in Hf. rewrite app_length in Hf. lia.
Qed.

Lemma predictor_rows p (cols : nat) rows : 10 <= p <= 15 ->
  (forall r, In r rows -> List.length (snd r) = cols) ->
  remove_predictors (flat_map (fun r : Z * list Z => fst r :: snd r) rows) (Some p) (Some (Z.of_nat cols))
  = Ok (flat_map snd rows).
Proof.
  intros Hp Hl. unfold remove_predictors.
  replace (p =? 1) with false by lia. replace (p =? 2) with false by lia.
  replace ((10 <=? p) && (p <=? 15)) with true by lia.
  replace (Z.of_nat cols + 1 =? 0) with false by lia.
  replace (Z.of_nat cols + 1 <? 0) with false by lia.
  replace (Z.to_nat (Z.of_nat cols + 1)) with (S cols) by lia.
  f_equal. apply pred_rows_concat; [assumption|lia].
Qed.

Lemma map_nthz_id (l : list Z) : Forall byte_ok l ->
  map (fun i => (nthz l i - 0) mod 256) (seq 0 (List.length l)) = l.
Proof.
  intros H. apply nth_ext with (d := 0) (d' := 0).
  - rewrite map_length, seq_length. reflexivity.
  - intros n Hn. rewrite map_length, seq_length in Hn.
    rewrite nth_indep with (d' := (fun i => (nthz l i - 0) mod 256) 0%nat) by (rewrite map_length, seq_length; assumption).
    rewrite (map_nth (fun i => (nthz l i - 0) mod 256)).
    rewrite seq_nth by assumption. cbn [Nat.add]. unfold nthz.
    assert (B : byte_ok (nth n l 0)) by (eapply Forall_forall; [exact H|apply nth_In; assumption]).
    unfold byte_ok in B. rewrite Z.sub_0_r, Z.mod_small by lia. reflexivity.
Qed.

Lemma png_none_rows bpp rows : Forall (fun r => Forall byte_ok r) rows -> forall prev,
  png_rows bpp prev (map (fun r => (0, r)) rows)
  = flat_map (fun r : Z * list Z => fst r :: snd r) (map (fun r => (0, r)) rows).
Proof.
  induction 1 as [|r rows Hr H IH]; intros prev; [reflexivity|].
  cbn [map png_rows flat_map fst snd]. rewrite IH. unfold png_row. cbn [app]. do 2 f_equal.
  unfold png_pred. change (0 =? 0) with true. cbv iota. apply map_nthz_id. assumption.
Qed.

Lemma predictor_none p (cols bpp : nat) rows prev : 10 <= p <= 15 ->
  Forall (fun r => List.length r = cols /\ Forall byte_ok r) rows ->
  remove_predictors (png_rows bpp prev (map (fun r => (0, r)) rows)) (Some p) (Some (Z.of_nat cols))
  = Ok (List.concat rows).
Proof.
  intros Hp H. rewrite png_none_rows by (eapply Forall_impl; [|exact H]; intros a0 [_ Hx]; exact Hx).
  rewrite predictor_rows; [|assumption|].
  - f_equal. induction rows as [|r rows IH]; [reflexivity|].
    cbn [map flat_map List.concat snd]. rewrite IH; [reflexivity|]. inversion H; assumption.
  - intros r Hr. apply in_map_iff in Hr. destruct Hr as (x & <- & Hx). simpl.
    rewrite Forall_forall in H. apply H. assumption.
Qed.

(** * LZW *)

Lemma bytestobits_spec l : bytestobits l = bits_of_bytes l.
Proof.
  unfold bytestobits. induction l as [|b r IH]; [reflexivity|].
  cbn [flat_map bits_of_bytes]. rewrite IH. f_equal.
  unfold byte_bits. cbn [map to_bits].
  rewrite !Z.testbit_spec' by lia. reflexivity.
Qed.

Lemma to_bits_length w v : List.length (to_bits w v) = w.
Proof. induction w; simpl; congruence. Qed.

Lemma fold_bits_acc bits : forall a, fold_left (fun a b => 2 * a + b) bits a
  = a * 2 ^ zlen bits + fold_left (fun a b => 2 * a + b) bits 0.
Proof.
  induction bits as [|b r IH]; intros a; cbn [fold_left].
  - rewrite zlen_nil. simpl. lia.
  - rewrite (IH (2 * a + b)), (IH (2 * 0 + b)). rewrite zlen_cons.
    rewrite Z.pow_add_r by (pose proof (zlen_nonneg r); lia). lia.
Qed.

Lemma intfrombits_to_bits w v : 0 <= v -> intfrombits (to_bits w v) = v mod 2 ^ Z.of_nat w.
Proof.
  intros Hv. unfold intfrombits. induction w as [|w IH]; cbn [to_bits fold_left].
  - simpl. rewrite Z.mod_1_r. reflexivity.
  - rewrite fold_bits_acc, IH. unfold zlen. rewrite to_bits_length.
    rewrite Nat2Z.inj_succ, Z.pow_succ_r by lia.
    assert (P : 0 < 2 ^ Z.of_nat w) by (apply Z.pow_pos_nonneg; lia).
    rewrite Z.mul_comm with (n := 2) (m := 2 ^ Z.of_nat w).
    rewrite (Zmod_rem_mult_aux v (2 ^ Z.of_nat w) 2) || (rewrite Z.rem_mul_r by lia).
    lia.
Qed.

Lemma unp_run bits : forall pre o cs w rest,
  bits <> [] -> zlen pre + zlen bits = w ->
  let cp := intfrombits (pre ++ bits) in
  cp <> 257 ->
  exists o', unpack (mkUnp pre o 0 cs w) (bits ++ rest) =
    cp :: unpack (mkUnp [] o' 0 (if cp =? 256 then 258 else cs + 1)
                        (if cp =? 256 then 9 else grow_width (cs + 1) w)) rest.
Proof.
  induction bits as [|b bits IH]; intros pre o cs w rest Hne Hw cp Hcp; [congruence|].
  cbn [app unpack]. unfold unp_step. cbn [u_ignore u_bits u_offset u_codesize u_width].
  change (0 <? 0) with false. cbv iota zeta.
  assert (Hl : zlen (pre ++ [b]) = zlen pre + 1) by (rewrite zlen_app, zlen_cons, zlen_nil; lia).
  rewrite zlen_cons in Hw. rewrite Hl.
  destruct bits as [|b' bits].
  - rewrite zlen_nil in Hw. replace (zlen pre + 1 =? w) with true by lia. cbv iota.
    exists ((o + 1) mod 8). fold cp. f_equal. cbn [app].
    replace (cp =? 257) with false by lia. rewrite orb_false_r.
    destruct (cp =? 256); reflexivity.
  - pose proof (zlen_nonneg bits). rewrite zlen_cons in Hw.
    replace (zlen pre + 1 =? w) with false by lia. cbv iota.
    destruct (IH (pre ++ [b]) ((o + 1) mod 8) cs w rest) as [o' E].
    + congruence.
    + rewrite Hl, zlen_cons. lia.
    + rewrite <- app_assoc. exact Hcp.
    + exists o'. rewrite E. rewrite <- app_assoc. reflexivity.
Qed.

Lemma unp_short bits : forall pre o cs w, zlen pre + zlen bits < w ->
  unpack (mkUnp pre o 0 cs w) bits = [].
Proof.
  induction bits as [|b bits IH]; intros pre o cs w Hw; [reflexivity|].
  cbn [unpack]. unfold unp_step. cbn [u_ignore u_bits u_offset u_codesize u_width].
  change (0 <? 0) with false. cbv iota zeta.
  rewrite zlen_cons in Hw. pose proof (zlen_nonneg bits).
  assert (Hl : zlen (pre ++ [b]) = zlen pre + 1) by (rewrite zlen_app, zlen_cons, zlen_nil; lia).
  rewrite Hl. replace (zlen pre + 1 =? w) with false by lia. cbv iota.
  apply IH. rewrite Hl. lia.
Qed.

Definition wz (n : nat) : Z := Z.of_nat (lzw_width n).

Lemma wz_spec n : 9 <= wz n /\ 258 + Z.of_nat n < 2 ^ wz n /\
  (wz n = 9 \/ 2 ^ (wz n - 1) <= 258 + Z.of_nat n).
Proof.
  unfold wz, lzw_width.
  set (x := 258 + Z.of_nat n). assert (Hx : 258 <= x) by lia.
  pose proof (Z.log2_spec x ltac:(lia)) as [L1 L2]. pose proof (Z.log2_nonneg x).
  unfold Z.succ in L2.
  replace (Z.of_nat (Nat.max 9 (Z.to_nat (Z.log2 x + 1)))) with (Z.max 9 (Z.log2 x + 1)) by lia.
  assert (8 <= Z.log2 x) by (apply Z.log2_le_pow2; lia).
  split; [lia|]. replace (Z.max 9 (Z.log2 x + 1)) with (Z.log2 x + 1) by lia.
  split; [lia|]. right. replace (Z.log2 x + 1 - 1) with (Z.log2 x) by lia. lia.
Qed.

Lemma grow_wz n : grow_width (258 + Z.of_nat n + 1) (wz n) = wz (S n).
Proof.
  unfold grow_width. destruct (wz_spec n) as (A & B & C). destruct (wz_spec (S n)) as (A' & B' & C').
  replace (258 + Z.of_nat n + 1) with (258 + Z.of_nat (S n)) by lia.
  assert (E : wz (S n) = Z.log2 (258 + Z.of_nat (S n)) + 1).
  { unfold wz, lzw_width.
    assert (8 <= Z.log2 (258 + Z.of_nat (S n))) by (apply Z.log2_le_pow2; lia). lia. }
  destruct (258 + Z.of_nat (S n) <? 2 ^ wz n) eqn:L; [|congruence].
  rewrite E. apply Z.ltb_lt in L.
  assert (L8 : 8 <= Z.log2 (258 + Z.of_nat (S n))) by (apply Z.log2_le_pow2; lia).
  apply Z.log2_lt_pow2 in L; [|lia].
  assert (wz n = Z.log2 (258 + Z.of_nat n) + 1).
  { unfold wz, lzw_width.
    assert (8 <= Z.log2 (258 + Z.of_nat n)) by (apply Z.log2_le_pow2; lia). lia. }
  pose proof (Z.log2_le_mono (258 + Z.of_nat n) (258 + Z.of_nat (S n)) ltac:(lia)). lia.
Qed.

Lemma unp_code n c o rest : 0 <= c < 2 ^ wz n -> c <> 257 ->
  exists o', unpack (mkUnp [] o 0 (258 + Z.of_nat n) (wz n)) (to_bits (lzw_width n) c ++ rest) =
    c :: unpack (mkUnp [] o' 0 (if c =? 256 then 258 else 258 + Z.of_nat (S n))
                       (if c =? 256 then 9 else wz (S n))) rest.
Proof.
  intros Hc Hn. destruct (wz_spec n) as (A & B & C).
  assert (I : intfrombits (to_bits (lzw_width n) c) = c).
  { rewrite intfrombits_to_bits by lia. apply Z.mod_small. exact Hc. }
  destruct (unp_run (to_bits (lzw_width n) c) [] o (258 + Z.of_nat n) (wz n) rest) as [o' E].
  - intros E. apply (f_equal (@List.length Z)) in E. rewrite to_bits_length in E.
    unfold wz in A. simpl in E. lia.
  - unfold zlen at 2. rewrite to_bits_length. rewrite zlen_nil. unfold wz. lia.
  - cbn [app]. rewrite I. exact Hn.
  - exists o'. cbn [app] in E. rewrite I in E. rewrite E.
    rewrite <- grow_wz. replace (258 + Z.of_nat (S n)) with (258 + Z.of_nat n + 1) by lia. reflexivity.
Qed.

Definition code_fits (n : nat) (c : Z) : Prop := 0 <= c < 258 + Z.of_nat n /\ c <> 256 /\ c <> 257.

Fixpoint codes_fit (n : nat) (codes : list Z) : Prop :=
  match codes with [] => True | c :: r => code_fits n c /\ codes_fit (S n) r end.

Lemma unp_segment codes : forall n o rest, codes_fit n codes ->
  exists o', unpack (mkUnp [] o 0 (258 + Z.of_nat n) (wz n)) (segment_bits n codes ++ rest) =
    codes ++ unpack (mkUnp [] o' 0 (258 + Z.of_nat (n + List.length codes)) (wz (n + List.length codes))) rest.
Proof.
  induction codes as [|c codes IH]; intros n o rest H.
  - exists o. cbn [segment_bits app List.length]. rewrite Nat.add_0_r. reflexivity.
  - destruct H as [(Hc & H6 & H7) H]. cbn [segment_bits]. rewrite <- app_assoc.
    destruct (wz_spec n) as (A & B & C).
    destruct (unp_code n c o (segment_bits (S n) codes ++ rest)) as [o1 E1]; [lia|assumption|].
    replace (c =? 256) with false in E1 by lia.
    destruct (IH (S n) o1 rest H) as [o2 E2].
    exists o2. rewrite E1, E2. cbn [app List.length].
    replace (n + S (List.length codes))%nat with (S n + List.length codes)%nat by lia. reflexivity.
Qed.

Lemma segment_bits_app a : forall n b, segment_bits n (a ++ b) = segment_bits n a ++ segment_bits (n + List.length a) b.
Proof.
  induction a as [|c a IH]; intros n b; cbn [segment_bits app List.length].
  - rewrite Nat.add_0_r. reflexivity.
  - rewrite IH, <- app_assoc. replace (n + S (List.length a))%nat with (S n + List.length a)%nat by lia. reflexivity.
Qed.

Lemma unp_stream segs : forall o pad, Forall (codes_fit 0) segs -> zlen pad < 8 ->
  unpack (mkUnp [] o 0 258 9) (stream_bits segs ++ pad) =
  match segs with [] => [] | s :: r => s ++ flat_map (fun x => 256 :: x) r end.
Proof.
  induction segs as [|s segs IH]; intros o pad H Hp.
  - cbn [stream_bits app]. apply unp_short. rewrite zlen_nil. lia.
  - inversion H as [|x l Hs Hr]; subst. destruct segs as [|s2 segs].
    + cbn [stream_bits flat_map]. rewrite app_nil_r.
      destruct (unp_segment s 0 o pad Hs) as [o' E].
      change (wz 0) with 9 in E. change (258 + Z.of_nat 0) with 258 in E. rewrite E.
      rewrite unp_short; [apply app_nil_r|].
      rewrite zlen_nil. destruct (wz_spec (0 + List.length s)). lia.
    + change (stream_bits (s :: s2 :: segs)) with (segment_bits 0 (s ++ [256]) ++ stream_bits (s2 :: segs)).
      rewrite segment_bits_app. rewrite <- !app_assoc.
      destruct (unp_segment s 0 o (segment_bits (0 + List.length s) [256] ++ stream_bits (s2 :: segs) ++ pad) Hs) as [o' E].
      change (wz 0) with 9 in E. change (258 + Z.of_nat 0) with 258 in E. rewrite E. f_equal.
      cbn [segment_bits]. rewrite app_nil_r.
      destruct (wz_spec (0 + List.length s)) as (A & B & C).
      destruct (unp_code (0 + List.length s) 256 o' (stream_bits (s2 :: segs) ++ pad)) as [o2 E2]; [lia|lia|].
      change (256 =? 256) with true in E2. cbv iota in E2. rewrite E2.
      cbn [flat_map app]. f_equal. rewrite IH by assumption. reflexivity.
Qed.

(** Decoder side. *)
Definition base_table : list (list Z) := map (fun n => [Z.of_nat n]) (seq 0 256) ++ [[]; []].

Lemma base_table_length : List.length base_table = 258%nat.
Proof. reflexivity. Qed.

Lemma base_table_byte b : byte_ok b -> nth_error base_table (Z.to_nat b) = Some [b].
Proof.
  intros H. unfold byte_ok in H. unfold base_table.
  rewrite nth_error_app1 by (rewrite map_length, seq_length; lia).
  erewrite map_nth_error; [|apply nth_error_nth' with (d := 0%nat); rewrite seq_length; lia].
  rewrite seq_nth by lia. do 2 f_equal. lia.
Qed.

(** Entries completed by the first [i] phrases. *)
Fixpoint entries (prev : list Z) (phrases : list (list Z)) : list (list Z) :=
  match phrases with
  | [] => []
  | p :: r => (prev ++ firstn 1 p) :: entries p r
  end.

Definition table_for (done : list (list Z)) : list (list Z) :=
  base_table ++ match done with [] => [] | p :: r => entries p r end.

Fixpoint last_opt (l : list (list Z)) : option (list Z) :=
  match l with [] => None | [x] => Some x | _ :: r => last_opt r end.

Lemma last_opt_snoc l x : last_opt (l ++ [x]) = Some x.
Proof.
  induction l as [|a l IH]; [reflexivity|]. cbn [app last_opt]. rewrite IH.
  destruct (l ++ [x]) eqn:E; [destruct l; discriminate|reflexivity].
Qed.

Lemma last_opt_cons l : forall x, exists y, last_opt (x :: l) = Some y.
Proof. induction l as [|a l IH]; intros x; [exists x; reflexivity|]. destruct (IH a) as [y E]. exists y. exact E. Qed.

Lemma entries_snoc l : forall p x, entries p (l ++ [x]) =
  entries p l ++ [match last_opt l with Some q => q | None => p end ++ firstn 1 x].
Proof.
  induction l as [|a l IH]; intros p x; [reflexivity|].
  cbn [app entries]. rewrite IH. cbn [app]. do 3 f_equal.
  destruct l as [|b l]; [reflexivity|]. destruct (last_opt_cons l b) as [y E].
  change (last_opt (a :: b :: l)) with (last_opt (b :: l)). rewrite E. reflexivity.
Qed.

Lemma table_snoc done x : table_for (done ++ [x]) =
  match last_opt done with
  | Some q => table_for done ++ [q ++ firstn 1 x]
  | None => table_for done
  end.
Proof.
  unfold table_for. destruct done as [|p r]; [reflexivity|].
  cbn [app]. rewrite entries_snoc. rewrite app_assoc. cbn [last_opt].
  destruct r as [|q r]; [reflexivity|].
  destruct (last_opt (q :: r)) eqn:E; [reflexivity|].
  exfalso. clear - E. revert q E. induction r as [|a r IH]; intros q E; [discriminate|]. apply (IH a). exact E.
Qed.

Lemma entries_nth l : forall p j a b, nth_error (p :: l) j = Some a -> nth_error (p :: l) (S j) = Some b ->
  nth_error (entries p l) j = Some (a ++ firstn 1 b).
Proof.
  induction l as [|x l IH]; intros p j a b Ha Hb.
  - destruct j; discriminate.
  - cbn [entries]. destruct j as [|j].
    + cbn [nth_error] in *. inversion Ha; inversion Hb; subst; reflexivity.
    + cbn [nth_error] in *. apply (IH x); assumption.
Qed.

Lemma decode_segment todo : forall done codes acc tail,
  Forall (fun p => p <> []) (done ++ todo) ->
  List.length codes = List.length todo ->
  (forall i c, nth_error codes i = Some c -> code_denotes false (done ++ todo) (List.length done + i) c) ->
  exists d, lzw_decode_codes (mkDec (table_for done) (last_opt done)) (codes ++ tail) acc =
            lzw_decode_codes d tail (acc ++ List.concat todo) .
Proof.
  induction todo as [|p todo IH]; intros done codes acc tail Hne Hl Hc.
  - destruct codes; [|discriminate]. eexists. cbn [app List.concat]. rewrite app_nil_r. reflexivity.
  - destruct codes as [|c codes]; [discriminate|].
    pose proof (Hc 0%nat c eq_refl) as D. rewrite Nat.add_0_r in D.
    assert (Np : nth_error (done ++ p :: todo) (List.length done) = Some p).
    { rewrite nth_error_app2, Nat.sub_diag by lia. reflexivity. }
    assert (Hp : p <> []).
    { rewrite Forall_forall in Hne. apply Hne. apply in_or_app; right; left; reflexivity. }
    assert (L : c <> 256 /\ c <> 257 /\ nth_error (table_for done) (Z.to_nat c) = Some p).
    { destruct D as [(b & Hb & -> & E)|(j & -> & Hj & E)].
      - rewrite Np in E. inversion E; subst. unfold byte_ok in *. split; [lia|]. split; [lia|].
        unfold table_for. rewrite nth_error_app1 by (rewrite base_table_length; lia).
        apply base_table_byte. assumption.
      - split; [lia|]. split; [lia|].
        unfold table_for. rewrite nth_error_app2 by (rewrite base_table_length; lia).
        rewrite base_table_length. replace (Z.to_nat (258 + Z.of_nat j) - 258)%nat with j by lia.
        rewrite Np in E. unfold lzw_entry in E.
        assert (H1 : (S j < List.length done)%nat) by lia.
        rewrite !nth_error_app1 in E by lia.
        destruct (nth_error done j) as [a|] eqn:Ea; [|discriminate].
        destruct (nth_error done (S j)) as [[|y b]|] eqn:Eb; try discriminate.
        inversion E; subst.
        destruct done as [|p0 r]; [simpl in H1; lia|].
        rewrite (entries_nth r p0 j a (y :: b)) by assumption. reflexivity. }
    destruct L as (L1 & L2 & L3).
    cbn [app lzw_decode_codes]. unfold decode_codepoint.
    replace (c =? 256) with false by lia. replace (c =? 257) with false by lia.
    cbn [d_table d_prefix]. rewrite L3.
    assert (T : mkDec match last_opt done with
               | Some q => table_for done ++ [q ++ firstn 1 p]
               | None => table_for done
               end (Some p) = mkDec (table_for (done ++ [p])) (last_opt (done ++ [p]))).
    { rewrite table_snoc, last_opt_snoc. reflexivity. }
    rewrite T.
    destruct (IH (done ++ [p]) codes (acc ++ p) tail) as [d E].
    + rewrite <- app_assoc. exact Hne.
    + simpl in Hl. lia.
    + intros i c' Hi. rewrite <- app_assoc. cbn [app]. rewrite app_length. cbn [List.length].
      replace (List.length done + 1 + i)%nat with (List.length done + S i)%nat by lia.
      apply Hc. exact Hi.
    + exists d. rewrite E. cbn [List.concat]. rewrite <- app_assoc. reflexivity.
Qed.

Lemma segment_codes_fit phrases codes : segment_ok false phrases codes -> codes_fit 0 codes.
Proof.
  intros (Hl & Hn & Hc).
  assert (G : forall cs n, (forall i c, nth_error cs i = Some c -> code_denotes false phrases (n + i) c) -> codes_fit n cs).
  { induction cs as [|c cs IH]; intros n H; [exact I|]. split.
    - specialize (H 0%nat c eq_refl). rewrite Nat.add_0_r in H.
      destruct H as [(b & Hb & -> & E)|(j & -> & Hj & E)]; unfold code_fits, byte_ok in *; lia.
    - apply IH. intros i c' Hi. replace (S n + i)%nat with (n + S i)%nat by lia. apply H. exact Hi. }
  apply G. exact Hc.
Qed.

Lemma decode_segments segs : forall d acc,
  Forall (fun s => segment_ok false (fst s) (snd s)) segs ->
  lzw_decode_codes d (flat_map (fun x => 256 :: x) (map snd segs)) acc =
  Ok (acc ++ flat_map (fun s => List.concat (fst s)) segs).
Proof.
  induction segs as [|[ph cs] segs IH]; intros d acc H.
  - cbn. rewrite app_nil_r. reflexivity.
  - inversion H as [|x l (Hl & Hn & Hc) Hr]; subst.
    cbn [map flat_map fst snd app lzw_decode_codes] in *. unfold decode_codepoint.
    change (256 =? 256) with true. cbv iota. rewrite app_nil_r.
    destruct (decode_segment ph [] cs acc (flat_map (fun x => 256 :: x) (map snd segs)) Hn Hl) as [d' E].
    { intros i c Hi. apply Hc. exact Hi. }
    unfold lzw_clear. unfold table_for in E. rewrite app_nil_r in E. unfold base_table in E. cbn [last_opt] in E.
    rewrite E. rewrite IH by assumption. rewrite <- app_assoc. reflexivity.
Qed.

Lemma lzw_inverse segs data pad :
  Forall (fun s => segment_ok false (fst s) (snd s)) segs ->
  bits_of_bytes data = stream_bits (map snd segs) ++ pad -> zlen pad < 8 ->
  lzw_decompress data = Ok (flat_map (fun s => List.concat (fst s)) segs).
Proof.
  intros H E Hp. unfold lzw_decompress. rewrite bytestobits_spec, E.
  unfold unp_init, lzw_init_codesize, lzw_minwidth. rewrite unp_stream; [|
    apply Forall_map; eapply Forall_impl; [|exact H]; intros s Hs; eapply segment_codes_fit; exact Hs|exact Hp].
  destruct segs as [|[ph cs] segs]; [reflexivity|].
  cbn [map snd]. pose proof (decode_segments ((ph, cs) :: segs) lzw_clear [] H) as D.
  cbn [map snd flat_map app lzw_decode_codes] in D. unfold decode_codepoint in D.
  change (256 =? 256) with true in D. cbv iota in D. exact D.
Qed.
