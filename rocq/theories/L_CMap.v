(** Hexadecimal codes: as_int, enumeration. *)
From Coq Require Import String Sorting.Sorted.
From Verif Require Import Prelude M_Parser M_Objects M_Codec P_Codec M_CMap S_CMap.
Local Open Scope Z_scope.

Lemma updigit_h c : updigit c -> hdigit c. Proof. unfold updigit, hdigit. lia. Qed.
Lemma upper_hex_code l : UpperCode l -> HexCode l.
Proof. intros [H1 H2]. split; [exact H1|]. eapply Forall_impl; [|exact H2]. intros a. apply updigit_h. Qed.
Lemma hdigit_val c : hdigit c -> hexval c = Some (dval c) /\ 0 <= dval c < 16.
Proof.
  unfold hdigit, hexval, dval. intros H. destruct (c <=? 57) eqn:E1.
  - assert ((48 <=? c) && true = true) as -> by lia. split; [reflexivity|lia].
  - rewrite andb_false_r. destruct (c <=? 70) eqn:E2.
    + assert ((65 <=? c) && true = true) as -> by lia. split; [reflexivity|lia].
    + rewrite andb_false_r. assert ((97 <=? c) && (c <=? 102) = true) as -> by lia. split; [reflexivity|lia].
Qed.
Lemma hnum_bounds l : Forall hdigit l -> 0 <= hnum l < 16 ^ zlen l.
Proof.
  induction 1 as [|c l Hc _ IH]; [cbn; lia|]. cbn [hnum]. rewrite zlen_cons. pose proof (hdigit_val c Hc). pose proof (zlen_nonneg l).
  rewrite Z.pow_add_r by lia. change (16 ^ 1) with 16. nia.
Qed.
Lemma hex_digits_hnum l : Forall hdigit l -> forall acc, hex_digits acc l = Some (acc * 16 ^ zlen l + hnum l).
Proof.
  induction 1 as [|c l Hc _ IH]; intros acc; cbn [hex_digits hnum]; [cbn; f_equal; lia|].
  destruct (hdigit_val c Hc) as [-> _]. rewrite IH, zlen_cons. f_equal. pose proof (zlen_nonneg l).
  rewrite Z.pow_add_r by lia. change (16 ^ 1) with 16. nia.
Qed.
Lemma as_int_hnum l : HexCode l -> as_int l = Ok (hnum l).
Proof.
  intros [Hne HF]. unfold as_int, py_int16. rewrite hex_strip by exact HF. pose proof (hex_digits_hnum l HF 0) as HD. rewrite Z.mul_0_l, Z.add_0_l in HD.
  destruct l as [|x r]; [congruence|].
  assert (hex_nat (x :: r) = hex_digits 0 (x :: r)) as E1.
  { unfold hex_nat. destruct (Z.eq_dec x 48) as [->|Hx].
    - destruct r as [|y q]; [reflexivity|]. inversion HF as [|? ? _ HF2]. inversion HF2 as [|? ? Hy _]. subst. unfold hdigit in Hy.
      assert ((y =? 120) || (y =? 88) = false) as -> by lia. reflexivity.
    - repeat (match goal with |- context [match ?e with _ => _ end] => is_var e; destruct e; try reflexivity end); congruence. }
  rewrite <- E1 in HD. inversion HF as [|? ? Hx _]. unfold hdigit in Hx. clear - Hx HD.
  match goal with |- match ?E with _ => _ end = _ => assert (E = hex_nat (x :: r)) as -> end.
  { repeat (match goal with |- context [match ?e with _ => _ end] => is_var e; destruct e; try reflexivity end); lia. }
  now rewrite HD.
Qed.
Lemma hnum_snoc l d : hnum (l ++ [d]) = 16 * hnum l + dval d.
Proof.
  induction l as [|x l IH]; [cbn; lia|]. cbn [app hnum]. rewrite IH, zlen_app. change (zlen [d]) with 1.
  pose proof (zlen_nonneg l). rewrite Z.pow_add_r by lia. change (16 ^ 1) with 16. nia.
Qed.
Lemma updigit_dig c : updigit c -> hexdig (dval c) = c.
Proof. unfold updigit, dval, hexdig. intros H. destruct (c <=? 57) eqn:E; [|assert (c <=? 70 = true) as -> by lia]; destruct (_ <? 10) eqn:E2; lia. Qed.
Lemma dval_dig v : 0 <= v < 16 -> dval (hexdig v) = v /\ updigit (hexdig v).
Proof. unfold updigit, dval, hexdig. intros H. destruct (v <? 10) eqn:E; [assert (v + 48 <=? 57 = true) as -> by lia; lia|]. assert (v + 55 <=? 57 = false) as -> by lia. assert (v + 55 <=? 70 = true) as -> by lia. lia. Qed.

(** fixed width *)
Fixpoint hexw (n : nat) (v : Z) : list Z := match n with O => [] | S n' => hexw n' (v / 16) ++ [hexdig (v mod 16)] end.
Lemma hexw_len n : forall v, zlen (hexw n v) = Z.of_nat n.
Proof. induction n as [|n IH]; intros v; [reflexivity|]. cbn [hexw]. rewrite zlen_app, IH. change (zlen [hexdig (v mod 16)]) with 1. lia. Qed.
Lemma hexw_up n : forall v, 0 <= v -> Forall updigit (hexw n v).
Proof.
  induction n as [|n IH]; intros v Hv; [constructor|]. cbn [hexw]. apply Forall_app. split; [apply IH; apply Z.div_pos; lia|].
  constructor; [|constructor]. apply dval_dig. apply Z.mod_pos_bound. lia.
Qed.
Lemma hexw_num n : forall v, 0 <= v < 16 ^ Z.of_nat n -> hnum (hexw n v) = v.
Proof.
  induction n as [|n IH]; intros v Hv; [cbn in *; lia|]. cbn [hexw]. rewrite hnum_snoc.
  rewrite Nat2Z.inj_succ, Z.pow_succ_r in Hv by lia. rewrite IH.
  - destruct (dval_dig (v mod 16)) as [-> _]; [apply Z.mod_pos_bound; lia|]. pose proof (Z.div_mod v 16). lia.
  - split; [apply Z.div_pos; lia|]. apply Z.div_lt_upper_bound; lia.
Qed.
Lemma hexw_hnum l : Forall updigit l -> hexw (List.length l) (hnum l) = l.
Proof.
  induction l as [|d l IH] using rev_ind; intros H; [reflexivity|]. apply Forall_app in H. destruct H as [H1 H2]. inversion H2 as [|? ? Hd _]; subst.
  rewrite app_length, Nat.add_1_r. cbn [hexw]. rewrite hnum_snoc. destruct (hdigit_val d (updigit_h d Hd)) as [_ HB].
  replace ((16 * hnum l + dval d) / 16) with (hnum l) by (symmetry; rewrite Z.mul_comm, Z.div_add_l by lia; rewrite Z.div_small by lia; lia).
  replace ((16 * hnum l + dval d) mod 16) with (dval d) by (rewrite Z.add_comm, Z.mul_comm, Z.mod_add, Z.mod_small by lia; reflexivity).
  rewrite IH by exact H1. now rewrite updigit_dig.
Qed.
Lemma hexw_pad j k : forall v, 0 <= v < 16 ^ Z.of_nat k -> hexw (j + k) v = repeat 48 j ++ hexw k v.
Proof.
  induction k as [|k IH]; intros v Hv.
  - assert (v = 0) as -> by (cbn in Hv; lia). rewrite Nat.add_0_r. cbn [hexw]. rewrite app_nil_r. clear Hv. induction j as [|j IH]; [reflexivity|].
    cbn [hexw]. change (0 / 16) with 0. rewrite IH. change (hexdig (0 mod 16)) with 48. clear IH. induction j as [|j IH]; [reflexivity|]. cbn [repeat app]. now rewrite IH.
  - rewrite Nat.add_succ_r. cbn [hexw]. rewrite IH, app_assoc; [reflexivity|]. rewrite Nat2Z.inj_succ, Z.pow_succ_r in Hv by lia.
    split; [apply Z.div_pos; lia|]. apply Z.div_lt_upper_bound; lia.
Qed.
Lemma to_hex_loop_spec n : forall v acc, 0 <= v -> (Z.to_nat (Z.log2 v) < n)%nat ->
  exists k, to_hex_loop n v acc = hexw (S k) v ++ acc /\ v < 16 ^ Z.of_nat (S k) /\ (k = O \/ 16 ^ Z.of_nat k <= v).
Proof.
  induction n as [|n IH]; intros v acc Hv Hn; [lia|]. cbn [to_hex_loop]. destruct (v <? 16) eqn:E.
  - exists O. assert (v < 16) by lia. cbn [hexw app]. rewrite Z.mod_small by lia. split; [reflexivity|]. split; [lia|now left].
  - assert (16 <= v) as H by lia. destruct (IH (v / 16) (hexdig (v mod 16) :: acc)) as (k & E1 & E2 & E3).
    + apply Z.div_pos; lia.
    + assert (Z.log2 (v / 16) < Z.log2 v); [|pose proof (Z.log2_nonneg (v / 16)); lia].
      assert (v / 16 < v) by (apply Z.div_lt; lia).
      assert (Z.log2 (v / 16) < Z.log2 (16 * (v / 16))).
      { assert (1 <= v / 16) by (apply Z.div_le_lower_bound; lia). change 16 with (2 ^ 4) at 2. rewrite Z.mul_comm. rewrite Z.log2_mul_pow2 by lia. lia. }
      assert (16 * (v / 16) <= v) by (apply Z.mul_div_le; lia). pose proof (Z.log2_le_mono (16 * (v / 16)) v). lia.
    + exists (S k). rewrite E1. split; [|split].
      * change (hexw (S (S k)) v) with (hexw (S k) (v / 16) ++ [hexdig (v mod 16)]). now rewrite <- app_assoc.
      * rewrite Nat2Z.inj_succ, Z.pow_succ_r by lia. pose proof (Z.div_mod v 16). pose proof (Z.mod_pos_bound v 16). lia.
      * right. rewrite Nat2Z.inj_succ, Z.pow_succ_r by lia. pose proof (Z.mul_div_le v 16). destruct E3 as [->|E3]; [cbn; lia|lia].
Qed.
Lemma zfill_hexw n v : 0 < Z.of_nat n -> 0 <= v < 16 ^ Z.of_nat n -> zfill (Z.of_nat n) (to_hex v) = hexw n v.
Proof.
  intros Hn Hv. unfold to_hex. destruct (to_hex_loop_spec (S (Z.to_nat (Z.log2 v))) v []) as (k & E & H1 & H2); [lia|lia|]. rewrite E, app_nil_r. unfold zfill.
  rewrite hexw_len. assert (k < n)%nat as Hk.
  { destruct H2 as [->|H2]; [lia|]. assert (16 ^ Z.of_nat k < 16 ^ Z.of_nat n) as HP by lia. apply Z.pow_lt_mono_r_iff in HP; lia. }
  replace (Z.to_nat (Z.of_nat n - Z.of_nat (S k))) with (n - S k)%nat by lia. rewrite <- hexw_pad by lia. f_equal. lia.
Qed.
Lemma hnum_inj a b : Forall updigit a -> Forall updigit b -> zlen a = zlen b -> hnum a = hnum b -> a = b.
Proof.
  intros Ha Hb Hl Hn. rewrite <- (hexw_hnum a Ha), <- (hexw_hnum b Hb), Hn. f_equal. unfold zlen in Hl. lia.
Qed.
Lemma upper_upcase l : Forall hdigit l -> py_upper l = upcase l.
Proof.
  intros H. unfold py_upper, upcase. apply map_ext_in. intros c Hc. rewrite Forall_forall in H. specialize (H c Hc). unfold hdigit in H.
  destruct (c <=? 96) eqn:E; [assert ((97 <=? c) && (c <=? 122) = false) as -> by lia|assert ((97 <=? c) && (c <=? 122) = true) as -> by lia]; reflexivity.
Qed.
Lemma upcase_up l : Forall updigit l -> upcase l = l.
Proof. intros H. unfold upcase. rewrite <- (map_id l) at 2. apply map_ext_in. intros c Hc. rewrite Forall_forall in H. specialize (H c Hc). unfold updigit in H. assert (c <=? 96 = true) as -> by lia. reflexivity. Qed.
Lemma upcase_digits l : Forall hdigit l -> Forall updigit (upcase l).
Proof. intros H. apply Forall_map. eapply Forall_impl; [|exact H]. intros c Hc. unfold hdigit, updigit in *. destruct (c <=? 96) eqn:E; lia. Qed.
Lemma upcase_hnum l : Forall hdigit l -> hnum (upcase l) = hnum l.
Proof.
  induction 1 as [|c l Hc _ IH]; [reflexivity|]. cbn [upcase map hnum]. fold (upcase l). rewrite IH. f_equal.
  assert (zlen (upcase l) = zlen l) as -> by (unfold upcase, zlen; now rewrite map_length). f_equal. unfold dval, hdigit in *.
  destruct (c <=? 96) eqn:E; [reflexivity|]. assert (c - 32 <=? 57 = false) as -> by lia. assert (c - 32 <=? 70 = true) as -> by lia.
  assert (c <=? 57 = false) as -> by lia. assert (c <=? 70 = false) as -> by lia. lia.
Qed.
Lemma range_from_in n : forall v size x, 0 < size -> 0 <= v -> v + Z.of_nat n <= 16 ^ size ->
  (In x (range_from n v size) <-> Forall updigit x /\ zlen x = size /\ v <= hnum x < v + Z.of_nat n).
Proof.
  induction n as [|n IH]; intros v size x Hs Hv Hn; cbn [range_from In]; [split; [tauto|lia]|].
  rewrite <- (Z2Nat.id size) at 1 by lia. rewrite zfill_hexw by (rewrite ?Z2Nat.id by lia; lia). rewrite IH by lia. split.
  - intros [<-|(H1 & H2 & H3)]; [|repeat split; auto; lia]. rewrite hexw_len, hexw_num by (rewrite Z2Nat.id by lia; lia). rewrite Z2Nat.id by lia.
    repeat split; [apply hexw_up; lia|lia|lia].
  - intros (H1 & H2 & H3). destruct (Z.eq_dec (hnum x) v) as [E|E]; [|right; repeat split; auto; lia]. left.
    rewrite <- (hexw_hnum x H1), E. f_equal. unfold zlen in H2. lia.
Qed.
Lemma range_from_sorted n : forall v size, 0 < size -> 0 <= v -> v + Z.of_nat n <= 16 ^ size ->
  StronglySorted (fun x y => hnum x < hnum y) (range_from n v size).
Proof.
  induction n as [|n IH]; intros v size Hs Hv Hn; cbn [range_from]; [constructor|]. constructor; [apply IH; lia|].
  apply Forall_forall. intros x Hx. apply range_from_in in Hx; [|lia..]. rewrite <- (Z2Nat.id size) at 1 by lia.
  rewrite zfill_hexw by (rewrite ?Z2Nat.id by lia; lia). rewrite hexw_num by (rewrite Z2Nat.id by lia; lia). lia.
Qed.
Lemma range_from_len n : forall v size, List.length (range_from n v size) = n.
Proof. induction n as [|n IH]; intros v size; cbn [range_from List.length]; [reflexivity|]. now rewrite IH. Qed.
