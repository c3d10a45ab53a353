(** Images: C64 (sizes), C65 (samples), C73 (what PIL is given). *)
From Coq Require Import String.
From Verif Require Import Prelude M_Parser M_Document M_Objects P_Objects M_Viewer M_Image.
Local Open Scope Z_scope.

(** C64.  The number of bytes of a picture. *)
Definition components (mode : list Z) (n : Z) : Prop :=
  (mode = bs "RGB" /\ n = 3) \/ (mode = bs "CMYK" /\ n = 4) \/ (mode = bs "L" /\ n = 1) \/ (mode = bs "P" /\ n = 1).
Lemma recover_eq mode n w h raw : components mode n -> recover mode w h raw =
  if zlen raw >? w * h * n then upto (w * h * n) raw
  else if zlen raw <? w * h * n then raw ++ repeat 0 (Z.to_nat (w * h * n - zlen raw)) else raw.
Proof.
  unfold recover. intros [[-> ->]|[[-> ->]|[[-> ->]|[-> ->]]]]; cbv zeta.
  - reflexivity.
  - reflexivity.
  - rewrite Z.mul_1_r. reflexivity.
  - rewrite Z.mul_1_r. reflexivity.
Qed.
(** Exactly width * height * components bytes: the data, cut or followed by zeros. *)
Theorem C64_exact_size : forall mode n w h raw, components mode n -> 0 <= w * h ->
  zlen (recover mode w h raw) = w * h * n /\
  ((exists cut, raw = recover mode w h raw ++ cut) \/ (exists k, recover mode w h raw = raw ++ repeat 0 k)).
Proof.
  intros mode n w h raw Hm Hw. rewrite (recover_eq _ _ _ _ _ Hm).
  assert (0 <= w * h * n) as H0 by (destruct Hm as [[_ ->]|[[_ ->]|[[_ ->]|[_ ->]]]]; lia). remember (w * h * n) as e.
  unfold zlen in *. destruct (Z.of_nat (List.length raw) >? e) eqn:E1; [|destruct (Z.of_nat (List.length raw) <? e) eqn:E2].
  - unfold upto. replace (e <? 0) with false by lia. split; [rewrite firstn_length; lia|]. left. exists (skipn (Z.to_nat e) raw). now rewrite firstn_skipn.
  - split; [rewrite app_length, repeat_length; lia|]. right. eexists. reflexivity.
  - split; [lia|]. left. exists []. now rewrite app_nil_r.
Qed.
Theorem C64_right_size_untouched : forall mode n w h raw, components mode n -> zlen raw = w * h * n -> recover mode w h raw = raw.
Proof. intros mode n w h raw Hm E. rewrite (recover_eq _ _ _ _ _ Hm), <- E. replace (zlen raw >? zlen raw) with false by lia. replace (zlen raw <? zlen raw) with false by lia. reflexivity. Qed.
Example C64_ex : recover (bs "RGB") 1 1 [1; 2] = [1; 2; 0] /\ recover (bs "P") 1 2 [1; 2; 3] = [1; 2].
Proof. split; reflexivity. Qed.

(** C65.  Numbers written in binary and in base 256, most significant first. *)
Fixpoint num (l : list bool) : Z := match l with [] => 0 | b :: r => (if b : bool then 2 ^ zlen r else 0) + num r end.
Fixpoint big (l : list Z) : Z := match l with [] => 0 | b :: r => b * 256 ^ zlen r + big r end.

Lemma num_app a b : num (a ++ b) = num a * 2 ^ zlen b + num b.
Proof.
  induction a as [|x a IH]; cbn [app num]; [lia|]. rewrite IH, zlen_app. pose proof (zlen_nonneg a). pose proof (zlen_nonneg b).
  rewrite Z.pow_add_r by lia. destruct x; ring.
Qed.
Lemma big_app a b : big (a ++ b) = big a * 256 ^ zlen b + big b.
Proof.
  induction a as [|x a IH]; cbn [app big]; [lia|]. rewrite IH, zlen_app. pose proof (zlen_nonneg a). pose proof (zlen_nonneg b).
  rewrite Z.pow_add_r by lia. ring.
Qed.
Lemma num_bound l : 0 <= num l < 2 ^ zlen l.
Proof.
  induction l as [|b l IH]; cbn [num]; [cbn; lia|]. rewrite zlen_cons. pose proof (zlen_nonneg l). rewrite Z.pow_add_r by lia.
  assert (0 < 2 ^ zlen l) by (apply Z.pow_pos_nonneg; lia). destruct b; lia.
Qed.
Lemma bits_val_num l : bits_val l = num l.
Proof.
  unfold bits_val. assert (forall l a, fold_left (fun a (b : bool) => 2 * a + (if b then 1 else 0)) l a = a * 2 ^ zlen l + num l) as G; [|rewrite G; lia].
  clear l. induction l as [|b l IH]; intros a; cbn [fold_left num]; [cbn; lia|]. rewrite IH, zlen_cons. pose proof (zlen_nonneg l).
  rewrite Z.pow_add_r by lia. change (2 ^ 1) with 2. destruct b; ring.
Qed.
Lemma from_bytes_big l : from_bytes l = big l.
Proof.
  unfold from_bytes. assert (forall l a, fold_left (fun a b => 256 * a + b) l a = a * 256 ^ zlen l + big l) as G; [|rewrite G; lia].
  clear l. induction l as [|b l IH]; intros a; cbn [fold_left big]; [cbn; lia|]. rewrite IH, zlen_cons. pose proof (zlen_nonneg l).
  rewrite Z.pow_add_r by lia. change (256 ^ 1) with 256. ring.
Qed.
Lemma rev_repeat {A} (x : A) n : rev (repeat x n) = repeat x n.
Proof.
  induction n as [|n IH]; [reflexivity|]. cbn [repeat rev]. rewrite IH. clear IH. induction n as [|n IH]; [reflexivity|]. cbn [repeat app]. now rewrite IH.
Qed.
Lemma num_zeros n l : num (repeat false n ++ l) = num l.
Proof. induction n as [|n IH]; cbn [repeat app num]; lia. Qed.
Lemma fill_len l : exists k, List.length (fill l) = (8 * k)%nat.
Proof.
  unfold fill. rewrite app_length, repeat_length. unfold zlen. set (n := List.length l).
  exists (Z.to_nat ((Z.of_nat n + (- Z.of_nat n) mod 8) / 8)).
  pose proof (Z.div_mod (- Z.of_nat n) 8 ltac:(lia)) as D1. pose proof (Z.mod_pos_bound (- Z.of_nat n) 8 ltac:(lia)).
  assert ((Z.of_nat n + (- Z.of_nat n) mod 8) = (- ((- Z.of_nat n) / 8)) * 8) as E by lia.
  rewrite E, Z.div_mul by lia. lia.
Qed.
Lemma fill_whole l k : List.length l = (8 * k)%nat -> fill l = l.
Proof.
  intros E. unfold fill, zlen. rewrite E. replace ((- Z.of_nat (8 * k)) mod 8) with 0; [now rewrite app_nil_r|].
  replace (- Z.of_nat (8 * k)) with ((- Z.of_nat k) * 8) by lia. now rewrite Z.mod_mul by lia.
Qed.
Lemma to_bytes_big : forall k l, List.length l = (8 * k)%nat -> big (to_bytes_ k l) = num l /\ List.length (to_bytes_ k l) = k.
Proof.
  induction k as [|k IH]; intros l E; [destruct l; [split; reflexivity|discriminate]|]. cbn [to_bytes_ big List.length].
  rewrite bits_val_num. destruct (IH (skipn 8 l)) as [E1 E2]; [rewrite skipn_length; lia|]. rewrite E1. split; [|now rewrite E2].
  assert (num l = num (firstn 8 l ++ skipn 8 l)) as -> by now rewrite firstn_skipn.
  rewrite num_app. f_equal. f_equal. unfold zlen. rewrite E2, skipn_length, E.
  change 256 with (2 ^ 8). rewrite <- Z.pow_mul_r by lia. f_equal. lia.
Qed.
Lemma tobytes_big l : big (tobytes (rev (fill (rev l)))) = num l.
Proof.
  unfold tobytes. destruct (fill_len (rev l)) as [k Hk]. rewrite (fill_whole _ k) by (now rewrite rev_length).
  unfold zlen. rewrite rev_length, Hk. replace (Z.to_nat (Z.of_nat (8 * k) / 8)) with k
    by (replace (Z.of_nat (8 * k)) with (Z.of_nat k * 8) by lia; rewrite Z.div_mul by lia; lia).
  destruct (to_bytes_big k (rev (fill (rev l)))) as [-> _]; [now rewrite rev_length|].
  unfold fill. rewrite rev_app_distr, rev_repeat, rev_involutive. apply num_zeros.
Qed.
Lemma component_num l : component l = num l.
Proof. unfold component. rewrite from_bytes_big. apply tobytes_big. Qed.

(** The data as bits: a picture's bytes, most significant bit first. *)
Lemma byte_num b : 0 <= b < 256 -> num (byte_bits b) = b.
Proof.
  intros H. assert (forallb (fun n => num (byte_bits (Z.of_nat n)) =? Z.of_nat n) (seq 0 256) = true) as HF by (vm_compute; reflexivity).
  rewrite forallb_forall in HF. specialize (HF (Z.to_nat b)). rewrite Z2Nat.id in HF by lia. apply Z.eqb_eq. apply HF, in_seq. lia.
Qed.
Lemma frombytes_len data : List.length (frombytes data) = (8 * List.length data)%nat.
Proof. unfold frombytes. induction data as [|b data IH]; [reflexivity|]. cbn [map List.concat]. rewrite app_length, IH. cbn [byte_bits map List.length]. lia. Qed.
Lemma frombytes_num data : bytes_ok data -> num (frombytes data) = big data.
Proof.
  unfold frombytes. induction 1 as [|b data Hb Hd IH]; [reflexivity|]. cbn [map List.concat big]. rewrite num_app, byte_num, IH by exact Hb.
  f_equal. f_equal. change (List.concat (map byte_bits data)) with (frombytes data). unfold zlen. rewrite frombytes_len.
  change 256 with (2 ^ 8). rewrite <- Z.pow_mul_r by lia. f_equal. lia.
Qed.

(** [Cut k l gs]: [gs] is [l] in pieces of [k], the last one possibly shorter but not empty. *)
Inductive Cut {A} (k : nat) : list A -> list (list A) -> Prop :=
| Cut_nil : Cut k [] []
| Cut_last g : g <> [] -> (List.length g <= k)%nat -> Cut k g [g]
| Cut_more g l gs : List.length g = k -> l <> [] -> Cut k l gs -> Cut k (g ++ l) (g :: gs).
Lemma groups_cut k : (0 < k)%nat -> forall n (l : list bool), (List.length l <= n)%nat -> Cut k l (groups n k l).
Proof.
  intros Hk. induction n as [|n IH]; intros l Hl; [destruct l; [constructor|cbn in Hl; lia]|].
  cbn [groups]. destruct l as [|b l]; [constructor|]. remember (b :: l) as x.
  destruct (le_lt_dec (List.length x) k) as [Hle|Hgt].
  - rewrite firstn_all2, skipn_all2 by lia. replace (groups n k []) with (@nil (list bool)) by (destruct n; reflexivity).
    constructor; [subst; discriminate|lia].
  - rewrite <- (firstn_skipn k x) at 1. constructor.
    + rewrite firstn_length. lia.
    + intros E. apply (f_equal (@List.length bool)) in E. rewrite skipn_length in E. cbn in E. lia.
    + apply IH. rewrite skipn_length. subst x. cbn [List.length] in *. lia.
Qed.
Lemma mapM_ok {A B} (g : A -> res B) (g' : A -> B) l : (forall x, In x l -> g x = Ok (g' x)) -> mapM g l = Ok (map g' l).
Proof.
  induction l as [|x l IH]; intros H; [reflexivity|]. cbn [mapM map]. rewrite (H x) by (left; reflexivity). cbn [rbind].
  rewrite IH by (intros; apply H; right; auto). reflexivity.
Qed.

(** The samples: the bits of the data cut into groups of BitsPerComponent, each read as a number. *)
Theorem C65_samples : forall im data b,
  im_filtered im = Ok data -> im_bpc im = VAtom (OInt b) -> 0 < b -> btruthy (im_decode im) = false ->
  exists gs, Cut (Z.to_nat b) (frombytes data) gs /\ decoded im = Ok (map (fun g => VAtom (OInt (num g))) gs).
Proof.
  intros im data b E1 E2 Hb Hd. exists (groups (List.length (frombytes data)) (Z.to_nat b) (frombytes data)).
  split; [apply groups_cut; lia|]. unfold decoded. rewrite E1, E2. cbn [rbind]. replace (b =? 0) with false by lia. replace (b <? 0) with false by lia.
  apply mapM_ok. intros g _. unfold sample. rewrite Hd, component_num. reflexivity.
Qed.
(** With a Decode array: the entry at that index, IndexError if there is none. *)
Theorem C65_decode : forall im data b l,
  im_filtered im = Ok data -> im_bpc im = VAtom (OInt b) -> 0 < b -> im_decode im = VArr l -> l <> [] ->
  exists gs, Cut (Z.to_nat b) (frombytes data) gs /\
    (Forall (fun g => num g < zlen l) gs -> decoded im = Ok (map (fun g => nth (Z.to_nat (num g)) l (VAtom ONull)) gs)) /\
    (~ Forall (fun g => num g < zlen l) gs -> decoded im = Err IndexErr).
Proof.
  intros im data b l E1 E2 Hb Hd Hl. exists (groups (List.length (frombytes data)) (Z.to_nat b) (frombytes data)).
  split; [apply groups_cut; lia|]. unfold decoded. rewrite E1, E2. cbn [rbind]. replace (b =? 0) with false by lia. replace (b <? 0) with false by lia.
  set (gs := groups _ _ _). rewrite Hd.
  assert (forall g, sample (VArr l) (component g) = list_index l (num g)) as HS
    by (intros g; unfold sample; rewrite component_num; destruct l; [contradiction|reflexivity]).
  split.
  - intros HF. apply mapM_ok. intros g Hg. rewrite HS. rewrite Forall_forall in HF. specialize (HF g Hg). pose proof (num_bound g).
    unfold list_index. destruct (nth_error l (Z.to_nat (num g))) eqn:E; [now rewrite (nth_error_nth _ _ _ E)|].
    apply nth_error_None in E. unfold zlen in HF. lia.
  - intros HF. clearbody gs. induction gs as [|g gs IH]; [contradiction HF; constructor|]. cbn [mapM]. rewrite HS.
    unfold list_index at 1. destruct (nth_error l (Z.to_nat (num g))) eqn:E; [|reflexivity]. cbn [rbind].
    rewrite IH; [reflexivity|]. intros HF'. apply HF. constructor; auto. assert (Z.to_nat (num g) < List.length l)%nat by (apply nth_error_Some; congruence).
    pose proof (num_bound g). unfold zlen. lia.
Qed.
(** In arithmetic: seeing the data as one number, sample i of b bits is the i-th group of b binary digits from the
    top.  (So rows are not taken to start at a byte boundary.) *)
Lemma cut_nth {A} k (l : list A) gs : Cut k l gs -> forall i g, nth_error gs i = Some g -> List.length g = k ->
  exists a c, l = a ++ g ++ c /\ List.length a = (i * k)%nat.
Proof.
  induction 1 as [|g0 H1 H2|g0 l gs E Hl HC IH]; intros i g Hi Hg.
  - destruct i; discriminate.
  - destruct i as [|[|i]]; inversion Hi; subst. exists [], []. split; [now rewrite app_nil_r|reflexivity].
  - destruct i as [|i]; cbn [nth_error] in Hi.
    + inversion Hi; subst. exists [], l. split; reflexivity.
    + destruct (IH i g Hi Hg) as (a & c & -> & Ha). exists (g0 ++ a), c. split; [now rewrite app_assoc|]. rewrite app_length. lia.
Qed.
Lemma cut_len {A} k (l : list A) gs : (0 < k)%nat -> Cut k l gs -> forall i, ((i + 1) * k <= List.length l)%nat ->
  exists g, nth_error gs i = Some g /\ List.length g = k.
Proof.
  intros Hk. induction 1 as [|g0 H1 H2|g0 l gs E Hl HC IH]; intros i Hi.
  - cbn in Hi. nia.
  - assert (i = 0%nat) as -> by nia. exists g0. split; [reflexivity|]. nia.
  - destruct i as [|i]; [exists g0; auto|]. rewrite app_length in Hi. destruct (IH i) as (g & A1 & A2); [nia|]. exists g. auto.
Qed.
Theorem C65_sample_value : forall im data b vs i,
  im_filtered im = Ok data -> bytes_ok data -> im_bpc im = VAtom (OInt b) -> 0 < b -> btruthy (im_decode im) = false ->
  decoded im = Ok vs -> (Z.of_nat i + 1) * b <= 8 * zlen data ->
  nth_error vs i = Some (VAtom (OInt ((big data / 2 ^ (8 * zlen data - (Z.of_nat i + 1) * b)) mod 2 ^ b))).
Proof.
  intros im data b vs i E1 Hd E2 Hb HD E Hi. destruct (C65_samples im data b E1 E2 Hb HD) as (gs & HC & E'). rewrite E in E'. injection E'; intros ->.
  destruct (cut_len (Z.to_nat b) _ _ ltac:(lia) HC i) as (g & Hg & Hl).
  { rewrite frombytes_len. unfold zlen in Hi. assert (b = Z.of_nat (Z.to_nat b)) as Eb by lia. rewrite Eb in Hi. clear - Hi. set (k := Z.to_nat b) in *.
    replace ((Z.of_nat i + 1) * Z.of_nat k) with (Z.of_nat ((i + 1) * k)) in Hi by lia. lia. }
  rewrite (map_nth_error _ _ _ Hg). do 3 f_equal. destruct (cut_nth _ _ _ HC i g Hg Hl) as (a & c & EQ & Ha).
  rewrite <- (frombytes_num data Hd), EQ, num_app, num_app.
  assert (8 * zlen data - (Z.of_nat i + 1) * b = zlen c) as Ec.
  { pose proof (frombytes_len data) as HL. rewrite EQ, !app_length in HL. rewrite Ha, Hl in HL. unfold zlen.
    assert (b = Z.of_nat (Z.to_nat b)) as Eb by lia. rewrite Eb. clear - HL. set (k := Z.to_nat b) in *.
    replace ((Z.of_nat i + 1) * Z.of_nat k) with (Z.of_nat (i * k + k)) by lia.
    idtac. lia. }
  rewrite Ec, zlen_app. pose proof (num_bound g). pose proof (num_bound c). pose proof (zlen_nonneg c). pose proof (zlen_nonneg g).
  assert (zlen g = b) as Eg by (unfold zlen; lia). rewrite Z.pow_add_r by lia.
  replace (num a * (2 ^ zlen g * 2 ^ zlen c) + (num g * 2 ^ zlen c + num c)) with ((num a * 2 ^ zlen g + num g) * 2 ^ zlen c + num c) by ring.
  assert (0 < 2 ^ zlen c) by (apply Z.pow_pos_nonneg; lia).
  rewrite Z.div_add_l by lia. rewrite (Z.div_small (num c)) by lia. rewrite Z.add_0_r, Eg.
  rewrite Z.add_comm, Z.mod_add by lia. rewrite Z.mod_small; [reflexivity|]. rewrite <- Eg. lia.
Qed.
(** The rows of a picture start at byte boundaries; the samples do not: the first sample of the second row of a
    3-pixel wide picture is taken from the padding. *)
Theorem C65_bits_per_component : forall im data, im_filtered im = Ok data ->
  (im_bpc im = VAtom (OInt 0) \/ im_bpc im = VAtom (OBool false) -> decoded im = Err ValueErr) /\
  (im_bpc im = VAtom ONull \/ (exists neg c e, im_bpc im = VAtom (OReal neg c e)) \/ (exists s, im_bpc im = VAtom (OName s)) -> decoded im = Err TypeErr) /\
  (forall n, n < 0 -> im_bpc im = VAtom (OInt n) -> decoded im = Ok []).
Proof.
  intros im data E. unfold decoded. rewrite E. cbn [rbind]. split; [intros [->| ->]; reflexivity|].
  split; [intros [->|[(neg & c & e & ->)|(s & ->)]]; reflexivity|]. intros n Hn ->. replace (n =? 0) with false by lia. replace (n <? 0) with true by lia. reflexivity.
Qed.
Theorem C65_rows_refuted : exists im data w, im_filtered im = Ok data /\ im_width im = VAtom (OInt w) /\ im_bpc im = VAtom (OInt 1) /\
  exists vs, decoded im = Ok vs /\ nth_error vs (Z.to_nat w) <> Some (VAtom (OInt (nth 1 data 0 / 128))).
Proof.
  exists (mkImg (VAtom (OInt 3)) (VAtom (OInt 2)) (VAtom ONull) (VAtom (OInt 1)) (VAtom ONull) (VAtom ONull) (VAtom ONull) (Ok [224; 224]) (Ok (VAtom ONull)) (VAtom ONull)), [224; 224], 3.
  repeat split. eexists. split; [vm_compute; reflexivity|]. vm_compute. discriminate.
Qed.
Example C65_ex : decoded (mkImg (VAtom (OInt 3)) (VAtom (OInt 2)) (VAtom ONull) (VAtom (OInt 3)) (VAtom ONull) (VAtom ONull) (VAtom ONull) (Ok [183]) (Ok (VAtom ONull)) (VAtom ONull))
  = Ok [VAtom (OInt 5); VAtom (OInt 5); VAtom (OInt 3)].
Proof. vm_compute. reflexivity. Qed.

(** C73.  What PIL is given. *)
Definition names (cs : bv) (l : list string) : Prop := exists s, cs = VAtom (OName (bs s)) /\ In s l.
Lemma names_mode cs l m : names cs l -> (forall s, In s l -> pil_mode (VAtom (OName (bs s))) = Ok m) -> pil_mode cs = Ok m.
Proof. intros (s & -> & Hs) H. auto. Qed.
(** Pictures in a device colour space, not masks and not JPEG, JPEG 2000 or fax coded: mode, size and data. *)
Theorem C73_device_pictures : forall sd im data w h mode n,
  (names (im_cs im) ["DeviceRGB"; "RGB"; "CalRGB"]%string /\ mode = bs "RGB" /\ n = 3) \/
  (names (im_cs im) ["DeviceCMYK"; "CMYK"; "CalCMYK"]%string /\ mode = bs "CMYK" /\ n = 4) \/
  (names (im_cs im) ["DeviceGrey"; "G"; "CalGrey"]%string /\ mode = bs "L" /\ n = 1) ->
  (im_filter im = VAtom ONull \/ exists f, im_filter im = VAtom (OName f) /\ ~ In f [bs "DCTDecode"; bs "JPXDecode"; bs "CCITTFaxDecode"]) ->
  btruthy (im_mask im) = false ->
  im_filtered im = Ok data -> im_width im = VAtom (OInt w) -> im_height im = VAtom (OInt h) -> 0 <= w -> 0 <= h ->
  exists bytes, to_pillow sd im = Ok (PBytes mode (im_width im) (im_height im) (VAtom (OStr bytes))) /\ zlen bytes = w * h * n /\
    ((exists cut, data = bytes ++ cut) \/ (exists k, bytes = data ++ repeat 0 k)).
Proof.
  intros sd im data w h mode n HC HF HM E1 E2 E3 Hw Hh. exists (recover mode w h data).
  assert (components mode n) as Hcm by (unfold components; destruct HC as [(_ & A & B)|[(_ & A & B)|(_ & A & B)]]; auto).
  split; [|apply C64_exact_size; auto; nia].
  assert (pil_mode (im_cs im) = Ok mode /\ exists s, im_cs im = VAtom (OName s)) as [EM [s Es]].
  { destruct HC as [(A & -> & _)|[(A & -> & _)|(A & -> & _)]];
      (split; [eapply names_mode; [exact A|]; intros s Hs; cbn [In] in Hs; repeat destruct Hs as [<-|Hs]; try contradiction; reflexivity
              |destruct A as (s & -> & _); eauto]). }
  unfold to_pillow. rewrite HM.
  assert (exists f, filter_name (im_filter im) = Ok f /\ says_any f [bs "DCTDecode"; bs "JPXDecode"] = false /\ says f (bs "CCITTFaxDecode") = false) as (f & -> & F1 & F2).
  { destruct HF as [->|(f & -> & Hf)].
    - eexists. split; [reflexivity|]. split; reflexivity.
    - eexists. split; [reflexivity|]. unfold says_any, says. cbn [existsb]. cbn [In] in Hf.
      assert (forall t, f <> t -> eqlZ f t = false) as HN by (intros t Ht; destruct (eqlZ f t) eqn:E; auto; apply eqlZ_eq in E; contradiction).
      rewrite !HN by (intros ->; apply Hf; auto). auto. }
  cbn [rbind]. rewrite F1, F2. cbn [orb]. rewrite Es in *. rewrite EM, E1. cbn [rbind]. rewrite E2, E3. reflexivity.
Qed.
(** JPEG and JPEG 2000 pictures: the encoded data as it is. *)
Theorem C73_jpeg : forall sd im s f, im_filter im = VAtom (OName f) -> f = bs "DCTDecode" \/ f = bs "JPXDecode" ->
  im_stream im = Ok s -> to_pillow sd im = Ok (POpen s).
Proof. intros sd im s f E H Es. unfold to_pillow. rewrite E, Es. destruct H as [-> | ->]; reflexivity. Qed.

(** Masks of one bit per sample: the data as it is; with Decode [1 0] the complement. *)
Lemma cut1 {A} (l : list A) gs : Cut 1 l gs -> gs = map (fun x => [x]) l.
Proof.
  induction 1 as [|g H1 H2|g l gs E Hl HC IH]; [reflexivity| |].
  - destruct g as [|x [|? ?]]; [contradiction|reflexivity|cbn in H2; lia].
  - destruct g as [|x [|? ?]]; try discriminate. cbn [app map]. now rewrite IH.
Qed.
Lemma to_bytes_from data : bytes_ok data -> forall f, (forall b, f (f b) = b) ->
  tobytes (map f (frombytes data)) = map (fun b => bits_val (map f (byte_bits b))) data.
Proof.
  intros Hd f _. unfold tobytes. rewrite (fill_whole _ (List.length data)) by (now rewrite map_length, frombytes_len).
  unfold zlen. rewrite map_length, frombytes_len.
  replace (Z.to_nat (Z.of_nat (8 * List.length data) / 8)) with (List.length data)
    by (replace (Z.of_nat (8 * List.length data)) with (Z.of_nat (List.length data) * 8) by lia; rewrite Z.div_mul by lia; lia).
  clear Hd. unfold frombytes. induction data as [|b data IH]; [reflexivity|]. cbn [List.length map List.concat].
  rewrite map_app. cbn [to_bytes_]. change 8%nat with (List.length (map f (byte_bits b))) at 1 2.
  rewrite firstn_app, firstn_all, Nat.sub_diag, firstn_O, app_nil_r.
  rewrite skipn_app, skipn_all, Nat.sub_diag, skipn_O. cbn [app]. now rewrite IH.
Qed.
Lemma mask_bits im data d1 d0 f : bytes_ok data -> im_filtered im = Ok data -> im_bpc im = VAtom (OInt 1) ->
  (forall b : bool, sample (im_decode im) (num [b]) = Ok (VAtom (OInt (if f b : bool then d1 else d0)))) -> d1 = 1 -> d0 = 0 -> (forall b, f (f b) = b) ->
  exists vs, decoded im = Ok vs /\ mapM as_bit vs = Ok (map f (frombytes data)).
Proof.
  intros Hd E1 E2 HS -> -> Hf.
  exists (map (fun b : bool => VAtom (OInt (if f b then 1 else 0))) (frombytes data)). split.
  - unfold decoded. rewrite E1, E2. cbn [rbind Z.eqb Z.ltb Z.compare].
    pose proof (groups_cut (Z.to_nat 1) ltac:(lia) (List.length (frombytes data)) (frombytes data) (le_n _)) as HC. apply cut1 in HC.
    rewrite HC. clear HC. induction (frombytes data) as [|b l IH]; [reflexivity|]. cbn [map mapM]. rewrite component_num, HS. cbn [rbind].
    rewrite IH. reflexivity.
  - induction (frombytes data) as [|b l IH]; [reflexivity|]. cbn [map mapM]. rewrite IH. destruct (f b); reflexivity.
Qed.
Theorem C73_masks : forall sd im data, bytes_ok data -> im_filtered im = Ok data -> im_bpc im = VAtom (OInt 1) ->
  btruthy (im_mask im) = true -> im_filter im = VAtom ONull ->
  (btruthy (im_decode im) = false \/ im_decode im = VArr [VAtom (OInt 0); VAtom (OInt 1)] ->
   to_pillow sd im = Ok (PBytes (bs "1") (im_width im) (im_height im) (VAtom (OStr data)))) /\
  (im_decode im = VArr [VAtom (OInt 1); VAtom (OInt 0)] ->
   to_pillow sd im = Ok (PBytes (bs "1") (im_width im) (im_height im) (VAtom (OStr (map (fun b => 255 - b) data))))).
Proof.
  intros sd im data Hd E1 E2 HM HF.
  assert (forall f, (forall b, f (f b) = b) -> (forall b : bool, sample (im_decode im) (num [b]) = Ok (VAtom (OInt (if f b : bool then 1 else 0)))) ->
    to_pillow sd im = Ok (PBytes (bs "1") (im_width im) (im_height im) (VAtom (OStr (map (fun b => bits_val (map f (byte_bits b))) data))))) as G.
  { intros f Hf HS. destruct (mask_bits im data 1 0 f Hd E1 E2 HS eq_refl eq_refl Hf) as (vs & EV & EB).
    unfold to_pillow. rewrite HF. cbn [filter_name rbind says_any existsb says orb]. rewrite HM, EV. cbn [rbind]. rewrite EB. cbn [rbind].
    now rewrite to_bytes_from. }
  split.
  - intros HD. rewrite (G (fun b => b)); [|auto|].
    + do 4 f_equal. rewrite <- (map_id data) at 2. apply map_ext_in. intros b Hb. rewrite map_id, bits_val_num. apply byte_num.
      unfold bytes_ok in Hd. rewrite Forall_forall in Hd. now apply Hd.
    + intros b. destruct HD as [HD | ->]; [unfold sample; rewrite HD; destruct b; reflexivity|destruct b; reflexivity].
  - intros HD. rewrite (G negb); [|apply negb_involutive|rewrite HD; intros []; reflexivity].
    do 4 f_equal. apply map_ext_in. intros b Hb. unfold bytes_ok in Hd. rewrite Forall_forall in Hd. specialize (Hd b Hb). unfold byte_ok in Hd.
    assert (forallb (fun n => bits_val (map negb (byte_bits (Z.of_nat n))) =? 255 - Z.of_nat n) (seq 0 256) = true) as HF' by (vm_compute; reflexivity).
    rewrite forallb_forall in HF'. specialize (HF' (Z.to_nat b)). rewrite Z2Nat.id in HF' by lia. apply Z.eqb_eq, HF', in_seq. lia.
Qed.
(** Indexed pictures: the palette's bytes in the mode of the base colour space, and the data. *)
Theorem C73_indexed : forall sd im data base hi lookup m,
  im_cs im = VArr [VAtom (OName (bs "Indexed")); base; hi; VAtom (OStr lookup)] -> pil_mode base = Ok m ->
  im_filter im = VAtom ONull -> btruthy (im_mask im) = false -> im_filtered im = Ok data ->
  to_pillow sd im = Ok (PPalette (im_width im) (im_height im) (VAtom (OStr lookup)) m (VAtom (OStr data))).
Proof. intros sd im data base hi lookup m E1 E2 E3 E4 E5. unfold to_pillow. rewrite E3, E4, E1. cbn. now rewrite E2, E5. Qed.

(** The palette may be a stream, whose decoded data are meant, or a hexadecimal string: the bytes its pairs of digits stand for. *)
Inductive HexBytes : list Z -> list Z -> Prop :=
| Hb_nil : HexBytes [] []
| Hb_pair a b x y h l : digit16 a x -> digit16 b y -> HexBytes h l -> HexBytes (a :: b :: h) (16 * x + y :: l)
with digit16 : Z -> Z -> Prop :=
| Dg_num n : 0 <= n <= 9 -> digit16 (48 + n) n
| Dg_upper n : 10 <= n <= 15 -> digit16 (65 + (n - 10)) n
| Dg_lower n : 10 <= n <= 15 -> digit16 (97 + (n - 10)) n.
Lemma digit16_val a x : digit16 a x -> hexval a = Some x.
Proof.
  destruct 1 as [n H|n H|n H]; unfold hexval.
  - replace ((48 <=? 48 + n) && (48 + n <=? 57)) with true by lia. f_equal. lia.
  - replace ((48 <=? 65 + (n - 10)) && (65 + (n - 10) <=? 57)) with false by lia. replace ((65 <=? 65 + (n - 10)) && (65 + (n - 10) <=? 70)) with true by lia. f_equal. lia.
  - replace ((48 <=? 97 + (n - 10)) && (97 + (n - 10) <=? 57)) with false by lia. replace ((65 <=? 97 + (n - 10)) && (97 + (n - 10) <=? 70)) with false by lia.
    replace ((97 <=? 97 + (n - 10)) && (97 + (n - 10) <=? 102)) with true by lia. f_equal. lia.
Qed.
Lemma hex_bytes_ok h l : HexBytes h l -> hex_bytes h = l.
Proof. induction 1 as [|a b x y h l H1 H2 _ IH]; [reflexivity|]. unfold hex_bytes. rewrite (digit16_val _ _ H1), (digit16_val _ _ H2). f_equal. exact IH. Qed.
Theorem C73_indexed_palettes : forall sd im data base hi lk lookup m,
  im_cs im = VArr [VAtom (OName (bs "Indexed")); base; hi; lk] -> pil_mode base = Ok m ->
  (exists h, lk = VAtom (OHex h) /\ HexBytes h lookup) \/ (exists c d b, lk = VStm c d b /\ sd lk = Ok lookup) ->
  im_filter im = VAtom ONull -> btruthy (im_mask im) = false -> im_filtered im = Ok data ->
  to_pillow sd im = Ok (PPalette (im_width im) (im_height im) (VAtom (OStr lookup)) m (VAtom (OStr data))).
Proof.
  intros sd im data base hi lk lookup m E1 E2 Hlk E3 E4 E5. unfold to_pillow. rewrite E3, E4, E1. destruct Hlk as [(h & -> & H)|(c & d & b & -> & H)].
  - cbn. rewrite (hex_bytes_ok _ _ H), E2, E5. reflexivity.
  - cbn. rewrite H. cbn. rewrite E2, E5. reflexivity.
Qed.
(** The mode of a base colour space: ICC profiles have it by their number of components; nothing else will do. *)
Theorem C73_icc_modes : forall c d more, let cs p := VArr (VAtom (OName (bs "ICCBased")) :: p :: more) in
  let n := aget d (bs "N") in forall p, p = VDict c d \/ (exists data, p = VStm c d data) ->
  (n = Some (VAtom (OInt 1)) -> pil_mode (cs p) = Ok (bs "L")) /\ (n = Some (VAtom (OInt 3)) -> pil_mode (cs p) = Ok (bs "RGB")) /\
  (n = Some (VAtom (OInt 4)) -> pil_mode (cs p) = Ok (bs "CMYK")) /\
  (n = None \/ (exists k, n = Some (VAtom (OInt k)) /\ ~ In k [1; 3; 4]) \/ (exists s, n = Some (VAtom (OName s)) \/ n = Some (VAtom (OStr s))) -> pil_mode (cs p) = Err ValueErr) /\
  pil_mode (cs (VAtom (OInt 3))) = Err AttributeErr.
Proof.
  intros c d more cs n p Hp.
  assert (forall v, icc_n p = Ok v -> pil_mode (cs p) = (if is_num v 1 then Ok (bs "L") else if is_num v 3 then Ok (bs "RGB") else if is_num v 4 then Ok (bs "CMYK") else Err ValueErr)) as HM.
  { intros v E. unfold cs. cbn [pil_mode]. change (says (VAtom (OName (bs "ICCBased"))) (bs "ICCBased")) with true. cbv iota. rewrite E. cbn [rbind].
    destruct (is_num v 1); [reflexivity|]. destruct (is_num v 3); [reflexivity|]. destruct (is_num v 4); reflexivity. }
  assert (icc_n p = Ok (match n with Some x => x | None => VAtom ONull end)) as E by (destruct Hp as [->|[data ->]]; reflexivity).
  specialize (HM _ E). rewrite HM. clear HM E. split; [intros ->; reflexivity|]. split; [intros ->; reflexivity|]. split; [intros ->; reflexivity|]. split; [|reflexivity].
  intros [->|[(k & -> & Hk)|(s & [->| ->])]]; try reflexivity. cbn [is_num].
  destruct (Z.eqb_spec k 1) as [->|]; [exfalso; apply Hk; cbn; auto|]. destruct (Z.eqb_spec k 3) as [->|]; [exfalso; apply Hk; cbn; auto|].
  destruct (Z.eqb_spec k 4) as [->|]; [exfalso; apply Hk; cbn; auto|]. reflexivity.
Qed.
(** Several filters: the last one listed decides.  An empty list of filters is an error. *)
Theorem C73_last_filter : forall sd im fs f s, im_filter im = VArr (fs ++ [VAtom (OName f)]) -> f = bs "DCTDecode" \/ f = bs "JPXDecode" ->
  im_stream im = Ok s -> to_pillow sd im = Ok (POpen s).
Proof.
  intros sd im fs f s E H Es. unfold to_pillow. rewrite E, Es. assert (filter_name (VArr (fs ++ [VAtom (OName f)])) = Ok (VAtom (OName f))) as ->.
  { unfold filter_name. destruct (fs ++ [VAtom (OName f)]) eqn:X; [destruct fs; discriminate|]. rewrite <- X, last_last. reflexivity. }
  destruct H as [-> | ->]; reflexivity.
Qed.
Theorem C73_no_filter_listed_refuted : forall sd im, im_filter im = VArr [] -> to_pillow sd im = Err IndexErr.
Proof. intros sd im E. unfold to_pillow. rewrite E. reflexivity. Qed.
Example C73_palettes_ex sd :
  to_pillow sd (mkImg (VAtom (OInt 2)) (VAtom (OInt 1)) (VAtom ONull) (VAtom (OInt 8)) (VAtom ONull)
    (VArr [VAtom (OName (bs "Indexed")); VArr [VAtom (OName (bs "ICCBased")); VStm None [(bs "N", VAtom (OInt 3))] []]; VAtom (OInt 1); VAtom (OHex (bs "00FF7f000A0b"))]) (VAtom ONull) (Ok [0; 1]) (Ok (VAtom ONull)) (VAtom ONull))
  = Ok (PPalette (VAtom (OInt 2)) (VAtom (OInt 1)) (VAtom (OStr [0; 255; 127; 0; 10; 11])) (bs "RGB") (VAtom (OStr [0; 1]))).
Proof.
  pose proof (C73_indexed_palettes sd (mkImg (VAtom (OInt 2)) (VAtom (OInt 1)) (VAtom ONull) (VAtom (OInt 8)) (VAtom ONull)
    (VArr [VAtom (OName (bs "Indexed")); VArr [VAtom (OName (bs "ICCBased")); VStm None [(bs "N", VAtom (OInt 3))] []]; VAtom (OInt 1); VAtom (OHex (bs "00FF7f000A0b"))]) (VAtom ONull) (Ok [0; 1]) (Ok (VAtom ONull)) (VAtom ONull)) [0; 1] (VArr [VAtom (OName (bs "ICCBased")); VStm None [(bs "N", VAtom (OInt 3))] []]) (VAtom (OInt 1)) (VAtom (OHex (bs "00FF7f000A0b"))) [0; 255; 127; 0; 10; 11] (bs "RGB")) as H.
  cbv delta [im_width im_height im_mask im_cs im_filter im_filtered im_bpc] in H. cbv beta iota in H.
  apply H; try reflexivity. clear H.
  left. exists (bs "00FF7f000A0b"). split; [reflexivity|].
  assert (forall n, 0 <= n <= 9 -> digit16 (48 + n) n) as D by apply Dg_num. assert (forall n, 10 <= n <= 15 -> digit16 (65 + (n - 10)) n) as U by apply Dg_upper. assert (forall n, 10 <= n <= 15 -> digit16 (97 + (n - 10)) n) as L by apply Dg_lower.
  apply (Hb_pair 48 48 0 0); [apply (D 0); lia|apply (D 0); lia|]. apply (Hb_pair 70 70 15 15); [apply (U 15); lia|apply (U 15); lia|].
  apply (Hb_pair 55 102 7 15); [apply (D 7); lia|apply (L 15); lia|]. apply (Hb_pair 48 48 0 0); [apply (D 0); lia|apply (D 0); lia|].
  apply (Hb_pair 48 65 0 10); [apply (D 0); lia|apply (U 10); lia|]. apply (Hb_pair 48 98 0 11); [apply (D 0); lia|apply (L 11); lia|constructor].
Qed.

(** What goes wrong.  The grey colour spaces are looked for under British names: DeviceGray and CalGray pictures
    become palette pictures. *)
Theorem C73_gray_refuted : pil_mode (VAtom (OName (bs "DeviceGray"))) = Ok (bs "P") /\ pil_mode (VAtom (OName (bs "CalGray"))) = Ok (bs "P").
Proof. split; reflexivity. Qed.
(** No picture in an ICC based colour space (an array of two) can be converted. *)
Theorem C73_icc_refuted : forall sd im p, im_cs im = VArr [VAtom (OName (bs "ICCBased")); p] ->
  im_filter im = VAtom ONull -> btruthy (im_mask im) = false -> to_pillow sd im = Err IndexErr.
Proof. intros sd im p E1 E2 E3. unfold to_pillow. rewrite E2, E3, E1. reflexivity. Qed.
(** BitsPerComponent is not looked at: a picture of 16 black or white pixels in two bytes is taken for 16 bytes of which
    14 are missing. *)
Theorem C73_bits_refuted : forall sd, to_pillow sd
  (mkImg (VAtom (OInt 8)) (VAtom (OInt 2)) (VAtom ONull) (VAtom (OInt 1)) (VAtom ONull) (VAtom (OName (bs "G"))) (VAtom ONull) (Ok [255; 255]) (Ok (VAtom ONull)) (VAtom ONull))
  = Ok (PBytes (bs "L") (VAtom (OInt 8)) (VAtom (OInt 2)) (VAtom (OStr ([255; 255] ++ repeat 0 14)))).
Proof. reflexivity. Qed.
(** Inline pictures coded with DCTDecode raise AttributeError. *)
Theorem C73_inline_jpeg_refuted : forall sd filtered data,
  to_pillow sd (inline_image filtered [(bs "F", VAtom (OName (bs "DCTDecode")))] data) = Err AttributeErr.
Proof. reflexivity. Qed.
(** Inline pictures may use the abbreviated keys; the long one wins unless it is empty, zero, false or null. *)
Theorem C73_inline_keys : forall filtered d data v,
  (aget d (bs "Width") = Some v -> btruthy v = true -> im_width (inline_image filtered d data) = v) /\
  (aget d (bs "Width") = None -> aget d (bs "W") = Some v -> im_width (inline_image filtered d data) = v) /\
  (aget d (bs "ColorSpace") = None -> aget d (bs "CS") = Some v -> im_cs (inline_image filtered d data) = v) /\
  (aget d (bs "BitsPerComponent") = None -> aget d (bs "BPC") = Some v -> im_bpc (inline_image filtered d data) = v) /\
  (aget d (bs "Height") = None -> aget d (bs "H") = Some v -> im_height (inline_image filtered d data) = v) /\
  (aget d (bs "Decode") = None -> aget d (bs "D") = Some v -> im_decode (inline_image filtered d data) = v) /\
  (aget d (bs "ImageMask") = None -> aget d (bs "IM") = Some v -> im_mask (inline_image filtered d data) = v) /\
  (aget d (bs "Filter") = None -> aget d (bs "F") = Some v -> im_filter (inline_image filtered d data) = v).
Proof.
  intros filtered d data v. unfold inline_image, inline_attr. cbv zeta. cbn [im_width im_height im_cs im_bpc im_decode im_mask im_filter].
  repeat split; intros H1; rewrite H1; intros H2; rewrite ?H2; reflexivity.
Qed.

Print Assumptions C64_exact_size.
Print Assumptions C64_right_size_untouched.
Print Assumptions C65_samples.
Print Assumptions C65_decode.
Print Assumptions C65_sample_value.
Print Assumptions C65_rows_refuted.
Print Assumptions C73_device_pictures.
Print Assumptions C73_jpeg.
Print Assumptions C73_masks.
Print Assumptions C73_indexed.
Print Assumptions C73_gray_refuted.
Print Assumptions C73_icc_refuted.
Print Assumptions C73_bits_refuted.
Print Assumptions C73_inline_jpeg_refuted.
Print Assumptions C73_inline_keys.
Print Assumptions C73_indexed_palettes.
Print Assumptions C73_icc_modes.
Print Assumptions C73_last_filter.
Print Assumptions C73_no_filter_listed_refuted.
Print Assumptions C65_bits_per_component.
