(** What rendering an inline image puts on the canvas: C41, continued. *)
From Coq Require Import String.
From Verif Require Import Prelude M_Prog M_Parser M_Filters M_Document M_Objects M_Viewer L_PageDraw.
Local Open Scope Z_scope.

(** *** The specification *)
(** base 85 as in RFC 1924 (Python's base64.b85encode): the value of a character *)
Definition value85 (c : Z) : Z :=
  if (48 <=? c) && (c <=? 57) then c - 48 else if (65 <=? c) && (c <=? 90) then c - 65 + 10 else if (97 <=? c) && (c <=? 122) then c - 97 + 36
  else match c with
  | 33 => 62 | 35 => 63 | 36 => 64 | 37 => 65 | 38 => 66 | 40 => 67 | 41 => 68 | 42 => 69 | 43 => 70 | 45 => 71 | 59 => 72 | 60 => 73
  | 61 => 74 | 62 => 75 | 63 => 76 | 64 => 77 | 94 => 78 | 95 => 79 | 96 => 80 | 123 => 81 | 124 => 82 | 125 => 83 | 126 => 84 | _ => -1
  end.
Definition number (base : Z) (ds : list Z) : Z := fold_left (fun a d => a * base + d) ds 0.
Definition digits85 (t ds : list Z) : Prop := map value85 t = ds /\ Forall (fun d => 0 <= d < 85) ds.
(** Five characters are four bytes; k + 1 characters at the end, completed with the last digit, start with k bytes. *)
Inductive Base85 : list Z -> list Z -> Prop :=
| B_nil : Base85 [] []
| B_group t ds l t' l' : digits85 t ds -> List.length t = 5%nat -> List.length l = 4%nat -> number 85 ds = number 256 l -> Base85 t' l' -> Base85 (t ++ t') (l ++ l')
| B_last t ds l k : (1 <= k <= 3)%nat -> digits85 t ds -> List.length t = (k + 1)%nat -> List.length l = k ->
    number 85 (ds ++ repeat 84 (4 - k)) / 256 ^ Z.of_nat (4 - k) = number 256 l -> Base85 t l.

(** The text of an image: its entries, the names of its filters and its data. *)
Definition image_text (entries names : list (list Z)) (data : list Z) : list Z :=
  [10] ++ bs "BI" ++ [10] ++ join [32] entries ++ bs " /Filter [" ++ flat_map (fun f => bs " /" ++ f ++ bs " ") names ++ bs "]" ++
  [10] ++ bs "ID" ++ [10] ++ data ++ [10] ++ bs "EI".
(** the filters an image names: in its own key or in the short one *)
Definition has_filter (d : dict) (f : obj) : Prop := dget d (bs "Filter") = Some f \/ (dget d (bs "Filter") = None /\ dget d (bs "F") = Some f).
Definition filters_of (d : dict) (fs : list (list Z)) : Prop :=
  (exists f, fs = [f] /\ f <> [] /\ has_filter d (OName f)) \/ (fs <> [] /\ has_filter d (OArr (map OName fs))).
Definition ascii_filter (f : list Z) : Prop := f = bs "ASCIIHexDecode" \/ f = bs "AHx" \/ f = bs "ASCII85Decode" \/ f = bs "A85".
Definition entry_text (real_str : bool -> Z -> Z -> list Z) (d : dict) (es : list (list Z)) : Prop :=
  Forall2 (fun p e => exists s, to_str real_str (snd p) = Ok s /\ e = bs "/" ++ fst p ++ bs " " ++ s)
          (filter (fun p => negb (eqlZ (fst p) (bs "F") || eqlZ (fst p) (bs "Filter"))) d) es.

(** *** Proofs *)
Lemma value_digit d : 0 <= d < 85 -> value85 (b85_digit d) = d /\ 0 <= b85_digit d < 128.
Proof.
  intros H. assert (forallb (fun n => (value85 (b85_digit (Z.of_nat n)) =? Z.of_nat n) && (0 <=? b85_digit (Z.of_nat n)) && (b85_digit (Z.of_nat n) <? 128)) (seq 0 85) = true) as HA by (vm_compute; reflexivity).
  rewrite forallb_forall in HA. specialize (HA (Z.to_nat d)). rewrite Z2Nat.id in HA by lia. assert (In (Z.to_nat d) (seq 0 85)) as Hi by (apply in_seq; lia). specialize (HA Hi). lia.
Qed.
Lemma digits_ok ds : Forall (fun d => 0 <= d < 85) ds -> digits85 (map b85_digit ds) ds.
Proof.
  intros H. split; [|exact H]. rewrite map_map. induction H as [|d ds Hd _ IH]; [reflexivity|]. cbn [map]. f_equal; [apply value_digit; exact Hd|exact IH].
Qed.
Lemma group_digits w : 0 <= w < 4294967296 -> exists d0 d1 d2 d3 d4, 0 <= d0 < 85 /\ 0 <= d1 < 85 /\ 0 <= d2 < 85 /\ 0 <= d3 < 85 /\ 0 <= d4 < 85 /\
  w / 52200625 mod 85 = d0 /\ w / 614125 mod 85 = d1 /\ w / 7225 mod 85 = d2 /\ w / 85 mod 85 = d3 /\ w mod 85 = d4 /\
  w = 52200625 * d0 + 614125 * d1 + 7225 * d2 + 85 * d3 + d4.
Proof.
  intros Hw. assert (w / 52200625 mod 85 = w / 52200625) as A0 by (apply Z.mod_small; split; [apply Z.div_pos; lia|apply Z.div_lt_upper_bound; lia]).
  pose proof (Z.div_mod (w / 614125) 85 ltac:(lia)) as A1. rewrite Z.div_div in A1 by lia. change (614125 * 85) with 52200625 in A1.
  pose proof (Z.div_mod (w / 7225) 85 ltac:(lia)) as A2. rewrite Z.div_div in A2 by lia. change (7225 * 85) with 614125 in A2.
  pose proof (Z.div_mod (w / 85) 85 ltac:(lia)) as A3. rewrite Z.div_div in A3 by lia. change (85 * 85) with 7225 in A3.
  pose proof (Z.div_mod w 85 ltac:(lia)) as A4.
  exists (w / 52200625 mod 85), (w / 614125 mod 85), (w / 7225 mod 85), (w / 85 mod 85), (w mod 85).
  repeat (split; [apply Z.mod_pos_bound; lia|]). do 5 (split; [reflexivity|]). lia.
Qed.
Lemma b85_text : forall n l, (List.length l <= n)%nat -> Forall (fun x => 0 <= x < 256) l -> Base85 (b85_go n l) l.
Proof.
  induction n as [|n IH]; intros l Hn HF; [destruct l; [constructor|cbn in Hn; lia]|].
  destruct l as [|x0 l]; [constructor|]. cbn [b85_go]. inversion HF as [|? ? H0 HF1]; subst.
  destruct l as [|x1 l]; [|inversion HF1 as [|? ? H1 HF2]; subst; destruct l as [|x2 l]; [|inversion HF2 as [|? ? H2 HF3]; subst; destruct l as [|x3 l]; [|inversion HF3 as [|? ? H3 HF4]; subst]]].
  - cbn [List.length Nat.min app firstn fold_left Nat.add skipn]. set (w := 256 * (256 * (256 * (256 * 0 + x0) + 0) + 0) + 0).
    assert (w = 16777216 * x0) as Ew by (unfold w; lia). destruct (group_digits w ltac:(lia)) as (d0 & d1 & d2 & d3 & d4 & D0 & D1 & D2 & D3 & D4 & -> & -> & -> & -> & -> & E).
    replace (b85_go n []) with (@nil Z) by (destruct n; reflexivity). rewrite app_nil_r. cbn [map firstn].
    apply (B_last _ [d0; d1] [x0] 1); [lia|apply (digits_ok [_; _]); auto|reflexivity|reflexivity|].
    cbn [app repeat Nat.sub]. change (256 ^ Z.of_nat 3) with 16777216. unfold number. cbn [fold_left]. clear - E Ew D0 D1 D2 D3 D4.
    symmetry. apply Z.div_unique with (r := (((((0 * 85 + d0) * 85 + d1) * 85 + 84) * 85 + 84) * 85 + 84) - 16777216 * x0); lia.
  - cbn [List.length Nat.min app firstn fold_left Nat.add skipn]. set (w := 256 * (256 * (256 * (256 * 0 + x0) + x1) + 0) + 0).
    assert (w = 65536 * (256 * x0 + x1)) as Ew by (unfold w; lia). destruct (group_digits w ltac:(lia)) as (d0 & d1 & d2 & d3 & d4 & D0 & D1 & D2 & D3 & D4 & -> & -> & -> & -> & -> & E).
    replace (b85_go n []) with (@nil Z) by (destruct n; reflexivity). rewrite app_nil_r. cbn [map firstn].
    apply (B_last _ [d0; d1; d2] [x0; x1] 2); [lia|apply (digits_ok [_; _; _]); auto|reflexivity|reflexivity|].
    cbn [app repeat Nat.sub]. change (256 ^ Z.of_nat 2) with 65536. unfold number. cbn [fold_left]. clear - E Ew D0 D1 D2 D3 D4.
    symmetry. apply Z.div_unique with (r := (((((0 * 85 + d0) * 85 + d1) * 85 + d2) * 85 + 84) * 85 + 84) - 65536 * (256 * x0 + x1)); lia.
  - cbn [List.length Nat.min app firstn fold_left Nat.add skipn]. set (w := 256 * (256 * (256 * (256 * 0 + x0) + x1) + x2) + 0).
    assert (w = 256 * (65536 * x0 + 256 * x1 + x2)) as Ew by (unfold w; lia). destruct (group_digits w ltac:(lia)) as (d0 & d1 & d2 & d3 & d4 & D0 & D1 & D2 & D3 & D4 & -> & -> & -> & -> & -> & E).
    replace (b85_go n []) with (@nil Z) by (destruct n; reflexivity). rewrite app_nil_r. cbn [map firstn].
    apply (B_last _ [d0; d1; d2; d3] [x0; x1; x2] 3); [lia|apply (digits_ok [_; _; _; _]); auto|reflexivity|reflexivity|].
    cbn [app repeat Nat.sub]. change (256 ^ Z.of_nat 1) with 256. unfold number. cbn [fold_left]. clear - E Ew D0 D1 D2 D3 D4.
    symmetry. apply Z.div_unique with (r := (((((0 * 85 + d0) * 85 + d1) * 85 + d2) * 85 + d3) * 85 + 84) - 256 * (65536 * x0 + 256 * x1 + x2)); lia.
  - cbn [List.length Nat.min app firstn fold_left Nat.add skipn]. set (w := 256 * (256 * (256 * (256 * 0 + x0) + x1) + x2) + x3).
    assert (w = 16777216 * x0 + 65536 * x1 + 256 * x2 + x3) as Ew by (unfold w; lia). destruct (group_digits w ltac:(lia)) as (d0 & d1 & d2 & d3 & d4 & D0 & D1 & D2 & D3 & D4 & -> & -> & -> & -> & -> & E).
    cbn [map firstn]. change (x0 :: x1 :: x2 :: x3 :: l) with ([x0; x1; x2; x3] ++ l).
    apply (B_group _ [d0; d1; d2; d3; d4]); [apply (digits_ok [_; _; _; _; _]); auto 10|reflexivity|reflexivity| |].
    + unfold number. cbn [fold_left]. clear - E Ew. lia.
    + apply IH; [cbn [List.length] in Hn; lia|exact HF4].
Qed.
(** The text says what the data are. *)
Lemma number_inj : forall l l' a a', List.length l = List.length l' -> Forall (fun x => 0 <= x < 256) l -> Forall (fun x => 0 <= x < 256) l' ->
  fold_left (fun a d => a * 256 + d) l a = fold_left (fun a d => a * 256 + d) l' a' -> a = a' /\ l = l'.
Proof.
  induction l as [|x l IH]; intros [|y l'] a a' HL HF HF' E; try discriminate; [auto|]. cbn [fold_left] in E. inversion HF; inversion HF'; subst.
  apply IH in E; auto. destruct E as [E ->]. assert (x = y) as -> by lia. split; [lia|reflexivity].
Qed.
Lemma digits_len t ds : digits85 t ds -> List.length ds = List.length t.
Proof. intros [<- _]. apply map_length. Qed.
Lemma base85_unique t l : Base85 t l -> forall l', Base85 t l' -> Forall (fun x => 0 <= x < 256) l -> Forall (fun x => 0 <= x < 256) l' -> l = l'.
Proof.
  induction 1 as [|t ds l t2 l2 D1 D2 D3 D4 HB IH|t ds l k Hk D1 D2 D3 D4]; intros l' HB' HF HF'.
  - inversion HB' as [|t1 ds' l1 t3 l3 E1 E2 E3 E4 HB3 EQ1 EQ2|t1 ds' l1 k' Hk' E1 E2 E3 E4 EQ1 EQ2]; subst; auto; [|cbn in E2; lia].
    destruct t1; [discriminate E2|discriminate EQ1].
  - apply Forall_app in HF. destruct HF as [F1 F2].
    inversion HB' as [EQ1|t1 ds' l1 t3 l3 E1 E2 E3 E4 HB3 EQ1 EQ2|t1 ds' l1 k' Hk' E1 E2 E3 E4 EQ1 EQ2]; subst.
    + destruct t; [discriminate D2|discriminate EQ1].
    + apply Forall_app in HF'. destruct HF' as [F3 F4].
      assert (t1 = t /\ t3 = t2) as [-> ->]. { clear - EQ1 D2 E2. destruct t as [|? [|? [|? [|? [|? [|? ?]]]]]]; try discriminate D2. destruct t1 as [|? [|? [|? [|? [|? [|? ?]]]]]]; try discriminate E2. cbn [app] in EQ1. injection EQ1. intros; subst; auto. }
      assert (ds' = ds) as -> by (destruct D1 as [<- _]; destruct E1 as [<- _]; reflexivity).
      f_equal; [|apply IH; auto]. apply (number_inj l l1 0 0); auto; [congruence|]. unfold number in *. congruence.
    + rewrite app_length in E2. lia.
  - inversion HB' as [EQ1|t1 ds' l1 t3 l3 E1 E2 E3 E4 HB3 EQ1 EQ2|t1 ds' l1 k' Hk' E1 E2 E3 E4 EQ1 EQ2]; subst.
    + cbn in D2. lia.
    + rewrite app_length in D2. lia.
    + assert (ds' = ds) as -> by (destruct D1 as [<- _]; destruct E1 as [<- _]; reflexivity). assert (List.length l' = List.length l) as EL by lia. rewrite EL in E4.
      apply (number_inj l l' 0 0); auto. unfold number in *. congruence.
Qed.

(** C41.  What stands on the canvas for the data of an inline image without a filter in text: all its bytes, in base 85. *)
Theorem C41_image_data : forall data, Forall (fun x => 0 <= x < 256) data ->
  Base85 (b85encode data) data /\ forall data', Forall (fun x => 0 <= x < 256) data' -> Base85 (b85encode data) data' -> data' = data.
Proof.
  intros data HF. assert (Base85 (b85encode data) data) as H by (apply b85_text; auto). split; [exact H|]. intros data' HF' H'. eapply base85_unique; eauto.
Qed.

Lemma entries_mapM real_str d es : entry_text real_str d es ->
  mapM (fun p => rbind (to_str real_str (snd p)) (fun s => Ok (47 :: fst p ++ 32 :: s))) (filter (fun p => negb (eqlZ (fst p) (bs "F") || eqlZ (fst p) (bs "Filter"))) d) = Ok es.
Proof.
  unfold entry_text. induction 1 as [|p e l es (s & H1 & ->) _ IH]; [reflexivity|]. cbn [mapM]. rewrite H1. cbn [rbind]. rewrite IH. reflexivity.
Qed.
Lemma image_filter_is d f : has_filter d f -> truthy f = true -> image_filter d = f.
Proof.
  intros [H|[H1 H2]] Ht; unfold image_filter, oget.
  - rewrite H, Ht. reflexivity.
  - rewrite H1, H2. reflexivity.
Qed.
Lemma ascii_is f : existsb (eqlZ f) ascii_filters = true <-> ascii_filter f.
Proof.
  unfold ascii_filters, ascii_filter. cbn [map existsb]. rewrite !orb_true_iff, !eqlZ_eq. intuition discriminate.
Qed.
Lemma b85_small l : forallb (fun c => c <? 128) (b85encode l ++ bs "~>") = true.
Proof. rewrite forallb_app, b85_ascii. reflexivity. Qed.

(** C41.  The whole text of an inline image: its entries, but its filter; its filters, after the base-85 filter unless the
    first one is an ASCII filter; its data, in base 85 unless the first filter is an ASCII filter.  An image without
    filter is written with one named "None" (defect). *)
Theorem C41_image_written : forall real_str d es data, entry_text real_str d es -> Forall (fun x => 0 <= x < 256) data ->
  (forall f fs, filters_of d (f :: fs) ->
    (ascii_filter f -> Forall (fun c => c < 128) data -> image_str real_str d data = Ok (image_text es (f :: fs) data)) /\
    (ascii_filter f -> Exists (fun c => 128 <= c) data -> image_str real_str d data = Err UnicodeErr) /\
    (~ ascii_filter f -> exists t, Base85 t data /\ image_str real_str d data = Ok (image_text es (bs "ASCII85Decode" :: f :: fs) (t ++ bs "~>")))) /\
  (dget d (bs "Filter") = None -> dget d (bs "F") = None ->
    exists t, Base85 t data /\ image_str real_str d data = Ok (image_text es [bs "ASCII85Decode"; bs "None"] (t ++ bs "~>"))).
Proof.
  intros real_str d es data HE HF. destruct (C41_image_data data HF) as [HB _].
  assert (forall fs f, (match image_filter d with OArr l => l | g => [g] end) = map OName (f :: fs) ->
    image_str real_str d data =
      (let asc := existsb (eqlZ f) ascii_filters in let content := if asc then data else b85encode data ++ bs "~>" in
       if forallb (fun c => c <? 128) content then Ok (image_text es (if asc then f :: fs else bs "ASCII85Decode" :: f :: fs) content) else Err UnicodeErr)) as HI.
  { intros fs f Ef. unfold image_str. rewrite (entries_mapM real_str d es HE). cbn [rbind]. rewrite Ef. cbn [map]. cbv zeta.
    assert (map fmt_filter (map OName fs) = fs) as -> by (rewrite map_map; apply map_id). cbn [fmt_filter].
    destruct (existsb (eqlZ f) ascii_filters); destruct (forallb _ _); reflexivity. }
  split.
  - intros f fs HFs.
    assert ((match image_filter d with OArr l => l | g => [g] end) = map OName (f :: fs)) as Ef.
    { destruct HFs as [(g & Eg & Hg & Hh)|[Hn Hh]].
      - injection Eg as -> ->. rewrite (image_filter_is d _ Hh); [reflexivity|]. destruct g; [contradiction|reflexivity].
      - rewrite (image_filter_is d _ Hh); reflexivity. }
    rewrite (HI fs f Ef). cbv zeta. split; [|split].
    + intros Ha Hd. apply ascii_is in Ha. rewrite Ha. assert (forallb (fun c => c <? 128) data = true) as -> by (apply forallb_forall; rewrite Forall_forall in Hd; intros x Hx; apply Z.ltb_lt, Hd, Hx). reflexivity.
    + intros Ha Hd. apply ascii_is in Ha. rewrite Ha. assert (forallb (fun c => c <? 128) data = false) as ->; [|reflexivity].
      apply Exists_exists in Hd. destruct Hd as (x & Hx & Hge). destruct (forallb _ _) eqn:E; [|reflexivity]. rewrite forallb_forall in E. specialize (E x Hx). lia.
    + intros Ha. destruct (existsb (eqlZ f) ascii_filters) eqn:E; [apply ascii_is in E; contradiction|]. rewrite b85_small. eauto.
  - intros H1 H2. exists (b85encode data). split; [exact HB|].
    assert (image_filter d = ONull) as Ef by (unfold image_filter, oget; rewrite H1, H2; reflexivity).
    unfold image_str. rewrite (entries_mapM real_str d es HE), Ef. cbn [rbind]. cbv zeta. rewrite b85_small. unfold image_text. cbn [map fmt_filter].
    rewrite <- ?app_assoc. reflexivity.
Qed.

Example C41_image_ex : exists t, Base85 t [255; 0; 7; 9; 3] /\
  image_str (fun _ _ _ => []) [(bs "W", OInt 5); (bs "F", OName (bs "RL")); (bs "BPC", OInt 8)] [255; 0; 7; 9; 3] =
    Ok (image_text [bs "/W 5"; bs "/BPC 8"] [bs "ASCII85Decode"; bs "RL"] (t ++ bs "~>")).
Proof.
  destruct (C41_image_written (fun _ _ _ => []) [(bs "W", OInt 5); (bs "F", OName (bs "RL")); (bs "BPC", OInt 8)] [bs "/W 5"; bs "/BPC 8"] [255; 0; 7; 9; 3]) as [H _].
  - unfold entry_text. cbn [filter fst negb orb eqlZ]. constructor; [eexists; split; reflexivity|]. constructor; [eexists; split; reflexivity|constructor].
  - repeat (constructor; [lia|]). constructor.
  - destruct (H (bs "RL") []) as (_ & _ & H3).
    + left. exists (bs "RL"). split; [reflexivity|]. split; [discriminate|]. right. split; reflexivity.
    + apply H3. unfold ascii_filter. intros [X|[X|[X|X]]]; discriminate X.
Qed.
Print Assumptions C41_image_data.
Print Assumptions C41_image_written.
