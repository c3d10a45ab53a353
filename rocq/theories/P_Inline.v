(** C108: inline images: what their dictionaries say, and their filtered data. *)
From Coq Require Import String.
From Verif Require Import Prelude M_Parser M_Filters S_Filters P_Filters M_Document M_App S_App L_App M_Inline.
Local Open Scope Z_scope.

(** *** The specification *)
(** [d'] is the dictionary of an image with its two entries that tell how the data are encoded under their long names. *)
Definition either (d : dict) (long short : list Z) (v : option obj) : Prop :=
  (dget d long = v /\ dget d short = None) \/ (dget d long = None /\ dget d short = v).
Definition spelled_out (d d' : dict) : Prop :=
  either d (bs "Filter") (bs "F") (dget d' (bs "Filter")) /\ either d (bs "DecodeParms") (bs "DP") (dget d' (bs "DecodeParms")).

Lemma entry_either d long short v : either d long short v ->
  entry_or d long short = match v with Some x => x | None => ONull end \/
  (truthy (entry_or d long short) = false /\ truthy (match v with Some x => x | None => ONull end) = false).
Proof.
  intros [[H1 H2]|[H1 H2]]; unfold entry_or, oget; rewrite H1, H2.
  - destruct v as [v|]; [|left; reflexivity]. destruct (truthy v) eqn:E; [left; reflexivity|right; auto].
  - left. destruct v; reflexivity.
Qed.
Lemma filtered_same inflate ccitt d d' data : spelled_out d d' -> inline_filtered inflate ccitt d data = filtered inflate ccitt d' data.
Proof.
  intros [H1 H2]. unfold inline_filtered, filtered.
  assert (forall k v rest, oget ((k, v) :: rest) k = v) as Ho by (intros; unfold oget; cbn [dget]; now rewrite eqlZ_refl). rewrite Ho.
  assert (oget [(bs "Filter", entry_or d (bs "Filter") (bs "F")); (bs "DecodeParms", entry_or d (bs "DecodeParms") (bs "DP"))] (bs "DecodeParms") = entry_or d (bs "DecodeParms") (bs "DP")) as -> by reflexivity.
  assert (parms_of (entry_or d (bs "DecodeParms") (bs "DP")) = parms_of (oget d' (bs "DecodeParms"))) as ->.
  { unfold oget. destruct (entry_either _ _ _ _ H2) as [->|[E1 E2]]; [reflexivity|]. unfold parms_of. now rewrite E1, E2. }
  change (oget d' (bs "Filter")) with (match dget d' (bs "Filter") with Some x => x | None => ONull end).
  destruct (entry_either _ _ _ _ H1) as [->|[E1 E2]]; [reflexivity|]. now rewrite E1, E2.
Qed.

(** C108.  The filtered data of an inline image are the data that were encoded, by no filter, by one or by several, named in full or
    abbreviated, under the full or the abbreviated keys. *)
Theorem C108_filtered : forall inflate ccitt d d' data b, spelled_out d d' -> Decoded inflate d' data b -> inline_filtered inflate ccitt d data = Ok b.
Proof. intros inflate ccitt d d' data b HS HD. rewrite (filtered_same _ _ _ _ _ HS). now apply decoded_filtered. Qed.
(** With both keys, the full one counts, unless it says nothing. *)
Theorem C108_both : forall inflate ccitt d v w data, dget d (bs "Filter") = Some v -> dget d (bs "F") = Some w ->
  (v <> ONull -> v <> OArr [] -> (exists s, v = OName s /\ s <> []) \/ (exists l, v = OArr l) -> forall d', dget d' (bs "Filter") = Some v -> either d (bs "DecodeParms") (bs "DP") (dget d' (bs "DecodeParms")) ->
     inline_filtered inflate ccitt d data = filtered inflate ccitt d' data) /\
  (v = ONull \/ v = OArr [] -> forall d', dget d' (bs "Filter") = Some w -> either d (bs "DecodeParms") (bs "DP") (dget d' (bs "DecodeParms")) ->
     inline_filtered inflate ccitt d data = filtered inflate ccitt d' data).
Proof.
  intros inflate ccitt d v w data Hv Hw.
  assert (forall d' u, dget d' (bs "Filter") = Some u -> entry_or d (bs "Filter") (bs "F") = u -> either d (bs "DecodeParms") (bs "DP") (dget d' (bs "DecodeParms")) ->
     inline_filtered inflate ccitt d data = filtered inflate ccitt d' data) as HA.
  { intros d' u H1 H2 H3. unfold inline_filtered. rewrite H2. unfold filtered.
    assert (oget d' (bs "Filter") = u) as -> by (unfold oget; now rewrite H1).
    assert (oget [(bs "Filter", u); (bs "DecodeParms", entry_or d (bs "DecodeParms") (bs "DP"))] (bs "Filter") = u) as -> by reflexivity.
    assert (oget [(bs "Filter", u); (bs "DecodeParms", entry_or d (bs "DecodeParms") (bs "DP"))] (bs "DecodeParms") = entry_or d (bs "DecodeParms") (bs "DP")) as -> by reflexivity.
    assert (parms_of (entry_or d (bs "DecodeParms") (bs "DP")) = parms_of (oget d' (bs "DecodeParms"))) as ->; [|reflexivity].
    unfold oget. destruct (entry_either _ _ _ _ H3) as [->|[E1 E2]]; [reflexivity|]. unfold parms_of. now rewrite E1, E2. }
  split.
  - intros N1 N2 Hk d' H1 H2. apply (HA d' v H1); [|exact H2]. unfold entry_or, oget. rewrite Hv.
    assert (truthy v = true) as -> by (destruct Hk as [(s & -> & Hs)|(l & ->)]; [destruct s; [contradiction|reflexivity]|destruct l; [contradiction|reflexivity]]). reflexivity.
  - intros Hk d' H1 H2. apply (HA d' w H1); [|exact H2]. unfold entry_or, oget. rewrite Hv, Hw. destruct Hk as [->| ->]; reflexivity.
Qed.
(** An array of parameters, one for each filter, as PDF allows: AttributeError, for compressed data. *)
Theorem C108_parameters_refuted : forall inflate ccitt d d' f l data x, spelled_out d d' -> In f [bs "FlateDecode"; bs "Fl"] ->
  dget d' (bs "Filter") = Some (OName f) -> dget d' (bs "DecodeParms") = Some (OArr l) -> l <> [] -> inflate data = Some x ->
  inline_filtered inflate ccitt d data = Err AttributeErr.
Proof.
  intros inflate ccitt d d' f l data x HS Hf H1 H2 Hl Hx. rewrite (filtered_same _ _ _ _ _ HS). unfold filtered, oget. rewrite H1, H2.
  assert (parms_of (OArr l) = PArray) as -> by (destruct l; [contradiction|reflexivity]).
  assert (find_filter f filter_table = Some FFlate) as E by (destruct Hf as [<-|[<-|[]]]; reflexivity).
  assert (truthy (OName f) = true) as -> by (destruct Hf as [<-|[<-|[]]]; reflexivity).
  unfold apply_filter. rewrite E. cbn [run_filter]. rewrite Hx. reflexivity.
Qed.
(** A name that is no filter: NotImplementedError. *)
Theorem C108_unknown : forall inflate ccitt d d' f data, spelled_out d d' -> dget d' (bs "Filter") = Some (OName f) -> f <> [] ->
  ~ In f known_filters ->
  inline_filtered inflate ccitt d data = Err NotImpl.
Proof.
  intros inflate ccitt d d' f data HS H1 Hf Hn. rewrite (filtered_same _ _ _ _ _ HS). unfold filtered. unfold oget at 1 2. rewrite H1.
  assert (truthy (OName f) = true) as -> by (destruct f; [contradiction|reflexivity]). unfold apply_filter.
  assert (find_filter f filter_table = None) as ->; [|reflexivity]. destruct (find_filter f filter_table) as [k|] eqn:E; [|reflexivity]. exfalso. apply Hn.
  assert (forall t, find_filter f t = Some k -> In f (map fst t)) as HF.
  { induction t as [|[n k'] t IH]; cbn [find_filter]; [discriminate|]. destruct (eqlZ f n) eqn:Ex.
    - intros _. apply eqlZ_eq in Ex. subst. now left.
    - intros X. right. now apply IH. }
  apply HF in E. revert E. clear. intros A.
  assert (forallb (fun y => existsb (eqlZ y) known_filters) (map fst filter_table) = true) as HA by (vm_compute; reflexivity).
  rewrite forallb_forall in HA. specialize (HA f A). apply existsb_exists in HA. destruct HA as (y & Hy & Ey). apply eqlZ_eq in Ey. now subst.
Qed.
(** The properties of an image mean its entries, under full or abbreviated keys (PDF 32000-1 table 93). *)
Theorem C108_properties : forall d name short v, In (name, short)
    [(bs "Filter", bs "F"); (bs "Width", bs "W"); (bs "Height", bs "H"); (bs "ColorSpace", bs "CS"); (bs "BitsPerComponent", bs "BPC");
     (bs "Decode", bs "D"); (bs "DecodeParms", bs "DP"); (bs "Interpolate", bs "I"); (bs "ImageMask", bs "IM")] ->
  dget d name = None /\ dget d short = Some v \/ dget d name = Some v /\ dget d short = None /\ v <> ONull /\ v <> OBool false /\ v <> OInt 0 /\ truthy v = true ->
  inline_attr d name = Some v.
Proof.
  intros d name short v Hin H.
  assert (inline_attr d name = Some (entry_or d name short)) as ->.
  { cbn [In] in Hin. repeat (destruct Hin as [Hin|Hin]; [injection Hin; intros <- <-; reflexivity|]). destruct Hin. }
  f_equal. unfold entry_or, oget. destruct H as [[-> ->]|(-> & _ & _ & _ & _ & ->)]; reflexivity.
Qed.
(** Intent has no abbreviation. *)
Theorem C108_intent : forall d v, dget d (bs "Intent") = Some v -> inline_attr d (bs "Intent") = Some v.
Proof. intros d v H. change (inline_attr d (bs "Intent")) with (Some (oget d (bs "Intent"))). unfold oget. now rewrite H. Qed.
(** False, and zero, under a full key are read as None. *)
Theorem C108_false_refuted : forall d name short v, In (name, short)
    [(bs "Width", bs "W"); (bs "Height", bs "H"); (bs "BitsPerComponent", bs "BPC"); (bs "Interpolate", bs "I"); (bs "ImageMask", bs "IM")] ->
  dget d name = Some v -> v = OBool false \/ v = OInt 0 -> dget d short = None -> inline_attr d name = Some ONull.
Proof.
  intros d name short v Hin H Hv Hs.
  assert (inline_attr d name = Some (entry_or d name short)) as ->.
  { cbn [In] in Hin. repeat (destruct Hin as [Hin|Hin]; [injection Hin; intros <- <-; reflexivity|]). destruct Hin. }
  f_equal. unfold entry_or, oget. rewrite H, Hs. destruct Hv as [->| ->]; reflexivity.
Qed.

(** *** Hypotheses met: an image whose data went through two filters, named under F, in abbreviations *)
Definition img_dict : dict := [(bs "W", OInt 2); (bs "H", OInt 1); (bs "F", OArr [OName (bs "AHx"); OName (bs "RL")]); (bs "DP", ONull)].
Definition img_long : dict := [(bs "Filter", OArr [OName (bs "AHx"); OName (bs "RL")]); (bs "DecodeParms", ONull)].
Example C108_ex : forall inflate ccitt, spelled_out img_dict img_long /\ Decoded inflate img_long (bs "fE61 80>") (bs "aaa") /\
  inline_filtered inflate ccitt img_dict (bs "fE61 80>") = Ok (bs "aaa") /\ inline_attr img_dict (bs "Width") = Some (OInt 2).
Proof.
  intros inflate ccitt. assert (spelled_out img_dict img_long) as HS by (split; right; split; reflexivity).
  assert (Decoded inflate img_long (bs "fE61 80>") (bs "aaa")) as HD.
  { apply (De_many _ _ _ [bs "AHx"; bs "RL"]); [reflexivity|right; left; reflexivity|].
    apply EC_cons with (m := [254; 97; 128]).
    - change (bs "fE61 80>") with (bs "fE61 80" ++ 62 :: []). apply Enc_hex with (ds := bs "fE6180"); [right; left; reflexivity| |].
      + apply (HD_pair 102 69 15 14); try reflexivity. apply (HD_pair 54 49 6 1); try reflexivity.
        apply (HD_pair 56 48 8 0); try reflexivity. constructor.
      + repeat first [apply IL_nil | apply IL_ws; [reflexivity|] | apply IL_ch].
    - apply EC_cons with (m := bs "aaa"); [|apply EC_nil].
      change (bs "aaa") with (flat_map run_data [Rep 3 97]). change [254; 97; 128] with (flat_map run_enc [Rep 3 97] ++ 128 :: []).
      apply Enc_rl; [right; left; reflexivity|]. repeat constructor; simpl; lia. }
  split; [exact HS|]. split; [exact HD|]. split; [now apply (C108_filtered _ _ _ _ _ _ HS)|reflexivity].
Qed.

Print Assumptions C108_filtered.
Print Assumptions C108_both.
Print Assumptions C108_parameters_refuted.
Print Assumptions C108_unknown.
Print Assumptions C108_properties.
Print Assumptions C108_false_refuted.
Print Assumptions C108_intent.
