(** Lemmas: files written with cross-reference streams and object streams are what S_Modern describes. *)
From Coq Require Import String.
From Verif Require Import Prelude M_Prog M_Parser S_Syntax L_Buffer L_Prog L_ParserWP L_Syntax L_Syntax2 S_Print L_Print
  S_Stream L_Stream M_Filters M_Document S_Document L_Document L_User L_Registry P_IndObj
  S_Xref L_Xref P_Header P_StartXref P_Xref P_Locate L_Steps S_Open P_Open S_Write P_Write S_History P_History S_XrefStream P_XrefStream S_Registry P_Registry S_Modern L_Modern P_Modern S_ModWrite.
Local Open Scope Z_scope.

(** ---- dictionaries ---- *)
Lemma dget_none_in (d : dict) k : dget d k = None <-> ~ In k (map fst d).
Proof.
  induction d as [|[k' v] d IH]; cbn [dget map fst In]; [split; [intros _ []|reflexivity]|]. destruct (eqlZ k k') eqn:E.
  - apply eqlZ_eq in E. subst. split; [discriminate|]. intros H. exfalso. apply H. now left.
  - rewrite IH. split; [|tauto]. intros H [X|X]; [subst; rewrite eqlZ_refl in E; discriminate|auto].
Qed.
Lemma dget_app2 (d1 d2 : dict) k : dget (d1 ++ d2) k = match dget d1 k with Some v => Some v | None => dget d2 k end.
Proof. induction d1 as [|[k' v] d IH]; cbn [dget app]; [reflexivity|]. now destruct (eqlZ k k'). Qed.
Lemma nodup_app_intro {A} (l1 l2 : list A) : NoDup l1 -> NoDup l2 -> (forall x, In x l1 -> ~ In x l2) -> NoDup (l1 ++ l2).
Proof.
  induction 1 as [|x l1 Hx _ IH]; intros H2 H; cbn [app]; [exact H2|]. constructor; [|apply IH; auto; intros y Hy; apply H; now right].
  intros X. apply in_app_or in X. destruct X as [X|X]; [auto|]. apply (H x); [now left|exact X].
Qed.
Lemma printable_app d1 d2 : printable (ODict d1) -> printable (ODict d2) -> Forall (fun k => dget d2 k = None) (map fst d1) -> printable (ODict (d1 ++ d2)).
Proof.
  intros [N1 P1] [N2 P2] H. rewrite Forall_forall in H. split.
  - rewrite map_app. apply nodup_app_intro; auto. intros k Hk. apply dget_none_in. now apply H.
  - clear - P1 P2. induction d1 as [|kv d1 IH]; [exact P2|]. destruct P1 as (A & B & C). cbn [app fold_right]. auto.
Qed.
Lemma stream_text_ok n g d data rest : 0 <= n -> 0 <= g -> printable (ODict d) -> dget d (bs "Length") = Some (OInt (zlen data)) ->
  IndObj n g (OStream d data) (object_text n g (OStream d data)) rest.
Proof.
  intros Hn Hg Hd HL. destruct (dec_ok n Hn) as (E1 & _). destruct (dec_ok g Hg) as (E2 & _).
  pose proof (IO_full (dec n) [32] (dec g) [32] [32] (OStream d data) (value_text (OStream d data)) [32] rest (ind_head_dec n g Hn Hg)) as H.
  rewrite E1, E2 in H. unfold ind_head in H. unfold object_text. repeat (rewrite <- app_assoc in H). apply H; [|apply sep_sp1].
  apply V_stream. set (X := [32] ++ bs "endobj" ++ rest).
  destruct (entries_ser d ([32] ++ bs "stream" ++ [10] ++ data ++ [10] ++ bs "endstream" ++ X) Hd) as [HS HE].
  pose proof (STx_right d [] (entries_text d) [32] [10] data [10] X) as HX. rewrite HE in HX.
  unfold stream_text in HX. cbn [value_text].
  replace (bs "<<" ++ entries_text d ++ bs ">> stream" ++ [10] ++ data ++ [10] ++ bs "endstream")
    with (60 :: 60 :: [] ++ entries_text d ++ 62 :: 62 :: [32] ++ bs "stream" ++ [10] ++ data ++ [10] ++ bs "endstream").
  2:{ change (bs ">> stream") with (62 :: 62 :: [32] ++ bs "stream"). change (bs "<<") with [60; 60]. cbn [app].
      repeat (rewrite <- app_assoc; cbn [app]). reflexivity. }
  apply HX; auto using sep_sp1.
  - constructor.
  - left; left; reflexivity.
  - repeat constructor.
Qed.
Lemma held_writable inflate ccitt v : writable v -> Held inflate ccitt v [].
Proof.
  intros Hv. constructor. intros d raw ->. destruct Hv as (Hd & HL & HT). intros HI. cbn [In] in HI. destruct HI as [X|[X|[X|[]]]].
  - now apply HT.
  - destruct (printable_dget _ _ _ Hd (eq_sym X)) as [HF _]. inversion HF as [|c l (h & Hh & Eh) _]. subst c.
    clear - Eh Hh. unfold hexdig in Eh. destruct (h <? 10) eqn:E; lia.
  - destruct (printable_dget _ _ _ Hd (eq_sym X)).
Qed.

(** ---- object streams ---- *)
Lemma print_no_s w x t : printable w -> print w = x :: t -> (x =? 115) = false.
Proof.
  intros Hw E. destruct w as [|[]|z|a b c|s|s|s|l|d|d data|n g|s|d data]; cbn [print] in E; try (inversion E; reflexivity); try (exfalso; exact Hw).
  - unfold S_Print.int_text in E. destruct (z <? 0) eqn:Ez; [inversion E; reflexivity|].
    destruct (dec_ok z) as (H1 & H2 & H3); [lia|]. destruct (head_dig _ [] H3 H2) as (d & r & Ed & Hd & _).
    rewrite Ed in E. inversion E; subst. apply is_digit_range in Hd. lia.
  - destruct Hw as (P1 & P2 & P3). pose proof (real_text_ok a b c P1 P2 P3) as HR. rewrite E in HR.
    inversion HR as [sg ip fp Hs Hi Hfp Hne|ip fp Hi Hfp Hne Hc|ip fp Hi Hfp Hne Hc]; subst; try reflexivity.
    destruct Hs as [->| ->]; cbn [app] in *; [|match goal with H : _ :: _ = _ :: _ |- _ => inversion H; reflexivity end].
    destruct Hi as [|d r Hd _]; cbn [app] in *; match goal with H : _ :: _ = _ :: _ |- _ => inversion H; subst; auto end.
    apply is_digit_range in Hd. lia.
  - destruct Hw as [Hn _]. destruct (dec_ok n) as (H1 & H2 & H3); [lia|]. destruct (head_dig _ [] H3 H2) as (d & r & Ed & Hd & _).
    rewrite Ed in E. inversion E; subst. apply is_digit_range in Hd. lia.
Qed.
Notation values := (flat_map (fun m : Z * obj => print (snd m) ++ [32])).
Lemma values_tail ms : Forall (fun m => 0 <= fst m /\ printable (snd m)) ms ->
  nosep (values ms) /\ head_is (fun c => c =? 115) (values ms) = false /\ NotRefTail (32 :: values ms).
Proof.
  intros HF. destruct ms as [|[n w] ms]; cbn [flat_map snd].
  - repeat split; try reflexivity. apply (NR_other [32] []); [apply sep_sp1|reflexivity|reflexivity].
  - inversion HF as [|? ? [_ Hw] HF']; subst. cbn [snd] in Hw. destruct (print_ne w Hw) as (x & t & E & Hx & Hx82).
    rewrite <- app_assoc. split; [|split].
    + rewrite E. cbn [app]. now apply start_nosep.
    + rewrite E. cbn [app head_is]. now apply (print_no_s w x t).
    + apply print_notref; [exact Hw|reflexivity|]. exists [32], (values ms). repeat split; auto using sep_sp1.
      * destruct ms as [|[n2 w2] ms]; [reflexivity|]. inversion HF' as [|? ? [_ Hw2] _]; subst. cbn [flat_map snd] in *. rewrite <- app_assoc.
        destruct (print_ne w2 Hw2) as (x2 & t2 & E2 & Hx2 & _). rewrite E2. cbn [app]. now apply start_nosep.
      * destruct ms as [|[n2 w2] ms]; [reflexivity|]. inversion HF' as [|? ? [_ Hw2] _]; subst. cbn [flat_map snd] in *. rewrite <- app_assoc.
        destruct (print_ne w2 Hw2) as (x2 & t2 & E2 & Hx2 & Hr2). rewrite E2. cbn [app head_is]. lia.
Qed.
Lemma values_at ms : Forall (fun m => 0 <= fst m /\ printable (snd m)) ms -> forall pre o fo, zlen pre = fo + o ->
  Forall (fun e => value_at (pre ++ values ms) (fo + snd (fst e)) (snd e)) (stm_entries o ms).
Proof.
  induction 1 as [|[n v] ms [Hn Hv] HF IH]; intros pre o fo Hp; cbn [stm_entries]; constructor.
  - cbn [fst snd flat_map] in *. destruct (values_tail ms HF) as (H1 & H2 & H3). exists pre, [], (print v), (32 :: values ms), [32].
    split; [cbn [app]; now rewrite <- app_assoc|]. split; [exact Hp|]. split; [constructor|]. split; [apply print_ser; auto|].
    destruct v; try exact I. exists (values ms). split; [reflexivity|]. split; [apply sep_sp1|exact H1].
  - specialize (IH (pre ++ print v ++ [32]) (o + zlen (print v) + 1) fo). cbn [flat_map snd]. rewrite !app_assoc in *.
    rewrite <- (app_assoc (pre ++ print v)) in *. rewrite <- !app_assoc in *. apply IH. rewrite !zlen_app. change (zlen [32]) with 1. lia.
Qed.
Lemma header_ok rest es : Forall (fun e : Z * Z * obj => 0 <= fst (fst e) /\ 0 <= snd (fst e)) es -> forall s1, Sep s1 -> s1 = [] \/ int_end s1 ->
  exists hdr more, s1 ++ flat_map (fun e => dec (fst (fst e)) ++ [32] ++ dec (snd (fst e)) ++ [32]) es ++ rest = hdr ++ more /\
    StmHeader (map fst es) hdr more /\ (s1 <> [] -> int_end (hdr ++ more)).
Proof.
  induction 1 as [|[[n o] v] es [Hn Ho] _ IH]; intros s1 Hs1 He1.
  - exists [], (s1 ++ rest). split; [reflexivity|]. split; [constructor|]. intros Hne. destruct s1 as [|c s1]; [congruence|]. destruct He1 as [X|X]; [discriminate|exact X].
  - cbn [fst snd flat_map map] in *. destruct (IH [32] sep_sp1 ltac:(right; reflexivity)) as (hdr & more & E & HH & Hi).
    destruct (dec_ok n Hn) as (D1 & D2 & D3). destruct (dec_ok o Ho) as (O1 & O2 & O3).
    exists (s1 ++ dec n ++ [32] ++ dec o ++ hdr), more. split; [|split].
    + rewrite <- !app_assoc. do 3 f_equal. cbn [app]. do 2 f_equal. exact E.
    + rewrite <- D1, <- O1 at 1. constructor; auto using sep_sp1; [discriminate|]. apply Hi. discriminate.
    + intros Hne. destruct s1 as [|c s1]; [congruence|]. destruct He1 as [X|X]; [discriminate|exact X].
Qed.
Lemma entries_nonneg ms : Forall (fun m : Z * obj => 0 <= fst m /\ printable (snd m)) ms -> forall o, 0 <= o ->
  Forall (fun e => 0 <= fst (fst e) /\ 0 <= snd (fst e)) (stm_entries o ms).
Proof.
  induction 1 as [|[n v] ms [Hn Hv] HF IH]; intros o Ho; cbn [stm_entries]; constructor; cbn [fst snd] in *; [lia|]. apply IH. pose proof (zlen_nonneg (print v)). lia.
Qed.
Lemma entries_members ms : forall o, map (fun e => (fst (fst e), snd e)) (stm_entries o ms) = ms.
Proof. induction ms as [|[n v] ms IH]; intros o; cbn [stm_entries map fst snd]; [reflexivity|]. now rewrite IH. Qed.
Lemma entries_len ms : forall o, zlen (stm_entries o ms) = zlen ms.
Proof. induction ms as [|[n v] ms IH]; intros o; cbn [stm_entries]; [reflexivity|]. rewrite !zlen_cons, IH. reflexivity. Qed.
Lemma stm_data_ok ms : Forall (fun m => 0 <= fst m /\ printable (snd m)) ms -> StmData (zlen (stm_header ms)) (stm_entries 0 ms) (stm_data ms).
Proof.
  intros HF. split.
  - destruct (header_ok (values ms) (stm_entries 0 ms) (entries_nonneg ms HF 0 ltac:(lia)) [] Sep_nil (or_introl eq_refl)) as (hdr & more & E & HH & _).
    exists hdr, more. split; [exact E|exact HH].
  - apply values_at; [exact HF|lia].
Qed.

(** ---- packed streams ---- *)
Section Packed.
  Variable inflate : list Z -> option (list Z).
  Variable ccitt : list Z -> fparams -> res (list Z).
  Variable deflate : list Z -> list Z.
  Hypothesis Hround : forall x, inflate (deflate x) = Some x.
  Lemma packed_filtered d data : dget d (bs "Filter") = None -> dget d (bs "DecodeParms") = None ->
    filtered inflate ccitt (d ++ [(bs "Filter", OName (bs "FlateDecode")); (bs "Length", OInt (zlen (deflate data)))]) (deflate data) = Ok data.
  Proof.
    intros H1 H2. unfold filtered, oget. rewrite !dget_app2, H1, H2. generalize (zlen (deflate data)). intros z.
    change (dget [(bs "Filter", OName (bs "FlateDecode")); (bs "Length", OInt z)] (bs "Filter")) with (Some (OName (bs "FlateDecode"))).
    change (dget [(bs "Filter", OName (bs "FlateDecode")); (bs "Length", OInt z)] (bs "DecodeParms")) with (@None obj).
    cbv iota. change (truthy (OName (bs "FlateDecode"))) with true. cbv iota. unfold apply_filter.
    change (find_filter (bs "FlateDecode") filter_table) with (Some FFlate). cbn [run_filter]. rewrite Hround. reflexivity.
  Qed.
  Lemma packed_printable d data : printable (ODict d) -> dget d (bs "Filter") = None -> dget d (bs "Length") = None ->
    printable (ODict (d ++ [(bs "Filter", OName (bs "FlateDecode")); (bs "Length", OInt (zlen (deflate data)))])).
  Proof.
    intros Hd HF HL. apply printable_app; [exact Hd| |].
    - assert (forall s, forallb (fun c => (0 <=? c) && (c <? 256)) s = true -> bytes_ok s) as Hb.
      { intros s H. rewrite forallb_forall in H. apply Forall_forall. intros c Hc. specialize (H c Hc). unfold byte_ok. lia. }
      split; [|cbn [fold_right fst snd printable]; repeat split; apply Hb; reflexivity].
      cbn [map fst]. constructor; [|constructor; [intros []|constructor]]. intros [X|[]]. discriminate X.
    - apply Forall_forall. intros k Hk. cbn [dget]. destruct (eqlZ k (bs "Filter")) eqn:E1; [apply eqlZ_eq in E1; subst; now apply dget_none_in in HF|].
      destruct (eqlZ k (bs "Length")) eqn:E2; [apply eqlZ_eq in E2; subst; now apply dget_none_in in HL|reflexivity].
  Qed.
  Lemma packed_length d data : dget d (bs "Length") = None ->
    dget (d ++ [(bs "Filter", OName (bs "FlateDecode")); (bs "Length", OInt (zlen (deflate data)))]) (bs "Length") = Some (OInt (zlen (deflate data))).
  Proof. intros H. rewrite dget_app2, H. reflexivity. Qed.
  Lemma packed_text n g d data rest : 0 <= n -> 0 <= g -> printable (ODict d) -> dget d (bs "Filter") = None -> dget d (bs "Length") = None ->
    IndObj n g (packed deflate d data) (object_text n g (packed deflate d data)) rest.
  Proof. intros Hn Hg Hd HF HL. apply stream_text_ok; auto using packed_printable, packed_length. Qed.

  Lemma stm_dict_ok ms : printable (ODict [(bs "Type", OName (bs "ObjStm")); (bs "N", OInt (zlen ms)); (bs "First", OInt (zlen (stm_header ms)))]).
  Proof.
    assert (forall s, forallb (fun c => (0 <=? c) && (c <? 256)) s = true -> bytes_ok s) as Hb.
    { intros s H. rewrite forallb_forall in H. apply Forall_forall. intros c Hc. specialize (H c Hc). unfold byte_ok. lia. }
    split; [|cbn [fold_right fst snd printable]; repeat split; apply Hb; reflexivity].
    cbn [map fst]. repeat (constructor; [cbn [In]; intros X; repeat (destruct X as [X|X]; [discriminate X|]); exact X|]). constructor.
  Qed.
  Lemma stm_text n ms rest : 0 <= n -> IndObj n 0 (stm_value deflate ms) (object_text n 0 (stm_value deflate ms)) rest.
  Proof. intros Hn. apply packed_text; [exact Hn|lia|apply stm_dict_ok|reflexivity|reflexivity]. Qed.
  Lemma stm_held ms : Forall (fun m => 0 <= fst m /\ printable (snd m)) ms -> Held inflate ccitt (stm_value deflate ms) ms.
  Proof.
    intros HF. rewrite <- (entries_members ms 0) at 2. unfold stm_value, packed. apply H_stream with (data := stm_data ms) (first := zlen (stm_header ms)).
    - reflexivity.
    - rewrite entries_len. reflexivity.
    - reflexivity.
    - apply packed_filtered; reflexivity.
    - now apply stm_data_ok.
  Qed.
End Packed.
