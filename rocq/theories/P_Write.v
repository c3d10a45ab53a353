(** Whole documents read back what was written: C76 (continued). *)
From Coq Require Import String.
From Verif Require Import Prelude M_Prog M_Parser S_Syntax L_Buffer L_Prog L_ParserWP L_Syntax L_Syntax2 S_Print L_Print
  S_Stream L_Stream M_Filters M_Document S_Document L_Document P_IndObj
  S_Xref L_Xref P_Header P_StartXref P_Xref P_Locate S_Open P_Open S_Write.
Local Open Scope Z_scope.

Lemma fixed_same w z : fixed_dec w z = fixed w z.
Proof. revert z. induction w; intros z; cbn; [reflexivity|]. now rewrite IHw. Qed.
Lemma entries_ser d tl : printable (ODict d) -> SerEntries FBasic d (entries_text d) (62 :: 62 :: tl) /\ dict_of d = d.
Proof.
  intros [Hnd Hp]. pose proof (printable_In_d _ Hp) as Hin. split; [|now apply dict_of_nodup].
  apply entries_print; auto. apply Forall_forall. intros kv Hkv. apply print_ser; [now apply Hin|]. now left.
Qed.

Lemma printable_dget d k v : printable (ODict d) -> dget d k = Some v -> printable v.
Proof.
  intros [_ Hp]. induction d as [|[k' w] d IH]; cbn [dget]; [discriminate|]. destruct Hp as (_ & Hw & Hp).
  destruct (eqlZ k k'); [|now apply IH]. intros E. injection E as <-. exact Hw.
Qed.
(** one object *)
Lemma object_text_ok n g v rest : 0 <= n -> 0 <= g -> writable v -> IndObj n g v (object_text n g v) rest /\ no_objstm v.
Proof.
  intros Hn Hg Hv. destruct v as [|b|z|x b c|s|s|s|l|d|d data|a b|s|d data];
    try (split; [apply (C13_every_value n g _ rest Hn Hg Hv)|intros ? ?; discriminate]).
  destruct Hv as (Hd & HL & HT). split.
  - destruct (dec_ok n Hn) as (E1 & _). destruct (dec_ok g Hg) as (E2 & _).
    pose proof (IO_full (dec n) [32] (dec g) [32] [32] (OStream d data) (value_text (OStream d data)) [32] rest (ind_head_dec n g Hn Hg)) as H.
    rewrite E1, E2 in H. unfold ind_head in H. unfold object_text. repeat (rewrite <- app_assoc in H). apply H; [|apply sep_sp1].
    apply V_stream. set (X := [32] ++ bs "endobj" ++ rest).
    destruct (entries_ser d ([32] ++ bs "stream" ++ [10] ++ data ++ [10] ++ bs "endstream" ++ X) Hd) as [HS HE].
    pose proof (STx_right d [] (entries_text d) [32] [10] data [10] X) as HX. rewrite HE in HX.
    unfold stream_text in HX. cbn [value_text].
    replace (bs "<<" ++ entries_text d ++ bs ">> stream" ++ [10] ++ data ++ [10] ++ bs "endstream")
      with (60 :: 60 :: [] ++ entries_text d ++ 62 :: 62 :: [32] ++ bs "stream" ++ [10] ++ data ++ [10] ++ bs "endstream").
    2:{ change (bs ">> stream") with (62 :: 62 :: [32] ++ bs "stream"). change (bs "<<") with [60; 60]. cbn [app].
        repeat (rewrite <- app_assoc; cbn [app]). reflexivity. }
    apply HX; auto using sep_sp1.
    + constructor.
    + left; left; reflexivity.
    + repeat constructor.
  - intros d' raw E. injection E as <- <-. unfold oget. destruct (dget d (bs "Type")) as [w|] eqn:Ew; [|reflexivity].
    destruct w as [|b|z|x b c|s|s|s|l|d'|d' data'|a b|s|d' data']; try reflexivity; cbn [is_name].
    + apply eqlZ_neq. intros ->. now apply HT.
    + apply eqlZ_neq. intros ->. destruct (printable_dget _ _ _ Hd Ew) as [HF _]. inversion HF as [|c l (h & Hh & Eh) _]. subst c.
      clear - Eh Hh. unfold hexdig in Eh. destruct (h <? 10) eqn:E; lia.
    + destruct (printable_dget _ _ _ Hd Ew).
Qed.

(** the section of one revision *)
Definition fits (l : list listed) : Prop := Forall (fun x => 0 <= li_num x /\ 0 <= li_gen x < 10 ^ 5 /\ 0 <= li_off x < 10 ^ 10) l.
Lemma rows_table l rest : fits l -> nosep rest -> TableText l (bs "xref" ++ [10] ++ flat_map row_text l) rest.
Proof.
  intros HF Hr. pose proof (C18_every_table (map (fun x => (li_num x, [x])) l) rest) as H.
  assert (concat (map snd (map (fun x => (li_num x, [x])) l)) = l) as E1.
  { clear. induction l; cbn; [reflexivity|]. now f_equal. }
  assert (table_text (map (fun x => (li_num x, [x])) l) = bs "xref" ++ [10] ++ flat_map row_text l) as E2.
  { unfold table_text. do 2 f_equal. rewrite map_map. cbn [fst snd]. clear. induction l as [|x l IH]; [reflexivity|]. cbn [map concat flat_map].
    rewrite <- IH. unfold sub_text, row_text, entry_text. rewrite !fixed_same. cbn [map concat fst snd]. rewrite ?app_nil_r.
    change (dec (zlen [x])) with [49]. change (bs " 1") with ([32] ++ [49]). now rewrite <- !app_assoc. }
  rewrite E1, E2 in H. apply H; [|exact Hr]. apply Forall_map. eapply Forall_impl; [|exact HF]. intros x (A & B & C). cbn. auto.
Qed.
Lemma section_ok l t rest : fits l -> printable (ODict t) -> SectionText l t (section_text l t) rest.
Proof.
  intros HF Ht. destruct (entries_ser t rest Ht) as [HS HE].
  assert (section_text l t = (bs "xref" ++ [10] ++ flat_map row_text l) ++ [] ++ bs "trailer" ++ [10] ++ 60 :: 60 :: [] ++ entries_text t ++ [62; 62]) as ->.
  { unfold section_text. rewrite <- !app_assoc. reflexivity. }
  rewrite <- HE at 1. constructor; auto.
  - apply rows_table; [exact HF|reflexivity].
  - constructor.
  - apply Sep_ws; [reflexivity|constructor].
  - constructor.
Qed.

(** listings of one revision *)
Lemma listings_fit : forall objs start, 0 <= start -> start + zlen (body_text objs) < 10 ^ 10 ->
  Forall (fun e => 0 <= fst (fst e) /\ 0 <= snd (fst e) < 10 ^ 5 /\ writable (snd e)) objs -> fits (listings start objs).
Proof.
  induction objs as [|[[n g] v] objs IH]; intros start H0 Hlt HF; [constructor|]. inversion HF as [|? ? (A & B & C) HF']; subst. cbn [fst snd] in *.
  cbn [listings body_text] in *. rewrite !zlen_app in Hlt. pose proof (zlen_nonneg (object_text n g v)). pose proof (zlen_nonneg (body_text objs)).
  change (zlen [10]) with 1 in Hlt.
  constructor; [cbn [li_num li_gen li_off]; lia|]. apply IH; auto; lia.
Qed.
Lemma listed_nums : forall objs start n y, last_listed true n (listings start objs) = Some y -> In n (map (fun e => fst (fst e)) objs).
Proof.
  induction objs as [|[[n0 g0] v0] objs IH]; intros start n y; cbn [listings last_listed map fst]; [discriminate|].
  destruct (last_listed true n (listings _ objs)) as [z|] eqn:E; [intros _; right; eapply IH; eauto|].
  cbn [li_num li_used Bool.eqb]. rewrite Bool.andb_true_r. destruct (n0 =? n) eqn:En; [|discriminate]. intros _. left. lia.
Qed.
Lemma listed_found : forall objs start n g v, NoDup (map (fun e => fst (fst e)) objs) -> find_obj objs n g = Some v ->
  exists o before after, last_listed true n (listings start objs) = Some (g, o) /\
    body_text objs = before ++ object_text n g v ++ after /\ o = start + zlen before /\ In (n, g, v) objs.
Proof.
  induction objs as [|[[n0 g0] v0] objs IH]; intros start n g v ND; cbn [find_obj listings last_listed body_text map fst] in *; [discriminate|].
  inversion ND as [|? ? Hni ND']; subst. destruct ((n0 =? n) && (g0 =? g)) eqn:E.
  - intros H. injection H as <-. assert (n0 = n /\ g0 = g) as [-> ->] by (apply andb_true_iff in E; lia).
    exists start, [], ([10] ++ body_text objs). destruct (last_listed true n (listings _ objs)) as [y|] eqn:El.
    + exfalso. apply Hni. eapply listed_nums; eauto.
    + cbn [li_num li_used li_gen li_off Bool.eqb]. rewrite Z.eqb_refl. split; [reflexivity|]. split; [reflexivity|]. split; [change (zlen []) with 0; lia|now left].
  - intros H. destruct (IH (start + zlen (object_text n0 g0 v0) + 1) n g v ND' H) as (o & before & after & L1 & L2 & L3 & L4).
    exists o, (object_text n0 g0 v0 ++ [10] ++ before), after. rewrite L1, L2. split; [reflexivity|]. split; [now rewrite <- !app_assoc|].
    split; [rewrite !zlen_app; change (zlen [10]) with 1; lia|now right].
Qed.
Lemma listed_find : forall objs start n g o, last_listed true n (listings start objs) = Some (g, o) -> exists v, find_obj objs n g = Some v.
Proof.
  induction objs as [|[[n0 g0] v0] objs IH]; intros start n g o; cbn [listings last_listed find_obj]; [discriminate|].
  destruct ((n0 =? n) && (g0 =? g)) eqn:E; [eauto|].
  destruct (last_listed true n (listings _ objs)) as [y|] eqn:El.
  - intros H. injection H as ->. eapply IH; eauto.
  - cbn [li_num li_used li_gen li_off Bool.eqb]. destruct (n0 =? n) eqn:En; [|discriminate]. cbn [andb]. intros H. injection H as <- <-.
    cbn [andb] in E. rewrite Z.eqb_refl in E. discriminate.
Qed.

Section Files.
  Variables (a b : Z).
  Notation W revs := (fst (write a b revs)).
  Fixpoint tables (revs : list revision) : list (list listed) :=
    match revs with [] => [] | r :: older => listings (zlen (W older)) (rv_objs r) :: tables older end.
  Lemma write_cons r older : W (r :: older) = W older ++ rev_text (zlen (W older)) (trailer_with (snd (write a b older)) (rv_trailer r)) r.
  Proof. cbn [write]. destruct (write a b older). reflexivity. Qed.
  Lemma prev_cons r older : snd (write a b (r :: older)) = Some (zlen (W older) + zlen (body_text (rv_objs r))).
  Proof. cbn [write]. destruct (write a b older). reflexivity. Qed.
  Lemma W_pos revs : 0 < zlen (W revs).
  Proof. induction revs as [|r older IH]; [reflexivity|]. rewrite write_cons, zlen_app. pose proof (zlen_nonneg (rev_text (zlen (W older)) (trailer_with (snd (write a b older)) (rv_trailer r)) r)). lia. Qed.

  Lemma trailer_printable prev t : printable (ODict t) -> dget t (bs "Prev") = None -> (forall p, prev = Some p -> 0 <= p) ->
    printable (ODict (trailer_with prev t)).
  Proof.
    intros Ht HP Hp. destruct prev as [p|]; [|exact Ht]. destruct Ht as [Hnd Hf]. cbn [trailer_with]. split.
    - rewrite map_app. cbn [map fst]. assert (~ In (bs "Prev") (map fst t)) as Hni.
      { intros Hin. apply in_map_iff in Hin. destruct Hin as ([k v] & Ek & Hin). cbn [fst] in Ek. subst k. clear - HP Hin.
        induction t as [|[k w] t IH]; [destruct Hin|]. cbn [dget] in HP. destruct (eqlZ (bs "Prev") k) eqn:E; [discriminate|].
        destruct Hin as [X|X]; [|auto]. injection X as -> ->. rewrite eqlZ_refl in E. discriminate. }
      clear - Hnd Hni. induction (map fst t) as [|x l IH]; cbn [app]; [constructor; [easy|constructor]|].
      inversion Hnd; subst. constructor; [|apply IH; auto; intros X; apply Hni; now right].
      intros X. apply in_app_or in X. destruct X as [X|[X|[]]]; [auto|]. subst. apply Hni. now left.
    - clear Hnd HP. induction t as [|[k w] t IH]; cbn [app fold_right].
      + split; [repeat constructor; lia|]. split; [exact I|exact I].
      + destruct Hf as (F1 & F2 & F3). split; [exact F1|]. split; [exact F2|]. now apply IH.
  Qed.
  Lemma dget_app t k v k' : dget t k' = None -> dget (t ++ [(k, v)]) k' = if eqlZ k' k then Some v else None.
  Proof. induction t as [|[k2 w] t IH]; cbn [app dget]; [reflexivity|]. destruct (eqlZ k' k2); [discriminate|auto]. Qed.

  (** the chain of tables, whatever follows the file *)
  Lemma chain_written : forall revs, revs <> [] -> Forall rev_ok revs -> zlen (W revs) < 10 ^ 10 ->
    forall post o, snd (write a b revs) = Some o -> 0 < o /\
      Chain (W revs ++ post) o (tables revs) (trailer_of_file a b revs).
  Proof.
    induction revs as [|r older IH]; intros Hne HF Hlt post o Eo; [congruence|]. inversion HF as [|? ? Hr HF']; subst.
    destruct Hr as (R1 & R2 & R3 & R4 & R5 & R6). rewrite prev_cons in Eo. injection Eo as <-.
    rewrite write_cons in Hlt |- *. set (t := trailer_with (snd (write a b older)) (rv_trailer r)) in *.
    pose proof (W_pos older) as HW. pose proof (zlen_nonneg (body_text (rv_objs r))) as HB.
    split; [lia|].
    assert (forall p, snd (write a b older) = Some p -> 0 < p) as Hp.
    { intros p Ep. destruct older as [|r2 o2]; [discriminate|]. rewrite zlen_app in Hlt.
      apply (IH ltac:(discriminate) HF' ltac:(pose proof (zlen_nonneg (rev_text (zlen (W (r2 :: o2))) t r)); lia) [] p Ep). }
    assert (section_at ((W older ++ rev_text (zlen (W older)) t r) ++ post) (zlen (W older) + zlen (body_text (rv_objs r)))
      (listings (zlen (W older)) (rv_objs r)) t) as HS.
    { exists (W older ++ body_text (rv_objs r)), (section_text (listings (zlen (W older)) (rv_objs r)) t),
        (end_text (zlen (W older) + zlen (body_text (rv_objs r))) ++ post). unfold rev_text. split; [now rewrite <- !app_assoc|].
      split; [now rewrite zlen_app|]. apply section_ok.
      - apply listings_fit; auto; [lia|]. unfold rev_text in Hlt. rewrite !zlen_app in Hlt.
        pose proof (zlen_nonneg (section_text (listings (zlen (W older)) (rv_objs r)) t)). pose proof (zlen_nonneg (end_text (zlen (W older) + zlen (body_text (rv_objs r))))). lia.
      - apply trailer_printable; auto. intros p Ep. specialize (Hp p Ep). lia. }
    cbn [tables trailer_of_file]. fold t.
    destruct (snd (write a b older)) as [p|] eqn:Ep.
    - destruct older as [|r2 o2]; [discriminate|].
      eapply Ch_prev with (p := p); [exact HS|unfold t; cbn [trailer_with]; rewrite dget_app by exact R4; reflexivity|apply Hp; reflexivity|].
      rewrite <- app_assoc. apply (IH ltac:(discriminate) HF').
      + rewrite zlen_app in Hlt. pose proof (zlen_nonneg (rev_text (zlen (W (r2 :: o2))) t r)). lia.
      + reflexivity.
    - destruct older as [|r2 o2]; [|cbn [write] in Ep; destruct (write a b o2); discriminate].
      apply Ch_last; [exact HS|exact R4].
  Qed.

  (** every object stands where the newest listing says *)
  Lemma written_listed content : forall revs, Forall rev_ok revs -> forall post n g v, current revs n g = Some v ->
    (exists o, newest (tables revs) n g o /\ stands content (W revs ++ post) o n g v) /\ no_objstm v.
  Proof.
    induction revs as [|r older IH]; intros HF post n g v; cbn [current]; [discriminate|].
    inversion HF as [|? ? Hr HF']; subst. destruct Hr as (R1 & R2 & _). rewrite write_cons.
    destruct (find_obj (rv_objs r) n g) as [w|] eqn:E; intros H.
    - injection H as ->. destruct (listed_found _ (zlen (W older)) _ _ _ R2 E) as (o & before & after & L1 & L2 & L3 & L4).
      rewrite Forall_forall in R1. destruct (R1 _ L4) as (A & B & C). cbn [fst snd] in A, B, C.
      split; [exists o; split|apply (object_text_ok n g v [] A ltac:(lia) C)].
      + exists [], (listings (zlen (W older)) (rv_objs r)), (tables older). split; [reflexivity|]. split; [exact L1|constructor].
      + set (t := trailer_with (snd (write a b older)) (rv_trailer r)).
        exists (W older ++ before), (object_text n g v), (after ++ (section_text (listings (zlen (W older)) (rv_objs r)) t ++ end_text (zlen (W older) + zlen (body_text (rv_objs r)))) ++ post).
        split; [unfold rev_text; rewrite L2 at 1; now rewrite <- !app_assoc|]. split; [rewrite zlen_app; lia|].
        apply OT_direct. apply object_text_ok; auto. lia.
    - rewrite <- app_assoc. destruct (IH HF' (rev_text (zlen (W older)) (trailer_with (snd (write a b older)) (rv_trailer r)) r ++ post) n g v H) as [(o & (newer & l & old & E1 & E2 & E3) & HS) HO].
      split; [|exact HO]. exists o. split; [|exact HS]. exists (listings (zlen (W older)) (rv_objs r) :: newer), l, old. cbn [tables]. rewrite E1.
      split; [reflexivity|]. split; [exact E2|]. constructor; [|exact E3]. intros o' X. apply listed_find in X. destruct X as [w X]. congruence.
  Qed.

  Lemma startxref_last Y : ~ In 120 Y -> last_occ (bs "startxref") (bs "startxref" ++ Y).
  Proof.
    intros HY. split; [eexists; reflexivity|]. intros x y E. destruct x as [|c x]; [reflexivity|]. exfalso.
    assert (nth_error (bs "startxref" ++ Y) (List.length (c :: x) + 5) = Some 120) as HN.
    { rewrite E, nth_error_app2 by lia. replace (List.length (c :: x) + 5 - List.length (c :: x))%nat with 5%nat by lia. reflexivity. }
    cbn [List.length Nat.add] in HN. destruct (List.length x) as [|[|[|i]]]; try discriminate HN.
    apply HY. change (S (S (S (S i)) + 5)) with (S (S (S (S (i + 5))))) in HN.
    rewrite nth_error_app2 in HN by (cbn; lia). eapply nth_error_In; eauto.
  Qed.
  Lemma offset_written A o : 0 <= o -> offset_of (A ++ end_text o) (Ok o).
  Proof.
    intros Ho. destruct (dec_ok o Ho) as (D1 & D2 & D3).
    pose proof (C17_startxref_number (A ++ [10]) ([10] ++ dec o ++ [10]) [10] [10] (dec o) [10]) as H.
    rewrite D1, <- app_assoc in H. unfold end_text.
    replace ([10] ++ bs "startxref" ++ [10] ++ dec o ++ [10] ++ bs "%%EOF" ++ [10])
      with ([10] ++ bs "startxref" ++ ([10] ++ dec o ++ [10]) ++ bs "%%EOF" ++ [10]) by (rewrite <- !app_assoc; reflexivity).
    apply H; auto; try reflexivity.
    - destruct A; discriminate.
    - change (zlen [10]) with 1. lia.
    - apply last_occ_check; try reflexivity; [|discriminate]. eexists. reflexivity.
    - apply startxref_last. intros X. apply in_app_or in X. destruct X as [[X|[]]|X]; [discriminate|].
      apply in_app_or in X. destruct X as [X|[X|[]]]; [|discriminate].
      unfold digits_ok in D2. rewrite Forall_forall in D2. apply D2 in X. discriminate.
    - apply Sep_ws; [reflexivity|constructor].
  Qed.
  Lemma W_version revs : exists rest, W revs = version_line a b ++ rest.
  Proof.
    induction revs as [|r older [rest IH]]; [exists []; cbn [write fst]; now rewrite app_nil_r|]. rewrite write_cons, IH, <- app_assoc. eexists. reflexivity.
  Qed.
  Lemma rev_text_len start t r : 22 <= zlen (rev_text start t r).
  Proof.
    unfold rev_text, section_text, end_text. rewrite !zlen_app.
    repeat match goal with |- context [zlen (bs ?x)] => let n := eval vm_compute in (zlen (bs x)) in change (zlen (bs x)) with n end.
    change (zlen [10]) with 1.
    pose proof (zlen_nonneg (body_text (rv_objs r))). pose proof (zlen_nonneg (flat_map row_text (listings start (rv_objs r)))).
    pose proof (zlen_nonneg (entries_text t)). pose proof (zlen_nonneg (dec (start + zlen (body_text (rv_objs r))))). lia.
  Qed.
  Lemma search_here m i w v : m w = Some v -> search m true i w = Some (i, v).
  Proof. intros E. destruct w; cbn [search]; rewrite E; reflexivity. Qed.
  Lemma header_written f rest : is_digit a = true -> is_digit b = true -> f = version_line a b ++ rest -> 22 <= zlen f ->
    header_of f (Ok ([a; 46; b], 0)).
  Proof.
    intros Ha Hb Ef Hf U st u. assert (exists k, k = (1024 - 22)%nat) as [k Hk] by eauto.
    assert (f = firstn 22 f ++ skipn 22 f) as E by (symmetry; apply firstn_skipn).
    assert (List.length (firstn 22 f) = 22%nat) as Hw by (rewrite firstn_length; unfold zlen in Hf; lia).
    assert (header_in (firstn 22 f) = Some (0, [a; 46; b])) as HI.
    { rewrite Ef. unfold version_line. change (bs "%PDF-") with [37; 80; 68; 70; 45].
      change (firstn 22 (([37; 80; 68; 70; 45] ++ [a; 46; b] ++ [10]) ++ rest)) with (37 :: 80 :: 68 :: 70 :: 45 :: a :: 46 :: b :: 10 :: firstn 13 rest).
      generalize (firstn 13 rest). intros tl. unfold header_in.
      assert (pdf_marker (37 :: 80 :: 68 :: 70 :: 45 :: a :: 46 :: b :: 10 :: tl) = Some [a; 46; b]) as Hmk.
      { unfold pdf_marker. change (bs "%PDF-") with [37; 80; 68; 70; 45]. cbn [after]. rewrite !Z.eqb_refl. unfold version_at.
        rewrite Ha, Hb. reflexivity. }
      rewrite (search_here pdf_marker 0 _ _ Hmk). reflexivity. }
    destruct (header_run f k (firstn 22 f) (skipn 22 f) (Some (0, [a; 46; b])) 22 st u E Hw) as [pos Hp].
    { destruct k; cbn [header_loop]; rewrite HI; reflexivity. }
    exists pos. change (22 - 22 + 0) with 0 in Hp. rewrite <- Hp. unfold pdf_header, header_after. rewrite <- Hk. reflexivity.
  Qed.
  Lemma trailer_keys revs k : Forall rev_ok revs -> k = bs "xrefs" \/ k = bs "self" -> dget (trailer_of_file a b revs) k = None.
  Proof.
    intros HF Hk. destruct revs as [|r older]; [reflexivity|]. inversion HF as [|? ? (_ & _ & _ & _ & R5 & R6) _]; subst. cbn [trailer_of_file].
    destruct (snd (write a b older)); cbn [trailer_with].
    - destruct Hk as [-> | ->]; rewrite dget_app by assumption; reflexivity.
    - destruct Hk as [-> | ->]; assumption.
  Qed.
  Lemma written_facts revs : is_digit a = true -> is_digit b = true -> revs <> [] -> Forall rev_ok revs -> zlen (W revs) < 10 ^ 10 ->
    exists o, header_of (W revs) (Ok ([a; 46; b], 0)) /\ offset_of (W revs) (Ok o) /\ Chain (W revs) o (tables revs) (trailer_of_file a b revs).
  Proof.
    intros Ha Hb Hne HF Hlt. destruct revs as [|r older]; [congruence|].
    exists (zlen (W older) + zlen (body_text (rv_objs r))).
    destruct (chain_written (r :: older) Hne HF Hlt [] _ (prev_cons r older)) as [Ho HC]. rewrite app_nil_r in HC.
    split; [|split; [|exact HC]].
    - destruct (W_version (r :: older)) as [rest Er]. apply (header_written _ rest); auto.
      rewrite write_cons, zlen_app. pose proof (rev_text_len (zlen (W older)) (trailer_with (snd (write a b older)) (rv_trailer r)) r). pose proof (W_pos older). lia.
    - rewrite write_cons. unfold rev_text. rewrite !app_assoc. apply offset_written. lia.
  Qed.
  Lemma tables_len revs : List.length (tables revs) = List.length revs.
  Proof. induction revs; cbn [tables List.length]; auto. Qed.
End Files.

(** C76.  A file written with any number of revisions is opened, with the version and the trailer written,
    and every sequence of lookups of its objects gives their newest values. *)
Theorem C76_written_documents : forall inflate ccitt a b revs,
  is_digit a = true -> is_digit b = true -> revs <> [] -> Forall rev_ok revs ->
  zlen (file_of a b revs) < 10 ^ 10 ->
  forall D m k, (0 < D)%nat -> 4 * zlen (file_of a b revs) + 8 <= Z.of_nat m -> (List.length revs <= k)%nat ->
  exists s, arun (file_of a b revs) (open_document inflate ccitt no_decrypt D m k) (mkA 0 [] rst0) =
              (Ok ([a; 46; b], 0, trailer_of_file a b revs), s) /\
  forall k' ids, (2 <= k')%nat -> Forall (fun id => current revs (fst id) (snd id) <> None) ids ->
    map Some (fst (session inflate ccitt no_decrypt D m k' (file_of a b revs) s ids)) =
    map (fun id => match current revs (fst id) (snd id) with Some v => Some (Ok v) | None => None end) ids.
Proof.
  intros inflate ccitt a b revs Ha Hb Hne HF Hlt D m k HD Hm Hk. unfold file_of in *.
  destruct (written_facts a b revs Ha Hb Hne HF Hlt) as (o & Hh & Hoff & HC).
  destruct (C76_listed_objects inflate ccitt (fst (write a b revs)) [a; 46; b] 0 o (tables a b revs) (trailer_of_file a b revs) (current revs) Hh Hoff HC
    (trailer_keys a b revs _ HF (or_introl eq_refl)) (trailer_keys a b revs _ HF (or_intror eq_refl))) with (D := D) (m := m) (k := k) as (s & E & HS); auto.
  - intros n g v Hv. destruct (written_listed a b (current revs) revs HF [] n g v Hv) as [H _]. now rewrite app_nil_r in H.
  - intros n g v Hv. apply (written_listed a b (current revs) revs HF [] n g v Hv).
  - rewrite tables_len. exact Hk.
  - exists s. split; [exact E|]. intros k' ids Hk' Hids. rewrite (HS k' ids Hk' Hids), map_map. apply map_ext_in.
    intros [n g] Hin. cbn [fst snd]. rewrite Forall_forall in Hids. specialize (Hids _ Hin). cbn [fst snd] in Hids.
    unfold denoted. destruct (current revs n g); [reflexivity|congruence].
Qed.

Lemma find_In objs n g v : NoDup (map (fun e : Z * Z * obj => fst (fst e)) objs) -> (In (n, g, v) objs <-> find_obj objs n g = Some v).
Proof.
  induction objs as [|[[n0 g0] v0] objs IH]; intros ND; cbn [find_obj In]; [split; [tauto|discriminate]|].
  cbn [map fst] in ND. inversion ND as [|? ? Hni ND']; subst. destruct ((n0 =? n) && (g0 =? g)) eqn:E.
  - assert (n0 = n /\ g0 = g) as [-> ->] by (apply andb_true_iff in E; lia). split.
    + intros [X|X]; [congruence|]. exfalso. apply Hni. apply in_map_iff. exists (n, g, v). auto.
    + intros X. left. congruence.
  - rewrite <- (IH ND'). split; [|auto]. intros [X|X]; [|exact X]. injection X as -> -> ->. rewrite !Z.eqb_refl in E. discriminate.
Qed.
Lemma body_ok content rest : nosep rest -> forall objs s,
  Forall (fun e => 0 <= fst (fst e) /\ 0 <= snd (fst e) < 10 ^ 5 /\ writable (snd e)) objs -> Sep s ->
  match objs with [] => BodyText content [] s rest
                | (n, g, v) :: r => BodyText content objs (s ++ object_text n g v ++ [10] ++ body_text r) rest end.
Proof.
  intros Hr. induction objs as [|[[n g] v] objs IH]; intros s HF Hs; [now constructor|].
  inversion HF as [|? ? (A & B & C) HF']; subst. cbn [fst snd] in *.
  assert (Sep [10]) as H10 by (apply Sep_ws; [reflexivity|constructor]).
  constructor; [exact Hs|apply OT_direct; apply object_text_ok; auto; lia|].
  specialize (IH [10] HF' H10). destruct objs as [|[[n2 g2] v2] r]; [cbn [body_text]; exact IH|exact IH].
Qed.

(** ... and if there is one revision only, lookups of any ids, in any order: the object, or null. *)
Theorem C76_written_once : forall inflate ccitt a b r,
  is_digit a = true -> is_digit b = true -> rev_ok r -> zlen (file_of a b [r]) < 10 ^ 10 ->
  forall D m k, (0 < D)%nat -> 4 * zlen (file_of a b [r]) + 8 <= Z.of_nat m -> (1 <= k)%nat ->
  exists s, arun (file_of a b [r]) (open_document inflate ccitt no_decrypt D m k) (mkA 0 [] rst0) =
              (Ok ([a; 46; b], 0, rv_trailer r), s) /\
  forall k' ids, (2 <= k')%nat ->
    fst (session inflate ccitt no_decrypt D m k' (file_of a b [r]) s ids) =
    map (fun id => Ok (match find_obj (rv_objs r) (fst id) (snd id) with Some v => v | None => ONull end)) ids.
Proof.
  intros inflate ccitt a b r Ha Hb Hr Hlt D m k HD Hm Hk. unfold file_of in *.
  assert (Forall rev_ok [r]) as HF by (constructor; [exact Hr|constructor]).
  destruct (written_facts a b [r] Ha Hb ltac:(discriminate) HF Hlt) as (o & Hh & Hoff & HC).
  pose proof Hr as (R1 & R2 & _).
  set (l := listings (zlen (version_line a b)) (rv_objs r)) in *.
  set (sec := section_text l (rv_trailer r) ++ end_text (zlen (version_line a b) + zlen (body_text (rv_objs r)))).
  assert (Sep (version_line a b)) as Hsep.
  { unfold version_line. replace (bs "%PDF-" ++ [a; 46; b] ++ [10]) with (37 :: (bs "PDF-" ++ [a; 46; b]) ++ [10] ++ []) by reflexivity.
    apply (Sep_comment (bs "PDF-" ++ [a; 46; b]) [10] []); [|left; reflexivity|constructor].
    unfold is_digit in Ha, Hb. repeat constructor; cbn; lia. }
  assert (exists body, BodyText (current [r]) (rv_objs r) body sec /\ fst (write a b [r]) = [] ++ body ++ sec) as (body & HB & Ef).
  { pose proof (body_ok (current [r]) sec eq_refl (rv_objs r) (version_line a b) R1 Hsep) as HB. rewrite write_cons.
    change (fst (write a b [])) with (version_line a b). change (trailer_with (snd (write a b [])) (rv_trailer r)) with (rv_trailer r).
    unfold rev_text. destruct (rv_objs r) as [|[[n g] v] rs].
    - exists (version_line a b). split; [exact HB|]. reflexivity.
    - eexists. split; [exact HB|]. cbn [body_text app]. rewrite <- !app_assoc. reflexivity. }
  assert (current [r] = fun n g => match find_obj (rv_objs r) n g with Some v => Some v | None => None end) as Ecur by reflexivity.
  assert (forall n g, current [r] n g = find_obj (rv_objs r) n g) as Ec by (intros n g; cbn [current]; now destruct (find_obj (rv_objs r) n g)).
  destruct (C76_any_objects inflate ccitt (fst (write a b [r])) [a; 46; b] [] body sec o (tables a b [r]) (trailer_of_file a b [r]) (current [r]) (rv_objs r) Ef Hh Hoff HC
    (trailer_keys a b [r] _ HF (or_introl eq_refl)) (trailer_keys a b [r] _ HF (or_intror eq_refl)) HB) with (D := D) (m := m) (k := k) as (s & E & HS); auto.
  - intros c X. inversion X. repeat split; discriminate.
  - intros n g v. rewrite Ec. now apply find_In.
  - intros n g o' (newer & l' & older & E1 & E2 & E3). change (tables a b [r]) with [l] in E1. destruct newer as [|x newer]; [|destruct newer; discriminate].
    injection E1 as <- <-. destruct (listed_find _ _ _ _ _ E2) as [v Hv]. exists v. split; [now rewrite Ec|].
    assert (current [r] n g = Some v) as Hv' by now rewrite Ec.
    destruct (written_listed a b (current [r]) [r] HF [] n g v Hv') as [(o2 & (nw & l2 & od & F1 & F2 & F3) & HSt) _]. rewrite app_nil_r in HSt.
    change (tables a b [r]) with [l] in F1. destruct nw as [|x nw]; [|destruct nw; discriminate]. injection F1 as <- <-. fold l in E2. rewrite E2 in F2. injection F2 as <-. exact HSt.
  - intros n g z Hz. destruct (written_listed a b (current [r]) [r] HF [] n g (OInt z) Hz) as [(o2 & HN & _) _]. eauto.
  - intros n g v Hv. apply (written_listed a b (current [r]) [r] HF [] n g v Hv).
  - exists s. split; [exact E|]. intros k' ids Hk'. rewrite (HS k' ids Hk'). apply map_ext. intros [n g]. cbn [fst snd]. unfold denoted. now rewrite Ec.
Qed.
Print Assumptions C76_written_documents.
Print Assumptions C76_written_once.

(** A file with two revisions: the second one replaces object 1 and adds object 4. *)
Definition ex_old : revision :=
  mkRev [(1, 0, ODict [(bs "Type", OName (bs "Catalog")); (bs "Pages", ORef 3 0)]);
         (2, 0, OStream [(bs "Length", OInt 5); (bs "Kind", OName (bs "A b"))] (bs "hello"));
         (3, 7, OArr [ORef 2 0; OReal true 314 (-2); OHex (bs "00FF"); OStr (bs "a(b)\"); ONull])]
        [(bs "Root", ORef 1 0); (bs "Size", OInt 4)].
Definition ex_new : revision :=
  mkRev [(1, 0, ODict [(bs "Type", OName (bs "Catalog")); (bs "Pages", ORef 4 0)]); (4, 0, OInt (-12))]
        [(bs "Root", ORef 1 0); (bs "Size", OInt 5)].
Ltac wr := repeat match goal with
  | |- _ /\ _ => split
  | |- writable _ => progress cbn [writable snd printable fold_right fst map]
  | |- _ -> _ => intros _
  | |- Forall _ (bs _) => let x := eval vm_compute in (bs "00FF") in change (bs "00FF") with x
  | |- Forall _ (_ :: _) => constructor
  | |- exists h, _ => first [exists 0; split; [lia|reflexivity] | exists 15; split; [lia|reflexivity]]
  | |- Forall _ [] => constructor
  | |- NoDup (_ :: _) => constructor; [cbn; intuition discriminate|]
  | |- NoDup [] => constructor
  | |- True => exact I
  end.
Example ex_old_ok : rev_ok ex_old.
Proof.
  unfold rev_ok, ex_old. cbn [rv_objs rv_trailer map fst snd writable printable fold_right].
  assert (forall s, forallb (fun c => (0 <=? c) && (c <? 256)) s = true -> bytes_ok s) as Hb.
  { intros s H. rewrite forallb_forall in H. apply Forall_forall. intros c Hc. specialize (H c Hc). unfold byte_ok. lia. }
  wr; first [apply Hb; reflexivity | reflexivity | discriminate | (vm_compute; discriminate) | idtac].
Qed.
Example ex_new_ok : rev_ok ex_new.
Proof.
  unfold rev_ok, ex_new. cbn [rv_objs rv_trailer map fst snd writable printable fold_right].
  assert (forall s, forallb (fun c => (0 <=? c) && (c <? 256)) s = true -> bytes_ok s) as Hb.
  { intros s H. rewrite forallb_forall in H. apply Forall_forall. intros c Hc. specialize (H c Hc). unfold byte_ok. lia. }
  wr; first [apply Hb; reflexivity | reflexivity | discriminate | (vm_compute; discriminate) | idtac].
Qed.
Lemma somes_inj : forall x y : list (res obj), map Some x = map Some y -> x = y.
Proof. induction x as [|p x IH]; intros [|q y]; cbn [map]; try discriminate; [reflexivity|]. intros X. injection X as -> X. f_equal. now apply IH. Qed.
Example C76_two_revisions inflate ccitt : exists s m,
  arun (file_of 49 55 [ex_new; ex_old]) (open_document inflate ccitt no_decrypt 1 m 2) (mkA 0 [] rst0) =
    (Ok (bs "1.7", 0, trailer_of_file 49 55 [ex_new; ex_old]), s) /\
  fst (session inflate ccitt no_decrypt 1 m 2 (file_of 49 55 [ex_new; ex_old]) s [(2, 0); (1, 0); (3, 7); (4, 0); (1, 0)]) =
    [Ok (OStream [(bs "Length", OInt 5); (bs "Kind", OName (bs "A b"))] (bs "hello"));
     Ok (ODict [(bs "Type", OName (bs "Catalog")); (bs "Pages", ORef 4 0)]);
     Ok (OArr [ORef 2 0; OReal true 314 (-2); OHex (bs "00FF"); OStr (bs "a(b)\"); ONull]);
     Ok (OInt (-12));
     Ok (ODict [(bs "Type", OName (bs "Catalog")); (bs "Pages", ORef 4 0)])].
Proof.
  destruct (C76_written_documents inflate ccitt 49 55 [ex_new; ex_old] eq_refl eq_refl ltac:(discriminate)
    (Forall_cons _ ex_new_ok (Forall_cons _ ex_old_ok (Forall_nil _)))) with (D := 1%nat) (m := Z.to_nat (4 * zlen (file_of 49 55 [ex_new; ex_old]) + 8)) (k := 2%nat)
    as (s & E & HS); [vm_compute; reflexivity|lia|rewrite Z2Nat.id; [lia|pose proof (zlen_nonneg (file_of 49 55 [ex_new; ex_old])); lia]|cbn; lia|].
  eexists _, _. split; [exact E|]. specialize (HS 2%nat [(2, 0); (1, 0); (3, 7); (4, 0); (1, 0)] ltac:(lia)).
  revert HS. generalize (fst (session inflate ccitt no_decrypt 1 (Z.to_nat (4 * zlen (file_of 49 55 [ex_new; ex_old]) + 8)) 2 (file_of 49 55 [ex_new; ex_old]) s [(2, 0); (1, 0); (3, 7); (4, 0); (1, 0)])).
  intros l HS. clear E. apply somes_inj. rewrite HS; [reflexivity|]. repeat constructor; cbn; discriminate.
Qed.

(** A stream whose Length is another object of the document, written after it. *)
Definition ex_lenobj : list Z := bs "2 0 obj <</Length 3 0 R >> stream" ++ [10] ++ bs "hello" ++ [10] ++ bs "endstream endobj".
Definition ex_lenfile : list Z :=
  version_line 49 52 ++ ex_lenobj ++ [10] ++ object_text 3 0 (OInt 5) ++ [10] ++
  section_text [mkListed 2 0 9 true; mkListed 3 0 66 true] [(bs "Root", ORef 2 0)] ++ end_text 83.
Definition ex_lencontent : contents := fun n g =>
  if (n =? 2) && (g =? 0) then Some (OStream [(bs "Length", OInt 5)] (bs "hello")) else
  if (n =? 3) && (g =? 0) then Some (OInt 5) else None.
Example ex_len_text rest : ObjText ex_lencontent 2 0 (OStream [(bs "Length", OInt 5)] (bs "hello")) ex_lenobj rest.
Proof.
  pose proof (OT_length ex_lencontent 2 0 3 0 [(bs "Length", ORef 3 0)] (bs "hello") ex_lenobj rest) as H. apply H; [|reflexivity]. clear H.
  destruct (entries_ser [(bs "Length", ORef 3 0)] ([32] ++ bs "stream" ++ [10] ++ bs "hello" ++ [10] ++ bs "endstream" ++ [32] ++ bs "endobj" ++ rest)) as [HS HE].
  { split; [repeat constructor; cbn; intuition|]. cbn. unfold bytes_ok, byte_ok. repeat constructor; lia. }
  pose proof (LS (dec 2) [32] (dec 0) [32] [32] [(bs "Length", ORef 3 0)] [] _ [32] [10] (bs "hello") [10] [32] rest 3 0 (ind_head_dec 2 0 ltac:(lia) ltac:(lia))
    ltac:(constructor) sep_sp1 HS) as H. apply H; [left; left; reflexivity|repeat constructor|apply sep_sp1|reflexivity].
Qed.
Example C76_indirect_length inflate ccitt : exists s m,
  arun ex_lenfile (open_document inflate ccitt no_decrypt 1 m 1) (mkA 0 [] rst0) = (Ok (bs "1.4", 0, [(bs "Root", ORef 2 0)]), s) /\
  fst (session inflate ccitt no_decrypt 1 m 2 ex_lenfile s [(2, 0); (3, 0); (2, 0)]) =
    [Ok (OStream [(bs "Length", OInt 5)] (bs "hello")); Ok (OInt 5); Ok (OStream [(bs "Length", OInt 5)] (bs "hello"))].
Proof.
  destruct (C76_listed_objects inflate ccitt ex_lenfile (bs "1.4") 0 83 [[mkListed 2 0 9 true; mkListed 3 0 66 true]] [(bs "Root", ORef 2 0)] ex_lencontent)
    with (D := 1%nat) (m := Z.to_nat (4 * zlen ex_lenfile + 8)) (k := 1%nat) as (s & E & HS).
  - apply (header_written 49 52 ex_lenfile (ex_lenobj ++ [10] ++ object_text 3 0 (OInt 5) ++ [10] ++
      section_text [mkListed 2 0 9 true; mkListed 3 0 66 true] [(bs "Root", ORef 2 0)] ++ end_text 83)); try reflexivity. vm_compute. discriminate.
  - unfold ex_lenfile. rewrite !app_assoc. apply offset_written. lia.
  - apply Ch_last; [|reflexivity].
    exists (version_line 49 52 ++ ex_lenobj ++ [10] ++ object_text 3 0 (OInt 5) ++ [10]), (section_text [mkListed 2 0 9 true; mkListed 3 0 66 true] [(bs "Root", ORef 2 0)]), (end_text 83).
    split; [unfold ex_lenfile; now rewrite <- !app_assoc|]. split; [reflexivity|]. apply section_ok.
    + repeat constructor; cbn; lia.
    + split; [repeat constructor; cbn; intuition|]. cbn. unfold bytes_ok, byte_ok. repeat constructor; lia.
  - reflexivity.
  - reflexivity.
  - intros n g v. unfold ex_lencontent. destruct ((n =? 2) && (g =? 0)) eqn:E2; [|destruct ((n =? 3) && (g =? 0)) eqn:E3; [|discriminate]].
    + apply andb_true_iff in E2. intros X. injection X as <-. replace n with 2 by lia. replace g with 0 by lia. exists 9. split.
      * exists [], [mkListed 2 0 9 true; mkListed 3 0 66 true], []. repeat split; constructor.
      * exists (version_line 49 52), ex_lenobj, ([10] ++ object_text 3 0 (OInt 5) ++ [10] ++ section_text [mkListed 2 0 9 true; mkListed 3 0 66 true] [(bs "Root", ORef 2 0)] ++ end_text 83).
        split; [reflexivity|]. split; [reflexivity|]. apply ex_len_text.
    + apply andb_true_iff in E3. intros X. injection X as <-. replace n with 3 by lia. replace g with 0 by lia. exists 66. split.
      * exists [], [mkListed 2 0 9 true; mkListed 3 0 66 true], []. repeat split; constructor.
      * exists (version_line 49 52 ++ ex_lenobj ++ [10]), (object_text 3 0 (OInt 5)), ([10] ++ section_text [mkListed 2 0 9 true; mkListed 3 0 66 true] [(bs "Root", ORef 2 0)] ++ end_text 83).
        split; [unfold ex_lenfile; now rewrite <- !app_assoc|]. split; [reflexivity|]. apply OT_direct. apply object_text_ok; [lia|lia|exact I].
  - intros n g v. unfold ex_lencontent. destruct ((n =? 2) && (g =? 0)); [|destruct ((n =? 3) && (g =? 0)); [|discriminate]]; intros X; injection X as <-; intros d raw Y; [injection Y as <- <-; reflexivity|discriminate].
  - lia.
  - rewrite Z2Nat.id; [lia|pose proof (zlen_nonneg ex_lenfile); lia].
  - cbn; lia.
  - eexists _, _. split; [exact E|]. rewrite HS; [reflexivity|lia|repeat constructor; cbn; discriminate].
Qed.
