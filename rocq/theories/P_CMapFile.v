(** C55: CMap files parse to their mappings. *)
From Coq Require Import String Sorting.Sorted.
From Verif Require Import Prelude M_Prog M_Buffer S_Buffer L_Buffer L_Prog M_Parser L_ParserWP L_Fuel S_Syntax L_Syntax L_Syntax2 S_Stream L_Stream
  L_Content P_ParserTotal M_Codec M_CMap S_CMap L_CMap P_CMap M_CMapParser S_CMapFile L_CMapParser L_CMapParser2 L_CMapWP
  S_Print L_Print.
Local Open Scope Z_scope.
Local Open Scope prog_scope.

(** *** Entries and the mappings built from them *)
Lemma mk_range_ok b e : HexCode b -> HexCode e -> zlen b = zlen e -> hnum b <= hnum e -> mk_range b e = Ok (mkR (hnum b) (hnum e) (zlen b)).
Proof.
  intros Hb He El Hn. unfold mk_range. rewrite !as_int_hnum by assumption. cbn [rbind].
  replace (zlen b =? zlen e) with true by lia. replace (hnum e <? hnum b) with false by lia. reflexivity.
Qed.

Lemma array_maps_ok : forall codes ds more, List.length codes = List.length ds ->
  array_maps codes (map OHex ds ++ more) = Ok (map (fun cd => mk_bf (fst cd) (snd cd)) (combine codes ds)).
Proof.
  induction codes as [|c cs IH]; intros [|d ds] more H; try discriminate; cbn [array_maps map app combine fst snd]; auto.
  cbn [mk_bf_obj rbind]. rewrite IH; auto.
Qed.

Lemma range_from_nth n : forall v size i c, 0 < size -> 0 <= v -> v + Z.of_nat n <= 16 ^ size -> nth_error (range_from n v size) i = Some c ->
  Forall updigit c /\ zlen c = size /\ hnum c = v + Z.of_nat i.
Proof.
  induction n as [|n IH]; intros v size i c Hs Hv Hb H; [destruct i; discriminate|]. cbn [range_from] in H.
  destruct i as [|i].
  - cbn [nth_error] in H. injection H as <-. 
    replace size with (Z.of_nat (Z.to_nat size)) in * by lia. rewrite zfill_hexw by lia.
    rewrite hexw_len, hexw_num by lia. split; [apply hexw_up; lia|]. lia.
  - cbn [nth_error] in H. destruct (IH (v + 1) size i c) as (H1 & H2 & H3); auto; [lia|lia|]. repeat split; auto. lia.
Qed.

Lemma range_entries_maps bed es : RangeEntries bed es ->
  exists ms, range_maps (fst (fst bed)) (snd (fst bed)) (snd bed) = Ok ms /\ Forall2 built es ms.
Proof.
  destruct 1 as [b e z Hok|b e d Hok Hd|b e ds more es Hb He El Hlen H1 Hu H2 Hc]; cbn [fst snd range_maps].
  - destruct Hok as (Hb & He & El & Hn). destruct (proj1 (C51_construction b e z Hb He) El Hn) as (m & Em).
    exists [m]. rewrite Em. split; [reflexivity|]. repeat constructor. exact Em.
  - destruct Hok as (Hb & He & El & Hn). rewrite (C51_hex_destination b e d Hd).
    destruct (proj1 (C51_construction b e (hnum d) Hb He) El Hn) as (m & Em).
    exists [m]. rewrite Em. split; [reflexivity|]. repeat constructor. exact Em.
  - assert (hnum b <= hnum e) as Hn by lia. rewrite (mk_range_ok b e Hb He El Hn). cbn [rbind].
    set (r := mkR (hnum b) (hnum e) (zlen b)).
    assert (List.length (range_list r) = List.length ds) as Hll.
    { unfold range_list. rewrite range_from_len. unfold range_len, r; cbn [r_begin r_end]. unfold zlen in Hlen. lia. }
    exists (map (fun cd => mk_bf (fst cd) (snd cd)) (combine (range_list r) ds)). split; [apply array_maps_ok; auto|].
    assert (forall i c, nth_error (range_list r) i = Some c -> Forall updigit c /\ zlen c = zlen b /\ hnum c = hnum b + Z.of_nat i) as Hr.
    { intros i c Hi. unfold range_list in Hi. pose proof (hnum_bounds b (proj2 Hb)). pose proof (hnum_bounds e (proj2 He)).
      apply range_from_nth in Hi; auto; unfold r, range_len in *; cbn [r_size r_begin r_end] in *; try lia.
      - destruct Hb as [Hb _]. destruct b; [congruence|]. rewrite zlen_cons. pose proof (zlen_nonneg b). lia.
      - rewrite El. lia. }
    revert Hr. generalize (range_list r) Hll. clear Hlen H1 Hn Hu. 
    assert (forall i c d, nth_error es i = Some (EChar c d) -> UpperCode c /\ zlen c = zlen b /\ hnum c = hnum b + 0 + Z.of_nat i) as Hc'
      by (intros i c d Hi; rewrite Z.add_0_r; eauto).
    clear Hc. intros l Hl Hr.
    assert (forall i c, nth_error l i = Some c -> Forall updigit c /\ zlen c = zlen b /\ hnum c = hnum b + 0 + Z.of_nat i) as Hr'
      by (intros i c Hi; rewrite Z.add_0_r; eauto).
    clear Hr Hll. revert l Hl Hr' Hc'. generalize 0. clear - H2.
    induction H2 as [|d x ds es (c0 & ->) Hf IH]; intros j l Hl Hr Hc; (destruct l as [|c l]; try discriminate); cbn [combine map]; constructor.
    + cbn [built fst snd]. destruct (Hr 0%nat c eq_refl) as (R1 & R2 & R3). destruct (Hc 0%nat c0 d eq_refl) as (C1 & C2 & C3).
      f_equal. apply hnum_inj; auto; [apply C1|lia|lia].
    + apply (IH (j + 1)).
      * cbn in Hl. lia.
      * intros i c' Hi. destruct (Hr (S i) c' Hi) as (R1 & R2 & R3). repeat split; auto. lia.
      * intros i c' d' Hi. destruct (Hc (S i) c' d' Hi) as (R1 & R2 & R3). repeat split; auto. all: try apply R1. lia.
Qed.

Lemma char_entry_map k bd e : CharEntry k bd e -> exists m, good_char (kind_word k) bd m /\ built e m.
Proof.
  destruct 1 as [b d Hb Hu|k b d Hk Hb Hd].
  - exists (mk_bf b d). split; [|reflexivity]. exists d. split; reflexivity.
  - destruct (proj1 (C51_construction b b (hnum d) Hb Hb) eq_refl (Z.le_refl _)) as (m & Em).
    exists m. split; [|exact Em]. exists d. split; [reflexivity|]. cbn [fst].
    unfold char_map. replace (eqlZ (kind_word k) (bs "bf")) with false by (destruct k; auto; congruence).
    rewrite C51_hex_destination by auto. exact Em.
Qed.

(** *** Which chunks a search stops at *)
Definition start_word (c : chunk) : option (list Z) :=
  match c with
  | KPlain _ => None
  | KCodespace _ => Some (bs "begincodespacerange")
  | KRange k _ => Some (bs "begin" ++ kind_word k ++ bs "range")
  | KChar k _ => Some (bs "begin" ++ kind_word k ++ bs "char")
  end.
Lemma forall_objs {A} (g : A -> list item) w l : (forall a, Forall (fun i => exists o, i = IObj o) (g a)) ->
  Forall (fun i => i <> IWord w) (flat_map g l).
Proof.
  intros H. apply Forall_forall. intros i Hi. apply in_flat_map in Hi. destruct Hi as (a & _ & Ha).
  specialize (H a). rewrite Forall_forall in H. destruct (H i Ha) as (o & ->). discriminate.
Qed.
Lemma chunk_no_word c w : plain_ok c -> In w section_words -> start_word c <> Some w -> Forall (fun i => i <> IWord w) (chunk_items c).
Proof.
  intros Hp Hw Hs. destruct c as [i|l|k l|k l]; cbn [chunk_items start_word] in *.
  - constructor; [|constructor]. intros ->. apply (Hp w eq_refl Hw).
  - constructor; [congruence|]. apply Forall_app. split; [apply forall_objs; intros; repeat (constructor; eauto)|].
    constructor; [|constructor]. intros E. injection E as <-. cbn in Hw. repeat destruct Hw as [Hw|Hw]; try discriminate; auto.
  - constructor; [congruence|]. apply Forall_app. split; [apply forall_objs; intros; repeat (constructor; eauto)|].
    constructor; [|constructor]. intros E. injection E as <-. destruct k; cbn in Hw; repeat destruct Hw as [Hw|Hw]; try discriminate; auto.
  - constructor; [congruence|]. apply Forall_app. split; [apply forall_objs; intros; repeat (constructor; eauto)|].
    constructor; [|constructor]. intros E. injection E as <-. destruct k; cbn in Hw; repeat destruct Hw as [Hw|Hw]; try discriminate; auto.
Qed.

Section S.
  Context {U : Type}.
  Variable f : list Z.
  Notation P := (prog U).

  (** *** Sections of each kind *)
  Lemma code_sections cs : Forall plain_ok cs ->
    Forall (fun be => HexCode (fst be) /\ HexCode (snd be) /\ zlen (fst be) = zlen (snd be) /\ hnum (fst be) <= hnum (snd be)) (codespace_of cs) ->
    exists ls, Forall2 (gives_section (U:=U) f (bs "begincodespacerange") codespacerange) cs ls /\
      List.concat ls = map (fun be => mkR (hnum (fst be)) (hnum (snd be)) (zlen (fst be))) (codespace_of cs).
  Proof.
    induction cs as [|c cs IH]; intros Hp Hc; [exists []; split; [constructor|reflexivity]|].
    inversion Hp as [|? ? Hpc Hpcs]; subst. unfold codespace_of in Hc. cbn [flat_map] in Hc. fold (codespace_of cs) in Hc.
    apply Forall_app in Hc. destruct Hc as [Hc1 Hc2]. destruct (IH Hpcs Hc2) as (ls & HF & HE). clear IH.
    assert (start_word c <> Some (bs "begincodespacerange") -> match c with KCodespace l => l | _ => [] end = [] ->
      exists ls0, Forall2 (gives_section (U:=U) f (bs "begincodespacerange") codespacerange) (c :: cs) ls0 /\
      List.concat ls0 = map (fun be => mkR (hnum (fst be)) (hnum (snd be)) (zlen (fst be))) (codespace_of (c :: cs))) as Other.
    { intros Hs Hl. exists ([] :: ls). split.
      - constructor; auto. left. split; auto. apply chunk_no_word; auto. cbn; auto.
      - unfold codespace_of. cbn [flat_map List.concat app]. fold (codespace_of cs). rewrite Hl. exact HE. }
    destruct c as [i|l|k l|k l]; try (apply Other; [destruct k; discriminate || discriminate|reflexivity]); [apply Other; [discriminate|reflexivity]|].
    set (rs := map (fun be => mkR (hnum (fst be)) (hnum (snd be)) (zlen (fst be))) l).
    exists (rs :: ls). split.
    - constructor; auto. right. exists (tl (chunk_items (KCodespace l))). split; [reflexivity|].
      intros n q its HH Hn. unfold codespacerange.
      cbn [chunk_items app] in HH. rewrite <- app_assoc in HH. cbn [app] in HH.
      eapply r_section; [exact HH|exact Hn|].
      intros p Hpp HH'. destruct (r_codespace_loop (U:=U) f l rs) with (n := n) (pos := p) (acc := @nil range) (e := bs "endcodespacerange") (its := its) as (q' & H1 & H2 & H3); auto.
      + unfold rs. clear - Hc1. induction Hc1 as [|be l (H1 & H2 & H3 & H4) Hf IH]; cbn [map]; constructor; auto. now apply mk_range_ok.
      + fu.
      + exists q'. auto.
    - unfold codespace_of. cbn [flat_map List.concat]. fold (codespace_of cs). rewrite map_app, HE. reflexivity.
  Qed.

  Lemma range_word k : In (bs "begin" ++ kind_word k ++ bs "range") section_words.
  Proof. destruct k; cbn; tauto. Qed.
  Lemma char_word k : In (bs "begin" ++ kind_word k ++ bs "char") section_words.
  Proof. destruct k; cbn; tauto. Qed.

  Lemma range_sections k cs es : Forall plain_ok cs -> RangesOf k cs es ->
    exists ls, Forall2 (gives_section (U:=U) f (bs "begin" ++ kind_word k ++ bs "range") (fun n => mapped_codespacerange n (kind_word k))) cs ls /\
      Forall2 built es (List.concat ls).
  Proof.
    intros Hp H. induction H as [|l cs ess es Hl Hr IH|c cs es Hc Hr IH].
    - exists []. split; constructor.
    - inversion Hp as [|? ? Hpc Hpcs]; subst. destruct (IH Hpcs) as (ls & HF & HE).
      assert (exists rs, Forall2 (fun bed ms => range_maps (fst (fst bed)) (snd (fst bed)) (snd bed) = Ok ms) l rs /\ Forall2 built (List.concat ess) (List.concat rs)) as (rs & Hrs & Hb).
      { clear - Hl. induction Hl as [|bed es l ess H Hf IH]; [exists []; split; constructor|].
        destruct IH as (rs & H1 & H2). destruct (range_entries_maps _ _ H) as (ms & Hm & Hb). exists (ms :: rs). split; [constructor; auto|].
        cbn [List.concat]. apply Forall2_app; auto. }
      exists (List.concat rs :: ls). split; [|cbn [List.concat]; apply Forall2_app; auto].
      constructor; auto. right. exists (tl (chunk_items (KRange k l))). split; [reflexivity|].
      intros n q its HH Hn. unfold mapped_codespacerange.
      cbn [chunk_items app] in HH. rewrite <- app_assoc in HH. cbn [app] in HH.
      eapply r_section; [exact HH|exact Hn|].
      intros p Hpp HH'. destruct (r_mapped_loop (U:=U) f l rs Hrs n p (@nil mapping) _ its HH') as (q' & H1 & H2 & H3); [fu|].
      exists q'. auto.
    - inversion Hp as [|? ? Hpc Hpcs]; subst. destruct (IH Hpcs) as (ls & HF & HE).
      exists ([] :: ls). split; [|exact HE]. constructor; auto. left. split; auto.
      apply chunk_no_word; auto using range_word.
      intros E. destruct c as [i|l|k' l|k' l]; cbn [start_word] in E; try discriminate.
      + destruct k; discriminate.
      + assert (k' = k) as -> by (destruct k', k; auto; discriminate). eapply Hc; reflexivity.
      + destruct k', k; discriminate.
  Qed.

  Lemma char_sections k cs es : Forall plain_ok cs -> CharsOf k cs es ->
    exists ls, Forall2 (gives_section (U:=U) f (bs "begin" ++ kind_word k ++ bs "char") (fun n => mapped_char n (kind_word k))) cs ls /\
      Forall2 built es (List.concat ls).
  Proof.
    intros Hp H. induction H as [|l cs es0 es Hl Hr IH|c cs es Hc Hr IH].
    - exists []. split; constructor.
    - inversion Hp as [|? ? Hpc Hpcs]; subst. destruct (IH Hpcs) as (ls & HF & HE).
      assert (exists rs, Forall2 (good_char (kind_word k)) l rs /\ Forall2 built es0 rs) as (rs & Hrs & Hb).
      { clear - Hl. induction Hl as [|bd e l es0 H Hf IH]; [exists []; split; constructor|].
        destruct IH as (rs & H1 & H2). destruct (char_entry_map _ _ _ H) as (m & Hm & Hb). exists (m :: rs). split; constructor; auto. }
      exists (rs :: ls). split; [|cbn [List.concat]; apply Forall2_app; auto].
      constructor; auto. right. exists (tl (chunk_items (KChar k l))). split; [reflexivity|].
      intros n q its HH Hn. unfold mapped_char.
      cbn [chunk_items app] in HH. rewrite <- app_assoc in HH. cbn [app] in HH.
      eapply r_section; [exact HH|exact Hn|].
      intros p Hpp HH'. destruct (r_char_loop (U:=U) f (kind_word k) l rs Hrs n p (@nil mapping) _ HH') as (G & _); [fu|].
      destruct (G _ its eq_refl) as (q' & H1 & H2 & H3). exists q'. auto.
    - inversion Hp as [|? ? Hpc Hpcs]; subst. destruct (IH Hpcs) as (ls & HF & HE).
      exists ([] :: ls). split; [|exact HE]. constructor; auto. left. split; auto.
      apply chunk_no_word; auto using char_word.
      intros E. destruct c as [i|l|k' l|k' l]; cbn [start_word] in E; try discriminate.
      + destruct k; discriminate.
      + destruct k', k; discriminate.
      + assert (k' = k) as -> by (destruct k', k; auto; discriminate). eapply Hc; reflexivity.
  Qed.

  (** *** The name *)
  Definition is_key (i : item) : Prop := i = IObj (OName (bs "CMapName")).
  Lemma named_split its : (Forall (fun i => ~ is_key i) its /\ named its = None) \/
    (exists pre tl, its = pre ++ IObj (OName (bs "CMapName")) :: tl /\ Forall (fun i => ~ is_key i) pre /\
       named its = match tl with IObj (OName nm) :: _ => Some nm | _ => None end).
  Proof.
    induction its as [|i its IH]; [left; split; [constructor|reflexivity]|].
    destruct (match i with IObj (OName x) => eqlZ x (bs "CMapName") | _ => false end) eqn:E.
    - destruct i as [[| | | |x| | | | | | | |]|w]; try discriminate. apply eqlZ_eq in E. subst x. right.
      exists [], its. split; [reflexivity|]. split; [constructor|]. cbn [named]. rewrite eqlZ_refl. reflexivity.
    - assert (named (i :: its) = named its) as En. { destruct i as [[| | | |x| | | | | | | |]|w]; try reflexivity. cbn [named]. now rewrite E. }
      assert (~ is_key i) as Hk. { intros K. unfold is_key in K. rewrite K in E. rewrite eqlZ_refl in E. discriminate. }
      rewrite En. destruct IH as [[Hf Hn]|(pre & tl & -> & Hf & Hn)]; [left; auto|right].
      exists (i :: pre), tl. split; [reflexivity|]. split; auto.
  Qed.

  Lemma oot_key its pos n : Here f (IObj (OName (bs "CMapName")) :: its) pos -> ofuel f n pos 8 ->
    runs f (object_or_token n : P _) pos (Ok (OName (bs "CMapName"))) (pos + 9).
  Proof.
    intros (s & HA & Hi) Hn. inversion Hi as [|v0 so sep its0 ss Hv Hs Hi' Hname|]; subst.
    specialize (Hname eq_refl). subst so.
    unfold object_or_token. apply runs_try_ok; [|now apply object_above].
    eapply runs_eq; [eapply (r_object f _ FNoRef _ _ _ n pos [] []); eauto; [constructor|exact I]|].
    cbn [trailing]. rewrite (@zlen_nil Z). change (zlen (bs "/CMapName")) with 9. lia.
  Qed.

  Lemma r_skip_name : forall pre n pos its, Before f (pre ++ its) pos -> Forall (fun i => ~ is_key i) pre -> ofuel f n pos 10 ->
    (its = [] -> exists q, pos <= q /\ runs f (skip_until_name n (bs "CMapName") : P _) pos (Ok false) q /\ Here f [] q) /\
    (forall tl, its = IObj (OName (bs "CMapName")) :: tl -> exists q, pos <= q /\ runs f (skip_until_name n (bs "CMapName") : P _) pos (Ok true) q /\ Here f its q).
  Proof.
    induction pre as [|i pre IH]; intros n pos its HB Hf Hn; (destruct n as [|n]; [fu|]); cbn [app skip_until_name] in *.
    - destruct (b_sp (U:=U) f _ _ n HB) as (q & Hq & HR & HH); [fu|]. split.
      + intros ->. exists q. split; auto. split; [|exact HH].
        eapply runs_bind; [exact HR|]. apply r_curz. rewrite (here_nil _ _ HH). apply runs_ret.
      + intros tl ->. exists q. split; auto. split; [|exact HH].
        eapply runs_bind; [exact HR|]. apply r_curz. destruct (here_cons _ _ _ _ HH) as (y & ->).
        eapply runs_bind; [apply (oot_key tl q n HH); fu|]. cbv beta iota. rewrite eqlZ_refl. apply r_prevs.
        replace (q + 9 - Z.of_nat (S (List.length (bs "CMapName")))) with q by (cbn; lia). apply runs_ret.
    - destruct (b_sp (U:=U) f _ _ n HB) as (q & Hq & HR & HH); [fu|]. inversion Hf as [|? ? Hi Hf']; subst.
      pose proof (here_lt _ _ _ _ HH) as Hlt. destruct (here_cons _ _ _ _ HH) as (y & Ey).
      assert (exists q2 o, q < q2 /\ runs f (object_or_token n : P _) q (Ok o) q2 /\ Before f (pre ++ its) q2 /\ o <> OName (bs "CMapName")) as (q2 & o & Hq2 & HR2 & HB2 & Ho).
      { destruct i as [v|w0].
        - destruct (here_oot_obj (U:=U) f v _ q n HH) as (q2 & Hq2 & HR2 & HB2); [fu|]. exists q2, v. repeat split; auto.
          intros ->. apply Hi. reflexivity.
        - destruct (here_oot_word (U:=U) f w0 _ q n HH) as (HR2 & HB2 & HL); [fu|]. exists (q + zlen w0), (OTok w0). repeat split; auto; [lia|congruence]. }
      destruct (IH n q2 its HB2 Hf') as (IH1 & IH2); [fu|].
      assert (forall b q', runs f (skip_until_name n (bs "CMapName") : P _) q2 (Ok b) q' ->
        runs f (sp n ;;; c <- cur ;; match c with None => ret false | Some _ =>
          o <- object_or_token n ;; match o with OName x0 => if eqlZ x0 (bs "CMapName") then prevs (Datatypes.S (List.length (bs "CMapName"))) ;;; ret true else skip_until_name n (bs "CMapName")
           | _ => skip_until_name n (bs "CMapName") end end : P _) pos (Ok b) q') as G.
      { intros b q' Hb. eapply runs_bind; [exact HR|]. apply r_curz. rewrite Ey.
        eapply runs_bind; [exact HR2|]. destruct o as [| | | |x| | | | | | | |]; auto.
        assert (x <> bs "CMapName") as Hw by congruence. rewrite (proj2 (eqlZ_neq _ _) Hw). exact Hb. }
      split.
      + intros E. destruct (IH1 E) as (q' & Hle & Hr & HH'). exists q'. split; [lia|]. split; [now apply G|exact HH'].
      + intros tl E. destruct (IH2 tl E) as (q' & Hle & Hr & HH'). exists q'. split; [lia|]. split; [now apply G|exact HH'].
  Qed.

  Lemma r_cmap_name its pos n : Before f its pos -> ofuel f n pos 12 ->
    exists q, runs f (cmap_name n : P _) pos (match named its with Some nm => Ok nm | None => Err ParserExc end) q.
  Proof.
    intros HB Hn. unfold cmap_name. destruct (named_split its) as [[Hf ->]|(pre & tl & E & Hf & ->)].
    - rewrite <- (app_nil_r its) in HB. destruct (r_skip_name its n pos [] HB Hf) as (H1 & _); [fu|].
      destruct (H1 eq_refl) as (q & Hq & R & HH). exists q. eapply runs_bind; [exact R|].
      apply runs_bind_err. unfold expected_name. apply runs_bind_err. unfold name. apply r_curz. rewrite (here_nil _ _ HH). apply runs_throw.
    - rewrite E in HB. destruct (r_skip_name pre n pos _ HB Hf) as (_ & H2); [fu|].
      destruct (H2 tl eq_refl) as (q & Hq & R & HH). destruct (r_expected_name (U:=U) f _ _ q n HH) as (q2 & Hq2 & R2 & B2); [fu|].
      destruct (b_sp (U:=U) f _ _ n B2) as (q3 & Hq3 & R3 & HH3); [fu|].
      assert (match tl with i :: _ => is_name_item i = false | [] => True end -> runs f (name n : P _) q3 (Err ParserExc) q3) as Bad.
      { intros Hi. unfold name. apply r_curz. rewrite (not_slash_start f _ _ HH3 Hi). apply runs_throw. }
      assert (forall r q', runs f (name n : P _) q3 r q' ->
         runs f (skip_until_name n (bs "CMapName") ;;; expected_name n (bs "CMapName") ;;; sp n ;;; name n : P _) pos r q') as G.
      { intros r q' Hr. eapply runs_bind; [exact R|]. eapply runs_bind; [exact R2|]. eapply runs_bind; [exact R3|]. exact Hr. }
      destruct tl as [|[[| | | |x| | | | | | | |]|w] tl].
      6: { destruct (here_name (U:=U) f _ _ q3 n HH3) as (q4 & Hq4 & R4 & _); [fu|]. exists q4. apply G. exact R4. }
      all: exists q3; apply G; apply Bad; auto.
  Qed.

  (** *** Programs with a saved state *)
  Definition runsK {A} hs (p : P A) pos (r : res A) : Prop := forall st u, known hs st -> exists q ex, arun f p (mkA pos st u) = (r, mkA q (st ++ ex) u).
  Lemma K_runs {A B} hs (p : P A) (g : A -> P B) pos a q r : runs f p pos (Ok a) q -> runsK hs (g a) q r -> runsK hs (bind p g) pos r.
  Proof.
    intros H Hg st u Hk. destruct (H st u) as (ex & E). destruct (Hg (st ++ ex) u (known_app _ _ _ Hk)) as (q' & ex' & E').
    exists q', (ex ++ ex'). rewrite arun_bind, E, E', app_assoc. reflexivity.
  Qed.
  Lemma K_bind {A B} hs (p : P A) (g : A -> P B) pos a r : runsK hs p pos (Ok a) -> (forall q, runsK hs (g a) q r) -> runsK hs (bind p g) pos r.
  Proof.
    intros H Hg st u Hk. destruct (H st u Hk) as (q & ex & E). destruct (Hg q (st ++ ex) u (known_app _ _ _ Hk)) as (q' & ex' & E').
    exists q', (ex ++ ex'). rewrite arun_bind, E, E', app_assoc. reflexivity.
  Qed.
  Lemma K_bind_err {A B} hs (p : P A) (g : A -> P B) pos e : runsK hs p pos (Err e) -> runsK hs (bind p g) pos (Err e).
  Proof. intros H st u Hk. destruct (H st u Hk) as (q & ex & E). exists q, ex. rewrite arun_bind, E. reflexivity. Qed.
  Lemma K_of {A} hs (p : P A) pos r q : runs f p pos r q -> runsK hs p pos r.
  Proof. intros H st u _. destruct (H st u) as (ex & E). eauto. Qed.
  Lemma K_save {A} hs (g : nat -> P A) pos r : (forall h, runsK ((h, pos) :: hs) (g h) pos r) -> runsK hs (bind save g) pos r.
  Proof.
    intros H st u Hk. destruct (H (List.length st) (st ++ [pos]) u) as (q & ex & E).
    - constructor; [cbn [fst snd]; rewrite nth_error_app2, Nat.sub_diag by lia; auto|]. now apply known_app.
    - exists q, ([pos] ++ ex). cbn [bind save arun a_store a_pos a_usr]. rewrite app_assoc. exact E.
  Qed.
  Lemma K_restore {A} hs h q0 (g : unit -> P A) pos r : In (h, q0) hs -> runsK hs (g tt) q0 r -> runsK hs (bind (restore h) g) pos r.
  Proof.
    intros Hi H st u Hk. destruct (H st u Hk) as (q & ex & E).
    unfold known in Hk. rewrite Forall_forall in Hk. specialize (Hk _ Hi). cbn [fst snd] in Hk.
    exists q, ex. cbn [bind restore arun a_store a_pos a_usr]. rewrite Hk. exact E.
  Qed.
  Lemma K_catch {A} hs (p : P A) hd h pos r r' : runsK hs p pos r -> (forall st u, known hs st -> exists lo, above f lo p (mkA pos st u)) ->
    match r with
    | Ok a => r' = Ok a
    | Err e => hd e && negb (exn_eqb e OutOfFuel) = true /\ forall q, runsK hs (h e) q r'
    end -> runsK hs (catch p hd h) pos r'.
  Proof.
    intros H Ha Hr st u Hk. destruct (H st u Hk) as (q & ex & E). destruct (Ha st u Hk) as (lo & Hlo).
    rewrite (arun_catch f lo) by auto. rewrite E. destruct r as [a|e].
    - subst r'. eauto.
    - destruct Hr as [-> Hr]. destruct (Hr q (st ++ ex) u (known_app _ _ _ Hk)) as (q' & ex' & E').
      exists q', (ex ++ ex'). rewrite E', app_assoc. reflexivity.
  Qed.

  Lemma K_mapped hs h q0 k cs rs es_c n pos :
    In (h, q0) hs -> Before f (flat_map chunk_items cs) q0 -> ofuel f n q0 12 -> Forall plain_ok cs ->
    RangesOf k cs rs -> CharsOf k cs es_c ->
    exists ms, runsK hs (mapped_sections n h (kind_word k)) pos (Ok ms) /\ Forall2 built (rs ++ es_c) ms.
  Proof.
    intros Hh HB Hn Hp HR HC. destruct (range_sections k cs rs Hp HR) as (l1 & F1 & B1). destruct (char_sections k cs es_c Hp HC) as (l2 & F2 & B2).
    exists (List.concat l1 ++ List.concat l2). split; [|apply Forall2_app; auto].
    unfold mapped_sections. eapply K_restore; [exact Hh|].
    destruct (r_sections f _ _ _ _ F1 n q0 [] [] HB) as (q1 & R1); [constructor|auto|].
    eapply K_runs; [exact R1|]. eapply K_restore; [exact Hh|]. cbn [app].
    destruct (r_sections f _ _ _ _ F2 n q0 (List.concat l1) [] HB) as (q2 & R2); [constructor|auto|]. eapply K_of; exact R2.
  Qed.

  (** *** The header *)
  Lemma r_header size its pos n {A} (g : P A) r :
    Before f (header size ++ its) pos -> 0 <= size -> ofuel f n pos 60 ->
    (forall q, 9 <= q - pos -> Here f its q -> runsK [] g q r) ->
    runsK [] (sp n ;;; expected_name n (bs "CIDInit") ;;; sp n ;;; expected_name n (bs "ProcSet") ;;;
      sp n ;;; expected_token n (bs "findresource") ;;; sp n ;;; expected_token n (bs "begin") ;;;
      sp n ;;; non_negative_int n ;;; sp n ;;; expected_token n (bs "dict") ;;; sp n ;;; expected_token n (bs "begin") ;;;
      sp n ;;; expected_token n (bs "begincmap") ;;; sp n ;;; g) pos r.
  Proof.
    intros HB Hs Hn Hg. unfold header in HB. cbn [app] in HB.
    destruct (b_sp (U:=U) f _ _ n HB) as (p1 & L1 & R1 & H1); [fu|]. eapply K_runs; [exact R1|]. clear R1.
    destruct (r_expected_name (U:=U) f _ _ p1 n H1) as (p2 & L2 & R2 & B2); [fu|]. eapply K_runs; [exact R2|]. clear R2.
    destruct (b_sp (U:=U) f _ _ n B2) as (p3 & L3 & R3 & H3); [fu|]. eapply K_runs; [exact R3|]. clear R3.
    destruct (r_expected_name (U:=U) f _ _ p3 n H3) as (p4 & L4 & R4 & B4); [fu|]. eapply K_runs; [exact R4|]. clear R4.
    destruct (b_sp (U:=U) f _ _ n B4) as (p5 & L5 & R5 & H5); [fu|]. eapply K_runs; [exact R5|]. clear R5.
    destruct (r_expected_token (U:=U) f _ _ p5 n H5) as (R6 & B6 & _); [fu|]. eapply K_runs; [exact R6|]. clear R6.
    change (zlen (bs "findresource")) with 12 in *. 
    destruct (b_sp (U:=U) f _ _ n B6) as (p7 & L7 & R7 & H7); [fu|]. eapply K_runs; [exact R7|]. clear R7.
    destruct (r_expected_token (U:=U) f _ _ p7 n H7) as (R8 & B8 & _); [fu|]. eapply K_runs; [exact R8|]. clear R8.
    change (zlen (bs "begin")) with 5 in *. 
    destruct (b_sp (U:=U) f _ _ n B8) as (p9 & L9 & R9 & H9); [fu|]. eapply K_runs; [exact R9|]. clear R9.
    destruct (here_nni (U:=U) f _ _ p9 n Hs H9) as (p10 & L10 & R10 & B10); [fu|]. eapply K_runs; [exact R10|]. clear R10.
    destruct (b_sp (U:=U) f _ _ n B10) as (p11 & L11 & R11 & H11); [fu|]. eapply K_runs; [exact R11|]. clear R11.
    destruct (r_expected_token (U:=U) f _ _ p11 n H11) as (R12 & B12 & _); [fu|]. eapply K_runs; [exact R12|]. clear R12.
    change (zlen (bs "dict")) with 4 in *. 
    destruct (b_sp (U:=U) f _ _ n B12) as (p13 & L13 & R13 & H13); [fu|]. eapply K_runs; [exact R13|]. clear R13.
    destruct (r_expected_token (U:=U) f _ _ p13 n H13) as (R14 & B14 & _); [fu|]. eapply K_runs; [exact R14|]. clear R14.
    change (zlen (bs "begin")) with 5 in *. 
    destruct (b_sp (U:=U) f _ _ n B14) as (p15 & L15 & R15 & H15); [fu|]. eapply K_runs; [exact R15|]. clear R15.
    destruct (r_expected_token (U:=U) f _ _ p15 n H15) as (R16 & B16 & _); [fu|]. eapply K_runs; [exact R16|]. clear R16.
    change (zlen (bs "begincmap")) with 9 in *. 
    destruct (b_sp (U:=U) f _ _ n B16) as (p17 & L17 & R17 & H17); [fu|]. eapply K_runs; [exact R17|].
    apply Hg; auto. lia.
  Qed.

  Lemma K_name hs h q0 its n : In (h, q0) hs -> Before f its q0 -> 9 <= q0 -> ofuel f n q0 50 ->
    runsK hs (catch (x <- cmap_name n ;; ret (Some x) : P _) is_parser_exc (fun _ => restore h ;;; ret None)) q0 (Ok (named its)).
  Proof.
    intros Hh HB H9 Hn. destruct (r_cmap_name its q0 n HB) as (q & R); [fu|].
    assert (forall st u, exists lo, above f lo (x <- cmap_name n ;; ret (Some x) : P _) (mkA q0 st u)) as Hab.
    { intros st u. exists 0. pose proof (wp_cmap_name (U:=U) f 0 [] n q0) as W. 
      assert (wp f 0 [] (x <- cmap_name n ;; ret (Some x) : P _) q0 (fun _ _ => True)) as W2.
      { eapply wp_bind; [apply W; [lia|fu]| |]; auto. intros; apply wp_ret; auto. }
      destruct (W2 st u) as (r & p & ex & _ & _ & HA); [constructor|exact HA]. }
    destruct (named its) as [nm|].
    - eapply K_catch with (r := Ok (Some nm)); auto. eapply K_runs; [exact R|]. eapply K_of. apply runs_ret.
    - eapply K_catch with (r := Err ParserExc); auto.
      + apply K_bind_err. eapply K_of; exact R.
      + split; [reflexivity|]. intros q'. eapply K_restore; [exact Hh|]. eapply K_of. apply runs_ret.
  Qed.
End S.

(** C55.  A CMap file in any layout, with any items around and between its sections: the parse result has the
    name given by CMapName (None without one), the codespace ranges as listed, and for each kind the entries of
    its range sections followed by those of its char sections, each in file order. *)
Theorem C55_sections : forall lead text size cs cid_r cid_c nd_r nd_c bf_r bf_c U st (u : U) n,
  Sep lead -> Items (header size ++ flat_map chunk_items cs) text -> 0 <= size -> Forall plain_ok cs ->
  Forall (fun be => HexCode (fst be) /\ HexCode (snd be) /\ zlen (fst be) = zlen (snd be) /\ hnum (fst be) <= hnum (snd be)) (codespace_of cs) ->
  RangesOf Cid cs cid_r -> CharsOf Cid cs cid_c -> RangesOf Notdef cs nd_r -> CharsOf Notdef cs nd_c ->
  RangesOf Bf cs bf_r -> CharsOf Bf cs bf_c ->
  4 * zlen (lead ++ text) + 60 <= Z.of_nat n ->
  exists r s', arun (lead ++ text) (cmap n) (mkA 0 st u) = (Ok r, s') /\ a_usr s' = u /\
    cm_name r = named (flat_map chunk_items cs) /\
    cm_codespace r = map (fun be => mkR (hnum (fst be)) (hnum (snd be)) (zlen (fst be))) (codespace_of cs) /\
    Forall2 built (cid_r ++ cid_c) (cm_cid r) /\ Forall2 built (nd_r ++ nd_c) (cm_notdef r) /\ Forall2 built (bf_r ++ bf_c) (cm_bf r).
Proof.
  intros lead text size cs cid_r cid_c nd_r nd_c bf_r bf_c U st u n Hl Hi Hs Hp Hc R1 C1 R2 C2 R3 C3 Hn.
  set (f := lead ++ text) in *.
  assert (Before f (header size ++ flat_map chunk_items cs) 0) as HB.
  { exists lead, text. split; [auto|]. split; [|auto]. apply (At_start _ []). reflexivity. }
  assert (forall q, 0 <= q -> ofuel f n q 60) as HF by (intros q Hq; unfold ofuel; pose proof (zlen_nonneg f); lia).
  destruct (code_sections (U:=U) f cs Hp Hc) as (ls & F0 & E0).
  (* the three kinds of mappings do not depend on the position reached *)
  assert (exists a b c, Forall2 built (cid_r ++ cid_c) a /\ Forall2 built (nd_r ++ nd_c) b /\ Forall2 built (bf_r ++ bf_c) c /\
    runsK (U:=U) f [] (cmap n) 0 (Ok (mkCMap (named (flat_map chunk_items cs)) (List.concat ls) a b c))) as (a & b & c & Ba & Bb & Bc & HK).
  { destruct (range_sections (U:=U) f Cid cs _ Hp R1) as (l1 & F1 & B1). destruct (char_sections (U:=U) f Cid cs _ Hp C1) as (l2 & F2 & B2).
    destruct (range_sections (U:=U) f Notdef cs _ Hp R2) as (l3 & F3 & B3). destruct (char_sections (U:=U) f Notdef cs _ Hp C2) as (l4 & F4 & B4).
    destruct (range_sections (U:=U) f Bf cs _ Hp R3) as (l5 & F5 & B5). destruct (char_sections (U:=U) f Bf cs _ Hp C3) as (l6 & F6 & B6).
    exists (List.concat l1 ++ List.concat l2), (List.concat l3 ++ List.concat l4), (List.concat l5 ++ List.concat l6).
    split; [apply Forall2_app; auto|]. split; [apply Forall2_app; auto|]. split; [apply Forall2_app; auto|].
    unfold cmap. apply (r_header f size (flat_map chunk_items cs) 0 n); auto; [apply HF; lia|].
    intros q0 Hq HH. apply here_before in HH. apply K_save. intros h.
    assert (In (h, q0) [(h, q0)]) as Hh by (left; reflexivity). set (hs := [(h, q0)]) in *. clearbody hs.
    pose proof (HF q0 ltac:(lia)) as HFq. assert (ofuel f n q0 12) as H12 by fu. assert (ofuel f n q0 50) as H50 by fu.
    eapply K_bind; [apply (K_name f hs h q0 (flat_map chunk_items cs)); auto; lia|]. intros q1.
    eapply K_restore; [exact Hh|].
    destruct (r_sections f _ _ _ _ F0 n q0 [] [] HH) as (q2 & S0); [constructor|auto|]. eapply K_runs; [exact S0|]. cbn [app].
    assert (forall k l l', Forall2 (gives_section (U:=U) f (bs "begin" ++ kind_word k ++ bs "range") (fun n => mapped_codespacerange n (kind_word k))) cs l ->
      Forall2 (gives_section (U:=U) f (bs "begin" ++ kind_word k ++ bs "char") (fun n => mapped_char n (kind_word k))) cs l' ->
      forall q, runsK (U:=U) f hs (mapped_sections n h (kind_word k)) q (Ok (List.concat l ++ List.concat l'))) as G.
    { intros k l l' G1 G2 q. unfold mapped_sections. eapply K_restore; [exact Hh|].
      destruct (r_sections f _ _ _ _ G1 n q0 [] [] HH) as (x1 & X1); [constructor|auto|]. eapply K_runs; [exact X1|]. cbn [app].
      eapply K_restore; [exact Hh|].
      destruct (r_sections f _ _ _ _ G2 n q0 (List.concat l) [] HH) as (x2 & X2); [constructor|auto|]. eapply K_of; exact X2. }
    eapply K_bind; [apply (G Cid _ _ F1 F2)|]. intros q3.
    eapply K_bind; [apply (G Notdef _ _ F3 F4)|]. intros q4.
    eapply K_bind; [apply (G Bf _ _ F5 F6)|]. intros q5. eapply K_of. apply runs_ret. }
  destruct (HK st u) as (q & ex & E); [constructor|].
  eexists _, _. split; [exact E|]. split; [reflexivity|]. cbn [cm_name cm_codespace cm_cid cm_notdef cm_bf]. auto.
Qed.

(** Looking up a code in the parsed file: the first listed entry covering it decides. *)
Lemma ranges_entry_ok k cs es : RangesOf k cs es -> Forall entry_ok es.
Proof.
  induction 1 as [|l cs ess es Hl Hr IH|c cs es Hc Hr IH]; auto. apply Forall_app. split; auto.
  clear - Hl. induction Hl as [|bed es l ess H Hf IH]; cbn [List.concat]; [constructor|]. apply Forall_app. split; auto.
  destruct H as [b e z Hok|b e d Hok Hd|b e ds more es Hb He El Hlen H1 Hu H2 Hc]; [repeat constructor; apply Hok|repeat constructor; apply Hok|].
  apply Forall_forall. intros x Hx. destruct (In_nth_error _ _ Hx) as (i & Hi).
  assert (exists c d, x = EChar c d /\ In d ds) as (c & d & -> & Hd).
  { clear - H2 Hx. induction H2 as [|d x0 ds es (c & ->) Hf IH]; [destruct Hx|]. destruct Hx as [<-|Hx]; [exists c, d; split; [auto|left; auto]|].
    destruct (IH Hx) as (c' & d' & -> & Hd). exists c', d'. split; [auto|right; auto]. }
  destruct (Hc i c d Hi) as (C1 & _). split; [now apply upper_hex_code|]. rewrite Forall_forall in Hu. auto.
Qed.
Lemma chars_entry_ok k cs es : CharsOf k cs es -> Forall entry_ok es.
Proof.
  induction 1 as [|l cs es0 es Hl Hr IH|c cs es Hc Hr IH]; auto. apply Forall_app. split; auto.
  clear - Hl. induction Hl as [|bd e l es0 H Hf IH]; constructor; auto.
  destruct H as [b d Hb Hu|k b d Hk Hb Hd]; cbn [entry_ok]; auto. repeat split; auto; try apply Hb. lia.
Qed.
Theorem C55_lookup : forall lead text size cs cid_r cid_c nd_r nd_c bf_r bf_c U st (u : U) n item r s',
  Sep lead -> Items (header size ++ flat_map chunk_items cs) text -> 0 <= size -> Forall plain_ok cs ->
  Forall (fun be => HexCode (fst be) /\ HexCode (snd be) /\ zlen (fst be) = zlen (snd be) /\ hnum (fst be) <= hnum (snd be)) (codespace_of cs) ->
  RangesOf Cid cs cid_r -> CharsOf Cid cs cid_c -> RangesOf Notdef cs nd_r -> CharsOf Notdef cs nd_c ->
  RangesOf Bf cs bf_r -> CharsOf Bf cs bf_c ->
  4 * zlen (lead ++ text) + 60 <= Z.of_nat n -> UpperCode item ->
  arun (lead ++ text) (cmap n) (mkA 0 st u) = (Ok r, s') ->
  (exists pre e suf t, bf_r ++ bf_c = pre ++ e :: suf /\ Forall (fun x => ~ covers x item) pre /\ covers e item /\ gives e item t /\
     lookup (cm_bf r) item = Ok t) \/
  (Forall (fun x => ~ covers x item) (bf_r ++ bf_c) /\ lookup (cm_bf r) item = Err KeyErr).
Proof.
  intros lead text size cs cid_r cid_c nd_r nd_c bf_r bf_c U st u n item r s' Hl Hi Hs Hp Hc R1 C1 R2 C2 R3 C3 Hn Hit E.
  destruct (C55_sections lead text size cs cid_r cid_c nd_r nd_c bf_r bf_c U st u n Hl Hi Hs Hp Hc R1 C1 R2 C2 R3 C3 Hn) as (r0 & s0 & E0 & _ & _ & _ & _ & _ & B).
  rewrite E in E0. injection E0 as <- <-. apply C51_lookup; auto.
  apply Forall_app. split; [eapply ranges_entry_ok; eauto|eapply chars_entry_ok; eauto].
Qed.

(** *** Char sections with other destinations *)
Lemma char_stage k cs :
  (forall l, In (KChar k l) cs -> Forall (fun bd => (exists e, CharEntry k bd e) \/ NumOrNameDst bd) l) ->
  (exists es, CharsOf k cs es) \/
  (exists cs1 es l1 es1 bd l2 cs2, cs = cs1 ++ KChar k (l1 ++ bd :: l2) :: cs2 /\ CharsOf k cs1 es /\ Forall2 (CharEntry k) l1 es1 /\ NumOrNameDst bd).
Proof.
  induction cs as [|c cs IH]; intros H; [left; exists []; constructor|].
  assert ((exists l, c = KChar k l) \/ (forall l, c <> KChar k l)) as [(l & ->)|Hno].
  { destruct c as [i|l|k' l|k' l]; try (right; discriminate). destruct k, k'; try (right; discriminate); left; eauto. }
  - assert ((exists es0, Forall2 (CharEntry k) l es0) \/ (exists l1 es1 bd l2, l = l1 ++ bd :: l2 /\ Forall2 (CharEntry k) l1 es1 /\ NumOrNameDst bd)) as [(es0 & Hl)|(l1 & es1 & bd & l2 & -> & H1 & Hb)].
    { specialize (H l (or_introl eq_refl)). clear - H. induction H as [|bd l Hx Hf IHl]; [left; exists []; constructor|].
      destruct Hx as [(e & He)|Hb]; [|right; exists [], [], bd, l; split; [reflexivity|]; split; [constructor|exact Hb]].
      destruct IHl as [(es0 & Hl)|(l1 & es1 & bd' & l2 & -> & H1 & Hb)]; [left; exists (e :: es0); constructor; auto|].
      right. exists (bd :: l1), (e :: es1), bd', l2. split; [reflexivity|]. split; [constructor; auto|exact Hb]. }
    + destruct IH as [(es & Hes)|(cs1 & es & l1 & es1 & bd & l2 & cs2 & -> & H1 & H2 & H3)]; [intros; apply H; right; auto| |].
      * left. exists (es0 ++ es). constructor; auto.
      * right. exists (KChar k l :: cs1), (es0 ++ es), l1, es1, bd, l2, cs2. split; [reflexivity|]. split; [constructor; auto|]. auto.
    + right. exists [], [], l1, es1, bd, l2, cs. split; [reflexivity|]. split; [constructor|]. auto.
  - destruct IH as [(es & Hes)|(cs1 & es & l1 & es1 & bd & l2 & cs2 & -> & H1 & H2 & H3)]; [intros; apply H; right; auto| |].
    + left. exists es. now apply CO_other.
    + right. exists (c :: cs1), es, l1, es1, bd, l2, cs2. split; [reflexivity|]. split; [now apply CO_other|]. auto.
Qed.
Lemma chars_no_bad k cs es : CharsOf k cs es -> forall l, In (KChar k l) cs -> ~ Exists NumOrNameDst l.
Proof.
  induction 1 as [|l0 cs es0 es Hl Hr IH|c cs es Hc Hr IH]; intros l Hi; [destruct Hi| |].
  - destruct Hi as [E|Hi]; [|now apply IH]. injection E as <-. intros Hx. clear - Hl Hx. induction Hl as [|bd e l es0 H Hf IH]; [inversion Hx|].
    inversion Hx as [? ? Hb|? ? Hb]; subst; [|auto]. destruct H; destruct Hb as [(? & X)|(? & X)]; discriminate.
  - destruct Hi as [E|Hi]; [|now apply IH]. exfalso. eapply Hc; eauto.
Qed.

Section E.
  Context {U : Type}.
  Variable f : list Z.
  Lemma K_chars k cs n hs h q0 q rs :
    In (h, q0) hs -> Before f (flat_map chunk_items cs) q0 -> ofuel f n q0 12 -> Forall plain_ok cs ->
    RangesOf k cs rs -> (forall l, In (KChar k l) cs -> Forall (fun bd => (exists e, CharEntry k bd e) \/ NumOrNameDst bd) l) ->
    ((forall l, In (KChar k l) cs -> ~ Exists NumOrNameDst l) /\ exists ms, runsK (U:=U) f hs (mapped_sections n h (kind_word k)) q (Ok ms)) \/
    runsK (U:=U) f hs (mapped_sections n h (kind_word k)) q (Err ParserExc).
  Proof.
    intros Hh HB Hn Hp HR HC. destruct (char_stage k cs HC) as [(es & He)|(cs1 & es & l1 & es1 & bd & l2 & cs2 & -> & H1 & H2 & H3)].
    - left. split; [eapply chars_no_bad; eauto|]. destruct (K_mapped (U:=U) f hs h q0 k cs rs es n q) as (ms & Hm & _); auto. eauto.
    - right. destruct (range_sections (U:=U) f k _ rs Hp HR) as (ls & F1 & _).
      apply Forall_app in Hp. destruct Hp as [Hp1 Hp2]. destruct (char_sections (U:=U) f k cs1 es Hp1 H1) as (l & F2 & _).
      unfold mapped_sections. eapply K_restore; [exact Hh|].
      destruct (r_sections f _ _ _ _ F1 n q0 [] [] HB) as (x1 & X1); [constructor|auto|]. eapply K_runs; [exact X1|].
      eapply K_restore; [exact Hh|]. cbn [app].
      edestruct (r_sections_err f (bs "begin" ++ kind_word k ++ bs "char") (fun m => mapped_char m (kind_word k)) cs1 l (KChar k (l1 ++ bd :: l2)) cs2 F2) with (n := n) (pos := q0) (acc := List.concat ls) (pre := @nil item) as (x2 & X2); [|exact HB|constructor|auto|eapply K_of; exact X2].
      exists (tl (chunk_items (KChar k (l1 ++ bd :: l2)))). split; [reflexivity|]. intros m p its HH Hm. unfold mapped_char.
      cbn [chunk_items app] in HH. rewrite flat_map_app in HH. cbn [flat_map app] in HH. rewrite <- !app_assoc in HH. cbn [app] in HH.
      eapply r_section_err; [exact HH|exact Hm|]. intros p' Hp' HH'.
      assert (exists rs1, Forall2 (good_char (kind_word k)) l1 rs1) as (rs1 & Hrs).
      { clear - H2. induction H2 as [|bd e l es0 H Hf (rs & IH)]; [exists []; constructor|]. destruct (char_entry_map _ _ _ H) as (m & Hm & _). exists (m :: rs). constructor; auto. }
      destruct (r_char_loop (U:=U) f (kind_word k) l1 rs1 Hrs m p' [] _ HH') as (_ & G); [fu|].
      eapply G; [reflexivity|]. exact H3.
  Qed.
End E.

(** The whole file is rejected when a cidchar, notdefchar or bfchar section gives a destination as an integer
    (in the form "<20> 1" used by the CMaps of the CMap specification) or as a name. *)
Theorem C55_char_destinations_refuted : forall lead text size cs cid_r nd_r bf_r U st (u : U) n,
  Sep lead -> Items (header size ++ flat_map chunk_items cs) text -> 0 <= size -> Forall plain_ok cs ->
  Forall (fun be => HexCode (fst be) /\ HexCode (snd be) /\ zlen (fst be) = zlen (snd be) /\ hnum (fst be) <= hnum (snd be)) (codespace_of cs) ->
  RangesOf Cid cs cid_r -> RangesOf Notdef cs nd_r -> RangesOf Bf cs bf_r ->
  (forall k l, In (KChar k l) cs -> Forall (fun bd => (exists e, CharEntry k bd e) \/ NumOrNameDst bd) l) ->
  (exists k l, In (KChar k l) cs /\ Exists NumOrNameDst l) ->
  4 * zlen (lead ++ text) + 60 <= Z.of_nat n ->
  exists s', arun (lead ++ text) (cmap n) (mkA 0 st u) = (Err ParserExc, s').
Proof.
  intros lead text size cs cid_r nd_r bf_r U st u n Hl Hi Hs Hp Hc R1 R2 R3 HC (k0 & l0 & Hk0 & Hx) Hn.
  set (f := lead ++ text) in *.
  assert (Before f (header size ++ flat_map chunk_items cs) 0) as HB.
  { exists lead, text. split; [auto|]. split; [|auto]. apply (At_start _ []). reflexivity. }
  assert (forall q, 0 <= q -> ofuel f n q 60) as HF by (intros q Hq; unfold ofuel; pose proof (zlen_nonneg f); lia).
  destruct (code_sections (U:=U) f cs Hp Hc) as (ls & F0 & E0).
  assert (runsK (U:=U) f [] (cmap n) 0 (Err ParserExc)) as HK.
  { unfold cmap. apply (r_header f size (flat_map chunk_items cs) 0 n); auto; [apply HF; lia|].
    intros q0 Hq HH. apply here_before in HH. apply K_save. intros h.
    assert (In (h, q0) [(h, q0)]) as Hh by (left; reflexivity). set (hs := [(h, q0)]) in *. clearbody hs.
    pose proof (HF q0 ltac:(lia)) as HFq. assert (ofuel f n q0 12) as H12 by fu. assert (ofuel f n q0 50) as H50 by fu.
    eapply K_bind; [apply (K_name f hs h q0 (flat_map chunk_items cs)); auto; lia|]. intros q1.
    eapply K_restore; [exact Hh|].
    destruct (r_sections f _ _ _ _ F0 n q0 [] [] HH) as (q2 & S0); [constructor|auto|]. eapply K_runs; [exact S0|]. cbn [app].
    destruct (K_chars (U:=U) f Cid cs n hs h q0 q2 cid_r Hh HH H12 Hp R1 (HC Cid)) as [(N1 & ms1 & M1)|Bad]; [|now apply K_bind_err].
    intros st0 u0 Hkn. destruct (M1 st0 u0 Hkn) as (p1 & ex1 & E1).
    rewrite arun_bind. cbn [kind_word] in E1. rewrite E1. 
    assert (runsK (U:=U) f hs (nd <- mapped_sections n h (bs "notdef");; bf <- mapped_sections n h (bs "bf");;
       ret (mkCMap (named (flat_map chunk_items cs)) (List.concat ls) ms1 nd bf)) p1 (Err ParserExc)) as HK2.
    { destruct (K_chars (U:=U) f Notdef cs n hs h q0 p1 nd_r Hh HH H12 Hp R2 (HC Notdef)) as [(N2 & ms2 & M2)|Bad]; [|now apply K_bind_err].
      eapply K_bind; [exact M2|]. intros p2. apply K_bind_err.
      destruct (K_chars (U:=U) f Bf cs n hs h q0 p2 bf_r Hh HH H12 Hp R3 (HC Bf)) as [(N3 & ms3 & M3)|Bad]; [|exact Bad].
      exfalso. destruct k0; [apply (N1 l0)|apply (N2 l0)|apply (N3 l0)]; auto. }
    destruct (HK2 (st0 ++ ex1) u0 (known_app _ _ _ Hkn)) as (p2 & ex2 & E2). exists p2, (ex1 ++ ex2). rewrite app_assoc. exact E2. }
  destruct (HK st u) as (q & ex & E); [constructor|]. eauto.
Qed.

(** *** Any bytes *)
Theorem C55_terminates : forall U f st (u : U), exists r s', r <> Err OutOfFuel /\ a_usr s' = u /\
  (forall e, r = Err e -> In e [ParserExc; TypeErr; KeyErr; ValueErr; AssertionErr; IndexErr; AttributeErr]) /\
  (forall n, 4 * zlen f + 60 <= Z.of_nat n -> arun f (cmap n) (mkA 0 st u) = (r, s')).
Proof.
  intros U f st u.
  destruct (total_of_wp f 0 0 (fun n => cmap (U:=U) n) (4 * zlen f + 60) (adv 0 0 cme)) with (st := st) (u := u) as (r & s' & HQ & Hu & Hn).
  - intros n m. apply ple_cmap.
  - intros n Hn. apply wp_cmap; [lia|]. unfold ofuel. pose proof (zlen_nonneg f). lia.
  - intros q H. cbn in H. intuition discriminate.
  - exists r, s'. repeat split; auto.
    + intros ->. cbn in HQ. intuition discriminate.
    + intros e ->. exact HQ.
Qed.

(** *** The hypotheses are met *)
(** A writer: every item followed by a space. *)
Definition item_text (i : item) : list Z := match i with IObj v => print v | IWord w => w end.
Definition items_text (its : list item) : list Z := flat_map (fun i => item_text i ++ [32]) its.
Definition item_ok (i : item) : Prop :=
  match i with
  | IObj v => printable v /\ has_ref v = false
  | IWord w => Word w /\ head_is (fun c => c =? 115) w = false
  end.

Lemma print_not_s v : printable v -> has_ref v = false -> exists x t, print v = x :: t /\ value_start x /\ x <> 115.
Proof.
  destruct v as [|[]|z|a b c|s|s|s|l|d|d data|n g|s|d data]; intros Hp Hr; cbn [print];
    try (eexists _, _; split; [reflexivity|split; [repeat split; reflexivity|discriminate]]); try (exfalso; exact Hp).
  - unfold int_text. destruct (z <? 0) eqn:E; [eexists _, _; split; [reflexivity|split; [repeat split; reflexivity|discriminate]]|].
    destruct (dec_ok z) as (H1 & H2 & H3); [lia|]. destruct (head_dig _ [] H3 H2) as (d & r & -> & Hd & _).
    exists d, r. repeat split; auto; try apply (digit_start d Hd). apply is_digit_range in Hd. lia.
  - cbn [printable] in Hp. destruct Hp as (P1 & P2 & P3). pose proof (real_text_ok a b c P1 P2 P3) as HR.
    inversion HR as [sg ip fp Hs Hi Hfp Hne|ip fp Hi Hfp Hne Hc|ip fp Hi Hfp Hne Hc]; subst;
      try (eexists _, _; split; [reflexivity|split; [repeat split; reflexivity|discriminate]]).
    destruct Hs as [->| ->]; [|eexists _, _; split; [reflexivity|split; [repeat split; reflexivity|discriminate]]].
    destruct Hi as [|d r Hd _]; cbn [app]; [eexists _, _; split; [reflexivity|split; [repeat split; reflexivity|discriminate]]|].
    eexists _, _. split; [reflexivity|]. split; [apply (digit_start d Hd)|]. apply is_digit_range in Hd. lia.
  - discriminate Hr.
Qed.

Lemma items_start its : Forall item_ok its -> nosep (items_text its) /\ head_is (fun c => c =? 115) (items_text its) = false.
Proof.
  destruct 1 as [|i its Hi _]; [split; reflexivity|]. unfold items_text. cbn [flat_map]. rewrite <- app_assoc.
  destruct i as [v|w]; cbn [item_ok item_text] in *.
  - destruct Hi as (Hp & Hr). destruct (print_not_s v Hp Hr) as (x & t & -> & (Hv1 & Hv2 & _) & Hx). cbn [app].
    unfold nosep. cbn [head_is]. rewrite Hv1, Hv2. split; [reflexivity|lia].
  - destruct Hi as ((Hn & Hr & _) & Hs). destruct w as [|x w]; [congruence|]. inversion Hr as [|? ? (H1 & H2) _]; subst.
    cbn [app head_is] in *. split; [|exact Hs]. unfold nosep. cbn [head_is]. rewrite H1. cbn [orb].
    destruct (Z.eqb_spec x 37) as [->|]; [cbv in H2; discriminate|reflexivity].
Qed.

Lemma items_of_text its : Forall item_ok its -> (forall pre w post, its = pre ++ IWord w :: post ->
    head_is (fun c => memZ c [110; 116; 102]) w = true -> 5 <= zlen (w ++ [32] ++ items_text post)) ->
  Items its (items_text its).
Proof.
  induction 1 as [|i its Hi Hf IH]; intros Hw; [constructor|].
  assert (Items its (items_text its)) as HI.
  { apply IH. intros pre w post E. apply (Hw (i :: pre) w post). now rewrite E. }
  destruct (items_start its Hf) as (S1 & S2).
  unfold items_text. cbn [flat_map]. fold (items_text its). rewrite <- app_assoc.
  destruct i as [v|w]; cbn [item_ok item_text] in *.
  - destruct Hi as (Hp & Hr). apply It_obj; auto using sep_sp1.
    + apply (print_ser FNoRef v Hp (or_intror Hr)); auto. discriminate.
    + intros ->. reflexivity.
  - apply It_word; [apply Hi|reflexivity|apply sep_sp1|exact HI|]. apply (Hw [] w its eq_refl).
Qed.

Definition ex_chunks : list chunk :=
  [KPlain (IObj (OName (bs "CIDSystemInfo"))); KPlain (IObj (ODict [(bs "Registry", OStr (bs "Adobe")); (bs "Supplement", OInt 0)]));
   KPlain (IWord (bs "def"));
   KPlain (IObj (OName (bs "CMapName"))); KPlain (IObj (OName (bs "Adobe-UCS"))); KPlain (IWord (bs "def"));
   KPlain (IObj (OInt 1)); KCodespace [(bs "0000", bs "FFFF")];
   KPlain (IObj (OInt 1)); KChar Bf [(bs "0003", OHex (bs "00200041"))];
   KPlain (IObj (OInt 3)); KRange Bf [(bs "0010", bs "001F", OHex (bs "0041")); (bs "0020", bs "0021", OArr [OHex (bs "00660066"); OHex (bs "0062")]);
     (bs "0030", bs "0039", OInt 48)];
   KPlain (IObj (OInt 1)); KRange Cid [(bs "20", bs "7E", OInt 1)];
   KPlain (IObj (OInt 1)); KChar Notdef [(bs "00", OHex (bs "01"))];
   KPlain (IWord (bs "endcmap")); KPlain (IWord (bs "end"))].
Definition ex_bf : list entry :=
  [ERange (bs "0010") (bs "001F") 65; EChar (bs "0020") (bs "00660066"); EChar (bs "0021") (bs "0062"); ERange (bs "0030") (bs "0039") 48].

Lemma prefix_dec p l : prefix_of p l -> eqlZ (firstn (List.length p) l) p = true.
Proof.
  intros (t & ->). rewrite firstn_app, Nat.sub_diag, firstn_O, app_nil_r, firstn_all. apply eqlZ_refl.
Qed.
Definition wordb (w : list Z) : bool :=
  negb (eqlZ w []) && forallb (fun c => negb (is_ws c) && negb (is_delim c)) w &&
  negb (head_is (fun c => is_digit c || memZ c [43; 45; 46]) w) &&
  negb (eqlZ (firstn 4 w) (bs "null")) && negb (eqlZ (firstn 4 w) (bs "true")) && negb (eqlZ (firstn 5 w) (bs "false")).
Lemma wordb_ok w : wordb w = true -> Word w.
Proof.
  unfold wordb. rewrite !andb_true_iff, !negb_true_iff. intros (((((H1 & H2) & H3) & H4) & H5) & H6).
  split; [intros ->; discriminate H1|]. split.
  { apply Forall_forall. intros c Hc. rewrite forallb_forall in H2. specialize (H2 c Hc). rewrite andb_true_iff, !negb_true_iff in H2. exact H2. }
  split; [exact H3|]. split; [|split]; intros Hp%prefix_dec; cbn [List.length] in Hp.
  - change (List.length (bs "null")) with 4%nat in Hp. congruence.
  - change (List.length (bs "true")) with 4%nat in Hp. congruence.
  - change (List.length (bs "false")) with 5%nat in Hp. congruence.
Qed.

Lemma hex_printable s : forallb (fun c => ((48 <=? c) && (c <=? 57)) || ((65 <=? c) && (c <=? 70))) s = true -> Z.even (zlen s) = true ->
  printable (OHex s).
Proof.
  intros H He. split; [|exact He]. apply Forall_forall. intros c Hc. rewrite forallb_forall in H. specialize (H c Hc).
  rewrite orb_true_iff, !andb_true_iff in H. destruct H as [H|H]; [exists (c - 48)|exists (c - 55)]; (split; [lia|]); unfold hexdig;
    [replace (c - 48 <? 10) with true by lia|replace (c - 55 <? 10) with false by lia]; lia.
Qed.
Lemma hex_code s : forallb (fun c => ((48 <=? c) && (c <=? 57)) || ((65 <=? c) && (c <=? 70))) s = true -> s <> [] -> HexCode s.
Proof.
  intros H Hn. split; [exact Hn|]. apply Forall_forall. intros c Hc. rewrite forallb_forall in H. specialize (H c Hc).
  rewrite orb_true_iff, !andb_true_iff in H. unfold hdigit. lia.
Qed.

Ltac hexc := apply hex_code; [reflexivity|discriminate].
Ltac eok := split; [hexc|split; [hexc|split; [reflexivity|vm_compute; discriminate]]].

Lemma bytes_okb s : forallb (fun c => (0 <=? c) && (c <=? 255)) s = true -> bytes_ok s.
Proof.
  intros H. apply Forall_forall. intros c Hc. rewrite forallb_forall in H. specialize (H c Hc). unfold byte_ok. lia.
Qed.
Fixpoint short_ok (its : list item) : bool :=
  match its with
  | [] => true
  | IWord w :: r => (negb (head_is (fun c => memZ c [110; 116; 102]) w) || (5 <=? zlen (w ++ [32] ++ items_text r))) && short_ok r
  | _ :: r => short_ok r
  end.
Lemma short_okb its : short_ok its = true -> forall pre w post, its = pre ++ IWord w :: post ->
    head_is (fun c => memZ c [110; 116; 102]) w = true -> 5 <= zlen (w ++ [32] ++ items_text post).
Proof.
  intros H pre. revert its H. induction pre as [|i pre IH]; intros its H w post -> Hh.
  - cbn [app short_ok] in H. rewrite Hh in H. cbn [negb orb] in H. apply andb_true_iff in H. destruct H as [H _]. now apply Z.leb_le in H.
  - apply (IH (pre ++ IWord w :: post)); auto. cbn [app short_ok] in H. destruct i; auto. apply andb_true_iff in H. apply H.
Qed.

Example C55_ex_items : Items (header 12 ++ flat_map chunk_items ex_chunks) (items_text (header 12 ++ flat_map chunk_items ex_chunks)).
Proof.
  apply items_of_text; [|apply short_okb; vm_compute; reflexivity].
  repeat (apply Forall_cons; [|]); try apply Forall_nil;
      (split; [first [apply hex_printable; reflexivity|apply wordb_ok; reflexivity|exact I|apply bytes_okb; reflexivity|idtac]|try reflexivity]).
  - split.
    + repeat constructor; cbn; intuition discriminate.
    + repeat split; apply bytes_okb; reflexivity.
  - split; [apply hex_printable; reflexivity|]. split; [apply hex_printable; reflexivity|exact I].
Qed.
Lemma units4 s : forallb (fun c => ((48 <=? c) && (c <=? 57)) || ((65 <=? c) && (c <=? 70))) s = true -> zlen s = 4 -> Units s [hnum s].
Proof. intros H E. apply U_last; [|lia]. apply hex_code; [exact H|]. intros ->. discriminate E. Qed.
Ltac other := apply RO_other; [discriminate|].
Ltac othc := apply CO_other; [discriminate|].
Ltac unit1 := eexists; apply units4; reflexivity.
Example C55_ex :
  Sep (bs "%!PS" ++ [10]) /\ Forall plain_ok ex_chunks /\
  Forall (fun be => HexCode (fst be) /\ HexCode (snd be) /\ zlen (fst be) = zlen (snd be) /\ hnum (fst be) <= hnum (snd be)) (codespace_of ex_chunks) /\
  RangesOf Cid ex_chunks [ERange (bs "20") (bs "7E") 1] /\ CharsOf Cid ex_chunks [] /\
  RangesOf Notdef ex_chunks [] /\ CharsOf Notdef ex_chunks [ERange (bs "00") (bs "00") 1] /\
  RangesOf Bf ex_chunks ex_bf /\ CharsOf Bf ex_chunks [EChar (bs "0003") (bs "00200041")] /\
  named (flat_map chunk_items ex_chunks) = Some (bs "Adobe-UCS").
Proof.
  assert (forall s, forallb (fun c => ((48 <=? c) && (c <=? 57)) || ((65 <=? c) && (c <=? 70))) s = true -> zlen s = 8 -> exists t, Units s t) as U8.
  { intros s H E. rewrite <- (firstn_skipn 4 s) in H |- *. rewrite forallb_app in H. apply andb_true_iff in H.
    assert (List.length s = 8%nat) as El by (unfold zlen in E; lia).
    eexists. apply U_cons; [apply hex_code; [apply H|]| |].
    - destruct s; discriminate.
    - unfold zlen. rewrite firstn_length. lia.
    - apply units4; [apply H|]. unfold zlen. rewrite skipn_length. lia. }
  split. { apply (Sep_comment (bs "!PS") [10] []); [|left; reflexivity|constructor]. repeat constructor; discriminate. }
  split. { unfold ex_chunks. repeat (apply Forall_cons; [intros w E; try discriminate E; injection E as <-; cbn; intuition discriminate|]). apply Forall_nil. }
  split. { apply Forall_cons; [|apply Forall_nil]. split; [hexc|]. split; [hexc|]. split; [reflexivity|vm_compute; discriminate]. }
  unfold ex_chunks.
  split. { do 13 other. apply (RO_range Cid [(bs "20", bs "7E", OInt 1)] _ [[ERange (bs "20") (bs "7E") 1]] []).
    - apply Forall2_cons; [|apply Forall2_nil]. apply RE_int. eok.
    - repeat other. constructor. }
  split. { repeat othc. constructor. }
  split. { repeat other. constructor. }
  split. { do 15 othc. apply (CO_char Notdef [(bs "00", OHex (bs "01"))] _ [ERange (bs "00") (bs "00") 1] []).
    - apply Forall2_cons; [|apply Forall2_nil]. apply (CE_num Notdef (bs "00") (bs "01")); [discriminate|hexc|hexc].
    - repeat othc. constructor. }
  split. { do 11 other. apply (RO_range Bf _ _ [[ERange (bs "0010") (bs "001F") 65]; [EChar (bs "0020") (bs "00660066"); EChar (bs "0021") (bs "0062")]; [ERange (bs "0030") (bs "0039") 48]] []).
    - apply Forall2_cons; [apply (RE_hex (bs "0010") (bs "001F") (bs "0041")); [eok|hexc]|].
      apply Forall2_cons; [|apply Forall2_cons; [apply RE_int; eok|apply Forall2_nil]].
      apply (RE_arr (bs "0020") (bs "0021") [bs "00660066"; bs "0062"] [] [EChar (bs "0020") (bs "00660066"); EChar (bs "0021") (bs "0062")]);
        [hexc|hexc|reflexivity|reflexivity|vm_compute; discriminate| | |].
      + apply Forall_cons; [apply U8; reflexivity|]. apply Forall_cons; [unit1|apply Forall_nil].
      + apply Forall2_cons; [eexists; reflexivity|]. apply Forall2_cons; [eexists; reflexivity|apply Forall2_nil].
      + intros [|[|[|i]]] c d E; cbn [nth_error] in E; try discriminate E;
          (assert (c = bs "0020" \/ c = bs "0021") as [-> | ->] by (injection E; auto));
          (split; [split; [discriminate|apply Forall_forall; intros x Hx; unfold updigit; cbn in Hx; intuition lia]|]);
          (split; [reflexivity|]); try reflexivity; exfalso; discriminate E.
    - repeat other. constructor. }
  split. { do 9 othc. apply (CO_char Bf [(bs "0003", OHex (bs "00200041"))] _ [EChar (bs "0003") (bs "00200041")] []).
    - apply Forall2_cons; [|apply Forall2_nil]. apply CE_bf; [hexc|]. apply U8; reflexivity.
    - repeat othc. constructor. }
  reflexivity.
Qed.
(** A cidchar section as Adobe writes them: the whole file is rejected. *)
Definition ex_bad : list chunk := [KPlain (IObj (OInt 1)); KChar Cid [(bs "20", OInt 1)]; KPlain (IWord (bs "endcmap")); KPlain (IWord (bs "end"))].
Example C55_refuted_ex :
  fst (arun (items_text (header 12 ++ flat_map chunk_items ex_bad)) (cmap 2000) (mkA 0 [] tt)) = Err ParserExc.
Proof. vm_compute. reflexivity. Qed.
Print Assumptions C55_sections.
Print Assumptions C55_lookup.
Print Assumptions C55_char_destinations_refuted.
Print Assumptions C55_terminates.
