(** C51-C53: CMap mappings. *)
From Coq Require Import String Sorting.Sorted.
From Verif Require Import Prelude D_PSNames M_Parser M_Objects M_Codec P_Codec M_CMap S_CMap L_CMap.
Local Open Scope Z_scope.

(** The mapping object built from an entry. *)
Definition built (e : entry) (m : mapping) : Prop :=
  match e with ERange b e start => mk_map_int b e start = Ok m | EChar b dst => m = mk_bf b dst end.

(** *** Construction *)
Theorem C51_construction : forall b e start, HexCode b -> HexCode e ->
  (zlen b = zlen e -> hnum b <= hnum e -> exists m, mk_map_int b e start = Ok m) /\
  (zlen b <> zlen e -> mk_map_int b e start = Err AssertionErr) /\
  (zlen b = zlen e -> hnum e < hnum b -> mk_map_int b e start = Err ValueErr).
Proof.
  intros b e start Hb He. unfold mk_map_int, mk_range. rewrite !as_int_hnum by assumption. cbn [rbind]. repeat split.
  - intros H1 H2. rewrite H1, Z.eqb_refl. assert (hnum e <? hnum b = false) as -> by lia. eexists. reflexivity.
  - intros H. assert (zlen b =? zlen e = false) as -> by lia. reflexivity.
  - intros H1 H2. rewrite H1, Z.eqb_refl. assert (hnum e <? hnum b = true) as -> by lia. reflexivity.
Qed.
(** A destination given in hexadecimal is the number. *)
Theorem C51_hex_destination : forall b e dst, HexCode dst -> mk_map_hex b e dst = mk_map_int b e (hnum dst).
Proof. intros b e dst H. unfold mk_map_hex, mk_map_int. rewrite as_int_hnum by exact H. reflexivity. Qed.

Lemma built_range b e start m : entry_ok (ERange b e start) -> built (ERange b e start) m -> m = MMap (mkR (hnum b) (hnum e) (zlen b)) start.
Proof.
  intros (Hb & He & Hl & Hle) H. cbn [built] in H. unfold mk_map_int, mk_range in H. rewrite !as_int_hnum in H by assumption. cbn [rbind] in H.
  rewrite Hl, Z.eqb_refl in H. assert (hnum e <? hnum b = false) as E by lia. rewrite E in H. rewrite Hl. now inversion H.
Qed.
Lemma units_digits d t : Units d t -> Forall hdigit d.
Proof. induction 1 as [|g [_ H] _|g d t [_ H] _ _ IH]; [constructor|exact H|]. apply Forall_app. now split. Qed.
Lemma units_upcase d t : Units d t -> Units (upcase d) t.
Proof.
  assert (forall g, HexCode g -> HexCode (upcase g)) as HC.
  { intros g [H1 H2]. split; [destruct g; [congruence|discriminate]|]. eapply Forall_impl; [|apply upcase_digits; exact H2]. intros a. apply updigit_h. }
  assert (forall g, zlen (upcase g) = zlen g) as HL by (intros g; unfold upcase, zlen; now rewrite map_length).
  induction 1 as [|g Hg Hl|g d t Hg Hl H IH]; [constructor| |].
  - rewrite <- (upcase_hnum g) by apply Hg. constructor; [auto|now rewrite HL].
  - unfold upcase. rewrite map_app. fold (upcase g) (upcase d). rewrite <- (upcase_hnum g) by apply Hg. constructor; auto. now rewrite HL.
Qed.
Lemma hnum4 g : Forall hdigit g -> zlen g <= 4 -> 0 <= hnum g < 65536.
Proof. intros H Hl. pose proof (hnum_bounds g H). pose proof (Z.pow_le_mono_r 16 (zlen g) 4). change (16 ^ 4) with 65536 in *. lia. Qed.
Lemma units_nil d t : Units d t -> d = [] -> t = [].
Proof. destruct 1 as [|g [Hg _] _|g d t [Hg _] _ _]; intros E; [reflexivity|congruence|]. apply app_eq_nil in E. destruct E. congruence. Qed.
Lemma units_text d t : Units d t -> forall n, (List.length d < n)%nat -> bf_text n d = Ok t.
Proof.
  induction 1 as [|g Hg Hl|g d t Hg Hl H IH]; intros n Hn.
  - destruct n; reflexivity.
  - destruct n as [|n]; [lia|]. cbn [bf_text]. destruct Hg as [Hg1 Hg2]. destruct g as [|x g]; [congruence|]. set (G := x :: g) in *.
    assert (firstn 4 G = G) as -> by (apply firstn_all2; unfold zlen in Hl; lia). assert (skipn 4 G = []) as -> by (apply skipn_all2; unfold zlen in Hl; lia).
    rewrite as_int_hnum by (split; assumption). cbn [rbind]. pose proof (hnum4 G Hg2 Hl). unfold py_chr.
    assert ((0 <=? hnum G) && (hnum G <=? 1114111) = true) as -> by lia. destruct n; reflexivity.
  - destruct n as [|n]; [lia|]. destruct Hg as [Hg1 Hg2]. assert (List.length g = 4%nat) as Hl4 by (unfold zlen in Hl; lia).
    assert (firstn 4 (g ++ d) = g) as E1 by (rewrite <- Hl4, firstn_app, firstn_all, Nat.sub_diag, firstn_O; apply app_nil_r).
    assert (skipn 4 (g ++ d) = d) as E2 by (rewrite <- Hl4, skipn_app, skipn_all, Nat.sub_diag; reflexivity).
    cbn [bf_text]. destruct (g ++ d) as [|x q] eqn:E; [destruct g; [congruence|discriminate]|]. rewrite E1, E2, as_int_hnum by (split; assumption). cbn [rbind].
    pose proof (hnum4 g Hg2 ltac:(lia)). unfold py_chr. assert ((0 <=? hnum g) && (hnum g <=? 1114111) = true) as -> by lia.
    rewrite IH; [reflexivity|]. rewrite <- E, app_length in Hn. lia.
Qed.
Lemma built_char b dst m : entry_ok (EChar b dst) -> built (EChar b dst) m -> m = MBF (upcase b) (upcase dst).
Proof.
  intros [[_ Hb] [t Ht]] H. cbn [built] in H. subst m. unfold mk_bf. pose proof (units_digits _ _ Ht) as Hd.
  assert (starts_slash dst = false) as ->. { destruct dst as [|x r]; [reflexivity|]. inversion Hd as [|? ? Hx _]. unfold hdigit in Hx. unfold starts_slash.
    repeat (match goal with |- context [match ?e with _ => _ end] => is_var e; destruct e; try reflexivity end); lia. }
  rewrite !upper_upcase by assumption. reflexivity.
Qed.
Lemma no_slash l : Forall hdigit l -> starts_slash l = false.
Proof. intros H. destruct l as [|x r]; [reflexivity|]. inversion H as [|? ? Hx _]. unfold hdigit in Hx. unfold starts_slash.
  repeat (match goal with |- context [match ?e with _ => _ end] => is_var e; destruct e; try reflexivity end); lia. Qed.

Lemma in_built e m item : entry_ok e -> built e m -> HexCode item ->
  exists b, in_mapping m item = Ok b /\ (b = true <-> covers e item).
Proof.
  intros Ho Hb Hi. destruct e as [b e start|b dst].
  - rewrite (built_range _ _ _ _ Ho Hb). cbn [in_mapping]. unfold range_contains. cbn [r_size r_begin r_end covers].
    destruct (zlen item =? zlen b) eqn:E.
    + rewrite as_int_hnum by exact Hi. cbn [rbind]. eexists. split; [reflexivity|]. lia.
    + exists false. split; [reflexivity|]. split; [discriminate|lia].
  - rewrite (built_char _ _ _ Ho Hb). cbn [in_mapping covers]. rewrite upper_upcase by apply Hi. eexists. split; [reflexivity|].
    split; [apply eqlZ_true|]. intros ->. apply eqlZ_refl.
Qed.
Lemma get_built e m item : entry_ok e -> built e m -> UpperCode item -> covers e item ->
  exists t, get_mapping m item = Ok t /\ gives e item t.
Proof.
  intros Ho Hb Hi Hc. destruct e as [b e start|b dst].
  - rewrite (built_range _ _ _ _ Ho Hb). cbn [get_mapping gives]. unfold range_contains. cbn [r_size r_begin r_end]. destruct Hc as [H1 H2].
    rewrite H1, Z.eqb_refl, as_int_hnum by now apply upper_hex_code. cbn [rbind]. assert ((hnum b <=? hnum item) && (hnum item <=? hnum e) = true) as -> by lia.
    cbn [rbind]. eexists. split; [reflexivity|]. reflexivity.
  - rewrite (built_char _ _ _ Ho Hb). cbn [get_mapping gives covers] in *. rewrite upcase_up in Hc by apply Hi. rewrite <- Hc.
    rewrite eqlZ_refl. destruct Ho as [_ [t Ht]]. rewrite no_slash.
    + exists t. split; [apply units_text; [now apply units_upcase|lia]|exact Ht].
    + eapply units_digits. apply units_upcase. exact Ht.
Qed.

(** *** C51: lookup is the first covering entry *)
Theorem C51_lookup : forall es ms item, Forall entry_ok es -> Forall2 built es ms -> UpperCode item ->
  (exists pre e post t, es = pre ++ e :: post /\ Forall (fun e => ~ covers e item) pre /\ covers e item /\
     gives e item t /\ lookup ms item = Ok t)
  \/ (Forall (fun e => ~ covers e item) es /\ lookup ms item = Err KeyErr).
Proof.
  intros es ms item Ho H2 Hi. revert Ho. induction H2 as [|e m es ms Hb H2 IH]; intros Ho; [right; split; [constructor|reflexivity]|].
  inversion Ho as [|? ? He Ho']; subst. cbn [lookup]. destruct (in_built e m item He Hb (upper_hex_code _ Hi)) as (b & E & Hbc). rewrite E. cbn [rbind].
  destruct b.
  - left. assert (covers e item) as Hc by now apply Hbc. destruct (get_built e m item He Hb Hi Hc) as (t & Et & Ht). exists [], e, es, t. repeat split; auto.
  - assert (~ covers e item) as Hc by (intros X; apply Hbc in X; discriminate). destruct (IH Ho') as [(pre & e' & post & t & -> & HP & HC & HG & HL)|[HN HL]].
    + left. exists (e :: pre), e', post, t. repeat split; auto.
    + right. split; [constructor; auto|exact HL].
Qed.
Theorem C51_get : forall {A} (f : list Z -> A) es ms item d, Forall entry_ok es -> Forall2 built es ms -> UpperCode item ->
  get_default f ms item d = Ok (match lookup ms item with Ok t => f t | Err _ => d end).
Proof.
  intros A f es ms item d Ho H2 Hi. unfold get_default. destruct (C51_lookup es ms item Ho H2 Hi) as [(? & ? & ? & ? & _ & _ & _ & _ & ->)|[_ ->]]; reflexivity.
Qed.

(** *** C51: enumeration *)
Theorem C51_enumeration : forall b e r, HexCode b -> HexCode e -> mk_range b e = Ok r ->
  (forall x, In x (range_list r) <-> Forall updigit x /\ zlen x = zlen b /\ hnum b <= hnum x <= hnum e) /\
  StronglySorted (fun x y => hnum x < hnum y) (range_list r) /\
  zlen (range_list r) = range_len r /\ range_len r = hnum e - hnum b + 1.
Proof.
  intros b e r Hb He H. unfold mk_range in H. rewrite !as_int_hnum in H by assumption. cbn [rbind] in H.
  destruct (zlen b =? zlen e) eqn:El; [|discriminate]. destruct (hnum e <? hnum b) eqn:En; [discriminate|]. inversion H; subst r. clear H.
  unfold range_list, range_len. cbn [r_begin r_end r_size]. pose proof (hnum_bounds b (proj2 Hb)). pose proof (hnum_bounds e (proj2 He)).
  assert (0 < zlen b) by (destruct Hb as [Hb _]; destruct b; [congruence|rewrite zlen_cons; pose proof (zlen_nonneg b); lia]).
  assert (zlen b = zlen e) as Ee by lia. rewrite <- Ee in *.
  assert (hnum b + Z.of_nat (Z.to_nat (hnum e - hnum b + 1)) <= 16 ^ zlen b) by lia.
  split; [|split; [|split]].
  - intros x. rewrite range_from_in by lia. split; intros (X1 & X2 & X3); repeat split; auto; lia.
  - apply range_from_sorted; lia.
  - unfold zlen at 1. rewrite range_from_len. lia.
  - reflexivity.
Qed.

Definition lt_str (a b : list Z) : Prop := str_cmp a b = Lt.
Lemma str_eq a : forall b, str_cmp a b = Eq <-> a = b.
Proof.
  induction a as [|x a IH]; intros [|y b]; cbn [str_cmp]; try (split; [discriminate|discriminate]); [tauto|].
  destruct (x ?= y) eqn:E.
  - apply Z.compare_eq in E. subst y. rewrite IH. split; [now intros ->|]. intros H. now inversion H.
  - split; [discriminate|]. intros H. inversion H; subst. rewrite Z.compare_refl in E. discriminate.
  - split; [discriminate|]. intros H. inversion H; subst. rewrite Z.compare_refl in E. discriminate.
Qed.
Lemma str_sym a : forall b, str_cmp a b = CompOpp (str_cmp b a).
Proof.
  induction a as [|x a IH]; intros [|y b]; cbn [str_cmp]; try reflexivity. rewrite (Z.compare_antisym y x). destruct (y ?= x); cbn [CompOpp]; [apply IH|reflexivity..].
Qed.
Lemma str_trans a : forall b c, lt_str a b -> lt_str b c -> lt_str a c.
Proof.
  unfold lt_str. induction a as [|x a IH]; intros [|y b] [|z c]; cbn [str_cmp]; try congruence; try discriminate.
  intros H1 H2. destruct (x ?= y) eqn:E1; [|destruct (y ?= z) eqn:E2|discriminate].
  - apply Z.compare_eq in E1. subst y. destruct (x ?= z); [eapply IH; eauto|reflexivity|discriminate].
  - apply Z.compare_eq in E2. subst z. rewrite E1. reflexivity.
  - assert ((x ?= z) = Lt) as ->; [|reflexivity]. apply (proj1 (Z.compare_lt_iff _ _)) in E1. apply (proj1 (Z.compare_lt_iff _ _)) in E2. apply Z.compare_lt_iff. lia.
  - discriminate.
Qed.
Lemma insert_in x l : forall y, In y (insert x l) <-> y = x \/ In y l.
Proof.
  induction l as [|z l IH]; intros y; cbn [insert In]; [intuition congruence|]. destruct (str_cmp x z) eqn:E; cbn [In].
  - apply str_eq in E. subst z. intuition congruence.
  - intuition congruence.
  - rewrite IH. intuition congruence.
Qed.
Lemma insert_sorted x l : StronglySorted lt_str l -> StronglySorted lt_str (insert x l).
Proof.
  induction 1 as [|z l H IH HF]; cbn [insert]; [repeat constructor|]. destruct (str_cmp x z) eqn:E.
  - now constructor.
  - constructor; [now constructor|]. constructor; [exact E|]. eapply Forall_impl; [|exact HF]. intros y. apply str_trans. exact E.
  - constructor; [exact IH|]. apply Forall_forall. intros y Hy. apply insert_in in Hy. destruct Hy as [->|Hy]; [|rewrite Forall_forall in HF; auto].
    unfold lt_str. rewrite str_sym, E. reflexivity.
Qed.
Lemma fold_insert r : forall acc, (forall y, In y (fold_left (fun a x => insert x a) r acc) <-> In y r \/ In y acc) /\
  (StronglySorted lt_str acc -> StronglySorted lt_str (fold_left (fun a x => insert x a) r acc)).
Proof.
  induction r as [|x r IH]; intros acc; cbn [fold_left In]; [split; [tauto|auto]|]. destruct (IH (insert x acc)) as [H1 H2]. split.
  - intros y. rewrite H1, insert_in. intuition congruence.
  - intros H. apply H2. now apply insert_sorted.
Qed.
(** All codes of a table of ranges, in string order, without repetition; as_dict pairs each with its text. *)
Theorem C51_as_list : forall es ms, Forall entry_ok es -> Forall2 built es ms -> (forall b d, ~ In (EChar b d) es) ->
  exists l, as_list ms = Ok l /\ StronglySorted lt_str l /\
    (forall x, In x l <-> UpperCode x /\ exists e, In e es /\ covers e x) /\
    exists d, as_dict ms = Ok d /\ map fst d = l /\ Forall (fun p => lookup ms (fst p) = Ok (snd p)) d.
Proof.
  intros es ms Ho H2 Hn.
  assert (forall acc, StronglySorted lt_str acc -> exists l, as_list_loop ms acc = Ok l /\ StronglySorted lt_str l /\
     forall x, In x l <-> In x acc \/ (UpperCode x /\ exists e, In e es /\ covers e x)) as HL.
  { clear - Ho H2 Hn. revert Ho Hn. induction H2 as [|e m es ms Hb H2 IH]; intros Ho Hn acc Hacc.
    - exists acc. split; [reflexivity|]. split; [exact Hacc|]. intros x. split; [auto|]. intros [H|(_ & e & [] & _)]. exact H.
    - inversion Ho as [|? ? He Ho']; subst. destruct e as [b e start|b d]; [|exfalso; apply (Hn b d); now left].
      pose proof (built_range _ _ _ _ He Hb) as ->. cbn [as_list_loop]. destruct (fold_insert (range_list (mkR (hnum b) (hnum e) (zlen b))) acc) as [F1 F2].
      destruct (IH Ho' (fun b' d' X => Hn b' d' (or_intror X)) _ (F2 Hacc)) as (l & E & HS & HI). exists l. split; [exact E|]. split; [exact HS|].
      destruct He as (Hb1 & He1 & Hl & Hle).
      assert (mk_range b e = Ok (mkR (hnum b) (hnum e) (zlen b))) as ER.
      { unfold mk_range. rewrite !as_int_hnum by assumption. cbn [rbind]. rewrite <- Hl, Z.eqb_refl. assert (hnum e <? hnum b = false) as -> by lia. reflexivity. }
      destruct (C51_enumeration b e _ Hb1 He1 ER) as [HE _].
      assert (0 < zlen b) by (destruct Hb1 as [Hb1 _]; destruct b; [congruence|rewrite zlen_cons; pose proof (zlen_nonneg b); lia]).
      intros x. rewrite HI, F1, HE. split.
      + intros [[(X1 & X2 & X3)|X]|(X1 & e' & X2 & X3)].
        * right. split; [split; [intros ->; change (zlen (@nil Z)) with 0 in X2; lia|exact X1]|]. eexists. split; [now left|]. cbn [covers]. lia.
        * now left.
        * right. split; [exact X1|]. exists e'. split; [now right|exact X3].
      + intros [X|(X1 & e' & [<-|X2] & X3)].
        * left. now right.
        * left. left. destruct X1 as [_ X1]. cbn [covers] in X3. tauto.
        * right. split; [exact X1|]. now exists e'. }
  destruct (HL []) as (l & E & HS & HI); [constructor|]. exists l. split; [exact E|]. split; [exact HS|].
  assert (forall x, In x l <-> UpperCode x /\ exists e, In e es /\ covers e x) as HI' by (intros x; rewrite HI; cbn [In]; tauto).
  split; [exact HI'|]. unfold as_dict. change (as_list ms) with (as_list_loop ms []). rewrite E. cbn [rbind]. clear E HL HS HI.
  assert (forall x, In x l -> exists t, lookup ms x = Ok t) as HT.
  { intros x Hx. apply HI' in Hx. destruct Hx as (Hu & e & He & Hc). destruct (C51_lookup es ms x Ho H2 Hu) as [(? & ? & ? & t & _ & _ & _ & _ & ->)|[HF _]]; [eauto|].
    rewrite Forall_forall in HF. now apply HF in He. }
  clear HI'. induction l as [|x l IH].
  - exists []. repeat split. constructor.
  - cbn [items_of]. destruct (HT x) as [t Et]; [now left|]. rewrite Et. cbn [rbind]. destruct IH as (d & -> & <- & HD); [intros y Hy; apply HT; now right|].
    cbn [rbind]. exists ((x, t) :: d). repeat split. constructor; [exact Et|exact HD].
Qed.
Definition ex_entries := [ERange (bs "00") (bs "04") 5; ERange (bs "03") (bs "0a") 1114110; EChar (bs "0c") (bs "00660069"); EChar (bs "0041") (bs "67")].
(** Mappings with single characters cannot be listed. *)
Theorem C51_as_list_chars_refuted : forall es ms b d, Forall2 built es ms -> In (EChar b d) es -> as_list ms = Err AttributeErr.
Proof.
  intros es ms b d HB Hin. unfold as_list. generalize (@nil (list Z)) as acc. revert Hin. induction HB as [|e m es ms He HB IH]; [intros []|]. intros [->|Hin] acc.
  - cbn [built] in He. subst m. reflexivity.
  - destruct m as [r start|c t]; [|reflexivity]. cbn [as_list_loop]. now apply IH.
Qed.
Definition ex_maps := [MMap (mkR 0 4 2) 5; MMap (mkR 3 10 2) 1114110; MBF (bs "0C") (bs "00660069"); MBF (bs "0041") (bs "67")].
Lemma hex_lit l : forallb (fun c => ((48 <=? c) && (c <=? 57)) || ((65 <=? c) && (c <=? 70)) || ((97 <=? c) && (c <=? 102))) l = true -> Forall hdigit l.
Proof. intros H. apply Forall_forall. intros c Hc. rewrite forallb_forall in H. specialize (H c Hc). unfold hdigit. lia. Qed.
Lemma up_lit l : forallb (fun c => ((48 <=? c) && (c <=? 57)) || ((65 <=? c) && (c <=? 70))) l = true -> Forall updigit l.
Proof. intros H. apply Forall_forall. intros c Hc. rewrite forallb_forall in H. specialize (H c Hc). unfold updigit. lia. Qed.
Lemma code_lit l : l <> [] -> forallb (fun c => ((48 <=? c) && (c <=? 57)) || ((65 <=? c) && (c <=? 70)) || ((97 <=? c) && (c <=? 102))) l = true -> HexCode l.
Proof. intros. split; [assumption|]. now apply hex_lit. Qed.
Example C51_ex : Forall entry_ok ex_entries /\ Forall2 built ex_entries ex_maps /\ UpperCode (bs "04") /\
  lookup ex_maps (bs "04") = Ok [9] /\ lookup ex_maps (bs "05") = Ok [65533] /\ lookup ex_maps (bs "03") = Ok [8] /\ lookup ex_maps (bs "0C") = Ok (bs "fi") /\
  lookup ex_maps (bs "0B") = Err KeyErr /\ as_list (firstn 2 ex_maps) = Ok (map bs ["00"; "01"; "02"; "03"; "04"; "05"; "06"; "07"; "08"; "09"; "0A"]%string).
Proof.
  split; [|split; [|split]].
  - assert (forall l, l <> [] -> forallb (fun c => ((48 <=? c) && (c <=? 57)) || ((65 <=? c) && (c <=? 70)) || ((97 <=? c) && (c <=? 102))) l = true -> HexCode l) as HC by exact code_lit.
    constructor; [|constructor; [|constructor; [|constructor; [|constructor]]]]; cbn [entry_ok];
      (split; [apply HC; [discriminate|reflexivity]|]).
    + split; [apply HC; [discriminate|reflexivity]|]. split; [reflexivity|vm_compute; discriminate].
    + split; [apply HC; [discriminate|reflexivity]|]. split; [reflexivity|vm_compute; discriminate].
    + exists (bs "fi"). change (bs "00660069") with (bs "0066" ++ bs "0069"). apply (U_cons (bs "0066") (bs "0069") [105]); [apply HC; [discriminate|reflexivity]|reflexivity|].
      apply (U_last (bs "0069")); [apply HC; [discriminate|reflexivity]|cbn; lia].
    + exists (bs "g"). apply (U_last (bs "67")); [apply HC; [discriminate|reflexivity]|cbn; lia].
  - repeat constructor.
  - split; [discriminate|now apply up_lit].
  - repeat split; vm_compute; reflexivity.
Qed.

(** *** C52: membership and lookup *)
Theorem C52_membership : forall es ms item, Forall entry_ok es -> Forall2 built es ms -> HexCode item ->
  (contains_any ms item = Ok true /\ Exists (fun e => covers e item) es) \/
  (contains_any ms item = Ok false /\ Forall (fun e => ~ covers e item) es).
Proof.
  intros es ms item Ho H2 Hi. revert Ho. induction H2 as [|e m es ms Hb H2 IH]; intros Ho; [right; split; [reflexivity|constructor]|].
  inversion Ho as [|? ? He Ho']; subst. cbn [contains_any]. destruct (in_built e m item He Hb Hi) as (b & E & Hbc). rewrite E. cbn [rbind]. destruct b.
  - left. split; [reflexivity|]. constructor. now apply Hbc.
  - destruct (IH Ho') as [[H HE]|[H HF]]; [left|right]; split; auto. constructor; [|exact HF]. intros X. apply Hbc in X. discriminate.
Qed.
Theorem C52_agree : forall es ms item, Forall entry_ok es -> Forall2 built es ms -> UpperCode item ->
  (contains_any ms item = Ok true <-> exists t, lookup ms item = Ok t) /\ (contains_any ms item = Ok false <-> lookup ms item = Err KeyErr).
Proof.
  intros es ms item Ho H2 Hi. destruct (C51_lookup es ms item Ho H2 Hi) as [(pre & e & post & t & Ee & _ & Hc & _ & ->)|[HF ->]];
    destruct (C52_membership es ms item Ho H2 (upper_hex_code _ Hi)) as [[-> HE]|[-> HF2]].
  - split; split; intros H; try discriminate H; eauto.
  - exfalso. subst es. apply Forall_app in HF2. destruct HF2 as [_ HF2]. inversion HF2. contradiction.
  - exfalso. apply Exists_exists in HE. destruct HE as (e & He & Hc). rewrite Forall_forall in HF. now apply HF in He.
  - split; split; intros H; try discriminate H; auto. now destruct H.
Qed.
(** Ranges answer lower-case codes too, *)
Theorem C52_ranges_any_case : forall es ms item, Forall entry_ok es -> Forall2 built es ms -> (forall b d, ~ In (EChar b d) es) -> HexCode item ->
  lookup ms item = lookup ms (upcase item) /\ contains_any ms item = contains_any ms (upcase item).
Proof.
  intros es ms item Ho H2 Hn Hi. assert (HexCode (upcase item)) as Hu.
  { destruct Hi as [H1 H3]. split; [destruct item; [congruence|discriminate]|]. eapply Forall_impl; [|apply upcase_digits; exact H3]. intros a. apply updigit_h. }
  assert (zlen (upcase item) = zlen item) as HL by (unfold upcase, zlen; now rewrite map_length).
  revert Ho Hn. induction H2 as [|e m es ms Hb H2 IH]; intros Ho Hn; [split; reflexivity|].
  inversion Ho as [|? ? He Ho']; subst. destruct e as [b e start|b d]; [|exfalso; apply (Hn b d); now left].
  pose proof (built_range _ _ _ _ He Hb) as ->. 
  cbn [lookup contains_any in_mapping get_mapping]. destruct (IH Ho' (fun b' d' X => Hn b' d' (or_intror X))) as [-> ->]. unfold range_contains. rewrite HL, !as_int_hnum, upcase_hnum by (auto; apply Hi). split; reflexivity.
Qed.
(** but a single-character entry does not: a lower-case code of it is reported present and cannot be looked up. *)
Theorem C52_lower_case_refuted : forall b dst item, HexCode b -> HexCode item -> upcase item = upcase b -> item <> upcase item ->
  contains_any [mk_bf b dst] item = Ok true /\ lookup [mk_bf b dst] item = Err KeyErr.
Proof.
  intros b dst item Hb Hi E Hne. cbn [contains_any lookup mk_bf in_mapping get_mapping]. rewrite !upper_upcase by (apply Hi || apply Hb). rewrite E, eqlZ_refl. cbn [rbind].
  split; [reflexivity|]. destruct (eqlZ item (upcase b)) eqn:X; [|reflexivity]. apply eqlZ_true in X. congruence.
Qed.
Example C52_ex : HexCode (bs "0A") /\ HexCode (bs "0a") /\ upcase (bs "0a") = upcase (bs "0A") /\ bs "0a" <> upcase (bs "0a") /\
  contains_any ex_maps (bs "0c") = Ok true /\ lookup ex_maps (bs "0c") = Err KeyErr.
Proof. repeat split; try discriminate; try (now apply hex_lit). Qed.

(** *** C53: destinations *)
Lemma unit_code u : 0 <= u < 65536 -> HexCode (unit_hex u) /\ zlen (unit_hex u) = 4 /\ hnum (unit_hex u) = u.
Proof.
  intros H. assert (unit_hex u = hexw 4 u) as E.
  { unfold unit_hex. cbn [hexw app map]. assert (u / 16 / 16 = u / 256) as E1 by (rewrite Z.div_div by lia; reflexivity). assert (u / 256 / 16 = u / 4096) as E2 by (rewrite Z.div_div by lia; reflexivity).
    rewrite E1, E2, (Z.mod_small (u / 4096) 16); [reflexivity|].
    split; [apply Z.div_pos; lia|apply Z.div_lt_upper_bound; lia]. }
  rewrite E. split; [|split].
  - split; [discriminate|]. eapply Forall_impl; [|apply hexw_up; lia]. intros a. apply updigit_h.
  - reflexivity.
  - apply hexw_num. change (16 ^ Z.of_nat 4) with 65536. lia.
Qed.
Lemma units_of t : Forall (fun u => 0 <= u < 65536) t -> Units (flat_map unit_hex t) t.
Proof.
  induction 1 as [|u t Hu _ IH]; cbn [flat_map]; [constructor|]. destruct (unit_code u Hu) as (H1 & H2 & H3). rewrite <- H3 at 2. now constructor.
Qed.
(** A text of characters below 10000 hex written in UTF-16BE is what the code is mapped to. *)
Theorem C53_bmp : forall b t, HexCode b -> Forall (fun u => 0 <= u < 65536) t ->
  lookup [mk_bf b (flat_map unit_hex t)] (upcase b) = Ok t.
Proof.
  intros b t Hb Ht. pose proof (units_of t Ht) as HU.
  assert (UpperCode (upcase b)) as Hu by (destruct Hb as [H1 H2]; split; [destruct b; [congruence|discriminate]|now apply upcase_digits]).
  assert (upcase (upcase b) = upcase b) as Eu by (apply upcase_up, Hu).
  destruct (C51_lookup [EChar b (flat_map unit_hex t)] [mk_bf b (flat_map unit_hex t)] (upcase b)) as [(pre & e & post & t' & E & _ & _ & HG & ->)|[HF _]].
  - repeat constructor; try apply Hb. now exists t.
  - repeat constructor.
  - exact Hu.
  - destruct pre as [|p pre]; [|destruct pre; discriminate]. inversion E; subst. cbn [gives] in HG.
    rewrite <- (units_text _ _ HG (S (List.length (flat_map unit_hex t)))) by lia. apply units_text; [exact HU|lia].
  - inversion HF as [|? ? H _]. exfalso. apply H. exact Eu.
Qed.
(** The UTF-16BE form of a character beyond that gives its two surrogates instead of the character. *)
Theorem C53_surrogates_refuted : forall b c, HexCode b -> 65536 <= c <= 1114111 ->
  let hi := 55296 + (c - 65536) / 1024 in let lo := 56320 + (c - 65536) mod 1024 in
  lookup [mk_bf b (unit_hex hi ++ unit_hex lo)] (upcase b) = Ok [hi; lo] /\ [hi; lo] <> [c].
Proof.
  intros b c Hb Hc hi lo. split; [|discriminate].
  assert (0 <= (c - 65536) / 1024 < 1024) by (split; [apply Z.div_pos; lia|apply Z.div_lt_upper_bound; lia]). pose proof (Z.mod_pos_bound (c - 65536) 1024).
  assert (unit_hex hi ++ unit_hex lo = flat_map unit_hex [hi; lo]) as -> by (cbn [flat_map]; now rewrite app_nil_r).
  apply C53_bmp; [exact Hb|]. unfold hi, lo. repeat constructor; lia.
Qed.
(** A range whose destination has two UTF-16 units - a surrogate pair, or two characters of which the first is
    at least 11 hex - maps all its codes to U+FFFD. *)
Theorem C53_range_two_units_refuted : forall b e u v m item, HexCode b -> HexCode e -> 17 <= u < 65536 -> 0 <= v < 65536 ->
  mk_map_hex b e (unit_hex u ++ unit_hex v) = Ok m -> HexCode item -> covers (ERange b e 0) item -> lookup [m] item = Ok [65533].
Proof.
  intros b e u v m item Hb He Hu Hv H Hi Hc. destruct (unit_code u ltac:(lia)) as (U1 & U2 & U3). destruct (unit_code v Hv) as (V1 & V2 & V3).
  assert (forall a c, hnum (a ++ c) = hnum a * 16 ^ zlen c + hnum c) as HA.
  { induction a as [|x a IH]; intros c; [cbn; lia|]. cbn [app hnum]. rewrite IH, zlen_app. pose proof (zlen_nonneg a). pose proof (zlen_nonneg c). rewrite Z.pow_add_r by lia. lia. }
  assert (HexCode (unit_hex u ++ unit_hex v)) as HC by (split; [discriminate|apply Forall_app; split; [apply U1|apply V1]]).
  rewrite C51_hex_destination in H by exact HC. rewrite HA, U3, V2, V3 in H. change (16 ^ 4) with 65536 in H.
  destruct Hc as [H1 H2]. assert (entry_ok (ERange b e (u * 65536 + v))) as HO.
  { repeat split; try apply Hb; try apply He; [|lia]. unfold mk_map_int, mk_range in H. destruct (zlen b =? zlen e) eqn:E; [lia|discriminate]. }
  rewrite (built_range _ _ _ _ HO H). cbn [lookup in_mapping get_mapping]. unfold range_contains. cbn [r_size r_begin r_end]. rewrite H1, Z.eqb_refl, as_int_hnum by exact Hi.
  cbn [rbind]. assert ((hnum b <=? hnum item) && (hnum item <=? hnum e) = true) as -> by lia. cbn [rbind].
  assert ((0 <=? u * 65536 + v + (hnum item - hnum b)) && (u * 65536 + v + (hnum item - hnum b) <=? 1114111) = false) as -> by lia. reflexivity.
Qed.
(** A destination given as a glyph name with its slash (by callers of BFChar) is the character of that name; an unknown name
    stays as it is. *)
Theorem C53_glyph_names : forall b name, HexCode b ->
  lookup [mk_bf b (47 :: name)] (upcase b) = Ok (match aget ps_charnames name with Some v => v | None => 47 :: name end).
Proof.
  intros b name Hb. assert (UpperCode (upcase b)) as Hu by (destruct Hb as [H1 H2]; split; [destruct b; [congruence|discriminate]|now apply upcase_digits]).
  assert (upcase (upcase b) = upcase b) as Eu by (apply upcase_up, Hu).
  cbn [lookup mk_bf in_mapping get_mapping starts_slash skipn]. rewrite !upper_upcase by (apply Hb || (destruct Hu as [_ Hu]; eapply Forall_impl; [|exact Hu]; intros a; apply updigit_h)).
  rewrite Eu, eqlZ_refl. reflexivity.
Qed.
(** In CMap files names stand in arrays only, and without the slash: looking the code up raises ValueError, or gives another character. *)
Theorem C53_array_names_refuted : forall b, HexCode b -> exists yen a,
  mk_bf_obj b (OName (bs "yen")) = Ok yen /\ lookup [yen] (upcase b) = Err ValueErr /\
  mk_bf_obj b (OName (bs "A")) = Ok a /\ lookup [a] (upcase b) = Ok [10] /\
  mk_bf_obj b (OStr (bs "A")) = Err TypeErr /\ mk_bf_obj b (OInt 65) = Err AttributeErr.
Proof.
  intros b Hb. assert (UpperCode (upcase b)) as Hu by (destruct Hb as [H1 H2]; split; [destruct b; [congruence|discriminate]|now apply upcase_digits]).
  assert (upcase (upcase b) = upcase b) as Eu by (apply upcase_up, Hu).
  eexists _, _. split; [reflexivity|]. split; [|split; [reflexivity|split; [|split; reflexivity]]];
    (unfold mk_bf; cbn [starts_slash bs lookup in_mapping get_mapping]; rewrite !upper_upcase by (apply Hb || (destruct Hu as [_ Hu]; eapply Forall_impl; [|exact Hu]; intros x; apply updigit_h));
     rewrite Eu, eqlZ_refl; vm_compute; reflexivity).
Qed.
Example C53_names_ex : lookup [mk_bf (bs "00") (bs "/yen")] (bs "00") = Ok [165] /\ lookup [mk_bf (bs "00") (bs "/nosuch")] (bs "00") = Ok (bs "/nosuch").
Proof. split; vm_compute; reflexivity. Qed.
Example C53_ex : HexCode (bs "1e") /\ flat_map unit_hex [102; 8364] = bs "006620AC" /\
  lookup [mk_bf (bs "1e") (bs "006620AC")] (bs "1E") = Ok [102; 8364] /\
  lookup [mk_bf (bs "1e") (bs "D83DDE00")] (bs "1E") = Ok [55357; 56832] /\
  (exists m, mk_map_hex (bs "1e") (bs "1f") (bs "00660069") = Ok m /\ lookup [m] (bs "1F") = Ok [65533]).
Proof.
  split; [split; [discriminate|now apply hex_lit]|]. split; [reflexivity|]. split; [reflexivity|]. split; [reflexivity|].
  exists (MMap (mkR 30 31 2) 6684777). split; vm_compute; reflexivity.
Qed.

Print Assumptions C51_construction.
Print Assumptions C51_hex_destination.
Print Assumptions C51_lookup.
Print Assumptions C51_get.
Print Assumptions C51_enumeration.
Print Assumptions C51_as_list.
Print Assumptions C52_membership.
Print Assumptions C52_agree.
Print Assumptions C52_ranges_any_case.
Print Assumptions C52_lower_case_refuted.
Print Assumptions C53_bmp.
Print Assumptions C53_surrogates_refuted.
Print Assumptions C53_range_two_units_refuted.
Print Assumptions C53_glyph_names.
Print Assumptions C53_array_names_refuted.
Print Assumptions C51_as_list_chars_refuted.
