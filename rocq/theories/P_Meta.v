(** Metadata (C66) and dates (C67). *)
From Coq Require Import String.
From Verif Require Import Prelude M_Parser M_Document M_Objects M_Meta.
Local Open Scope Z_scope.

(** Specification. *)
(** Unicode scalar values and their UTF-8 form. *)
Definition scalar (c : Z) : Prop := 0 <= c <= 55295 \/ 57344 <= c <= 1114111.
Definition utf8 (c : Z) : list Z :=
  if c <? 128 then [c]
  else if c <? 2048 then [192 + c / 64; 128 + c mod 64]
  else if c <? 65536 then [224 + c / 4096; 128 + (c / 64) mod 64; 128 + c mod 64]
  else [240 + c / 262144; 128 + (c / 4096) mod 64; 128 + (c / 64) mod 64; 128 + c mod 64].
Definition utf8_text (t : list Z) : list Z := List.concat (map utf8 t).

(** The fields of a PDF date, as texts. *)
Record fields := mkF { f_year : list Z; f_month : list Z; f_day : list Z; f_hour : list Z; f_min : list Z; f_sec : list Z;
                       f_sign : Z; f_ohour : list Z; f_omin : list Z }.
Definition all_of (p : Z -> bool) (n : nat) (l : list Z) : Prop := List.length l = n /\ Forall (fun c => p c = true) l.
Definition fields_ok (digit : Z -> bool) (x : fields) : Prop :=
  all_of digit 4 (f_year x) /\ all_of digit 2 (f_month x) /\ all_of digit 2 (f_day x) /\ all_of digit 2 (f_hour x) /\
  all_of digit 2 (f_min x) /\ all_of digit 2 (f_sec x) /\ In (f_sign x) (bs "+-Zz") /\
  all_of digit 2 (f_ohour x) /\ all_of digit 2 (f_omin x).
Definition date_text (x : fields) : list Z :=
  bs "D:" ++ f_year x ++ f_month x ++ f_day x ++ f_hour x ++ f_min x ++ f_sec x ++ [f_sign x] ++ f_ohour x ++ bs "'" ++ f_omin x ++ bs "'".
Definition iso_text (x : fields) : list Z :=
  f_year x ++ bs "-" ++ f_month x ++ bs "-" ++ f_day x ++ bs "T" ++ f_hour x ++ bs ":" ++ f_min x ++ bs ":" ++ f_sec x ++
  [if f_sign x =? 90 then 43 else f_sign x] ++ f_ohour x ++ bs ":" ++ f_omin x.

(** C67. *)
Lemma all_cons p n l : all_of p (S n) l -> exists c r, l = c :: r /\ p c = true /\ all_of p n r.
Proof. intros [H1 H2]. destruct l as [|c r]; [discriminate|]. inversion H2; subst. exists c, r. split; auto. split; auto. split; auto. Qed.
Lemma all_nil p l : all_of p 0 l -> l = [].
Proof. intros [H _]. destruct l; [auto|discriminate]. Qed.
Lemma re_d_not_Z c : re_d c = true -> c <> 90.
Proof. intros H ->. vm_compute in H. discriminate. Qed.
Lemma nd_high z : In z nd_runs -> z = 48 \/ 127 <= z.
Proof.
  intros H. assert (forallb (fun z => (z =? 48) || (127 <=? z)) nd_runs = true) as HF by (vm_compute; reflexivity).
  rewrite forallb_forall in HF. specialize (HF z H). lia.
Qed.
Lemma is_digit_re_d c : is_digit c = true -> re_d c = true.
Proof.
  intros H. unfold is_digit in H. unfold re_d, nd_runs. cbn [existsb]. apply orb_true_iff. left.
  rewrite andb_true_iff, !Z.leb_le in *. lia.
Qed.
Lemma sign_in c : re_sign c = true <-> In c (bs "+-Zz").
Proof. unfold re_sign. rewrite !orb_true_iff, !Z.eqb_eq. cbn. intuition. Qed.
Lemma map_Z l : Forall (fun c => re_d c = true) l -> map (fun c => if c =? 90 then 43 else c) l = l.
Proof.
  induction 1 as [|c l H Hl IH]; [reflexivity|]. cbn [map]. rewrite IH. apply re_d_not_Z in H.
  destruct (c =? 90) eqn:E; [apply Z.eqb_eq in E; contradiction|reflexivity].
Qed.

Lemma re_match_digits g : forall n d pat rest, all_of re_d n d ->
  re_match (re_digits g n ++ pat) (d ++ rest) =
  match re_match pat rest with Some (m, r) => Some (map (fun c => (g, c)) d ++ m, r) | None => None end.
Proof.
  induction n as [|n IH]; intros d pat rest H.
  - apply all_nil in H. subst. cbn. destruct (re_match pat rest) as [[m r]|]; reflexivity.
  - apply all_cons in H. destruct H as (c & d' & -> & Hc & Hd). cbn [re_digits repeat app re_match]. rewrite Hc.
    fold (re_digits g n). rewrite IH by auto. destruct (re_match pat rest) as [[m r]|]; reflexivity.
Qed.
Lemma re_match_lit x pat rest :
  re_match ([re_lit x] ++ pat) ([x] ++ rest) = match re_match pat rest with Some (m, r) => Some ((0%nat, x) :: m, r) | None => None end.
Proof. cbn [app re_lit re_match]. now rewrite Z.eqb_refl. Qed.
Lemma group_app a b g : group (a ++ b) g = group a g ++ group b g.
Proof. unfold group. now rewrite filter_app, map_app. Qed.
Lemma group_map d g g' : group (map (fun c => (g, c)) d) g' = if Nat.eqb g g' then d else [].
Proof.
  unfold group. destruct (Nat.eqb g g') eqn:E; induction d as [|c d IH]; cbn [map filter fst]; rewrite ?E; cbn [map snd]; congruence.
Qed.

Definition match_of (x : fields) : list (nat * Z) :=
  [(0%nat, 68); (0%nat, 58)] ++ map (fun c => (1%nat, c)) (f_year x) ++ map (fun c => (2%nat, c)) (f_month x) ++
  map (fun c => (3%nat, c)) (f_day x) ++ map (fun c => (4%nat, c)) (f_hour x) ++ map (fun c => (5%nat, c)) (f_min x) ++
  map (fun c => (6%nat, c)) (f_sec x) ++ map (fun c => (7%nat, c)) [f_sign x] ++ map (fun c => (8%nat, c)) (f_ohour x) ++ [(0%nat, 39)] ++
  map (fun c => (9%nat, c)) (f_omin x) ++ [(0%nat, 39)].
Lemma match_date x tail : fields_ok re_d x -> re_match date_pattern (date_text x ++ tail) = Some (match_of x, tail).
Proof.
  intros (H1 & H2 & H3 & H4 & H5 & H6 & H7 & H8 & H9). apply sign_in in H7.
  unfold date_pattern, date_text. repeat rewrite <- app_assoc.
  change (bs "D:") with ([68] ++ [58]). change ([re_lit 68; re_lit 58]) with ([re_lit 68] ++ [re_lit 58]). repeat rewrite <- app_assoc.
  rewrite !re_match_lit. rewrite (re_match_digits 1 4), (re_match_digits 2 2), (re_match_digits 3 2), (re_match_digits 4 2), (re_match_digits 5 2), (re_match_digits 6 2) by auto.
  assert (forall pat rest, re_match ([(7%nat, re_sign)] ++ pat) ([f_sign x] ++ rest) =
    match re_match pat rest with Some (m, r) => Some ((7%nat, f_sign x) :: m, r) | None => None end) as ->
    by (intros; cbn [app re_match]; now rewrite H7).
  rewrite (re_match_digits 8 2) by auto. change (bs "'") with [39]. rewrite re_match_lit.
  rewrite (re_match_digits 9 2) by auto. change [re_lit 39] with ([re_lit 39] ++ []). rewrite re_match_lit. reflexivity.
Qed.
Lemma re_match_inv : forall pat s m r, re_match pat s = Some (m, r) ->
  Forall2 (fun p q => fst p = fst q /\ snd p (snd q) = true) pat m /\ s = map snd m ++ r.
Proof.
  induction pat as [|[g p] pat IH]; intros s m r H; cbn [re_match] in H.
  - inversion H. split; [constructor|reflexivity].
  - destruct s as [|c s]; [discriminate|]. destruct (p c) eqn:E; [|discriminate]. destruct (re_match pat s) as [[m' r']|] eqn:Em; [|discriminate].
    inversion H; subst. destruct (IH _ _ _ Em) as [A ->]. split; [constructor; auto|reflexivity].
Qed.
Ltac unlist := repeat match goal with
  | H : Forall2 _ (_ :: _) _ |- _ => inversion H; clear H; subst
  | H : Forall2 _ [] _ |- _ => inversion H; clear H; subst
  | H : _ = fst ?q /\ _ = true |- _ => destruct q; destruct H; cbn [fst snd] in *; subst
  end.
Lemma date_match_inv s m r : re_match date_pattern s = Some (m, r) -> exists x, fields_ok re_d x /\ s = date_text x ++ r.
Proof.
  intros H. apply re_match_inv in H. destruct H as [H ->].
  unfold date_pattern, re_digits in H. cbn [repeat app] in H. unfold re_lit in H. unlist. cbn [map snd app].
  repeat match goal with H : (?a =? _) = true |- _ => apply Z.eqb_eq in H; subst a end.
  match goal with |- exists x, _ /\ 68 :: 58 :: ?a :: ?b :: ?c :: ?d :: ?e :: ?f :: ?g :: ?h :: ?i :: ?j :: ?k :: ?l :: ?m :: ?n :: ?o :: ?p :: ?q :: _ :: ?t :: ?u :: _ = _ =>
    exists (mkF [a; b; c; d] [e; f] [g; h] [i; j] [k; l] [m; n] o [p; q] [t; u]) end.
  split; [|reflexivity]. unfold fields_ok, all_of. cbn [f_year f_month f_day f_hour f_min f_sec f_sign f_ohour f_omin List.length].
  repeat split; try (repeat constructor; assumption). now apply sign_in.
Qed.

Section Dates.
  Context {DT : Type}.
  Variable parse_date : list Z -> res DT.
  Notation from_date := (from_pdf_datetime parse_date).

  Lemma from_date_text x tail : fields_ok re_d x -> tail = [] \/ tail = [10] ->
    from_date (date_text x ++ tail) = parse_date (iso_text x ++ tail).
  Proof.
    intros Hx Ht. unfold from_pdf_datetime. rewrite (match_date x tail Hx).
    replace (re_end tail) with true by (destruct Ht; subst; reflexivity).
    f_equal. unfold match_of. rewrite !group_app, !group_map. cbn [group Nat.eqb filter fst map snd app].
    destruct Hx as ([_ H1] & [_ H2] & [_ H3] & [_ H4] & [_ H5] & [_ H6] & _ & [_ H8] & [_ H9]).
    rewrite !app_nil_r. repeat (rewrite ?map_app, ?map_cons, ?(map_Z (f_year x)), ?(map_Z (f_month x)), ?(map_Z (f_day x)),
      ?(map_Z (f_hour x)), ?(map_Z (f_min x)), ?(map_Z (f_sec x)), ?(map_Z (f_ohour x)), ?(map_Z (f_omin x)) by assumption).
    change (45 =? 90) with false. change (58 =? 90) with false. change (84 =? 90) with false. cbv iota.
    replace (map (fun c : Z => if c =? 90 then 43 else c) tail) with tail by (destruct Ht; subst; reflexivity).
    unfold iso_text. change (bs "-") with [45]. change (bs ":") with [58]. change (bs "T") with [84].
    repeat (rewrite <- app_assoc; cbn [app]). reflexivity.
  Qed.
  Lemma digit_fields x : fields_ok is_digit x -> fields_ok re_d x.
  Proof.
    unfold fields_ok, all_of. intros H. repeat match goal with H : _ /\ _ |- _ => destruct H end.
    repeat split; auto; (eapply Forall_impl; [|eassumption]); intros; now apply is_digit_re_d.
  Qed.
  (** A date in the PDF form is handed to the date parser as an ISO text with the same fields, Z written +;
      the outcome is the parser's. *)
  Theorem C67_fields_kept : forall x, fields_ok is_digit x -> from_date (date_text x) = parse_date (iso_text x).
  Proof.
    intros x H. rewrite <- (app_nil_r (date_text x)), <- (app_nil_r (iso_text x)).
    apply from_date_text; auto using digit_fields.
  Qed.
  (** Every other text is refused with ValueError (whatever the date parser would do) - where "digit" means any
      Unicode decimal digit, and a line feed may follow the text. *)
  Theorem C67_exactly : forall s,
    (exists x tail, fields_ok re_d x /\ (tail = [] \/ tail = [10]) /\ s = date_text x ++ tail /\ from_date s = parse_date (iso_text x ++ tail)) \/
    ((forall x tail, fields_ok re_d x -> tail = [] \/ tail = [10] -> s <> date_text x ++ tail) /\ from_date s = Err ValueErr).
  Proof.
    intros s. destruct (re_match date_pattern s) as [[m r]|] eqn:E.
    - destruct (date_match_inv s m r E) as (x & Hx & Es). destruct (re_end r) eqn:Er.
      + left. assert (r = [] \/ r = [10]) as Hr.
        { destruct r as [|c [|? ?]]; [auto| |discriminate]. cbn in Er. apply Z.eqb_eq in Er. subst. auto. }
        exists x, r. repeat split; auto; try apply Hx. rewrite Es. now apply from_date_text.
      + right. split; [|unfold from_pdf_datetime; now rewrite E, Er].
        intros x' tail Hx' Ht E'. rewrite E', (match_date x' tail Hx') in E. inversion E; subst r. destruct Ht; subst; discriminate.
    - right. split; [|unfold from_pdf_datetime; now rewrite E].
      intros x' tail Hx' Ht E'. rewrite E', (match_date x' tail Hx') in E. discriminate.
  Qed.
  (** Texts of only ASCII characters and no line feed: exactly D:YYYYMMDDHHmmSSOHH'mm'. *)
  Theorem C67_ascii : forall s, Forall (fun c => 32 <= c < 127) s ->
    (exists x, fields_ok is_digit x /\ s = date_text x /\ from_date s = parse_date (iso_text x)) \/
    ((forall x, fields_ok is_digit x -> s <> date_text x) /\ from_date s = Err ValueErr).
  Proof.
    intros s Hs.
    assert (forall l, Forall (fun c => 32 <= c < 127) l -> Forall (fun c => re_d c = true) l -> Forall (fun c => is_digit c = true) l) as HD.
    { intros l H1 H2. induction H2 as [|c l Hc Hl IH]; constructor; inversion H1; subst; auto.
      unfold re_d in Hc. apply existsb_exists in Hc. destruct Hc as (z & Hz & Hc). apply nd_high in Hz. unfold is_digit. lia. }
    destruct (C67_exactly s) as [(x & tail & Hx & Ht & Es & Er)|[HN Er]].
    - left. assert (tail = []) as ->.
      { destruct Ht as [-> | ->]; auto. subst s. apply Forall_app in Hs. destruct Hs as [_ Hs]. inversion Hs. lia. }
      rewrite app_nil_r in *. exists x. split; [|auto]. subst s. unfold date_text in Hs. repeat (rewrite Forall_app in Hs).
      unfold fields_ok, all_of in *. repeat match goal with H : _ /\ _ |- _ => destruct H end. repeat split; auto.
    - right. split; auto. intros x Hx E. apply (HN x []); auto using digit_fields. now rewrite app_nil_r.
  Qed.
End Dates.
(** Neither restriction can be dropped: Arabic-Indic digits and a final line feed are accepted. *)
Theorem C67_strict_refuted : exists s : list Z,
  (forall x, fields_ok is_digit x -> s <> date_text x) /\
  from_pdf_datetime (fun t => Ok t) s = Ok (bs "2021-02-12T01:42:04+00:00" ++ [10]).
Proof.
  exists (bs "D:20210212014204Z00'00'" ++ [10]). split; [|vm_compute; reflexivity].
  intros x Hx E. unfold fields_ok in Hx. destruct Hx as (H1 & H2 & H3 & H4 & H5 & H6 & H7 & H8 & H9).
  assert (forall n l, all_of is_digit n l -> List.length l = n) as HL by (intros n l [L _]; exact L).
  apply (f_equal (@List.length Z)) in E. unfold date_text in E. rewrite !app_length in E.
  repeat match goal with H : all_of _ _ _ |- _ => apply HL in H; rewrite H in E; clear H end. discriminate.
Qed.
Example C67_ex : exists x, fields_ok is_digit x /\ date_text x = bs "D:20210212014204-01'00'" /\ iso_text x = bs "2021-02-12T01:42:04-01:00".
Proof.
  exists (mkF (bs "2021") (bs "02") (bs "12") (bs "01") (bs "42") (bs "04") 45 (bs "01") (bs "00")).
  split; [|split; reflexivity]. unfold fields_ok, all_of. cbn. repeat split; auto; repeat constructor.
Qed.

(** C66. *)
Lemma div64 c : c = 64 * (c / 64) + c mod 64 /\ 0 <= c mod 64 < 64.
Proof. split; [apply Z.div_mod; lia|apply Z.mod_pos_bound; lia]. Qed.
Lemma utf8_decode_encode : forall t, Forall scalar t -> utf8_decode (utf8_text t) = Some t.
Proof.
  unfold utf8_text. induction 1 as [|c t Hc Ht IH]; [reflexivity|]. cbn [map List.concat]. unfold utf8, scalar in *.
  pose proof (div64 c) as [A1 A2]. pose proof (div64 (c / 64)) as [B1 B2]. pose proof (div64 (c / 64 / 64)) as [C1 C2].
  rewrite !Z.div_div in * by lia. change (64 * 64) with 4096 in *. change (4096 * 64) with 262144 in *.
  generalize dependent (c / 64). generalize dependent (c / 4096). generalize dependent (c / 262144).
  generalize dependent (c mod 64). intros m0 A2 q3 q2 C1 C2 q1. intros.
  generalize dependent (q1 mod 64). generalize dependent (q2 mod 64). intros.
  destruct (c <? 128) eqn:E1; [|destruct (c <? 2048) eqn:E2; [|destruct (c <? 65536) eqn:E3]]; cbn [app utf8_decode].
  - replace ((0 <=? c) && (c <=? 127)) with true by lia. now rewrite IH.
  - replace ((0 <=? 192 + q1) && (192 + q1 <=? 127)) with false by lia.
    replace ((194 <=? 192 + q1) && (192 + q1 <=? 223)) with true by lia.
    unfold cont. replace ((128 <=? 128 + m0) && (128 + m0 <=? 191)) with true by lia. rewrite IH. do 2 f_equal. lia.
  - replace ((0 <=? 224 + q2) && (224 + q2 <=? 127)) with false by lia.
    replace ((194 <=? 224 + q2) && (224 + q2 <=? 223)) with false by lia.
    replace ((224 <=? 224 + q2) && (224 + q2 <=? 239)) with true by lia.
    unfold cont. match goal with |- (if ?b then _ else _) = _ => replace b with true by lia end. rewrite IH. do 2 f_equal. lia.
  - replace ((0 <=? 240 + q3) && (240 + q3 <=? 127)) with false by lia.
    replace ((194 <=? 240 + q3) && (240 + q3 <=? 223)) with false by lia.
    replace ((224 <=? 240 + q3) && (240 + q3 <=? 239)) with false by lia.
    unfold cont. match goal with |- (if ?b then _ else _) = _ => replace b with true by lia end. rewrite IH. do 2 f_equal. lia.
Qed.
Lemma qr a b m : 0 < m -> 0 <= b < m -> (a * m + b) / m = a /\ (a * m + b) mod m = b.
Proof.
  intros Hm Hb. split.
  - symmetry. apply (Z.div_unique_pos _ m a b); lia.
  - symmetry. apply (Z.mod_unique_pos _ m a b); lia.
Qed.
Lemma utf8_2 a b : 2 <= a <= 31 -> 0 <= b < 64 -> utf8 (a * 64 + b) = [192 + a; 128 + b].
Proof.
  intros Ha Hb. unfold utf8. replace (a * 64 + b <? 128) with false by lia. replace (a * 64 + b <? 2048) with true by lia.
  destruct (qr a b 64) as [-> ->]; lia || reflexivity.
Qed.
Lemma utf8_3 a b c : 0 <= a <= 15 -> 0 <= b < 64 -> 0 <= c < 64 -> 2048 <= a * 4096 + b * 64 + c ->
  utf8 (a * 4096 + b * 64 + c) = [224 + a; 128 + b; 128 + c].
Proof.
  intros Ha Hb Hc H. unfold utf8. replace (_ <? 128) with false by lia. replace (_ <? 2048) with false by lia. replace (_ <? 65536) with true by lia.
  replace (a * 4096 + b * 64 + c) with (a * 4096 + (b * 64 + c)) by lia. destruct (qr a (b * 64 + c) 4096) as [-> _]; [lia|lia|].
  replace (a * 4096 + (b * 64 + c)) with ((a * 64 + b) * 64 + c) by lia. destruct (qr (a * 64 + b) c 64) as [-> ->]; [lia|lia|].
  destruct (qr a b 64) as [_ ->]; [lia|lia|]. reflexivity.
Qed.
Lemma utf8_4 a b c d : 0 <= a -> 0 <= b < 64 -> 0 <= c < 64 -> 0 <= d < 64 -> 65536 <= a * 262144 + b * 4096 + c * 64 + d ->
  utf8 (a * 262144 + b * 4096 + c * 64 + d) = [240 + a; 128 + b; 128 + c; 128 + d].
Proof.
  intros Ha Hb Hc Hd H. unfold utf8. replace (_ <? 128) with false by lia. replace (_ <? 2048) with false by lia. replace (_ <? 65536) with false by lia.
  replace (a * 262144 + b * 4096 + c * 64 + d) with (a * 262144 + (b * 4096 + c * 64 + d)) by lia. destruct (qr a (b * 4096 + c * 64 + d) 262144) as [-> _]; [lia|lia|].
  replace (a * 262144 + (b * 4096 + c * 64 + d)) with ((a * 64 + b) * 4096 + (c * 64 + d)) by lia. destruct (qr (a * 64 + b) (c * 64 + d) 4096) as [-> _]; [lia|lia|].
  replace ((a * 64 + b) * 4096 + (c * 64 + d)) with ((a * 4096 + b * 64 + c) * 64 + d) by lia. destruct (qr (a * 4096 + b * 64 + c) d 64) as [-> ->]; [lia|lia|].
  destruct (qr a b 64) as [_ ->]; [lia|lia|]. replace (a * 4096 + b * 64 + c) with ((a * 64 + b) * 64 + c) by lia. destruct (qr (a * 64 + b) c 64) as [_ ->]; [lia|lia|]. reflexivity.
Qed.
Lemma utf8_decode_ok : forall n l t, (List.length l < n)%nat -> utf8_decode l = Some t -> Forall scalar t /\ l = utf8_text t.
Proof.
  induction n as [|n IH]; intros l t Hl H; [lia|]. destruct l as [|b0 r0]; [inversion H; split; [constructor|reflexivity]|].
  cbn [utf8_decode] in H. cbn [List.length] in Hl.
  assert (forall c r u, (List.length r < n)%nat -> match utf8_decode r with Some t => Some (c :: t) | None => None end = Some u ->
    scalar c -> Forall scalar u /\ exists t', u = c :: t' /\ r = utf8_text t') as HM.
  { intros c r u Hr E Hc. destruct (utf8_decode r) as [t'|] eqn:Er; [|discriminate]. inversion E; subst. destruct (IH r t' Hr Er) as [A B].
    split; [constructor; auto|]. exists t'. auto. }
  destruct ((0 <=? b0) && (b0 <=? 127)) eqn:E0.
  { destruct (HM _ r0 t ltac:(lia) H) as (A & t' & -> & ->); [unfold scalar; lia|]. split; auto. unfold utf8_text. cbn [map List.concat].
    assert (utf8 b0 = [b0]) as -> by (unfold utf8; replace (b0 <? 128) with true by lia; reflexivity). reflexivity. }
  destruct r0 as [|b1 r1]; [discriminate|]. cbn [List.length] in Hl.
  destruct ((194 <=? b0) && (b0 <=? 223)) eqn:E1.
  { destruct (cont b1) eqn:C1; [|discriminate]. unfold cont in C1.
    destruct (HM _ r1 t ltac:(lia) H) as (A & t' & -> & ->); [unfold scalar; lia|]. split; auto. unfold utf8_text. cbn [map List.concat].
    rewrite utf8_2 by lia. cbn [app]. do 1 (f_equal; [lia|]). f_equal; lia. }
  destruct r1 as [|b2 r2]; [discriminate|]. cbn [List.length] in Hl.
  destruct ((224 <=? b0) && (b0 <=? 239)) eqn:E2.
  { cbv zeta in H. destruct (cont b1 && cont b2 && _ && _) eqn:C1; [|discriminate]. unfold cont in C1.
    destruct (HM _ r2 t ltac:(lia) H) as (A & t' & -> & ->); [unfold scalar; lia|]. split; auto. unfold utf8_text. cbn [map List.concat].
    rewrite utf8_3 by lia. cbn [app]. do 2 (f_equal; [lia|]). f_equal; lia. }
  destruct r2 as [|b3 r3]; [discriminate|]. cbn [List.length] in Hl. cbv zeta in H.
  destruct ((240 <=? b0) && (b0 <=? 244) && _ && _ && _ && _ && _) eqn:C1; [|discriminate]. unfold cont in C1.
  destruct (HM _ r3 t ltac:(lia) H) as (A & t' & -> & ->); [unfold scalar; lia|]. split; auto. unfold utf8_text. cbn [map List.concat].
  rewrite utf8_4 by lia. cbn [app]. do 3 (f_equal; [lia|]). f_equal; lia.
Qed.
Lemma utf8_iff l t : utf8_decode l = Some t <-> Forall scalar t /\ l = utf8_text t.
Proof.
  split; [apply (utf8_decode_ok (S (List.length l))); auto with arith|]. intros [H ->]. now apply utf8_decode_encode.
Qed.

Section Meta.
  Context {DT : Type}.
  Variable parse_date : list Z -> res DT.
  Notation metadata := (metadata parse_date).
  Notation heap := (heap DT).
  Notation mval := (mval DT).

  Definition is_date_key (k : list Z) : Prop := k = bs "CreationDate" \/ k = bs "ModDate".
  (** [Reads k v v']: under the key [k], the value [v] is presented as [v']: byte strings in UTF-8 as text, dates
      that can be read as dates; everything else as it is. *)
  Inductive Reads (k : list Z) : mval -> mval -> Prop :=
  | Rd_date t d : Forall scalar t -> is_date_key k -> from_pdf_datetime parse_date t = Ok d -> Reads k (MObj (OStr (utf8_text t))) (MDate d)
  | Rd_not_date t e : Forall scalar t -> is_date_key k -> from_pdf_datetime parse_date t = Err e -> Reads k (MObj (OStr (utf8_text t))) (MText t)
  | Rd_text t : Forall scalar t -> ~ is_date_key k -> Reads k (MObj (OStr (utf8_text t))) (MText t)
  | Rd_not_utf8 s : (forall t, Forall scalar t -> s <> utf8_text t) -> Reads k (MObj (OStr s)) (MObj (OStr s))
  | Rd_other v : (forall s, v <> MObj (OStr s)) -> Reads k v v.

  Lemma date_key_iff k : date_key k = true <-> is_date_key k.
  Proof. unfold date_key, is_date_key. rewrite orb_true_iff, !eqlZ_eq. reflexivity. Qed.
  Lemma entry_reads k v v' oe : meta_entry parse_date k v = (v', oe) -> Reads k v v'.
  Proof.
    unfold meta_entry. intros H. destruct v as [o|t|d]; try (inversion H; subst; apply Rd_other; discriminate).
    destruct o; try (inversion H; subst; apply Rd_other; discriminate).
    destruct (utf8_decode s) as [t|] eqn:E.
    - apply utf8_iff in E. destruct E as [Ht ->]. destruct (date_key k) eqn:Ek.
      + apply date_key_iff in Ek. destruct (from_pdf_datetime parse_date t) as [d|e] eqn:Ed; inversion H; subst; econstructor; eauto.
      + inversion H; subst. apply Rd_text; auto. intros X. apply date_key_iff in X. congruence.
    - inversion H; subst. apply Rd_not_utf8. intros t Ht ->. assert (utf8_decode (utf8_text t) = Some t) by now apply utf8_decode_encode. congruence.
  Qed.
  Lemma pass_reads : forall d d', meta_pass parse_date d = (d', None) ->
    Forall2 (fun kv kv' => fst kv' = fst kv /\ Reads (fst kv) (snd kv) (snd kv')) d d'.
  Proof.
    induction d as [|[k v] d IH]; intros d' H; cbn [meta_pass] in H; [inversion H; constructor|].
    destruct (meta_entry parse_date k v) as [v' [e|]] eqn:E; [discriminate|]. destruct (meta_pass parse_date d) as [r' oe] eqn:Ep.
    inversion H; subst. constructor; [|apply IH; auto]. split; auto. cbn [fst snd]. eapply entry_reads; eauto.
  Qed.
  Lemma entry_fixed k v v' oe : meta_entry parse_date k v = (v', oe) -> meta_entry parse_date k v' = (v', None).
  Proof.
    unfold meta_entry. intros H. destruct v as [o|t|d]; [|inversion H; reflexivity|inversion H; reflexivity].
    destruct o; try (inversion H; reflexivity).
    destruct (utf8_decode s) as [t|] eqn:E; [|inversion H; now rewrite E].
    destruct (date_key k); [|inversion H; reflexivity]. destruct (from_pdf_datetime parse_date t) as [d|e]; inversion H; reflexivity.
  Qed.
  Lemma pass_fixed : forall d d', meta_pass parse_date d = (d', None) -> meta_pass parse_date d' = (d', None).
  Proof.
    induction d as [|[k v] d IH]; intros d' H; cbn [meta_pass] in H; [inversion H; reflexivity|].
    destruct (meta_entry parse_date k v) as [v' [e|]] eqn:E; [discriminate|]. destruct (meta_pass parse_date d) as [r' oe] eqn:Ep.
    inversion H; subst. cbn [meta_pass]. rewrite (entry_fixed _ _ _ _ E). now rewrite (IH r' eq_refl).
  Qed.

  (** C66.  What is returned: the entries of the information dictionary, same keys in the same order. *)
  Theorem C66_entries : forall n g (h : heap) d r h',
    h n g = Ok (CDict d) -> metadata (ORef n g) h = (Ok (Some r), h') ->
    Forall2 (fun kv kv' => fst kv' = fst kv /\ Reads (fst kv) (snd kv) (snd kv')) d r.
  Proof.
    intros n g h d r h' E H. unfold M_Meta.metadata in H. cbn [truthy] in H. rewrite E in H.
    destruct (meta_pass parse_date d) as [d' [e|]] eqn:Ep; inversion H; subst. now apply pass_reads.
  Qed.
  (** It does not fail on a dictionary as long as the date parser raises nothing but ValueError, TypeError and
      UnicodeDecodeError. *)
  Theorem C66_succeeds : forall n g (h : heap) d,
    (forall t e, parse_date t = Err e -> e = ValueErr \/ e = TypeErr \/ e = UnicodeErr) ->
    h n g = Ok (CDict d) -> exists r h', metadata (ORef n g) h = (Ok (Some r), h').
  Proof.
    intros n g h d HP E. unfold M_Meta.metadata. cbn [truthy]. rewrite E.
    assert (exists d', meta_pass parse_date d = (d', None)) as [d' ->]; [|eauto].
    clear E. induction d as [|[k v] d [d' IH]]; [now exists []|]. cbn [meta_pass].
    assert (exists v', meta_entry parse_date k v = (v', None)) as [v' ->]; [|rewrite IH; eauto].
    unfold meta_entry. destruct v as [o|t|dd]; eauto. destruct o; eauto. destruct (utf8_decode s) as [t|]; eauto.
    destruct (date_key k); eauto. destruct (from_pdf_datetime parse_date t) as [dd|e] eqn:Ed; eauto.
    assert (meta_caught e = true) as ->; [|eauto].
    unfold from_pdf_datetime in Ed. destruct (re_match date_pattern t) as [[m rest]|]; [|inversion Ed; reflexivity].
    destruct (re_end rest); [|inversion Ed; reflexivity]. apply HP in Ed. destruct Ed as [->|[-> | ->]]; reflexivity.
  Qed.
  (** Reading it again, any number of times, gives the same and changes nothing further. *)
  Fixpoint again (n : nat) (info : obj) (h : heap) : res (option (list (list Z * mval))) * heap :=
    match n with O => metadata info h | S n' => again n' info (snd (metadata info h)) end.
  Theorem C66_idempotent : forall info (h : heap) r h', metadata info h = (Ok r, h') ->
    forall n, exists h'', again n info h = (Ok r, h'') /\ forall a b, h'' a b = h' a b.
  Proof.
    intros info h r h' H n. revert h h' H. induction n as [|n IH]; intros h h' H; cbn [again]; [exists h'; auto|].
    rewrite H. cbn [snd].
    assert (exists h2, metadata info h' = (Ok r, h2) /\ forall a b, h2 a b = h' a b) as (h2 & E2 & HE).
    { unfold M_Meta.metadata in *. destruct (truthy info); [|inversion H; subst; eauto].
      destruct info; try discriminate H. destruct (h num gen) as [[d|o]|e] eqn:Eh; [| destruct o; discriminate H| discriminate H].
      destruct (meta_pass parse_date d) as [d' [e|]] eqn:Ep; inversion H; subst.
      unfold hset at 1. rewrite !Z.eqb_refl. cbn [andb]. rewrite (pass_fixed _ _ Ep). eexists. split; [reflexivity|].
      intros a b. unfold hset. destruct ((a =? num) && (b =? gen)); reflexivity. }
    destruct (IH _ _ E2) as (h3 & E3 & HE3). exists h3. split; auto. intros. now rewrite HE3, HE.
  Qed.
  (** Nothing but the information dictionary is touched; that one is changed for every other reader: afterwards
      locating the object gives the converted entries. *)
  Theorem C66_changes_in_place : forall info (h : heap) r h', metadata info h = (Ok r, h') ->
    (forall n g, info <> ORef n g -> h' n g = h n g) /\
    (forall n g, info = ORef n g -> exists d, r = Some d /\ h' n g = Ok (CDict d)).
  Proof.
    intros info h r h' H. unfold M_Meta.metadata in H. destruct (truthy info) eqn:Et.
    - destruct info; try discriminate H. destruct (h num gen) as [[d|o]|e] eqn:Eh; [| destruct o; discriminate H| discriminate H].
      destruct (meta_pass parse_date d) as [d' [e|]] eqn:Ep; inversion H; subst. split.
      + intros n g Hn. unfold hset. destruct ((n =? num) && (g =? gen)) eqn:E; auto. rewrite andb_true_iff, !Z.eqb_eq in E. destruct E. subst. contradiction.
      + intros n g E. inversion E; subst. exists d'. split; auto. unfold hset. now rewrite !Z.eqb_refl.
    - inversion H; subst. split; auto. intros n g ->. discriminate.
  Qed.
  (** When it does fail, it is because the date parser raised something else for a date: the entries before are
      converted, that date is left as text, and the entries after it are as they were. *)
  Theorem C66_failure : forall n g (h : heap) d e h', h n g = Ok (CDict d) -> metadata (ORef n g) h = (Err e, h') ->
    e <> ValueErr /\ e <> TypeErr /\ e <> UnicodeErr /\
    exists before k t after before', d = before ++ (k, MObj (OStr (utf8_text t))) :: after /\ is_date_key k /\ Forall scalar t /\
      from_pdf_datetime parse_date t = Err e /\
      Forall2 (fun kv kv' => fst kv' = fst kv /\ Reads (fst kv) (snd kv) (snd kv')) before before' /\
      h' n g = Ok (CDict (before' ++ (k, MText t) :: after)).
  Proof.
    intros n g h d e h' E H. unfold M_Meta.metadata in H. cbn [truthy] in H. rewrite E in H.
    destruct (meta_pass parse_date d) as [d' [e'|]] eqn:Ep; [|discriminate]. inversion H; subst e' h'. clear H E.
    assert (e <> ValueErr /\ e <> TypeErr /\ e <> UnicodeErr /\
      exists before k t after before', d = before ++ (k, MObj (OStr (utf8_text t))) :: after /\ is_date_key k /\ Forall scalar t /\
        from_pdf_datetime parse_date t = Err e /\
        Forall2 (fun kv kv' => fst kv' = fst kv /\ Reads (fst kv) (snd kv) (snd kv')) before before' /\ d' = before' ++ (k, MText t) :: after) as HX.
    { revert d' Ep. induction d as [|[k v] d IH]; intros d' Ep; cbn [meta_pass] in Ep; [discriminate|].
      destruct (meta_entry parse_date k v) as [v' [e'|]] eqn:Ee.
      - inversion Ep; subst e' d'. unfold meta_entry in Ee. destruct v as [ob|?|?]; try discriminate. destruct ob; try discriminate.
        destruct (utf8_decode s) as [t|] eqn:Eu; [|discriminate]. destruct (date_key k) eqn:Ek; [|discriminate].
        destruct (from_pdf_datetime parse_date t) as [dd|ee] eqn:Ed; [discriminate|]. destruct (meta_caught ee) eqn:Ec; inversion Ee; subst v' ee.
        split; [intros ->; discriminate|]. split; [intros ->; discriminate|]. split; [intros ->; discriminate|].
        apply utf8_iff in Eu. destruct Eu as [Ht ->]. apply date_key_iff in Ek. exists [], k, t, d, []. repeat split; auto.
      - destruct (meta_pass parse_date d) as [r' oe] eqn:Ep2. inversion Ep; subst oe d'. destruct (IH r' eq_refl) as (N1 & N2 & N3 & before & k' & t & after & before' & -> & Hk & Ht & Hd & HF & ->).
        split; [exact N1|]. split; [exact N2|]. split; [exact N3|]. exists ((k, v) :: before), k', t, after, ((k, v') :: before'). repeat split; auto.
        constructor; auto. split; auto. cbn [fst snd]. eapply entry_reads; eauto. }
    destruct HX as (N1 & N2 & N3 & before & k & t & after & before' & A & B & C & F & G & I). split; [exact N1|]. split; [exact N2|]. split; [exact N3|].
    exists before, k, t, after, before'. repeat split; auto. unfold hset. rewrite !Z.eqb_refl. cbn [andb]. now rewrite I.
  Qed.
  (** No information dictionary: None. *)
  Theorem C66_absent : forall h : heap, metadata ONull h = (Ok None, h).
  Proof. reflexivity. Qed.
End Meta.
Example C66_ex : exists r h', metadata (DT := list Z) (fun t => Ok t) (ORef 3 0)
    (fun _ _ => Ok (CDict [(bs "Title", MObj (OStr [195; 169])); (bs "ModDate", MObj (OStr (bs "D:20210212014204Z00'00'")));
                           (bs "Author", MObj (OStr [254; 255; 0; 65])); (bs "CreationDate", MObj (OStr (bs "yesterday")))])) = (Ok (Some r), h') /\
  r = [(bs "Title", MText [233]); (bs "ModDate", MDate (bs "2021-02-12T01:42:04+00:00")); (bs "Author", MObj (OStr [254; 255; 0; 65]));
       (bs "CreationDate", MText (bs "yesterday"))].
Proof. eexists _, _. split; [vm_compute; reflexivity|reflexivity]. Qed.

Print Assumptions C66_entries.
Print Assumptions C66_succeeds.
Print Assumptions C66_idempotent.
Print Assumptions C66_changes_in_place.
(** dateutil may raise OverflowError, say: not caught (here a stand-in exception). *)
Example C66_failure_ex : exists h', metadata (DT := list Z) (fun t => Err OSErr) (ORef 3 0)
    (fun _ _ => Ok (CDict [(bs "Title", MObj (OStr [195; 169])); (bs "ModDate", MObj (OStr (bs "D:20210212014204Z00'00'"))); (bs "Author", MObj (OStr (bs "x")))])) = (Err OSErr, h') /\
  h' 3 0 = Ok (CDict [(bs "Title", MText [233]); (bs "ModDate", MText (bs "D:20210212014204Z00'00'")); (bs "Author", MObj (OStr (bs "x")))]).
Proof. eexists. split; [vm_compute; reflexivity|reflexivity]. Qed.
Print Assumptions C66_failure.
Print Assumptions C66_absent.
Print Assumptions C67_fields_kept.
Print Assumptions C67_exactly.
Print Assumptions C67_ascii.
Print Assumptions C67_strict_refuted.
