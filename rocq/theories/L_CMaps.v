(** The predefined CMap files: a checked lexer for the subset of PostScript they use turns each of them into
    items, so that C55_sections says what the model's parser makes of it. *)
From Coq Require Import String.
From Verif Require Import Prelude M_Prog M_Parser S_Syntax M_Objects M_CMap S_CMap L_CMap P_CMap M_CMapParser S_CMapFile P_CMapFile
  D_PSNames D_CMaps M_Decoder.
Local Open Scope Z_scope.

(** *** Separators *)
Fixpoint skip (comment : bool) (s : list Z) : option (list Z) :=
  match s with
  | [] => if comment then None else Some []
  | c :: r => if comment then (if c =? 10 then skip false r else if c =? 13 then None else skip true r)
              else if is_ws c then skip false r
              else if c =? 37 then skip true r else Some s
  end.
Lemma skip_ok : forall s c r, skip c s = Some r ->
  nosep r /\ (c = false -> exists l, s = l ++ r /\ Sep l) /\
  (c = true -> exists b l, s = b ++ 10 :: l ++ r /\ Sep l /\ Forall (fun c => c <> 13 /\ c <> 10) b).
Proof.
  induction s as [|x s IH]; intros c r H; cbn [skip] in H.
  - destruct c; [discriminate|]. injection H as <-. split; [reflexivity|]. split; [|discriminate]. exists []. split; [reflexivity|constructor].
  - destruct c.
    + destruct (Z.eqb_spec x 10) as [->|N].
      * destruct (IH _ _ H) as (H1 & H2 & _). destruct (H2 eq_refl) as (l & -> & Hl). split; [exact H1|]. split; [discriminate|].
        intros _. exists [], l. repeat split; auto.
      * destruct (Z.eqb_spec x 13) as [->|N2]; [discriminate|].
        destruct (IH _ _ H) as (H1 & _ & H2). destruct (H2 eq_refl) as (b & l & -> & Hl & Hb). split; [exact H1|]. split; [discriminate|].
        intros _. exists (x :: b), l. repeat split; auto.
    + destruct (is_ws x) eqn:Ew.
      * destruct (IH _ _ H) as (H1 & H2 & _). destruct (H2 eq_refl) as (l & -> & Hl). split; [exact H1|]. split; [|discriminate].
        intros _. exists (x :: l). split; [reflexivity|]. constructor; auto.
      * destruct (Z.eqb_spec x 37) as [->|N].
        -- destruct (IH _ _ H) as (H1 & _ & H2). destruct (H2 eq_refl) as (b & l & -> & Hl & Hb). split; [exact H1|]. split; [|discriminate].
           intros _. exists (37 :: b ++ [10] ++ l). split; [cbn [app]; rewrite <- app_assoc; reflexivity|].
           apply Sep_comment; auto. left. reflexivity.
        -- injection H as <-. split; [unfold nosep; cbn [head_is]; rewrite Ew; now apply Z.eqb_neq in N as ->|]. split; [|discriminate].
           intros _. exists []. split; [reflexivity|constructor].
Qed.

(** *** Tokens *)
Fixpoint span (p : Z -> bool) (s : list Z) : list Z * list Z :=
  match s with [] => ([], []) | c :: r => if p c then let '(a, b) := span p r in (c :: a, b) else ([], s) end.
Lemma span_ok p : forall s a b, span p s = (a, b) -> s = a ++ b /\ Forall (fun c => p c = true) a /\ head_is p b = false.
Proof.
  induction s as [|c r IH]; intros a b H; cbn [span] in H.
  - injection H as <- <-. repeat split. constructor.
  - destruct (p c) eqn:E.
    + destruct (span p r) as [a' b'] eqn:Es. injection H as <- <-. destruct (IH _ _ eq_refl) as (-> & H1 & H2). repeat split; auto.
    + injection H as <- <-. repeat split; [constructor|]. cbn [head_is]. exact E.
Qed.
Definition regb (c : Z) : bool := negb (is_ws c || is_delim c).
Definition hexb (c : Z) : bool := ((48 <=? c) && (c <=? 57)) || ((65 <=? c) && (c <=? 70)) || ((97 <=? c) && (c <=? 102)).
Lemma hexb_val c : hexb c = true -> exists h, hexval c = Some h.
Proof.
  unfold hexb, hexval. intros H. destruct ((48 <=? c) && (c <=? 57)); [eauto|]. destruct ((65 <=? c) && (c <=? 70)); [eauto|].
  destruct ((97 <=? c) && (c <=? 102)); [eauto|discriminate].
Qed.
Definition five (s : list Z) : bool := match s with _ :: _ :: _ :: _ :: _ :: _ => true | _ => false end.
(** An array of unsigned integers. *)
Fixpoint ints_to (n : nat) (s : list Z) : option (list obj * list Z) :=
  match n with
  | O => None
  | S n' =>
      match s with
      | [] => None
      | c :: r =>
          if c =? 93 then Some ([], r)
          else let '(ds, r1) := span is_digit s in
               match ds with
               | [] => None
               | _ => if head_is (fun c => c =? 46) r1 then None else
                      match skip false r1 with
                      | None => None
                      | Some r2 => match ints_to n' r2 with Some (l, r3) => Some (OInt (dvalue ds) :: l, r3) | None => None end
                      end
               end
      end
  end.
Lemma int_ser ds r : ds <> [] -> Forall (fun c => is_digit c = true) ds -> head_is is_digit r = false ->
  head_is (fun c => c =? 46) r = false -> Ser FNoRef (OInt (dvalue ds)) ds r.
Proof.
  intros H1 H2 H3 H4. apply Ser_int; [apply IT_plain; auto| |discriminate].
  unfold int_end. destruct r as [|x r]; [reflexivity|]. cbn [head_is] in *. now rewrite H3, H4.
Qed.
Lemma ints_to_ok : forall n s l r, ints_to n s = Some (l, r) -> exists t, s = t ++ 93 :: r /\ SerElems FNoRef l t (93 :: r).
Proof.
  induction n as [|n IH]; intros s l r H; cbn [ints_to] in H; [discriminate|].
  destruct s as [|c s']; [discriminate|]. destruct (Z.eqb_spec c 93) as [->|N].
  - injection H as <- <-. exists []. split; [reflexivity|constructor].
  - destruct (span is_digit (c :: s')) as [ds r1] eqn:Es. destruct (span_ok _ _ _ _ Es) as (E1 & E2 & E3).
    destruct ds as [|d ds']; [discriminate|]. remember (d :: ds') as ds eqn:Eds.
    destruct (head_is (fun c => c =? 46) r1) eqn:Ep; [discriminate|].
    destruct (skip false r1) as [r2|] eqn:Ek; [|discriminate].
    destruct (skip_ok _ _ _ Ek) as (_ & Hk & _). destruct (Hk eq_refl) as (sp' & -> & Hsp).
    destruct (ints_to n r2) as [[l' r3]|] eqn:Er; [|discriminate]. injection H as <- <-.
    destruct (IH _ _ _ Er) as (t & -> & Ht). exists (ds ++ sp' ++ t). split; [rewrite E1, <- !app_assoc; reflexivity|].
    apply SE_cons; auto. apply int_ser; auto. subst ds. discriminate.
Qed.

(** One item at the start of the text, and the rest. *)
Definition token_of (n : nat) (s : list Z) : option (item * list Z) :=
  match s with
  | [] => None
  | c :: t =>
      if c =? 47 then let '(nm, r) := span (fun c => regb c && negb (c =? 35)) t in
                      if head_is (fun c => c =? 35) r then None else Some (IObj (OName nm), r)
      else if c =? 40 then let '(v, r) := span (fun c => negb (memZ c [40; 41; 92])) t in
                           match r with x :: r' => if x =? 41 then Some (IObj (OStr v), r') else None | [] => None end
      else if c =? 60 then let '(ds, r) := span hexb t in
                           match r with x :: r' => if x =? 62 then Some (IObj (OHex (map upper (even_pad ds))), r') else None | [] => None end
      else if c =? 91 then match skip false t with
                           | Some t1 => match ints_to n t1 with Some (l, r) => Some (IObj (OArr l), r) | None => None end
                           | None => None
                           end
      else if is_digit c then
        let '(ds, r) := span is_digit s in
        match r with
        | x :: r' => if x =? 46 then let '(fp, r2) := span is_digit r' in
                                     Some (IObj (OReal false (dvalue (ds ++ frac fp)) (- zlen (frac fp))), r2)
                     else Some (IObj (OInt (dvalue ds)), r)
        | [] => Some (IObj (OInt (dvalue ds)), r)
        end
      else let '(w, r) := span regb s in if wordb w && five s then Some (IWord w, r) else None
  end.
Definition item_at (i : item) (t r : list Z) : Prop :=
  match i with
  | IObj v => Ser FNoRef v t r /\ (v = OName (bs "CMapName") -> t = bs "/CMapName")
  | IWord w => t = w /\ Word w /\ nonreg r /\ 5 <= zlen (w ++ r)
  end.
Lemma name_raw t : Forall (fun c => regb c && negb (c =? 35) = true) t -> NameText t t.
Proof.
  induction 1 as [|c t H _ IH]; [constructor|]. unfold regb in H. rewrite andb_true_iff, !negb_true_iff, orb_false_iff in H. destruct H as ((H1 & H2) & H3).
  constructor; auto. now apply Z.eqb_neq in H3.
Qed.
Lemma str_raw t : Forall (fun c => negb (memZ c [40; 41; 92]) = true) t -> StrText t t.
Proof.
  induction 1 as [|c t H _ IH]; [constructor|]. unfold memZ in H. cbn [existsb] in H. rewrite negb_true_iff, !orb_false_iff, !Z.eqb_neq in H.
  destruct H as (H1 & H2 & H3 & _). apply ST_raw; auto.
Qed.
Lemma hex_raw t : Forall (fun c => hexb c = true) t -> HexBody t t.
Proof.
  induction 1 as [|c t H _ IH]; [constructor|]. destruct (hexb_val c H) as (h & Hh). apply (HB_cons c h [] t t Hh); [constructor|exact IH].
Qed.
Lemma token_ok n s i r : token_of n s = Some (i, r) -> exists t, s = t ++ r /\ item_at i t r.
Proof.
  unfold token_of. destruct s as [|c s]; [discriminate|].
  destruct (Z.eqb_spec c 47) as [->|N1].
  { destruct (span _ s) as [nm r0] eqn:Es. destruct (head_is (fun c => c =? 35) r0) eqn:Eh; [discriminate|]. intros E. injection E as <- <-.
    destruct (span_ok _ _ _ _ Es) as (-> & H2 & H3). exists (47 :: nm). split; [reflexivity|]. split.
    - apply Ser_name; [now apply name_raw|]. unfold nonreg. destruct r0 as [|x r0]; [reflexivity|]. cbn [head_is] in *. unfold regb in H3.
      rewrite Eh in H3. cbn [negb] in H3. now rewrite andb_true_r in H3.
    - intros E. injection E as ->. reflexivity. }
  destruct (Z.eqb_spec c 40) as [->|N2].
  { destruct (span _ s) as [v r0] eqn:Es. destruct (span_ok _ _ _ _ Es) as (-> & H2 & H3). destruct r0 as [|x r0]; [discriminate|].
    destruct (Z.eqb_spec x 41) as [->|]; [|discriminate]. intros E. injection E as <- <-. exists (40 :: v ++ [41]). split; [cbn [app]; rewrite <- app_assoc; reflexivity|].
    split; [apply Ser_str; now apply str_raw|discriminate]. }
  destruct (Z.eqb_spec c 60) as [->|N3].
  { destruct (span _ s) as [v r0] eqn:Es. destruct (span_ok _ _ _ _ Es) as (-> & H2 & H3). destruct r0 as [|x r0]; [discriminate|].
    destruct (Z.eqb_spec x 62) as [->|]; [|discriminate]. intros E. injection E as <- <-. exists (60 :: [] ++ v ++ [62]). split; [cbn [app]; rewrite <- app_assoc; reflexivity|].
    split; [apply Ser_hex; [constructor|reflexivity|now apply hex_raw]|discriminate]. }
  destruct (Z.eqb_spec c 91) as [->|N4].
  { destruct (skip false s) as [t1|] eqn:Ek; [|discriminate]. destruct (skip_ok _ _ _ Ek) as (_ & Hk & _). destruct (Hk eq_refl) as (sp' & -> & Hsp).
    destruct (ints_to n t1) as [[l r0]|] eqn:Ei; [|discriminate]. intros E. injection E as <- <-. destruct (ints_to_ok _ _ _ _ Ei) as (t & -> & Ht).
    exists (91 :: sp' ++ t ++ [93]). split; [cbn [app]; rewrite <- !app_assoc; reflexivity|]. split; [apply Ser_arr; auto|discriminate]. }
  destruct (is_digit c) eqn:Ed.
  { destruct (span is_digit (c :: s)) as [ds r0] eqn:Es. destruct (span_ok _ _ _ _ Es) as (E1 & H2 & H3).
    assert (ds <> []) as Hn. { intros ->. cbn [app] in E1. subst r0. cbn [head_is] in H3. congruence. }
    rewrite E1. destruct r0 as [|x r0].
    - intros E. injection E as <- <-. exists ds. split; [reflexivity|]. split; [|discriminate]. apply int_ser; auto.
    - destruct (Z.eqb_spec x 46) as [->|N].
      + destruct (span is_digit r0) as [fp r2] eqn:Es2. destruct (span_ok _ _ _ _ Es2) as (-> & F2 & F3). intros E. injection E as <- <-.
        exists (ds ++ 46 :: fp). split; [rewrite <- app_assoc; reflexivity|]. split; [|discriminate].
        apply Ser_real; [|exact F3]. apply (RT_pos [] ds fp); auto. destruct ds; [congruence|discriminate].
      + intros E. injection E as <- <-. exists ds. split; [reflexivity|]. split; [|discriminate]. apply int_ser; auto. cbn [head_is]. now apply Z.eqb_neq. }
  destruct (span regb (c :: s)) as [w r0] eqn:Es. destruct (span_ok _ _ _ _ Es) as (E1 & H2 & H3).
  destruct (wordb w && five (c :: s)) eqn:E; [|discriminate]. apply andb_true_iff in E. destruct E as (E2 & E3). intros E. injection E as <- <-.
  exists w. split; [exact E1|]. split; [reflexivity|]. split; [now apply wordb_ok|]. split.
  - unfold nonreg. exact H3.
  - rewrite <- E1. do 5 (destruct s as [|? s]; [discriminate E3|] || idtac). all: rewrite ?zlen_cons; pose proof (zlen_nonneg s); lia.
Qed.

Fixpoint lex (n : nat) (s : list Z) : option (list item) :=
  match n with
  | O => None
  | S n' =>
      match skip false s with
      | None => None
      | Some [] => Some []
      | Some r => match token_of n r with
                  | None => None
                  | Some (i, r') => match lex n' r' with Some its => Some (i :: its) | None => None end
                  end
      end
  end.
Lemma lex_ok : forall n s its, lex n s = Some its -> exists lead text, s = lead ++ text /\ Sep lead /\ Items its text.
Proof.
  induction n as [|n IH]; intros s its H; cbn [lex] in H; [discriminate|].
  destruct (skip false s) as [r|] eqn:Ek; [|discriminate]. destruct (skip_ok _ _ _ Ek) as (_ & Hk & _). destruct (Hk eq_refl) as (lead & -> & Hl).
  exists lead, r. split; [reflexivity|]. split; [exact Hl|].
  destruct r as [|x r0]; [injection H as <-; constructor|]. remember (x :: r0) as r eqn:Er. clear Er Ek Hk.
  destruct (token_of (S n) r) as [[i r']|] eqn:Et; [|discriminate]. destruct (token_ok _ _ _ _ Et) as (t & -> & Ht).
  destruct (lex n r') as [its'|] eqn:El; [|discriminate]. injection H as <-. destruct (IH _ _ El) as (sep & ss & -> & Hs & Hi).
  destruct i as [v|w]; cbn [item_at] in Ht.
  - destruct Ht as (H1 & H2). apply It_obj; auto.
  - destruct Ht as (-> & H1 & H2 & H3). apply It_word; auto.
Qed.

(** *** Sections *)
Fixpoint pairs_to (n : nat) (w : list Z) (its : list item) : option (list (list Z * list Z) * list item) :=
  match n with
  | O => None
  | S n' =>
      match its with
      | IWord x :: r => if eqlZ x w then Some ([], r) else None
      | IObj (OHex b) :: IObj (OHex e) :: r => match pairs_to n' w r with Some (l, r') => Some ((b, e) :: l, r') | None => None end
      | _ => None
      end
  end.
Fixpoint triples_to (n : nat) (w : list Z) (its : list item) : option (list (list Z * list Z * obj) * list item) :=
  match n with
  | O => None
  | S n' =>
      match its with
      | IWord x :: r => if eqlZ x w then Some ([], r) else None
      | IObj (OHex b) :: IObj (OHex e) :: IObj d :: r => match triples_to n' w r with Some (l, r') => Some ((b, e, d) :: l, r') | None => None end
      | _ => None
      end
  end.
Lemma pairs_ok : forall n w its l r, pairs_to n w its = Some (l, r) ->
  its = flat_map (fun be => [IObj (OHex (fst be)); IObj (OHex (snd be))]) l ++ IWord w :: r.
Proof.
  induction n as [|n IH]; intros w its l r H; [discriminate|]. cbn [pairs_to] in H.
  destruct its as [|[[| | | | | |b| | | | | |]|x] its]; try discriminate.
  - destruct its as [|[[| | | | | |e| | | | | |]|x] its]; try discriminate. destruct (pairs_to n w its) as [[l' r']|] eqn:E; [|discriminate].
    injection H as <- <-. rewrite (IH _ _ _ _ E). reflexivity.
  - destruct (eqlZ x w) eqn:E; [|discriminate]. apply eqlZ_eq in E. subst. injection H as <- <-. reflexivity.
Qed.
Lemma triples_ok : forall n w its l r, triples_to n w its = Some (l, r) ->
  its = flat_map (fun bed => [IObj (OHex (fst (fst bed))); IObj (OHex (snd (fst bed))); IObj (snd bed)]) l ++ IWord w :: r.
Proof.
  induction n as [|n IH]; intros w its l r H; [discriminate|]. cbn [triples_to] in H.
  destruct its as [|[[| | | | | |b| | | | | |]|x] its]; try discriminate.
  - destruct its as [|[[| | | | | |e| | | | | |]|x] its]; try discriminate. destruct its as [|[d|x] its]; try discriminate.
    destruct (triples_to n w its) as [[l' r']|] eqn:E; [|discriminate].
    injection H as <- <-. rewrite (IH _ _ _ _ E). reflexivity.
  - destruct (eqlZ x w) eqn:E; [|discriminate]. apply eqlZ_eq in E. subst. injection H as <- <-. reflexivity.
Qed.
Fixpoint chunks_of (n : nat) (its : list item) : option (list chunk) :=
  match n with
  | O => None
  | S n' =>
      let more c r := match chunks_of n' r with Some cs => Some (c :: cs) | None => None end in
      match its with
      | [] => Some []
      | IWord w :: r =>
          if eqlZ w (bs "begincodespacerange") then match pairs_to n (bs "endcodespacerange") r with Some (l, r') => more (KCodespace l) r' | None => None end
          else if eqlZ w (bs "begincidrange") then match triples_to n (bs "endcidrange") r with Some (l, r') => more (KRange Cid l) r' | None => None end
          else if existsb (eqlZ w) section_words then None
          else more (KPlain (IWord w)) r
      | i :: r => more (KPlain i) r
      end
  end.
Lemma chunks_ok : forall n its cs, chunks_of n its = Some cs -> its = flat_map chunk_items cs /\ Forall plain_ok cs.
Proof.
  induction n as [|n IH]; intros its cs H; [discriminate|]. cbn [chunks_of] in H.
  assert (forall c r, match chunks_of n r with Some cs => Some (c :: cs) | None => None end = Some cs -> plain_ok c ->
    chunk_items c ++ r = flat_map chunk_items cs /\ Forall plain_ok cs) as G.
  { intros c r E Hc. destruct (chunks_of n r) as [cs'|] eqn:E'; [|discriminate]. injection E as <-. destruct (IH _ _ E') as (-> & H2).
    split; [reflexivity|]. constructor; auto. }
  destruct its as [|[v|w] r].
  - injection H as <-. split; [reflexivity|constructor].
  - apply (G (KPlain (IObj v)) r H). intros w E. discriminate.
  - destruct (eqlZ w (bs "begincodespacerange")) eqn:E1.
    { apply eqlZ_eq in E1. subst w. destruct (pairs_to (S n) (bs "endcodespacerange") r) as [[l r']|] eqn:Ep; [|discriminate].
      rewrite (pairs_ok _ _ _ _ _ Ep). destruct (G _ _ H) as (<- & H2); [intros w E; discriminate|]. split; [|exact H2].
      cbn [chunk_items]. cbn [app]. f_equal. rewrite <- app_assoc. reflexivity. }
    destruct (eqlZ w (bs "begincidrange")) eqn:E2.
    { apply eqlZ_eq in E2. subst w. destruct (triples_to (S n) (bs "endcidrange") r) as [[l r']|] eqn:Ep; [|discriminate].
      rewrite (triples_ok _ _ _ _ _ Ep). destruct (G _ _ H) as (<- & H2); [intros w E; discriminate|]. split; [|exact H2].
      cbn [chunk_items kind_word]. cbn [app]. f_equal. rewrite <- app_assoc. reflexivity. }
    destruct (existsb (eqlZ w) section_words) eqn:E3; [discriminate|].
    apply (G (KPlain (IWord w)) r H). intros w' E. injection E as <-. intros Hin.
    assert (existsb (eqlZ w) section_words = true); [|congruence]. apply existsb_exists. exists w. split; [exact Hin|apply eqlZ_refl].
Qed.

(** *** The check *)
Definition hex_codeb (b : list Z) : bool := forallb hexb b && match b with [] => false | _ => true end.
Lemma hex_codeb_ok b : hex_codeb b = true -> HexCode b.
Proof.
  unfold hex_codeb. rewrite andb_true_iff. intros (H1 & H2). split; [intros ->; discriminate|]. apply Forall_forall. intros c Hc.
  rewrite forallb_forall in H1. specialize (H1 c Hc). unfold hexb in H1. unfold hdigit. lia.
Qed.
Definition range_okb (be : list Z * list Z) : bool :=
  let '(b, e) := be in hex_codeb b && hex_codeb e && (zlen b =? zlen e) && (hnum b <=? hnum e).
Lemma range_okb_ok be : range_okb be = true -> HexCode (fst be) /\ HexCode (snd be) /\ zlen (fst be) = zlen (snd be) /\ hnum (fst be) <= hnum (snd be).
Proof.
  destruct be as [b e]. unfold range_okb. rewrite !andb_true_iff. intros (((H1 & H2) & H3) & H4). cbn [fst snd].
  split; [now apply hex_codeb_ok|]. split; [now apply hex_codeb_ok|]. split; [now apply Z.eqb_eq|now apply Z.leb_le].
Qed.
(** Only cid ranges, all of them identities. *)
Definition chunk_good (c : chunk) : bool :=
  match c with
  | KPlain _ => true
  | KCodespace l => forallb range_okb l
  | KRange Cid l => forallb (fun bed => range_okb (fst bed) && match snd bed with OInt z => hnum (fst (fst bed)) =? z | _ => false end) l
  | _ => false
  end.
Definition entries_of (c : chunk) : list entry :=
  match c with
  | KRange Cid l => map (fun bed => ERange (fst (fst bed)) (snd (fst bed)) (hnum (fst (fst bed)))) l
  | _ => []
  end.
Definition header_of_items (its : list item) : option (Z * list item) :=
  match its with
  | IObj (OName a) :: IObj (OName b) :: IWord c :: IWord d :: IObj (OInt n) :: IWord e :: IWord g :: IWord h :: r =>
      if eqlZ a (bs "CIDInit") && eqlZ b (bs "ProcSet") && eqlZ c (bs "findresource") && eqlZ d (bs "begin") && (0 <=? n) &&
         eqlZ e (bs "dict") && eqlZ g (bs "begin") && eqlZ h (bs "begincmap") then Some (n, r) else None
  | _ => None
  end.
Lemma header_of_ok its n r : header_of_items its = Some (n, r) -> its = header n ++ r /\ 0 <= n.
Proof.
  unfold header_of_items. intros H.
  destruct its as [|[[| | | |a| | | | | | | |]|x] its]; try discriminate. destruct its as [|[[| | | |b| | | | | | | |]|x] its]; try discriminate.
  destruct its as [|[x|c] its]; try discriminate. destruct its as [|[x|d] its]; try discriminate.
  destruct its as [|[[| |z| | | | | | | | | |]|x] its]; try discriminate. destruct its as [|[x|e] its]; try discriminate.
  destruct its as [|[x|g] its]; try discriminate. destruct its as [|[x|h] its]; try discriminate.
  destruct (_ && _) eqn:E in H; [|discriminate]. injection H as <- <-. rewrite !andb_true_iff in E.
  destruct E as (((((((E1 & E2) & E3) & E4) & E5) & E6) & E7) & E8). apply eqlZ_eq in E1, E2, E3, E4, E6, E7, E8. subst. split; [reflexivity|lia].
Qed.
Definition check (s : list Z) : bool :=
  match lex (List.length s) s with
  | Some its => match header_of_items its with
                | Some (_, r) => match chunks_of (List.length s) r with
                                 | Some cs => forallb chunk_good cs && match flat_map entries_of cs with [] => false | _ => true end
                                 | None => false
                                 end
                | None => false
                end
  | None => false
  end.

Lemma good_ranges cs : forallb chunk_good cs = true -> RangesOf Cid cs (flat_map entries_of cs).
Proof.
  induction cs as [|c cs IH]; intros H; [constructor|]. cbn [forallb] in H. apply andb_true_iff in H. destruct H as (H1 & H2). specialize (IH H2).
  destruct c as [i|l|[] l|k l]; cbn [flat_map entries_of app]; try (apply RO_other; [discriminate|exact IH]); try discriminate H1.
  cbn [chunk_good] in H1.
  replace (map (fun bed => ERange (fst (fst bed)) (snd (fst bed)) (hnum (fst (fst bed)))) l) with
    (List.concat (map (fun bed : list Z * list Z * obj => [ERange (fst (fst bed)) (snd (fst bed)) (hnum (fst (fst bed)))]) l)).
  2: { clear. induction l as [|x l IH]; [reflexivity|]. cbn [map List.concat app]. now rewrite IH. }
  apply RO_range; [|exact IH]. clear - H1. induction l as [|[[b e] d] l IH]; cbn [map]; constructor.
  - cbn [forallb] in H1. rewrite !andb_true_iff in H1. destruct H1 as ((H1 & H2) & _). apply range_okb_ok in H1. cbn [fst snd] in *.
    destruct d as [| |z| | | | | | | | | |]; try discriminate. apply Z.eqb_eq in H2. rewrite H2. apply RE_int. exact H1.
  - apply IH. cbn [forallb] in H1. apply andb_true_iff in H1. apply H1.
Qed.
Lemma good_none cs k : forallb chunk_good cs = true -> k <> Cid -> RangesOf k cs [].
Proof.
  intros H Hk. induction cs as [|c cs IH]; [constructor|]. cbn [forallb] in H. apply andb_true_iff in H. destruct H as (H1 & H2).
  apply RO_other; [|auto]. intros l ->. destruct k; [congruence|discriminate|discriminate].
Qed.
Lemma good_chars cs k : forallb chunk_good cs = true -> CharsOf k cs [].
Proof.
  intros H. induction cs as [|c cs IH]; [constructor|]. cbn [forallb] in H. apply andb_true_iff in H. destruct H as (H1 & H2).
  apply CO_other; [|auto]. intros l ->. discriminate.
Qed.
Lemma good_codespace cs : forallb chunk_good cs = true ->
  Forall (fun be => HexCode (fst be) /\ HexCode (snd be) /\ zlen (fst be) = zlen (snd be) /\ hnum (fst be) <= hnum (snd be)) (codespace_of cs).
Proof.
  induction cs as [|c cs IH]; intros H; [constructor|]. cbn [forallb] in H. apply andb_true_iff in H. destruct H as (H1 & H2).
  unfold codespace_of. cbn [flat_map]. apply Forall_app. split; [|apply IH, H2].
  destruct c as [i|l|[] l|k l]; try constructor. cbn [chunk_good] in H1. apply Forall_forall. intros be Hb. rewrite forallb_forall in H1. apply range_okb_ok; auto.
Qed.
Lemma check_ok s : check s = true ->
  exists c, parse_cmap s = Ok c /\ cm_bf c = [] /\ cm_notdef c = [] /\ cm_cid c <> [] /\ Forall (fun m => exists r, m = MMap r (r_begin r)) (cm_cid c).
Proof.
  unfold check. destruct (lex (List.length s) s) as [its|] eqn:El; [|discriminate]. destruct (lex_ok _ _ _ El) as (lead & text & E & Hl & Hi).
  destruct (header_of_items its) as [[size r]|] eqn:Eh; [|discriminate]. destruct (header_of_ok _ _ _ Eh) as (-> & Hs).
  destruct (chunks_of (List.length s) r) as [cs|] eqn:Ec; [|discriminate]. destruct (chunks_ok _ _ _ Ec) as (-> & Hp).
  rewrite andb_true_iff. intros (Hg & Hne).
  destruct (C55_sections lead text size cs _ _ _ _ _ _ unit [] tt (Z.to_nat (4 * zlen s + 60)) Hl Hi Hs Hp (good_codespace _ Hg) (good_ranges _ Hg)
    (good_chars _ Cid Hg) (good_none _ Notdef Hg ltac:(discriminate)) (good_chars _ Notdef Hg) (good_none _ Bf Hg ltac:(discriminate)) (good_chars _ Bf Hg))
    as (c & s' & R & _ & _ & _ & B1 & B2 & B3).
  { rewrite <- E. pose proof (zlen_nonneg s). lia. }
  exists c. unfold parse_cmap. rewrite <- E in R. rewrite R. split; [reflexivity|].
  split; [inversion B3; reflexivity|]. split; [inversion B2; reflexivity|]. rewrite app_nil_r in B1.
  split; [intros E0; rewrite E0 in B1; inversion B1 as [E1|]; rewrite <- E1 in Hne; discriminate|].
  pose proof (ranges_entry_ok _ _ _ (good_ranges _ Hg)) as Hok.
  assert (Forall (fun e => exists b e', e = ERange b e' (hnum b)) (flat_map entries_of cs)) as HR.
  { clear. apply Forall_forall. intros e He. apply in_flat_map in He. destruct He as (c & _ & He). destruct c as [i|l|[] l|k l]; cbn [entries_of] in He; try destruct He.
    apply in_map_iff in He. destruct He as (bed & <- & _). eauto. }
  clear - B1 Hok HR. generalize dependent (flat_map entries_of cs). intros l B1 Hok HR. revert Hok HR. induction B1 as [|e m es ms Hb _ IH]; intros Hok HR; [constructor|]. inversion Hok as [|? ? O1 O2]; subst. inversion HR as [|? ? R1 R2]; subst.
  constructor; [|auto]. destruct R1 as (b & e' & ->). rewrite (built_range _ _ _ _ O1 Hb). exists (mkR (hnum b) (hnum e') (zlen b)). reflexivity.
Qed.

Lemma files_checked : forallb (fun p => check (snd p)) cmap_files = true.
Proof. vm_cast_no_check (eq_refl true). Qed.
Lemma names_have_files : forallb (fun p => existsb (fun q => eqlZ (snd p) (fst q)) cmap_files) predefined_cmaps = true.
Proof. vm_cast_no_check (eq_refl true). Qed.
