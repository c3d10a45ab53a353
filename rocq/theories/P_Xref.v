(** Cross-reference tables and /Prev chains: C18, C19. *)
From Coq Require Import String.
From Verif Require Import Prelude M_Prog M_Parser S_Syntax S_Stream L_Buffer L_Prog L_ParserWP
  L_Syntax L_Syntax2 S_Print L_Print L_Stream P_Stream M_Filters L_Filters2 P_Filters M_Document S_Document L_Document
  S_Xref L_Xref L_XrefWP P_StartXref.
Local Open Scope Z_scope.
Local Open Scope prog_scope.

(** [is_table l x]: the XRef object [x] holds, for every number, its last in-use listing and its
    last free listing of [l], and no compressed entries. *)
Definition is_table (l : list listed) (x : xref) : Prop :=
  (forall k, zget (x_inuse x) k = match last_listed true k l with Some (g, o) => Some (mkE k g o) | None => None end) /\
  (forall k, zget (x_free x) k = match last_listed false k l with Some (g, o) => Some (mkE k g o) | None => None end) /\
  x_comp x = [].
Lemma is_table_fold l : is_table l (fold_left add_listed l xref0).
Proof. repeat split; intros; apply (add_listed_get l xref0); auto. exact 0. Qed.

(** C18: a table with any subsections, entries and layout, followed by anything but a digit. *)
Theorem C18_xref_table : forall l s pre rest, TableText l s rest -> rest <> [] -> head_is is_digit rest = false ->
  exists x, is_table l x /\
  forall U st (u : U) n, 4 * zlen (pre ++ s ++ rest) + 8 <= Z.of_nat n ->
  exists ex, arun (pre ++ s ++ rest) (direct_xref n) (mkA (zlen pre) st u) = (Ok x, mkA (zlen pre + zlen s) (st ++ ex) u).
Proof.
  intros l s pre rest HT Hr Hd. exists (fold_left add_listed l xref0). split; [apply is_table_fold|].
  intros U st u n Hn. apply (r_table (pre ++ s ++ rest) l s rest n (zlen pre)); auto.
  - now apply At_start with (pre := pre).
  - pose proof (zlen_nonneg pre). pose proof (zlen_nonneg (pre ++ s ++ rest)). unfold fuel. lia.
Qed.

(** Every list of subsections can be written as a table. *)
Fixpoint fixed (w : nat) (z : Z) : list Z :=
  match w with O => [] | S w' => fixed w' (z / 10) ++ [48 + z mod 10] end.
Definition entry_text (x : listed) : list Z :=
  fixed 10 (li_off x) ++ [32] ++ fixed 5 (li_gen x) ++ [32] ++ [if li_used x then 110 else 102] ++ [13; 10].
Definition sub_text (first : Z) (l : list listed) : list Z :=
  dec first ++ [32] ++ dec (zlen l) ++ [10] ++ concat (map entry_text l).
Fixpoint numbered (first : Z) (l : list listed) : Prop :=
  match l with
  | [] => True
  | x :: r => li_num x = first /\ 0 <= li_gen x < 10 ^ 5 /\ 0 <= li_off x < 10 ^ 10 /\ numbered (first + 1) r
  end.
Definition table_text (subs : list (Z * list listed)) : list Z :=
  bs "xref" ++ [10] ++ concat (map (fun p => sub_text (fst p) (snd p)) subs).

Lemma dvalue_snoc l d : dvalue (l ++ [d]) = dvalue l * 10 + (d - 48).
Proof.
  induction l as [|x l IH]; cbn [app dvalue]; [rewrite zlen_nil; lia|].
  rewrite IH, zlen_app. change (zlen [d]) with 1. rewrite Z.pow_add_r, Z.pow_1_r by (pose proof (zlen_nonneg l); lia). ring.
Qed.
Lemma fixed_ok : forall w z, 0 <= z < 10 ^ Z.of_nat w -> dvalue (fixed w z) = z /\ digits_ok (fixed w z) /\ List.length (fixed w z) = w.
Proof.
  induction w as [|w IH]; intros z Hz.
  - change (10 ^ Z.of_nat 0) with 1 in Hz. repeat split; try constructor. cbn. lia.
  - assert (0 <= z / 10 < 10 ^ Z.of_nat w) as Hz'.
    { rewrite Nat2Z.inj_succ, Z.pow_succ_r in Hz by lia. split; [apply Z.div_pos; lia|apply Z.div_lt_upper_bound; lia]. }
    destruct (IH _ Hz') as (I1 & I2 & I3). pose proof (Z.mod_pos_bound z 10 ltac:(lia)).
    cbn [fixed]. repeat split.
    + rewrite dvalue_snoc, I1. pose proof (Z.div_mod z 10 ltac:(lia)). lia.
    + apply Forall_app; split; auto. constructor; auto. unfold is_digit. lia.
    + rewrite app_length, I3. cbn. lia.
Qed.
Lemma entries_text_ok : forall l first, numbered first l -> EntriesText first l (concat (map entry_text l)).
Proof.
  induction l as [|x l IH]; intros first H; cbn [map concat]; [constructor|].
  destruct H as (H1 & H2 & H3 & H4). constructor; auto.
  destruct x as [num gen off used]; cbn [li_num li_gen li_off li_used] in *. unfold entry_text; cbn [li_num li_gen li_off li_used].
  destruct (fixed_ok 5 gen) as (A1 & A2 & A3); [exact H2|]. destruct (fixed_ok 10 off) as (B1 & B2 & B3); [exact H3|].
  rewrite <- A1 at 1. rewrite <- B1 at 1. constructor; auto. cbn; auto.
Qed.
Theorem C18_every_table : forall subs rest,
  Forall (fun p => 0 <= fst p /\ numbered (fst p) (snd p)) subs -> nosep rest ->
  TableText (concat (map snd subs)) (table_text subs) rest.
Proof.
  intros subs rest H Hr. unfold table_text. constructor; [constructor; [reflexivity|constructor]| |].
  - induction H as [|[first l] subs [H0 HN] H IH]; cbn [map concat fst snd]; [constructor|].
    unfold sub_text. repeat rewrite <- app_assoc.
    destruct (dec_ok first H0) as (A1 & A2 & A3). destruct (dec_ok (zlen l) (zlen_nonneg l)) as (B1 & B2 & B3).
    constructor; auto; [now left|]. rewrite A1. now apply entries_text_ok.
  - destruct H as [|[first l] subs [H0 HN] H]; cbn [map concat fst snd]; auto.
    unfold sub_text. repeat rewrite <- app_assoc. destruct (dec_ok first H0) as (A1 & A2 & A3). now apply digits_nosep.
Qed.

(** An object freed by a later entry of the same table is still reported in use. *)
Theorem C18_freed_later_refuted :
  ~ (forall l s pre rest, TableText l s rest -> rest <> [] -> head_is is_digit rest = false ->
     exists x, (forall U st (u : U) n, 4 * zlen (pre ++ s ++ rest) + 8 <= Z.of_nat n ->
       fst (arun (pre ++ s ++ rest) (direct_xref n) (mkA (zlen pre) st u)) = Ok x) /\
     forall k x0 l', l = l' ++ [x0] -> li_num x0 = k -> li_used x0 = false -> zget (x_inuse x) k = None).
Proof.
  intros H.
  pose (l := [mkListed 5 0 17 true; mkListed 5 1 0 false]).
  assert (TableText (concat (map snd [(5, [mkListed 5 0 17 true]); (5, [mkListed 5 1 0 false])]))
     (table_text [(5, [mkListed 5 0 17 true]); (5, [mkListed 5 1 0 false])]) (bs "trailer")) as HT.
  { apply C18_every_table; [|reflexivity]. repeat constructor; cbn; lia. }
  destruct (C18_xref_table _ _ [] _ HT) as (x & (HX & _) & HR); [discriminate|reflexivity|].
  destruct (H _ _ [] _ HT) as (x' & HR' & HX'); [discriminate|reflexivity|].
  assert (x = x') as <-.
  { specialize (HR unit [] tt (1000%nat) ltac:(vm_compute; discriminate)). specialize (HR' unit [] tt (1000%nat) ltac:(vm_compute; discriminate)).
    destruct HR as [ex HR]. rewrite HR in HR'. cbn [fst] in HR'. congruence. }
  specialize (HX' 5 (mkListed 5 1 0 false) [mkListed 5 0 17 true] eq_refl eq_refl eq_refl).
  rewrite HX in HX'. discriminate HX'.
Qed.

(** ---- C19 ---- *)
Definition table_of (l : list listed) : xref := fold_left add_listed l xref0.
Section Chains.
  Context {U : Type}.
  Notation P := (prog U).
  Notation no_hook := (fun d => ret d : P dict).

  Lemma r_reset_to (f : list Z) p {A} (g : unit -> P A) pos r q : 0 <= p ->
    runs f (g tt) p r q -> runs f (bind (reset_to (OInt p)) g) pos r q.
  Proof.
    intros Hp H. cbn [reset_to as_range]. change (OInt p) with (OInt p). unfold reset_to. cbn.
    intros st u. cbn [arun]. unfold reset_pos. rewrite (proj2 (Z.leb_le 0 p)) by lia. apply (H st u).
  Qed.
  Lemma r_section_at f o l t n : section_at f o l t -> 4 * zlen f + 8 <= Z.of_nat n ->
    exists q, runs f (table_section no_hook n) o (Ok (fold_left add_listed l xref0, t)) q.
  Proof.
    intros (pre & text & rest & Ef & Eo & HS) Hn. eexists. eapply r_section; eauto.
    - subst o. now apply At_start.
    - subst o. pose proof (zlen_nonneg pre). pose proof (zlen_nonneg f). unfold ofuel. lia.
  Qed.
  Lemma r_prev_tables f n : 4 * zlen f + 8 <= Z.of_nat n -> forall o ls t, Chain f o ls t ->
    forall k acc pos, 0 < o -> (List.length ls <= k)%nat ->
    exists q, runs f (prev_tables no_hook k n (OInt o) acc) pos (Ok (acc ++ map table_of ls)) q.
  Proof.
    intros Hn. induction 1 as [o l t HS HP|o l t p ls t' HS HP Hp HC IH]; intros k acc pos Ho Hk;
      (destruct k as [|k]; [cbn in Hk; lia|]); cbn [prev_tables truthy].
    - destruct (r_section_at f o l t n HS Hn) as [q Hq]. exists q.
      rewrite (proj2 (Z.eqb_neq o 0)) by lia. cbn [negb]. apply r_reset_to; [lia|].
      eapply runs_bind; [exact Hq|]. cbv beta iota. unfold oget. rewrite HP.
      destruct k; cbn [prev_tables truthy]; apply runs_ret.
    - destruct (r_section_at f o l t n HS Hn) as [q Hq].
      destruct (IH k (acc ++ [table_of l]) q Hp) as (q' & HR); [cbn in Hk; lia|]. exists q'.
      rewrite (proj2 (Z.eqb_neq o 0)) by lia. cbn [negb]. apply r_reset_to; [lia|].
      eapply runs_bind; [exact Hq|]. cbv beta iota. unfold oget. rewrite HP.
      rewrite <- app_assoc in HR. exact HR.
  Qed.

  Variable inflate : list Z -> option (list Z).
  Variable ccitt : list Z -> fparams -> res (list Z).
  (** pdf_trailer() of PDFParser *)
  Definition trailer_of (k n : nat) : P (list xref * dict) :=
    pdf_trailer inflate ccitt no_hook (indirect_object no_hook n) k n.

  Lemma trailer_start f o k n r q : offset_of f (Ok o) -> 0 <= o -> 4 * zlen f + 8 <= Z.of_nat n ->
    is_cur (znth f o) 120 = true ->
    runs f ('(x, t) <- table_section no_hook n ;;
            xs <- prev_tables no_hook k n (oget t (bs "Prev")) [x] ;; pdf_trailer_obj xs t) o r q ->
    forall pos, runs f (trailer_of k n) pos r q.
  Proof.
    intros Hoff Ho Hn Hx HR pos st u. destruct (Hoff U st u n pos Hn) as (q1 & ex1 & E1).
    unfold trailer_of, pdf_trailer. rewrite arun_bind, E1. cbn [reset bind arun a_store a_usr a_pos].
    unfold reset_pos. rewrite (proj2 (Z.leb_le 0 o)) by lia. cbn [cur bind arun a_pos]. rewrite Hx.
    destruct (HR (st ++ ex1) u) as [ex2 E2]. exists (ex1 ++ ex2). rewrite app_assoc. exact E2.
  Qed.
  Lemma section_x f o l t : section_at f o l t -> is_cur (znth f o) 120 = true /\ 0 <= o.
  Proof.
    intros (pre & text & rest & -> & -> & HS). split; [|apply zlen_nonneg].
    destruct HS as [l t sep1 sep2 s0 es s rest HT]. destruct HT as [l sep s' rest' _ _ _].
    rewrite (At_head _ _ _ (At_start _ pre _ eq_refl)). reflexivity.
  Qed.
End Chains.

(** A /Prev chain that ends: all sections are collected, newest first, with the newest trailer. *)
Theorem C19_chain_collected : forall inflate ccitt f o ls t,
  offset_of f (Ok o) -> Chain f o ls t ->
  dget t (bs "xrefs") = None -> dget t (bs "self") = None ->
  exists xs, Forall2 is_table ls xs /\
  forall U st (u : U) k n pos, 4 * zlen f + 8 <= Z.of_nat n -> (List.length ls <= k)%nat ->
  exists q ex, arun f (trailer_of inflate ccitt k n) (mkA pos st u) = (Ok (xs, t), mkA q (st ++ ex) u).
Proof.
  intros inflate ccitt f o ls t Hoff HC H1 H2.
  exists (map table_of ls). split.
  { clear. induction ls; constructor; auto. apply is_table_fold. }
  intros U st u k n pos Hn Hk.
  assert (exists q, runs f (trailer_of inflate ccitt k n : prog U _) pos (Ok (map table_of ls, t)) q) as [q Hq].
  2:{ destruct (Hq st u) as [ex E]. eauto. }
  inversion HC as [o' l t' HS HP|o' l t' p ls' t'' HS HP Hp HC']; subst.
  - destruct (section_x _ _ _ _ HS) as [Hx Ho]. destruct (@r_section_at U f o l t n HS Hn) as [q Hq].
    exists q. eapply trailer_start; eauto. eapply runs_bind; [exact Hq|]. cbv beta iota. unfold oget. rewrite HP.
    cbn [map]. eapply (runs_bind f _ _ q [table_of l] q); [destruct k; cbn [prev_tables truthy]; apply runs_ret|].
    unfold pdf_trailer_obj. rewrite H1, H2. apply runs_ret.
  - destruct (section_x _ _ _ _ HS) as [Hx Ho]. destruct (@r_section_at U f o l t n HS Hn) as [q Hq].
    destruct (@r_prev_tables U f n Hn p ls' t'' HC' k [table_of l] q Hp) as (q' & HR); [cbn in Hk; lia|].
    exists q'. eapply trailer_start; eauto. eapply runs_bind; [exact Hq|]. cbv beta iota. unfold oget. rewrite HP.
    eapply runs_bind; [exact HR|]. unfold pdf_trailer_obj. rewrite H1, H2. apply runs_ret.
Qed.

(** A /Prev cycle: if from the newest section /Prev only leads to sections of a set closed under /Prev,
    reading the trailer never ends, whatever the number of steps allowed. *)
Theorem C19_cycle_refuted : forall inflate ccitt f (S : Z -> Prop) o,
  offset_of f (Ok o) -> S o ->
  (forall a, S a -> exists l t p, section_at f a l t /\ dget t (bs "Prev") = Some (OInt p) /\ 0 < p /\ S p) ->
  forall U st (u : U) k n pos, 4 * zlen f + 8 <= Z.of_nat n ->
  fst (arun f (trailer_of inflate ccitt k n) (mkA pos st u)) = Err OutOfFuel.
Proof.
  intros inflate ccitt f S o Hoff HSo HS U st u k n pos Hn.
  assert (forall k p acc pos, S p -> 0 < p -> exists q, runs f (prev_tables (fun d => ret d : prog U dict) k n (OInt p) acc) pos (Err OutOfFuel) q) as HP.
  { clear k pos. induction k as [|k IH]; intros p acc pos Hp H0; cbn [prev_tables truthy]; rewrite (proj2 (Z.eqb_neq p 0)) by lia; cbn [negb].
    - exists pos. apply runs_throw.
    - destruct (HS p Hp) as (l & t & p' & HA & HD & Hp' & HSp').
      destruct (@r_section_at U f p l t n HA Hn) as [q Hq]. destruct (IH p' (acc ++ [table_of l]) q HSp' Hp') as [q' HR].
      exists q'. apply r_reset_to; [lia|]. eapply runs_bind; [exact Hq|]. cbv beta iota. unfold oget. rewrite HD. exact HR. }
  destruct (HS o HSo) as (l & t & p & HA & HD & Hp & HSp).
  destruct (section_x _ _ _ _ HA) as [Hx Ho]. destruct (@r_section_at U f o l t n HA Hn) as [q Hq].
  destruct (HP k p [table_of l] q HSp Hp) as [q' HR].
  assert (runs f (trailer_of inflate ccitt k n : prog U _) pos (Err OutOfFuel) q') as HH.
  { eapply trailer_start; eauto. eapply runs_bind; [exact Hq|]. cbv beta iota. unfold oget. rewrite HD.
    eapply runs_bind_err. exact HR. }
  destruct (HH st u) as [ex E]. rewrite E. reflexivity.
Qed.

(** ---- termination for arbitrary files ---- *)
Section Ends.
  Context {U : Type}.
  Variable f : list Z.
  Notation P := (prog U).
  Notation no_hook := (fun d => ret d : P dict).

  (** the run does not exhaust its fuel *)
  Definition ends {A} (p : P A) (s : ast U) : Prop := fst (arun f p s) <> Err OutOfFuel.
  Lemma ends_bind {A B} (p : P A) (g : A -> P B) s : ends p s ->
    (forall a s', arun f p s = (Ok a, s') -> ends (g a) s') -> ends (bind p g) s.
  Proof.
    unfold ends. intros H1 H2. rewrite arun_bind. destruct (arun f p s) as [[a|e] s'] eqn:E; cbn [fst] in *; [apply (H2 a s'); auto|].
    intros H. apply H1. congruence.
  Qed.
  Lemma ends_wp {A} lo (p : P A) pos k st u : wp f lo [] p pos (adv pos k xe) -> ends p (mkA pos st u).
  Proof.
    intros H. destruct (H st u) as (r & q & ex & E & HQ & _); [constructor|]. unfold ends. rewrite E. cbn [fst].
    intros ->. cbn in HQ. intuition discriminate.
  Qed.
  Lemma read_back_pos : forall k w pos st u, exists r q, arun f (read_back k w : P _) (mkA pos st u) = (r, mkA q st u) /\
    q <= pos /\ r <> Err OutOfFuel.
  Proof.
    induction k as [|k IH]; intros w pos st u; cbn [read_back].
    - exists (Ok w), pos. repeat split; [lia|discriminate].
    - unfold prev_byte. cbn [prev bind arun a_pos a_store a_usr]. destruct (znth f pos) as [x|]; cbn [bind arun ret throw].
      + destruct (IH (x :: w) (pos - 1) st u) as (r & q & E & H1 & H2). exists r, q. rewrite E. repeat split; auto; lia.
      + exists (Err TypeErr), (pos - 1). repeat split; [lia|discriminate].
  Qed.
  Lemma eof_loop_pos : forall k w pos st u, exists r q, arun f (eof_loop k w : P _) (mkA pos st u) = (r, mkA q st u) /\
    q <= pos /\ r <> Err OutOfFuel.
  Proof.
    induction k as [|k IH]; intros w pos st u; cbn [eof_loop].
    - exists (Err ParserExc), pos. repeat split; [lia|discriminate].
    - cbn [cur bind arun a_pos a_store a_usr]. destruct (znth f pos) as [x|] eqn:E.
      2:{ exists (Err ParserExc), pos. repeat split; [lia|discriminate]. }
      destruct (eqlZ w (bs "%%EOF")); [exists (Ok tt), pos; repeat split; [lia|discriminate]|].
      unfold prev_byte. cbn [prev bind arun a_pos a_store a_usr]. rewrite E. cbn [bind arun ret].
      destruct (IH (x :: removelast w) (pos - 1) st u) as (r & q & E' & H1 & H2). exists r, q. rewrite E'. repeat split; auto; lia.
  Qed.
  Lemma startxref_pos : forall n w pos st u, 0 < Z.of_nat n -> pos + 1 < Z.of_nat n ->
    exists r q, arun f (startxref_loop n w : P _) (mkA pos st u) = (r, mkA q st u) /\ r <> Err OutOfFuel /\ (r = Ok tt -> 0 <= q).
  Proof.
    induction n as [|n IH]; intros w pos st u H1 H2; [lia|]. cbn [startxref_loop].
    cbn [cur bind arun a_pos a_store a_usr]. destruct (znth f pos) as [x|] eqn:E.
    2:{ exists (Err ParserExc), pos. repeat split; discriminate. }
    pose proof (znth_Some_range _ _ _ E).
    destruct (eqlZ w (bs "startxref")); [exists (Ok tt), pos; repeat split; [discriminate|lia]|].
    unfold prev_byte. cbn [prev bind arun a_pos a_store a_usr]. rewrite E. cbn [bind arun ret].
    apply IH; lia.
  Qed.
  (** xref_offset() ends on every file; the offset it returns is not negative. *)
  Lemma xref_offset_ends n s : 4 * zlen f + 8 <= Z.of_nat n -> ends (xref_offset n) s /\
    forall o s', arun f (xref_offset n) s = (Ok o, s') -> 0 <= o.
  Proof.
    intros Hn. pose proof (zlen_nonneg f) as HL. destruct s as [pos st u]. unfold ends, xref_offset, seek_eof.
    rewrite arun_bind. cbn [reset bind arun a_store a_usr].
    rewrite arun_bind. change (reset_pos f (-1024)) with (zlen f - 1).
    destruct (read_back_pos 5 [] (zlen f - 1) st u) as (r1 & q1 & E1 & H1 & N1). rewrite E1.
    destruct r1 as [w|e]; [|split; [cbn [fst]; congruence|discriminate]].
    destruct (eof_loop_pos (1024 - 5) w q1 st u) as (r2 & q2 & E2 & H2 & N2). rewrite E2.
    destruct r2 as [[]|e]; [|split; [cbn [fst]; congruence|discriminate]].
    rewrite arun_bind.
    destruct (read_back_pos 9 [] q2 st u) as (r3 & q3 & E3 & H3 & N3). rewrite E3.
    destruct r3 as [w2|e]; [|split; [cbn [fst]; congruence|discriminate]].
    rewrite arun_bind.
    destruct (startxref_pos n w2 q3 st u) as (r4 & q4 & E4 & N4 & H4); [lia|lia|]. rewrite E4.
    destruct r4 as [[]|e]; [|split; [cbn [fst]; congruence|discriminate]].
    specialize (H4 eq_refl).
    assert (wp f q4 [] (read 10 ;;; sp n ;;; non_negative_int n : P Z) q4
      (fun r q => match r with Ok z => 0 <= z | Err e => In e xe end)) as HW.
    { eapply wp_bind; [apply wp_read; lia| |]; cbv beta iota; [|intros e q [_ ->]; cbn; auto].
      intros l q [-> _]. eapply wp_bind; [apply wp_sp; unfold fuel; lia| |]; cbn [adv]; [|intros e q [<-|[<-|[]]]; cbn; auto].
      intros ? q Hq. eapply wp_conseq; [apply wp_nni; unfold fuel; lia|]. cbv beta iota.
      intros [z|e] q'; [tauto|]. intros ->; cbn; auto. }
    destruct (HW st u) as (r & q & ex & E & HQ & _); [constructor|]. rewrite E. cbn [fst]. split.
    - intros ->. cbn in HQ. intuition discriminate.
    - intros o s' H. inversion H; subst. exact HQ.
  Qed.

  (** From the offsets in [S], a /Prev entry always leads to a smaller offset in [S]. *)
  Definition tables_decrease (S : Z -> Prop) n : Prop := forall st (u : U) o x t s' p, 0 <= o -> S o ->
    arun f (table_section no_hook n) (mkA o st u) = (Ok (x, t), s') ->
    as_range (oget t (bs "Prev")) = Some p -> 0 <= p < o /\ S p.
  Definition streams_decrease inflate ccitt (S : Z -> Prop) n : Prop := forall st (u : U) o x d s' p, 0 <= o -> S o ->
    arun f (xref_stream_section inflate ccitt (indirect_object no_hook n)) (mkA o st u) = (Ok (x, d), s') ->
    as_range (oget d (bs "Prev")) = Some p -> 0 <= p < o /\ S p.

  Lemma prev_tables_ends S n : 4 * zlen f + 8 <= Z.of_nat n -> tables_decrease S n ->
    forall k v acc s, (1 <= k)%nat -> (forall p, as_range v = Some p -> 0 <= p < Z.of_nat k /\ S p) -> ends (prev_tables no_hook k n v acc) s.
  Proof.
    intros Hn HD. pose proof (zlen_nonneg f) as HL.
    induction k as [|k IH]; intros v acc s H1 Hv; [lia|]. cbn [prev_tables]. destruct (truthy v) eqn:Et; [|unfold ends; cbn; discriminate].
    unfold reset_to. destruct (as_range v) as [p|] eqn:Ep; [|unfold ends; cbn; discriminate].
    specialize (Hv p eq_refl).
    assert (p <> 0) by (destruct v as [|[|]| | | | | | | | | | |]; cbn in *; try discriminate; inversion Ep; subst; try discriminate; lia).
    destruct s as [pos st u]. apply ends_bind; [unfold ends; cbn; discriminate|]. intros [] s' E'.
    cbn in E'. unfold reset_pos in E'. rewrite (proj2 (Z.leb_le 0 p)) in E' by lia. inversion E'; subst s'. clear E'.
    apply ends_bind.
    - eapply (ends_wp p). apply wp_section; [lia|unfold ofuel; lia].
    - intros [x t] s' E. apply IH; [lia|]. intros p' Hp'. pose proof (HD st u p x t s' p' ltac:(lia) ltac:(tauto) E Hp'). intuition lia.
  Qed.
  Lemma stream_section_ends inflate ccitt n s : (forall d raw, filtered inflate ccitt d raw <> Err OutOfFuel) ->
    4 * zlen f + 8 <= Z.of_nat n -> 0 <= a_pos s -> ends (xref_stream_section inflate ccitt (indirect_object no_hook n)) s.
  Proof.
    intros HF Hn Hp. pose proof (zlen_nonneg f) as HL. destruct s as [pos st u]. cbn [a_pos] in Hp. unfold xref_stream_section. apply ends_bind.
    - eapply (ends_wp pos). apply wp_indirect; [lia|unfold ofuel; lia].
    - intros [[num gen] v] s' _. destruct v; try (unfold ends; cbn; discriminate).
      destruct (dget d (bs "Type")) as [t|]; [|unfold ends; cbn; discriminate].
      destruct (is_name t (bs "XRef")); [|unfold ends; cbn; discriminate].
      destruct (xref_from_stream inflate ccitt d data) as [x|e] eqn:E; [unfold ends; cbn; discriminate|].
      unfold ends. cbn. intros H. inversion H; subst e. clear H. revert E. unfold xref_from_stream.
      assert (forall w1 w2 w3 rows num x, xrows w1 w2 w3 num rows x <> Err OutOfFuel) as HX.
      { intros w1 w2 w3. induction rows as [|row rows IH]; intros nm x; cbn [xrows]; [discriminate|].
        unfold xrow, new_entry.
        repeat match goal with |- context [if ?b then _ else _] => destruct b end; cbn [rbind]; try discriminate; apply IH. }
      match goal with |- rbind ?a _ = _ -> _ => destruct a as [z|e] eqn:Ea end; cbn [rbind].
      + destruct (dget d (bs "W")) as [w|]; [|discriminate]. destruct w; try discriminate.
        destruct (ints l) as [[|w1 [|w2 more]]|]; try discriminate.
        pose proof (HF d data) as HFd. destruct (filtered inflate ccitt d data) as [dt|e]; cbn [rbind if_none]; [|destruct e; cbn [rbind]; congruence].
        destruct (_ =? 0); [discriminate|]. destruct (_ <? 0); [discriminate|]. destruct dt; [discriminate|].
        destruct more; [discriminate|]. apply HX.
      + revert Ea. repeat match goal with |- context [match ?b with _ => _ end] => destruct b end; intros; congruence.
  Qed.
  Lemma prev_streams_ends inflate ccitt S n : (forall d raw, filtered inflate ccitt d raw <> Err OutOfFuel) ->
    4 * zlen f + 8 <= Z.of_nat n -> streams_decrease inflate ccitt S n ->
    forall k v acc s, (1 <= k)%nat -> (forall p, as_range v = Some p -> 0 <= p < Z.of_nat k - 1 /\ S p) ->
    ends (prev_streams inflate ccitt (indirect_object no_hook n) k v acc) s.
  Proof.
    intros HF Hn HD. induction k as [|k IH]; intros v acc s H1 Hv; [lia|]. cbn [prev_streams].
    destruct (as_range v) as [p|] eqn:Ep.
    - specialize (Hv p eq_refl).
      assert (ends (reset_to v ;;; '(x, d) <- xref_stream_section inflate ccitt (indirect_object no_hook n) ;;
                    prev_streams inflate ccitt (indirect_object no_hook n) k (oget d (bs "Prev")) (acc ++ [x])) s) as HE.
      { unfold reset_to. rewrite Ep. destruct s as [pos st u]. apply ends_bind; [unfold ends; cbn; discriminate|]. intros [] s' E'.
        cbn in E'. unfold reset_pos in E'. rewrite (proj2 (Z.leb_le 0 p)) in E' by lia. inversion E'; subst s'. clear E'.
        apply ends_bind.
        - apply stream_section_ends; auto. cbn. lia.
        - intros [x d] s' E. apply IH; [lia|]. intros p' Hp'. pose proof (HD st u p x d s' p' ltac:(lia) ltac:(tauto) E Hp'). intuition lia. }
      destruct v; auto. discriminate.
    - destruct v; try (unfold ends; cbn; discriminate); cbn in Ep; try discriminate. destruct b; discriminate.
  Qed.
End Ends.

(** None of the library's own filters loops; for CCITT see C49. *)
Lemma run_filter_ends inflate ccitt k data p : (forall a b, ccitt a b <> Err OutOfFuel) ->
  run_filter inflate ccitt k data p <> Err OutOfFuel.
Proof.
  intros HC. assert (forall d pr co, remove_predictors d pr co <> Err OutOfFuel) as HP.
  { intros d pr co. unfold remove_predictors.
    repeat match goal with |- context [match ?b with _ => _ end] => destruct b end; discriminate. }
  assert (forall d, rbind (pget p (bs "Predictor")) (fun pr => rbind (pget p (bs "Columns")) (fun co => remove_predictors d pr co)) <> Err OutOfFuel) as HP2.
  { intros d. destruct p; cbn [pget rbind]; try discriminate; apply HP. }
  destruct k; cbn [run_filter]; try discriminate; auto.
  - destruct (C44_ascii85_total data) as [o ->]. discriminate.
  - destruct (C43_asciihex_total data) as [o ->]. discriminate.
  - destruct (inflate data); [apply HP2|discriminate].
  - assert (lzw_decompress data <> Err OutOfFuel) as HL.
    { pose proof (C46_lzw_total data None None) as HT. unfold lzw_decode in HT. intros E. rewrite E in HT. cbn in HT.
      destruct HT as [[o HT]|HT]; discriminate HT. }
    destruct (lzw_decompress data) as [d|e]; cbn [rbind].
    + pose proof (HP2 d). destruct (rbind (pget p (bs "Predictor")) _) as [v|e]; [discriminate|]. destruct (exn_eqb e ValueErr); congruence.
    + destruct (exn_eqb e ValueErr); congruence.
  - destruct (C45_runlength_total data) as [o ->]. discriminate.
Qed.
Lemma filtered_ends inflate ccitt d raw : (forall a b, ccitt a b <> Err OutOfFuel) -> filtered inflate ccitt d raw <> Err OutOfFuel.
Proof.
  intros HC. assert (forall nm data p, apply_filter inflate ccitt nm data p <> Err OutOfFuel) as HA.
  { intros nm data p. unfold apply_filter. destruct (find_filter nm filter_table); [apply run_filter_ends; auto|discriminate]. }
  unfold filtered. destruct (truthy (oget d (bs "Filter"))); [|discriminate].
  destruct (oget d (bs "Filter")); try discriminate; [apply HA|].
  generalize (parms_of (oget d (bs "DecodeParms"))). intros p. revert raw. induction l as [|v l IH]; intros raw; cbn [apply_objs]; [discriminate|].
  destruct v; try discriminate. pose proof (HA s raw p). destruct (apply_filter inflate ccitt s raw p); cbn [rbind]; [apply IH|congruence].
Qed.

(** Whatever else the file contains: if /Prev always leads to an earlier offset, reading the trailer
    ends. *)
Theorem C19_decreasing_terminates : forall inflate ccitt f (S : Z -> Prop) U st (u : U) n pos,
  (forall a b, ccitt a b <> Err OutOfFuel) ->
  (forall o s', arun f (xref_offset n) (mkA pos st u) = (Ok o, s') -> S o) ->
  @tables_decrease U f S n -> @streams_decrease U f inflate ccitt S n -> 4 * zlen f + 8 <= Z.of_nat n ->
  exists k0, forall k, (k0 <= k)%nat -> fst (arun f (trailer_of inflate ccitt k n) (mkA pos st u)) <> Err OutOfFuel.
Proof.
  intros inflate ccitt f S U st u n pos HC HSo HT HS Hn. pose proof (zlen_nonneg f) as HL.
  destruct (@xref_offset_ends U f n (mkA pos st u) Hn) as [H1 H2].
  exists (match fst (arun f (xref_offset n) (mkA pos st u)) with Ok o => (2 + Z.to_nat o)%nat | Err _ => O end). intros k Hk.
  change (ends f (trailer_of inflate ccitt k n) (mkA pos st u)).
  unfold trailer_of, pdf_trailer. apply ends_bind; [exact H1|]. intros o s1 E1. rewrite E1 in Hk. cbn [fst] in Hk.
  specialize (H2 o s1 E1). specialize (HSo o s1 E1). destruct s1 as [p1 st1 u1].
  apply ends_bind; [unfold ends; cbn; discriminate|]. intros [] s E. cbn in E. unfold reset_pos in E.
  rewrite (proj2 (Z.leb_le 0 o)) in E by lia. inversion E; subst s; clear E.
  apply ends_bind; [unfold ends; cbn; discriminate|]. intros c s E. cbn in E. inversion E; subst s; clear E.
  assert (forall xs d s, ends f (pdf_trailer_obj xs d : prog U _) s) as HO.
  { intros xs d s. unfold pdf_trailer_obj. destruct (dget d (bs "xrefs")), (dget d (bs "self")); unfold ends; cbn; discriminate. }
  destruct (is_cur _ 120).
  - apply ends_bind; [eapply (ends_wp f o); apply wp_section; [lia|unfold ofuel; lia]|].
    intros [x t] s' E. apply ends_bind; [|auto]. apply (prev_tables_ends f S); auto; [lia|].
    intros p Hp. pose proof (HT _ _ o x t s' p H2 HSo E Hp). intuition lia.
  - apply ends_bind; [unfold ends; cbn; discriminate|]. intros [] s E. cbn in E. unfold reset_pos in E.
    rewrite (proj2 (Z.leb_le 0 o)) in E by lia. inversion E; subst s; clear E.
    apply ends_bind; [apply stream_section_ends; auto; intros; now apply filtered_ends|].
    intros [x d] s' E. apply ends_bind; [|auto]. apply (prev_streams_ends f inflate ccitt S); auto; [intros; now apply filtered_ends|lia|].
    intros p Hp. pose proof (HS _ _ o x d s' p H2 HSo E Hp). intuition lia.
Qed.

(** Concrete files meeting the hypotheses.  A section with one trailer entry "/key z". *)
Definition sect (key : list Z) (subs : list (Z * list listed)) (z : Z) : list Z :=
  table_text subs ++ [] ++ bs "trailer" ++ [10] ++ 60 :: 60 :: [] ++ (47 :: key ++ [32] ++ dec z ++ [] ++ []) ++ [62; 62].
Lemma int_entry key z tail : NameText key key -> 0 <= z ->
  SerEntries FBasic [(key, OInt z)] (47 :: key ++ [32] ++ dec z ++ [] ++ []) (62 :: 62 :: tail).
Proof.
  intros HN Hk. destruct (dec_ok z Hk) as (D1 & D2 & D3).
  apply (SN_cons FBasic key key [32] (OInt z) (dec z) [] [] [] (62 :: 62 :: tail)); auto.
  - reflexivity.
  - apply sep_sp1.
  - cbn [app]. constructor; [|reflexivity|].
    + pose proof (IT_plain (dec z) D3 D2) as HI. rewrite D1 in HI. exact HI.
    + intros _ _. apply (NR_other [] (62 :: 62 :: tail)); try reflexivity. constructor.
  - constructor.
  - constructor.
Qed.
Lemma sect_ok key subs z rest : NameText key key -> 0 <= z ->
  Forall (fun p => 0 <= fst p /\ numbered (fst p) (snd p)) subs ->
  SectionText (concat (map snd subs)) (dict_of [(key, OInt z)]) (sect key subs z) rest.
Proof.
  intros HN Hz HS. unfold sect. constructor.
  - apply C18_every_table; [auto|reflexivity].
  - constructor.
  - apply Sep_ws; [reflexivity|constructor].
  - constructor.
  - now apply int_entry.
Qed.
Definition ex_subs : list (Z * list listed) := [(0, [mkListed 0 65535 0 false; mkListed 1 0 17 true]); (7, [mkListed 7 2 81 true])].
Definition ex_subs2 : list (Z * list listed) := [(1, [mkListed 1 0 400 true])].
Lemma ex_subs_ok : Forall (fun p => 0 <= fst p /\ numbered (fst p) (snd p)) ex_subs.
Proof. repeat constructor; cbn; lia. Qed.
Lemma ex_subs2_ok : Forall (fun p => 0 <= fst p /\ numbered (fst p) (snd p)) ex_subs2.
Proof. repeat constructor; cbn; lia. Qed.
Lemma name_ok_Prev : NameText (bs "Prev") (bs "Prev").
Proof. repeat (constructor; try reflexivity; try discriminate). Qed.
Lemma name_ok_Size : NameText (bs "Size") (bs "Size").
Proof. repeat (constructor; try reflexivity; try discriminate). Qed.

Example C18_ex : TableText (concat (map snd ex_subs)) (table_text ex_subs) (bs "trailer") /\
  table_text ex_subs = bs "xref" ++ [10] ++ bs "0 2" ++ [10] ++ bs "0000000000 65535 f" ++ [13; 10] ++
    bs "0000000017 00000 n" ++ [13; 10] ++ bs "7 1" ++ [10] ++ bs "0000000081 00002 n" ++ [13; 10].
Proof. split; [apply C18_every_table; [apply ex_subs_ok|reflexivity]|reflexivity]. Qed.

(** A file with two sections: the newest at 94 with /Prev 1, the oldest at 1. *)
Definition ex_tail (o : Z) : list Z := [10] ++ bs "startxref" ++ ([10] ++ dec o ++ [10]) ++ bs "%%EOF" ++ [10].
Definition ex_chain : list Z :=
  [10] ++ sect (bs "Size") ex_subs 8 ++ [10] ++ sect (bs "Prev") ex_subs2 1 ++ ex_tail 94.
Lemma ex_tail_ok A o : 0 <= o -> last_occ (bs "startxref") (bs "startxref" ++ [10] ++ dec o ++ [10]) -> offset_of (A ++ ex_tail o) (Ok o).
Proof.
  intros Ho HL. unfold ex_tail. destruct (dec_ok o Ho) as (D1 & D2 & D3).
  pose proof (C17_startxref_number (A ++ [10]) ([10] ++ dec o ++ [10]) [10] [10] (dec o) [10]) as H.
  rewrite D1, <- app_assoc in H. apply H; auto; try reflexivity.
  - destruct A; discriminate.
  - change (zlen [10]) with 1. lia.
  - apply last_occ_check; try reflexivity; [|discriminate]. eexists. reflexivity.
  - apply Sep_ws; [reflexivity|constructor].
Qed.
Example C19_chain_ex : exists ls t,
  offset_of ex_chain (Ok 94) /\ Chain ex_chain 94 ls t /\ List.length ls = 2%nat /\
  dget t (bs "xrefs") = None /\ dget t (bs "self") = None.
Proof.
  exists [concat (map snd ex_subs2); concat (map snd ex_subs)], (dict_of [(bs "Prev", OInt 1)]). repeat split.
  - pose proof (ex_tail_ok ([10] ++ sect (bs "Size") ex_subs 8 ++ [10] ++ sect (bs "Prev") ex_subs2 1) 94) as H.
    repeat rewrite <- app_assoc in H. apply H; [lia|]. apply last_occ_check; try reflexivity; [|discriminate]. eexists. reflexivity.
  - eapply (Ch_prev _ _ _ _ 1); [|reflexivity|lia|apply Ch_last; [|]].
    + exists ([10] ++ sect (bs "Size") ex_subs 8 ++ [10]), (sect (bs "Prev") ex_subs2 1), (ex_tail 94).
      split; [unfold ex_chain; repeat rewrite <- app_assoc; reflexivity|]. split; [reflexivity|].
      apply sect_ok; [apply name_ok_Prev|lia|apply ex_subs2_ok].
    + exists [10], (sect (bs "Size") ex_subs 8), ([10] ++ sect (bs "Prev") ex_subs2 1 ++ ex_tail 94).
      split; [reflexivity|]. split; [reflexivity|]. apply sect_ok; [apply name_ok_Size|lia|apply ex_subs_ok].
    + reflexivity.
Qed.
(** A file whose only section names itself as the previous one: it is never read to the end. *)
Definition ex_cycle : list Z := [10] ++ sect (bs "Prev") ex_subs2 1 ++ ex_tail 1.
Example C19_cycle_ex : forall inflate ccitt k n, 4 * zlen ex_cycle + 8 <= Z.of_nat n ->
  fst (arun ex_cycle (trailer_of inflate ccitt k n) (mkA 0 [] tt)) = Err OutOfFuel.
Proof.
  intros inflate ccitt k n Hn. apply (C19_cycle_refuted inflate ccitt ex_cycle (fun a => a = 1) 1); auto.
  - pose proof (ex_tail_ok ([10] ++ sect (bs "Prev") ex_subs2 1) 1) as H.
    repeat rewrite <- app_assoc in H. apply H; [lia|]. apply last_occ_check; try reflexivity; [|discriminate]. eexists. reflexivity.
  - intros a ->. exists (concat (map snd ex_subs2)), (dict_of [(bs "Prev", OInt 1)]), 1. repeat split; try lia.
    exists [10], (sect (bs "Prev") ex_subs2 1), (ex_tail 1). split; [reflexivity|]. split; [reflexivity|].
    apply sect_ok; [apply name_ok_Prev|lia|apply ex_subs2_ok].
Qed.
(** The two-section file meets the hypotheses of [C19_decreasing_terminates]. *)
Example C19_decreasing_ex : forall n, 4 * zlen ex_chain + 8 <= Z.of_nat n ->
  (forall o s', arun ex_chain (xref_offset n) (mkA 0 [] tt) = (Ok o, s') -> o = 94 \/ o = 1) /\
  @tables_decrease unit ex_chain (fun o => o = 94 \/ o = 1) n /\
  forall inflate ccitt, @streams_decrease unit ex_chain inflate ccitt (fun o => o = 94 \/ o = 1) n.
Proof.
  intros n Hn. destruct C19_chain_ex as (ls & t & Hoff & HC & _).
  split; [|split].
  - intros o s' E. destruct (Hoff unit [] tt n 0 Hn) as (q & ex & E'). rewrite E' in E. inversion E. auto.
  - intros st u o x t' s' p _ Ho E Hp.
    assert (section_at ex_chain 94 (concat (map snd ex_subs2)) (dict_of [(bs "Prev", OInt 1)])) as S1.
    { exists ([10] ++ sect (bs "Size") ex_subs 8 ++ [10]), (sect (bs "Prev") ex_subs2 1), (ex_tail 94).
      split; [unfold ex_chain; repeat rewrite <- app_assoc; reflexivity|]. split; [reflexivity|].
      apply sect_ok; [apply name_ok_Prev|lia|apply ex_subs2_ok]. }
    assert (section_at ex_chain 1 (concat (map snd ex_subs)) (dict_of [(bs "Size", OInt 8)])) as S2.
    { exists [10], (sect (bs "Size") ex_subs 8), ([10] ++ sect (bs "Prev") ex_subs2 1 ++ ex_tail 94).
      split; [reflexivity|]. split; [reflexivity|]. apply sect_ok; [apply name_ok_Size|lia|apply ex_subs_ok]. }
    destruct Ho as [-> | ->].
    + destruct (@r_section_at unit _ _ _ _ n S1 Hn) as [q Hq]. destruct (Hq st u) as [ex Eq]. rewrite Eq in E. inversion E; subst. 
      cbn in Hp. inversion Hp. lia.
    + destruct (@r_section_at unit _ _ _ _ n S2 Hn) as [q Hq]. destruct (Hq st u) as [ex Eq]. rewrite Eq in E. inversion E; subst.
      cbn in Hp. discriminate Hp.
  - intros inflate ccitt st u o x d s' p _ Ho E _. exfalso. revert E.
    assert (znth ex_chain o = Some 120) as Hz by (destruct Ho as [-> | ->]; reflexivity).
    assert (2 <= n)%nat by (pose proof (zlen_nonneg ex_chain); lia). destruct n as [|[|n]]; try lia. clear - Hz.
    revert Hz. generalize ex_chain. intros f Hz.
    unfold xref_stream_section, indirect_object, non_negative_int, numeric. do 3 (cbn; rewrite ?Hz). discriminate.
Qed.

Print Assumptions C18_xref_table.
Print Assumptions C18_every_table.
Print Assumptions C18_freed_later_refuted.
Print Assumptions C19_chain_collected.
Print Assumptions C19_cycle_refuted.
Print Assumptions C19_decreasing_terminates.
