(** Parsers on arbitrary input: C03, C15, C68, C69. *)
From Coq Require Import String.
From Verif Require Import Prelude M_Prog M_Buffer S_Buffer L_Buffer L_Prog M_Parser L_ParserWP L_Fuel.
Local Open Scope Z_scope.
Local Open Scope prog_scope.

Definition no_hook {U} : dict -> prog U dict := fun d => ret d.

Lemma total_of_wp {U A} f lo pos (F : nat -> prog U A) (N : Z) Q :
  (forall n m, (n <= m)%nat -> ple (F n) (F m)) ->
  (forall n, N <= Z.of_nat n -> wp f lo [] (F n) pos Q) ->
  (forall q, ~ Q (Err OutOfFuel) q) ->
  forall st u, exists r s', Q r (a_pos s') /\ a_usr s' = u /\
    forall n, N <= Z.of_nat n -> arun f (F n) (mkA pos st u) = (r, s').
Proof.
  intros Hm Hw HQ st u.
  assert (N <= Z.of_nat (Z.to_nat (Z.max 0 N))) as HN by lia.
  destruct (Hw _ HN st u) as (r & q & ex & E & Hq & _); [constructor|].
  exists r, (mkA q (st ++ ex) u). repeat split; auto.
  intros n Hn. destruct (Nat.le_ge_cases n (Z.to_nat (Z.max 0 N))) as [Hle|Hle].
  - destruct (Hw _ Hn st u) as (r2 & q2 & ex2 & E2 & Hq2 & _); [constructor|].
    rewrite <- E. symmetry. apply (ple_arun f _ _ (Hm _ _ Hle)). rewrite E2. cbn.
    intros ->. apply (HQ q2 Hq2).
  - rewrite (ple_arun f _ _ (Hm _ _ Hle)); rewrite E; auto. cbn.
    intros ->. apply (HQ q Hq).
Qed.

(** C03.  [st] are the states saved so far, [u] the state of the parser object (unchanged).
    For every file, flavour of parser and position, object() has one outcome, reached with any
    fuel above 4*length+8 — that is, no loop or recursion runs longer than that; a value
    consumes at least one byte. *)
Theorem C03_object_terminates : forall U f fl pos st (u : U), 0 <= pos ->
  exists r s', r <> Err OutOfFuel /\
    (forall v, r = Ok v -> pos < a_pos s') /\
    (forall n, 4 * zlen f + 8 <= Z.of_nat n -> arun f (object no_hook fl n) (mkA pos st u) = (r, s')).
Proof.
  intros U f fl pos st u Hp.
  destruct (total_of_wp f pos pos (fun n => object (U := U) no_hook fl n) (4 * zlen f + 8) (adv pos 1 pek))
    with (st := st) (u := u) as (r & s' & HQ & Hu & Hn).
  - intros n m Hnm. apply ple_object; auto.
  - intros n Hn. apply (proj1 (wp_object f pos [] n)); [lia|].
    unfold ofuel. pose proof (zlen_nonneg f). assert (oc fl <= 8) by (destruct fl; cbn; lia). lia.
  - intros q [X|[X|[X|[]]]]; discriminate.
  - exists r, s'. repeat split; auto.
    + intros ->. destruct HQ as [X|[X|[X|[]]]]; discriminate.
    + intros v ->. cbn in HQ. lia.
Qed.

(** C15. *)
Theorem C15_object_exceptions : forall U f fl pos st (u : U) n e s', 0 <= pos ->
  4 * zlen f + 8 <= Z.of_nat n ->
  arun f (object no_hook fl n) (mkA pos st u) = (Err e, s') ->
  e = ParserExc \/ e = TypeErr \/ e = KeyErr.
Proof.
  intros U f fl pos st u n e s' Hp Hn E.
  destruct (proj1 (@wp_object U f pos [] n) fl pos) with (st := st) (u := u) as (r & q & ex & E2 & HQ & _); try lia.
  - unfold ofuel. pose proof (zlen_nonneg f). assert (oc fl <= 8) by (destruct fl; cbn; lia). lia.
  - constructor.
  - unfold no_hook in E. rewrite E in E2. inversion E2; subst. cbn in HQ. intuition congruence.
Qed.

Definition parse0 (s : string) : res obj :=
  fst (arun (bs s) (object no_hook FBasic 400) (mkA 0 [] tt)).

(** The three exceptions all occur, so "malformed input raises ParserException" is false. *)
Theorem C15_only_parser_exception_refuted :
  ~ (forall s e, parse0 s = Err e -> e = ParserExc).
Proof. intro H. specialize (H "(abc"%string TypeErr eq_refl). discriminate. Qed.
Example C15_ex_parser : parse0 ")" = Err ParserExc. Proof. vm_compute. reflexivity. Qed.
Example C15_ex_type : parse0 "[1 2" = Err TypeErr. Proof. vm_compute. reflexivity. Qed.
Example C15_ex_key : parse0 "<</A 1>>stream" = Err KeyErr. Proof. vm_compute. reflexivity. Qed.
Example C03_ex_value :
  parse0 " <</A [1 -2.50 (x(y)\101) <4 1>] /B 7 0 R%c
   /A null>>" = Ok (ODict [(bs "A", ONull); (bs "B", ORef 7 0)]).
Proof. vm_compute. reflexivity. Qed.

(** C68. *)
Theorem C68_content_terminates : forall U f pos st (u : U), 0 <= pos ->
  exists r s', r <> Err OutOfFuel /\
    (forall e, r = Err e -> e = ParserExc \/ e = TypeErr \/ e = KeyErr) /\
    (forall n, 4 * zlen f + 10 <= Z.of_nat n -> arun f (content_objects n) (mkA pos st u) = (r, s')).
Proof.
  intros U f pos st u Hp.
  destruct (total_of_wp f pos pos (fun n => content_objects (U := U) n) (4 * zlen f + 10) (adv pos 0 pek))
    with (st := st) (u := u) as (r & s' & HQ & Hu & Hn).
  - intros n m Hnm. apply ple_content_objects; auto.
  - intros n Hn. apply wp_content_objects; [lia|]. unfold ofuel. pose proof (zlen_nonneg f). lia.
  - intros q [X|[X|[X|[]]]]; discriminate.
  - exists r, s'. repeat split; auto.
    + intros ->. destruct HQ as [X|[X|[X|[]]]]; discriminate.
    + intros e ->. cbn in HQ. intuition congruence.
Qed.
Example C68_ex :
  fst (arun (bs "q 1 0 0 1 0 0 cm BT /F1 12 Tf (a) Tj ET BI /W 1 ID ab EI Q") (content_objects 400) (mkA 0 [] tt))
  = Ok [COp (bs "q") []; COp (bs "cm") [OInt 1; OInt 0; OInt 0; OInt 1; OInt 0; OInt 0];
        COp (bs "BT") []; COp (bs "Tf") [OName (bs "F1"); OInt 12]; COp (bs "Tj") [OStr (bs "a")];
        COp (bs "ET") []; CImage [(bs "W", OInt 1)] (bs "ab"); COp (bs "Q") []].
Proof. vm_compute. reflexivity. Qed.

(** C69.  [then_read k p] parses and then reads the next k bytes, which shows where parsing stopped. *)
Definition then_read {A} (k : nat) (p : prog unit A) : prog unit (A * list (option Z)) :=
  v <- p ;; l <- read_opts k ;; ret (v, l).

Lemma block_size_irrelevant {A} f o (p : prog unit A) es : 0 <= o ->
  wp f o [] p o (adv o 0 es) ->
  forall k B, 0 < B ->
  fst (crun f B (then_read k p) (mkC (b_reset f B o) [] tt)) = fst (arun f (then_read k p) (mkA o [] tt)).
Proof.
  intros Ho Hw k B HB. apply (forward_transparent f B (then_read k p) o tt HB Ho).
  apply (above_forward f o); [lia|reflexivity|constructor|].
  assert (wp f o [] (then_read k p) o (fun _ _ => True)) as W.
  { unfold then_read. eapply wp_bind; [exact Hw| |]; auto.
    intros a q Hq. eapply wp_bind; [apply wp_read_opts; cbn in Hq; lia| |]; auto. intros. now apply wp_ret. }
  destruct (W [] tt) as (_ & _ & _ & _ & _ & X); [constructor|]. exact X.
Qed.

Theorem C69_object_block_size : forall f fl o n k B1 B2,
  0 <= o -> 0 < B1 -> 0 < B2 -> 4 * zlen f + 8 <= Z.of_nat n ->
  let run B := fst (crun f B (then_read k (object no_hook fl n)) (mkC (b_reset f B o) [] tt)) in
  run B1 = run B2 /\
  run B1 = fst (arun f (then_read k (object no_hook fl n)) (mkA o [] tt)).
Proof.
  intros f fl o n k B1 B2 Ho H1 H2 Hn run. unfold run.
  assert (wp f o [] (object (U := unit) no_hook fl n) o (adv o 0 pek)) as W.
  { eapply wp_conseq; [apply (proj1 (wp_object f o [] n)); [lia|]|].
    - unfold ofuel. pose proof (zlen_nonneg f). assert (oc fl <= 8) by (destruct fl; cbn; lia). lia.
    - intros r q Hq. eapply adv_weak; eauto; [lia|apply incl_refl]. }
  rewrite !(block_size_irrelevant f o _ pek Ho W) by auto. auto.
Qed.

Theorem C69_content_block_size : forall f o n k B1 B2,
  0 <= o -> 0 < B1 -> 0 < B2 -> 4 * zlen f + 10 <= Z.of_nat n ->
  let run B := fst (crun f B (then_read k (content_objects n)) (mkC (b_reset f B o) [] tt)) in
  run B1 = run B2.
Proof.
  intros f o n k B1 B2 Ho H1 H2 Hn run. unfold run.
  assert (wp f o [] (content_objects (U := unit) n) o (adv o 0 pek)) as W.
  { apply wp_content_objects; [lia|]. unfold ofuel. pose proof (zlen_nonneg f). lia. }
  rewrite !(block_size_irrelevant f o _ pek Ho W) by auto. auto.
Qed.

Example C69_ex :
  fst (crun (bs "xx[1 0 R (ab) 12 3 <</K /V>>]tail") 3 (then_read 4 (object no_hook FBasic 400))
         (mkC (b_reset (bs "xx[1 0 R (ab) 12 3 <</K /V>>]tail") 3 2) [] tt))
  = Ok (OArr [ORef 1 0; OStr (bs "ab"); OInt 12; OInt 3; ODict [(bs "K", OName (bs "V"))]],
        map Some (bs "tail")).
Proof. vm_compute. reflexivity. Qed.

Print Assumptions C03_object_terminates.
Print Assumptions C15_object_exceptions.
Print Assumptions C15_only_parser_exception_refuted.
Print Assumptions C68_content_terminates.
Print Assumptions C69_object_block_size.
Print Assumptions C69_content_block_size.
