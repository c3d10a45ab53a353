(** More fuel never changes an outcome that is not OutOfFuel. *)
From Coq Require Import String.
From Verif Require Import Prelude M_Prog M_Buffer S_Buffer L_Buffer L_Prog M_Parser.
Local Open Scope Z_scope.
Local Open Scope prog_scope.

(** [ple p q]: [q] is [p] except where [p] ran out of fuel. *)
Inductive ple {U A} : prog U A -> prog U A -> Prop :=
| ple_oof q : ple (Throw OutOfFuel) q
| ple_Ret a : ple (Ret a) (Ret a)
| ple_Throw e : ple (Throw e) (Throw e)
| ple_Cur k k' : (forall c, ple (k c) (k' c)) -> ple (Cur k) (Cur k')
| ple_Next k k' : (forall c, ple (k c) (k' c)) -> ple (Next k) (Next k')
| ple_Prev k k' : (forall c, ple (k c) (k' c)) -> ple (Prev k) (Prev k')
| ple_Reset o k k' : ple k k' -> ple (Reset o k) (Reset o k')
| ple_Save k k' : (forall c, ple (k c) (k' c)) -> ple (Save k) (Save k')
| ple_Restore h k k' : ple k k' -> ple (Restore h k) (Restore h k')
| ple_Index k k' : (forall c, ple (k c) (k' c)) -> ple (Index k) (Index k')
| ple_GetU k k' : (forall c, ple (k c) (k' c)) -> ple (GetU k) (GetU k')
| ple_SetU u k k' : ple k k' -> ple (SetU u k) (SetU u k').

Lemma ple_refl {U A} (p : prog U A) : ple p p.
Proof. induction p; constructor; auto. Qed.

Lemma ple_bind {U A B} (p p' : prog U A) (g g' : A -> prog U B) :
  ple p p' -> (forall a, ple (g a) (g' a)) -> ple (bind p g) (bind p' g').
Proof. intros Hp Hg. induction Hp; cbn [bind]; try constructor; auto. Qed.

Lemma ple_catch {U A} (p p' : prog U A) hd h h' :
  ple p p' -> (forall e, ple (h e) (h' e)) -> ple (catch p hd h) (catch p' hd h').
Proof.
  intros Hp Hh. induction Hp; cbn [catch]; try (constructor; auto; fail).
  - cbn [exn_eqb negb]. rewrite andb_false_r. constructor.
  - destruct (hd e && negb (exn_eqb e OutOfFuel)); auto. constructor.
Qed.

Lemma ple_arun {U A} f (p q : prog U A) : ple p q -> forall s,
  fst (arun f p s) <> Err OutOfFuel -> arun f q s = arun f p s.
Proof.
  intros H. induction H; intros s Hs; cbn [arun] in *; auto.
  - contradiction Hs; auto.
  - destruct (nth_error (a_store s) h); auto.
Qed.

Lemma ple_trans {U A} (p q : prog U A) : ple p q -> forall r, ple q r -> ple p r.
Proof.
  intros H. induction H; intros r Hr; try constructor; auto;
    inversion Hr; subst; constructor; auto.
Qed.

Ltac ple_step :=
  lazymatch goal with
  | |- ple ?p ?p => apply ple_refl
  | |- ple (throw OutOfFuel) _ => apply ple_oof
  | |- ple (bind _ _) (bind _ _) => apply ple_bind; [|intros]
  | |- ple (catch _ _ _) (catch _ _ _) => apply ple_catch; [|intros]
  | |- ple (if ?b then _ else _) _ => destruct b
  | |- ple (match ?x with _ => _ end) _ => destruct x
  end.
Ltac ple_go := repeat (ple_step || (progress auto)).

Section Mono.
  Context {U : Type}.
  Notation P := (prog U).

  Lemma ple_maybe_spaces : forall n m, (n <= m)%nat -> ple (maybe_spaces n : P _) (maybe_spaces m).
  Proof.
    induction n as [|n IH]; intros [|m] Hm; intros; try apply ple_oof; [lia|].
    assert (n <= m)%nat as Hnm by lia. 
    specialize (IH m Hnm). cbn [maybe_spaces]; cbv zeta. ple_go.
  Qed.
  Lemma ple_comment_loop : forall n m, (n <= m)%nat -> ple (comment_loop n : P _) (comment_loop m).
  Proof.
    induction n as [|n IH]; intros [|m] Hm; intros; try apply ple_oof; [lia|].
    assert (n <= m)%nat as Hnm by lia. 
    specialize (IH m Hnm). cbn [comment_loop]; cbv zeta. ple_go.
  Qed.
  Lemma ple_comment n m : (n <= m)%nat -> ple (comment n : P _) (comment m).
  Proof. intros Hm. unfold comment. pose proof (ple_comment_loop n m Hm). ple_go. Qed.
  Lemma ple_comments_loop : forall n m, (n <= m)%nat -> ple (comments_loop n : P _) (comments_loop m).
  Proof.
    induction n as [|n IH]; intros [|m] Hm; intros; try apply ple_oof; [lia|].
    assert (n <= m)%nat as Hnm by lia. pose proof (ple_comment n m Hnm). pose proof (ple_maybe_spaces n m Hnm).
    specialize (IH m Hnm). cbn [comments_loop]; cbv zeta. ple_go.
  Qed.
  Lemma ple_sp n m : (n <= m)%nat -> ple (sp n : P _) (sp m).
  Proof. intros Hm. unfold sp. pose proof (ple_maybe_spaces n m Hm). pose proof (ple_comments_loop n m Hm). ple_go. Qed.
  Lemma ple_digits : forall n m, (n <= m)%nat -> forall acc, ple (digits n acc : P _) (digits m acc).
  Proof.
    induction n as [|n IH]; intros [|m] Hm; intros; try apply ple_oof; [lia|].
    assert (n <= m)%nat as Hnm by lia. 
    specialize (IH m Hnm). cbn [digits]; cbv zeta. ple_go.
  Qed.
  Lemma ple_numeric n m : (n <= m)%nat -> ple (numeric n : P _) (numeric m).
  Proof. intros Hm. unfold numeric. pose proof (ple_digits n m Hm). ple_go. Qed.
  Lemma ple_non_negative_int n m : (n <= m)%nat -> ple (non_negative_int n : P _) (non_negative_int m).
  Proof. intros Hm. unfold non_negative_int. pose proof (ple_numeric n m Hm). ple_go. Qed.
  Lemma ple_name_loop : forall n m, (n <= m)%nat -> forall acc, ple (name_loop n acc : P _) (name_loop m acc).
  Proof.
    induction n as [|n IH]; intros [|m] Hm; intros; try apply ple_oof; [lia|].
    assert (n <= m)%nat as Hnm by lia. 
    specialize (IH m Hnm). cbn [name_loop]; cbv zeta. ple_go.
  Qed.
  Lemma ple_name n m : (n <= m)%nat -> ple (name n : P _) (name m).
  Proof. intros Hm. unfold name. pose proof (ple_name_loop n m Hm). ple_go. Qed.
  Lemma ple_hex_loop : forall n m, (n <= m)%nat -> forall acc, ple (hex_loop n acc : P _) (hex_loop m acc).
  Proof.
    induction n as [|n IH]; intros [|m] Hm; intros; try apply ple_oof; [lia|].
    assert (n <= m)%nat as Hnm by lia. pose proof (ple_sp n m Hnm).
    specialize (IH m Hnm). cbn [hex_loop]; cbv zeta. ple_go.
  Qed.
  Lemma ple_hexstring n m : (n <= m)%nat -> ple (hexstring n : P _) (hexstring m).
  Proof. intros Hm. unfold hexstring. pose proof (ple_hex_loop n m Hm). pose proof (ple_sp n m Hm). ple_go. Qed.
  Lemma ple_str_loop : forall n m, (n <= m)%nat -> forall acc, ple (str_loop n acc : P _) (str_loop m acc).
  Proof.
    induction n as [|n IH]; intros [|m] Hm; intros; try apply ple_oof; [lia|].
    assert (n <= m)%nat as Hnm by lia. 
    specialize (IH m Hnm). cbn [str_loop]; cbv zeta. ple_go.
  Qed.
  Lemma ple_string_ n m : (n <= m)%nat -> ple (string_ n : P _) (string_ m).
  Proof. intros Hm. unfold string_. pose proof (ple_str_loop n m Hm). ple_go. Qed.
  Lemma ple_indirect_reference n m : (n <= m)%nat -> ple (indirect_reference n : P _) (indirect_reference m).
  Proof. intros Hm. unfold indirect_reference. pose proof (ple_non_negative_int n m Hm). pose proof (ple_sp n m Hm). ple_go. Qed.
  Lemma ple_numeric_or_indirect_reference n m : (n <= m)%nat -> ple (numeric_or_indirect_reference n : P _) (numeric_or_indirect_reference m).
  Proof. intros Hm. unfold numeric_or_indirect_reference. pose proof (ple_indirect_reference n m Hm). pose proof (ple_numeric n m Hm). ple_go. Qed.
  Lemma ple_token_loop : forall n m, (n <= m)%nat -> forall acc, ple (token_loop n acc : P _) (token_loop m acc).
  Proof.
    induction n as [|n IH]; intros [|m] Hm; intros; try apply ple_oof; [lia|].
    assert (n <= m)%nat as Hnm by lia. 
    specialize (IH m Hnm). cbn [token_loop]; cbv zeta. ple_go.
  Qed.
  Lemma ple_token n m : (n <= m)%nat -> ple (token n : P _) (token m).
  Proof. intros Hm. unfold token. pose proof (ple_token_loop n m Hm). ple_go. Qed.
  Lemma ple_find_endstream : forall n m, (n <= m)%nat -> forall err acc, ple (find_endstream n err acc : P _) (find_endstream m err acc).
  Proof.
    induction n as [|n IH]; intros [|m] Hm; intros; try apply ple_oof; [lia|].
    assert (n <= m)%nat as Hnm by lia. 
    specialize (IH m Hnm). cbn [find_endstream]; cbv zeta. ple_go.
  Qed.
  Lemma ple_stream_body n m d : (n <= m)%nat -> ple (stream_body n d : P _) (stream_body m d).
  Proof.
    intros Hm. unfold stream_body. pose proof (ple_maybe_spaces n m Hm). pose proof (ple_find_endstream n m Hm). ple_go.
  Qed.
  Lemma ple_ii_data : forall n m, (n <= m)%nat -> forall acc, ple (ii_data n acc : P _) (ii_data m acc).
  Proof.
    induction n as [|n IH]; intros [|m] Hm; intros; try apply ple_oof; [lia|].
    assert (n <= m)%nat as Hnm by lia. 
    specialize (IH m Hnm). cbn [ii_data]; cbv zeta. ple_go.
  Qed.

  Variables fix_len fix_len' : dict -> P dict.
  Hypothesis Hfix : forall d, ple (fix_len d) (fix_len' d).
  Lemma ple_objects : forall n m, (n <= m)%nat ->
    (forall fl, ple (object fix_len fl n : P _) (object fix_len' fl m)) /\
    (forall fl, ple (dictionary fix_len fl n : P _) (dictionary fix_len' fl m)) /\
    (forall fl acc, ple (dict_loop fix_len fl n acc : P _) (dict_loop fix_len' fl m acc)) /\
    (forall fl acc, ple (arr_loop fix_len fl n acc : P _) (arr_loop fix_len' fl m acc)) /\
    (ple (inline_image fix_len n : P _) (inline_image fix_len' m)) /\
    (forall acc, ple (entities fix_len n acc : P _) (entities fix_len' m acc)).
  Proof.
    induction n as [|n IH]; intros [|m] Hm; try lia; try (repeat split; intros; apply ple_oof).
    assert (n <= m)%nat as Hnm by lia.
    destruct (IH m Hnm) as (IHo & IHd & IHdl & IHal & IHi & IHe).
    pose proof (ple_sp n m Hnm). pose proof (ple_token n m Hnm).
    assert (forall d, ple (stream_body n d : P _) (stream_body m d)) by (intros; apply ple_stream_body; auto).
    pose proof (ple_hexstring n m Hnm).
    pose proof (ple_string_ n m Hnm). pose proof (ple_numeric n m Hnm).
    pose proof (ple_numeric_or_indirect_reference n m Hnm). pose proof (ple_name n m Hnm).
    pose proof (ple_ii_data n m Hnm).
    repeat split; intros; cbn [object dictionary dict_loop arr_loop inline_image entities].
    - do 2 (apply ple_bind; [auto using ple_refl|intros]). destruct a0 as [x|]; [|apply ple_refl].
      ple_go.
    - ple_go.
    - ple_go.
    - ple_go.
    - ple_go.
    - ple_go.
  Qed.
End Mono.

Lemma ple_object {U} fl n m : (n <= m)%nat ->
  ple (object (fun d => ret d) fl n : prog U _) (object (fun d => ret d) fl m).
Proof. intros H. apply ple_objects; auto. intros; apply ple_refl. Qed.

Lemma ple_content_loop {U} : forall n m, (n <= m)%nat -> forall ops out,
  ple (content_loop n ops out : prog U _) (content_loop m ops out).
Proof.
  induction n as [|n IH]; intros [|m] Hm; intros; try apply ple_oof; [lia|].
  assert (n <= m)%nat as Hnm by lia. specialize (IH m Hnm).
  pose proof (@ple_object U FContent n m Hnm). pose proof (@ple_sp U n m Hnm).
  cbn [content_loop]. ple_go.
Qed.
Lemma ple_content_objects {U} n m : (n <= m)%nat ->
  ple (content_objects n : prog U _) (content_objects m).
Proof.
  intros Hm. unfold content_objects. pose proof (@ple_sp U n m Hm). pose proof (@ple_content_loop U n m Hm). ple_go.
Qed.
