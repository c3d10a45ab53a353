(** The cross-reference parsers on arbitrary input: they end, with a value or a known exception. *)
From Coq Require Import String.
From Verif Require Import Prelude M_Prog M_Buffer S_Buffer L_Buffer L_Prog M_Parser L_ParserWP M_Filters M_Document.
Local Open Scope Z_scope.
Local Open Scope prog_scope.

Section W.
  Context {U : Type}.
  Variables (f : list Z) (lo : Z).
  Notation P := (prog U).
  Notation no_hook := (fun d => ret d : P dict).

  (** ParserException, TypeError, KeyError, ValueError, AssertionError *)
  Definition xe : list exn := [ParserExc; TypeErr; KeyErr; ValueErr; AssertionErr].
  Ltac fl := unfold fuel, fuel1, ofuel in *; try lia.
  Ltac ifs := match goal with |- context [if ?b then _ else _] => let E := fresh "C" in destruct b eqn:E end.
  Ltac err := cbv beta iota; cbn [adv xe pe pek In]; intros; repeat match goal with H : _ \/ _ |- _ => destruct H | H : _ /\ _ |- _ => destruct H end; subst; cbn [adv xe pe pek In]; try tauto.

  Lemma wp_until hs stop : stop None = false -> forall n acc pos, lo <= pos -> fuel1 f n pos ->
    wp f lo hs (until stop n acc : P _) pos (adv pos 0 xe).
  Proof.
    intros Hs. induction n as [|n IH]; intros acc pos Hlo Hn; [fl|]. cbn [until].
    apply wp_cur; auto. ifs; [apply wp_ret; cbn; lia|].
    apply wp_next_byte; auto; [|err]. intros x Hx. apply znth_lt in Hx.
    eapply wp_conseq; [apply IH; fl|]. intros r q Hq. eapply adv_weak; eauto; [lia|apply incl_refl].
  Qed.
  Lemma wp_range hs n pos : lo <= pos -> fuel1 f n pos -> wp f lo hs (xref_range n : P _) pos (adv pos 1 xe).
  Proof.
    intros Hlo Hn. unfold xref_range.
    eapply wp_bind; [apply wp_until; auto| |]; [|err]. cbn [adv]. intros d1 q Hq.
    apply wp_next; [lia|].
    eapply wp_bind; [apply wp_until; fl; auto| |]; [|err]. cbn [adv]. intros d2 q2 Hq2.
    destruct (py_int d1), (py_int d2); try (apply wp_throw; err). apply wp_ret. cbn. lia.
  Qed.
  Lemma wp_entry hs pos : lo <= pos -> wp f lo hs (xref_entry : P _) pos (adv pos 20 xe).
  Proof.
    intros Hlo. unfold xref_entry. eapply wp_bind; [apply wp_read; auto| |]; [|err]. cbv beta iota. intros data q [-> _].
    destruct (split_sp 2 [] (strip data)) as [|o [|g [|fl_ [|? ?]]]]; try (apply wp_throw; err).
    destruct (py_int o), (py_int g); try (apply wp_throw; err).
    ifs; [apply wp_ret; cbn; lia|]. ifs; [apply wp_ret; cbn; lia|]. apply wp_throw; err.
  Qed.
  Lemma wp_entries hs : forall k num x pos, lo <= pos -> wp f lo hs (entries_loop k num x : P _) pos (adv pos 0 xe).
  Proof.
    induction k as [|k IH]; intros num x pos Hlo; cbn [entries_loop]; [apply wp_ret; cbn; lia|].
    eapply wp_bind; [apply wp_entry; auto| |]; [|err]. cbn [adv]. intros [[off gen] used] q Hq.
    unfold new_entry. ifs; [|apply wp_throw; err].
    eapply wp_conseq; [apply IH; lia|]. intros r q2 H2. eapply adv_weak; eauto; [lia|apply incl_refl].
  Qed.
  Lemma wp_ranges hs : forall n x pos, lo <= pos -> fuel f n pos -> wp f lo hs (ranges_loop n x : P _) pos (adv pos 0 xe).
  Proof.
    induction n as [|n IH]; intros x pos Hlo Hn; [fl|]. cbn [ranges_loop].
    apply wp_cur; auto. destruct (znth f pos) as [b|] eqn:Eb; [|apply wp_throw; err]. pose proof (znth_lt _ _ _ Eb) as Hb.
    ifs; [|apply wp_ret; cbn; lia].
    eapply wp_bind; [apply wp_range; fl| |]; [|err]. cbn [adv]. intros [first cnt] q Hq.
    eapply wp_bind; [apply wp_eol; lia| |]; [|err]. cbv beta iota. intros ? q2 Hq2.
    eapply wp_bind; [apply wp_entries; lia| |]; [|err]. cbn [adv]. intros x' q3 Hq3.
    eapply wp_conseq; [apply IH; fl|]. intros r q4 H4. eapply adv_weak; eauto; [lia|apply incl_refl].
  Qed.
  Lemma wp_table hs n pos : lo <= pos -> fuel f n pos -> wp f lo hs (direct_xref n : P _) pos (adv pos 0 xe).
  Proof.
    intros Hlo Hn. unfold direct_xref. eapply wp_bind; [apply wp_read; auto| |]; [|err]. cbv beta iota. intros t q [-> _].
    ifs; [|apply wp_throw; err].
    eapply wp_bind; [apply wp_sp; fl| |]; [|err]. cbn [adv]. intros ? q2 Hq2.
    eapply wp_conseq; [apply wp_ranges; fl|]. intros r q4 H4. eapply adv_weak; eauto; [lia|apply incl_refl].
  Qed.
  Lemma wp_dictionary hs fl n pos : lo <= pos -> ofuel f n pos (oc fl) -> wp f lo hs (dictionary no_hook fl n : P _) pos (adv pos 0 pek).
  Proof.
    intros Hlo Hn. assert (Z.lt 0 (oc fl)) as Hoc by (destruct fl; cbn; lia).
    destruct (Z_lt_dec (zlen f - pos) 2) as [H|H].
    - destruct n as [|n]; [unfold ofuel in Hn; lia|]. cbn [dictionary].
      assert (znth f (pos + 1) = None) as E1 by (apply znth_None; lia).
      unfold read. apply wp_assoc. cbn [read_opts]. apply wp_assoc. apply wp_next; auto. apply wp_assoc. cbn [bind].
      apply wp_assoc. apply wp_next; [lia|]. rewrite E1. cbn [bind ret all_some].
      apply wp_bret. cbn [bind all_some]. destruct (znth f pos); cbn [all_some bind throw]; apply wp_throw; cbn; auto.
    - eapply wp_conseq; [apply wp_object; auto; [|lia]|].
      + unfold ofuel in *. lia.
      + intros r q Hq. eapply adv_weak; eauto; [lia|apply incl_refl].
  Qed.
  Lemma wp_trailer hs n pos : lo <= pos -> ofuel f n pos 8 -> wp f lo hs (trailer no_hook n : P _) pos (adv pos 0 xe).
  Proof.
    intros Hlo Hn. unfold trailer. eapply wp_bind; [apply wp_read; auto| |]; [|err]. cbv beta iota. intros t q [-> _].
    ifs; [|apply wp_throw; err].
    eapply wp_bind; [apply wp_sp; fl| |]; [|err]. cbn [adv]. intros ? q2 Hq2.
    eapply wp_conseq; [apply wp_dictionary; [lia|unfold ofuel, oc in *; lia]|].
    intros r q4 H4. eapply adv_weak; eauto; [lia|]. intros e; err.
  Qed.
  Lemma wp_section hs n pos : lo <= pos -> ofuel f n pos 8 -> wp f lo hs (table_section no_hook n : P _) pos (adv pos 0 xe).
  Proof.
    intros Hlo Hn. unfold table_section.
    eapply wp_bind; [apply wp_table; fl| |]; [|err]. cbn [adv]. intros x q Hq.
    eapply wp_bind; [apply wp_sp; fl| |]; [|err]. cbn [adv]. intros ? q2 Hq2.
    eapply wp_bind; [apply wp_trailer; fl| |]; [|err]. cbn [adv]. intros t q3 Hq3.
    apply wp_ret. cbn. lia.
  Qed.
  Lemma wp_indirect hs n pos : lo <= pos -> ofuel f n pos 8 -> wp f lo hs (indirect_object no_hook n : P _) pos (adv pos 0 xe).
  Proof.
    intros Hlo Hn. unfold indirect_object.
    eapply wp_bind; [apply wp_nni; fl| |]; [|err]. cbv beta iota. intros num q Hq.
    eapply wp_bind; [apply wp_sp; fl| |]; [|err]. cbn [adv]. intros ? q2 Hq2.
    eapply wp_bind; [apply wp_nni; fl| |]; [|err]. cbv beta iota. intros gen q3 Hq3.
    eapply wp_bind; [apply wp_sp; fl| |]; [|err]. cbn [adv]. intros ? q4 Hq4.
    eapply wp_bind; [apply wp_read; fl| |]; [|err]. cbv beta iota. intros t q5 [-> _].
    ifs; [|apply wp_throw; err].
    eapply wp_bind; [apply wp_sp; fl| |]; [|err]. cbn [adv]. intros ? q6 Hq6.
    eapply wp_bind; [apply wp_object; [lia|unfold ofuel, oc in *; lia]| |]; [|err]. cbn [adv]. intros v q7 Hq7.
    eapply wp_bind; [apply wp_sp; fl| |]; [|err]. cbn [adv]. intros ? q8 Hq8.
    eapply wp_bind; [apply wp_read; fl| |]; [|err]. cbv beta iota. intros t2 q9 [-> _].
    ifs; [apply wp_ret; cbn; lia|]. destruct v; try (apply wp_throw; err).
    eapply wp_bind; [apply wp_prevs; lia| |]; cbv beta iota; [|intros e q10 [H _]; discriminate H].
    intros ? q10 [_ ->]. apply wp_ret. cbn. lia.
  Qed.
End W.
