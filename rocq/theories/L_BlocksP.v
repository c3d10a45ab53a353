(** The parsers read forward: they never read before the position they were started at (L_Blocks.v), whatever the input, with
    any way of finding the length of a stream that comes back to where it left. *)
From Coq Require Import String.
From Verif Require Import Prelude M_Prog M_Buffer S_Buffer L_Buffer L_Prog M_Parser L_Blocks M_Filters M_Document.
Local Open Scope Z_scope.
Local Open Scope prog_scope.

Section G.
  Context {U : Type}.
  Variables (f : list Z) (B : Z) (I : inv U).
  Variable lo : Z.
  Notation P := (prog U).
  Notation gw := (gw f B I).

  Lemma g_cur {A} hs (g : option Z -> P A) pos R : lo <= pos -> gw lo hs (g (znth f pos)) pos R -> gw lo hs (bind cur g) pos R.
  Proof. intros; now apply gw_Cur. Qed.
  Lemma g_next {A} hs (g : option Z -> P A) pos R : lo <= pos -> gw lo hs (g (znth f pos)) (pos + 1) R -> gw lo hs (bind next g) pos R.
  Proof. intros; now apply gw_Next. Qed.
  Lemma g_prev {A} hs (g : option Z -> P A) pos R : lo <= pos -> gw lo hs (g (znth f pos)) (pos - 1) R -> gw lo hs (bind prev g) pos R.
  Proof. intros; now apply gw_Prev. Qed.
  Lemma g_save {A} hs (g : nat -> P A) pos R : lo <= pos -> (forall h, gw lo ((h, pos) :: hs) (g h) pos R) -> gw lo hs (bind save g) pos R.
  Proof. intros; now apply gw_Save. Qed.
  Lemma g_restore {A} hs h q0 (g : unit -> P A) pos R : In (h, q0) hs -> gw lo hs (g tt) q0 R -> gw lo hs (bind (restore h) g) pos R.
  Proof. intros; now apply gw_Restore with q0. Qed.

  Definition ge {A} (pos k : Z) : A -> Z -> Prop := fun _ q => pos + k <= q.
  Lemma g_le {A} hs (p : P A) q pos k k' : gw lo hs p q (ge q k) -> pos + k' <= q + k -> gw lo hs p q (ge pos k').
  Proof. intros H Hk. eapply gw_conseq; [exact H|]. unfold ge. intros; lia. Qed.

  Ltac ifs := match goal with |- L_Blocks.gw _ _ _ _ _ (if ?b then _ else _) _ _ => let E := fresh "C" in destruct b eqn:E end.
  Ltac mts := match goal with |- L_Blocks.gw _ _ _ _ _ (match ?x with _ => _ end) _ _ => let E := fresh "C" in destruct x eqn:E end.
  Ltac li := unfold ge in *; try lia.
  (** one step *)
  Ltac s1 :=
    match goal with
    | |- L_Blocks.gw _ _ _ _ _ (bind cur _) _ _ => apply g_cur; [li|]
    | |- L_Blocks.gw _ _ _ _ _ (bind next _) _ _ => apply g_next; [li|]
    | |- L_Blocks.gw _ _ _ _ _ (bind prev _) _ _ => apply g_prev; [li|]
    | |- L_Blocks.gw _ _ _ _ _ (bind save _) _ _ => apply g_save; [li|intros ?h]
    | |- L_Blocks.gw _ _ _ _ _ (bind (ret ?a) ?g) ?p ?R => change (gw lo _ (g a) p R); cbv beta
    | |- L_Blocks.gw _ _ _ _ _ (ret _) _ _ => apply gw_ret; li; auto
    | |- L_Blocks.gw _ _ _ _ _ (throw _) _ _ => apply gw_throw; li
    | |- L_Blocks.gw _ _ _ _ _ (bind (throw _) _) _ _ => apply gw_throw; li
    end.
  Ltac s := repeat (cbv beta; s1).

  Lemma g_maybe_spaces hs : forall n pos, lo <= pos -> gw lo hs (maybe_spaces n : P unit) pos (ge pos 0).
  Proof. induction n as [|n IH]; intros pos Hlo; cbn [maybe_spaces]; s. ifs; s. eapply g_le; [apply IH|]; li. Qed.
  Lemma g_maybe_eol hs pos : lo <= pos -> gw lo hs (maybe_eol : P unit) pos (ge pos 0).
  Proof. intros Hlo. unfold maybe_eol. s. ifs; s; ifs; s. Qed.
  Lemma g_eol hs pos : lo <= pos -> gw lo hs (eol : P unit) pos (ge pos 0).
  Proof. intros Hlo. unfold eol. s. ifs; s. now apply g_maybe_eol. Qed.
  Lemma g_next_byte {A} hs (g : Z -> P A) pos R : lo <= pos -> (forall x, gw lo hs (g x) (pos + 1) R) -> gw lo hs (bind next_byte g) pos R.
  Proof.
    intros Hlo H. eapply gw_bind; [|].
    - instantiate (1 := fun _ q => q = pos + 1). unfold next_byte. s. destruct (znth f pos); s.
    - cbv beta. intros x q ->. apply H.
  Qed.
  Lemma g_comment_loop hs : forall n pos, lo <= pos -> gw lo hs (comment_loop n : P unit) pos (ge pos 0).
  Proof. induction n as [|n IH]; intros pos Hlo; cbn [comment_loop]; s. ifs; s. apply g_next_byte; auto. intros x. eapply g_le; [apply IH|]; li. Qed.
  Ltac bb L := eapply gw_bind; [eapply L; li|cbv beta; unfold ge at 1; intros].
  Lemma g_comment hs n pos : lo <= pos -> gw lo hs (comment n : P unit) pos (ge pos 0).
  Proof. intros Hlo. unfold comment. s. ifs; s. bb g_comment_loop. eapply g_le; [apply g_eol|]; li. Qed.
  Lemma g_comments_loop hs : forall n pos, lo <= pos -> gw lo hs (comments_loop n : P unit) pos (ge pos 0).
  Proof.
    induction n as [|n IH]; intros pos Hlo; cbn [comments_loop]; s. ifs; s. bb g_comment. bb g_maybe_spaces. eapply g_le; [apply IH|]; li.
  Qed.
  Lemma g_sp hs n pos : lo <= pos -> gw lo hs (sp n : P unit) pos (ge pos 0).
  Proof. intros Hlo. unfold sp. bb g_maybe_spaces. eapply g_le; [apply g_comments_loop|]; li. Qed.
  Lemma g_read_opts hs : forall k pos, lo <= pos ->
    gw lo hs (read_opts k : P _) pos (fun l q => q = pos + Z.of_nat k /\ (all_some l <> None -> k <> O -> pos + Z.of_nat k <= zlen f)).
  Proof.
    induction k as [|k IH]; intros pos Hlo; cbn [read_opts].
    { apply gw_ret. split; [lia|congruence]. }
    apply g_next; [lia|]. eapply gw_bind; [apply IH; lia|]. cbv beta. intros l q [-> Hl]. s. split; [lia|]. intros Ha _. cbn [all_some] in Ha.
    destruct (znth f pos) as [x|] eqn:Ex; [|congruence]. pose proof (znth_Some_range _ _ _ Ex). destruct k; [lia|].
    assert (all_some l <> None) by (destruct (all_some l); congruence). specialize (Hl ltac:(auto) ltac:(auto)). lia.
  Qed.
  Lemma g_read hs k pos : lo <= pos -> gw lo hs (read k : P _) pos (fun _ q => q = pos + Z.of_nat k /\ (k <> O -> pos + Z.of_nat k <= zlen f)).
  Proof.
    intros Hlo. unfold read. eapply gw_bind; [apply g_read_opts; lia|]. cbv beta. intros l q [-> Hl]. destruct (all_some l) eqn:E; s.
    split; [auto|]. intros; apply Hl; congruence.
  Qed.
  Ltac rd := eapply gw_bind; [apply g_read; li|cbv beta; intros ? ? [-> ?]].
  Lemma g_keyword hs w v pos : lo <= pos -> gw lo hs (keyword w v : P _) pos (ge pos 0).
  Proof. intros Hlo. unfold keyword. rd. ifs; s. Qed.
  Lemma g_digits hs : forall n acc pos, lo <= pos -> gw lo hs (digits n acc : P _) pos (ge pos 0).
  Proof.
    induction n as [|n IH]; intros acc pos Hlo; cbn [digits]; s. destruct (znth f pos); [|s]. ifs; s. eapply g_le; [apply IH|]; li.
  Qed.
  Lemma g_numeric hs n pos : lo <= pos -> gw lo hs (numeric n : P _) pos (ge pos 0).
  Proof.
    intros Hlo. unfold numeric. s. eapply gw_bind with (R := ge pos 0); [|].
    { ifs; s. ifs; s. }
    intros neg q Hq. bb g_digits. s. eapply gw_bind with (R := ge pos 0); [|].
    { ifs; s. bb g_digits. s. }
    intros ofp q2 Hq2. destruct ofp as [fp|]; [destruct a, fp|destruct a]; s.
  Qed.
  Lemma g_nni hs n pos : lo <= pos -> gw lo hs (non_negative_int n : P _) pos (fun z q => pos <= q /\ 0 <= z).
  Proof. intros Hlo. unfold non_negative_int. bb g_numeric. destruct a; s. ifs; s. Qed.
  Ltac ni := eapply gw_bind; [apply g_nni; li|cbv beta; intros ? ? [? ?]].
  Lemma g_name_loop hs : forall n tok pos, lo <= pos -> gw lo hs (name_loop n tok : P _) pos (ge pos 0).
  Proof.
    induction n as [|n IH]; intros tok pos Hlo; cbn [name_loop]; s.
    assert (forall tok q, pos <= q -> gw lo hs (name_loop n tok : P _) q (ge pos 0)) as IH' by (intros; eapply g_le; [apply IH|]; li).
    ifs; s. ifs; s.
    - mts; [|apply IH'; lia]. ifs; s; [|apply IH'; lia]. mts; [|apply IH'; lia]. ifs; s; apply IH'; lia.
    - apply g_next_byte; auto. intros. apply IH'; lia.
  Qed.
  Lemma g_name hs n pos : lo <= pos -> gw lo hs (name n : P _) pos (ge pos 0).
  Proof. intros Hlo. unfold name. s. ifs; s. eapply g_le; [apply g_name_loop|]; li. Qed.
  Lemma g_hex_loop hs : forall n tok pos, lo <= pos -> gw lo hs (hex_loop n tok : P _) pos (ge pos 0).
  Proof. induction n as [|n IH]; intros tok pos Hlo; cbn [hex_loop]; s. mts; [|s]. ifs; s. bb g_sp. eapply g_le; [apply IH|]; li. Qed.
  Lemma g_hexstring hs n pos : lo <= pos -> gw lo hs (hexstring n : P _) pos (ge pos 0).
  Proof. intros Hlo. unfold hexstring. s. ifs; s. bb g_sp. bb g_hex_loop. s. cbv zeta. ifs; s. Qed.
  Lemma g_octal_more hs : forall k code pos, lo <= pos -> gw lo hs (octal_more k code : P _) pos (ge pos 0).
  Proof. induction k as [|k IH]; intros code pos Hlo; cbn [octal_more]; s. mts; s. ifs; s. eapply g_le; [apply IH|]; li. Qed.
  Lemma g_str_loop hs : forall n val pos, lo <= pos -> gw lo hs (str_loop n val : P _) pos (ge pos 0).
  Proof.
    induction n as [|n IH]; intros val pos Hlo; cbn [str_loop]; s.
    assert (forall tok q, pos <= q -> gw lo hs (str_loop n tok : P _) q (ge pos 0)) as IH' by (intros; eapply g_le; [apply IH|]; li).
    mts; s. ifs; s.
    { ifs; s. bb IH'. apply IH'; lia. }
    ifs; s.
    { mts; s. ifs; s; [bb g_octal_more; ifs; apply IH'; lia|]. ifs; s; [bb g_eol; apply IH'; lia|]. mts; apply IH'; lia. }
    ifs; s. apply IH'; lia.
  Qed.
  Lemma g_string hs n pos : lo <= pos -> gw lo hs (string_ n : P _) pos (ge pos 0).
  Proof. intros Hlo. unfold string_. s. ifs; s. bb g_str_loop. s. Qed.
  Lemma g_indirect_reference hs n pos : lo <= pos -> gw lo hs (indirect_reference n : P _) pos (ge pos 0).
  Proof. intros Hlo. unfold indirect_reference. ni. bb g_sp. ni. bb g_sp. s. ifs; s. Qed.
  Lemma g_numref hs n pos : lo <= pos -> gw lo hs (numeric_or_indirect_reference n : P _) pos (ge pos 0).
  Proof.
    intros Hlo. unfold numeric_or_indirect_reference. s. unfold restore. cbn [bind].
    apply (gw_catch f B I) with (q0 := pos); [left; reflexivity|now apply g_indirect_reference|now apply g_numeric].
  Qed.
  Lemma g_token_loop hs : forall n tok pos, lo <= pos -> gw lo hs (token_loop n tok : P _) pos (fun t q => q = pos + zlen t - zlen tok).
  Proof.
    induction n as [|n IH]; intros tok pos Hlo; cbn [token_loop]; s. mts; s. ifs; s.
    eapply gw_conseq; [apply IH; lia|]. cbv beta. intros a q ->. rewrite zlen_app, zlen_cons, zlen_nil. lia.
  Qed.
  Lemma g_token hs n pos : lo <= pos -> gw lo hs (token n : P _) pos (fun t q => q = pos + zlen t).
  Proof.
    intros Hlo. unfold token. s. ifs; s. eapply gw_conseq; [apply g_token_loop; lia|]. cbv beta. intros a q ->. rewrite zlen_nil. lia.
  Qed.
  Lemma g_prevs hs : forall k pos, lo + Z.of_nat k <= pos -> gw lo hs (prevs k : P _) pos (fun _ q => q = pos - Z.of_nat k).
  Proof.
    induction k as [|k IH]; intros pos Hlo; cbn [prevs]; s. eapply gw_conseq; [apply IH; lia|]. cbv beta. intros; lia.
  Qed.
  Lemma g_find_endstream hs : forall n err e0 data pos, In (err, e0) hs -> lo <= e0 -> lo <= pos -> gw lo hs (find_endstream n err data : P _) pos (ge pos 0).
  Proof.
    induction n as [|n IH]; intros err e0 data pos Hin He Hlo; cbn [find_endstream]; s. ifs; s. mts.
    - eapply g_le; [eapply IH; eauto|]; li.
    - eapply g_restore; eauto. apply gw_throw; lia.
  Qed.
  Lemma g_stream_body hs n d pos : lo <= pos -> gw lo hs (stream_body n d : P _) pos (ge pos 0).
  Proof.
    intros Hlo. unfold stream_body. mts; s. rd. ifs; s.
    eapply gw_bind with (R := ge pos 7); [|].
    { ifs; s. apply (gw_Next f B I); [lia|]. apply gw_ret; li. }
    intros ch2 q Hq. eapply gw_bind with (R := ge pos 6); [|].
    { ifs; s. }
    intros ? q2 Hq2. s. mts; s. rd. bb g_maybe_spaces. rd. ifs; s. eapply g_restore; [right; left; reflexivity|]. rd.
    eapply gw_bind; [eapply g_find_endstream; [left; reflexivity|li|li]|cbv beta; unfold ge at 1; intros]. s.
  Qed.
  Lemma g_ii_data hs : forall n data pos, lo <= pos -> gw lo hs (ii_data n data : P _) pos (ge pos 0).
  Proof. induction n as [|n IH]; intros data pos Hlo; cbn [ii_data]; s. apply g_next_byte; auto. intros x. cbv zeta. ifs; s. eapply g_le; [apply IH|]; li. Qed.

  (** objects *)
  Variable hook : dict -> P dict.
  Hypothesis g_hook : forall hs d pos, lo <= pos -> gw lo hs (hook d) pos (ge pos 0).
  Lemma g_object hs : forall n,
    (forall fl pos, lo <= pos -> gw lo hs (object hook fl n : P _) pos (ge pos 0)) /\
    (forall fl pos, lo <= pos -> gw lo hs (dictionary hook fl n : P _) pos (ge pos 0)) /\
    (forall fl acc pos, lo <= pos -> gw lo hs (dict_loop hook fl n acc : P _) pos (ge pos 0)) /\
    (forall fl acc pos, lo <= pos -> gw lo hs (arr_loop hook fl n acc : P _) pos (ge pos 0)) /\
    (forall pos, lo <= pos -> gw lo hs (inline_image hook n : P _) pos (ge pos 0)) /\
    (forall acc pos, lo <= pos -> gw lo hs (entities hook n acc : P _) pos (ge pos 0)).
  Proof.
    induction n as [|n (IHo & IHd & IHdl & IHal & IHi & IHe)].
    { split; [|split; [|split; [|split; [|split]]]]; intros; cbn [object dictionary dict_loop arr_loop inline_image entities]; s. }
    split; [|split; [|split; [|split; [|split]]]]; intros.
    - cbn [object]. bb g_sp. s. destruct (znth f q) as [x|] eqn:Ex; [|s].
      match goal with |- gw _ _ (if ?b then _ else _) _ _ => destruct b eqn:Cf end.
      { eapply gw_bind; [apply g_token; lia|]. cbv beta. intros t q2 ->. pose proof (zlen_nonneg t). s. }
      clear Cf. destruct (x =? 60) eqn:C60.
      { s. destruct (is_cur (znth f (q + 1)) 60) eqn:C2; s.
        - replace (q + 1 - 1) with q by lia. bb IHd. bb g_sp. s. ifs; s. bb g_hook. eapply g_le; [apply g_stream_body|]; li.
        - ifs; s. replace (q + 1 - 1) with q by lia. eapply g_le; [apply g_hexstring|]; li. }
      destruct (x =? 91) eqn:C91. { s. bb g_sp. bb IHal. s. }
      destruct (x =? 40) eqn:C40. { eapply g_le; [apply g_string|]; li. }
      destruct (x =? 110) eqn:C110. { eapply g_le; [apply g_keyword|]; li. }
      destruct (x =? 102) eqn:C102. { eapply g_le; [apply g_keyword|]; li. }
      destruct (x =? 116) eqn:C116. { eapply g_le; [apply g_keyword|]; li. }
      assert (gw lo hs (numeric n : P _) q (ge pos 0)) as Hnum by (eapply g_le; [apply g_numeric|]; li).
      ifs; auto. ifs.
      { ifs; auto. eapply g_le; [apply g_numref|]; li. }
      destruct (x =? 47) eqn:C47. { bb g_name. s. }
      destruct fl; s.
      + eapply gw_bind; [apply g_token; lia|]. cbv beta. intros t q2 ->.
        eapply gw_bind; [apply g_prevs; unfold zlen; lia|]. cbv beta. intros ? q2 ->.
        replace (q + zlen t - Z.of_nat (length t)) with q by (unfold zlen; lia). ifs.
        * eapply g_le; [apply IHi|]; li.
        * eapply gw_bind; [apply g_token; lia|]. cbv beta. intros t2 q2 ->. pose proof (zlen_nonneg t2). s.
      + eapply gw_bind; [apply g_token; lia|]. cbv beta. intros t q2 ->. pose proof (zlen_nonneg t). s.
    - cbn [dictionary]. rd. ifs; s. bb g_sp. bb IHdl. s. ifs; s.
    - cbn [dict_loop]. s. ifs; s. bb g_name. bb g_sp. bb IHo. bb g_sp. eapply g_le; [apply IHdl|]; li.
    - cbn [arr_loop]. s. ifs; s. bb IHo. bb g_sp. eapply g_le; [apply IHal|]; li.
    - cbn [inline_image]. bb IHo. ifs; s. bb g_sp. bb IHe. s. ifs; s. ifs; s. bb g_ii_data. s.
    - cbn [entities]. s. ifs; s. bb g_name. bb g_sp. eapply gw_bind; [eapply IHo; li|cbv beta; unfold ge at 1; intros v q3 Hq3].
      assert (forall acc, gw lo hs (sp n ;;; entities hook n acc : P _) q3 (ge pos 0)) as Hc.
      { intros acc'. bb g_sp. eapply g_le; [apply IHe|]; li. }
      destruct v; try apply Hc; s.
  Qed.
End G.
