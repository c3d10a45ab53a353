(** Behaviour of the parsers on arbitrary input: which exceptions, no endless loops, progress,
    and no read before the starting position. *)
From Coq Require Import String.
From Verif Require Import Prelude M_Prog M_Buffer S_Buffer L_Buffer L_Prog M_Parser.
Local Open Scope Z_scope.
Local Open Scope prog_scope.

Section W.
  Context {U : Type}.
  Variables (f : list Z) (lo : Z).
  Notation P := (prog U).
  Notation len := (zlen f).

  Lemma wp_cur {A} hs (g : option Z -> P A) pos Q :
    lo <= pos -> wp f lo hs (g (znth f pos)) pos Q -> wp f lo hs (bind cur g) pos Q.
  Proof. intros; now apply wp_Cur. Qed.
  Lemma wp_next {A} hs (g : option Z -> P A) pos Q :
    lo <= pos -> wp f lo hs (g (znth f pos)) (pos + 1) Q -> wp f lo hs (bind next g) pos Q.
  Proof. intros; now apply wp_Next. Qed.
  Lemma wp_prev {A} hs (g : option Z -> P A) pos Q :
    lo <= pos -> wp f lo hs (g (znth f pos)) (pos - 1) Q -> wp f lo hs (bind prev g) pos Q.
  Proof. intros; now apply wp_Prev. Qed.
  Lemma wp_save {A} hs (g : nat -> P A) pos Q :
    (forall h, wp f lo ((h, pos) :: hs) (g h) pos Q) -> wp f lo hs (bind save g) pos Q.
  Proof. intros; now apply wp_Save. Qed.
  Lemma wp_restore {A} hs h q0 (g : unit -> P A) pos Q :
    In (h, q0) hs -> wp f lo hs (g tt) q0 Q -> wp f lo hs (bind (restore h) g) pos Q.
  Proof. intros; now apply wp_Restore with q0. Qed.
  Lemma wp_bret {A B} hs (a : A) (g : A -> P B) pos Q :
    wp f lo hs (g a) pos Q -> wp f lo hs (bind (ret a) g) pos Q.
  Proof. intro H; exact H. Qed.
  Lemma wp_bthrow {A B} hs e (g : A -> P B) pos (Q : res B -> Z -> Prop) :
    Q (Err e) pos -> wp f lo hs (bind (throw e) g) pos Q.
  Proof. intros; now apply wp_throw. Qed.
  Lemma wp_assoc {A B C} hs (p : P A) (g : A -> P B) (h : B -> P C) pos Q :
    wp f lo hs (bind p (fun a => bind (g a) h)) pos Q -> wp f lo hs (bind (bind p g) h) pos Q.
  Proof.
    intros H st u Hk. destruct (H st u Hk) as (r & q & ex & E & HQ & A0). exists r, q, ex.
    assert (forall s, arun f (bind (bind p g) h) s = arun f (bind p (fun a => bind (g a) h)) s) as Ea.
    { intros s. rewrite !arun_bind. destruct (arun f p s) as [[a|e] s']; auto. now rewrite arun_bind. }
    rewrite Ea. repeat split; auto.
    clear -A0. revert A0. generalize (mkA pos st u). intros s.
    revert s. induction p as [a|e|k IH|k IH|k IH|o k IH|k IH|x k IH|k IH|k IH|w k IH]; intros s; cbn [bind above]; auto.
    1-3: intros [? ?]; split; auto.
    destruct (nth_error (a_store s) x); auto.
  Qed.

  (** Outcome: a value after at least [k] bytes, or one of the listed exceptions. *)
  Definition adv {A} (pos k : Z) (es : list exn) : res A -> Z -> Prop :=
    fun r q => match r with Ok _ => pos + k <= q | Err e => In e es end.

  Lemma adv_weak {A} pos k es pos' k' es' (r : res A) q :
    adv pos k es r q -> pos' + k' <= pos + k -> incl es es' -> adv pos' k' es' r q.
  Proof. unfold adv. destruct r; intros; auto. lia. Qed.

  Lemma znth_lt pos x : znth f pos = Some x -> pos < len.
  Proof. intro H. apply znth_Some_range in H. lia. Qed.

  (** [n] is enough fuel for a scanning loop at [pos]. *)
  Definition fuel (n : nat) (pos : Z) : Prop := 1 < Z.of_nat n /\ len - pos + 1 < Z.of_nat n.
  Definition fuel1 (n : nat) (pos : Z) : Prop := 0 < Z.of_nat n /\ len - pos < Z.of_nat n.

  Ltac fl := unfold fuel, fuel1 in *; try lia.
  Ltac cs := match goal with |- context [znth f ?p] => let E := fresh "E" in
               destruct (znth f p) as [?x|] eqn:E; [pose proof (znth_lt _ _ E)|] end.
  Ltac ei := cbv beta iota; cbn [is_cur p_eol p_ws p_delim p_regular p_digit p_hex].
  Ltac ifs := match goal with |- context [if ?b then _ else _] => let E := fresh "C" in destruct b eqn:E end.

  Lemma wp_maybe_spaces hs : forall n pos, lo <= pos -> fuel n pos ->
    wp f lo hs (maybe_spaces n : P unit) pos (adv pos 0 []).
  Proof.
    induction n as [|n IH]; intros pos Hlo Hn; [fl|]. cbn [maybe_spaces].
    apply wp_cur; auto. cs; ei.
    - ifs; [|apply wp_ret; cbn; lia]. apply wp_next; auto.
      eapply wp_conseq; [apply IH; fl|]. intros r q Hq. eapply adv_weak; eauto; [lia|apply incl_refl].
    - apply wp_ret; cbn; lia.
  Qed.

  Lemma wp_maybe_eol hs pos : lo <= pos ->
    wp f lo hs (maybe_eol : P unit) pos
      (fun r q => r = Ok tt /\ pos <= q /\ (p_eol (znth f pos) = true -> pos + 1 <= q)).
  Proof.
    intros Hlo. unfold maybe_eol. apply wp_cur; auto. destruct (is_cur (znth f pos) 13) eqn:E1.
    - apply wp_next; auto. apply wp_cur; [lia|]. ifs.
      + apply wp_next; [lia|]. apply wp_ret. repeat split; intros; lia.
      + apply wp_ret. repeat split; intros; lia.
    - destruct (is_cur (znth f pos) 10) eqn:E2.
      + apply wp_next; auto. apply wp_ret. repeat split; intros; lia.
      + apply wp_ret. repeat split; try lia. unfold p_eol, is_cur in *.
        destruct (znth f pos); [rewrite E1, E2|]; discriminate.
  Qed.

  Lemma wp_eol hs pos : lo <= pos ->
    wp f lo hs (eol : P unit) pos
      (fun r q => match r with Ok _ => pos + 1 <= q | Err e => e = ParserExc /\ p_eol (znth f pos) = false end).
  Proof.
    intros Hlo. unfold eol. apply wp_cur; auto. ifs.
    - eapply wp_conseq; [apply wp_maybe_eol; auto|]. cbv beta iota. intros r q (-> & H1 & H2). auto.
    - apply wp_throw. auto.
  Qed.

  Lemma wp_next_byte {A} hs (g : Z -> P A) pos Q : lo <= pos ->
    (forall x, znth f pos = Some x -> wp f lo hs (g x) (pos + 1) Q) ->
    (znth f pos = None -> Q (Err TypeErr) (pos + 1)) ->
    wp f lo hs (bind next_byte g) pos Q.
  Proof.
    intros Hlo H1 H2. unfold next_byte. apply wp_assoc. apply wp_next; auto.
    destruct (znth f pos) as [x|] eqn:E; cbn [bind]; [apply wp_bret|apply wp_bthrow]; auto.
  Qed.

  Lemma wp_comment_loop hs : forall n pos, lo <= pos -> fuel1 n pos ->
    wp f lo hs (comment_loop n : P unit) pos
      (fun r q => match r with Ok _ => pos <= q /\ p_eol (znth f q) = true | Err e => e = TypeErr end).
  Proof.
    induction n as [|n IH]; intros pos Hlo Hn; [fl|]. cbn [comment_loop].
    apply wp_cur; auto. destruct (p_eol (znth f pos)) eqn:E.
    - apply wp_ret. split; [lia|auto].
    - apply wp_next_byte; auto. intros x Hx. apply znth_lt in Hx.
      eapply wp_conseq; [apply IH; fl|]. cbv beta iota. intros [] q; auto. intros [? ?]; split; auto; lia.
  Qed.

  Lemma wp_comment hs n pos : lo <= pos -> fuel1 n pos ->
    wp f lo hs (comment n : P unit) pos
       (fun r q => match r with Ok _ => pos + 1 <= q | Err e => In e [ParserExc; TypeErr] end).
  Proof.
    intros Hlo Hn. unfold comment. apply wp_cur; auto. ifs.
    - eapply wp_bind; [apply wp_comment_loop; auto| |]; cbv beta iota.
      + intros a q [Hq He]. eapply wp_conseq; [apply wp_eol; lia|]. cbv beta iota.
        intros [] q' H; [lia|]. destruct H as [-> H]. congruence.
      + intros e q ->. cbn; auto.
    - apply wp_throw. cbn; auto.
  Qed.

  Lemma wp_comments_loop hs : forall n pos, lo <= pos -> fuel n pos ->
    wp f lo hs (comments_loop n : P unit) pos (adv pos 0 [ParserExc; TypeErr]).
  Proof.
    induction n as [|n IH]; intros pos Hlo Hn; [fl|]. cbn [comments_loop].
    apply wp_cur; auto. destruct (is_cur (znth f pos) 37) eqn:E; [|apply wp_ret; cbn; lia].
    assert (pos < len).
    { destruct (znth f pos) eqn:E2; [|discriminate]. eapply znth_lt; eauto. }
    eapply wp_bind; [apply wp_comment; fl| |]; cbn [adv]; auto.
    intros ? q Hq. eapply wp_bind; [apply wp_maybe_spaces; fl| |]; cbn [adv In]; auto; try tauto.
    intros ? q2 Hq2. eapply wp_conseq; [apply IH; fl|]. intros r q3 H3. eapply adv_weak; eauto; [lia|apply incl_refl].
  Qed.

  Definition pe : list exn := [ParserExc; TypeErr].

  Lemma wp_sp hs n pos : lo <= pos -> fuel n pos -> wp f lo hs (sp n : P unit) pos (adv pos 0 pe).
  Proof.
    intros Hlo Hn. unfold sp. eapply wp_bind; [apply wp_maybe_spaces; auto| |]; cbn [adv In]; try tauto.
    intros ? q Hq. eapply wp_conseq; [apply wp_comments_loop; fl|]. intros r q3 H3. eapply adv_weak; eauto; [lia|apply incl_refl].
  Qed.

  Lemma wp_read_opts hs : forall k pos, lo <= pos ->
    wp f lo hs (read_opts k : P _) pos (fun r q => q = pos + Z.of_nat k /\ exists l, r = Ok l).
  Proof.
    induction k as [|k IH]; intros pos Hlo; cbn [read_opts].
    - apply wp_ret. split; [lia|eauto].
    - apply wp_next; auto. eapply wp_bind; [apply IH; lia| |]; cbv beta iota.
      + intros l q [-> _]. apply wp_ret. split; [lia|eauto].
      + intros e q [_ [l Hl]]. discriminate.
  Qed.

  Lemma wp_read hs k pos : lo <= pos ->
    wp f lo hs (read k : P _) pos (fun r q => q = pos + Z.of_nat k /\ match r with Ok _ => True | Err e => e = TypeErr end).
  Proof.
    intros Hlo. unfold read. eapply wp_bind; [apply wp_read_opts; auto| |]; cbv beta iota.
    - intros l q [-> _]. destruct (all_some l); [apply wp_ret|apply wp_throw]; auto.
    - intros e q [_ [l Hl]]. discriminate.
  Qed.

  Lemma wp_keyword hs w v pos : lo <= pos -> w <> [] ->
    wp f lo hs (keyword w v : P _) pos (adv pos 1 pe).
  Proof.
    intros Hlo Hw. unfold keyword. eapply wp_bind; [apply wp_read; auto| |]; cbv beta iota.
    - intros l q [-> _]. ifs; [apply wp_ret|apply wp_throw]; cbn; auto.
      destruct w; [congruence|cbn; lia].
    - intros e q [_ ->]. cbn; auto.
  Qed.

  Lemma wp_digits hs : forall n acc pos, lo <= pos -> fuel n pos ->
    wp f lo hs (digits n acc : P _) pos
      (fun r q => exists l, r = Ok (acc ++ l) /\ q = pos + zlen l).
  Proof.
    induction n as [|n IH]; intros acc pos Hlo Hn; [fl|]. cbn [digits].
    apply wp_cur; auto.
    assert (wp f lo hs (ret acc : P _) pos (fun r q => exists l, r = Ok (acc ++ l) /\ q = pos + zlen l)) as Hret.
    { apply wp_ret. exists []. rewrite app_nil_r, zlen_nil. split; auto; lia. }
    cs; ei; auto. ifs; auto. apply wp_next; auto.
    eapply wp_conseq; [apply IH; fl|]. cbv beta iota. intros r q (l & -> & ->). exists (x :: l).
    rewrite <- app_assoc, zlen_cons. cbn [app]. split; auto; lia.
  Qed.

  Lemma wp_numeric hs n pos : lo <= pos -> fuel n pos ->
    wp f lo hs (numeric n : P _) pos (adv pos 1 [ParserExc]).
  Proof.
    intros Hlo Hn. unfold numeric. apply wp_cur; auto.
    eapply (wp_bind _ _ _ _ _ _ (fun r q => exists b, r = Ok b /\ pos <= q)).
    { ifs; [apply wp_next; auto; apply wp_ret; eexists; split; [eauto|lia]|].
      ifs; [apply wp_next; auto; apply wp_ret; eexists; split; [eauto|lia]|].
      apply wp_ret; eexists; split; [eauto|lia]. }
    2:{ intros e q (b & X & _). discriminate. }
    intros neg q (b & X & Hq). clear b X.
    eapply wp_bind; [apply wp_digits; [lia|fl]| |]; cbv beta iota.
    2:{ intros e q' (l & X & _). discriminate. }
    intros ip q2 (l & X & ->). inversion X; subst ip; clear X. cbn [app].
    pose proof (zlen_nonneg l).
    apply wp_cur; [lia|].
    eapply (wp_bind _ _ _ _ _ _ (fun r q' => exists o, r = Ok o /\
        match o with Some fp => q' = q + zlen l + 1 + zlen fp | None => q' = q + zlen l end)).
    { ifs; [|apply wp_ret; eexists; split; [eauto|reflexivity]]. apply wp_next; [lia|].
      eapply wp_bind; [apply wp_digits; [lia|fl]| |]; cbv beta iota.
      2:{ intros e q' (l' & X & _). discriminate. }
      intros fp q2 (l' & X & ->). inversion X; subst fp. apply wp_ret. eexists. split; [eauto|]. cbn. lia. }
    2:{ intros e q' (o & X & _). discriminate. }
    intros ofp q3 (o & X & Hq3). inversion X; subst o; clear X.
    destruct ofp as [fp|].
    - subst q3. pose proof (zlen_nonneg fp). destruct l, fp; [apply wp_throw; cbn; auto|..]; apply wp_ret; cbn [adv]; lia.
    - subst q3. destruct l; [apply wp_throw; cbn; auto|]. apply wp_ret. rewrite zlen_cons in *. cbn [adv].
      pose proof (zlen_nonneg l). lia.
  Qed.

  Lemma wp_nni hs n pos : lo <= pos -> fuel n pos ->
    wp f lo hs (non_negative_int n : P _) pos
      (fun r q => match r with Ok z => 0 <= z /\ pos + 1 <= q | Err e => e = ParserExc end).
  Proof.
    intros Hlo Hn. unfold non_negative_int. eapply wp_bind; [apply wp_numeric; auto| |]; cbn [adv In].
    - intros v q Hq. destruct v; try (apply wp_throw; auto; fail).
      destruct (z <? 0) eqn:Ez; [apply wp_throw; auto|]. apply wp_ret. split; lia.
    - intros e q [<-|[]]. cbn; auto.
  Qed.

  Lemma wp_name_loop hs : forall n tok pos, lo <= pos -> fuel n pos ->
    wp f lo hs (name_loop n tok : P _) pos (adv pos 0 []).
  Proof.
    induction n as [|n IH]; intros tok pos Hlo Hn; [fl|]. cbn [name_loop].
    apply wp_cur; auto. destruct (p_regular (znth f pos)) eqn:E0; [|apply wp_ret; cbn; lia].
    assert (pos < len) by (destruct (znth f pos) eqn:E; [eapply znth_lt; eauto|discriminate]).
    assert (forall tok' q, pos + 1 <= q -> wp f lo hs (name_loop n tok' : P _) q (adv pos 0 [])) as IH'.
    { intros tok' q Hq. eapply wp_conseq; [apply IH; fl|]. intros r q' Hr. eapply adv_weak; eauto; [lia|apply incl_refl]. }
    ifs.
    - apply wp_next; auto. apply wp_cur; [lia|].
      destruct (znth f (pos + 1)) as [x|] eqn:E1; [|apply IH'; lia].
      ifs; [|apply IH'; lia]. apply wp_next; [lia|]. apply wp_cur; [lia|].
      destruct (znth f (pos + 1 + 1)) as [y|] eqn:E2; [|apply IH'; lia].
      ifs; [|apply IH'; lia]. apply wp_next; [lia|]. apply IH'; lia.
    - apply wp_next_byte; auto; [intros; apply IH'; lia|].
      intros X. rewrite X in E0. discriminate.
  Qed.

  Lemma wp_name hs n pos : lo <= pos -> fuel n pos ->
    wp f lo hs (name n : P _) pos
      (fun r q => match r with Ok _ => pos + 1 <= q /\ znth f pos = Some 47 | Err e => e = ParserExc end).
  Proof.
    intros Hlo Hn. unfold name. apply wp_cur; auto. destruct (is_cur (znth f pos) 47) eqn:E; [|apply wp_throw; auto].
    apply wp_next; auto.
    eapply wp_conseq; [apply wp_name_loop; fl|].
    intros [] q Hq; cbn in Hq; [|tauto]. split; [lia|].
    destruct (znth f pos); cbn in E; [f_equal; lia|discriminate].
  Qed.

  Lemma wp_hex_loop hs : forall n tok pos, lo <= pos -> fuel n pos ->
    wp f lo hs (hex_loop n tok : P _) pos (adv pos 0 pe).
  Proof.
    induction n as [|n IH]; intros tok pos Hlo Hn; [fl|]. cbn [hex_loop].
    apply wp_cur; auto. cs; [|apply wp_ret; cbn; lia]. ifs; [|apply wp_ret; cbn; lia].
    apply wp_next; auto. eapply wp_bind; [apply wp_sp; fl| |]; cbn [adv]; auto.
    intros ? q Hq. eapply wp_conseq; [apply IH; fl|]. intros r q' Hr. eapply adv_weak; eauto; [lia|apply incl_refl].
  Qed.

  Lemma wp_hexstring hs n pos : lo <= pos -> fuel n pos ->
    wp f lo hs (hexstring n : P _) pos (adv pos 1 pe).
  Proof.
    intros Hlo Hn. unfold hexstring. apply wp_cur; auto. ifs; [|apply wp_throw; cbn; auto].
    apply wp_next; auto. eapply wp_bind; [apply wp_sp; fl| |]; cbn [adv]; auto.
    intros ? q Hq. eapply wp_bind; [apply wp_hex_loop; fl| |]; cbn [adv]; auto.
    intros tok q2 Hq2. apply wp_next; [lia|]. ifs; [apply wp_ret; cbn; lia|apply wp_throw; cbn; auto].
  Qed.

  Lemma wp_octal_more hs : forall k code pos, lo <= pos ->
    wp f lo hs (octal_more k code : P _) pos (adv pos 0 [TypeErr]).
  Proof.
    induction k as [|k IH]; intros code pos Hlo; cbn [octal_more]; [apply wp_ret; cbn; lia|].
    apply wp_cur; auto. destruct (znth f pos); [|apply wp_throw; cbn; auto].
    ifs; [|apply wp_ret; cbn; lia]. apply wp_next; auto.
    eapply wp_conseq; [apply IH; lia|]. intros r q' Hr. eapply adv_weak; eauto; [lia|apply incl_refl].
  Qed.

  Lemma wp_str_loop hs : forall n val pos, lo <= pos -> fuel n pos ->
    wp f lo hs (str_loop n val : P _) pos (adv pos 1 [TypeErr]).
  Proof.
    induction n as [|n IH]; intros val pos Hlo Hn; [fl|]. cbn [str_loop].
    apply wp_next; auto. destruct (znth f pos) as [x|] eqn:E; [|apply wp_throw; cbn; auto].
    pose proof (znth_lt _ _ E).
    assert (forall val' q, pos + 1 <= q -> wp f lo hs (str_loop n val' : P _) q (adv pos 1 [TypeErr])) as IH'.
    { intros val' q Hq. eapply wp_conseq; [apply IH; fl|]. intros r q' Hr. eapply adv_weak; eauto; [lia|apply incl_refl]. }
    destruct (x =? 40) eqn:C1.
    { apply wp_prev; [lia|]. replace (pos + 1 - 1) with pos by lia. apply wp_cur; auto.
      rewrite E. cbn [is_cur]. rewrite C1. apply wp_next; auto.
      eapply wp_bind; [apply IH; fl| |]; cbn [adv]; auto.
      intros s q Hq. apply IH'; lia. }
    destruct (x =? 92) eqn:C2.
    { apply wp_next; [lia|]. destruct (znth f (pos + 1)) as [y|] eqn:E2; [|apply wp_throw; cbn; auto].
      ifs.
      - eapply wp_bind; [apply wp_octal_more; lia| |]; cbn [adv]; auto.
        intros code q Hq. ifs; apply IH'; lia.
      - ifs.
        + apply wp_prev; [lia|]. eapply wp_bind; [apply wp_eol; lia| |]; cbv beta iota.
          * intros ? q Hq. apply IH'; lia.
          * intros e q [-> He]. exfalso. replace (pos + 1 + 1 - 1) with (pos + 1) in He by lia.
            rewrite E2 in He. cbn in He. congruence.
        + destruct (string_escaped y); apply IH'; lia. }
    ifs; [apply wp_ret; cbn; lia|]. apply IH'; lia.
  Qed.

  Lemma wp_string hs n pos : lo <= pos -> fuel n pos ->
    wp f lo hs (string_ n : P _) pos (adv pos 1 pe).
  Proof.
    intros Hlo Hn. unfold string_. apply wp_cur; auto. ifs; [|apply wp_throw; cbn; auto].
    apply wp_next; auto. eapply wp_bind; [apply wp_str_loop; fl| |]; cbn [adv In].
    - intros s q Hq. apply wp_ret. cbn. lia.
    - intros e q [<-|[]]. cbn; auto.
  Qed.

  Lemma wp_indirect_reference hs n pos : lo <= pos -> fuel n pos ->
    wp f lo hs (indirect_reference n : P _) pos (adv pos 1 pe).
  Proof.
    intros Hlo Hn. unfold indirect_reference.
    eapply wp_bind; [apply wp_nni; auto| |]; cbv beta iota; [|intros e q ->; cbn; auto].
    intros num q [_ Hq]. eapply wp_bind; [apply wp_sp; fl| |]; cbn [adv]; auto.
    intros ? q2 Hq2. eapply wp_bind; [apply wp_nni; fl| |]; cbv beta iota; [|intros e q0 ->; cbn; auto].
    intros gen q3 [_ Hq3]. eapply wp_bind; [apply wp_sp; fl| |]; cbn [adv]; auto.
    intros ? q4 Hq4. apply wp_next; [lia|]. ifs; [apply wp_ret; cbn; lia|apply wp_throw; cbn; auto].
  Qed.

  Lemma wp_numref hs n pos : lo <= pos -> fuel n pos ->
    wp f lo hs (numeric_or_indirect_reference n : P _) pos (adv pos 1 pe).
  Proof.
    intros Hlo Hn. unfold numeric_or_indirect_reference. apply wp_save. intros h.
    eapply wp_catch; [apply wp_indirect_reference; auto| | |]; auto.
    intros e q He _. eapply wp_restore; [left; reflexivity|].
    eapply wp_conseq; [apply wp_numeric; auto|]. intros r q' Hr. eapply adv_weak; eauto; [lia|].
    intros e' [<-|[]]. cbn; auto.
  Qed.

  Lemma wp_token_loop hs : forall n tok pos, lo <= pos -> fuel n pos ->
    wp f lo hs (token_loop n tok : P _) pos
       (fun r q => exists l, r = Ok (tok ++ l) /\ q = pos + zlen l /\ (p_regular (znth f pos) = true -> l <> [])).
  Proof.
    induction n as [|n IH]; intros tok pos Hlo Hn; [fl|]. cbn [token_loop].
    apply wp_cur; auto. cs.
    - destruct (p_regular (Some x)) eqn:Er.
      + apply wp_next; auto. eapply wp_conseq; [apply IH; fl|]. cbv beta iota.
        intros r q (l & -> & -> & _). exists (x :: l). rewrite <- app_assoc, zlen_cons. repeat split; [lia|discriminate].
      + apply wp_ret. exists []. rewrite app_nil_r, zlen_nil. repeat split; [lia|discriminate].
    - apply wp_ret. exists []. rewrite app_nil_r, zlen_nil. repeat split; [lia|discriminate].
  Qed.

  Lemma wp_token hs n pos : lo <= pos -> fuel n pos ->
    wp f lo hs (token n : P _) pos
       (fun r q => match r with Ok t => q = pos + zlen t /\ t <> [] | Err e => e = ParserExc end).
  Proof.
    intros Hlo Hn. unfold token. apply wp_cur; auto. ifs; [|apply wp_throw; auto].
    apply andb_true_iff in C. destruct C as [C _].
    eapply wp_conseq; [apply wp_token_loop; auto|]. cbv beta iota. intros r q (l & -> & -> & H). cbn [app]. auto.
  Qed.

  Lemma wp_prevs hs : forall k pos, lo + Z.of_nat k <= pos ->
    wp f lo hs (prevs k : P _) pos (fun r q => r = Ok tt /\ q = pos - Z.of_nat k).
  Proof.
    induction k as [|k IH]; intros pos Hlo; cbn [prevs].
    - apply wp_ret. split; auto; lia.
    - apply wp_prev; [lia|]. eapply wp_conseq; [apply IH; lia|]. cbv beta iota. intros r q [-> ->]. split; auto; lia.
  Qed.

  Lemma wp_find_endstream hs : forall n err e0 data pos, In (err, e0) hs -> lo <= pos -> fuel n pos ->
    wp f lo hs (find_endstream n err data : P _) pos (adv pos 0 [ParserExc]).
  Proof.
    induction n as [|n IH]; intros err e0 data pos Hin Hlo Hn; [fl|]. cbn [find_endstream].
    ifs; [apply wp_ret; cbn; lia|]. apply wp_next; auto. cs.
    - eapply wp_conseq; [eapply IH; eauto; fl|]. intros r q' Hr. eapply adv_weak; eauto; [lia|apply incl_refl].
    - eapply wp_restore; eauto. apply wp_throw. cbn; auto.
  Qed.

  Lemma wp_stream_body hs n d pos : lo <= pos -> fuel n pos ->
    wp f lo hs (stream_body n d : P _) pos (adv pos 0 [ParserExc; TypeErr; KeyErr]).
  Proof.
    intros Hlo Hn. unfold stream_body. destruct (dget d (bs "Length")) as [ln|]; [|apply wp_throw; cbn; auto].
    eapply wp_bind; [apply wp_read; auto| |]; cbv beta iota; [|intros e q [_ ->]; cbn; auto].
    intros tok q [-> _]. ifs; [|apply wp_throw; cbn; auto].
    apply wp_next; [lia|].
    eapply (wp_bind _ _ _ _ _ _ (fun r q => exists c, r = Ok c /\ pos + 7 <= q)).
    { ifs; [|apply wp_ret; eexists; split; [eauto|lia]]. eapply wp_conseq.
      - apply (wp_Next f lo hs (fun c => Ret c)); [lia|]. apply wp_ret. instantiate (1 := fun r q => exists c, r = Ok c /\ pos + 7 <= q).
        eexists; split; [eauto|lia].
      - auto. }
    2:{ intros e q (? & X & _). discriminate. }
    intros ch2 q (? & _ & Hq).
    eapply (wp_bind _ _ _ _ _ _ (fun r q => r = Ok tt /\ pos + 6 <= q)).
    { ifs; [apply wp_ret; split; auto; lia|]. apply wp_prev; [lia|]. apply wp_ret; split; auto; lia. }
    2:{ intros e q' (X & _). discriminate. }
    intros ? q2 (_ & Hq2). apply wp_save. intros h.
    destruct (as_range ln) as [k|]; [|apply wp_throw; cbn; auto].
    eapply wp_bind; [apply wp_read; lia| |]; cbv beta iota; [|intros e q0 [_ ->]; cbn; auto].
    intros data q3 [-> _]. eapply wp_bind; [apply wp_maybe_spaces; fl| |]; cbn [adv In]; try tauto.
    intros ? q4 Hq4. eapply wp_bind; [apply wp_read; lia| |]; cbv beta iota; [|intros e q0 [_ ->]; cbn; auto].
    intros tok2 q5 [-> _]. ifs; [apply wp_ret; cbn; lia|].
    apply wp_save. intros err. eapply wp_restore; [right; left; reflexivity|].
    eapply wp_bind; [apply wp_read; lia| |]; cbv beta iota; [|intros e q0 [_ ->]; cbn; auto].
    intros d9 q6 [-> _].
    eapply wp_bind; [eapply wp_find_endstream; [left; reflexivity|lia|fl]| |]; cbn [adv In].
    - intros d2 q7 Hq7. apply wp_ret. cbn. lia.
    - intros e q7 [<-|[]]. cbn; auto.
  Qed.

  Lemma wp_ii_data hs : forall n data pos, lo <= pos -> fuel n pos ->
    wp f lo hs (ii_data n data : P _) pos (adv pos 1 [TypeErr]).
  Proof.
    induction n as [|n IH]; intros data pos Hlo Hn; [fl|]. cbn [ii_data].
    apply wp_next_byte; auto; [|cbn; auto]. intros x Hx. apply znth_lt in Hx.
    cbv zeta. ifs; [apply wp_ret; cbn; lia|].
    eapply wp_conseq; [eapply IH; eauto; fl|]. intros r q' Hr. eapply adv_weak; eauto; [lia|apply incl_refl].
  Qed.

  (** Fuel sufficient for object() at [pos]. *)
  Definition ofuel (n : nat) (pos c : Z) : Prop := 4 * Z.max 0 (len - pos) + c <= Z.of_nat n.
  Definition oc (fl : flavor) : Z := match fl with FInline => 4 | _ => 8 end.
  Definition pek : list exn := [ParserExc; TypeErr; KeyErr].

  Ltac of := unfold ofuel, fuel, fuel1 in *; try lia.
  Lemma pe_pek {A} pos k (r : res A) q : adv pos k pe r q -> adv pos k pek r q.
  Proof. intros H. eapply adv_weak; eauto; [lia|]. intros e [<-|[<-|[]]]; cbn; auto. Qed.

  Lemma wp_object hs : forall n,
    (forall fl pos, lo <= pos -> ofuel n pos (oc fl) ->
       wp f lo hs (object (fun d => ret d) fl n : P _) pos (adv pos 1 pek)) /\
    (forall fl pos, lo <= pos -> ofuel n pos (oc fl - 1) -> 2 <= len - pos ->
       wp f lo hs (dictionary (fun d => ret d) fl n : P _) pos (adv pos 1 pek)) /\
    (forall fl acc pos, lo <= pos -> ofuel n pos (oc fl + 1) ->
       wp f lo hs (dict_loop (fun d => ret d) fl n acc : P _) pos (adv pos 0 pek)) /\
    (forall fl acc pos, lo <= pos -> ofuel n pos (oc fl + 1) ->
       wp f lo hs (arr_loop (fun d => ret d) fl n acc : P _) pos (adv pos 0 pek)) /\
    (forall pos, lo <= pos -> ofuel n pos 7 ->
       wp f lo hs (inline_image (fun d => ret d) n : P _) pos (adv pos 1 pek)) /\
    (forall acc pos, lo <= pos -> ofuel n pos 5 ->
       wp f lo hs (entities (fun d => ret d) n acc : P _) pos (adv pos 0 pek)).
  Proof.
    induction n as [|n (IHo & IHd & IHdl & IHal & IHi & IHe)].
    { repeat split; intros; exfalso; try (destruct fl); unfold ofuel, oc in *; lia. }
    assert (forall e, In e pe -> In e pek) as Hpe by (intros e [<-|[<-|[]]]; cbn; auto).
    repeat split; intros.
    - (* object *)
      assert (4 <= oc fl <= 8) by (destruct fl; cbn; lia).
      cbn [object]. eapply wp_bind; [apply wp_sp; of| |]; cbn [adv]; auto.
      intros ? q Hq. rename H into Hlo. apply wp_cur; [lia|].
      destruct (znth f q) as [x|] eqn:Ex; [|apply wp_throw; cbn; auto].
      pose proof (znth_lt _ _ Ex).
      match goal with |- wp _ _ _ (if ?b then _ else _) _ _ => destruct b eqn:Cf end.
      { eapply wp_bind; [apply wp_token; of| |]; cbv beta iota.
        - intros t q2 [-> Ht]. apply wp_ret. cbn. destruct t; [congruence|]. rewrite zlen_cons. pose proof (zlen_nonneg t). lia.
        - intros e q2 ->. cbn; auto. }
      clear Cf. destruct (x =? 60) eqn:C60.
      { apply wp_next; [lia|]. apply wp_cur; [lia|].
        destruct (is_cur (znth f (q + 1)) 60) eqn:C2.
        - assert (q + 1 < len) by (destruct (znth f (q+1)) eqn:E2; [eapply znth_lt; eauto|discriminate]).
          apply wp_prev; [lia|]. replace (q + 1 - 1) with q by lia.
          eapply wp_bind; [apply IHd; of| |]; cbn [adv]; auto.
          intros d q2 Hq2. eapply wp_bind; [apply wp_sp; of| |]; cbn [adv]; auto.
          intros ? q3 Hq3. apply wp_cur; [lia|]. ifs; [|apply wp_ret; cbn; lia].
          apply wp_bret. eapply wp_conseq; [apply wp_stream_body; of|].
          intros r q' Hr. eapply adv_weak; eauto; [lia|apply incl_refl].
        - ifs; [|apply wp_throw; cbn; auto].
          apply wp_prev; [lia|]. replace (q + 1 - 1) with q by lia.
          eapply wp_conseq; [apply wp_hexstring; of|]. intros r q' Hr. apply pe_pek. eapply adv_weak; eauto; [lia|apply incl_refl]. }
      destruct (x =? 91) eqn:C91.
      { apply wp_next; [lia|]. eapply wp_bind; [apply wp_sp; of| |]; cbn [adv]; auto.
        intros ? q2 Hq2. eapply wp_bind; [apply IHal; of| |]; cbn [adv]; auto.
        intros l q3 Hq3. apply wp_next; [lia|]. apply wp_ret. cbn. lia. }
      destruct (x =? 40) eqn:C40.
      { eapply wp_conseq; [apply wp_string; of|]. intros r q' Hr. apply pe_pek. eapply adv_weak; eauto; [lia|apply incl_refl]. }
      destruct (x =? 110) eqn:C110.
      { eapply wp_conseq; [apply wp_keyword; [of|discriminate]|]. intros r q' Hr. apply pe_pek. eapply adv_weak; eauto; [lia|apply incl_refl]. }
      destruct (x =? 102) eqn:C102.
      { eapply wp_conseq; [apply wp_keyword; [of|discriminate]|]. intros r q' Hr. apply pe_pek. eapply adv_weak; eauto; [lia|apply incl_refl]. }
      destruct (x =? 116) eqn:C116.
      { eapply wp_conseq; [apply wp_keyword; [of|discriminate]|]. intros r q' Hr. apply pe_pek. eapply adv_weak; eauto; [lia|apply incl_refl]. }
      assert (wp f lo hs (numeric n : P _) q (adv pos 1 pek)) as Hnum.
      { eapply wp_conseq; [apply wp_numeric; of|]. intros r q' Hr. eapply adv_weak; eauto; [lia|]. intros e [<-|[]]; cbn; auto. }
      ifs; auto. ifs.
      { ifs; auto. eapply wp_conseq; [apply wp_numref; of|]. intros r q' Hr. apply pe_pek. eapply adv_weak; eauto; [lia|apply incl_refl]. }
      destruct (x =? 47) eqn:C47.
      { eapply wp_bind; [apply wp_name; of| |]; cbv beta iota; [|intros e q2 ->; cbn; auto].
        intros nm q2 [Hq2 _]. apply wp_ret. cbn. lia. }
      destruct fl; try (apply wp_throw; cbn; auto; fail).
      + eapply wp_bind; [apply wp_token; of| |]; cbv beta iota; [|intros e q2 ->; cbn; auto].
        intros t q2 [-> Ht].
        assert (wp f lo hs (prevs (length t) : P _) (q + zlen t) (fun r q' => r = Ok tt /\ q' = q)) as Hpv.
        { eapply wp_conseq; [apply wp_prevs; unfold zlen; lia|]. cbv beta iota. intros r q' [-> ->]. split; auto. unfold zlen; lia. }
        eapply wp_bind; [exact Hpv| |]; cbv beta iota; [|intros e q2 [X _]; discriminate].
        intros ? q2 [_ ->]. ifs.
        * eapply wp_conseq; [apply IHi; cbn in *; of|]. intros r q' Hr. eapply adv_weak; eauto; [lia|apply incl_refl].
        * eapply wp_bind; [apply wp_token; of| |]; cbv beta iota; [|intros e q2 ->; cbn; auto].
          intros t2 q3 [-> Ht2]. apply wp_ret. cbn. destruct t2; [congruence|]. rewrite zlen_cons. pose proof (zlen_nonneg t2). lia.
      + eapply wp_bind; [apply wp_token; of| |]; cbv beta iota; [|intros e q2 ->; cbn; auto].
        intros t q2 [-> Ht]. apply wp_ret. cbn. destruct t; [congruence|]. rewrite zlen_cons. pose proof (zlen_nonneg t). lia.
    - (* dictionary *)
      assert (4 <= oc fl <= 8) by (destruct fl; cbn; lia).
      cbn [dictionary]. eapply wp_bind; [apply wp_read; auto| |]; cbv beta iota; [|intros e q2 [_ ->]; cbn; auto].
      intros pf q [-> _]. ifs; [|apply wp_throw; cbn; auto].
      eapply wp_bind; [apply wp_sp; of| |]; cbn [adv]; auto.
      intros ? q Hq. eapply wp_bind; [apply IHdl; of| |]; cbn [adv]; auto.
      intros d q2 Hq2. apply wp_next; [lia|]. apply wp_next; [lia|].
      ifs; [apply wp_ret; cbn; lia|apply wp_throw; cbn; auto].
    - (* dict_loop *)
      assert (4 <= oc fl <= 8) by (destruct fl; cbn; lia).
      cbn [dict_loop]. apply wp_cur; auto. ifs; [apply wp_ret; cbn; lia|].
      eapply wp_bind; [apply wp_name; of| |]; cbv beta iota; [|intros e q2 ->; cbn; auto].
      intros k q [Hq E47]. apply znth_lt in E47.
      eapply wp_bind; [apply wp_sp; of| |]; cbn [adv]; auto.
      intros ? q2 Hq2. eapply wp_bind; [apply IHo; of| |]; cbn [adv]; auto.
      intros v q3 Hq3. eapply wp_bind; [apply wp_sp; of| |]; cbn [adv]; auto.
      intros ? q4 Hq4. eapply wp_conseq; [apply IHdl; of|].
      intros r q' Hr. eapply adv_weak; eauto; [lia|apply incl_refl].
    - (* arr_loop *)
      assert (4 <= oc fl <= 8) by (destruct fl; cbn; lia).
      cbn [arr_loop]. apply wp_cur; auto. ifs; [apply wp_ret; cbn; lia|].
      destruct (Z.lt_ge_cases pos len) as [Hpl|Hpl].
      + eapply wp_bind; [apply IHo; of| |]; cbn [adv]; auto.
        intros v q3 Hq3. eapply wp_bind; [apply wp_sp; of| |]; cbn [adv]; auto.
        intros ? q4 Hq4. eapply wp_conseq; [apply IHal; of|].
        intros r q' Hr. eapply adv_weak; eauto; [lia|apply incl_refl].
      + (* at the end of the input object() raises *)
        assert (wp f lo hs (object (fun d => ret d) fl n : P _) pos
                  (fun r q => match r with Ok _ => False | Err e => In e pek end)) as Hend.
        { destruct n as [|n']; [of|]. cbn [object].
          eapply wp_bind; [apply wp_sp; of| |]; cbn [adv]; auto.
          intros ? q Hq. apply wp_cur; [lia|].
          replace (znth f q) with (@None Z) by (symmetry; apply znth_None; lia).
          apply wp_throw; cbn; auto. }
        eapply wp_bind; [exact Hend| |]; cbv beta iota; [intros; contradiction|cbn; auto].
    - (* inline_image *)
      cbn [inline_image]. eapply wp_bind; [apply IHo; cbn; of| |]; cbn [adv]; auto.
      intros t q Hq. ifs; [|apply wp_throw; cbn; auto].
      eapply wp_bind; [apply wp_sp; of| |]; cbn [adv]; auto.
      intros ? q2 Hq2. destruct (Z.lt_ge_cases pos len) as [Hpl|Hpl].
      + eapply wp_bind; [apply IHe; of| |]; cbn [adv]; auto.
        intros d q3 Hq3. apply wp_next; [lia|]. apply wp_next; [lia|]. ifs; [|apply wp_throw; cbn; auto].
        apply wp_cur; [lia|]. ifs; [|apply wp_throw; cbn; auto]. apply wp_next; [lia|].
        eapply wp_bind; [apply wp_ii_data; of| |]; cbn [adv].
        * intros data q4 Hq4. apply wp_ret. cbn. lia.
        * intros e q4 [<-|[]]. cbn; auto.
      + eapply wp_bind; [apply IHe; of| |]; cbn [adv]; auto.
        intros d q3 Hq3. apply wp_next; [lia|]. apply wp_next; [lia|].
        replace (znth f (q3 + 1)) with (@None Z) by (symmetry; apply znth_None; lia).
        cbn [is_cur]. apply wp_throw; cbn; auto.
    - (* entities *)
      cbn [entities]. apply wp_cur; auto. ifs; [apply wp_ret; cbn; lia|].
      eapply wp_bind; [apply wp_name; of| |]; cbv beta iota; [|intros e q2 ->; cbn; auto].
      intros k q [Hq E47]. apply znth_lt in E47.
      eapply wp_bind; [apply wp_sp; of| |]; cbn [adv]; auto.
      intros ? q2 Hq2. eapply wp_bind; [apply IHo; cbn; of| |]; cbn [adv]; auto.
      intros v q3 Hq3.
      assert (wp f lo hs (sp n ;;; entities (fun d => ret d) n (dset acc k v) : P _) q3 (adv pos 0 pek)) as Hc.
      { eapply wp_bind; [apply wp_sp; of| |]; cbn [adv]; auto.
        intros ? q4 Hq4. eapply wp_conseq; [apply IHe; of|].
        intros r q' Hr. eapply adv_weak; eauto; [lia|apply incl_refl]. }
      destruct v; auto. apply wp_throw; cbn; auto.
  Qed.

  Lemma wp_content_loop hs : forall n ops out pos, lo <= pos -> ofuel n pos 10 ->
    wp f lo hs (content_loop n ops out : P _) pos (adv pos 0 pek).
  Proof.
    induction n as [|n IH]; intros ops out pos Hlo Hn; [of|]. cbn [content_loop].
    apply wp_cur; auto. destruct (znth f pos) as [x|] eqn:E; [|apply wp_ret; cbn; lia].
    apply znth_lt in E.
    assert (forall e, In e pe -> In e pek) as Hpe by (intros e [<-|[<-|[]]]; cbn; auto).
    eapply wp_bind; [apply (proj1 (wp_object hs n)); cbn; of| |]; cbn [adv]; auto.
    intros v q Hq.
    assert (forall ops out, wp f lo hs (sp n ;;; content_loop n ops out : P _) q (adv pos 0 pek)) as Hc.
    { intros ops' out'. eapply wp_bind; [apply wp_sp; of| |]; cbn [adv]; auto.
      intros ? q4 Hq4. eapply wp_conseq; [apply IH; of|].
      intros r q' Hr. eapply adv_weak; eauto; [lia|apply incl_refl]. }
    destruct v; auto; ifs; auto.
  Qed.

  Lemma wp_content_objects hs n pos : lo <= pos -> ofuel n pos 10 ->
    wp f lo hs (content_objects n : P _) pos (adv pos 0 pek).
  Proof.
    intros Hlo Hn. unfold content_objects. eapply wp_bind; [apply wp_sp; of| |]; cbn [adv].
    - intros ? q Hq. eapply wp_conseq; [apply wp_content_loop; of|].
      intros r q' Hr. eapply adv_weak; eauto; [lia|apply incl_refl].
    - intros e q [<-|[<-|[]]]; cbn; auto.
  Qed.
End W.
