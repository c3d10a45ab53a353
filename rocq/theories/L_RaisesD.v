(** Which exceptions the lookups in a document can raise, and what they leave on the stack of scanning lookups. *)
From Coq Require Import String.
From Verif Require Import Prelude M_Prog L_Prog M_Parser M_Filters M_Document L_Raises L_RaisesP.
Local Open Scope Z_scope.
Local Open Scope prog_scope.

(** the scanning state was saved *)
Definition Ib (u : rst) (n : nat) : Prop := forall h, r_bf u = Some h -> (h < n)%nat.
Lemma Ib_mono : forall u n n', Ib u n -> (n <= n')%nat -> Ib u n'.
Proof. intros u n n' H L h Hh. specialize (H h Hh). lia. Qed.

Section Doc.
  Variable f : list Z.
  Variable E : list exn.
  Hypothesis HE : incl raisable E.
  Variable inflate : list Z -> option (list Z).
  Variable ccitt : list Z -> fparams -> res (list Z).
  Hypothesis Hcc : forall d p, okr E (ccitt d p).
  Lemma inE e : In e raisable -> In e E. Proof. apply HE. Qed.
  Ltac ms := apply inE; cbn; auto 12.

  Lemma register_exn : forall k force r num gen v e, snd (register inflate ccitt k force r num gen v) = Some e -> In e E.
  Proof.
    induction k as [|k IH]; intros force r num gen v e; cbn [register]; [intros X; injection X as <-; ms|].
    destruct (_ || _); [|discriminate]. cbv zeta. destruct v; try discriminate. destruct (is_name _ _); [|discriminate].
    pose proof (okr_filtered E HE inflate ccitt Hcc d data) as HF. destruct (filtered inflate ccitt d data) as [data'|e']; [|intros X; injection X as <-; exact HF].
    destruct (dget d (bs "First")) as [first|]; [|intros X; injection X as <-; ms]. destruct (dget d (bs "N")) as [cnt|]; [|intros X; injection X as <-; ms].
    destruct (as_range cnt) as [c|]; [|intros X; injection X as <-; ms].
    match goal with |- context [arun data' ?p ?s] =>
      assert (bal data' E (fun (_ : regs) (_ : nat) => True) (fun _ => []) false 0 p anyR) as HB; [|specialize (HB s (Nat.le_0_l _) Logic.I)] end.
    { eapply bal_bind; [apply ok_header_ints; [exact HE]|]. intros l n Hn _. clear HF.
      remember (Z.to_nat (4 * zlen data' + 8)) as nn. clear Heqnn. revert n Hn.
      assert (forall l n, bal data' E (fun (_ : regs) (_ : nat) => True) (fun _ => []) false n
        (unpack (fun num0 gen0 v0 => u <- getu ;; (let '(u', oe) := register inflate ccitt k false u num0 gen0 v0 in setu u' ;;; match oe with None => ret tt | Some e => throw e end)) first l nn) anyR) as HU; [|auto].
      clear l. fix IHl 1. intros [|num1 [|off r1]] n; cbn [unpack]; try (apply bal_ret; intros; exact Logic.I).
      destruct (as_range first) as [fo|]; [|apply bal_throw; ms].
      eapply bal_bind; [apply bal_reset|intros _ n1 _ _].
      eapply bal_bind; [apply ok_object; [exact HE|auto|intros; apply bal_ret; intros; exact Logic.I]|intros v n2 _ _].
      eapply bal_bind with (R := anyR); [|intros _ n3 _ _; apply IHl].
      intros s Hm Hi. cbn [bind getu bw]. destruct (register inflate ccitt k false (a_usr s) num1 0 v) as [u' [e'|]] eqn:Er; cbn; right.
      - repeat (split; [auto|]). left. apply (IH false (a_usr s) num1 0 v e'). now rewrite Er.
      - repeat (split; [auto|]). exact Logic.I. }
    apply bw_arun in HB. destruct (arun _ _ _) as [[a|e'] s]; [discriminate|]. cbn [fst snd] in *. intros X. injection X as <-.
    destruct HB as [X|(_ & _ & _ & [X|(X & _)])]; [injection X as ->; ms|exact X|discriminate X].
  Qed.

  Notation bl := (bal f E Ib r_stack).
  Notation ok b m p := (bal f E Ib r_stack b m p anyR).

  Variable decrypt : Z -> Z -> obj -> res obj.
  Hypothesis Hdec : forall a b v, okr E (decrypt a b v).
  Variables (D m : nat).

  Ltac thr := apply bal_throw; ms.
  Ltac rt := apply bal_ret; intros; exact Logic.I.
  Lemma ok_do_register b num gen v w : ok b w (do_register inflate ccitt D num gen v).
  Proof.
    intros s Hm Hi. unfold do_register. cbn [bind getu bw]. pose proof (register_exn D false (r_objs (a_usr s)) num gen v) as HR.
    destruct (register inflate ccitt D false (r_objs (a_usr s)) num gen v) as [o [e|]]; cbn; right.
    - split; [auto|]. split; [exact Hi|]. split; [auto|]. left. now apply HR.
    - split; [auto|]. split; [exact Hi|]. split; [auto|]. exact Logic.I.
  Qed.
  Lemma ok_registered b num gen w : ok b w (registered num gen).
  Proof. unfold registered. eapply bal_bind; [apply bal_getu|]. intros u n _ _. rt. Qed.
  Lemma ok_reg_get b num gen w : ok b w (reg_get num gen).
  Proof. unfold reg_get. eapply bal_bind; [apply bal_getu|]. intros u n _ _. rt. Qed.
  Lemma ok_reg_indirect b hook : (forall d w, ok b w (hook d)) -> forall w, ok b w (reg_indirect inflate ccitt decrypt D m hook).
  Proof.
    intros HH w. unfold reg_indirect. eapply bal_bind; [apply ok_indirect_object; [exact HE|exact Ib_mono|exact HH]|]. intros [[num gen] v] n Hn _.
    pose proof (Hdec num gen v) as Hd. destruct (decrypt num gen v) as [v'|e]; [|now apply bal_throw].
    eapply bal_bind; [apply ok_do_register|]. intros _ n2 _ _. rt.
  Qed.
  Lemma ok_length_hook b locate : (forall num gen w, ok b w (locate num gen)) -> forall d w, ok b w (length_hook locate d).
  Proof.
    intros HL d w. unfold length_hook. destruct (dget d (bs "Length")) as [v|]; [|thr]. destruct v; try rt.
    eapply bal_bind; [apply bal_save; exact Ib_mono|]. cbv beta. intros h n1 H1 Hh. eapply bal_bind; [apply HL|]. intros v n2 H2 _.
    eapply bal_bind; [apply bal_restore; lia|]. intros _ n3 _ _. rt.
  Qed.
  Lemma ok_by_xref b locate iobj : (forall num gen w, ok b w (locate num gen)) -> (forall w, ok b w iobj) -> forall xs num gen w, ok b w (by_xref locate iobj xs num gen).
  Proof.
    intros HL HI. induction xs as [|x r IH]; intros num gen w; cbn [by_xref]; [apply ok_reg_get|]. cbv zeta.
    match goal with |- context [if e_gen _ =? gen then _ ;;; _ else ?c] => assert (forall w, ok b w c) as HC end.
    { intros w'. destruct (zget (x_comp x) num) as [e|]; [|apply IH]. destruct (_ && _); [|apply IH]. eapply bal_bind; [apply HL|]. intros _ n1 _ _.
      eapply bal_bind; [apply ok_registered|]. intros [] n2 _ _; [apply ok_reg_get|apply IH]. }
    destruct (zget (x_inuse x) num) as [e|]; [|apply HC]. destruct (_ =? gen); [|apply HC].
    eapply bal_bind with (R := anyR).
    { apply bal_catch; [|intros; rt]. eapply bal_bind; [apply bal_reset|]. intros _ n1 _ _. eapply bal_bind; [apply HI|]. intros _ n2 _ _. rt. }
    intros _ n1 _ _. eapply bal_bind; [apply ok_registered|]. intros [] n2 _ _; [apply ok_reg_get|apply HC].
  Qed.
  Lemma ok_body_element b iobj : (forall w, ok b w iobj) -> forall w, ok b w (body_element m iobj).
  Proof.
    intros HI w. unfold body_element. eapply bal_bind; [apply bal_cur|]. intros c n _ _. destruct (p_digit c); [eapply bal_bind; [apply HI|]; intros; rt|].
    destruct (is_cur c 115); [eapply bal_bind; [apply ok_startxref; [exact HE]|]; intros; rt|]. destruct (is_cur c 116); thr.
  Qed.
  Lemma ok_skip_endobj b : forall n t w, ok b w (skip_endobj n t).
  Proof.
    induction n as [|n IH]; intros t w; cbn [skip_endobj]; [thr|]. destruct (eqlZ _ _); [rt|]. eapply bal_bind; [apply ok_read; exact HE|]. intros x n1 _ _. apply IH.
  Qed.
  Lemma ok_skip b w : ok b w (skip_until_next m).
  Proof.
    unfold skip_until_next. eapply bal_bind; [apply ok_read; exact HE|]. intros t n1 _ _. eapply bal_bind; [apply ok_skip_endobj|]. intros _ n2 _ _. apply ok_sp; exact HE.
  Qed.
  (** the handle the scan returns was saved *)
  Lemma ok_bf_tasks iobj : (forall w, ok true w iobj) -> forall n tasks deepest w, Forall (fun h => (h < w)%nat) tasks -> (forall h, deepest = Some h -> (h < w)%nat) ->
    bl false w (bf_tasks m iobj n tasks deepest) (fun o k => forall h, o = Some h -> (h < k)%nat).
  Proof.
    intros HI. induction n as [|n IH]; intros tasks deepest w Ht Hd; cbn [bf_tasks]; [thr|]. destruct tasks as [|h r]; [apply bal_ret; intros k Hk h Hh; specialize (Hd h Hh); lia|].
    inversion Ht as [|? ? Hh Hr]; subst. eapply bal_bind; [apply bal_restore; exact Hh|]. intros _ n1 H1 _. eapply bal_bind; [apply ok_sp; exact HE|]. intros _ n2 H2 _.
    eapply bal_bind with (R := anyR).
    { apply bal_catch_bfr; [|intros; rt]. eapply bal_bind; [apply ok_body_element; exact HI|]. intros; rt. }
    intros [] n3 H3 _.
    - apply IH; [|intros h' Hh'; specialize (Hd h' Hh'); lia]. eapply Forall_impl; [|exact Hr]. cbv beta. intros; lia.
    - eapply bal_bind; [apply ok_skip|]. intros _ n4 H4 _. eapply bal_bind; [apply bal_save; exact Ib_mono|]. cbv beta. intros h2 n5 H5 Hh2. apply IH.
      + constructor; [exact Hh2|]. constructor; [lia|]. eapply Forall_impl; [|exact Hr]. cbv beta. intros; lia.
      + intros h' X. injection X as <-. exact Hh2.
  Qed.
  Lemma ok_next_brute_force iobj : (forall w, ok true w iobj) -> forall n w, ok false w (next_brute_force m iobj n).
  Proof.
    intros HI n w. unfold next_brute_force. eapply bal_bind; [apply bal_getu|]. cbv beta. intros u n1 H1 Hu. destruct (r_bf u) as [h0|] eqn:Eb; [|thr].
    eapply bal_bind; [apply ok_bf_tasks; [exact HI|constructor; [now apply Hu|constructor]|discriminate]|]. cbv beta. intros d n2 H2 Hd.
    eapply bal_bind with (R := fun h k => (h < k)%nat).
    { destruct d as [h|]; [apply bal_ret; intros k Hk; specialize (Hd h eq_refl); lia|apply bal_save; exact Ib_mono]. }
    cbv beta. intros h n3 H3 Hh s Hm Hi. cbn. right. split; [auto|]. split; [intros h' X; cbn in X; injection X as <-; cbn [a_store]; lia|]. split; [auto|exact Logic.I].
  Qed.
  Lemma ok_brute_force iobj : (forall w, ok true w iobj) -> forall n num gen w, ok true w (brute_force inflate ccitt D m iobj n num gen).
  Proof.
    intros HI. induction n as [|n IH]; intros num gen w; cbn [brute_force]; [thr|]. intros s Hm Hi. cbn [bind getu bw].
    destruct (is_registered _ _ _); [cbn; right; (split; [auto|]); (split; [exact Hi|]); (split; [auto|exact Logic.I])|].
    destruct (on_stack (r_stack (a_usr s)) num gen) eqn:Eo.
    { cbn [bw throw]. right. split; [auto|]. split; [exact Hi|]. split; [auto|]. right. repeat (split; [auto|]). intros X. rewrite X in Eo. discriminate Eo. }
    unfold push. cbn [bind getu setu bw].
    set (s1 := mkA (a_pos s) (a_store s) _).
    assert (Ib (a_usr s1) (List.length (a_store s1))) as Hi1 by exact Hi.
    apply bw_bind. apply bw_catch.
    assert (ok false w (catch (next_brute_force m iobj n ;;; ret true) is_parser_exc (fun _ => do_register inflate ccitt D num gen ONull ;;; ret false))) as HN.
    { apply bal_catch; [eapply bal_bind; [apply ok_next_brute_force; exact HI|intros; rt]|]. intros _ _. eapply bal_bind; [apply ok_do_register|intros; rt]. }
    eapply bw_conseq; [apply (HN s1); [exact Hm|exact Hi1]|]. intros r s2 [->|(A1 & A2 & A3 & A4)].
    { change (exn_eqb OutOfFuel OutOfFuel) with true. cbn [negb andb]. now left. }
    cbn [s1 a_store a_usr r_stack] in A1, A3.
    destruct r as [go|e].
    - cbn [pop bind getu setu bw]. set (s3 := mkA (a_pos s2) (a_store s2) _).
      assert (r_stack (a_usr s3) = r_stack (a_usr s)) as Hst by (cbn [s3 a_usr r_stack]; rewrite A3; reflexivity).
      assert (Ib (a_usr s3) (List.length (a_store s3))) as Hi3 by exact A2.
      destruct go.
      + eapply bw_conseq; [apply (IH num gen w s3); [cbn [s3 a_store]; lia|exact Hi3]|]. intros r s4 [->|(B1 & B2 & B3 & B4)]; [now left|]. right. rewrite Hst in *. cbn [s3 a_store] in B1.
        split; [lia|]. split; [exact B2|]. split; [exact B3|]. exact B4.
      + cbn. right. split; [exact A1|]. split; [exact A2|]. split; [exact Hst|exact Logic.I].
    - destruct (negb (exn_eqb e OutOfFuel)) eqn:En; cbn [andb].
      + cbn [pop bind getu setu bw throw]. right. cbn [a_store a_usr r_stack]. split; [exact A1|]. split; [exact A2|]. split; [rewrite A3; reflexivity|].
        destruct A4 as [A4|(X & _)]; [auto|discriminate X].
      + left. destruct e; try discriminate En. reflexivity.
  Qed.
  Lemma ok_locate : forall k num gen w, ok true w (locate_object inflate ccitt decrypt D m k num gen).
  Proof.
    induction k as [|k IH]; intros num gen w; cbn [locate_object]; [thr|]. cbv zeta.
    assert (forall w, ok true w (reg_indirect inflate ccitt decrypt D m (length_hook (locate_object inflate ccitt decrypt D m k)))) as HI.
    { apply ok_reg_indirect. apply ok_length_hook. exact IH. }
    eapply bal_bind; [apply bal_getu|]. intros u n1 H1 _. destruct (truthy _); [rt|]. destruct (r_xrefs u) as [xs|]; [|thr].
    eapply bal_bind; [apply ok_by_xref; [exact IH|exact HI]|]. intros v n2 H2 _. destruct (truthy v); [rt|].
    eapply bal_bind; [apply ok_brute_force; exact HI|]. intros _ n3 H3 _. apply ok_reg_get.
  Qed.
End Doc.
