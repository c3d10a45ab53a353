(** The document parser reads forward from the offset it goes to: cross-reference tables, lookups of objects and the scan for
    unlisted objects (L_Blocks.v). *)
From Coq Require Import String.
From Verif Require Import Prelude M_Prog M_Buffer S_Buffer L_Buffer L_Prog M_Parser L_Blocks L_BlocksP M_Filters M_Document.
Local Open Scope Z_scope.
Local Open Scope prog_scope.

Ltac gifs := match goal with |- L_Blocks.gw _ _ _ _ _ (if ?b then _ else _) _ _ => let E := fresh "C" in destruct b eqn:E end.
Ltac gmts := match goal with |- L_Blocks.gw _ _ _ _ _ (match ?x with _ => _ end) _ _ => let E := fresh "C" in destruct x eqn:E end.
Ltac gli := unfold ge in *; try lia.
Ltac gs1 :=
  match goal with
  | |- L_Blocks.gw _ _ _ _ _ (bind cur _) _ _ => apply g_cur; [gli|]
  | |- L_Blocks.gw _ _ _ _ _ (bind next _) _ _ => apply g_next; [gli|]
  | |- L_Blocks.gw _ _ _ _ _ (bind prev _) _ _ => apply g_prev; [gli|]
  | |- L_Blocks.gw _ _ _ _ _ (bind save _) _ _ => apply g_save; [gli|intros ?h]
  | |- L_Blocks.gw ?f ?B ?I ?lo ?hs (bind (ret ?a) ?g) ?p ?R => change (L_Blocks.gw f B I lo hs (g a) p R); cbv beta
  | |- L_Blocks.gw _ _ _ _ _ (ret _) _ _ => apply gw_ret; repeat match goal with |- _ /\ _ => split end; gli; auto
  | |- L_Blocks.gw _ _ _ _ _ (throw _) _ _ => apply gw_throw; gli
  | |- L_Blocks.gw _ _ _ _ _ (bind (throw _) _) _ _ => apply gw_throw; gli
  end.
Ltac gs := repeat (cbv beta; gs1).
Tactic Notation "gbb" uconstr(L) := eapply gw_bind; [eapply L; gli|cbv beta; unfold ge at 1; intros].
Ltac grd := eapply gw_bind; [eapply g_read; gli|cbv beta; intros ? ? [-> ?]].
Ltac gni := eapply gw_bind; [eapply g_nni; gli|cbv beta; intros ? ? [? ?]].

Definition xok (x : xref) : Prop := forall num e, zget (x_inuse x) num = Some e -> 0 <= e_off e.
Definition Ih (u : rst) (n : nat) : Prop :=
  match r_bf u with Some h => (h < n)%nat | None => True end /\ match r_xrefs u with Some xs => Forall xok xs | None => True end.
Lemma Ih_mono u n m : Ih u n -> (n <= m)%nat -> Ih u m.
Proof. unfold Ih. intros [H1 H2] Hm. split; [|auto]. destruct (r_bf u); [lia|auto]. Qed.
Definition I : inv rst := mkInv Ih Ih_mono.

Lemma xok0 : xok xref0.
Proof. intros num e. cbn. discriminate. Qed.
Lemma zget_zset {A} (d : list (Z * A)) k v k' w : zget (zset d k v) k' = Some w -> w = v \/ zget d k' = Some w.
Proof.
  induction d as [|[a b] d IH]; cbn [zset zget].
  - destruct (k' =? k); [injection 1; auto|discriminate].
  - destruct (k =? a) eqn:E; cbn [zget]; destruct (k' =? a) eqn:E2; auto. injection 1; auto.
Qed.
Lemma xok_add x t num gen off e : xok x -> new_entry num gen off = Ok e -> xok (add_entry x t e).
Proof.
  unfold new_entry. destruct (_ && _) eqn:E; [|discriminate]. intros Hx [= <-] n w.
  destruct t; cbn [add_entry x_inuse]; try apply Hx. intros H. apply zget_zset in H. destruct H as [->|H]; [cbn [e_off]; lia|eapply Hx; eauto].
Qed.
Lemma xok_xrow w1 w2 w3 n row x x' : xok x -> xrow w1 w2 w3 n row x = Ok x' -> xok x'.
Proof.
  unfold xrow, rbind. cbv zeta. intros Hx. destruct (_ =? 0).
  { destruct (new_entry _ _ _) eqn:E; [|discriminate]. intros [= <-]. exact (xok_add x TFree _ _ _ _ Hx E). }
  destruct (_ =? 1).
  { destruct (new_entry _ _ _) eqn:E; [|discriminate]. intros [= <-]. exact (xok_add x TInUse _ _ _ _ Hx E). }
  destruct (_ =? 2).
  { destruct (new_entry _ _ _) eqn:E; [|discriminate]. intros [= <-]. exact (xok_add x TComp _ _ _ _ Hx E). }
  intros [= <-]. auto.
Qed.
Lemma xok_xrows w1 w2 w3 : forall rows n x x', xok x -> xrows w1 w2 w3 n rows x = Ok x' -> xok x'.
Proof.
  induction rows as [|row rows IH]; intros n x x' Hx; cbn [xrows]; [intros [= <-]; auto|].
  destruct (xrow w1 w2 w3 n row x) eqn:E; cbn [rbind]; [|discriminate]. apply IH. eapply xok_xrow; eauto.
Qed.
Lemma xok_stream inflate ccitt d raw x : xref_from_stream inflate ccitt d raw = Ok x -> xok x.
Proof.
  unfold xref_from_stream, rbind. repeat match goal with |- match (match ?a with _ => _ end) with _ => _ end = _ -> _ => destruct a; try discriminate end;
  repeat match goal with
  | |- match ?a with _ => _ end = _ -> _ => destruct a; try discriminate
  | |- (if ?a then _ else _) = _ -> _ => destruct a; try discriminate
  end; try (intros [= <-]; apply xok0); try (apply xok_xrows; apply xok0).
Qed.

Section D1.
  Variables (f : list Z) (B lo : Z).
  Notation P := (prog rst).
  Notation gw := (L_Blocks.gw f B I).

  Lemma g_do_register inflate ccitt D hs num gen v pos : lo <= pos -> gw lo hs (do_register inflate ccitt D num gen v) pos (ge pos 0).
  Proof.
    intros Hlo st u se vs Hv Hb HF HK HI. unfold do_register. cbn [getu bind dw a_usr].
    destruct (register inflate ccitt D false (r_objs u) num gen v) as [o oe]. cbn [setu bind dw a_usr a_pos a_store].
    assert (I (with_objs u o) (length st)) as HI2 by exact HI.
    destruct oe; cbn [ret throw dw]; refine (conj (grown_refl _ _) (conj HI2 (conj Hv _))); cbn [a_pos]; [lia|].
    split; [reflexivity|unfold ge; lia].
  Qed.
  Section H.
    Variable hook : dict -> P dict.
    Hypothesis g_hook : forall hs d pos, lo <= pos -> gw lo hs (hook d) pos (ge pos 0).
    Lemma g_obj hs fl n pos : lo <= pos -> gw lo hs (object hook fl n : P _) pos (ge pos 0).
    Proof. apply (g_object f B I lo hook g_hook hs n). Qed.
    Lemma g_dict hs fl n pos : lo <= pos -> gw lo hs (dictionary hook fl n : P _) pos (ge pos 0).
    Proof. apply (g_object f B I lo hook g_hook hs n). Qed.
    Lemma g_indirect hs n pos : lo <= pos -> gw lo hs (indirect_object hook n) pos (fun _ q => pos <= q /\ pos + 3 <= zlen f).
    Proof.
      intros Hlo. unfold indirect_object. gni. gbb g_sp. gni. gbb g_sp. grd. gifs; gs. gbb g_sp. eapply gw_bind; [apply g_obj; gli|].
      cbv beta; unfold ge at 1. intros v q6 Hq6. gbb g_sp. grd. gifs; gs.
      assert (gw lo hs (prevs 6;;; ret (a, a1, v) : P _) (q4 + Z.of_nat 6) (fun _ q => pos <= q /\ pos + 3 <= zlen f)) as Hp.
      { eapply gw_bind; [apply g_prevs; gli|]. cbv beta. intros ? ? ->. gs. }
      destruct v; first [exact Hp|apply gw_throw; gli].
    Qed.
    Lemma g_trailer hs n pos : lo <= pos -> gw lo hs (trailer hook n) pos (ge pos 0).
    Proof. intros Hlo. unfold trailer. grd. gifs; gs. gbb g_sp. eapply g_le; [apply g_dict|]; gli. Qed.
    Lemma g_reg_indirect inflate ccitt decrypt D m hs pos : lo <= pos ->
      gw lo hs (reg_indirect inflate ccitt decrypt D m hook) pos (fun _ q => pos <= q /\ pos + 3 <= zlen f).
    Proof.
      intros Hlo. unfold reg_indirect. eapply gw_bind; [apply g_indirect; auto|]. cbv beta. intros [[num gen] v] q Hq.
      destruct (decrypt num gen v); gs. gbb g_do_register. gs.
    Qed.
  End H.
  Lemma g_startxref hs n pos : lo <= pos -> gw lo hs (startxref n : P _) pos (ge pos 0).
  Proof. intros Hlo. unfold startxref. grd. gifs; gs. gbb g_sp. eapply gw_conseq; [apply g_nni; gli|]. cbv beta. unfold ge. intros; lia. Qed.
  Lemma g_until hs stop : forall n acc pos, lo <= pos -> gw lo hs (until stop n acc : P _) pos (ge pos 0).
  Proof. induction n as [|n IH]; intros acc pos Hlo; cbn [until]; gs. gifs; gs. apply g_next_byte; auto. intros x. eapply g_le; [apply IH|]; gli. Qed.
  Lemma g_xref_range hs n pos : lo <= pos -> gw lo hs (xref_range n : P _) pos (ge pos 0).
  Proof.
    intros Hlo. unfold xref_range. gbb g_until. gs. gbb g_until. destruct (py_int a); gs. destruct (py_int _); gs.
  Qed.
  Lemma g_xref_entry hs pos : lo <= pos -> gw lo hs (xref_entry : P _) pos (ge pos 0).
  Proof.
    intros Hlo. unfold xref_entry. grd. repeat first [gmts | progress gs].
  Qed.
  Lemma g_entries_loop hs : forall k num x pos, lo <= pos -> xok x -> gw lo hs (entries_loop k num x : P _) pos (fun x' q => pos <= q /\ xok x').
  Proof.
    induction k as [|k IH]; intros num x pos Hlo Hx; cbn [entries_loop]; gs. gbb g_xref_entry. destruct a as [[off gen] used].
    destruct (new_entry num gen off) eqn:E; gs. eapply gw_conseq; [apply IH; [lia|eapply xok_add; eauto]|]. cbv beta. intros ? ? [? ?]; split; [lia|auto].
  Qed.
  Lemma g_ranges_loop hs : forall n x pos, lo <= pos -> xok x -> gw lo hs (ranges_loop n x : P _) pos (fun x' q => pos <= q /\ xok x').
  Proof.
    induction n as [|n IH]; intros x pos Hlo Hx; cbn [ranges_loop]; gs. destruct (znth f pos); gs. gifs; gs. gbb g_xref_range. destruct a as [first cnt].
    gbb g_eol. eapply gw_bind; [apply g_entries_loop; [gli|auto]|]. cbv beta. intros x' q' [Hq' Hx'].
    eapply gw_conseq; [apply IH; [lia|auto]|]. cbv beta. intros ? ? [? ?]; split; [lia|auto].
  Qed.
  Lemma g_direct_xref hs n pos : lo <= pos -> gw lo hs (direct_xref n : P _) pos (fun x q => pos <= q /\ xok x /\ pos + 4 <= zlen f).
  Proof.
    intros Hlo. unfold direct_xref. grd. gifs; gs. gbb g_sp. eapply gw_conseq; [apply g_ranges_loop; [gli|apply xok0]|].
    cbv beta. intros ? ? [? ?]. repeat split; auto; lia.
  Qed.
  Lemma g_skip_endobj hs : forall n tok pos, lo <= pos -> gw lo hs (skip_endobj n tok : P _) pos (ge pos 0).
  Proof. induction n as [|n IH]; intros tok pos Hlo; cbn [skip_endobj]; gs. gifs; gs. grd. eapply g_le; [apply IH|]; gli. Qed.
  Lemma g_skip_until_next hs n pos : lo <= pos -> gw lo hs (skip_until_next n : P _) pos (ge pos 0).
  Proof. intros Hlo. unfold skip_until_next. grd. gbb g_skip_endobj. eapply g_le; [apply g_sp|]; gli. Qed.
  Lemma g_body_element iobj m hs pos : (forall pos, lo <= pos -> gw lo hs iobj pos (fun _ q => pos <= q)) ->
    lo <= pos -> gw lo hs (body_element m iobj) pos (ge pos 0).
  Proof.
    intros Hi Hlo. unfold body_element. gs. gifs; gs. { eapply gw_bind; [apply Hi; auto|]. cbv beta. intros. gs. }
    gifs; gs. { gbb g_startxref. gs. } gifs; gs.
  Qed.
End D1.
