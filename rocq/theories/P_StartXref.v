(** Finding the cross-reference section: C17. *)
From Coq Require Import String.
From Verif Require Import Prelude M_Prog M_Parser S_Syntax S_Stream S_Print L_Print L_Buffer L_Prog L_ParserWP
  L_Syntax L_Syntax2 L_Stream L_Content M_Document S_Document L_Document.
Local Open Scope Z_scope.
Local Open Scope prog_scope.

Section S.
  Context {U : Type}.
  Variable f : list Z.
  Notation P := (prog U).

  Lemma r_reset {A} (g : unit -> P A) o pos r q : runs f (g tt) (reset_pos f o) r q -> runs f (bind (reset o) g) pos r q.
  Proof. intros H st u. apply (H st u). Qed.
  Lemma r_prev_byte {A} (g : Z -> P A) pos x r q : znth f pos = Some x -> runs f (g x) (pos - 1) r q ->
    runs f (bind prev_byte g) pos r q.
  Proof.
    intros Hx H. unfold prev_byte. apply r_assoc. intros st u. destruct (H st u) as [ex E]. exists ex.
    cbn [bind prev arun a_pos a_store a_usr]. rewrite Hx. exact E.
  Qed.
  Lemma r_prev_none {A} (g : Z -> P A) pos : znth f pos = None -> runs f (bind prev_byte g) pos (Err TypeErr) (pos - 1).
  Proof.
    intros Hx st u. exists []. unfold prev_byte.
    cbn [bind prev arun a_pos a_store a_usr]. rewrite Hx. cbn. now rewrite app_nil_r.
  Qed.
  Lemma r_curp {A} (g : option Z -> P A) pos r q :
    runs f (g (znth f pos)) pos r q -> runs f (bind cur g) pos r q.
  Proof. intros H st u. apply (H st u). Qed.

  Lemma At_last A x R : f = (A ++ [x]) ++ R -> znth f (zlen A) = Some x.
  Proof.
    intros E. rewrite <- app_assoc in E. apply At_start in E. apply At_cons in E. apply E.
  Qed.

  Lemma r_read_back {B} (g : list Z -> P B) r q : forall w A R acc pos, f = A ++ w ++ R -> pos = zlen A + zlen w - 1 ->
    runs f (g (w ++ acc)) (zlen A - 1) r q ->
    runs f (x <- read_back (List.length w) acc ;; g x) pos r q.
  Proof.
    intros w. induction w as [|x w IH] using rev_ind; intros A R acc pos E Hp H.
    - cbn [List.length read_back]. apply r_bret. rewrite zlen_nil in Hp. subst pos. eapply runs_at; [exact H|lia].
    - rewrite app_length, Nat.add_comm. cbn [List.length Nat.add read_back]. apply r_assoc.
      rewrite zlen_app in Hp. change (zlen [x]) with 1 in Hp.
      apply (r_prev_byte _ _ x).
      + replace pos with (zlen (A ++ w)) by (rewrite zlen_app; lia). apply At_last with (R := R).
        rewrite E. repeat (rewrite <- app_assoc). reflexivity.
      + apply (IH A (x :: R)); [rewrite E; repeat (rewrite <- app_assoc; cbn [app]); reflexivity|lia|].
        rewrite <- app_assoc in H. exact H.
  Qed.

  Lemma znth_before A R : f = A ++ R -> A <> [] -> exists x, znth f (zlen A - 1) = Some x.
  Proof.
    intros E HA. destruct (exists_last HA) as (A' & x & ->). exists x.
    rewrite zlen_app. change (zlen [x]) with 1. replace (zlen A' + 1 - 1) with (zlen A') by lia. eapply At_last; eauto.
  Qed.

  Lemma same_len_prefix (pat w R Y : list Z) : pat ++ Y = w ++ R -> List.length w = List.length pat -> w = pat.
  Proof. intros E H. symmetry in H. destruct (app_inj_2 _ _ _ _ H E); auto. Qed.

  (** scanning backwards for a pattern; [w] is the window, [D] what is between the hit and it *)
  Lemma window_step A0 pat Y D x w R : last_occ pat (pat ++ Y) -> pat ++ Y = (D ++ [x]) ++ w ++ R -> List.length w = List.length pat ->
    eqlZ w pat = false /\ (pat <> [] -> exists R', pat ++ Y = D ++ (x :: removelast w) ++ R' /\ List.length (x :: removelast w) = List.length pat) /\
    (f = A0 ++ pat ++ Y -> znth f (zlen A0 + zlen D) = Some x).
  Proof.
    intros [_ Hl] E Hw. repeat split.
    - apply eqlZ_neq. intros ->. apply Hl in E. destruct D; discriminate.
    - intros Hpat. assert (w <> []) as Hne by (intros ->; destruct pat; [congruence|discriminate]).
      destruct (exists_last Hne) as (w' & y & ->). rewrite removelast_last.
      exists (y :: R). split; [rewrite E; repeat (rewrite <- app_assoc; cbn [app]); reflexivity|].
      rewrite app_length in Hw. cbn in *. lia.
    - intros Hf. rewrite <- zlen_app. apply At_last with (R := w ++ R). rewrite Hf, E. repeat (rewrite <- app_assoc). reflexivity.
  Qed.

  Lemma r_eof_found A0 Y : f = A0 ++ bs "%%EOF" ++ Y -> A0 <> [] -> last_occ (bs "%%EOF") (bs "%%EOF" ++ Y) ->
    forall D w R k pos, bs "%%EOF" ++ Y = D ++ w ++ R -> List.length w = 5%nat -> pos = zlen A0 + zlen D - 1 -> (List.length D < k)%nat ->
    runs f (eof_loop k w : P _) pos (Ok tt) (zlen A0 - 1).
  Proof.
    intros Hf HA Hl D. induction D as [|x D IH] using rev_ind; intros w R [|k] pos E Hw Hp Hk; try lia; cbn [eof_loop].
    - rewrite zlen_nil in Hp. destruct (znth_before A0 _ Hf HA) as [y Hy]. apply r_curp.
      replace pos with (zlen A0 - 1) by lia. rewrite Hy.
      cbn [app] in E. rewrite (same_len_prefix (bs "%%EOF") w R Y E Hw), eqlZ_refl. apply runs_ret.
    - destruct (window_step A0 _ _ _ _ _ _ Hl E Hw) as (H1 & H2 & H3). specialize (H3 Hf).
      rewrite zlen_app in Hp. change (zlen [x]) with 1 in Hp. apply r_curp.
      replace pos with (zlen A0 + zlen D) by lia. rewrite H3, H1.
      eapply r_prev_byte; eauto. destruct H2 as (R' & E' & Hw'); [discriminate|].
      eapply IH; eauto. rewrite app_length in Hk. cbn in Hk. lia.
  Qed.
  Lemma r_startxref_found A0 Y Z0 : f = A0 ++ (bs "startxref" ++ Y) ++ Z0 -> A0 <> [] -> last_occ (bs "startxref") (bs "startxref" ++ Y) ->
    forall D w R k pos, bs "startxref" ++ Y = D ++ w ++ R -> List.length w = 9%nat -> pos = zlen A0 + zlen D - 1 -> (List.length D < k)%nat ->
    runs f (startxref_loop k w : P _) pos (Ok tt) (zlen A0 - 1).
  Proof.
    intros Hf HA Hl D. induction D as [|x D IH] using rev_ind; intros w R [|k] pos E Hw Hp Hk; try lia; cbn [startxref_loop].
    - rewrite zlen_nil in Hp. destruct (znth_before A0 _ Hf HA) as [y Hy]. apply r_curp.
      replace pos with (zlen A0 - 1) by lia. rewrite Hy.
      cbn [app] in E. rewrite (same_len_prefix (bs "startxref") w R Y E Hw), eqlZ_refl. apply runs_ret.
    - destruct (window_step A0 _ _ _ _ _ _ Hl E Hw) as (H1 & H2 & _).
      assert (znth f (zlen A0 + zlen D) = Some x) as H3.
      { rewrite <- zlen_app. apply At_last with (R := w ++ R ++ Z0). rewrite Hf, E. repeat (rewrite <- app_assoc). reflexivity. }
      rewrite zlen_app in Hp. change (zlen [x]) with 1 in Hp. apply r_curp.
      replace pos with (zlen A0 + zlen D) by lia. rewrite H3, H1.
      eapply r_prev_byte; eauto. destruct H2 as (R' & E' & Hw'); [discriminate|].
      eapply IH; eauto. rewrite app_length in Hk. cbn in Hk. lia.
  Qed.

  (** not found: scan down to the start of the file or of the last 1024 bytes *)
  Lemma r_eof_none : forall A k w R pos, f = A ++ w ++ R -> List.length w = 5%nat -> pos = zlen A - 1 ->
    (forall a b, f = a ++ bs "%%EOF" ++ b -> a <> [] -> zlen A - Z.of_nat k < zlen a <= zlen A -> False) ->
    exists q, runs f (eof_loop k w : P _) pos (Err ParserExc) q.
  Proof.
    intros A. induction A as [|x A IH] using rev_ind; intros [|k] w R pos E Hw Hp Hno; cbn [eof_loop];
      try (exists pos; apply runs_throw).
    - exists pos. apply r_curp. replace (znth f pos) with (@None Z) by (symmetry; apply znth_None; left; rewrite zlen_nil in Hp; lia).
      apply runs_throw.
    - rewrite zlen_app in *. change (zlen [x]) with 1 in *.
      assert (znth f pos = Some x) as Hx.
      { replace pos with (zlen A) by lia. eapply At_last; eauto. }
      assert (eqlZ w (bs "%%EOF") = false) as Hne.
      { apply eqlZ_neq. intros ->. apply (Hno (A ++ [x]) R E); [destruct A; discriminate|]. rewrite zlen_app. change (zlen [x]) with 1. lia. }
      assert (w <> []) as Hwn by (intros ->; discriminate).
      destruct (exists_last Hwn) as (w' & y & ->).
      destruct (IH k (x :: removelast (w' ++ [y])) (y :: R) (pos - 1)) as [q Hq].
      + rewrite removelast_last, E. repeat (rewrite <- app_assoc; cbn [app]). reflexivity.
      + rewrite removelast_last. rewrite app_length in Hw. cbn in *. lia.
      + lia.
      + intros a b Ea Ha Hl. apply (Hno a b Ea Ha). lia.
      + exists q. apply r_curp. rewrite Hx, Hne. eapply r_prev_byte; eauto.
  Qed.
  Lemma r_startxref_none : forall A k w R pos, f = A ++ w ++ R -> List.length w = 9%nat -> pos = zlen A - 1 -> (List.length A < k)%nat ->
    (forall a b, f = a ++ bs "startxref" ++ b -> a <> [] -> zlen a <= zlen A -> False) ->
    exists q, runs f (startxref_loop k w : P _) pos (Err ParserExc) q.
  Proof.
    intros A. induction A as [|x A IH] using rev_ind; intros [|k] w R pos E Hw Hp Hk Hno; try lia; cbn [startxref_loop].
    - exists pos. apply r_curp. replace (znth f pos) with (@None Z) by (symmetry; apply znth_None; left; rewrite zlen_nil in Hp; lia).
      apply runs_throw.
    - rewrite zlen_app in *. change (zlen [x]) with 1 in *.
      assert (znth f pos = Some x) as Hx.
      { replace pos with (zlen A) by lia. eapply At_last; eauto. }
      assert (eqlZ w (bs "startxref") = false) as Hne.
      { apply eqlZ_neq. intros ->. apply (Hno (A ++ [x]) R E); [destruct A; discriminate|]. rewrite zlen_app. change (zlen [x]) with 1. lia. }
      assert (w <> []) as Hwn by (intros ->; discriminate).
      destruct (exists_last Hwn) as (w' & y & ->).
      destruct (IH k (x :: removelast (w' ++ [y])) (y :: R) (pos - 1)) as [q Hq].
      + rewrite removelast_last, E. repeat (rewrite <- app_assoc; cbn [app]). reflexivity.
      + rewrite removelast_last. rewrite app_length in Hw. cbn in *. lia.
      + lia.
      + rewrite app_length in Hk. cbn in Hk. lia.
      + intros a b Ea Ha Hl. apply (Hno a b Ea Ha). lia.
      + exists q. apply r_curp. rewrite Hx, Hne. eapply r_prev_byte; eauto.
  Qed.

  (** the last five bytes *)
  Lemma r_seek_init {B} (g : unit -> P B) pos r q : 5 <= zlen f ->
    (forall A w, f = A ++ w -> List.length w = 5%nat -> runs f (x <- eof_loop (1024 - 5) w ;; g x) (zlen A - 1) r q) ->
    runs f (x <- seek_eof ;; g x) pos r q.
  Proof.
    intros H5 H. unfold seek_eof. apply r_assoc, r_reset. change (reset_pos f (-1024)) with (zlen f - 1).
    set (A := firstn (List.length f - 5) f). set (w := skipn (List.length f - 5) f).
    assert (f = A ++ w) as E by (symmetry; apply firstn_skipn).
    assert (List.length w = 5%nat) as Hw by (unfold w; rewrite skipn_length; unfold zlen in H5; lia).
    apply r_assoc. rewrite <- Hw at 1.
    apply (r_read_back (fun w => x <- eof_loop (1024 - 5) w ;; g x) r q w A [] [] (zlen f - 1)).
    - now rewrite app_nil_r.
    - rewrite E at 1. rewrite zlen_app. lia.
    - rewrite app_nil_r. apply H; auto.
  Qed.
End S.

Lemma split_tail (A1 w A0 X : list Z) : A1 ++ w = A0 ++ X -> (List.length w <= List.length X)%nat ->
  exists D, X = D ++ w /\ A1 = A0 ++ D /\ List.length D = (List.length X - List.length w)%nat.
Proof.
  intros E H. exists (firstn (List.length X - List.length w) X).
  assert (A1 ++ w = (A0 ++ firstn (List.length X - List.length w) X) ++ skipn (List.length X - List.length w) X) as E2
    by (rewrite <- app_assoc, firstn_skipn; exact E).
  assert (List.length A1 = List.length (A0 ++ firstn (List.length X - List.length w) X)) as HLA.
  { apply (f_equal (@List.length Z)) in E. rewrite !app_length in E. rewrite app_length, firstn_length. lia. }
  destruct (app_inj_2 _ _ _ _ HLA E2) as [E3 E4]. split; [|split; auto].
  { rewrite <- (firstn_skipn (List.length X - List.length w) X) at 1. rewrite <- E4. reflexivity. }
  rewrite firstn_length. lia.
Qed.

(** [offset_of f r]: xref_offset() on the file [f] has outcome [r]. *)
Definition offset_of (f : list Z) (r : res Z) : Prop :=
  forall U st (u : U) n pos, 4 * zlen f + 8 <= Z.of_nat n ->
  exists q ex, arun f (xref_offset n) (mkA pos st u) = (r, mkA q (st ++ ex) u).

(** C17.  The file is  A startxref M %%EOF B  where these are the last "%%EOF" of the file and the last
    "startxref" before it, something precedes startxref, and at most 1018 bytes follow %%EOF.
    The offset is read from the number, and reading stops before the end of the file. *)
Lemma startxref_at {U} A M B sep ds r n pos : 
  A <> [] -> zlen B + 5 <= 1023 ->
  last_occ (bs "%%EOF") (bs "%%EOF" ++ B) ->
  last_occ (bs "startxref") (bs "startxref" ++ M) ->
  M = sep ++ ds ++ r -> Sep sep -> ds <> [] -> digits_ok ds -> int_end (r ++ bs "%%EOF" ++ B) ->
  4 * zlen (A ++ bs "startxref" ++ M ++ bs "%%EOF" ++ B) + 8 <= Z.of_nat n ->
  exists q, runs (A ++ bs "startxref" ++ M ++ bs "%%EOF" ++ B) (xref_offset n : prog U _) pos (Ok (dvalue ds)) q /\
            q < zlen (A ++ bs "startxref" ++ M ++ bs "%%EOF" ++ B).
Proof.
  intros HA HB Heof Hsx HM Hsep Hds Hdig Hend Hn.
  set (f := A ++ bs "startxref" ++ M ++ bs "%%EOF" ++ B) in *.
  pose proof (zlen_nonneg A) as LA. pose proof (zlen_nonneg M) as LM. pose proof (zlen_nonneg B) as LB.
  assert (zlen f = zlen A + 9 + zlen M + 5 + zlen B) as HL.
  { unfold f. rewrite !zlen_app. change (zlen (bs "startxref")) with 9. change (zlen (bs "%%EOF")) with 5. lia. }
  destruct (exists_last HA) as (A' & y & EA'). unfold xref_offset. refine (ex_intro _ _ (conj _ _)).
  { apply r_seek_init; [lia|]. intros A1 w E Hw.
  set (A0 := A ++ bs "startxref" ++ M).
  assert (f = A0 ++ bs "%%EOF" ++ B) as E0 by (unfold f, A0; repeat rewrite <- app_assoc; reflexivity).
  (* %%EOF is found *)
  assert (List.length (bs "%%EOF" ++ B) = 5 + List.length B)%nat as LX by reflexivity.
  destruct (split_tail A1 w A0 (bs "%%EOF" ++ B)) as (D & ED & EA1 & LD); [rewrite <- E; exact E0|lia|].
  assert (List.length D = List.length B) as LD' by lia. clear LD. rename LD' into LD.
  eapply runs_bind.
  { apply (r_eof_found f A0 B E0) with (D := D) (R := []); auto.
    - unfold A0. destruct A; [congruence|discriminate].
    - now rewrite app_nil_r.
    - rewrite EA1, zlen_app. lia.
    - rewrite LD. unfold zlen in HB. lia. }
  cbv beta.
  (* nine bytes before it *)
  set (A2 := firstn (List.length A0 - 9) A0). set (w2 := skipn (List.length A0 - 9) A0).
  assert (A0 = A2 ++ w2) as EA0 by (symmetry; apply firstn_skipn).
  assert (9 <= List.length A0)%nat as L9.
  { unfold A0. rewrite !app_length. change (List.length (bs "startxref")) with 9%nat. lia. }
  assert (List.length w2 = 9%nat) as Hw2 by (unfold w2; rewrite skipn_length; lia).
  rewrite <- Hw2 at 1.
  apply (r_read_back f _ _ _ w2 A2 (bs "%%EOF" ++ B) []).
  { rewrite E0, EA0, <- app_assoc. reflexivity. }
  { rewrite EA0, zlen_app. lia. }
  rewrite app_nil_r.
  assert (List.length (bs "startxref" ++ M) = 9 + List.length M)%nat as LX2 by reflexivity.
  destruct (split_tail A2 w2 A (bs "startxref" ++ M)) as (D2 & ED2 & EA2 & LD2); [rewrite <- EA0; reflexivity|lia|].
  assert (List.length D2 = List.length M) as LD' by lia. clear LD2. rename LD' into LD2.
  assert (f = A ++ (bs "startxref" ++ M) ++ bs "%%EOF" ++ B) as Ef2 by (unfold f; repeat rewrite <- app_assoc; reflexivity).
  eapply runs_bind.
  { apply (r_startxref_found f A M _ Ef2 HA Hsx D2 w2 []); auto.
    - now rewrite app_nil_r.
    - rewrite EA2, zlen_app. lia.
    - rewrite LD2. unfold zlen in *. lia. }
  cbv beta.
  (* read startxref and the byte before it, then the number *)
  assert (At f (zlen A') (([y] ++ bs "startxref") ++ M ++ bs "%%EOF" ++ B)) as HAt.
  { apply At_start. unfold f. rewrite EA'. repeat rewrite <- app_assoc. reflexivity. }
  rewrite EA', zlen_app. change (zlen [y]) with 1. replace (zlen A' + 1 - 1) with (zlen A') by lia.
  eapply runs_bind; [apply (r_read f ([y] ++ bs "startxref") _ (M ++ bs "%%EOF" ++ B)); auto|]. cbv beta.
  apply At_app in HAt. rewrite HM in HAt. repeat rewrite <- app_assoc in HAt.
  pose proof (zlen_nonneg A').
  eapply runs_bind; [apply (r_sp f sep n _ (ds ++ r ++ bs "%%EOF" ++ B)); auto; [now apply digits_nosep|fu]|].
  apply At_app in HAt.
  apply (r_nni f n (dvalue ds) ds _ (r ++ bs "%%EOF" ++ B)); auto; [now constructor|now apply dvalue_nonneg|fu]. }
  rewrite HL, EA', HM. rewrite !zlen_app. pose proof (zlen_nonneg r). change (zlen (bs "startxref")) with 9. change (zlen [y]) with 1. lia.
Qed.
Theorem C17_startxref_number : forall A M B sep ds r,
  A <> [] -> zlen B + 5 <= 1023 ->
  last_occ (bs "%%EOF") (bs "%%EOF" ++ B) ->
  last_occ (bs "startxref") (bs "startxref" ++ M) ->
  M = sep ++ ds ++ r -> Sep sep -> ds <> [] -> digits_ok ds -> int_end (r ++ bs "%%EOF" ++ B) ->
  offset_of (A ++ bs "startxref" ++ M ++ bs "%%EOF" ++ B) (Ok (dvalue ds)).
Proof.
  intros A M B sep ds r HA HB Heof Hsx HM Hsep Hds Hdig Hend U st u n pos Hn.
  destruct (@startxref_at U A M B sep ds r n pos) as (q & Hq & _); auto. destruct (Hq st u) as [ex E]. eauto.
Qed.

(** No %%EOF in the last 1023 bytes (first byte of the file excluded): ParserException. *)
Theorem C17_no_eof : forall f, 5 <= zlen f ->
  (forall a b, f = a ++ bs "%%EOF" ++ b -> a = [] \/ 1023 < 5 + zlen b) ->
  offset_of f (Err ParserExc).
Proof.
  intros f H5 Hno U st u n pos Hn.
  assert (exists q, runs f (xref_offset n : prog U _) pos (Err ParserExc) q) as [q Hq].
  2:{ destruct (Hq st u) as [ex E]. eauto. }
  set (A := firstn (List.length f - 5) f). set (w := skipn (List.length f - 5) f).
  assert (f = A ++ w) as E by (symmetry; apply firstn_skipn).
  assert (List.length w = 5%nat) as Hw by (unfold w; rewrite skipn_length; unfold zlen in H5; lia).
  destruct (@r_eof_none U f A (1024 - 5) w [] (zlen A - 1)) as [q Hq]; auto.
  - now rewrite app_nil_r.
  - intros a b Ea Ha Hl. destruct (Hno a b Ea) as [->|Hb]; [congruence|].
    assert (zlen f = zlen a + 5 + zlen b) as L1 by (rewrite Ea, !zlen_app; change (zlen (bs "%%EOF")) with 5; lia).
    assert (zlen f = zlen A + 5) as L2 by (rewrite E, zlen_app; unfold zlen; lia). lia.
  - exists q. unfold xref_offset. apply r_seek_init; [lia|]. intros A1 w1 E1 Hw1.
    assert (A1 = A /\ w1 = w) as [-> ->].
    { assert (List.length A1 = List.length A) as HLA.
      { rewrite E in E1. apply (f_equal (@List.length Z)) in E1. rewrite !app_length in E1. lia. }
      rewrite E in E1. destruct (app_inj_2 _ _ _ _ HLA (eq_sym E1)); auto. }
    apply runs_bind_err. exact Hq.
Qed.
(** %%EOF is there, but no startxref (after the first byte) before it: ParserException. *)
Theorem C17_no_startxref : forall A B, 9 <= zlen A -> zlen B + 5 <= 1023 ->
  last_occ (bs "%%EOF") (bs "%%EOF" ++ B) ->
  (forall a b, A = a ++ bs "startxref" ++ b -> a = []) ->
  offset_of (A ++ bs "%%EOF" ++ B) (Err ParserExc).
Proof.
  intros A0 B H9 HB Heof Hno U st u n pos Hn.
  set (f := A0 ++ bs "%%EOF" ++ B) in *.
  assert (zlen f = zlen A0 + 5 + zlen B) as HL.
  { unfold f. rewrite !zlen_app. change (zlen (bs "%%EOF")) with 5. lia. }
  pose proof (zlen_nonneg B).
  set (A2 := firstn (List.length A0 - 9) A0). set (w2 := skipn (List.length A0 - 9) A0).
  assert (A0 = A2 ++ w2) as EA0 by (symmetry; apply firstn_skipn).
  assert (List.length w2 = 9%nat) as Hw2 by (unfold w2; rewrite skipn_length; unfold zlen in H9; lia).
  destruct (@r_startxref_none U f A2 n w2 (bs "%%EOF" ++ B) (zlen A2 - 1)) as [q Hq]; auto.
  - unfold f. rewrite EA0 at 1. rewrite <- app_assoc. reflexivity.
  - assert (zlen A2 <= zlen A0) by (rewrite EA0, zlen_app; pose proof (zlen_nonneg w2); lia). unfold zlen in *. lia.
  - intros a b Ea Ha Hl. apply Ha. apply (Hno a (firstn (List.length A0 - (List.length a + 9)) b)).
    assert (zlen A0 = zlen A2 + 9) as LA by (rewrite EA0, zlen_app; unfold zlen; lia).
    assert (List.length A0 = List.length (a ++ bs "startxref" ++ firstn (List.length A0 - (List.length a + 9)) b)) as LLL.
    { rewrite !app_length, firstn_length. change (List.length (bs "startxref")) with 9%nat.
      assert (List.length f = List.length a + 9 + List.length b)%nat as Lf by (rewrite Ea, !app_length; change (List.length (bs "startxref")) with 9%nat; lia).
      unfold zlen in *. lia. }
    unfold f in Ea. rewrite <- (firstn_skipn (List.length A0 - (List.length a + 9)) b) in Ea.
    rewrite (app_assoc (bs "startxref")), (app_assoc a) in Ea. destruct (app_inj_2 _ _ _ _ LLL Ea). auto.
  - assert (runs f (xref_offset n : prog U _) pos (Err ParserExc) q) as HR.
    2:{ destruct (HR st u) as [ex E]. eauto. }
    unfold xref_offset. apply r_seek_init; [lia|]. intros A1 w E Hw.
    assert (List.length (bs "%%EOF" ++ B) = 5 + List.length B)%nat as LX by reflexivity.
    destruct (split_tail A1 w A0 (bs "%%EOF" ++ B)) as (D & ED & EA1 & LD); [rewrite <- E; reflexivity|lia|].
    assert (List.length D = List.length B) as LD' by lia. clear LD. rename LD' into LD.
    eapply runs_bind.
    { apply (r_eof_found f A0 B eq_refl) with (D := D) (R := []); auto.
      - intros ->. rewrite zlen_nil in H9. lia.
      - now rewrite app_nil_r.
      - rewrite EA1, zlen_app. lia.
      - rewrite LD. unfold zlen in HB. lia. }
    cbv beta. rewrite <- Hw2 at 1. apply (r_read_back f _ _ _ w2 A2 (bs "%%EOF" ++ B) []).
    + unfold f. rewrite EA0 at 1. rewrite <- app_assoc. reflexivity.
    + rewrite EA0, zlen_app. lia.
    + rewrite app_nil_r. apply runs_bind_err. exact Hq.
Qed.

Lemma last_occ_check pat X : (exists Y, X = pat ++ Y) ->
  forallb (fun i => negb (eqlZ (firstn (List.length pat) (skipn (S i) X)) pat)) (seq 0 (List.length X)) = true -> pat <> [] -> last_occ pat X.
Proof.
  intros H1 H2 Hp. split; auto. intros a b E. destruct a as [|x a]; auto. exfalso.
  rewrite forallb_forall in H2. specialize (H2 (List.length a)).
  assert (In (List.length a) (seq 0 (List.length X))) as Hi by (apply in_seq; rewrite E, !app_length; cbn; lia).
  specialize (H2 Hi). rewrite E in H2. cbn [app skipn] in H2.
  rewrite skipn_app, skipn_all, Nat.sub_diag in H2. cbn [skipn app] in H2.
  rewrite firstn_app, Nat.sub_diag, firstn_O, app_nil_r, firstn_all, eqlZ_refl in H2. discriminate H2.
Qed.
Example C17_ex : offset_of (bs "...startxref 1 %%EOF" ++ [10] ++ bs "startxref" ++ [10] ++ bs "%comment" ++ [10] ++ bs "00415" ++ [13] ++ bs "%%EOF" ++ [13; 10])
  (Ok 415).
Proof.
  pose proof (C17_startxref_number (bs "...startxref 1 %%EOF" ++ [10]) ([10] ++ bs "%comment" ++ [10] ++ bs "00415" ++ [13]) [13; 10]
    ([10] ++ bs "%comment" ++ [10]) (bs "00415") [13]) as H.
  apply H; try discriminate; try reflexivity.
  - apply last_occ_check; try reflexivity; [|discriminate]. eexists. reflexivity.
  - apply last_occ_check; try reflexivity; [|discriminate]. eexists. reflexivity.
  - apply Sep_ws; [reflexivity|]. apply (Sep_comment (bs "comment") [10] []); [|left; reflexivity|constructor].
    repeat constructor; discriminate.
  - repeat constructor.
Qed.

Print Assumptions C17_startxref_number.
Print Assumptions C17_no_eof.
Print Assumptions C17_no_startxref.
