(** CMapParser on arbitrary input: exceptions, termination, no read before the start of the file. *)
From Coq Require Import String.
From Verif Require Import Prelude M_Prog M_Buffer S_Buffer L_Buffer L_Prog M_Parser L_ParserWP L_Fuel M_Codec M_CMap M_CMapParser.
Local Open Scope Z_scope.
Local Open Scope prog_scope.

(** every value a program can return satisfies R *)
Fixpoint rets {U A} (R : A -> Prop) (p : prog U A) : Prop :=
  match p with
  | Ret a => R a
  | Throw _ => True
  | Cur k | Next k | Prev k => forall c, rets R (k c)
  | Reset _ k | Restore _ k | SetU _ k => rets R k
  | Save k => forall c, rets R (k c)
  | Index k => forall c, rets R (k c)
  | GetU k => forall c, rets R (k c)
  end.
Lemma rets_bind {U A B} (R : B -> Prop) (p : prog U A) (g : A -> prog U B) : (forall a, rets R (g a)) -> rets R (bind p g).
Proof. intros H. induction p; cbn [bind rets]; auto. Qed.
Lemma rets_arun {U A} f (R : A -> Prop) (p : prog U A) : rets R p -> forall s a s', arun f p s = (Ok a, s') -> R a.
Proof.
  induction p as [a|e|k IH|k IH|k IH|o k IH|k IH|x k IH|k IH|k IH|w k IH]; intros HR s a0 s' E; cbn [arun rets] in *; try (eapply IH; eauto; fail).
  - inversion E; subst; auto.
  - discriminate.
  - destruct (nth_error (a_store s) x); [eapply IH; eauto|discriminate].
Qed.

Ltac rets_go := repeat first [ exact I | (cbn; discriminate)
  | match goal with
    | |- rets _ (bind _ _) => apply rets_bind; intros
    | |- rets _ (if ?b then _ else _) => destruct b
    | |- rets _ (match ?x with _ => _ end) => destruct x
    | |- rets _ (ret _) => cbn; discriminate
    | |- rets _ (throw _) => exact I
    end ].

Section W.
  Context {U : Type}.
  Variables (f : list Z) (lo : Z).
  Notation P := (prog U).
  Notation len := (zlen f).
  Notation hook := (fun d : dict => ret d : P dict).
  Ltac of := unfold ofuel, fuel, fuel1 in *; try lia.

  Lemma object_no_token n t : rets (fun o => o <> OTok t) (object hook FNoRef n).
  Proof.
    destruct n as [|n]; [exact I|]. cbn [object].
    apply rets_bind; intros _. apply rets_bind; intros c. destruct c as [x|]; [|exact I]. cbn [refs_allowed].
    unfold hexstring, string_, null_, false_, true_, keyword, numeric, stream_body. rets_go.
    all: cbn; unfold dec_neg; repeat match goal with |- context [if ?b then _ else _] => destruct b end; try discriminate.
  Qed.

  Lemma wp_rets {A} hs (p : P A) pos Q (R : A -> Prop) : wp f lo hs p pos Q -> rets R p ->
    wp f lo hs p pos (fun r q => Q r q /\ forall a, r = Ok a -> R a).
  Proof.
    intros H HR st u Hk. destruct (H st u Hk) as (r & q & ex & E & HQ & A0). exists r, q, ex. repeat split; auto.
    intros a ->. eapply rets_arun; eauto.
  Qed.

  Lemma wp_oot hs n pos : lo <= pos -> ofuel f n pos 8 ->
    wp f lo hs (object_or_token n : P _) pos
      (fun r q => match r with Ok (OTok t) => q = pos + zlen t /\ t <> [] | Ok _ => pos + 1 <= q | Err e => In e pek end).
  Proof.
    intros Hlo Hn. unfold object_or_token. apply wp_save. intros h.
    assert (wp f lo ((h, pos) :: hs) (object hook FNoRef n) pos (fun r q => adv pos 1 pek r q /\ forall a, r = Ok a -> forall t, a <> OTok t)) as H.
    { intros st u Hk. destruct (proj1 (@wp_object U f lo ((h, pos) :: hs) n) FNoRef pos Hlo Hn st u Hk) as (r & q & ex & E & HQ & A0).
      exists r, q, ex. repeat split; auto. intros a -> t. exact (rets_arun f _ _ (object_no_token n t) _ _ _ E). }
    eapply wp_catch; [exact H| | |]; cbv beta.
    - intros a q [Ha Ht]. cbn [adv] in Ha. specialize (Ht a eq_refl). destruct a; auto. exfalso. eapply Ht; eauto.
    - intros e q _ _. eapply wp_restore; [left; reflexivity|].
      eapply wp_bind; [apply wp_token; of| |]; cbv beta iota.
      + intros t q' Ht. apply wp_ret. exact Ht.
      + intros e' q' ->. cbn; auto.
    - intros e q [He _] _. exact He.
  Qed.

  Lemma wp_skip_name hs nm : forall n pos, lo + zlen nm + 1 <= pos -> ofuel f n pos 10 ->
    wp f lo hs (skip_until_name n nm : P _) pos (adv pos (- zlen nm) pek).
  Proof.
    induction n as [|n IH]; intros pos Hlo Hn; [of|]. cbn [skip_until_name]. pose proof (zlen_nonneg nm).
    eapply wp_bind; [apply wp_sp; of| |]; cbn [adv]; [|intros e q [<-|[<-|[]]]; cbn; auto].
    intros _ q Hq. apply wp_cur; [lia|]. destruct (znth f q) as [x|] eqn:E; [|apply wp_ret; cbn; lia].
    apply znth_lt in E.
    eapply wp_bind; [apply wp_oot; of| |]; cbv beta; auto.
    intros o q2 Ho.
    assert (q + 1 <= q2) as H2. { destruct o as [| | | | | | | | | | |t|]; auto. destruct Ho as [-> Ht]. destruct t; [congruence|]. rewrite zlen_cons. pose proof (zlen_nonneg t). lia. }
    assert (wp f lo hs (skip_until_name n nm : P _) q2 (adv pos (- zlen nm) pek)) as HR.
    { eapply wp_conseq; [apply IH; of|]. intros r q' Hr. eapply adv_weak; eauto; [lia|apply incl_refl]. }
    destruct o as [| | | |cs| | | | | | | |]; auto. destruct (eqlZ cs nm); auto.
    eapply wp_bind; [apply wp_prevs; unfold zlen in *; lia| |]; cbv beta.
    - intros _ q3 [_ ->]. apply wp_ret. cbn [adv]. unfold zlen in *. lia.
    - intros e q3 [X _]. discriminate.
  Qed.

  Lemma wp_skip_token hs w : forall n pos, lo <= pos -> ofuel f n pos 10 ->
    wp f lo hs (skip_until_token n w : P _) pos (adv pos 0 pek).
  Proof.
    induction n as [|n IH]; intros pos Hlo Hn; [of|]. cbn [skip_until_token].
    apply wp_cur; [lia|]. destruct (znth f pos) as [x0|] eqn:E0; [|apply wp_ret; cbn; lia].
    eapply wp_bind; [apply wp_sp; of| |]; cbn [adv]; [|intros e q [<-|[<-|[]]]; cbn; auto].
    intros _ q Hq. apply wp_cur; [lia|]. destruct (znth f q) as [x|] eqn:E; [|apply wp_ret; cbn; lia].
    apply znth_lt in E.
    eapply wp_bind; [apply wp_oot; of| |]; cbv beta; auto.
    intros o q2 Ho.
    assert (q + 1 <= q2) as H2. { destruct o as [| | | | | | | | | | |t|]; auto. destruct Ho as [-> Ht]. destruct t; [congruence|]. rewrite zlen_cons. pose proof (zlen_nonneg t). lia. }
    assert (wp f lo hs (skip_until_token n w : P _) q2 (adv pos 0 pek)) as HR.
    { eapply wp_conseq; [apply IH; of|]. intros r q' Hr. eapply adv_weak; eauto; [lia|apply incl_refl]. }
    destruct o as [| | | | | | | | | | |t|]; auto. destruct (eqlZ t w) eqn:Et; auto. apply eqlZ_eq in Et. subst t. destruct Ho as [-> _].
    eapply wp_bind; [apply wp_prevs; unfold zlen in *; lia| |]; cbv beta.
    - intros _ q3 [_ ->]. apply wp_ret. cbn [adv]. unfold zlen in *. lia.
    - intros e q3 [X _]. discriminate.
  Qed.

  Lemma wp_expected_name hs n v pos : lo <= pos -> fuel f n pos ->
    wp f lo hs (expected_name n v : P _) pos (adv pos 1 pek).
  Proof.
    intros Hlo Hn. unfold expected_name. eapply wp_bind; [apply wp_name; auto| |]; cbv beta iota.
    - intros a q [Hq _]. destruct (eqlZ a v); [apply wp_ret; exact Hq|apply wp_throw; cbn; auto].
    - intros e q ->. cbn; auto.
  Qed.
  Lemma wp_expected_token hs n v pos : lo <= pos -> fuel f n pos ->
    wp f lo hs (expected_token n v : P _) pos (adv pos (Z.max 1 (zlen v)) pek).
  Proof.
    intros Hlo Hn. unfold expected_token. eapply wp_bind; [apply wp_token; auto| |]; cbv beta iota.
    - intros a q [Hq Ha]. destruct (eqlZ a v) eqn:E; [|apply wp_throw; cbn; auto].
      apply eqlZ_eq in E. subst v. apply wp_ret. cbn [adv]. destruct a; [congruence|]. rewrite zlen_cons in *. pose proof (zlen_nonneg a). lia.
    - intros e q ->. cbn; auto.
  Qed.

  Lemma wp_cmap_name hs n pos : lo + 9 <= pos -> ofuel f n pos 50 ->
    wp f lo hs (cmap_name n : P _) pos (adv pos (- 20) pek).
  Proof.
    intros Hlo Hn. unfold cmap_name.
    eapply wp_bind; [apply wp_skip_name; change (zlen (bs "CMapName")) with 8; of| |]; cbn [adv]; auto.
    change (zlen (bs "CMapName")) with 8. intros _ q Hq.
    eapply wp_bind; [apply wp_expected_name; of| |]; cbn [adv]; auto. intros _ q2 Hq2.
    eapply wp_bind; [apply wp_sp; of| |]; cbn [adv]; [|intros e q' [<-|[<-|[]]]; cbn; auto]. intros _ q3 Hq3.
    eapply wp_conseq; [apply wp_name; of|]. cbv beta. intros [a|e] q4.
    - intros [H _]. cbn [adv]. lia.
    - intros ->. cbn; auto.
  Qed.

  (** exceptions of building ranges *)
  Definition cme : list exn := [ParserExc; TypeErr; KeyErr; ValueErr; AssertionErr; IndexErr; AttributeErr].
  Lemma pe_cme e : In e pe -> In e cme. Proof. intros [<-|[<-|[]]]; cbn; tauto. Qed.
  Lemma pek_cme e : In e pek -> In e cme. Proof. intros [<-|[<-|[<-|[]]]]; cbn; tauto. Qed.
  Lemma mk_range_err b e x : mk_range b e = Err x -> In x cme.
  Proof.
    unfold mk_range, as_int, rbind. destruct (zlen b =? zlen e); [|intros H; inversion H; subst; cbn; tauto].
    destruct (py_int16 b); [|intros H; inversion H; subst; cbn; tauto].
    destruct (py_int16 e); [|intros H; inversion H; subst; cbn; tauto].
    match goal with |- context [if ?y then _ else _] => destruct y end; intros H; inversion H; subst; cbn; tauto.
  Qed.
  Lemma range_maps_err b e o x : range_maps b e o = Err x -> In x cme.
  Proof.
    assert (forall codes vs, array_maps codes vs = Err x -> In x cme) as HA.
    { induction codes as [|c cs IH]; intros vs H; cbn [array_maps] in H; [discriminate|].
      destruct vs as [|v vs]; [inversion H; cbn; tauto|]. unfold rbind in H.
      destruct (mk_bf_obj c v) as [m|y] eqn:E.
      - destruct (array_maps cs vs) eqn:E2; [discriminate|]. inversion H; subst. eapply IH; eauto.
      - inversion H; subst. destruct v; cbn in E; inversion E; cbn; tauto. }
    unfold range_maps, mk_map_int, mk_map_hex, rbind. destruct o; intros H; try (inversion H; subst; cbn; tauto).
    - destruct (mk_range b e) eqn:E; [discriminate|]. inversion H; subst. eapply mk_range_err; eauto.
    - destruct (mk_range b e) eqn:E; [discriminate|]. inversion H; subst. eapply mk_range_err; eauto.
    - destruct (mk_range b e) eqn:E; [|inversion H; subst; eapply mk_range_err; eauto].
      unfold as_int in H. match type of H with context [py_int16 ?l] => destruct (py_int16 l) end; inversion H; cbn; tauto.
    - destruct (mk_range b e) eqn:E; [|inversion H; subst; eapply mk_range_err; eauto]. eapply HA; eauto.
  Qed.
  Lemma char_map_err k s d x : char_map k s d = Err x -> In x cme.
  Proof.
    unfold char_map, mk_map_hex, rbind. destruct (eqlZ k (bs "bf")); [discriminate|].
    destruct (mk_range s s) eqn:E; [|intros H; inversion H; subst; eapply mk_range_err; eauto].
    unfold as_int. destruct (py_int16 d); intros H; inversion H; cbn; tauto.
  Qed.
  Lemma wp_lift {A B} hs (x : res A) (g : A -> P B) pos (Q : res B -> Z -> Prop) :
    (forall e, x = Err e -> Q (Err e) pos) -> (forall a, x = Ok a -> wp f lo hs (g a) pos Q) -> wp f lo hs (bind (lift x) g) pos Q.
  Proof. intros H1 H2. destruct x as [a|e]; [apply H2; auto|apply wp_throw; apply H1; auto]. Qed.

  Lemma wp_codespace_loop hs : forall n acc pos, lo <= pos -> ofuel f n pos 10 ->
    wp f lo hs (codespace_loop n acc : P _) pos (adv pos 0 cme).
  Proof.
    induction n as [|n IH]; intros acc pos Hlo Hn; [of|]. cbn [codespace_loop].
    apply wp_cur; auto. destruct (is_cur (znth f pos) 60) eqn:E; [|apply wp_ret; cbn; lia].
    destruct (znth f pos) as [x|] eqn:Ex; [|discriminate]. apply znth_lt in Ex.
    eapply wp_bind; [apply wp_hexstring; of| |]; cbn [adv]; [|intros; now apply pe_cme]. intros a q1 H1.
    eapply wp_bind; [apply wp_sp; of| |]; cbn [adv]; [|intros; now apply pe_cme]. intros _ q2 H2.
    eapply wp_bind; [apply wp_hexstring; of| |]; cbn [adv]; [|intros; now apply pe_cme]. intros b q3 H3.
    eapply wp_bind; [apply wp_sp; of| |]; cbn [adv]; [|intros; now apply pe_cme]. intros _ q4 H4.
    apply wp_lift; [intros; cbn [adv]; eapply mk_range_err; eauto|]. intros r _.
    eapply wp_conseq; [apply IH; of|]. intros r' q' Hr. eapply adv_weak; eauto; [lia|apply incl_refl].
  Qed.
  Lemma wp_mapped_loop hs : forall n acc pos, lo <= pos -> ofuel f n pos 10 ->
    wp f lo hs (mapped_loop n acc : P _) pos (adv pos 0 cme).
  Proof.
    induction n as [|n IH]; intros acc pos Hlo Hn; [of|]. cbn [mapped_loop].
    apply wp_cur; auto. destruct (is_cur (znth f pos) 60) eqn:E; [|apply wp_ret; cbn; lia].
    destruct (znth f pos) as [x|] eqn:Ex; [|discriminate]. apply znth_lt in Ex.
    eapply wp_bind; [apply wp_hexstring; of| |]; cbn [adv]; [|intros; now apply pe_cme]. intros a q1 H1.
    eapply wp_bind; [apply wp_sp; of| |]; cbn [adv]; [|intros; now apply pe_cme]. intros _ q2 H2.
    eapply wp_bind; [apply wp_hexstring; of| |]; cbn [adv]; [|intros; now apply pe_cme]. intros b q3 H3.
    eapply wp_bind; [apply wp_sp; of| |]; cbn [adv]; [|intros; now apply pe_cme]. intros _ q4 H4.
    eapply wp_bind; [apply (proj1 (@wp_object U f lo hs n) FNoRef q4); cbn [oc]; of| |]; cbn [adv]; [|intros; now apply pek_cme]. intros o q5 H5.
    apply wp_lift; [intros; cbn [adv]; eapply range_maps_err; eauto|]. intros r _.
    eapply wp_bind; [apply wp_sp; of| |]; cbn [adv]; [|intros; now apply pe_cme]. intros _ q6 H6.
    eapply wp_conseq; [apply IH; of|]. intros r' q' Hr. eapply adv_weak; eauto; [lia|apply incl_refl].
  Qed.
  Lemma wp_char_loop hs k : forall n acc pos, lo <= pos -> ofuel f n pos 10 ->
    wp f lo hs (char_loop n k acc : P _) pos (adv pos 0 cme).
  Proof.
    induction n as [|n IH]; intros acc pos Hlo Hn; [of|]. cbn [char_loop].
    apply wp_cur; auto. destruct (is_cur (znth f pos) 60) eqn:E; [|apply wp_ret; cbn; lia].
    destruct (znth f pos) as [x|] eqn:Ex; [|discriminate]. apply znth_lt in Ex.
    eapply wp_bind; [apply wp_hexstring; of| |]; cbn [adv]; [|intros; now apply pe_cme]. intros a q1 H1.
    eapply wp_bind; [apply wp_sp; of| |]; cbn [adv]; [|intros; now apply pe_cme]. intros _ q2 H2.
    eapply wp_bind; [apply wp_hexstring; of| |]; cbn [adv]; [|intros; now apply pe_cme]. intros b q3 H3.
    eapply wp_bind; [apply wp_sp; of| |]; cbn [adv]; [|intros; now apply pe_cme]. intros _ q4 H4.
    apply wp_lift; [intros; cbn [adv]; eapply char_map_err; eauto|]. intros r _.
    eapply wp_conseq; [apply IH; of|]. intros r' q' Hr. eapply adv_weak; eauto; [lia|apply incl_refl].
  Qed.

  Lemma wp_section {A} hs (w e : list Z) (loop : P A) n pos : lo <= pos -> ofuel f n pos 10 ->
    (forall p, pos <= p -> wp f lo hs loop p (adv p 0 cme)) ->
    wp f lo hs (expected_token n w ;;; sp n ;;; l <- loop ;; expected_token n e ;;; ret l) pos (adv pos 1 cme).
  Proof.
    intros Hlo Hn Hl.
    eapply wp_bind; [apply wp_expected_token; of| |]; cbn [adv]; [|intros; now apply pek_cme]. intros _ q1 H1.
    eapply wp_bind; [apply wp_sp; of| |]; cbn [adv]; [|intros; now apply pe_cme]. intros _ q2 H2.
    eapply wp_bind; [apply Hl; lia| |]; cbn [adv]; auto. intros l q3 H3.
    eapply wp_bind; [apply wp_expected_token; of| |]; cbn [adv]; [|intros; now apply pek_cme]. intros _ q4 H4.
    apply wp_ret. cbn [adv]. lia.
  Qed.

  Lemma wp_sections {A} hs w (section : nat -> P (list A)) :
    (forall n pos, lo <= pos -> ofuel f n pos 10 -> wp f lo hs (section n) pos (adv pos 1 cme)) ->
    forall n acc pos, lo <= pos -> ofuel f n pos 12 -> wp f lo hs (sections n w section acc) pos (adv pos 0 cme).
  Proof.
    intros Hs. induction n as [|n IH]; intros acc pos Hlo Hn; [of|]. cbn [sections].
    destruct (Z_lt_le_dec pos len) as [Hlt|Hge].
    - eapply wp_bind; [apply wp_skip_token; of| |]; cbn [adv]; [|intros; now apply pek_cme].
      intros b q Hq. destruct b; [|apply wp_ret; cbn [adv]; lia].
      eapply wp_bind; [apply Hs; of| |]; cbn [adv]; auto. intros l q2 H2.
      eapply wp_conseq; [apply IH; of|]. intros r' q' Hr. eapply adv_weak; eauto; [lia|apply incl_refl].
    - destruct n as [|n]; [of|]. cbn [skip_until_token]. apply wp_assoc, wp_cur; auto.
      destruct (znth f pos) eqn:E; [apply znth_lt in E; lia|]. apply wp_bret. apply wp_ret. cbn [adv]. lia.
  Qed.

  Lemma wp_mapped_sections hs n h k pos0 pos : In (h, pos0) hs -> lo <= pos0 -> ofuel f n pos0 12 ->
    wp f lo hs (mapped_sections n h k : P _) pos (adv lo 0 cme).
  Proof.
    intros Hh Hlo Hn. unfold mapped_sections. eapply wp_restore; [exact Hh|].
    eapply wp_bind.
    { apply (wp_sections hs _ (fun m => mapped_codespacerange m k)); auto.
      intros m p Hp Hm. unfold mapped_codespacerange. apply wp_section; auto. intros; apply wp_mapped_loop; of. }
    2: { cbn [adv]. auto. }
    cbn [adv]. intros l q Hq. eapply wp_restore; [exact Hh|].
    eapply wp_conseq.
    { apply (wp_sections hs _ (fun m => mapped_char m k)); auto.
      intros m p Hp Hm. unfold mapped_char. apply wp_section; auto. intros; apply wp_char_loop; of. }
    intros r q' Hr. eapply adv_weak; eauto; [lia|apply incl_refl].
  Qed.

  Lemma wp_tok_sp {A} hs n (w : list Z) (g : P A) pos (Q : res A -> Z -> Prop) es : lo <= pos -> ofuel f n pos 10 -> (forall e q, In e es -> Q (Err e) q) -> incl pek es ->
    (forall q, pos + Z.max 1 (zlen w) <= q -> wp f lo hs g q Q) -> wp f lo hs (sp n ;;; expected_token n w ;;; g) pos Q.
  Proof.
    intros Hlo Hn HQ Hi Hg.
    eapply wp_bind; [apply wp_sp; of| |]; cbn [adv]; [|intros e q [<-|[<-|[]]]; apply HQ, Hi; cbn; auto]. intros _ q1 H1.
    eapply wp_bind; [apply wp_expected_token; of| |]; cbn [adv]; [|intros; apply HQ, Hi; auto]. intros _ q2 H2. apply Hg. lia.
  Qed.
  Lemma wp_name_sp {A} hs n (w : list Z) (g : P A) pos (Q : res A -> Z -> Prop) es : lo <= pos -> ofuel f n pos 10 -> (forall e q, In e es -> Q (Err e) q) -> incl pek es ->
    (forall q, pos + 1 <= q -> wp f lo hs g q Q) -> wp f lo hs (sp n ;;; expected_name n w ;;; g) pos Q.
  Proof.
    intros Hlo Hn HQ Hi Hg.
    eapply wp_bind; [apply wp_sp; of| |]; cbn [adv]; [|intros e q [<-|[<-|[]]]; apply HQ, Hi; cbn; auto]. intros _ q1 H1.
    eapply wp_bind; [apply wp_expected_name; of| |]; cbn [adv]; [|intros; apply HQ, Hi; auto]. intros _ q2 H2. apply Hg. lia.
  Qed.

  Lemma wp_cmap hs n pos : lo <= pos -> ofuel f n pos 60 -> wp f lo hs (cmap n : P _) pos (adv lo 0 cme).
  Proof.
    intros Hlo Hn. unfold cmap.
    assert (forall e q, In e cme -> adv lo 0 cme (@Err cmap_file e) q) as HE by (intros; exact H).
    assert (incl pek cme) as HI by (intros e; apply pek_cme).
    eapply (wp_name_sp _ _ _ _ _ _ cme); auto; [of|]. intros q1 H1.
    eapply (wp_name_sp _ _ _ _ _ _ cme); auto; [of|of|]. intros q2 H2.
    eapply (wp_tok_sp _ _ _ _ _ _ cme); auto; [of|of|]. change (zlen (bs "findresource")) with 12. intros q3 H3.
    eapply (wp_tok_sp _ _ _ _ _ _ cme); auto; [of|of|]. intros q4 H4.
    eapply wp_bind; [apply wp_sp; of| |]; cbn [adv]; [|intros; now apply pe_cme]. intros _ q5 H5.
    eapply wp_bind; [apply wp_nni; of| |]; cbv beta iota; [|intros e q ->; cbn; auto]. intros _ q6 [_ H6].
    eapply (wp_tok_sp _ _ _ _ _ _ cme); auto; [of|of|]. intros q7 H7.
    eapply (wp_tok_sp _ _ _ _ _ _ cme); auto; [of|of|]. intros q8 H8.
    eapply (wp_tok_sp _ _ _ _ _ _ cme); auto; [of|of|]. intros q9 H9.
    eapply wp_bind; [apply wp_sp; of| |]; cbn [adv]; [|intros; now apply pe_cme]. intros _ q10 H10.
    apply wp_save. intros h.
    assert (In (h, q10) ((h, q10) :: hs)) as Hh by (left; reflexivity). set (hs' := (h, q10) :: hs) in *. clearbody hs'.
    eapply wp_bind with (Q1 := fun r q => match r with Ok _ => True | Err e => In e cme end); auto.
    { eapply wp_catch with (Q1 := fun r q => match r with Ok _ => True | Err e => In e cme end); auto.
      - eapply wp_bind; [apply wp_cmap_name; of| |]; cbn [adv]; [intros; apply wp_ret; auto|intros; now apply pek_cme].
      - intros e q _ _. eapply wp_restore; [exact Hh|]. apply wp_ret; auto. }
    intros nm q11 _. eapply wp_restore; [exact Hh|].
    eapply wp_bind.
    { apply (wp_sections hs' _ codespacerange); [|lia|of].
      intros m p Hp Hm. unfold codespacerange. apply wp_section; auto. intros; apply wp_codespace_loop; of. }
    2: { cbn [adv]; auto. }
    cbn [adv]. intros cs q12 _.
    eapply wp_bind; [apply (wp_mapped_sections _ _ _ _ q10); auto; of| |]; cbn [adv]; auto. intros c1 q13 _.
    eapply wp_bind; [apply (wp_mapped_sections _ _ _ _ q10); auto; of| |]; cbn [adv]; auto. intros c2 q14 _.
    eapply wp_bind; [apply (wp_mapped_sections _ _ _ _ q10); auto; of| |]; cbn [adv]; auto. intros c3 q15 H15.
    apply wp_ret. cbn [adv]. lia.
  Qed.
End W.

(** fuel *)
Section F.
  Context {U : Type}.
  Notation P := (prog U).
  Lemma ple_oot n m : (n <= m)%nat -> ple (object_or_token n : P _) (object_or_token m).
  Proof. intros H. unfold object_or_token. pose proof (@ple_object U FNoRef n m H). pose proof (@ple_token U n m H). ple_go. Qed.
  Lemma ple_skip_token w : forall n m, (n <= m)%nat -> ple (skip_until_token n w : P _) (skip_until_token m w).
  Proof.
    induction n as [|n IH]; intros [|m] Hm; try apply ple_oof; [lia|]. assert (n <= m)%nat as H by lia. specialize (IH m H).
    pose proof (ple_oot n m H). pose proof (@ple_sp U n m H). cbn [skip_until_token]. ple_go.
  Qed.
  Lemma ple_skip_name w : forall n m, (n <= m)%nat -> ple (skip_until_name n w : P _) (skip_until_name m w).
  Proof.
    induction n as [|n IH]; intros [|m] Hm; try apply ple_oof; [lia|]. assert (n <= m)%nat as H by lia. specialize (IH m H).
    pose proof (ple_oot n m H). pose proof (@ple_sp U n m H). cbn [skip_until_name]. ple_go.
  Qed.
  Lemma ple_exp_name n m v : (n <= m)%nat -> ple (expected_name n v : P _) (expected_name m v).
  Proof. intros H. unfold expected_name. pose proof (@ple_name U n m H). ple_go. Qed.
  Lemma ple_exp_token n m v : (n <= m)%nat -> ple (expected_token n v : P _) (expected_token m v).
  Proof. intros H. unfold expected_token. pose proof (@ple_token U n m H). ple_go. Qed.
  Lemma ple_codespace : forall n m, (n <= m)%nat -> forall acc, ple (codespace_loop n acc : P _) (codespace_loop m acc).
  Proof.
    induction n as [|n IH]; intros [|m] Hm; intros; try apply ple_oof; [lia|]. assert (n <= m)%nat as H by lia. specialize (IH m H).
    pose proof (@ple_hexstring U n m H). pose proof (@ple_sp U n m H). cbn [codespace_loop]. ple_go.
  Qed.
  Lemma ple_mapped : forall n m, (n <= m)%nat -> forall acc, ple (mapped_loop n acc : P _) (mapped_loop m acc).
  Proof.
    induction n as [|n IH]; intros [|m] Hm; intros; try apply ple_oof; [lia|]. assert (n <= m)%nat as H by lia. specialize (IH m H).
    pose proof (@ple_hexstring U n m H). pose proof (@ple_sp U n m H). pose proof (@ple_object U FNoRef n m H). cbn [mapped_loop]. ple_go.
  Qed.
  Lemma ple_char k : forall n m, (n <= m)%nat -> forall acc, ple (char_loop n k acc : P _) (char_loop m k acc).
  Proof.
    induction n as [|n IH]; intros [|m] Hm; intros; try apply ple_oof; [lia|]. assert (n <= m)%nat as H by lia. specialize (IH m H).
    pose proof (@ple_hexstring U n m H). pose proof (@ple_sp U n m H). cbn [char_loop]. ple_go.
  Qed.
  Lemma ple_sections {A} w (s : nat -> P (list A)) : (forall n m, (n <= m)%nat -> ple (s n) (s m)) ->
    forall n m, (n <= m)%nat -> forall acc, ple (sections n w s acc) (sections m w s acc).
  Proof.
    intros Hs. induction n as [|n IH]; intros [|m] Hm; intros; try apply ple_oof; [lia|]. assert (n <= m)%nat as H by lia. specialize (IH m H).
    pose proof (ple_skip_token w n m H). pose proof (Hs n m H). cbn [sections]. ple_go.
  Qed.
  Lemma ple_cmap n m : (n <= m)%nat -> ple (cmap n : P _) (cmap m).
  Proof.
    intros H. pose proof (@ple_sp U n m H). pose proof (fun v => ple_exp_name n m v H). pose proof (fun v => ple_exp_token n m v H).
    pose proof (@ple_non_negative_int U n m H). pose proof (ple_skip_name (bs "CMapName") n m H). pose proof (@ple_name U n m H).
    assert (forall n m, (n <= m)%nat -> ple (codespacerange n : P _) (codespacerange m)) as H1x.
    { intros a b Hab. unfold codespacerange. pose proof (@ple_sp U a b Hab). pose proof (fun v => ple_exp_token a b v Hab). pose proof (ple_codespace a b Hab). ple_go. }
    assert (forall k n m, (n <= m)%nat -> ple (mapped_codespacerange n k : P _) (mapped_codespacerange m k)) as H2'.
    { intros k a b Hab. unfold mapped_codespacerange. pose proof (@ple_sp U a b Hab). pose proof (fun v => ple_exp_token a b v Hab). pose proof (ple_mapped a b Hab). ple_go. }
    assert (forall k n m, (n <= m)%nat -> ple (mapped_char n k : P _) (mapped_char m k)) as H3'.
    { intros k a b Hab. unfold mapped_char. pose proof (@ple_sp U a b Hab). pose proof (fun v => ple_exp_token a b v Hab). pose proof (ple_char k a b Hab). ple_go. }
    assert (forall h k, ple (mapped_sections n h k : P _) (mapped_sections m h k)) as H4'.
    { intros h k. unfold mapped_sections.
      pose proof (fun w acc => ple_sections w (fun x => mapped_codespacerange x k) (H2' k) n m H acc).
      pose proof (fun w acc => ple_sections w (fun x => mapped_char x k) (H3' k) n m H acc). ple_go. }
    pose proof (fun w acc => ple_sections w codespacerange H1x n m H acc).
    unfold cmap, cmap_name. ple_go.
  Qed.
End F.
