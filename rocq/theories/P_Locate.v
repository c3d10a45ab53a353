(** Object lookup: C25 (stable) and C26 (the newest revision wins). *)
From Coq Require Import String.
From Verif Require Import Prelude M_Prog M_Parser S_Syntax L_Buffer L_Prog L_ParserWP L_Syntax L_Syntax2 S_Print L_Print
  S_Stream L_Stream M_Filters M_Document S_Document L_Document L_User L_Registry P_IndObj.
Local Open Scope Z_scope.
Local Open Scope prog_scope.

(** What a program returns when it returns, whatever the file contains. *)
Section Post.
  Context {U : Type}.
  Definition post {A} (p : prog U A) (Q : A -> U -> Prop) : Prop :=
    forall u, uwp (fun _ => True) u p (fun r u' => match r with Ok a => Q a u' | Err _ => True end).
  Lemma uwp_true {A} (p : prog U A) : forall u, uwp (fun _ => True) u p (fun _ _ => True).
  Proof. induction p; intros; cbn [uwp]; auto. Qed.
  Lemma post_any {A B} (p : prog U A) (g : A -> prog U B) Q : (forall a, post (g a) Q) -> post (bind p g) Q.
  Proof. intros H u. apply uwp_bind. eapply uwp_mono; [|apply uwp_true]. intros [a|e] u' _; auto. apply H. Qed.
  Lemma post_bind {A B} (p : prog U A) (g : A -> prog U B) Q Q' : post p Q' ->
    (forall a u, Q' a u -> uwp (fun _ => True) u (g a) (fun r u' => match r with Ok a => Q a u' | Err _ => True end)) -> post (bind p g) Q.
  Proof. intros H H2 u. apply uwp_bind. eapply uwp_mono; [|apply H]. intros [a|e] u' X; auto. Qed.
  Lemma post_catch {A} (p : prog U A) hd h Q : post p Q -> (forall e, post (h e) Q) -> post (catch p hd h) Q.
  Proof.
    intros H H2 u. apply uwp_catch. eapply uwp_mono; [|apply H]. intros [a|e] u' X; auto.
    destruct (hd e && negb (exn_eqb e OutOfFuel)); auto. apply H2.
  Qed.
  Lemma uwp_getu {A} E u (g : U -> prog U A) Q : uwp E u (g u) Q -> uwp E u (bind getu g) Q.
  Proof. exact (fun H => H). Qed.
  Lemma post_throw {A} e Q : post (throw e : prog U A) Q. Proof. intros u. exact I. Qed.
  Lemma post_sound {A} f (p : prog U A) Q s a s' : post p Q -> arun f p s = (Ok a, s') -> Q a (a_usr s').
  Proof.
    intros H E. destruct (uwp_sound f _ p _ s (H (a_usr s))) as [X|[X _]]; rewrite E in X; cbn in X; auto. discriminate.
  Qed.
End Post.

Section Locate.
  Variable inflate : list Z -> option (list Z).
  Variable ccitt : list Z -> fparams -> res (list Z).
  Variable decrypt : Z -> Z -> obj -> res obj.
  Variables (D m : nat).
  Notation locate := (locate_object inflate ccitt decrypt D m).

  Definition known (u : rst) (num gen : Z) : option obj := rget (r_objs u) num gen.
  Definition grows (u u' : rst) : Prop := extends (r_objs u) (r_objs u').
  Lemma grows_refl u : grows u u. Proof. apply extends_refl. Qed.
  Lemma grows_trans a b c : grows a b -> grows b c -> grows a c. Proof. apply extends_trans. Qed.

  Lemma mv_same (g : rst -> rst) : (forall u, r_objs (g u) = r_objs u) -> mv grows (u <- getu ;; setu (g u)).
  Proof. intros H u0 u Hu. cbn. unfold grows in *. now rewrite H. Qed.
  Lemma mv_do_register num gen v : mv grows (do_register inflate ccitt D num gen v).
  Proof.
    intros u0 u Hu. unfold do_register. cbn. pose proof (register_extends inflate ccitt D (r_objs u) num gen v) as HE.
    destruct (register inflate ccitt D false (r_objs u) num gen v) as [o oe]. cbn [fst] in HE.
    assert (grows u0 (with_objs u o)) by (eapply grows_trans; [exact Hu|exact HE]). cbn. destruct oe; cbn; auto.
  Qed.
  Hint Resolve mv_do_register : mv.
  Lemma mv_reg_indirect hook : (forall d, mv grows (hook d)) -> mv grows (reg_indirect inflate ccitt decrypt D m hook).
  Proof.
    intros H. unfold reg_indirect, indirect_object. mv_go.
  Qed.
  Lemma mv_length_hook loc d : (forall n g, mv grows (loc n g)) -> mv grows (length_hook loc d).
  Proof. intros H. unfold length_hook. mv_go. Qed.
  Lemma mv_by_xref loc iobj num gen : (forall n g, mv grows (loc n g)) -> mv grows iobj ->
    forall xs, mv grows (by_xref loc iobj xs num gen).
  Proof. intros H1 H2. induction xs as [|x xs IH]; cbn [by_xref]; unfold reg_get, registered; mv_go. Qed.
  Lemma mv_startxref : mv grows (startxref m).
  Proof. unfold startxref. mv_go. Qed.
  Hint Resolve mv_startxref : mv.
  Lemma mv_body_element iobj : mv grows iobj -> mv grows (body_element m iobj).
  Proof. intros H. unfold body_element. mv_go. Qed.
  Lemma mv_skip_endobj : forall n tok, mv grows (skip_endobj n tok).
  Proof. induction n; intros; cbn [skip_endobj]; mv_go. Qed.
  Hint Resolve mv_skip_endobj : mv.
  Lemma mv_bf_tasks iobj : mv grows iobj -> forall n tasks d, mv grows (bf_tasks m iobj n tasks d).
  Proof.
    intros H. pose proof (mv_body_element iobj H). induction n as [|n IH]; intros tasks d; cbn [bf_tasks]; unfold skip_until_next; mv_go.
  Qed.
  Lemma mv_next_brute_force iobj n : mv grows iobj -> mv grows (next_brute_force m iobj n).
  Proof.
    intros H. unfold next_brute_force. apply mv_bind; [apply mv_getu|intros u]. destruct (r_bf u) as [h0|]; [|apply mv_throw].
    apply mv_bind; [apply mv_bf_tasks; auto|intros dd]. apply mv_bind; [mv_go|intros h]. apply (mv_same (fun u' => mkR (r_objs u') (r_xrefs u') (Some h) (r_stack u'))). reflexivity.
  Qed.
  Lemma mv_push num gen : mv grows (push num gen).
  Proof. apply (mv_same (fun u => mkR (r_objs u) (r_xrefs u) (r_bf u) ((num, gen) :: r_stack u))). reflexivity. Qed.
  Lemma mv_pop : mv grows pop.
  Proof. apply (mv_same (fun u => mkR (r_objs u) (r_xrefs u) (r_bf u) (tl (r_stack u)))). reflexivity. Qed.
  Hint Resolve mv_push mv_pop mv_next_brute_force : mv.
  Lemma mv_brute_force iobj num gen : mv grows iobj -> forall n, mv grows (brute_force inflate ccitt D m iobj n num gen).
  Proof. intros H. induction n as [|n IH]; cbn [brute_force]; mv_go. Qed.
  Lemma mv_locate : forall k num gen, mv grows (locate k num gen).
  Proof.
    induction k as [|k IH]; intros num gen; cbn [locate_object]; [apply mv_throw|].
    assert (mv grows (reg_indirect inflate ccitt decrypt D m (length_hook (locate k)))) as HI.
    { apply mv_reg_indirect. intros d. apply mv_length_hook. auto. }
    apply mv_bind; [apply mv_getu|intros u]. cbv zeta. destruct (truthy _); [apply mv_ret|].
    destruct (r_xrefs u) as [xs|]; [|apply mv_throw].
    apply mv_bind; [apply mv_by_xref; auto|intros v]. destruct (truthy v); [apply mv_ret|].
    apply mv_bind; [apply mv_brute_force; auto|intros]. unfold reg_get. mv_go.
  Qed.

  (** A lookup returns what it leaves registered. *)
  Definition value_of (u : rst) (num gen : Z) : obj := match known u num gen with Some v => v | None => ONull end.
  Lemma post_by_xref loc iobj num gen : forall xs, post (by_xref loc iobj xs num gen) (fun v u' => v = value_of u' num gen).
  Proof.
    induction xs as [|x xs IH]; cbn [by_xref]; [intros u; reflexivity|].
    assert (post (reg_get num gen) (fun v u' => v = value_of u' num gen)) as HG by (intros u; reflexivity).
    assert (post (match zget (x_comp x) num with
            | Some e =>
                if (e_gen e =? gen) && negb (e_num e =? num) then
                  loc (e_num e) (e_gen e) ;;;
                  b <- registered num gen ;;
                  if b : bool then reg_get num gen else by_xref loc iobj xs num gen
                else by_xref loc iobj xs num gen
            | None => by_xref loc iobj xs num gen
            end) (fun v u' => v = value_of u' num gen)) as HC.
    { destruct (zget (x_comp x) num) as [e|]; auto. destruct ((e_gen e =? gen) && negb (e_num e =? num)); auto.
      apply post_any; intros _. apply post_any; intros [|]; auto. }
    destruct (zget (x_inuse x) num) as [e|]; auto. destruct (e_gen e =? gen); auto.
    apply post_any; intros _. apply post_any; intros [|]; auto.
  Qed.
  Lemma post_register_null num gen : post (do_register inflate ccitt D num gen ONull) (fun _ u' => is_registered (r_objs u') num gen = true).
  Proof.
    intros u. unfold do_register. cbn. destruct D as [|D']; [cbn; auto|]. rewrite register_plain by discriminate. cbn.
    destruct (is_registered (r_objs u) num gen) eqn:E; auto. unfold is_registered. rewrite rget_rset, !Z.eqb_refl. reflexivity.
  Qed.
  Lemma post_brute_force iobj num gen : forall n, post (brute_force inflate ccitt D m iobj n num gen) (fun _ u' => is_registered (r_objs u') num gen = true).
  Proof.
    induction n as [|n IH]; cbn [brute_force]; [apply post_throw|].
    intros u. apply uwp_getu. destruct (is_registered (r_objs u) num gen) eqn:E; [exact E|]. destruct (on_stack (r_stack u) num gen); [exact I|].
    match goal with |- uwp _ ?u ?p _ => assert (post p (fun _ u' => is_registered (r_objs u') num gen = true)) as HP; [|apply HP] end. apply post_any. intros _.
    eapply post_bind with (Q' := fun b u' => b = false -> is_registered (r_objs u') num gen = true).
    - apply post_catch; [apply post_catch|].
      + apply post_any. intros _ u'. cbn. discriminate.
      + intros e. eapply post_bind; [apply post_register_null|]. intros [] u' H. cbn. auto.
      + intros e. apply post_any. intros _. apply post_throw.
    - intros b u' Hb. cbn. destruct b; [apply IH|]. cbn. auto.
  Qed.
  Lemma post_locate k num gen : post (locate k num gen) (fun v u' => known u' num gen = Some v).
  Proof.
    destruct k as [|k]; cbn [locate_object]; [apply post_throw|].
    intros u. apply uwp_getu. cbv zeta. change (match rget (r_objs u) num gen with Some v => v | None => ONull end) with (value_of u num gen).
    destruct (truthy (value_of u num gen)) eqn:Et.
    { cbn. unfold value_of in *. destruct (known u num gen); [reflexivity|discriminate]. }
    destruct (r_xrefs u) as [xs|]; [|exact I].
    match goal with |- uwp _ ?u ?p _ => assert (post p (fun v u' => known u' num gen = Some v)) as HP; [|apply HP] end.
    eapply post_bind; [apply post_by_xref|]. intros v u' Hv.
    destruct (truthy v) eqn:Ev.
    { cbn. cbv beta in Hv. subst v. unfold value_of in *. destruct (known u' num gen); [reflexivity|discriminate]. }
    match goal with |- uwp _ ?u ?p _ => assert (post p (fun v u' => known u' num gen = Some v)) as HP; [|apply HP] end.
    eapply post_bind; [apply post_brute_force|]. intros [] u2 H2. cbn. unfold is_registered in H2.
    unfold known. destruct (rget (r_objs u2) num gen); [reflexivity|discriminate].
  Qed.

  (** C25.  A parser on which lookups are made one after the other, some of which may raise. *)
  Fixpoint session (k : nat) (f : list Z) (s : ast rst) (ids : list (Z * Z)) : list (res obj) * ast rst :=
    match ids with
    | [] => ([], s)
    | (num, gen) :: r =>
        let '(v, s1) := arun f (locate k num gen) s in
        let '(vs, s2) := session k f s1 r in (v :: vs, s2)
    end.
  Lemma session_grows k f : forall ids s, grows (a_usr s) (a_usr (snd (session k f s ids))).
  Proof.
    induction ids as [|[num gen] ids IH]; intros s; cbn [session]; [apply grows_refl|].
    pose proof (mv_sound grows f (locate k num gen) s grows_refl (mv_locate k num gen)) as H.
    destruct (arun f (locate k num gen) s) as [v s1]. cbn [snd] in H. specialize (IH s1).
    destruct (session k f s1 ids) as [vs s2]. cbn [snd] in *. eapply grows_trans; eauto.
  Qed.
  (** Every successful lookup leaves its value registered till the end of the session. *)
  Theorem C25_lookup_registers : forall k f s ids i num gen v,
    nth_error ids i = Some (num, gen) -> nth_error (fst (session k f s ids)) i = Some (Ok v) ->
    known (a_usr (snd (session k f s ids))) num gen = Some v.
  Proof.
    intros k f s ids i num gen v. revert s i. induction ids as [|[n0 g0] ids IH]; intros s i Hi; [destruct i; discriminate|].
    cbn [session]. destruct (arun f (locate k n0 g0) s) as [v1 s1] eqn:E1.
    pose proof (session_grows k f ids s1) as HG. specialize (IH s1). destruct (session k f s1 ids) as [vs s2]. cbn [fst snd] in *.
    destruct i as [|i]; cbn [nth_error] in *.
    - intros H. inversion Hi; inversion H; subst. apply HG. apply (post_sound f _ _ _ _ _ (post_locate k num gen) E1).
    - intros H. eapply IH; eauto.
  Qed.
  (** Two successful lookups of the same id in one session give the same value. *)
  Theorem C25_lookup_stable : forall k f s ids i j num gen v w,
    nth_error ids i = Some (num, gen) -> nth_error ids j = Some (num, gen) ->
    nth_error (fst (session k f s ids)) i = Some (Ok v) ->
    nth_error (fst (session k f s ids)) j = Some (Ok w) -> v = w.
  Proof.
    intros k f s ids i j num gen v w Hi Hj Hv Hw.
    pose proof (C25_lookup_registers k f s ids i num gen v Hi Hv) as E1.
    pose proof (C25_lookup_registers k f s ids j num gen w Hj Hw) as E2. congruence.
  Qed.
  (** An id that is already registered is looked up as that value. *)
  Theorem C25_registered_value : forall k f s ids i num gen v w,
    known (a_usr s) num gen = Some v ->
    nth_error ids i = Some (num, gen) -> nth_error (fst (session k f s ids)) i = Some (Ok w) -> w = v.
  Proof.
    intros k f s ids i num gen v w H Hi Hw.
    pose proof (C25_lookup_registers k f s ids i num gen w Hi Hw) as E1.
    pose proof (session_grows k f ids s num gen v H) as E2. unfold known in E1. congruence.
  Qed.

  (** C26.  The section does not list the object in use with that generation, or at an offset where no
      number starts (so that parsing an indirect object fails). *)
  Definition no_number_at (f : list Z) (o : Z) : Prop :=
    0 <= o /\ forall c, znth f o = Some c -> is_digit c = false /\ c <> 43 /\ c <> 45 /\ c <> 46.
  Definition passed_over (f : list Z) (num gen : Z) (x : xref) : Prop :=
    (forall e, zget (x_inuse x) num = Some e -> e_gen e = gen -> no_number_at f (e_off e)) /\
    (forall e, zget (x_comp x) num = Some e -> e_num e = num).

  Lemma r_no_number {U} f n o : (0 < n)%nat -> no_number_at f o ->
    runs f (non_negative_int n : prog U Z) o (Err ParserExc) o.
  Proof.
    intros Hn [Ho H] st u. exists []. rewrite app_nil_r. destruct n as [|n]; [lia|].
    unfold non_negative_int, numeric. cbn [bind cur arun a_pos].
    destruct (znth f o) as [c|] eqn:E.
    - destruct (H c eq_refl) as (H1 & H2 & H3 & H4). unfold is_cur.
      rewrite (proj2 (Z.eqb_neq c 43)), (proj2 (Z.eqb_neq c 45)) by auto.
      cbn [bind ret digits cur arun a_pos]. rewrite E. cbn [p_digit]. rewrite H1. cbn [bind ret arun cur a_pos]. rewrite E.
      unfold is_cur. rewrite (proj2 (Z.eqb_neq c 46)) by auto. reflexivity.
    - cbn [is_cur bind ret digits cur arun a_pos]. rewrite E. cbn [p_digit bind ret arun cur a_pos]. rewrite E. reflexivity.
  Qed.

  Lemma by_xref_passed f loc hook num gen u : (0 < m)%nat -> known u num gen = None ->
    forall newer rest pos r u',
    Forall (passed_over f num gen) newer ->
    (forall pos, exists q, uruns f (by_xref loc (reg_indirect inflate ccitt decrypt D m hook) rest num gen) pos u r q u') ->
    exists q, uruns f (by_xref loc (reg_indirect inflate ccitt decrypt D m hook) (newer ++ rest) num gen) pos u r q u'.
  Proof.
    intros Hm Hk newer rest pos r u' HN HR. revert pos. induction HN as [|x newer [H1 H2] HN IH]; intros pos; cbn [app by_xref]; auto.
    assert (forall pos, exists q0, uruns f (match zget (x_comp x) num with
            | Some e =>
                if (e_gen e =? gen) && negb (e_num e =? num) then
                  loc (e_num e) (e_gen e) ;;;
                  b <- registered num gen ;;
                  if b : bool then reg_get num gen else by_xref loc (reg_indirect inflate ccitt decrypt D m hook) (newer ++ rest) num gen
                else by_xref loc (reg_indirect inflate ccitt decrypt D m hook) (newer ++ rest) num gen
            | None => by_xref loc (reg_indirect inflate ccitt decrypt D m hook) (newer ++ rest) num gen
            end) pos u r q0 u') as HC.
    { intros p0. destruct (zget (x_comp x) num) as [e|] eqn:E; [|apply IH].
      rewrite (H2 e eq_refl), Z.eqb_refl. cbn [negb]. rewrite Bool.andb_false_r. apply IH. }
    destruct (zget (x_inuse x) num) as [e|] eqn:E; [|apply HC]. destruct (e_gen e =? gen) eqn:Eg; [|apply HC].
    pose proof (H1 e eq_refl ltac:(lia)) as HB. destruct (HC (e_off e)) as [q0 Hq0]. exists q0.
    eapply uruns_bind with (u1 := u) (q := e_off e) (a := tt).
    - eapply uruns_catch_err with (e := ParserExc) (q := e_off e) (u1 := u); [|discriminate|reflexivity|apply uruns_ret].
      apply uruns_reset. unfold reset_pos. rewrite (proj2 (Z.leb_le 0 (e_off e))) by apply HB.
      apply uruns_bind_err. unfold reg_indirect. apply uruns_bind_err. apply uruns_of. unfold indirect_object.
      apply runs_bind_err. now apply r_no_number.
    - unfold registered. intros st. destruct (Hq0 st) as [ex Ex]. exists ex. cbn [bind getu ret arun]. unfold is_registered.
      cbn [a_usr]. unfold known in Hk. rewrite Hk. exact Ex.
  Qed.

  (** The object is taken from the newest section that lists it in use with the requested generation at
      an offset where it stands. [v'] is its decrypted value. *)
  Theorem C26_newest_revision : forall k f u newer x older num gen e v v' pre text rest,
    r_xrefs u = Some (newer ++ x :: older) -> known u num gen = None ->
    Forall (passed_over f num gen) newer ->
    zget (x_inuse x) num = Some e -> e_gen e = gen ->
    f = pre ++ text ++ rest -> e_off e = zlen pre -> IndObj num gen v text rest ->
    decrypt num gen v = Ok v' -> snd (register inflate ccitt D false (r_objs u) num gen v') = None ->
    4 * zlen f + 8 <= Z.of_nat m ->
    forall pos st, exists s', arun f (locate (S k) num gen) (mkA pos st u) = (Ok v', s').
  Proof.
    intros k f u newer x older num gen e v v' pre text rest HX HK HN He Hg Hf Ho HI HD HReg Hm pos st.
    pose proof (zlen_nonneg f) as HL.
    destruct (register inflate ccitt D false (r_objs u) num gen v') as [o oe] eqn:ER. cbn [snd] in HReg. subst oe.
    assert (rget o num gen = Some v') as HV.
    { destruct D as [|D']; [discriminate ER|]. pose proof (register_new inflate ccitt D' (r_objs u) num gen v' HK) as HV. rewrite ER in HV. exact HV. }
    set (u1 := with_objs u o).
    assert (exists q, uruns f (by_xref (locate k) (reg_indirect inflate ccitt decrypt D m (length_hook (locate k))) (newer ++ x :: older) num gen) pos u (Ok v') q u1) as [q Hq].
    { apply by_xref_passed; auto; [lia|]. intros p0. exists (zlen pre + zlen text). cbn [by_xref]. rewrite He, Hg, Z.eqb_refl.
      eapply uruns_bind with (a := tt) (u1 := u1).
      - apply uruns_catch_ok. apply uruns_reset. pose proof (zlen_nonneg pre). unfold reset_pos. rewrite Ho, (proj2 (Z.leb_le 0 (zlen pre))) by lia.
        eapply uruns_bind with (u1 := u1); [|apply uruns_ret]. unfold reg_indirect. eapply uruns_bind.
        + apply uruns_of. eapply (r_indirect f (length_hook (locate k))).
          * intros d z p Hd. unfold length_hook. rewrite Hd. apply runs_ret.
          * exact HI.
          * now apply At_start with (pre := pre).
          * unfold ofuel. lia.
        + cbv beta iota. rewrite HD. eapply uruns_bind with (u1 := u1) (a := tt); [|apply uruns_ret].
          unfold do_register. apply uruns_getu. rewrite ER. apply uruns_setu. apply uruns_ret.
      - unfold registered. intros st0. exists []. cbn [bind getu ret arun a_usr]. unfold is_registered.
        change (r_objs u1) with o. rewrite HV. cbn. change (r_objs u1) with o. rewrite HV, app_nil_r. reflexivity. }
    cbn [locate_object].
    cbn [bind getu arun a_usr]. fold (known u num gen). rewrite HK, HX. cbn [truthy].
    rewrite arun_bind. destruct (Hq st) as [ex E]. rewrite E.
    destruct (truthy v'); [eexists; reflexivity|]. rewrite arun_bind. destruct m as [|m']; [lia|].
    cbn [brute_force bind getu arun a_usr]. unfold is_registered. change (r_objs u1) with o. rewrite HV. cbn [arun ret].
    eexists. cbn. change (r_objs u1) with o. rewrite HV. reflexivity.
  Qed.

  (** The rest of C25: an id that no section leads to is searched in the body of the file from its
      beginning; the first object with that id is found, or null. *)
  Inductive Body : list (Z * Z * obj) -> list Z -> list Z -> Prop :=
  | B_nil s rest : Sep s -> nosep rest -> Body [] s rest
  | B_cons s num gen v t l ts rest : Sep s -> IndObj num gen v t (ts ++ rest) -> Body l ts rest ->
      Body ((num, gen, v) :: l) (s ++ t ++ ts) rest.
  Fixpoint first_in (l : list (Z * Z * obj)) (num gen : Z) : option obj :=
    match l with
    | [] => None
    | (n, g, v) :: r => if (num =? n) && (gen =? g) then Some v else first_in r num gen
    end.
  Definition no_objstm (v : obj) : Prop :=
    forall d raw, v = OStream d raw -> is_name (oget d (bs "Type")) (bs "ObjStm") = false.
  Lemma register_no_objstm r num gen v : (0 < D)%nat -> no_objstm v ->
    register inflate ccitt D false r num gen v = (if is_registered r num gen then r else rset r num gen v, None).
  Proof.
    intros HD Hv. destruct D as [|D']; [lia|]. cbn [register orb]. destruct (is_registered r num gen); cbn [negb]; auto.
    destruct v; auto. now rewrite (Hv d data eq_refl).
  Qed.

  Lemma ind_digit num gen v t X : IndObj num gen v t X -> exists c t', t = c :: t' /\ is_digit c = true.
  Proof.
    intros H. assert (forall ds, ds <> [] -> digits_ok ds -> exists c t', ds = c :: t' /\ is_digit c = true) as HD.
    { intros [|c t'] N HF; [congruence|]. inversion HF; subst. eauto. }
    destruct H as [ds1 s1 ds2 s2 s3 v vt s4 rest Hh Hv H4|ds1 s1 ds2 s2 s3 d data vt s4 rest Hh Hv H4 Hr H6 Hne];
      destruct Hh as (N1 & D1 & _); destruct (HD ds1 N1 D1) as (c & t' & -> & Hc); cbn [app ind_head]; eauto.
  Qed.

  Section Scan.
    Variable f : list Z.
    Variable loc : Z -> Z -> prog rst obj.
    Hypothesis HDp : (0 < D)%nat.
    Hypothesis Hm : 4 * zlen f + 8 <= Z.of_nat m.
    Notation iobj := (reg_indirect inflate ccitt decrypt D m (length_hook loc)).
    Definition add_obj (u : rst) (n g : Z) (v : obj) : rst :=
      with_objs u (if is_registered (r_objs u) n g then r_objs u else rset (r_objs u) n g v).

    Lemma r_iobj p n g v t X u : IndObj n g v t X -> decrypt n g v = Ok v -> no_objstm v -> At f p (t ++ X) ->
      uruns f iobj p u (Ok (n, g, v)) (p + zlen t) (add_obj u n g v).
    Proof.
      intros HI HD HO HA. pose proof (zlen_nonneg f). assert (0 <= p) by apply HA. unfold reg_indirect. eapply uruns_bind.
      - apply uruns_of. eapply (r_indirect f (length_hook loc)); eauto.
        + intros d z q Hd. unfold length_hook. rewrite Hd. apply runs_ret.
        + unfold ofuel. lia.
      - cbv beta iota. rewrite HD. eapply uruns_bind with (a := tt) (u1 := add_obj u n g v); [|apply uruns_ret].
        unfold do_register. apply uruns_getu. rewrite register_no_objstm by auto. apply uruns_setu. apply uruns_ret.
    Qed.

    Lemma bf_hit pos st h p s n g v t X u k : nth_error st h = Some p -> (2 <= k)%nat ->
      At f p (s ++ t ++ X) -> Sep s -> IndObj n g v t X -> decrypt n g v = Ok v -> no_objstm v ->
      exists ex, arun f (bf_tasks m iobj k [h] None) (mkA pos st u) =
                 (Ok None, mkA (p + zlen s + zlen t) (st ++ ex) (add_obj u n g v)).
    Proof.
      intros Hh Hk HA Hs HI HD HO. pose proof (zlen_nonneg f) as HL. assert (0 <= p) as Hp by apply HA.
      destruct (ind_digit _ _ _ _ _ HI) as (c & t' & Et & Hc).
      destruct k as [|[|k]]; try lia. cbn [bf_tasks]. cbn [bind restore arun a_store a_usr]. rewrite Hh.
      assert (uruns f (sp m;;; (' ok <- catch (body_element m iobj;;; ret true) is_bfr (fun _ : exn => ret false);;
         (if ok : bool then ret None else skip_until_next m;;; (' h2 <- save;; bf_tasks m iobj (S k) [h2; h] (Some h2))))) p u (Ok None)
         (p + zlen s + zlen t) (add_obj u n g v)) as HU; [|exact (HU st)].
      eapply uruns_bind.
      { apply uruns_of. apply (r_sp f s m p (t ++ X)); auto; [|unfold fuel; lia]. subst t. cbn [app].
        apply (digits_nosep [c] (t' ++ X)); [discriminate|repeat constructor; auto]. }
      pose proof (At_app f p s (t ++ X) HA) as HA2.
      eapply uruns_bind with (a := true); [|apply uruns_ret]. apply uruns_catch_ok. eapply uruns_bind; [|apply uruns_ret].
      unfold body_element. intros st0. cbn [bind cur arun a_pos].
      rewrite (At_head f _ _ HA2). subst t. cbn [app hd_error p_digit]. rewrite Hc.
      assert (uruns f (iobj;;; ret tt) (p + zlen s) u (Ok tt) (p + zlen s + zlen (c :: t')) (add_obj u n g v)) as HU; [|exact (HU st0)].
      eapply uruns_bind; [eapply r_iobj; eauto|apply uruns_ret].
    Qed.
    Lemma bf_miss pos st h p s rest u k : nth_error st h = Some p -> (1 <= k)%nat ->
      At f p (s ++ rest) -> Sep s -> nosep rest ->
      (forall c, hd_error rest = Some c -> is_digit c = false /\ c <> 115 /\ c <> 116) ->
      exists ex, arun f (bf_tasks m iobj k [h] None) (mkA pos st u) = (Err ParserExc, mkA (p + zlen s) (st ++ ex) u).
    Proof.
      intros Hh Hk HA Hs Hr Hc. pose proof (zlen_nonneg f) as HL. assert (0 <= p) as Hp by apply HA.
      destruct k as [|k]; try lia. cbn [bf_tasks]. cbn [bind restore arun a_store a_usr]. rewrite Hh.
      assert (forall g, uruns f (sp m;;; (' ok <- catch (body_element m iobj;;; ret true) is_bfr (fun _ : exn => ret false);; g ok)) p u (Err ParserExc : res (option nat))
         (p + zlen s) u) as HU.
      2:{ apply (HU (fun ok : bool => if ok then _ else _) st). }
      intros g. eapply uruns_bind.
      { apply uruns_of. apply (r_sp f s m p rest); auto. unfold fuel; lia. }
      pose proof (At_app f p s rest HA) as HA2. apply uruns_bind_err.
      intros st0. exists []. rewrite app_nil_r.
      assert (arun f (body_element m iobj;;; ret true) (mkA (p + zlen s) st0 u) = (Err ParserExc, mkA (p + zlen s) st0 u)) as E.
      { unfold body_element. cbn [bind cur arun a_pos]. rewrite (At_head f _ _ HA2). destruct (hd_error rest) as [c|] eqn:Ec.
        - destruct (Hc c eq_refl) as (C1 & C2 & C3). cbn [p_digit is_cur]. rewrite C1, (proj2 (Z.eqb_neq c 115)), (proj2 (Z.eqb_neq c 116)) by auto. reflexivity.
        - reflexivity. }
      rewrite (arun_catch_err f _ _ _ _ _ _ E) by discriminate. reflexivity.
    Qed.

    Lemma bf_known n num gen pos st u v : known u num gen = Some v ->
      arun f (brute_force inflate ccitt D m iobj (S n) num gen) (mkA pos st u) = (Ok tt, mkA pos st u).
    Proof.
      intros H. cbn [brute_force]. cbn [bind getu arun a_usr]. unfold is_registered. fold (known u num gen). rewrite H. reflexivity.
    Qed.

    Lemma scan num gen : forall l body rest, Body l body rest ->
      (forall c, hd_error rest = Some c -> is_digit c = false /\ c <> 115 /\ c <> 116) ->
      Forall (fun e => decrypt (fst (fst e)) (snd (fst e)) (snd e) = Ok (snd e) /\ no_objstm (snd e)) l ->
      forall n pos st u h p, r_stack u = [] -> r_bf u = Some h -> nth_error st h = Some p ->
      At f p (body ++ rest) -> known u num gen = None -> (List.length l + 4 <= n)%nat ->
      exists pos' st' u', arun f (brute_force inflate ccitt D m iobj n num gen) (mkA pos st u) = (Ok tt, mkA pos' st' u') /\
        known u' num gen = Some (match first_in l num gen with Some v => v | None => ONull end).
    Proof.
      intros l body rest HB Hc. induction HB as [s rest Hs Hr|s n0 g0 v0 t l ts rest Hs HI HB IH]; intros HF n pos st u h p Hst Hbf Hh HA Hk Hn.
      - destruct n as [|[|n]]; cbn [List.length] in Hn; try lia.
        cbn [brute_force]. cbn [bind getu arun a_usr]. unfold is_registered. fold (known u num gen). rewrite Hk, Hst. cbn [on_stack existsb].
        set (u1 := mkR (r_objs u) (r_xrefs u) (r_bf u) [(num, gen)]).
        cbn [push bind getu arun a_usr]. cbn [setu bind arun a_usr a_pos a_store]. rewrite Hst. fold u1.
        destruct (bf_miss pos st h p s rest u1 (S n)) as [ex E]; auto; [lia|].
        set (u2 := with_objs u1 (rset (r_objs u) num gen ONull)).
        match goal with |- context [arun f (bind ?A ?B) ?S] => assert (arun f A S = (Ok false, mkA (p + zlen s) (st ++ ex) u2)) as E2 end.
        { apply arun_catch_ok.
          assert (arun f (next_brute_force m iobj (S n);;; ret true) (mkA pos st u1) = (Err ParserExc, mkA (p + zlen s) (st ++ ex) u1)) as E3.
          { rewrite arun_bind. unfold next_brute_force at 1. cbn [bind getu arun a_usr]. change (r_bf u1) with (r_bf u). rewrite Hbf.
            rewrite arun_bind, E. reflexivity. }
          rewrite (arun_catch_err f _ _ _ _ _ _ E3) by discriminate. cbn [is_parser_exc exn_eqb negb andb].
          unfold do_register. cbn [bind getu arun a_usr]. rewrite register_no_objstm; [|auto|intros d raw; discriminate].
          change (r_objs u1) with (r_objs u). unfold is_registered. fold (known u num gen). rewrite Hk. reflexivity. }
        rewrite arun_bind, E2. do 3 eexists. split; [reflexivity|]. unfold known. cbn. rewrite rget_rset, !Z.eqb_refl. reflexivity.
      - inversion HF as [|? ? [HD HO] HF']; subst. cbn [fst snd] in HD, HO.
        destruct n as [|n]; cbn [List.length] in Hn; try lia.
        cbn [brute_force]. cbn [bind getu arun a_usr]. unfold is_registered at 1. fold (known u num gen). rewrite Hk, Hst. cbn [on_stack existsb].
        set (u1 := mkR (r_objs u) (r_xrefs u) (r_bf u) [(num, gen)]).
        cbn [push bind getu arun a_usr]. cbn [setu bind arun a_usr a_pos a_store]. rewrite Hst. fold u1.
        repeat rewrite <- app_assoc in HA.
        destruct (bf_hit pos st h p s n0 g0 v0 t (ts ++ rest) u1 n) as [ex E]; auto; [lia|].
        set (p1 := p + zlen s + zlen t) in *.
        set (h1 := List.length (st ++ ex)).
        set (u2 := mkR (r_objs (add_obj u1 n0 g0 v0)) (r_xrefs u) (Some h1) [(num, gen)]).
        match goal with |- context [arun f (bind ?A ?B) ?S] => assert (arun f A S = (Ok true, mkA p1 ((st ++ ex) ++ [p1]) u2)) as E2 end.
        { apply arun_catch_ok. apply arun_catch_ok. rewrite arun_bind. unfold next_brute_force at 1. cbn [bind getu arun a_usr].
          change (r_bf u1) with (r_bf u). rewrite Hbf. rewrite arun_bind, E. reflexivity. }
        rewrite arun_bind, E2.
        set (u3 := mkR (r_objs u2) (r_xrefs u) (Some h1) []).
        change (arun f (pop;;; (if true then brute_force inflate ccitt D m iobj n num gen else ret tt)) (mkA p1 ((st ++ ex) ++ [p1]) u2))
          with (arun f (brute_force inflate ccitt D m iobj n num gen) (mkA p1 ((st ++ ex) ++ [p1]) u3)).
        assert (nth_error ((st ++ ex) ++ [p1]) h1 = Some p1) as Hh1.
        { unfold h1. rewrite nth_error_app2 by lia. now rewrite Nat.sub_diag. }
        assert (At f p1 (ts ++ rest)) as HA1.
        { unfold p1. apply At_app. apply (At_app f p s). exact HA. }
        cbn [first_in]. destruct ((num =? n0) && (gen =? g0)) eqn:Eid.
        + assert (n0 = num /\ g0 = gen) as [-> ->] by (apply andb_true_iff in Eid; lia).
          assert (known u3 num gen = Some v0) as HK3.
          { unfold known, u3, u2. cbn [r_objs]. unfold add_obj. cbn [with_objs r_objs]. change (r_objs u1) with (r_objs u).
            unfold is_registered. fold (known u num gen). rewrite Hk. rewrite rget_rset, !Z.eqb_refl. reflexivity. }
          destruct n as [|n]; [lia|].
          do 3 eexists. split; [apply (bf_known n num gen p1 _ u3 v0 HK3)|exact HK3].
        + apply (IH Hc HF' n p1 ((st ++ ex) ++ [p1]) u3 h1 p1); auto; [|lia].
          unfold known, u3, u2. cbn [r_objs]. unfold add_obj. cbn [with_objs r_objs]. change (r_objs u1) with (r_objs u).
          destruct (is_registered (r_objs u) n0 g0); [exact Hk|]. rewrite rget_rset, Eid. exact Hk.
    Qed.
  End Scan.

  (** The whole lookup: [pre] is what precedes the first object still to be scanned. *)
  Theorem C25_scanned : forall k f u st h num gen xs pre body rest l,
    (0 < D)%nat -> 4 * zlen f + 8 <= Z.of_nat m ->
    r_xrefs u = Some xs -> Forall (passed_over f num gen) xs -> known u num gen = None ->
    r_stack u = [] -> r_bf u = Some h -> nth_error st h = Some (zlen pre) ->
    f = pre ++ body ++ rest -> Body l body rest ->
    (forall c, hd_error rest = Some c -> is_digit c = false /\ c <> 115 /\ c <> 116) ->
    Forall (fun e => decrypt (fst (fst e)) (snd (fst e)) (snd e) = Ok (snd e) /\ no_objstm (snd e)) l ->
    forall pos, exists s',
      arun f (locate (S k) num gen) (mkA pos st u) = (Ok (match first_in l num gen with Some v => v | None => ONull end), s').
  Proof.
    intros k f u st h num gen xs pre body rest l HDp Hm HX HP HK Hst Hbf Hh Hf HB Hc HF pos.
    pose proof (zlen_nonneg f) as HL.
    assert (exists q, uruns f (by_xref (locate k) (reg_indirect inflate ccitt decrypt D m (length_hook (locate k))) xs num gen) pos u (Ok ONull) q u) as [q Hq].
    { rewrite <- (app_nil_r xs). apply by_xref_passed; auto; [lia|]. intros p0. exists p0. cbn [by_xref]. intros st0. exists [].
      rewrite app_nil_r. cbn. fold (known u num gen). rewrite HK. reflexivity. }
    assert (List.length l <= List.length body)%nat as HLl.
    { clear - HB. induction HB as [|s n0 g0 v0 t l ts rest Hs HI HB IH]; cbn [List.length]; [lia|].
      destruct (ind_digit _ _ _ _ _ HI) as (c & t' & -> & _). rewrite !app_length. cbn [List.length]. lia. }
    assert (List.length body <= List.length f)%nat as HLb by (subst f; rewrite !app_length; lia).
    unfold zlen in Hm, HL.
    cbn [locate_object]. cbn [bind getu arun a_usr]. fold (known u num gen). rewrite HK, HX. cbn [truthy].
    rewrite arun_bind. destruct (Hq st) as [ex E]. rewrite E. cbn [truthy]. rewrite arun_bind.
    destruct (scan f (locate k) HDp Hm num gen l body rest HB Hc HF m q (st ++ ex) u h (zlen pre)) as (pos' & st' & u' & E2 & HK2); auto.
    - rewrite nth_error_app1; auto. apply nth_error_Some. congruence.
    - now apply At_start with (pre := pre).
    - lia.
    - rewrite E2. eexists. cbn. fold (known u' num gen). rewrite HK2. reflexivity.
  Qed.
End Locate.

(** Concrete cases.  The file: two revisions of 5 0, and 7 0 which no section lists. *)
Section Ex.
  Let infl : list Z -> option (list Z) := fun _ => None.
  Let ccf : list Z -> fparams -> res (list Z) := fun _ _ => Err NotImpl.
  Let decr : Z -> Z -> obj -> res obj := fun _ _ v => Ok v.
  Definition ex_pre : list Z := bs "%PDF-1.5" ++ [10].
  Definition ex_o1 : list Z := ind_text 5 0 (print (OStr (bs "old"))).
  Definition ex_o2 : list Z := ind_text 7 0 (print (OArr [OInt 1; OName (bs "N")])).
  Definition ex_o3 : list Z := ind_text 5 0 (print (OStr (bs "new"))).
  Definition ex_rest : list Z := bs "xref" ++ [10].
  Definition ex_body : list Z := [] ++ ex_o1 ++ [10] ++ ex_o2 ++ [10] ++ ex_o3 ++ [10].
  Definition ex_f : list Z := ex_pre ++ ex_body ++ ex_rest.
  Definition ex_l : list (Z * Z * obj) := [(5, 0, OStr (bs "old")); (7, 0, OArr [OInt 1; OName (bs "N")]); (5, 0, OStr (bs "new"))].
  Lemma ex_printable : printable (OStr (bs "old")) /\ printable (OArr [OInt 1; OName (bs "N")]) /\ printable (OStr (bs "new")).
  Proof. repeat split; cbn; repeat constructor; cbn; try lia; try discriminate. Qed.
  Lemma ex_Body : Body ex_l ex_body ex_rest.
  Proof.
    destruct ex_printable as (P1 & P2 & P3). unfold ex_l, ex_body.
    apply (B_cons [] 5 0 (OStr (bs "old")) ex_o1 _ ([10] ++ ex_o2 ++ [10] ++ ex_o3 ++ [10]) ex_rest); [constructor|apply C13_every_value; auto; lia|].
    apply (B_cons [10] 7 0 (OArr [OInt 1; OName (bs "N")]) ex_o2 _ ([10] ++ ex_o3 ++ [10]) ex_rest);
      [constructor; [reflexivity|constructor]|apply C13_every_value; auto; lia|].
    apply (B_cons [10] 5 0 (OStr (bs "new")) ex_o3 _ [10] ex_rest); [constructor; [reflexivity|constructor]|apply C13_every_value; auto; lia|].
    constructor; [constructor; [reflexivity|constructor]|reflexivity].
  Qed.
  (** Newest section: 5 0 at the third object, 9 0 at a place where no number stands; older: 5 0 at the first. *)
  Definition ex_off3 : Z := zlen (ex_pre ++ ex_o1 ++ [10] ++ ex_o2 ++ [10]).
  Definition ex_new : xref := mkX [] [(5, mkE 5 0 ex_off3); (9, mkE 9 0 3)] [].
  Definition ex_old : xref := mkX [] [(5, mkE 5 0 9)] [].
  Definition ex_none : xref := mkX [(5, mkE 5 1 0)] [(9, mkE 9 0 3)] [].
  Definition ex_u : rst := mkR [] (Some [ex_none; ex_new; ex_old]) (Some 0%nat) [].

  Example C26_ex :
    known ex_u 5 0 = None /\ Forall (passed_over ex_f 5 0) [ex_none] /\
    zget (x_inuse ex_new) 5 = Some (mkE 5 0 ex_off3) /\
    ex_f = (ex_pre ++ ex_o1 ++ [10] ++ ex_o2 ++ [10]) ++ ex_o3 ++ ([10] ++ ex_rest) /\
    IndObj 5 0 (OStr (bs "new")) ex_o3 ([10] ++ ex_rest) /\
    forall m k pos st, 4 * zlen ex_f + 8 <= Z.of_nat m ->
      exists s', arun ex_f (locate_object infl ccf decr 1 m (S k) 5 0) (mkA pos st ex_u) = (Ok (OStr (bs "new")), s').
  Proof.
    assert (Forall (passed_over ex_f 5 0) [ex_none]) as HP.
    { repeat constructor; cbn; intros; discriminate. }
    assert (IndObj 5 0 (OStr (bs "new")) ex_o3 ([10] ++ ex_rest)) as HI by (apply C13_every_value; [lia|lia|apply ex_printable]).
    repeat (split; [solve [reflexivity|assumption]|]). intros m k pos st Hm.
    apply (C26_newest_revision infl ccf decr 1 m k ex_f ex_u [ex_none] ex_new [ex_old] 5 0 (mkE 5 0 ex_off3) (OStr (bs "new")) (OStr (bs "new"))
      (ex_pre ++ ex_o1 ++ [10] ++ ex_o2 ++ [10]) ex_o3 ([10] ++ ex_rest)); auto; reflexivity.
  Qed.
  Example C25_scanned_ex : forall m k pos, 4 * zlen ex_f + 8 <= Z.of_nat m ->
    (exists s', arun ex_f (locate_object infl ccf decr 1 m (S k) 7 0) (mkA pos [9] ex_u) = (Ok (OArr [OInt 1; OName (bs "N")]), s')) /\
    (exists s', arun ex_f (locate_object infl ccf decr 1 m (S k) 9 0) (mkA pos [9] ex_u) = (Ok ONull, s')).
  Proof.
    intros m k pos Hm.
    assert (Forall (fun e => decr (fst (fst e)) (snd (fst e)) (snd e) = Ok (snd e) /\ no_objstm (snd e)) ex_l) as HF.
    { repeat constructor; intros ? ?; discriminate. }
    split.
    - apply (C25_scanned infl ccf decr 1 m k ex_f ex_u [9] 0%nat 7 0 [ex_none; ex_new; ex_old] ex_pre ex_body ex_rest ex_l); auto using ex_Body.
      + repeat constructor; cbn; intros; discriminate.
      + intros c H. inversion H. repeat split; discriminate.
    - apply (C25_scanned infl ccf decr 1 m k ex_f ex_u [9] 0%nat 9 0 [ex_none; ex_new; ex_old] ex_pre ex_body ex_rest ex_l); auto using ex_Body.
      + assert (no_number_at ex_f 3) as HN by (split; [lia|intros c H; vm_compute in H; inversion H; subst; repeat split; try reflexivity; lia]).
        apply Forall_cons; [|apply Forall_cons; [|apply Forall_cons; [|apply Forall_nil]]]; split; intros e H; try discriminate H;
          intros _; injection H as <-; exact HN.
      + intros c H. inversion H. repeat split; discriminate.
  Qed.
  (** A session of lookups: listed, unlisted, missing, and again. *)
  Example C25_session_ex :
    fst (session infl ccf decr 1 1000 5 ex_f (mkA 0 [9] ex_u) [(5, 0); (7, 0); (9, 0); (7, 0); (5, 0)])
      = [Ok (OStr (bs "new")); Ok (OArr [OInt 1; OName (bs "N")]); Ok ONull; Ok (OArr [OInt 1; OName (bs "N")]); Ok (OStr (bs "new"))].
  Proof. vm_compute. reflexivity. Qed.
End Ex.

Print Assumptions C25_lookup_registers.
Print Assumptions C25_lookup_stable.
Print Assumptions C25_registered_value.
Print Assumptions C25_scanned.
Print Assumptions C26_newest_revision.
