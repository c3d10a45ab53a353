(** Navigation, iteration and rendering histories: C31, C32, C33. *)
From Coq Require Import String.
From Verif Require Import Prelude M_Parser M_Objects M_Viewer M_Nav S_Objects P_Pages.
Local Open Scope Z_scope.

(** The document's pages are [ps]: doc.pages() yields exactly these (C30). *)
Definition Yields (gen : nat -> list bv * res bool) (ps : list bv) : Prop := forall count,
  ((count <= List.length ps)%nat -> gen count = (firstn count ps, Ok false)) /\
  ((List.length ps < count)%nat -> gen count = (ps, Ok true)).
Definition page_no (ps : list bv) (n : Z) : option bv := if n <? 1 then None else nth_error ps (Z.to_nat n - 1).

Lemma zget_cons {V} k (v : V) d k' : zget ((k, v) :: d) k' = if k' =? k then Some v else zget d k'.
Proof. reflexivity. Qed.
Lemma upd_length {A} (l : list A) n x : List.length (upd l n x) = List.length l.
Proof. revert n. induction l as [|y l IH]; intros [|n]; cbn; auto. Qed.
Lemma nth_upd {A} (l : list A) n x m d : nth m (upd l n x) d = if Nat.eqb m n && (n <? List.length l)%nat then x else nth m l d.
Proof.
  revert n m. induction l as [|y l IH]; intros n m.
  - cbn. destruct n, m; cbn; try reflexivity; destruct (Nat.eqb m n); reflexivity.
  - destruct n as [|n], m as [|m]; cbn [upd nth]; try reflexivity. rewrite IH. cbn. destruct (Nat.eqb m n); reflexivity.
Qed.

Section H.
  Variable gen : nat -> list bv * res bool.
  Variable get_resources : bv -> res resources.
  Variable get_stream : bv -> res (option (list Z)).
  Variable draw : bv -> resources -> option (list Z) -> vst -> res unit * vst.
  Variable ps : list bv.
  Hypothesis Hgen : Yields gen ps.
  Notation navigate := (navigate gen get_resources get_stream).
  Notation open := (open gen get_resources get_stream).
  Notation render_nav := (render_nav draw).

  Lemma fetch_ok n : fetch gen n = match page_no ps n with Some p => Ok p | None => if n <? 1 then Err ValueErr else Err PageDoesNotExist end.
  Proof.
    unfold fetch, page_no. destruct (n <? 1) eqn:En; [reflexivity|].
    destruct (Hgen (Z.to_nat n)) as [H1 H2]. destruct (Nat.le_gt_cases (Z.to_nat n) (List.length ps)) as [Hl|Hl].
    - rewrite (H1 Hl). assert (exists k, Z.to_nat n = S k) as [k Ek] by (exists (Z.to_nat n - 1)%nat; lia). rewrite Ek in *.
      replace (S k - 1)%nat with k by lia. clear - Hl.
      assert (exists a p, firstn (S k) ps = a ++ [p] /\ nth_error ps k = Some p) as (a & p & E1 & E2).
      { clear -Hl. revert k Hl. induction ps as [|x l IH]; intros k Hl; [cbn in Hl; lia|]. destruct k as [|k].
        - exists [], x. split; reflexivity.
        - destruct (IH k) as (a & p & E1 & E2); [cbn in Hl; lia|]. exists (x :: a), p. split; [cbn [firstn app] in *; f_equal; exact E1|exact E2]. }
      rewrite E1, rev_app_distr, E2. reflexivity.
    - rewrite (H2 Hl). assert (nth_error ps (Z.to_nat n - 1) = None) as -> by (apply nth_error_None; lia). reflexivity.
  Qed.

  (** Reachable viewers: opening, then any sequence of navigations and renderings (failing or not), and any
      changes by the user to canvases he was given.  [touched]: since the last navigation, somebody drew on or
      changed the viewer's canvas object.  [given]: addresses the user may know. *)
  Inductive Reach : nav -> list nat -> bool -> Prop :=
  | Re_open s : open = (Ok tt, s) -> Reach s [] false
  | Re_nav s g t n s' : Reach s g t -> navigate n s = (Ok tt, s') -> Reach s' g false
  | Re_nav_fail s g t n e s' : Reach s g t -> navigate n s = (Err e, s') -> (page_no ps n <> None -> False) -> Reach s' g t
  | Re_render s g t s' : Reach s g t -> render_nav s = (Ok tt, s') -> t = false \/ zget (n_cache s) (n_cur s) <> None -> Reach s' g true
  | Re_render_fail s g t e s' : Reach s g t -> render_nav s = (Err e, s') -> Reach s' g true
  | Re_give s g t : Reach s g t -> Reach s (n_cv s :: g) t
  | Re_copy s g t : Reach s g t -> (* canvas.copy(), given to the user *)
      Reach (mkN (n_pages s) (n_cur s) (n_heap s ++ [the_canvas s]) (n_cv s) (n_cache s) (n_gss s) (n_br s) (n_rs s) (n_stream s))
            (List.length (n_heap s) :: g) t
  | Re_user s g t a c : Reach s g t -> In a g ->
      Reach (mkN (n_pages s) (n_cur s) (upd (n_heap s) a c) (n_cv s) (n_cache s) (n_gss s) (n_br s) (n_rs s) (n_stream s)) g (t || Nat.eqb a (n_cv s)).

  (** What a fresh viewer draws for a page. *)
  Definition fresh (p : bv) (c : canvas) : Prop := exists rs st v,
    get_resources p = Ok rs /\ get_stream p = Ok st /\ draw p rs st (mkV [] [] empty_canvas) = (Ok tt, v) /\ c = v_cv v.

  Definition good_pages (s : nav) : Prop := forall n p, zget (n_pages s) n = Some p -> page_no ps n = Some p.
  Definition loaded (s : nav) : Prop := exists p, page_no ps (n_cur s) = Some p /\ zget (n_pages s) (n_cur s) = Some p /\
    get_resources p = Ok (n_rs s) /\ get_stream p = Ok (n_stream s).
  Record Inv (s : nav) (g : list nat) (t : bool) : Prop := {
    i_pages : good_pages s;
    i_loaded : loaded s;
    i_cv : (n_cv s < List.length (n_heap s))%nat;
    i_given : forall a, In a g -> (a < List.length (n_heap s))%nat;
    i_clean : t = false -> the_canvas s = empty_canvas /\ n_gss s = [] /\ n_br s = [];
    i_cache : forall n a, zget (n_cache s) n = Some a -> (a < List.length (n_heap s))%nat /\ ~ In a g /\ a <> n_cv s /\
              exists p, page_no ps n = Some p /\ fresh p (nth a (n_heap s) empty_canvas) }.

  Definition base (s s' : nav) : Prop := n_cv s' = n_cv s /\ n_cache s' = n_cache s /\ n_heap s' = upd (n_heap s) (n_cv s) empty_canvas.

  Lemma after_ok s n p : zget (n_pages s) n = Some p ->
    forall s', after_navigate get_resources get_stream (mkN (n_pages s) n (n_heap s) (n_cv s) (n_cache s) (n_gss s) (n_br s) (n_rs s) (n_stream s)) = (Ok tt, s') ->
    exists rs st, get_resources p = Ok rs /\ get_stream p = Ok st /\
      s' = mkN (n_pages s) n (upd (n_heap s) (n_cv s) empty_canvas) (n_cv s) (n_cache s) [] [] rs st.
  Proof.
    intros Hp s' H. unfold after_navigate, current_page in H. cbn in H. rewrite Hp in H.
    destruct (get_resources p) as [rs|] eqn:E1; [|discriminate]. destruct (get_stream p) as [st|] eqn:E2; [|discriminate].
    inversion H. exists rs, st. repeat split; auto.
  Qed.
  Lemma navigate_ok n s s' : good_pages s -> navigate n s = (Ok tt, s') ->
    exists p rs st pg, page_no ps n = Some p /\ get_resources p = Ok rs /\ get_stream p = Ok st /\
      zget pg n = Some p /\ (forall k q, zget pg k = Some q -> page_no ps k = Some q) /\
      s' = mkN pg n (upd (n_heap s) (n_cv s) empty_canvas) (n_cv s) (n_cache s) [] [] rs st.
  Proof.
    intros Hg H. unfold M_Nav.navigate in H. destruct (zget (n_pages s) n) as [p|] eqn:Ep.
    - destruct (after_ok s n p Ep _ H) as (rs & st & E1 & E2 & ->). exists p, rs, st, (n_pages s). repeat split; auto.
    - rewrite fetch_ok in H. destruct (page_no ps n) as [p|] eqn:En; [|destruct (n <? 1); discriminate].
      cbn [n_pages n_cur n_heap n_cv n_cache n_gss n_br n_rs n_stream] in H.
      pose (s1 := mkN ((n, p) :: n_pages s) (n_cur s) (n_heap s) (n_cv s) (n_cache s) (n_gss s) (n_br s) (n_rs s) (n_stream s)).
      assert (zget (n_pages s1) n = Some p) as Es1 by (cbn; now rewrite Z.eqb_refl).
      destruct (after_ok s1 n p Es1 _ H) as (rs & st & E1 & E2 & ->).
      exists p, rs, st, ((n, p) :: n_pages s). repeat split; auto. intros k q Hk. rewrite zget_cons in Hk.
      destruct (k =? n) eqn:Ek; [|now apply Hg]. inversion Hk. subst. apply Z.eqb_eq in Ek. now subst.
  Qed.
  Lemma navigate_missing n s : good_pages s -> page_no ps n = None -> navigate n s = (Err (if n <? 1 then ValueErr else PageDoesNotExist), s).
  Proof.
    intros Hg Hn. unfold M_Nav.navigate. destruct (zget (n_pages s) n) as [p|] eqn:Ep; [apply Hg in Ep; congruence|].
    rewrite fetch_ok, Hn. destruct (n <? 1); reflexivity.
  Qed.
  Lemma navigate_loads n s p rs st : good_pages s -> page_no ps n = Some p -> get_resources p = Ok rs -> get_stream p = Ok st ->
    exists s', navigate n s = (Ok tt, s').
  Proof.
    intros Hg Hn E1 E2. unfold M_Nav.navigate, after_navigate, current_page. destruct (zget (n_pages s) n) as [q|] eqn:Ep.
    - pose proof (Hg _ _ Ep) as Hq. assert (q = p) as -> by congruence. cbn [n_pages n_cur]. rewrite Ep, E1, E2. eauto.
    - rewrite fetch_ok, Hn. cbn [n_pages n_cur]. rewrite zget_cons, Z.eqb_refl, E1, E2. eauto.
  Qed.

  Lemma inv_nav s g t n s' : Inv s g t -> navigate n s = (Ok tt, s') -> Inv s' g false.
  Proof.
    intros I H. destruct (navigate_ok n s s' (i_pages _ _ _ I) H) as (p & rs & st & pg & E1 & E2 & E3 & E4 & E5 & ->).
    constructor; cbn [n_pages n_cur n_heap n_cv n_cache n_gss n_br n_rs n_stream]; rewrite ?upd_length.
    - exact E5.
    - exists p. auto.
    - apply I.
    - intros a Ha. rewrite ?upd_length. now apply (i_given _ _ _ I).
    - intros _. unfold the_canvas. cbn [n_cv n_heap]. rewrite nth_upd, Nat.eqb_refl.
      destruct (Nat.ltb_spec (n_cv s) (List.length (n_heap s))); [auto|]. pose proof (i_cv _ _ _ I). lia.
    - intros k a Ha. rewrite ?upd_length. destruct (i_cache _ _ _ I k a Ha) as (B1 & B2 & B3 & q & B4 & B5). repeat split; auto. exists q. split; auto.
      rewrite nth_upd. assert (Nat.eqb a (n_cv s) = false) as -> by now apply Nat.eqb_neq. exact B5.
  Qed.
  Lemma inv_reach s g t : Reach s g t -> Inv s g t.
  Proof.
    induction 1 as [s H|s g t n s' _ I H|s g t n e s' _ I H Hn|s g t s' _ I H Ht|s g t e s' _ I H|s g t _ I|s g t _ I|s g t a c _ I Ha].
    - unfold M_Nav.open in H. assert (good_pages (mkN [] 1 [empty_canvas] 0 [] [] [] [] None)) as G by (intros n p; discriminate).
      destruct (navigate_ok _ _ _ G H) as (p & rs & st & pg & E1 & E2 & E3 & E4 & E5 & ->).
      constructor; cbn.
      + exact E5.
      + exists p. auto.
      + lia.
      + tauto.
      + auto.
      + intros k a. discriminate.
    - eapply inv_nav; eauto.
    - destruct (page_no ps n) as [p|] eqn:En; [exfalso; apply Hn; congruence|].
      rewrite (navigate_missing n s (i_pages _ _ _ I) En) in H. inversion H. subst. exact I.
    - unfold M_Nav.render_nav in H. destruct (zget (n_cache s) (n_cur s)) as [a|] eqn:Ec.
      + inversion H. subst s'. destruct (i_cache _ _ _ I _ _ Ec) as (B1 & _). constructor; cbn [n_pages n_cur n_heap n_cv n_cache n_gss n_br n_rs n_stream].
        * apply I.
        * apply I.
        * rewrite app_length. cbn. lia.
        * intros x Hx. rewrite app_length. pose proof (i_given _ _ _ I x Hx). lia.
        * discriminate.
        * intros k x Hx. destruct (i_cache _ _ _ I k x Hx) as (C1 & C2 & C3 & q & C4 & C5). rewrite app_length. repeat split; auto; try lia.
          exists q. split; auto. rewrite app_nth1 by auto. exact C5.
      + destruct Ht as [->|Ht]; [|congruence]. destruct (current_page s) as [p|] eqn:Ep; [|discriminate].
        destruct (draw p (n_rs s) (n_stream s) (mkV (n_gss s) (n_br s) (the_canvas s))) as [r v] eqn:Ed. destruct r as [[]|]; [|discriminate].
        inversion H. subst s'. clear H. destruct (i_clean _ _ _ I eq_refl) as (Cl1 & Cl2 & Cl3). rewrite Cl1, Cl2, Cl3 in Ed.
        destruct (i_loaded _ _ _ I) as (p' & L1 & L2 & L3 & L4). assert (p' = p) as -> by (unfold current_page in Ep; rewrite L2 in Ep; congruence).
        constructor; cbn [n_pages n_cur n_heap n_cv n_cache n_gss n_br n_rs n_stream].
        * apply I.
        * exists p. auto.
        * rewrite app_length, upd_length. pose proof (i_cv _ _ _ I). lia.
        * intros x Hx. rewrite app_length, upd_length. pose proof (i_given _ _ _ I x Hx). lia.
        * discriminate.
        * intros k x Hx. rewrite zget_cons in Hx. rewrite app_length, upd_length. destruct (k =? n_cur s) eqn:Ek.
          -- inversion Hx. subst x. apply Z.eqb_eq in Ek. subst k. rewrite ?upd_length. cbn [List.length]. split; [lia|]. split.
             ++ intro Hin. pose proof (i_given _ _ _ I _ Hin). lia.
             ++ split; [pose proof (i_cv _ _ _ I); lia|]. exists p. split; auto. rewrite app_nth2 by (rewrite upd_length; lia).
                rewrite upd_length, Nat.sub_diag. cbn [nth]. exists (n_rs s), (n_stream s), v. auto.
          -- destruct (i_cache _ _ _ I k x Hx) as (C1 & C2 & C3 & q & C4 & C5). repeat split; auto; try lia. exists q. split; auto.
             rewrite app_nth1 by (rewrite upd_length; auto). rewrite nth_upd. assert (Nat.eqb x (n_cv s) = false) as -> by now apply Nat.eqb_neq. exact C5.
    - unfold M_Nav.render_nav in H. destruct (zget (n_cache s) (n_cur s)) as [a|] eqn:Ec; [discriminate|].
      destruct (i_loaded _ _ _ I) as (p & L1 & L2 & L3 & L4). unfold current_page in H. rewrite L2 in H.
      destruct (draw p (n_rs s) (n_stream s) (mkV (n_gss s) (n_br s) (the_canvas s))) as [r v]. destruct r as [[]|e']; [discriminate|].
      inversion H. subst s'. constructor; cbn [n_pages n_cur n_heap n_cv n_cache n_gss n_br n_rs n_stream]; rewrite ?upd_length.
      + apply I.
      + exists p. auto.
      + apply I.
      + intros x Hx. rewrite ?upd_length. now apply (i_given _ _ _ I).
      + discriminate.
      + intros k x Hx. rewrite ?upd_length. destruct (i_cache _ _ _ I k x Hx) as (C1 & C2 & C3 & q & C4 & C5). repeat split; auto. exists q. split; auto.
        rewrite nth_upd. assert (Nat.eqb x (n_cv s) = false) as -> by now apply Nat.eqb_neq. exact C5.
    - constructor; try apply I.
      + intros a [<-|Ha]; [apply I|now apply (i_given _ _ _ I)].
      + intros k x Hx. destruct (i_cache _ _ _ I k x Hx) as (C1 & C2 & C3 & C4). repeat split; auto. intros [X|X]; auto.
    - constructor; cbn [n_pages n_cur n_heap n_cv n_cache n_gss n_br n_rs n_stream].
      + apply I.
      + destruct (i_loaded _ _ _ I) as (p & L). exists p. exact L.
      + rewrite app_length. pose proof (i_cv _ _ _ I). lia.
      + intros x [<-|Hx]; rewrite app_length; cbn; [lia|]. pose proof (i_given _ _ _ I x Hx). lia.
      + intros Ht. destruct (i_clean _ _ _ I Ht) as (A & B & C). repeat split; auto.
        unfold the_canvas in *. cbn [n_cv n_heap]. rewrite app_nth1 by apply I. exact A.
      + intros k x Hx. destruct (i_cache _ _ _ I k x Hx) as (C1 & C2 & C3 & q & C4 & C5). rewrite app_length. repeat split; auto; try lia.
        * intros [X|X]; [lia|auto].
        * exists q. split; auto. rewrite app_nth1 by auto. exact C5.
    - constructor; cbn [n_pages n_cur n_heap n_cv n_cache n_gss n_br n_rs n_stream]; rewrite ?upd_length.
      + apply I.
      + destruct (i_loaded _ _ _ I) as (p & L). exists p. exact L.
      + apply I.
      + intros x Hx. rewrite ?upd_length. now apply (i_given _ _ _ I).
      + intros Ht. apply orb_false_iff in Ht. destruct Ht as [Ht1 Ht2]. destruct (i_clean _ _ _ I Ht1) as (A & B & C). repeat split; auto.
        unfold the_canvas in *. cbn [n_cv n_heap]. rewrite nth_upd, Nat.eqb_sym, Ht2. exact A.
      + intros k x Hx. rewrite ?upd_length. destruct (i_cache _ _ _ I k x Hx) as (C1 & C2 & C3 & q & C4 & C5). repeat split; auto. exists q. split; auto.
        rewrite nth_upd. assert (Nat.eqb x a = false) as -> by (apply Nat.eqb_neq; intros ->; contradiction). exact C5.
  Qed.

  (** C31.  In any history, navigate(n) to a page that exists and can be loaded succeeds: the viewer is on the
      n-th page, with an empty canvas, a fresh graphics state and the page's resources and content. *)
  Theorem C31_navigate : forall s g t n p rs st, Reach s g t ->
    page_no ps n = Some p -> get_resources p = Ok rs -> get_stream p = Ok st ->
    exists s', navigate n s = (Ok tt, s') /\ n_cur s' = n /\ current_page s' = Ok p /\ the_canvas s' = empty_canvas /\
      n_gss s' = [] /\ n_rs s' = rs /\ n_stream s' = st.
  Proof.
    intros s g t n p rs st R Hp E1 E2. pose proof (inv_reach _ _ _ R) as I.
    destruct (navigate_loads n s p rs st (i_pages _ _ _ I) Hp E1 E2) as [s' H]. exists s'. split; [exact H|].
    destruct (i_clean _ _ _ (inv_nav _ _ _ _ _ I H) eq_refl) as [C _].
    destruct (navigate_ok n s s' (i_pages _ _ _ I) H) as (p' & rs' & st' & pg & A1 & A2 & A3 & A4 & A5 & ->).
    assert (p' = p) as -> by congruence. unfold current_page. cbn [n_cur n_pages n_gss n_rs n_stream]. rewrite A4. repeat split; auto; congruence.
  Qed.
  (** Otherwise it changes nothing: PageDoesNotExist beyond the last page, a plain ValueError below 1. *)
  Theorem C31_no_such_page : forall s g t n, Reach s g t -> (n < 1 \/ Z.of_nat (List.length ps) < n) ->
    navigate n s = (Err (if n <? 1 then ValueErr else PageDoesNotExist), s).
  Proof.
    intros s g t n R Hn. pose proof (inv_reach _ _ _ R) as I. apply navigate_missing; [apply I|]. unfold page_no.
    destruct (n <? 1) eqn:E; [reflexivity|]. apply nth_error_None. lia.
  Qed.
  Theorem C31_pages_exist : forall n, (1 <= n <= Z.of_nat (List.length ps)) <-> exists p, page_no ps n = Some p.
  Proof.
    intros n. unfold page_no. split.
    - intros H. assert (n <? 1 = false) as -> by lia. destruct (nth_error ps (Z.to_nat n - 1)) eqn:E; eauto. apply nth_error_None in E. lia.
    - intros [p H]. destruct (n <? 1) eqn:E; [discriminate|]. assert (Z.to_nat n - 1 < List.length ps)%nat by (apply nth_error_Some; congruence). lia.
  Qed.
  Theorem C31_next_prev : forall s, next gen get_resources get_stream s = navigate (n_cur s + 1) s /\
    prev gen get_resources get_stream s = navigate (n_cur s - 1) s.
  Proof. split; reflexivity. Qed.
  (** prev() on the first page does not raise PageDoesNotExist. *)
  Theorem C31_prev_refuted : forall s g t, Reach s g t -> n_cur s = 1 -> fst (prev gen get_resources get_stream s) = Err ValueErr.
  Proof.
    intros s g t R H. unfold prev. rewrite H. rewrite (C31_no_such_page s g t (1 - 1) R); [reflexivity|lia].
  Qed.
  (** A reachable viewer is on an existing page. *)
  Theorem C31_always_on_a_page : forall s g t, Reach s g t -> 1 <= n_cur s <= Z.of_nat (List.length ps).
  Proof.
    intros s g t R. destruct (i_loaded _ _ _ (inv_reach _ _ _ R)) as (p & L & _). apply C31_pages_exist. eauto.
  Qed.

  (** C33.  After any history, render() on a page puts on the viewer's canvas what a fresh viewer draws for that
      page - provided that, if this page is drawn for the first time, nobody has changed the viewer's own canvas
      since the last navigation.  In particular changes made to canvases got before never show up. *)
  Theorem C33_render_history_independent : forall s g t s' p, Reach s g t -> (t = false \/ zget (n_cache s) (n_cur s) <> None) ->
    render_nav s = (Ok tt, s') -> page_no ps (n_cur s) = Some p -> fresh p (the_canvas s').
  Proof.
    intros s g t s' p R Ht H Hp. pose proof (inv_reach _ _ _ R) as I. unfold M_Nav.render_nav in H.
    destruct (zget (n_cache s) (n_cur s)) as [a|] eqn:Ec.
    - inversion H. subst s'. unfold the_canvas. cbn [n_cv n_heap]. rewrite app_nth2 by lia. rewrite Nat.sub_diag. cbn [nth].
      destruct (i_cache _ _ _ I _ _ Ec) as (_ & _ & _ & q & E1 & E2). congruence.
    - destruct Ht as [->|Ht]; [|congruence]. destruct (i_clean _ _ _ I eq_refl) as (Cl1 & Cl2 & Cl3).
      destruct (i_loaded _ _ _ I) as (p' & L1 & L2 & L3 & L4). assert (p' = p) as -> by congruence. unfold current_page in H. rewrite L2 in H.
      rewrite Cl1, Cl2, Cl3 in H. destruct (draw p (n_rs s) (n_stream s) (mkV [] [] empty_canvas)) as [r v] eqn:Ed. destruct r as [[]|]; [|discriminate].
      inversion H. subst s'. unfold the_canvas. cbn [n_cv n_heap]. pose proof (i_cv _ _ _ I) as Hcv.
      rewrite app_nth1 by (rewrite upd_length; auto). rewrite nth_upd, Nat.eqb_refl.
      destruct (Nat.ltb_spec (n_cv s) (List.length (n_heap s))); [|lia]. cbn. exists (n_rs s), (n_stream s), v. auto.
  Qed.
  (** It fails exactly if a fresh viewer fails, with the same exception. *)
  Theorem C33_render_fails_alike : forall s g s' e p, Reach s g false -> zget (n_cache s) (n_cur s) = None ->
    render_nav s = (Err e, s') -> page_no ps (n_cur s) = Some p ->
    exists rs st, get_resources p = Ok rs /\ get_stream p = Ok st /\ fst (draw p rs st (mkV [] [] empty_canvas)) = Err e.
  Proof.
    intros s g s' e p R Ec H Hp. pose proof (inv_reach _ _ _ R) as I. unfold M_Nav.render_nav in H. rewrite Ec in H.
    destruct (i_clean _ _ _ I eq_refl) as (Cl1 & Cl2 & Cl3).
    destruct (i_loaded _ _ _ I) as (p' & L1 & L2 & L3 & L4). assert (p' = p) as -> by congruence. unfold current_page in H. rewrite L2 in H.
    rewrite Cl1, Cl2, Cl3 in H. destruct (draw p (n_rs s) (n_stream s) (mkV [] [] empty_canvas)) as [r v] eqn:Ed. destruct r as [[]|e']; [discriminate|].
    exists (n_rs s), (n_stream s). rewrite Ed. inversion H. auto.
  Qed.
  (** Two renderings of the same page in the same document agree, whatever lies between. *)
  Theorem C33_renderings_agree : forall p c1 c2, fresh p c1 -> fresh p c2 -> c1 = c2.
  Proof. intros p c1 c2 (rs & st & v & A & B & C & ->) (rs' & st' & v' & A' & B' & C' & ->). congruence. Qed.
  (** But a canvas object taken from the viewer right after its first rendering is emptied by the next
      navigation (the same object is used again). *)
  Theorem C33_canvas_emptied : forall s g t n s', Reach s g t -> navigate n s = (Ok tt, s') ->
    nth (n_cv s) (n_heap s') empty_canvas = empty_canvas.
  Proof.
    intros s g t n s' R H. pose proof (inv_reach _ _ _ R) as I. destruct (navigate_ok n s s' (i_pages _ _ _ I) H) as (p & rs & st & pg & _ & _ & _ & _ & _ & ->).
    cbn [n_heap]. rewrite nth_upd, Nat.eqb_refl. destruct (Nat.ltb_spec (n_cv s) (List.length (n_heap s))); [reflexivity|]. pose proof (i_cv _ _ _ I). lia.
  Qed.
  (** A navigation to an existing page that fails while loading it (its resources cannot be read) does change the
      viewer: it is on the new page, with the old page's resources and content.  Rendering then draws the OLD
      page's content, and keeps it for the new page's number. *)
  Theorem C33_failed_load_refuted : forall s g t n p e v, Reach s g t -> page_no ps n = Some p -> get_resources p = Err e ->
    draw p (n_rs s) (n_stream s) (mkV [] [] empty_canvas) = (Ok tt, v) -> zget (n_cache s) n = None ->
    exists s' s'', navigate n s = (Err e, s') /\ n_cur s' = n /\ current_page s' = Ok p /\ n_rs s' = n_rs s /\ n_stream s' = n_stream s /\
      render_nav s' = (Ok tt, s'') /\ the_canvas s'' = v_cv v /\
      (forall s3, n_cache s3 = n_cache s'' -> n_heap s3 = n_heap s'' -> n_cur s3 = n ->
         exists s4, render_nav s3 = (Ok tt, s4) /\ the_canvas s4 = v_cv v).
  Proof.
    intros s g t n p e v R Hp Hr Hd Hc. pose proof (inv_reach _ _ _ R) as I. pose proof (i_cv _ _ _ I) as Hcv.
    assert (exists pg, zget pg n = Some p /\ navigate n s = (Err e, mkN pg n (upd (n_heap s) (n_cv s) empty_canvas) (n_cv s) (n_cache s) [] [] (n_rs s) (n_stream s)))
      as (pg & Epg & EN).
    { unfold M_Nav.navigate, after_navigate, current_page. destruct (zget (n_pages s) n) as [q|] eqn:Eq.
      - pose proof (i_pages _ _ _ I _ _ Eq). assert (q = p) as -> by congruence. exists (n_pages s). split; [exact Eq|].
        cbn [n_pages n_cur n_heap n_cv n_cache n_gss n_br n_rs n_stream]. rewrite Eq, Hr. reflexivity.
      - rewrite fetch_ok, Hp. exists ((n, p) :: n_pages s). split; [rewrite zget_cons, Z.eqb_refl; reflexivity|].
        cbn [n_pages n_cur n_heap n_cv n_cache n_gss n_br n_rs n_stream]. rewrite zget_cons, Z.eqb_refl, Hr. reflexivity. }
    set (s' := mkN pg n (upd (n_heap s) (n_cv s) empty_canvas) (n_cv s) (n_cache s) [] [] (n_rs s) (n_stream s)) in *.
    assert (the_canvas s' = empty_canvas) as Ecv.
    { unfold the_canvas, s'. cbn [n_cv n_heap]. rewrite nth_upd, Nat.eqb_refl. destruct (Nat.ltb_spec (n_cv s) (List.length (n_heap s))); [reflexivity|lia]. }
    assert (current_page s' = Ok p) as Ecp by (unfold current_page, s'; cbn [n_pages n_cur]; now rewrite Epg).
    exists s'. unfold M_Nav.render_nav at 1. rewrite Ecp. change (n_cache s') with (n_cache s). change (n_cur s') with n. rewrite Hc, Ecv.
    change (n_gss s') with (@nil gstate). change (n_br s') with (@nil (list Z)). change (n_rs s') with (n_rs s). change (n_stream s') with (n_stream s). rewrite Hd.
    eexists. split; [exact EN|]. split; [reflexivity|]. split; [reflexivity|]. split; [reflexivity|]. split; [reflexivity|]. split; [reflexivity|].
    unfold the_canvas. cbn [n_cv n_heap n_cache]. unfold s'. cbn [n_cv n_heap]. rewrite !upd_length. split.
    - rewrite app_nth1 by (rewrite !upd_length; exact Hcv). rewrite nth_upd, upd_length, Nat.eqb_refl.
      destruct (Nat.ltb_spec (n_cv s) (List.length (n_heap s))); [reflexivity|lia].
    - intros s3 E1 E2 E3. unfold M_Nav.render_nav. rewrite E1, E2, E3, zget_cons, Z.eqb_refl. eexists. split; [reflexivity|].
      cbn [n_cv n_heap]. rewrite app_nth2 by lia. rewrite Nat.sub_diag. cbn [nth].
      rewrite app_nth2 by (rewrite !upd_length; lia). rewrite !upd_length, Nat.sub_diag. reflexivity.
  Qed.

  (** C32 *)
  Notation canvas_next := (canvas_next gen get_resources get_stream draw).
  Notation page_next := (page_next gen get_resources get_stream).
  Definition Loads (p : bv) : Prop := (exists rs, get_resources p = Ok rs) /\ exists st, get_stream p = Ok st.

  Lemma iterate_stop {A} (nx : bool -> nav -> res A * (bool * nav)) s k : (forall s, nx true s = (Err StopIter, (true, s))) ->
    iterate nx k true s = (repeat (Err StopIter) k, s).
  Proof. intros H. induction k as [|k IH]; [reflexivity|]. cbn [iterate]. rewrite H, IH. reflexivity. Qed.
  Lemma skipn_nth {A} (l : list A) n x r : skipn n l = x :: r -> nth_error l n = Some x /\ skipn (S n) l = r.
  Proof. revert l. induction n as [|n IH]; intros [|y l] H; cbn in *; try discriminate; [inversion H; auto|]. destruct (IH _ H). auto. Qed.
  Lemma render_some s g t c p : Reach s g t -> t = false \/ zget (n_cache s) (n_cur s) <> None -> page_no ps (n_cur s) = Some p -> fresh p c ->
    exists s', render_nav s = (Ok tt, s') /\ Reach s' g true /\ the_canvas s' = c /\ n_cur s' = n_cur s.
  Proof.
    intros R Ht Hp Hf. assert (exists s', render_nav s = (Ok tt, s') /\ n_cur s' = n_cur s) as (s' & E & Ec).
    { pose proof (inv_reach _ _ _ R) as I. unfold M_Nav.render_nav. destruct (zget (n_cache s) (n_cur s)) as [a|] eqn:Eca; [eexists; split; reflexivity|].
      destruct Ht as [->|Ht]; [|congruence]. destruct (i_clean _ _ _ I eq_refl) as (C1 & C2 & C3). destruct (i_loaded _ _ _ I) as (q & L1 & L2 & L3 & L4).
      assert (q = p) as -> by congruence. unfold current_page. rewrite L2, C1, C2, C3. destruct Hf as (rs & st & v & F1 & F2 & F3 & F4).
      replace (n_rs s) with rs by congruence. replace (n_stream s) with st by congruence. rewrite F3. eexists. split; reflexivity. }
    exists s'. split; [exact E|]. split; [now apply (Re_render s g t s')|]. split; [|exact Ec].
    eapply C33_renderings_agree; [eapply C33_render_history_independent; eauto|exact Hf].
  Qed.
  Lemma step_last s g t : Reach s g t -> n_cur s = Z.of_nat (List.length ps) -> step_next gen get_resources get_stream s = (Ok true, s).
  Proof.
    intros R H. unfold step_next, M_Nav.next. pose proof (C31_always_on_a_page _ _ _ R). rewrite (C31_no_such_page s g t (n_cur s + 1) R) by lia.
    assert (n_cur s + 1 <? 1 = false) as -> by lia. reflexivity.
  Qed.
  Lemma step_more s g t p : Reach s g t -> page_no ps (n_cur s + 1) = Some p -> Loads p ->
    exists s', step_next gen get_resources get_stream s = (Ok false, s') /\ Reach s' g false /\ n_cur s' = n_cur s + 1.
  Proof.
    intros R Hp [[rs E1] [st E2]]. destruct (C31_navigate s g t _ p rs st R Hp E1 E2) as (s' & E & Ec & _). exists s'.
    unfold step_next, M_Nav.next. rewrite E. split; [reflexivity|]. split; [|exact Ec]. exact (Re_nav s g t (n_cur s + 1) s' R E).
  Qed.
  Lemma page_no_skipn k n p r : n = Z.of_nat k + 1 -> skipn k ps = p :: r -> page_no ps n = Some p.
  Proof. intros -> H. destruct (skipn_nth _ _ _ _ H) as [E _]. unfold page_no. assert (Z.of_nat k + 1 <? 1 = false) as -> by lia. now replace (Z.to_nat (Z.of_nat k + 1) - 1)%nat with k by lia. Qed.

  (** Iterating the viewer from the page it is on ([before] pages come before it): what a fresh viewer draws for
      this page and every later page, in order, once; then StopIteration for ever. *)
  Theorem C32_canvases : forall cs s g t before more, Reach s g t -> t = false \/ zget (n_cache s) (n_cur s) <> None ->
    n_cur s = Z.of_nat before + 1 -> Forall2 fresh (skipn before ps) cs ->
    fst (iterate canvas_next (List.length cs + more) false s) = map Ok cs ++ repeat (Err StopIter) more.
  Proof.
    induction cs as [|c cs IH]; intros s g t before more R Ht Hc HF; remember (skipn before ps) as sk eqn:Esk.
    - inversion HF. subst sk. exfalso. pose proof (C31_always_on_a_page _ _ _ R).
      assert (List.length (skipn before ps) = 0%nat) as X by (now rewrite <- H). rewrite skipn_length in X. lia.
    - inversion HF as [|p c' rest cs' Hf HF']. subst. rename H into Hsk. symmetry in Hsk. destruct (skipn_nth _ _ _ _ Hsk) as [En Er].
      destruct (render_some s g t c p R Ht (page_no_skipn _ _ _ _ Hc Hsk) Hf) as (s1 & E1 & R1 & C1 & Cu1).
      cbn [List.length plus iterate]. unfold M_Nav.canvas_next at 1. rewrite E1.
      pose proof (Re_copy _ _ _ R1) as R2. rewrite <- C1.
      set (s2 := mkN (n_pages s1) (n_cur s1) (n_heap s1 ++ [the_canvas s1]) (n_cv s1) (n_cache s1) (n_gss s1) (n_br s1) (n_rs s1) (n_stream s1)) in *.
      assert (n_cur s2 = Z.of_nat before + 1) as Cu2 by (unfold s2; cbn [n_cur]; congruence).
      destruct cs as [|c2 cs].
      + inversion HF' as [X|]. rewrite <- X in *.
        assert (Z.of_nat before + 1 = Z.of_nat (List.length ps)) as EL.
        { assert (List.length (skipn before ps) = 1%nat) as X2 by (now rewrite Hsk). rewrite skipn_length in X2. lia. }
        rewrite (step_last s2 _ _ R2) by congruence. cbn [List.length plus]. rewrite (iterate_stop _ s2 more); [reflexivity|]. intros s0. reflexivity.
      + inversion HF' as [|p2 c2' r2 cs2' Hf2 HF2]. subst. symmetry in H. rewrite H in Hsk.
        destruct (step_more s2 _ _ p2 R2) as (s3 & E3 & R3 & C3).
        { apply (page_no_skipn (S before) _ p2 r2); [lia|]. destruct (skipn_nth _ _ _ _ Hsk). auto. }
        { destruct Hf2 as (rs & st & v & F1 & F2 & _). split; eauto. }
        rewrite E3. specialize (IH s3 _ false (S before) more R3 (or_introl eq_refl)).
        rewrite (surjective_pairing (iterate _ (List.length (c2 :: cs) + more) false s3)). cbn [fst]. rewrite IH; [reflexivity|lia|].
        destruct (skipn_nth _ _ _ _ Hsk) as [_ ->]. now constructor.
  Qed.
  (** The same for iter_pages, which does not render. *)
  Theorem C32_pages : forall s g t before more, Reach s g t -> n_cur s = Z.of_nat before + 1 -> Forall Loads (skipn before ps) ->
    fst (iterate page_next (List.length (skipn before ps) + more) false s) = map Ok (skipn before ps) ++ repeat (Err StopIter) more.
  Proof.
    intros s g t before more R Hc HF. remember (skipn before ps) as sk eqn:Esk. revert s g t before R Hc Esk.
    induction sk as [|p sk IH]; intros s g t before R Hc Esk.
    - exfalso. pose proof (C31_always_on_a_page _ _ _ R).
      assert (List.length (skipn before ps) = 0%nat) as X by (now rewrite <- Esk). rewrite skipn_length in X. lia.
    - symmetry in Esk. destruct (skipn_nth _ _ _ _ Esk) as [En Er]. inversion HF as [|? ? Hl HF']. subst x l.
      assert (current_page s = Ok p) as Ep.
      { destruct (i_loaded _ _ _ (inv_reach _ _ _ R)) as (q & L1 & L2 & _). pose proof (page_no_skipn _ _ _ _ Hc Esk).
        unfold current_page. rewrite L2. congruence. }
      cbn [List.length plus iterate]. unfold M_Nav.page_next at 1. rewrite Ep.
      destruct sk as [|p2 sk].
      + rewrite (step_last s g t R).
        * cbn [List.length plus]. rewrite (iterate_stop _ s more); [reflexivity|]. intros s0. reflexivity.
        * assert (List.length (skipn before ps) = 1%nat) as X2 by (now rewrite Esk). rewrite skipn_length in X2. lia.
      + destruct (step_more s g t p2 R) as (s3 & E3 & R3 & C3).
        { apply (page_no_skipn (S before) _ p2 sk); [lia|]. exact Er. }
        { now inversion HF'. }
        rewrite E3. specialize (IH HF' s3 g false (S before) R3).
        rewrite (surjective_pairing (iterate _ (List.length (p2 :: sk) + more) false s3)). cbn [fst]. rewrite IH; [reflexivity|lia|now rewrite Er].
  Qed.

  (** Drawing a page fails again and again, each time over what the attempt before left. *)
  Inductive keeps_failing (p : bv) (rs : resources) (st : option (list Z)) : vst -> list exn -> Prop :=
  | Kf_nil v : keeps_failing p rs st v []
  | Kf_cons v e v' es : draw p rs st v = (Err e, v') -> keeps_failing p rs st v' es -> keeps_failing p rs st v (e :: es).
  (** The iterator does not get past a page that cannot be drawn: every call draws it again and raises what that raises. *)
  Theorem C32_failing_page : forall s g p rs st es, Reach s g false -> zget (n_cache s) (n_cur s) = None -> page_no ps (n_cur s) = Some p ->
    get_resources p = Ok rs -> get_stream p = Ok st -> keeps_failing p rs st (mkV [] [] empty_canvas) es ->
    fst (iterate canvas_next (List.length es) false s) = map Err es /\ n_cur (snd (iterate canvas_next (List.length es) false s)) = n_cur s.
  Proof.
    intros s g p rs st es R Hz Hp Hr Hst HK. pose proof (inv_reach _ _ _ R) as I. destruct (i_clean _ _ _ I eq_refl) as (C1 & C2 & C3).
    destruct (i_loaded _ _ _ I) as (q & L1 & L2 & L3 & L4). assert (q = p) as -> by congruence. pose proof (i_cv _ _ _ I) as Hcv.
    assert (current_page s = Ok p) as Ep by (unfold current_page; now rewrite L2).
    assert (n_rs s = rs) as Ers by congruence. assert (n_stream s = st) as Est by congruence.
    assert (mkV (n_gss s) (n_br s) (the_canvas s) = mkV [] [] empty_canvas) as Ev by congruence.
    clear R I C1 C2 C3 L1 L2 L3 L4 Hp Hr Hst g. remember (mkV [] [] empty_canvas) as v eqn:Eqv. clear Eqv. revert s Hz Hcv Ep Ers Est Ev.
    induction HK as [v|v e v' es Hd HK IH]; intros s Hz Hcv Ep Ers Est Ev; [now split|].
    cbn [List.length iterate]. unfold M_Nav.canvas_next at 1 3. unfold M_Nav.render_nav. rewrite Hz, Ep, Ers, Est, Ev, Hd.
    set (s1 := mkN _ _ _ _ _ _ _ _ _).
    destruct (IH s1) as [I1 I2]; try reflexivity; try assumption.
    - unfold s1. cbn [n_cv n_heap]. now rewrite upd_length.
    - unfold s1, the_canvas. cbn [n_cv n_heap n_gss n_br]. rewrite nth_upd, Nat.eqb_refl. destruct (Nat.ltb_spec (n_cv s) (List.length (n_heap s))); [|lia]. now destruct v'.
    - destruct (iterate canvas_next (List.length es) false s1) as [l s2]. cbn [fst snd] in *. subst l. split; [reflexivity|exact I2].
  Qed.
End H.

(** The page enumeration the viewer uses is that of C30: a document whose page tree is [ts] yields its leaves. *)
Theorem C31_document_pages : forall bld root l ts, tree_root bld root l -> PageTrees bld l ts ->
  exists n0, forall n, (n0 <= n)%nat -> Yields (fun count => pages bld n count root) (all_leaves ts).
Proof.
  intros bld root l ts HR HT. destruct (C30_all_pages bld root l ts HR HT) as [n1 H1].
  destruct (C30_first_pages bld root l [] ts) as [n2 H2]; [now rewrite app_nil_r|exact HT|].
  exists (n1 + n2)%nat. intros n Hn count. split; intros Hc; [apply H2; lia|apply H1; lia].
Qed.

(** A concrete document of three pages: the hypotheses above are met after a history with two navigations, a
    rendering and a change of the rendered canvas by the user; page 3's resources cannot be loaded in the last
    example. *)
Definition ex_ps : list bv := map (fun k => VAtom (OInt k)) [10; 20; 30].
Definition ex_gen (count : nat) : list bv * res bool := if (count <=? 3)%nat then (firstn count ex_ps, Ok false) else (ex_ps, Ok true).
Definition ex_res (bad : Z) (p : bv) : res resources := match p with VAtom (OInt k) => if k =? bad then Err AttributeErr else Ok [] | _ => Err TypeErr end.
Definition ex_stream (p : bv) : res (option (list Z)) := match p with VAtom (OInt k) => Ok (Some [k]) | _ => Err TypeErr end.
Definition ex_draw (p : bv) (rs : resources) (st0 : option (list Z)) (v : vst) : res unit * vst :=
  let st := match st0 with Some l => l | None => [] end in (Ok tt, mkV (v_gss v) (v_br v) (mkCv [] [] (cv_text (v_cv v) ++ st) [] (cv_strings (v_cv v) ++ [st]))).
Lemma ex_yields : Yields ex_gen ex_ps.
Proof.
  intros count. split; intros H; unfold ex_gen.
  - apply Nat.leb_le in H. cbn [ex_ps map List.length] in H. now rewrite H.
  - assert ((count <=? 3)%nat = false) as -> by (apply Nat.leb_gt; exact H). reflexivity.
Qed.
Definition ex_canvas k := mkCv [] [] [k] [] [[k]].
Definition ex_s0 (bad : Z) := snd (open ex_gen (ex_res bad) ex_stream).
Definition ex_s1 := snd (render_nav ex_draw (ex_s0 0)).
Definition ex_s2 := mkN (n_pages ex_s1) (n_cur ex_s1) (upd (n_heap ex_s1) (n_cv ex_s1) (ex_canvas 99)) (n_cv ex_s1) (n_cache ex_s1) (n_gss ex_s1) (n_br ex_s1) (n_rs ex_s1) (n_stream ex_s1).
Definition ex_s3 := snd (navigate ex_gen (ex_res 0) ex_stream 2 ex_s2).
Example C32_ex : Reach ex_gen (ex_res 0) ex_stream ex_draw ex_ps ex_s3 [n_cv ex_s1] false /\ n_cur ex_s3 = Z.of_nat 1 + 1 /\
  Forall2 (fresh (ex_res 0) ex_stream ex_draw) (skipn 1 ex_ps) [ex_canvas 20; ex_canvas 30] /\
  Forall (Loads (ex_res 0) ex_stream) (skipn 1 ex_ps) /\
  fst (iterate (canvas_next ex_gen (ex_res 0) ex_stream ex_draw) 4 false ex_s3) = [Ok (ex_canvas 20); Ok (ex_canvas 30); Err StopIter; Err StopIter].
Proof.
  split; [|split; [|split; [|split]]].
  - apply (Re_nav ex_gen (ex_res 0) ex_stream ex_draw ex_ps ex_s2 [n_cv ex_s1] true 2 ex_s3); [|vm_compute; reflexivity].
    apply (Re_user _ _ _ _ _ ex_s1 [n_cv ex_s1] true (n_cv ex_s1) (ex_canvas 99)); [|now left].
    apply Re_give. apply (Re_render _ _ _ _ _ (ex_s0 0) [] false ex_s1); [|vm_compute; reflexivity|now left].
    apply Re_open. vm_compute. reflexivity.
  - vm_compute. reflexivity.
  - repeat constructor; [exists [], (Some [20]), (mkV [] [] (ex_canvas 20))|exists [], (Some [30]), (mkV [] [] (ex_canvas 30))]; vm_compute; repeat split.
  - repeat constructor; cbn; eauto.
  - vm_compute. reflexivity.
Qed.
(** A page whose drawing fails twice, then would succeed: the iterator raises twice, on the same page. *)
Definition ex_fails (p : bv) (rs : resources) (st0 : option (list Z)) (v : vst) : res unit * vst :=
  if (List.length (v_gss v) <? 2)%nat then (Err KeyErr, mkV ([] :: v_gss v) (v_br v) (v_cv v)) else ex_draw p rs st0 v.
Example C32_failing_ex : Reach ex_gen (ex_res 0) ex_stream ex_fails ex_ps (ex_s0 0) [] false /\ zget (n_cache (ex_s0 0)) (n_cur (ex_s0 0)) = None /\
  keeps_failing ex_fails (VAtom (OInt 10)) [] (Some [10]) (mkV [] [] empty_canvas) [KeyErr; KeyErr] /\
  fst (iterate (canvas_next ex_gen (ex_res 0) ex_stream ex_fails) 3 false (ex_s0 0)) = [Err KeyErr; Err KeyErr; Ok (ex_canvas 10)].
Proof.
  split; [apply Re_open; vm_compute; reflexivity|]. split; [reflexivity|]. split; [|vm_compute; reflexivity].
  eapply Kf_cons; [reflexivity|]. eapply Kf_cons; [reflexivity|]. constructor.
Qed.
Example C33_ex : Reach ex_gen (ex_res 30) ex_stream ex_draw ex_ps (ex_s0 30) [] false /\ page_no ex_ps 3 = Some (VAtom (OInt 30)) /\
  ex_res 30 (VAtom (OInt 30)) = Err AttributeErr /\
  ex_draw (VAtom (OInt 30)) (n_rs (ex_s0 30)) (n_stream (ex_s0 30)) (mkV [] [] empty_canvas) = (Ok tt, mkV [] [] (ex_canvas 10)) /\
  zget (n_cache (ex_s0 30)) 3 = None.
Proof. split; [apply Re_open; vm_compute; reflexivity|]. vm_compute. repeat split. Qed.

Print Assumptions C32_failing_page.
Print Assumptions C31_navigate.
Print Assumptions C31_no_such_page.
Print Assumptions C31_pages_exist.
Print Assumptions C31_next_prev.
Print Assumptions C31_prev_refuted.
Print Assumptions C31_always_on_a_page.
Print Assumptions C31_document_pages.
Print Assumptions C32_canvases.
Print Assumptions C32_pages.
Print Assumptions C33_render_history_independent.
Print Assumptions C33_render_fails_alike.
Print Assumptions C33_renderings_agree.
Print Assumptions C33_canvas_emptied.
Print Assumptions C33_failed_load_refuted.
