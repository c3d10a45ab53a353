(** Resolving objects: C27 (build), C28 and C29 (dictionary objects), C30 (pages). *)
From Coq Require Import String.
From Verif Require Import Prelude M_Parser M_Objects S_Objects.
Local Open Scope Z_scope.

Lemma existsb_In s t : existsb (eqlZ s) t = true <-> In s t.
Proof.
  rewrite existsb_exists. split; [intros (x & Hx & E); apply eqlZ_eq in E; now subst|]. intros Hs. exists s. split; auto. apply eqlZ_refl.
Qed.
Lemma table_get_class t dflt v c : class_from t dflt v c -> table_get t dflt v = Ok c.
Proof.
  unfold class_from, table_get. destruct v as [[o| | | |]|]; try tauto; [|now intros ->].
  destruct o; try (now intros ->).
  - intros [[Hi ->]|[Hi ->]]; destruct (existsb (eqlZ s) t) eqn:E; auto; rewrite <- existsb_In in Hi; congruence.
  - intros [Hi ->]. destruct (existsb (eqlZ s) t) eqn:E; auto; rewrite <- existsb_In in Hi; congruence.
Qed.
Lemma class_atom t dflt v c : class_from t dflt v c -> match v with Some x => exists o, x = VAtom o | None => True end.
Proof. destruct v as [[]|]; cbn; try tauto; eauto. Qed.

Section Build.
  Variable H : Z -> Z -> res bv.
  Notation build := (build H).

  Lemma build_atom n lazy vis o : build (S n) lazy vis (VAtom o) = Ok (VAtom o).
  Proof. reflexivity. Qed.
  Lemma dict_factory n c0 d c : dict_class d c -> factory (build (S n) true []) (VDict c0 d) = Ok (VDict (Some c) d).
  Proof.
    intros HC. unfold dict_class in HC. cbn [factory]. unfold dict_entry.
    pose proof (class_atom _ _ _ _ HC) as HA. apply table_get_class in HC.
    destruct (aget d (bs "Type")) as [x|]; cbn [rbind].
    - destruct HA as [o ->]. destruct c0; cbn [rbind]; rewrite ?build_atom; cbn [rbind]; now rewrite HC.
    - now rewrite HC.
  Qed.
  Lemma stm_entry_atom n c0 d k : match aget d k with Some x => exists o, x = VAtom o | None => True end ->
    exists w, stm_entry (build (S n) true []) c0 d k = Ok w /\
      (w = aget d k \/ (aget d k = None /\ w = Some (VAtom ONull))).
  Proof.
    intros HA. unfold stm_entry. destruct (aget d k) as [x|].
    - destruct HA as [o ->]. destruct c0; rewrite ?build_atom; cbn [rbind]; eauto.
    - destruct c0; rewrite ?build_atom; cbn [rbind]; eauto.
  Qed.
  Lemma class_null t dflt c : class_from t dflt None c -> class_from t dflt (Some (VAtom ONull)) c.
  Proof. auto. Qed.
  Lemma stm_factory n c0 d c data : stm_class d c -> factory (build (S n) true []) (VStm c0 d data) = Ok (VStm (Some c) d data).
  Proof.
    intros HC. cbn [factory]. destruct HC as [[HX HC]|[HX HC]].
    - unfold xobject in HX. destruct (stm_entry_atom n c0 d (bs "Type")) as (w & -> & Hw); [rewrite HX; eauto|].
      rewrite HX in Hw. destruct Hw as [->|[? _]]; [|discriminate]. cbn [rbind is_xobject]. rewrite eqlZ_refl. cbn [rbind].
      pose proof (class_atom _ _ _ _ HC) as HA.
      destruct (stm_entry_atom n c0 d (bs "Subtype") HA) as (w & -> & Hw). cbn [rbind].
      destruct Hw as [->|[E ->]]; [now rewrite (table_get_class _ _ _ _ HC)|]. rewrite E in HC. apply class_null in HC.
      now rewrite (table_get_class _ _ _ _ HC).
    - pose proof (class_atom _ _ _ _ HC) as HA. destruct (stm_entry_atom n c0 d (bs "Type") HA) as (w & -> & Hw). cbn [rbind].
      assert (is_xobject w = Ok false) as ->.
      { destruct Hw as [->|[E ->]]; [|reflexivity]. destruct (aget d (bs "Type")) as [x|] eqn:E; [|reflexivity].
        destruct HA as [o ->]. destruct o; try reflexivity.
        - cbn [is_xobject]. destruct (eqlZ s (bs "XObject")) eqn:ES; auto. apply eqlZ_eq in ES. subst. contradiction HX. reflexivity.
        - cbn [is_xobject]. destruct (eqlZ s (bs "XObject")) eqn:ES; auto. apply eqlZ_eq in ES. subst. destruct HC as [HC _]. contradiction HC. right; left; reflexivity. }
      cbn [rbind]. destruct Hw as [->|[E ->]]; [now rewrite (table_get_class _ _ _ _ HC)|]. rewrite E in HC. apply class_null in HC.
      now rewrite (table_get_class _ _ _ _ HC).
  Qed.

  (** Fully resolved values are left alone. *)
  Inductive Done : bv -> Prop :=
  | Dn_atom o : Done (VAtom o)
  | Dn_arr l : DoneL l -> Done (VArr l)
  | Dn_dict c d : dict_class d c -> Done (VDict (Some c) d)
  | Dn_stm c d data : stm_class d c -> Done (VStm (Some c) d data)
  with DoneL : list bv -> Prop :=
  | Dl_nil : DoneL []
  | Dl_cons x l : Done x -> DoneL l -> DoneL (x :: l).
  Scheme Done_mind := Induction for Done Sort Prop with DoneL_mind := Induction for DoneL Sort Prop.
  Combined Scheme Done_both from Done_mind, DoneL_mind.

  Lemma done_fixed :
    (forall v, Done v -> exists n0, forall n vis, (n0 <= n)%nat -> build n true vis v = Ok v /\ factory (build n true []) v = Ok v) /\
    (forall l, DoneL l -> exists n0, forall n vis, (n0 <= n)%nat -> mapM (build n true vis) l = Ok l).
  Proof.
    apply Done_both.
    - intros o. exists 1%nat. intros [|n] vis Hn; [lia|]. split; reflexivity.
    - intros l _ [n0 IH]. exists (S n0). intros [|n] vis Hn; [lia|]. split.
      + cbn [M_Objects.build]. rewrite (IH n vis) by lia. reflexivity.
      + cbn [factory]. rewrite (IH (S n) []) by lia. reflexivity.
    - intros c d HC. exists 2%nat. intros [|[|n]] vis Hn; try lia. split; [|now apply dict_factory].
      cbn -[factory]. now apply dict_factory.
    - intros c d data HC. exists 2%nat. intros [|[|n]] vis Hn; try lia. split; [|now apply stm_factory].
      cbn -[factory]. now apply stm_factory.
    - exists 0%nat. reflexivity.
    - intros x l _ [n1 IH1] _ [n2 IH2]. exists (Nat.max n1 n2). intros n vis Hn. cbn [mapM].
      destruct (IH1 n vis) as [-> _]; [lia|]. cbn [rbind]. rewrite IH2 by lia. reflexivity.
  Qed.
  Lemma stands_done : (forall x v, Stands H x v -> Done v) /\ (forall l l', StandsL H l l' -> DoneL l').
  Proof.
    assert (forall x v (s : Stands H x v), Done v) as HA.
    { fix F 3. intros x v s. destruct s as [o|n g o v E Hr s|l l' s|d c Hc|d c data Hc].
      - constructor.
      - exact (F _ _ s).
      - constructor. revert l l' s. fix G 3. intros l l' s. destruct s as [|x v l l' s sl]; constructor; [exact (F _ _ s)|exact (G _ _ sl)].
      - now constructor.
      - now constructor. }
    split; [exact HA|]. intros l l' s. induction s; constructor; eauto.
  Qed.

  Lemma build_both :
    (forall x v, Stands H x v -> exists n0, forall n, (n0 <= n)%nat ->
       build n true [] x = Ok v /\ (~ is_ref x -> factory (build n true []) x = Ok v)) /\
    (forall l l', StandsL H l l' -> exists n0, forall n, (n0 <= n)%nat -> mapM (build n true []) l = Ok l').
  Proof.
    assert (forall x v (s : Stands H x v), exists n0, forall n, (n0 <= n)%nat ->
       build n true [] x = Ok v /\ (~ is_ref x -> factory (build n true []) x = Ok v)) as HA.
    { fix F 3. intros x v s. destruct s as [o|n g o v E Hr s|l l' s|d c Hc|d c data Hc].
      - exists 1%nat. intros [|n] Hn; [lia|]. split; reflexivity.
      - destruct (F _ _ s) as [n0 IH]. destruct (proj1 done_fixed v (proj1 stands_done _ _ s)) as [n1 HD].
        exists (S (S (Nat.max n0 n1))). intros [|k] Hn; [lia|]. split.
        + cbn [M_Objects.build visited existsb]. rewrite E. cbn [rbind].
          destruct (IH k) as [_ IH']; [lia|]. rewrite (IH' Hr). cbn [rbind].
          destruct (HD (S k) [(n, g)]) as [HB HF]; [lia|]. clear - HB HF. cbn [M_Objects.build] in HB.
          destruct v; try exact HB. 
          (* a reference is not resolved *)
          cbn [visited existsb] in HB. revert HB. cbn. destruct (n =? num), (g =? gen); cbn; auto.
        + intros HN. contradiction HN. now exists n, g.
      - assert (exists n0, forall n, (n0 <= n)%nat -> mapM (build n true []) l = Ok l') as [n0 IH].
        { revert l l' s. fix G 3. intros l l' s. destruct s as [|x v l l' s sl].
          - exists 0%nat. reflexivity.
          - destruct (F _ _ s) as [n1 H1]. destruct (G _ _ sl) as [n2 H2]. exists (Nat.max n1 n2). intros n Hn. cbn [mapM].
            destruct (H1 n) as [-> _]; [lia|]. cbn [rbind]. rewrite H2 by lia. reflexivity. }
        exists (S n0). intros [|n] Hn; [lia|]. split.
        + cbn [M_Objects.build]. rewrite IH by lia. reflexivity.
        + intros _. cbn [factory]. rewrite IH by lia. reflexivity.
      - exists 2%nat. intros [|[|n]] Hn; try lia. split; [|intros _; now apply dict_factory]. cbn -[factory]. now apply dict_factory.
      - exists 2%nat. intros [|[|n]] Hn; try lia. split; [|intros _; now apply stm_factory]. cbn -[factory]. now apply stm_factory. }
    split; [exact HA|]. intros l l' s. induction s as [|x v l l' s sl IH].
    - exists 0%nat. reflexivity.
    - destruct (HA _ _ s) as [n1 H1]. destruct IH as [n2 H2]. exists (Nat.max n1 n2). intros n Hn. cbn [mapM].
      destruct (H1 n) as [-> _]; [lia|]. cbn [rbind]. rewrite H2 by lia. reflexivity.
  Qed.
End Build.

Lemma bv_arr_ind (P : bv -> Prop) : (forall o, P (VAtom o)) -> (forall n g, P (VRef n g)) -> (forall l, Forall P l -> P (VArr l)) ->
  (forall c d, P (VDict c d)) -> (forall c d data, P (VStm c d data)) -> forall x, P x.
Proof.
  intros Ha Hr Hl Hd Hs. fix F 1. intros [o|n g|l|c d|c d data]; [apply Ha|apply Hr| |apply Hd|apply Hs].
  apply Hl. induction l; constructor; [apply F|exact IHl].
Qed.

(** C27.  An object is built to what it stands for. *)
Theorem C27_build : forall H x v, Stands H x v -> exists n0, forall n, (n0 <= n)%nat -> build H n true [] x = Ok v.
Proof. intros H x v HS. destruct (proj1 (build_both H) x v HS) as [n0 HB]. exists n0. intros n Hn. apply HB, Hn. Qed.

(** Every object of a document whose arrays do not contain themselves (whatever cycles go through
    dictionaries and streams), without references to references, stands for something. *)
Theorem C27_no_array_cycle : forall H (rank : Z -> Z -> nat),
  (forall n g, exists o, H n g = Ok o /\ typed o /\ ~ is_ref o /\
     forall n' g', through_arrays o n' g' -> (rank n' g' < rank n g)%nat) ->
  forall x, typed x -> exists v n0, Stands H x v /\ forall n, (n0 <= n)%nat -> build H n true [] x = Ok v.
Proof.
  intros H rank HH.
  assert (forall m x, typed x -> (forall n g, through_arrays x n g -> (rank n g < m)%nat) -> exists v, Stands H x v) as HS.
  { induction m as [m IHm] using lt_wf_ind. fix F 2. intros x T. destruct T as [o|n g|l Hl|d c Hc|d c data Hc]; intros HR.
    - eexists. constructor.
    - destruct (HH n g) as (o & E & To & Hr & HRk).
      destruct (IHm (rank n g)) with (x := o) as [v Hv]; auto; [apply HR; constructor|].
      exists v. econstructor; eauto.
    - assert (exists l', StandsL H l l') as [l' Hl'].
      { assert (forall n g x, In x l -> through_arrays x n g -> (rank n g < m)%nat) as HR' by (intros; apply HR; econstructor; eauto).
        clear HR. revert HR'. induction Hl as [|x l Tx Hl IHl]; intros HR'.
        - exists []. constructor.
        - destruct (F x Tx) as [v Hv]; [intros n g HT; apply (HR' n g x); [now left|auto]|].
          destruct IHl as [l' Hl']; [intros; eapply HR'; eauto; now right|]. exists (v :: l'). now constructor. }
      eexists. constructor. eauto.
    - eexists. constructor. eauto.
    - eexists. constructor. eauto. }
  intros x T.
  assert (exists m, forall n g, through_arrays x n g -> (rank n g < m)%nat) as [m Hm].
  { clear - T. induction x as [o|n g|l IH|c d|c d data] using bv_arr_ind.
    - exists 0%nat. intros ? ? HT. inversion HT.
    - exists (S (rank n g)). intros ? ? HT. inversion HT; subst. lia.
    - inversion T as [| |? Hl| |]; subst. clear T. induction IH as [|x l Hx IH IHl].
      + exists 0%nat. intros ? ? HT. inversion HT; subst. contradiction.
      + inversion Hl as [|? ? Tx Hl']; subst. destruct (Hx Tx) as [m1 H1]. destruct (IHl Hl') as [m2 H2].
        exists (Nat.max m1 m2). intros n g HT. inversion HT as [|? y ? ? Hy Hy2]; subst. destruct Hy as [->|Hy].
        * specialize (H1 _ _ Hy2). lia.
        * specialize (H2 n g (Ta_arr _ _ _ _ Hy Hy2)). lia.
    - exists 0%nat. intros ? ? HT. inversion HT.
    - exists 0%nat. intros ? ? HT. inversion HT. }
  destruct (HS m x T Hm) as [v Hv]. destruct (C27_build H x v Hv) as [n0 Hn]. eauto.
Qed.

Lemma mapM_in {A B} (g : A -> res B) l l' x : mapM g l = Ok l' -> In x l -> exists y, g x = Ok y.
Proof.
  revert l'. induction l as [|a l IH]; intros l' E Hi; [contradiction|]. cbn [mapM] in E.
  destruct (g a) as [b|] eqn:Ea; [|discriminate]. cbn [rbind] in E. destruct (mapM g l) as [bs|] eqn:El; [|discriminate].
  destruct Hi as [->|Hi]; eauto.
Qed.
(** ... but a cycle through arrays is followed for ever: whatever the recursion limit, no value is
    returned. *)
Theorem C27_array_cycle_refuted : forall H (S : Z -> Z -> Prop),
  (forall n g, S n g -> exists l, H n g = Ok (VArr l) /\ exists n' g', In (VRef n' g') l /\ S n' g') ->
  forall n g, S n g -> forall fuel lazy v, build H fuel lazy [] (VRef n g) <> Ok v.
Proof.
  intros H S HS. assert (forall fuel n g, S n g -> forall lazy v, build H fuel lazy [] (VRef n g) <> Ok v) as HA.
  { induction fuel as [|k IH]; intros n g Hs lazy v; [discriminate|]. cbn [build visited existsb].
    destruct (HS n g Hs) as (l & E & n' & g' & Hi & Hs'). rewrite E. cbn [rbind factory].
    destruct (mapM (build H k true []) l) as [l'|e] eqn:EM; cbn [rbind]; [|discriminate].
    destruct (mapM_in _ _ _ _ EM Hi) as [y Ey]. now apply IH in Ey. }
  intros; auto.
Qed.
(** With lazy=False a cycle through dictionaries is not noticed either: the list of visited references is
    of no use, since the items of a dictionary object are resolved before they are compared with it. *)
Theorem C27_not_lazy_refuted : forall H (S : Z -> Z -> Prop) k,
  (forall n g, S n g -> exists d n' g', H n g = Ok (VDict None d) /\ In (k, VRef n' g') d /\ S n' g') ->
  forall n g, S n g -> forall fuel v, build H fuel false [] (VRef n g) <> Ok v.
Proof.
  intros H S k HS.
  assert (forall fuel c d n' g' vis v, In (k, VRef n' g') d -> S n' g' -> build H fuel false vis (VDict (Some c) d) <> Ok v) as HD.
  { induction fuel as [fuel IH] using lt_wf_ind. intros c d n' g' vis v Hi Hs E. destruct fuel as [|m]; [discriminate|].
    cbn [build] in E.
    destruct (map_vals (build H m true []) d) as [d1|] eqn:E1; [|discriminate]. cbn [rbind] in E.
    destruct (map_vals (build H m false vis) d1) as [d2|] eqn:E2; [|discriminate]. clear E.
    (* the value of k was resolved to a dictionary object of the same cycle *)
    assert (exists w, build H m true [] (VRef n' g') = Ok w /\ In (k, w) d1) as (w & Ew & Hw).
    { clear - E1 Hi. unfold map_vals in E1. revert d1 E1. induction d as [|[a x] d IHd]; intros d1 E1; [contradiction|].
      cbn [mapM snd fst] in E1. destruct (build H m true [] x) as [b|] eqn:Eb; [|discriminate]. cbn [rbind] in E1.
      destruct (mapM _ d) as [d1'|] eqn:Em; [|discriminate]. cbn [rbind] in E1. inversion E1; subst.
      destruct Hi as [Hi|Hi]; [inversion Hi; subst; exists b; split; auto; now left|].
      destruct (IHd Hi d1' eq_refl) as (w & ? & ?). exists w. split; auto. now right. }
    assert (exists c' d', w = VDict (Some c') d' /\ H n' g' = Ok (VDict None d')) as (c' & d' & -> & EH').
    { destruct (HS n' g' Hs) as (dd & n2 & g2 & EH & _ & _). destruct m as [|m]; [discriminate|].
      cbn [build visited existsb] in Ew. rewrite EH in Ew. cbn [rbind] in Ew.
      destruct (factory _ (VDict None dd)) as [x1|] eqn:EF; [|discriminate]. cbn [rbind] in Ew.
      cbn [factory] in EF. destruct (dict_entry _ None _ _); [|discriminate]. cbn [rbind] in EF.
      destruct (table_get _ _ _) as [kk|]; [|discriminate]. cbn [rbind] in EF. inversion EF; subst.
      cbn [factory] in Ew. destruct (dict_entry _ _ _ _); [|discriminate]. cbn [rbind] in Ew. destruct (table_get _ _ _); [|discriminate].
      cbn [rbind] in Ew. inversion Ew; subst. eauto. }
    destruct (HS n' g' Hs) as (dd & n2 & g2 & EH & Hi2 & Hs2). rewrite EH' in EH. inversion EH; subst dd.
    unfold map_vals in E2. destruct (mapM_in _ _ _ _ E2 Hw) as [y Ey]. cbn [snd fst] in Ey.
    destruct (build H m false vis (VDict (Some c') d')) as [z|] eqn:Ez; [|discriminate].
    revert Ez. apply (IH m (Nat.lt_succ_diag_r m) c' d' n2 g2 vis z Hi2 Hs2). }
  intros n g Hs fuel v E. destruct fuel as [|m]; [discriminate|]. cbn [build visited existsb] in E.
  destruct (HS n g Hs) as (d & n' & g' & EH & Hi & Hs'). rewrite EH in E. cbn [rbind] in E.
  destruct (factory _ (VDict None d)) as [x1|] eqn:EF; [|discriminate]. cbn [rbind] in E.
  assert (exists c, x1 = VDict (Some c) d) as [c ->].
  { cbn [factory] in EF. destruct (dict_entry _ _ _ _); [|discriminate]. cbn [rbind] in EF. destruct (table_get _ _ _) as [kk|]; [|discriminate].
    cbn [rbind] in EF. inversion EF; eauto. }
  apply (HD (Datatypes.S m) c d n' g' [(n, g)] v Hi Hs'). exact E.
Qed.
(** Through streams the list of visited references does its work: in any finite set of stream objects whose
    entries are direct simple values or references into the set, however cyclic, build(ref, lazy=False) ends.
    [Expanded H vis x v]: [v] is [x] with references replaced, all the way down, by the streams they lead to,
    except references to a stream being expanded ([vis]), which stay references. *)
Inductive Expanded (H : Z -> Z -> res bv) : list (Z * Z) -> bv -> bv -> Prop :=
| Ex_atom vis o : Expanded H vis (VAtom o) (VAtom o)
| Ex_seen vis a g : In (a, g) vis -> Expanded H vis (VRef a g) (VRef a g)
| Ex_stm vis a g d d' c data : ~ In (a, g) vis -> H a g = Ok (VStm None d data) -> stm_class d c ->
    Forall2 (fun kv kv' => fst kv' = fst kv /\ Expanded H ((a, g) :: vis) (snd kv) (snd kv')) d d' ->
    Expanded H vis (VRef a g) (VStm (Some c) d' data).
Definition stream_set (H : Z -> Z -> res bv) (objs : list (Z * Z)) : Prop :=
  forall a g, In (a, g) objs -> exists d c data, H a g = Ok (VStm None d data) /\ stm_class d c /\
    Forall (fun kv => (exists o, snd kv = VAtom o) \/ exists a' g', snd kv = VRef a' g' /\ In (a', g') objs) d.

Lemma visited_In vis a g : visited vis a g = true <-> In (a, g) vis.
Proof.
  unfold visited. rewrite existsb_exists. split.
  - intros ([x y] & Hi & E). cbn in E. apply andb_prop in E. destruct E as [E1 E2]. apply Z.eqb_eq in E1, E2. now subst.
  - intros Hi. exists (a, g). split; auto. cbn. now rewrite !Z.eqb_refl.
Qed.
Lemma visited_cons a g vis x y : visited ((a, g) :: vis) x y = ((a =? x) && (g =? y)) || visited vis x y.
Proof. reflexivity. Qed.
Lemma unseen_lt (objs vis : list (Z * Z)) a g : In (a, g) objs -> ~ In (a, g) vis ->
  (List.length (filter (fun p => negb (visited ((a, g) :: vis) (fst p) (snd p))) objs) <
   List.length (filter (fun p => negb (visited vis (fst p) (snd p))) objs))%nat.
Proof.
  assert (forall l, (List.length (filter (fun p => negb (visited ((a, g) :: vis) (fst p) (snd p))) l) <=
    List.length (filter (fun p => negb (visited vis (fst p) (snd p))) l))%nat) as HL.
  { induction l as [|[x y] l IH]; [auto|]. cbn [filter fst snd]. rewrite visited_cons. destruct (visited vis x y); rewrite ?orb_true_r; cbn [negb]; [exact IH|].
    rewrite orb_false_r. destruct ((a =? x) && (g =? y)); cbn [negb List.length]; lia. }
  intros Hi Hv. induction objs as [|[x y] l IH]; [contradiction|]. specialize (HL l).
  cbn [filter fst snd]. rewrite visited_cons.
  destruct Hi as [E|Hi].
  - inversion E; subst x y. destruct (visited vis a g) eqn:EV; [now apply visited_In in EV|].
    rewrite !Z.eqb_refl. cbn [andb orb negb List.length]. lia.
  - specialize (IH Hi). destruct (visited vis x y); rewrite ?orb_true_r; cbn [negb]; [exact IH|].
    rewrite orb_false_r. destruct ((a =? x) && (g =? y)); cbn [negb List.length]; lia.
Qed.

Lemma expanded_atoms H vis (d d' : list (list Z * bv)) k : (match aget d k with Some x => exists o, x = VAtom o | None => True end) ->
  Forall2 (fun kv kv' => fst kv' = fst kv /\ Expanded H vis (snd kv) (snd kv')) d d' -> aget d' k = aget d k.
Proof.
  intros HA HF. induction HF as [|[a x] [b y] d d' [E1 E2] HF IH]; [reflexivity|]. cbn [fst snd] in *. subst b.
  cbn [aget] in *. destruct (eqlZ k a); auto. destruct HA as [o ->]. now inversion E2; subst.
Qed.
Lemma expanded_class H vis d d' c : stm_class d c ->
  Forall2 (fun kv kv' => fst kv' = fst kv /\ Expanded H vis (snd kv) (snd kv')) d d' -> stm_class d' c.
Proof.
  intros HC HF. unfold stm_class in *.
  assert (aget d' (bs "Type") = aget d (bs "Type")) as ->.
  { eapply expanded_atoms; eauto. destruct HC as [[HX _]|[_ HC]]; [rewrite HX; eauto|exact (class_atom _ _ _ _ HC)]. }
  destruct HC as [[HX HC]|[HX HC]]; [left|right; auto]. split; auto.
  rewrite (expanded_atoms H vis d d' (bs "Subtype")); auto. exact (class_atom _ _ _ _ HC).
Qed.

Theorem C27_stream_cycles : forall H objs, stream_set H objs -> forall a g, In (a, g) objs ->
  exists v, Expanded H [] (VRef a g) v /\ exists n0, forall n, (n0 <= n)%nat -> build H n false [] (VRef a g) = Ok v.
Proof.
  intros H objs HS.
  assert (forall k vis, (List.length (filter (fun p => negb (visited vis (fst p) (snd p))) objs) < k)%nat ->
    forall a g, In (a, g) objs -> exists v, Expanded H vis (VRef a g) v /\
      exists n0, forall n, (n0 <= n)%nat -> build H n false vis (VRef a g) = Ok v) as G.
  { induction k as [|k IH]; intros vis Hk a g Hi; [lia|].
    destruct (visited vis a g) eqn:EV.
    { exists (VRef a g). split; [constructor; now apply visited_In|]. exists 1%nat. intros [|n] Hn; [lia|]. cbn [build]. now rewrite EV. }
    assert (~ In (a, g) vis) as Hv by (intros X; apply visited_In in X; congruence).
    destruct (HS a g Hi) as (d & c & data & EH & HC & HD).
    assert (List.length (filter (fun p => negb (visited ((a, g) :: vis) (fst p) (snd p))) objs) < k)%nat as Hk'
      by (pose proof (unseen_lt objs vis a g Hi Hv); lia).
    assert (exists d', Forall2 (fun kv kv' => fst kv' = fst kv /\ Expanded H ((a, g) :: vis) (snd kv) (snd kv')) d d' /\
      exists n0, forall n, (n0 <= n)%nat -> map_vals (build H n false ((a, g) :: vis)) d = Ok d') as (d' & HF & n0 & HM).
    { clear HC EH. induction HD as [|[kk x] d Hx HD IHd].
      - exists []. split; [constructor|]. exists 0%nat. reflexivity.
      - destruct IHd as (d' & HF & n0 & HM). cbn [snd] in Hx.
        assert (exists v, Expanded H ((a, g) :: vis) x v /\ exists n1, forall n, (n1 <= n)%nat -> build H n false ((a, g) :: vis) x = Ok v)
          as (v & Hv1 & n1 & HB).
        { destruct Hx as [[o ->]|(a' & g' & -> & Hi')].
          - exists (VAtom o). split; [constructor|]. exists 1%nat. intros [|n] Hn; [lia|reflexivity].
          - exact (IH _ Hk' a' g' Hi'). }
        exists ((kk, v) :: d'). split; [constructor; [split; auto|exact HF]|].
        exists (Nat.max n0 n1). intros n Hn. unfold map_vals in *. cbn [mapM fst snd]. rewrite HB by lia. cbn [rbind].
        rewrite HM by lia. reflexivity. }
    exists (VStm (Some c) d' data). split; [econstructor; eauto|].
    exists (S (S n0)). intros [|[|n]] Hn; try lia. remember (S n) as n1. cbn [build]. rewrite EV, EH. cbn [rbind].
    subst n1. rewrite (stm_factory H n None d c data HC). cbn [rbind]. rewrite HM by lia. cbn [rbind].
    apply stm_factory. eapply expanded_class; eauto. }
  intros a g Hi. exact (G (S (List.length (filter (fun p => negb (visited [] (fst p) (snd p))) objs))) [] (Nat.lt_succ_diag_r _) a g Hi).
Qed.
(** Two form XObjects that refer to each other. *)
Definition form_pair (a g : Z) : res bv :=
  Ok (VStm None [(bs "Type", VAtom (OName (bs "XObject"))); (bs "Subtype", VAtom (OName (bs "Form")));
                 (bs "Next", VRef (1 - a) 0)] []).
Example C27_stream_cycles_ex : stream_set form_pair [(0, 0); (1, 0)] /\
  exists n0, forall n, (n0 <= n)%nat -> exists d, build form_pair n false [] (VRef 0 0) = Ok (VStm (Some (bs "Form")) d []).
Proof.
  assert (stream_set form_pair [(0, 0); (1, 0)]) as HS.
  { intros a g Hi. eexists _, (bs "Form"), _. split; [reflexivity|]. split.
    - left. split; [reflexivity|]. left. split; [|reflexivity]. cbn. auto.
    - repeat (constructor; [try (left; eexists; reflexivity)|]); [|constructor].
      right. exists (1 - a), 0. split; [reflexivity|]. destruct Hi as [E|[E|[]]]; inversion E; subst; cbn; auto. }
  split; [exact HS|].
  destruct (C27_stream_cycles _ _ HS 0 0 (or_introl eq_refl)) as (v & HE & n0 & HB). exists n0. intros n Hn.
  rewrite (HB n Hn). clear HB. remember (VRef 0 0) as r eqn:Er. remember (@nil (Z * Z)) as vis eqn:Ev.
  destruct HE as [|vis a g Hin|vis a g d d' c data _ EH HC HF]; [discriminate|subst vis; contradiction|].
  injection EH as Ed Edata. exists d'. do 2 f_equal; [|now rewrite <- Edata]. f_equal. rewrite <- Ed in HC.
  destruct HC as [[_ HC]|[HX _]]; [|contradiction HX; reflexivity].
  destruct HC as [[_ ->]|[HC _]]; [reflexivity|]. contradiction HC. cbn. auto.
Qed.
(** A reference to a reference is resolved only one step. *)
Theorem C27_reference_chain_refuted : forall H n g n' g', H n g = Ok (VRef n' g') ->
  forall fuel lazy, (2 <= fuel)%nat -> build H fuel lazy [] (VRef n g) = Ok (VRef n' g').
Proof. intros H n g n' g' E [|[|k]] lazy Hf; try lia. cbn. now rewrite E. Qed.

(** C28 and C29: dictionary objects. *)
Section AlistLemmas.
  Context {V : Type}.
  Implicit Types d : list (list Z * V).
  Lemma aget_aset d k v k' : aget (aset d k v) k' = if eqlZ k' k then Some v else aget d k'.
  Proof.
    induction d as [|[a x] d IH]; cbn [aset aget]; [reflexivity|].
    destruct (eqlZ k a) eqn:E; cbn [aget].
    - apply eqlZ_eq in E. subst a. destruct (eqlZ k' k); auto.
    - rewrite IH. destruct (eqlZ k' a) eqn:E1; auto. destruct (eqlZ k' k) eqn:E2; auto.
      apply eqlZ_eq in E1, E2. subst. rewrite eqlZ_refl in E. discriminate.
  Qed.
  Lemma aget_In d k v : aget d k = Some v -> In k (map fst d).
  Proof.
    induction d as [|[a x] d IH]; cbn [aget map fst]; [discriminate|]. destruct (eqlZ k a) eqn:E; [apply eqlZ_eq in E; now left|right; auto].
  Qed.
  Lemma In_aget d k : In k (map fst d) -> exists v, aget d k = Some v.
  Proof.
    induction d as [|[a x] d IH]; cbn [aget map fst]; [contradiction|]. intros [->|Hi]; [rewrite eqlZ_refl; eauto|].
    destruct (eqlZ k a); eauto.
  Qed.
  Lemma adel_sub d k x : In x (map fst (adel d k)) -> In x (map fst d).
  Proof.
    induction d as [|[a y] d IH]; cbn [adel map fst]; auto. destruct (eqlZ k a); cbn [map fst In]; [auto|]. intros [->|Hi]; auto.
  Qed.
  Lemma adel_nodup d k : NoDup (map fst d) -> NoDup (map fst (adel d k)).
  Proof.
    induction d as [|[a y] d IH]; cbn [adel map fst]; auto. intros HN. inversion HN; subst. destruct (eqlZ k a); auto.
    cbn [map fst]. constructor; auto. intros Hi. apply adel_sub in Hi. contradiction.
  Qed.
  Lemma aset_sub d k v x : In x (map fst (aset d k v)) -> x = k \/ In x (map fst d).
  Proof.
    induction d as [|[a y] d IH]; cbn [aset map fst In]; [intuition|]. destruct (eqlZ k a); cbn [map fst In]; intuition.
  Qed.
  Lemma aset_nodup d k v : NoDup (map fst d) -> NoDup (map fst (aset d k v)).
  Proof.
    induction d as [|[a y] d IH]; cbn [aset map fst]; intros HN; [repeat constructor; auto|]. inversion HN; subst.
    destruct (eqlZ k a) eqn:E; cbn [map fst]; [constructor; auto|]. constructor; auto.
    intros Hi. apply aset_sub in Hi. destruct Hi as [->|Hi]; [rewrite eqlZ_refl in E; discriminate|contradiction].
  Qed.
  Lemma aget_adel d k k' : NoDup (map fst d) -> aget (adel d k) k' = if eqlZ k' k then None else aget d k'.
  Proof.
    induction d as [|[a x] d IH]; cbn [adel aget map fst]; intros HN; [now destruct (eqlZ k' k)|]. inversion HN as [|? ? Hni HN']; subst.
    destruct (eqlZ k a) eqn:E; cbn [aget].
    - apply eqlZ_eq in E. subst a. destruct (eqlZ k' k) eqn:E1; auto. apply eqlZ_eq in E1. subst.
      destruct (aget d k) eqn:Eg; auto. apply aget_In in Eg. contradiction.
    - rewrite IH by auto. destruct (eqlZ k' a) eqn:E1; auto. destruct (eqlZ k' k) eqn:E2; auto.
      apply eqlZ_eq in E1, E2. subst. rewrite eqlZ_refl in E. discriminate.
  Qed.
End AlistLemmas.

Section DictObjects.
  Variable bld : bv -> res bv.

  (** What can be asked of a dictionary object. *)
  Inductive question := QItem (k : list Z) | QGet (k : list Z) (dflt : bv) | QKeys | QValues | QItems | QIn (k : list Z) | QLen.
  Inductive answer := AVal (r : res bv) | AKeys (l : list (list Z)) | AVals (r : res (list bv)) | AItems (r : res (list (list Z * bv)))
                    | ABool (b : bool) | ANum (n : nat).
  Definition ask (o : dobj) (q : question) : answer * dobj :=
    match q with
    | QItem k => let '(r, o') := d_item bld o k in (AVal r, o')
    | QGet k dflt => let '(r, o') := d_get bld o k dflt in (AVal r, o')
    | QKeys => (AKeys (d_keys o), o)
    | QValues => let '(r, o') := d_values bld o in (AVals r, o')
    | QItems => let '(r, o') := d_items bld o in (AItems r, o')
    | QIn k => (ABool (d_in o k), o)
    | QLen => (ANum (List.length (d_raw o)), o)
    end.
  Fixpoint asks (o : dobj) (l : list question) : list answer * dobj :=
    match l with
    | [] => ([], o)
    | q :: r => let '(a, o1) := ask o q in let '(b, o2) := asks o1 r in (a :: b, o2)
    end.

  (** The answers, from the underlying entries alone. *)
  Definition entry (d : list (list Z * bv)) (k : list Z) : res bv :=
    match aget d k with None => Err KeyErr | Some v => bld v end.
  Fixpoint entries (d : list (list Z * bv)) (ks : list (list Z)) : res (list (list Z * bv)) :=
    match ks with
    | [] => Ok []
    | k :: r => rbind (entry d k) (fun v => rbind (entries d r) (fun l => Ok ((k, v) :: l)))
    end.
  Definition right_answer (d : list (list Z * bv)) (q : question) : answer :=
    match q with
    | QItem k => AVal (entry d k)
    | QGet k dflt => AVal (match entry d k with Err KeyErr => Ok dflt | r => r end)
    | QKeys => AKeys (map fst d)
    | QValues => AVals (rbind (entries d (map fst d)) (fun l => Ok (map snd l)))
    | QItems => AItems (entries d (map fst d))
    | QIn k => ABool (existsb (eqlZ k) (map fst d))
    | QLen => ANum (List.length d)
    end.

  Definition coherent (o : dobj) : Prop := forall k v, aget (d_cache o) k = Some v -> entry (d_raw o) k = Ok v.
  Lemma item_coherent o k : coherent o ->
    fst (d_item bld o k) = entry (d_raw o) k /\ d_raw (snd (d_item bld o k)) = d_raw o /\ coherent (snd (d_item bld o k)).
  Proof.
    intros HC. unfold d_item. destruct (aget (d_cache o) k) as [v|] eqn:E; [rewrite (HC _ _ E); auto|].
    unfold entry at 1. destruct (aget (d_raw o) k) as [v|] eqn:E1; auto. destruct (bld v) as [w|e] eqn:E2; auto.
    repeat split; auto. intros k' v'. cbn [snd d_cache d_raw]. rewrite aget_aset. destruct (eqlZ k' k) eqn:Ek; [|apply HC].
    apply eqlZ_eq in Ek. subst. intros X. inversion X; subst. unfold entry. now rewrite E1.
  Qed.
  Lemma items_coherent ks : forall o, coherent o ->
    fst (d_items_of bld ks o) = entries (d_raw o) ks /\ d_raw (snd (d_items_of bld ks o)) = d_raw o /\ coherent (snd (d_items_of bld ks o)).
  Proof.
    induction ks as [|k ks IH]; intros o HC; [cbn; auto|]. cbn [d_items_of entries].
    destruct (item_coherent o k HC) as (E1 & E2 & E3). destruct (d_item bld o k) as [[v|e] o1]; cbn [fst snd] in *; rewrite <- E1; cbn [rbind]; auto.
    destruct (IH o1 E3) as (F1 & F2 & F3). destruct (d_items_of bld ks o1) as [[l|e] o2]; cbn [fst snd] in *; rewrite E2 in *; rewrite <- F1; cbn [rbind]; auto.
  Qed.
  Lemma existsb_amem (d : list (list Z * bv)) k : amem d k = existsb (eqlZ k) (map fst d).
  Proof.
    unfold amem. destruct (existsb (eqlZ k) (map fst d)) eqn:E.
    - apply existsb_In in E. destruct (In_aget d k E) as [v ->]. reflexivity.
    - destruct (aget d k) eqn:Eg; auto. apply aget_In in Eg. apply existsb_In in Eg. congruence.
  Qed.
  Lemma ask_coherent o q : coherent o ->
    fst (ask o q) = right_answer (d_raw o) q /\ d_raw (snd (ask o q)) = d_raw o /\ coherent (snd (ask o q)).
  Proof.
    intros HC. destruct q as [k|k dflt| | | |k|]; cbn [ask right_answer].
    - destruct (item_coherent o k HC) as (E1 & E2 & E3). destruct (d_item bld o k). cbn [fst snd] in *. subst. auto.
    - destruct (item_coherent o k HC) as (E1 & E2 & E3). unfold d_get. destruct (d_item bld o k) as [[v|[]] o']; cbn [fst snd] in *; rewrite <- E1; auto.
    - auto.
    - destruct (items_coherent (d_keys o) o HC) as (E1 & E2 & E3). unfold d_values, d_items. destruct (d_items_of bld (d_keys o) o) as [[l|e] o']; cbn [fst snd] in *;
        unfold d_keys in E1; rewrite <- E1; cbn [rbind]; auto.
    - destruct (items_coherent (d_keys o) o HC) as (E1 & E2 & E3). unfold d_items. destruct (d_items_of bld (d_keys o) o) as [l o']; cbn [fst snd] in *;
        unfold d_keys in E1; rewrite <- E1; auto.
    - unfold d_in. rewrite existsb_amem. auto.
    - auto.
  Qed.
  (** C28.  Any history of reading: every answer is the right one, and the object is as before. *)
  Theorem C28_reading : forall d l,
    fst (asks (new_dobj d) l) = map (right_answer d) l /\ d_raw (snd (asks (new_dobj d) l)) = d.
  Proof.
    intros d l. assert (forall o, coherent o -> fst (asks o l) = map (right_answer (d_raw o)) l /\ d_raw (snd (asks o l)) = d_raw o) as HA.
    { induction l as [|q l IH]; intros o HC; [cbn; auto|]. cbn [asks map].
      destruct (ask_coherent o q HC) as (E1 & E2 & E3). destruct (ask o q) as [a o1]. cbn [fst snd] in *.
      destruct (IH o1 E3) as (F1 & F2). destruct (asks o1 l) as [b o2]. cbn [fst snd] in *. rewrite E2 in *. subst. auto. }
    apply HA. intros k v. discriminate.
  Qed.

  (** C29.  Histories of reading and changing. *)
  Inductive event := EAsk (q : question) | ESet (k : list Z) (v : bv) | EDel (k : list Z) | EPop (k : list Z) | EPopItem.
  Definition happen (o : dobj) (e : event) : dobj :=
    match e with
    | EAsk q => snd (ask o q)
    | ESet k v => d_set o k v
    | EDel k => snd (d_del o k)
    | EPop k => snd (d_pop bld o k)
    | EPopItem => snd (d_popitem bld o)
    end.
  Definition history (o : dobj) (h : list event) : dobj := fold_left happen h o.

  Lemma cache_item o k k' v : aget (d_cache o) k' = Some v -> aget (d_cache (snd (d_item bld o k))) k' = Some v.
  Proof.
    intros E. unfold d_item. destruct (aget (d_cache o) k) eqn:E1; auto. destruct (aget (d_raw o) k); auto. destruct (bld b); auto.
    cbn [snd d_cache]. rewrite aget_aset. destruct (eqlZ k' k) eqn:Ek; auto. apply eqlZ_eq in Ek. subst. congruence.
  Qed.
  Lemma cache_items ks k' v : forall o, aget (d_cache o) k' = Some v -> aget (d_cache (snd (d_items_of bld ks o))) k' = Some v.
  Proof.
    induction ks as [|k ks IH]; intros o E; auto. cbn [d_items_of]. pose proof (cache_item o k k' v E) as E1.
    destruct (d_item bld o k) as [[w|e] o1]; cbn [snd] in *; auto. specialize (IH o1 E1). destruct (d_items_of bld ks o1) as [[l|e] o2]; auto.
  Qed.
  Lemma cache_pop o k k' v : aget (d_cache o) k' = Some v -> aget (d_cache (snd (d_pop bld o k))) k' = Some v.
  Proof.
    intros E. unfold d_pop. destruct (d_in o k); auto. pose proof (cache_item o k k' v E) as E1.
    destruct (d_item bld o k) as [[w|e] o1]; cbn [snd] in *; auto.
  Qed.
  Lemma cache_happen o e k v : aget (d_cache o) k = Some v -> e <> EDel k ->
    (forall k', e = EDel k' -> NoDup (map fst (d_cache o))) -> aget (d_cache (happen o e)) k = Some v.
  Proof.
    intros E HN HD. destruct e as [q|a w|a|a|]; cbn [happen]; auto.
    - destruct q as [a|a dflt| | | |a|]; cbn [ask]; auto.
      + pose proof (cache_item o a k v E). destruct (d_item bld o a); auto.
      + pose proof (cache_item o a k v E) as E1. unfold d_get. destruct (d_item bld o a) as [[w|[]] o']; auto.
      + pose proof (cache_items (d_keys o) k v o E) as E1. unfold d_values, d_items. destruct (d_items_of bld (d_keys o) o) as [[w|[]] o']; auto.
      + pose proof (cache_items (d_keys o) k v o E) as E1. unfold d_items. destruct (d_items_of bld (d_keys o) o) as [[w|[]] o']; auto.
    - unfold d_del. destruct (aget (d_cache o) a) eqn:Ea; auto. cbn [snd d_cache]. rewrite aget_adel by eauto.
      destruct (eqlZ k a) eqn:Ek; auto. apply eqlZ_eq in Ek. subst. congruence.
    - now apply cache_pop.
    - unfold d_popitem. destruct (d_raw o) as [|[a x] r] eqn:Er; auto. pose proof (cache_pop o a k v E) as E1.
      destruct (d_pop bld o a) as [[w|e] o']; auto.
  Qed.
  Definition one_key (o : dobj) : Prop := NoDup (map fst (d_cache o)).
  Lemma one_item o k : one_key o -> one_key (snd (d_item bld o k)).
  Proof.
    intros E. unfold d_item. destruct (aget (d_cache o) k) eqn:E1; auto. destruct (aget (d_raw o) k); auto. destruct (bld b); auto.
    now apply aset_nodup.
  Qed.
  Lemma one_items ks : forall o, one_key o -> one_key (snd (d_items_of bld ks o)).
  Proof.
    induction ks as [|k ks IH]; intros o E; auto. cbn [d_items_of]. pose proof (one_item o k E) as E1.
    destruct (d_item bld o k) as [[w|e] o1]; cbn [snd] in *; auto. specialize (IH o1 E1). destruct (d_items_of bld ks o1) as [[l|e] o2]; auto.
  Qed.
  Lemma one_pop o k : one_key o -> one_key (snd (d_pop bld o k)).
  Proof.
    intros E. unfold d_pop. destruct (d_in o k); auto. pose proof (one_item o k E) as E1. destruct (d_item bld o k) as [[w|e] o1]; cbn [snd] in *; auto.
  Qed.
  Lemma one_happen o e : one_key o -> one_key (happen o e).
  Proof.
    intros E. destruct e as [q|a w|a|a|]; cbn [happen]; auto.
    - destruct q as [a|a dflt| | | |a|]; cbn [ask]; auto.
      + pose proof (one_item o a E). destruct (d_item bld o a); auto.
      + pose proof (one_item o a E) as E1. unfold d_get. destruct (d_item bld o a) as [[w|[]] o']; auto.
      + pose proof (one_items (d_keys o) o E) as E1. unfold d_values, d_items. destruct (d_items_of bld (d_keys o) o) as [[w|[]] o']; auto.
      + pose proof (one_items (d_keys o) o E) as E1. unfold d_items. destruct (d_items_of bld (d_keys o) o) as [[w|[]] o']; auto.
    - unfold d_del. destruct (aget (d_cache o) a) eqn:Ea; auto. now apply adel_nodup.
    - now apply one_pop.
    - unfold d_popitem. destruct (d_raw o) as [|[a x] r] eqn:Er; auto. pose proof (one_pop o a E) as E1. destruct (d_pop bld o a) as [[w|e] o']; auto.
  Qed.
  Lemma history_app o h1 h2 : history o (h1 ++ h2) = history (history o h1) h2.
  Proof. apply fold_left_app. Qed.
  Lemma one_history h : forall o, one_key o -> one_key (history o h).
  Proof. induction h; intros o E; cbn; auto. apply IHh. now apply one_happen. Qed.

  (** The first value read sticks: whatever happens after d[k] was read (assignments to k and its removal
      by pop included), and as long as del d[k] is not called, d[k] is that value. *)
  Theorem C29_first_read_sticks : forall d before k w after,
    fst (d_item bld (history (new_dobj d) before) k) = Ok w -> ~ In (EDel k) after ->
    fst (d_item bld (history (new_dobj d) (before ++ EAsk (QItem k) :: after)) k) = Ok w.
  Proof.
    intros d before k w after E HN. rewrite history_app. set (o := history (new_dobj d) before) in *. cbn [history fold_left].
    assert (one_key o) as H1 by (apply one_history; constructor).
    assert (aget (d_cache (happen o (EAsk (QItem k)))) k = Some w) as HC.
    { cbn [happen ask]. unfold d_item in *. destruct (aget (d_cache o) k) eqn:Ec; cbn [fst snd] in *; [congruence|].
      destruct (aget (d_raw o) k); [|discriminate]. destruct (bld b); [|discriminate]. cbn [fst snd d_cache] in *. rewrite aget_aset, eqlZ_refl. congruence. }
    assert (one_key (happen o (EAsk (QItem k)))) as H2 by now apply one_happen.
    revert HC H2. generalize (happen o (EAsk (QItem k))). clear - HN. fold history. induction after as [|e after IH]; intros o HC H1.
    - cbn. unfold d_item. now rewrite HC.
    - cbn [fold_left]. apply IH; [intros Hi; apply HN; now right| |now apply one_happen].
      apply cache_happen; auto. intros ->. apply HN. now left.
  Qed.
  (** An assignment is seen if the key has not been read before. *)
  Theorem C29_assignment_unread : forall d k v h,
    Forall (fun e => match e with ESet _ _ => True | EAsk QKeys | EAsk (QIn _) | EAsk QLen => True
                     | EAsk (QItem k') | EAsk (QGet k' _) | EPop k' => k' <> k | _ => False end) h ->
    fst (d_item bld (d_set (history (new_dobj d) h) k v) k) = bld v.
  Proof.
    intros d k v h HF. assert (aget (d_cache (history (new_dobj d) h)) k = None) as HC.
    { assert (forall o, aget (d_cache o) k = None -> aget (d_cache (history o h)) k = None) as HA; [|now apply HA].
      induction HF as [|e h He HF IH]; intros o HC; auto. cbn [history fold_left]. apply IH.
      assert (forall a, a <> k -> aget (d_cache (snd (d_item bld o a))) k = None) as HI.
      { intros a Ha. unfold d_item. destruct (aget (d_cache o) a); auto. destruct (aget (d_raw o) a); auto. destruct (bld b); auto.
        cbn [snd d_cache]. rewrite aget_aset. destruct (eqlZ k a) eqn:Ek; auto. apply eqlZ_eq in Ek. subst. contradiction. }
      destruct e as [[a|a dflt| | | |a|]|a w|a|a|]; try contradiction; cbn [happen ask]; auto.
      - specialize (HI a He). destruct (d_item bld o a); auto.
      - specialize (HI a He). unfold d_get. destruct (d_item bld o a) as [[|[]] ?]; auto.
      - specialize (HI a He). unfold d_pop. destruct (d_in o a); auto. destruct (d_item bld o a) as [[|] ?]; auto. }
    unfold d_item, d_set. cbn [d_cache d_raw]. rewrite HC, aget_aset, eqlZ_refl. destruct (bld v); reflexivity.
  Qed.
  (** del never removes anything: the key stays, and the value is read afresh; a key that was not read
      cannot be deleted. *)
  Theorem C29_del_refuted : forall d h k, let o := history (new_dobj d) h in
    d_keys (snd (d_del o k)) = d_keys o /\
    (fst (d_del o k) = Ok tt -> fst (d_item bld (snd (d_del o k)) k) = entry (d_raw o) k) /\
    (fst (d_del (new_dobj d) k) = Err KeyErr).
  Proof.
    intros d h k o. assert (one_key o) as H1 by (apply one_history; constructor). repeat split.
    - unfold d_del. destruct (aget (d_cache o) k); reflexivity.
    - unfold d_del. destruct (aget (d_cache o) k) eqn:E; [|discriminate]. intros _. unfold d_item. cbn [snd d_cache d_raw].
      rewrite aget_adel by auto. rewrite eqlZ_refl. unfold entry. destruct (aget (d_raw o) k); auto. destruct (bld b0); auto.
  Qed.
  (** pop removes the key from the listing, but d[k] still finds it. *)
  Theorem C29_pop_refuted : forall d h k w, NoDup (map fst d) -> let o := history (new_dobj d) h in
    fst (d_pop bld o k) = Ok w ->
    d_in (snd (d_pop bld o k)) k = false /\
    (forall k', k' <> k -> d_in (snd (d_pop bld o k)) k' = d_in o k') /\
    fst (d_item bld (snd (d_pop bld o k)) k) = Ok w.
  Proof.
    intros d h k w HD o E.
    assert (NoDup (map fst (d_raw o))) as HN.
    { unfold o. assert (forall o, NoDup (map fst (d_raw o)) -> NoDup (map fst (d_raw (history o h)))) as HA; [|apply HA; exact HD].
      clear. induction h as [|e h IH]; intros o HN; auto. cbn [history fold_left]. apply IH.
      assert (forall k o, d_raw (snd (d_item bld o k)) = d_raw o) as HI.
      { intros k o'. unfold d_item. destruct (aget (d_cache o') k); auto. destruct (aget (d_raw o') k); auto. destruct (bld b); auto. }
      assert (forall ks o, d_raw (snd (d_items_of bld ks o)) = d_raw o) as HIs.
      { induction ks as [|k ks IHk]; intros o'; auto. cbn [d_items_of]. pose proof (HI k o') as E1. destruct (d_item bld o' k) as [[w|e'] o1]; cbn [snd] in *; auto.
        specialize (IHk o1). destruct (d_items_of bld ks o1) as [[l|e'] o2]; cbn [snd] in *; congruence. }
      assert (forall a, NoDup (map fst (d_raw (snd (d_pop bld o a))))) as HP.
      { intros a. unfold d_pop. destruct (d_in o a); auto. pose proof (HI a o) as E1. destruct (d_item bld o a) as [[w|e'] o1]; cbn [snd d_raw] in *; rewrite E1 in *; auto.
        now apply adel_nodup. }
      destruct e as [q|a w|a|a|]; cbn [happen]; auto.
      - destruct q as [a|a dflt| | | |a|]; cbn [ask]; auto.
        + specialize (HI a o). destruct (d_item bld o a); cbn [snd] in *. now rewrite HI.
        + specialize (HI a o). unfold d_get. destruct (d_item bld o a) as [[w|[]] o']; cbn [snd] in *; now rewrite HI.
        + specialize (HIs (d_keys o) o). unfold d_values, d_items. destruct (d_items_of bld (d_keys o) o) as [[w|[]] o']; cbn [snd] in *; now rewrite HIs.
        + specialize (HIs (d_keys o) o). unfold d_items. destruct (d_items_of bld (d_keys o) o) as [[w|[]] o']; cbn [snd] in *; now rewrite HIs.
      - now apply aset_nodup.
      - unfold d_del. destruct (aget (d_cache o) a); auto.
      - unfold d_popitem. destruct (d_raw o) as [|[a x] r] eqn:Er; [cbn [snd]; rewrite Er; constructor|]. specialize (HP a). destruct (d_pop bld o a) as [[w|e'] o']; auto. }
    unfold d_pop in *. destruct (d_in o k) eqn:Ei; [|discriminate].
    assert (d_raw (snd (d_item bld o k)) = d_raw o) as HR.
    { unfold d_item. destruct (aget (d_cache o) k); auto. destruct (aget (d_raw o) k); auto. destruct (bld b); auto. }
    assert (forall v o1, d_item bld o k = (Ok v, o1) -> aget (d_cache o1) k = Some v) as HC.
    { unfold d_item. intros v o1 X. destruct (aget (d_cache o) k) eqn:E1; [congruence|]. destruct (aget (d_raw o) k); [|discriminate]. destruct (bld b); [|discriminate].
      inversion X; subst. cbn [d_cache]. now rewrite aget_aset, eqlZ_refl. }
    destruct (d_item bld o k) as [[v|e] o1] eqn:E1; cbn [fst snd] in *; [|discriminate]. inversion E; subst v.
    unfold d_in in *. cbn [d_raw]. rewrite HR. unfold amem in *. repeat split.
    - now rewrite aget_adel, eqlZ_refl.
    - intros k' Hk. rewrite aget_adel by auto. destruct (eqlZ k' k) eqn:Ek; auto. apply eqlZ_eq in Ek. contradiction.
    - unfold d_item. cbn [d_cache]. now rewrite (HC w o1 eq_refl).
  Qed.
End DictObjects.

(** Concrete cases.  1 0: an array of references and a dictionary that refers back to it; 2 0: a name;
    3 0: an array containing itself; 4 0: a reference; 5 0: a dictionary containing itself. *)
Definition ex_nm (s : list Z) := VAtom (OName s).
Definition ex_self_dict : list (list Z * bv) := [(bs "Type", ex_nm (bs "Page")); (bs "Self", VRef 5 0); (bs "Up", VRef 1 0)].
Definition ex_h (n g : Z) : res bv :=
  Ok (if n =? 1 then VArr [VRef 2 0; VArr [VRef 2 0; VRef 5 0]; VAtom (OInt 7)]
      else if n =? 2 then ex_nm (bs "N") else if n =? 3 then VArr [VAtom (OInt 1); VRef 3 0]
      else if n =? 4 then VRef 2 0 else if n =? 5 then VDict None ex_self_dict else VAtom ONull).
Example C27_ex :
  Stands ex_h (VRef 1 0) (VArr [ex_nm (bs "N"); VArr [ex_nm (bs "N"); VDict (Some (bs "Page")) ex_self_dict]; VAtom (OInt 7)]) /\
  build ex_h 10 true [] (VRef 1 0) = Ok (VArr [ex_nm (bs "N"); VArr [ex_nm (bs "N"); VDict (Some (bs "Page")) ex_self_dict]; VAtom (OInt 7)]) /\
  (forall fuel v, build ex_h fuel true [] (VRef 3 0) <> Ok v) /\
  (forall fuel v, build ex_h fuel false [] (VRef 5 0) <> Ok v) /\
  build ex_h 10 true [] (VRef 4 0) = Ok (VRef 2 0).
Proof.
  assert (forall x, ex_h 2 0 = Ok x -> ~ is_ref x) as H2 by (intros x E; inversion E; intros (n & g & X); discriminate X).
  assert (Stands ex_h (VRef 2 0) (ex_nm (bs "N"))) as S2.
  { econstructor; [reflexivity|intros (n & g & X); discriminate X|constructor]. }
  split; [|split; [|split; [|split]]].
  - econstructor; [reflexivity|intros (n & g & X); discriminate X|]. constructor. constructor; [exact S2|].
    constructor; [|constructor; [constructor|constructor]]. constructor. constructor; [exact S2|]. constructor; [|constructor].
    econstructor; [reflexivity|intros (n & g & X); discriminate X|]. constructor. left. split; [right; right; now left|reflexivity].
  - vm_compute. reflexivity.
  - intros fuel v. apply (C27_array_cycle_refuted ex_h (fun n g => n = 3 /\ g = 0)); auto.
    intros n g [-> ->]. eexists. split; [reflexivity|]. exists 3, 0. split; [right; now left|auto].
  - intros fuel v. apply (C27_not_lazy_refuted ex_h (fun n g => n = 5 /\ g = 0) (bs "Self")); auto.
    intros n g [-> ->]. exists ex_self_dict, 5, 0. repeat split; auto. right; now left.
  - vm_compute. reflexivity.
Qed.
(** The hypotheses of [C27_no_array_cycle] on a document with a dictionary cycle. *)
Example C27_no_array_cycle_ex : let h := fun n g : Z => if n =? 3 then Ok (VAtom ONull) else if n =? 4 then Ok (VAtom ONull) else ex_h n g in
  forall n g, exists o, h n g = Ok o /\ typed o /\ ~ is_ref o /\
     forall n' g', through_arrays o n' g' -> ((if (n' =? 1)%Z then 1 else 0) < (if (n =? 1)%Z then 1 else 0))%nat.
Proof.
  intros h n g. unfold h, ex_h.
  destruct (Z.eqb_spec n 3); [eexists; split; [reflexivity|]; split; [constructor|split; [intros (a & b & X); discriminate X|intros ? ? X; inversion X]]|].
  destruct (Z.eqb_spec n 4); [eexists; split; [reflexivity|]; split; [constructor|split; [intros (a & b & X); discriminate X|intros ? ? X; inversion X]]|].
  destruct (Z.eqb_spec n 1).
  { eexists; split; [reflexivity|]; split; [repeat constructor|split; [intros (a & b & X); discriminate X|]].
    intros n' g' X. inversion X as [|? x ? ? Hi HT]; subst. assert (n' <> 1); [|destruct (Z.eqb_spec n' 1); [contradiction|lia]].
    destruct Hi as [<-|[<-|[<-|[]]]].
    - inversion HT; subst. lia.
    - inversion HT as [|? x ? ? Hi HT']; subst. destruct Hi as [<-|[<-|[]]]; inversion HT'; subst; lia.
    - inversion HT. }
  destruct (Z.eqb_spec n 2); [eexists; split; [reflexivity|]; split; [constructor|split; [intros (a & b & X); discriminate X|intros ? ? X; inversion X]]|].
  destruct (Z.eqb_spec n 5).
  { eexists; split; [reflexivity|]; split; [apply (Ty_dict _ (bs "Page")); left; split; [right; right; now left|reflexivity]|split; [intros (a & b & X); discriminate X|intros ? ? X; inversion X]]. }
  eexists; split; [reflexivity|]; split; [constructor|split; [intros (a & b & X); discriminate X|intros ? ? X; inversion X]].
Qed.
Definition ex_b := build ex_h 10 true [].
Definition ex_do : list (list Z * bv) := [(bs "A", VRef 2 0); (bs "B", VAtom (OInt 5))].
Example C28_ex : fst (asks ex_b (new_dobj ex_do) [QItem (bs "A"); QIn (bs "B"); QItems; QItem (bs "C"); QLen]) =
  [AVal (Ok (ex_nm (bs "N"))); ABool true; AItems (Ok [(bs "A", ex_nm (bs "N")); (bs "B", VAtom (OInt 5))]); AVal (Err KeyErr); ANum 2].
Proof. vm_compute. reflexivity. Qed.
(** d['B']; d['B'] = 6; d['B']; d.pop('B'); 'B' in d; d['B'] *)
Example C29_ex :
  fst (d_item ex_b (history ex_b (new_dobj ex_do) []) (bs "B")) = Ok (VAtom (OInt 5)) /\
  let o := history ex_b (new_dobj ex_do) [EAsk (QItem (bs "B")); ESet (bs "B") (VAtom (OInt 6))] in
  fst (d_item ex_b o (bs "B")) = Ok (VAtom (OInt 5)) /\ fst (d_pop ex_b o (bs "B")) = Ok (VAtom (OInt 5)) /\
  fst (d_del o (bs "B")) = Ok tt /\ fst (d_item ex_b (snd (d_del o (bs "B"))) (bs "B")) = Ok (VAtom (OInt 6)).
Proof. vm_compute. auto. Qed.

Print Assumptions C27_build.
Print Assumptions C27_no_array_cycle.
Print Assumptions C27_array_cycle_refuted.
Print Assumptions C27_not_lazy_refuted.
Print Assumptions C27_stream_cycles.
Print Assumptions C27_reference_chain_refuted.
Print Assumptions C28_reading.
Print Assumptions C29_first_read_sticks.
Print Assumptions C29_assignment_unread.
Print Assumptions C29_del_refuted.
Print Assumptions C29_pop_refuted.
