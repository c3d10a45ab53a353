(** C27 continued: build(obj, lazy=False) resolves objects all the way down when nothing leads back to itself. *)
From Coq Require Import String.
From Verif Require Import Prelude M_Parser M_Objects S_Objects S_Deep P_Objects.
Local Open Scope Z_scope.

Section Deep.
  Variable H : Z -> Z -> res bv.
  Variable rank : Z -> Z -> nat.
  Hypothesis Hrank : forall n g o, H n g = Ok o -> forall a b, Mentions o a b -> (rank a b < rank n g)%nat.
  Notation build := (build H).

  Definition vis_ok (vis : list (Z * Z)) (x : bv) : Prop :=
    forall p a b, In p vis -> Mentions x a b -> (rank a b < rank (fst p) (snd p))%nat.
  Definition visL (vis : list (Z * Z)) (l : list bv) : Prop := forall x, In x l -> vis_ok vis x.
  Definition visD (vis : list (Z * Z)) (d : list (list Z * bv)) : Prop := forall k x, In (k, x) d -> vis_ok vis x.
  Definition lazyD (d d1 : list (list Z * bv)) : Prop := exists n0, forall n, (n0 <= n)%nat -> map_vals (build n true []) d = Ok d1.
  Definition evb (vis : list (Z * Z)) (x v : bv) : Prop := exists n0, forall n, (n0 <= n)%nat -> build n false vis x = Ok v.

  Lemma class_resolved d d' : ResolvedD H d d' -> forall k, match aget d k with Some (VAtom o) => aget d' k = Some (VAtom o) | None => aget d' k = None | _ => True end.
  Proof.
    induction 1 as [|k0 x v d d' Hx Hd IH]; intros k; cbn [aget]; [reflexivity|]. destruct (eqlZ k k0) eqn:E.
    - destruct x; auto. inversion Hx; subst. reflexivity.
    - apply IH.
  Qed.
  Lemma dict_class_resolved d d' c : ResolvedD H d d' -> dict_class d c -> dict_class d' c.
  Proof.
    intros HR HC. unfold dict_class in *. pose proof (class_resolved _ _ HR (bs "Type")) as HK. pose proof (class_atom _ _ _ _ HC) as HA.
    destruct (aget d (bs "Type")) as [x|]; [destruct HA as [o ->]|]; rewrite HK; exact HC.
  Qed.
  Lemma stm_class_resolved d d' c : ResolvedD H d d' -> stm_class d c -> stm_class d' c.
  Proof.
    intros HR HC. pose proof (class_resolved _ _ HR (bs "Type")) as HK. pose proof (class_resolved _ _ HR (bs "Subtype")) as HS.
    destruct HC as [[HX HC]|[HX HC]].
    - left. unfold xobject in *. rewrite HX in HK. split; [exact HK|]. pose proof (class_atom _ _ _ _ HC) as HA.
      destruct (aget d (bs "Subtype")) as [x|]; [destruct HA as [o ->]|]; rewrite HS; exact HC.
    - right. pose proof (class_atom _ _ _ _ HC) as HA.
      destruct (aget d (bs "Type")) as [x|]; [destruct HA as [o ->]|]; rewrite HK; auto.
  Qed.

  Lemma deep_all :
    (forall x v, Resolved H x v ->
       (forall vis, vis_ok vis x -> evb vis x v) /\
       (exists w, Stands H x w /\ forall vis, vis_ok vis x -> evb vis w v)) /\
    (forall l l', ResolvedL H l l' ->
       (forall vis, visL vis l -> exists n0, forall n, (n0 <= n)%nat -> mapM (build n false vis) l = Ok l') /\
       (exists w, StandsL H l w /\ forall vis, visL vis l -> exists n0, forall n, (n0 <= n)%nat -> mapM (build n false vis) w = Ok l')) /\
    (forall d d', ResolvedD H d d' ->
       (forall vis, visD vis d -> exists n0, forall n, (n0 <= n)%nat -> map_vals (build n false vis) d = Ok d') /\
       (exists d1, lazyD d d1 /\ forall vis, visD vis d -> exists n0, forall n, (n0 <= n)%nat -> map_vals (build n false vis) d1 = Ok d')).
  Proof.
    apply Resolved_all.
    - intros o. assert (forall vis, evb vis (VAtom o) (VAtom o)) as HE by (intros vis; exists 1%nat; intros [|n] Hn; [lia|reflexivity]).
      split; [auto|]. exists (VAtom o). split; [constructor|auto].
    - intros n g o v E Hr HR [IHA (w & Hw & IHB)].
      assert (forall vis, vis_ok vis (VRef n g) -> vis_ok vis o) as HV.
      { intros vis Hv p a b Hp Hm. pose proof (Hv p n g Hp (Me_ref n g)). pose proof (Hrank n g o E a b Hm). lia. }
      split.
      + intros vis Hv. destruct (IHB ((n, g) :: vis)) as [n1 H1].
        { intros p a b [<-|Hp] Hm; [exact (Hrank n g o E a b Hm)|exact (HV vis Hv p a b Hp Hm)]. }
        destruct (proj1 (build_both H) o w Hw) as [n0 H0]. exists (S (Nat.max n0 n1)). intros [|k] Hn; [lia|].
        cbn [M_Objects.build].
        assert (visited vis n g = false) as ->.
        { unfold visited. destruct (existsb _ vis) eqn:EX; [|reflexivity]. apply existsb_exists in EX. destruct EX as ([a b] & Hp & HEq).
          apply andb_prop in HEq. destruct HEq as [E1 E2]. apply Z.eqb_eq in E1, E2. cbn [fst snd] in *. subst.
          pose proof (Hv (n, g) n g Hp (Me_ref n g)) as HL. cbn [fst snd] in HL. lia. }
        rewrite E. cbn [rbind]. destruct (H0 k) as [_ HF]; [lia|]. rewrite (HF Hr). cbn [rbind].
        specialize (H1 (S k)). cbn [M_Objects.build] in H1.
        pose proof (proj1 (stands_done H) _ _ Hw) as HD. destruct HD; apply H1; lia.
      + exists w. split; [econstructor; eauto|]. auto.
    - intros l l' HR [IHA (w & Hw & IHB)].
      assert (forall vis, vis_ok vis (VArr l) -> visL vis l) as HV by (intros vis Hv x Hx p a b Hp Hm; apply (Hv p a b Hp); econstructor; eauto).
      split.
      + intros vis Hv. destruct (IHA vis (HV _ Hv)) as [n0 H0]. exists (S n0). intros [|n] Hn; [lia|]. cbn [M_Objects.build]. rewrite H0 by lia. reflexivity.
      + exists (VArr w). split; [now constructor|]. intros vis Hv. destruct (IHB vis (HV _ Hv)) as [n0 H0]. exists (S n0). intros [|n] Hn; [lia|].
        cbn [M_Objects.build]. rewrite H0 by lia. reflexivity.
    - intros d d' c HC HR [IHA (d1 & [m0 Hl] & IHB)]. pose proof (dict_class_resolved _ _ _ HR HC) as HC'.
      assert (forall vis, vis_ok vis (VDict None d) -> visD vis d) as HV by (intros vis Hv k x Hx p a b Hp Hm; apply (Hv p a b Hp); econstructor; eauto).
      split.
      + intros vis Hv. destruct (IHA vis (HV _ Hv)) as [n0 H0]. exists (S (S n0)). intros [|n] Hn; [lia|].
        cbn [M_Objects.build]. cbn [rbind]. rewrite H0 by lia. cbn [rbind]. destruct n; [lia|]. now apply dict_factory.
      + exists (VDict (Some c) d). split; [now constructor|]. intros vis Hv. destruct (IHB vis (HV _ Hv)) as [n0 H0].
        exists (S (S (Nat.max m0 n0))). intros [|n] Hn; [lia|]. cbn [M_Objects.build]. rewrite Hl by lia. cbn [rbind].
        rewrite H0 by lia. cbn [rbind]. destruct n; [lia|]. now apply dict_factory.
    - intros d d' c data HC HR [IHA _]. pose proof (stm_class_resolved _ _ _ HR HC) as HC'.
      assert (forall vis, vis_ok vis (VStm None d data) -> visD vis d) as HV by (intros vis Hv k x Hx p a b Hp Hm; apply (Hv p a b Hp); econstructor; eauto).
      assert (forall c0 vis, vis_ok vis (VStm None d data) -> evb vis (VStm c0 d data) (VStm (Some c) d' data)) as HE.
      { intros c0 vis Hv. destruct (IHA vis (HV _ Hv)) as [n0 H0]. exists (S (S n0)). intros [|n] Hn; [lia|]. cbn [M_Objects.build].
        rewrite H0 by lia. cbn [rbind]. destruct n; [lia|]. now apply stm_factory. }
      split; [apply HE|]. exists (VStm (Some c) d data). split; [now constructor|]. intros vis Hv. apply HE, Hv.
    - split; [intros; exists 0%nat; reflexivity|]. exists []. split; [constructor|]. intros; exists 0%nat; reflexivity.
    - intros x v l l' _ [IHA (w & Hw & IHB)] _ [ILA (wl & Hwl & ILB)].
      assert (forall vis, visL vis (x :: l) -> vis_ok vis x /\ visL vis l) as HV.
      { intros vis Hv. split; [apply Hv; now left|]. intros y Hy. apply Hv. now right. }
      split.
      + intros vis Hv. destruct (HV _ Hv) as [V1 V2]. destruct (IHA _ V1) as [n1 H1]. destruct (ILA _ V2) as [n2 H2]. exists (Nat.max n1 n2).
        intros n Hn. cbn [mapM]. rewrite H1 by lia. cbn [rbind]. rewrite H2 by lia. reflexivity.
      + exists (w :: wl). split; [now constructor|]. intros vis Hv. destruct (HV _ Hv) as [V1 V2].
        destruct (IHB _ V1) as [n1 H1]. destruct (ILB _ V2) as [n2 H2]. exists (Nat.max n1 n2).
        intros n Hn. cbn [mapM]. rewrite H1 by lia. cbn [rbind]. rewrite H2 by lia. reflexivity.
    - split; [intros; exists 0%nat; reflexivity|]. exists []. split; [exists 0%nat; reflexivity|]. intros; exists 0%nat; reflexivity.
    - intros k x v d d' _ [IHA (w & Hw & IHB)] _ [ILA (wl & [m0 Hwl] & ILB)].
      assert (forall vis, visD vis ((k, x) :: d) -> vis_ok vis x /\ visD vis d) as HV.
      { intros vis Hv. split; [apply (Hv k); now left|]. intros k' y Hy. apply (Hv k'). now right. }
      split.
      + intros vis Hv. destruct (HV _ Hv) as [V1 V2]. destruct (IHA _ V1) as [n1 H1]. destruct (ILA _ V2) as [n2 H2]. exists (Nat.max n1 n2).
        intros n Hn. unfold map_vals in *. cbn [mapM fst snd]. rewrite H1 by lia. cbn [rbind]. rewrite H2 by lia. reflexivity.
      + destruct (proj1 (build_both H) x w Hw) as [n0 H0]. exists ((k, w) :: wl). split.
        { exists (Nat.max n0 m0). intros n Hn. unfold map_vals in *. cbn [mapM fst snd]. destruct (H0 n) as [-> _]; [lia|]. cbn [rbind].
          rewrite Hwl by lia. reflexivity. }
        intros vis Hv. destruct (HV _ Hv) as [V1 V2]. destruct (IHB _ V1) as [n1 H1]. destruct (ILB _ V2) as [n2 H2]. exists (Nat.max n1 n2).
        intros n Hn. unfold map_vals in *. cbn [mapM fst snd]. rewrite H1 by lia. cbn [rbind]. rewrite H2 by lia. reflexivity.
  Qed.
End Deep.

(** C27.  build(obj, lazy=False) gives the object resolved all the way down, whatever is shared, when nothing leads back to itself. *)
Theorem C27_all_the_way : forall H, acyclic H -> forall x v, Resolved H x v ->
  exists n0, forall n, (n0 <= n)%nat -> build H n false [] x = Ok v.
Proof.
  intros H [rank Hr] x v HR. apply (proj1 (deep_all H rank Hr) x v HR). intros p a b [].
Qed.

(** ... and there is such an object, whenever the references name proper objects. *)
Theorem C27_all_the_way_exists : forall H, acyclic H -> (forall n g o, H n g = Ok o -> Sound H o) ->
  forall x, Sound H x -> exists v, Resolved H x v /\ exists n0, forall n, (n0 <= n)%nat -> build H n false [] x = Ok v.
Proof.
  intros H HA HS. assert (forall x, Sound H x -> exists v, Resolved H x v) as HX.
  { destruct HA as [rank Hr].
    assert (forall m x, (forall a b, Mentions x a b -> (rank a b < m)%nat) -> Sound H x -> exists v, Resolved H x v) as HM.
    { induction m as [m IHm] using (well_founded_induction lt_wf). intros x Hx Hs.
      - revert Hx. induction Hs as [o|n g o E Hr0|l Hl IH|d c HC Hd IH|d c data HC Hd IH]; intros Hx.
        + eexists; constructor.
        + destruct (IHm (rank n g) (Hx n g (Me_ref n g)) o) as [v Hv].
          { intros a b Hm. exact (Hr n g o E a b Hm). }
          { exact (HS n g o E). }
          exists v. econstructor; eauto.
        + assert (exists l', ResolvedL H l l') as [l' HL].
          { clear Hl. induction l as [|x l IHl]; [exists []; constructor|]. destruct (IH x (or_introl eq_refl)) as [v Hv].
            { intros a b Hm. apply Hx. econstructor; [now left|exact Hm]. }
            destruct IHl as [l' Hl']; [intros y Hy; apply IH; now right| |].
            { intros a b Hm. apply Hx. inversion Hm; subst. econstructor; [right; eassumption|assumption]. }
            exists (v :: l'). now constructor. }
          exists (VArr l'). now constructor.
        + assert (exists d', ResolvedD H d d') as [d' HL].
          { clear Hd HC. induction d as [|[k x] d IHl]; [exists []; constructor|]. destruct (IH k x (or_introl eq_refl)) as [v Hv].
            { intros a b Hm. apply Hx. econstructor; [now left|exact Hm]. }
            destruct IHl as [l' Hl']; [intros k' y Hy; apply (IH k'); now right| |].
            { intros a b Hm. apply Hx. inversion Hm; subst. econstructor; [right; eassumption|assumption]. }
            exists ((k, v) :: l'). now constructor. }
          exists (VDict (Some c) d'). now constructor.
        + assert (exists d', ResolvedD H d d') as [d' HL].
          { clear Hd HC. induction d as [|[k x] d IHl]; [exists []; constructor|]. destruct (IH k x (or_introl eq_refl)) as [v Hv].
            { intros a b Hm. apply Hx. econstructor; [now left|exact Hm]. }
            destruct IHl as [l' Hl']; [intros k' y Hy; apply (IH k'); now right| |].
            { intros a b Hm. apply Hx. inversion Hm; subst. econstructor; [right; eassumption|assumption]. }
            exists ((k, v) :: l'). now constructor. }
          exists (VStm (Some c) d' data). now constructor. }
    intros x Hs. 
    assert (exists m, forall a b, Mentions x a b -> (rank a b < m)%nat) as [m Hm]; [|exact (HM m x Hm Hs)].
    clear HM. induction Hs as [o|n g o E Hr0|l Hl IH|d c HC Hd IH|d c data HC Hd IH].
    - exists 0%nat. intros a b HM. inversion HM.
    - exists (S (rank n g)). intros a b HM. inversion HM; subst. lia.
    - clear Hl. induction l as [|x l IHl]; [exists 0%nat; intros a b HM; inversion HM; contradiction|].
      destruct (IH x (or_introl eq_refl)) as [m1 H1]. destruct IHl as [m2 H2]; [intros y Hy; apply IH; now right|].
      exists (Nat.max m1 m2). intros a b HM. inversion HM as [|l0 y n0 g0 Hi HM'| |]; subst. destruct Hi as [<-|Hi]; [specialize (H1 a b HM'); lia|].
      specialize (H2 a b (Me_arr _ _ _ _ Hi HM')). lia.
    - clear Hd HC. induction d as [|[k x] d IHl]; [exists 0%nat; intros a b HM; inversion HM; contradiction|].
      destruct (IH k x (or_introl eq_refl)) as [m1 H1]. destruct IHl as [m2 H2]; [intros k' y Hy; apply (IH k'); now right|].
      exists (Nat.max m1 m2). intros a b HM. inversion HM as [| |c0 d0 k0 y n0 g0 Hi HM'|]; subst. destruct Hi as [Heq|Hi].
      + injection Heq as <- <-. specialize (H1 a b HM'); lia.
      + specialize (H2 a b (Me_dict None _ _ _ _ _ Hi HM')). lia.
    - clear Hd HC. induction d as [|[k x] d IHl]; [exists 0%nat; intros a b HM; inversion HM; contradiction|].
      destruct (IH k x (or_introl eq_refl)) as [m1 H1]. destruct IHl as [m2 H2]; [intros k' y Hy; apply (IH k'); now right|].
      exists (Nat.max m1 m2). intros a b HM. inversion HM as [| | |c0 d0 data0 k0 y n0 g0 Hi HM']; subst. destruct Hi as [Heq|Hi].
      + injection Heq as <- <-. specialize (H1 a b HM'); lia.
      + specialize (H2 a b (Me_stm None _ data _ _ _ _ Hi HM')). lia. }
  intros x Hs. destruct (HX x Hs) as [v Hv]. exists v. split; [exact Hv|]. exact (C27_all_the_way H HA x v Hv).
Qed.

(** A font whose ToUnicode map and encoding are shared, inside an array of resources. *)
Definition deep_ex : Z -> Z -> res bv := fun n g =>
  if n =? 1 then Ok (VDict None [(bs "Type", VAtom (OName (bs "Page"))); (bs "Resources", VRef 2 0); (bs "Annots", VArr [VRef 4 0; VRef 2 0])])
  else if n =? 2 then Ok (VDict None [(bs "F1", VRef 3 0); (bs "F2", VRef 3 0)])
  else if n =? 3 then Ok (VDict None [(bs "Type", VAtom (OName (bs "Font"))); (bs "ToUnicode", VRef 4 0)])
  else if n =? 4 then Ok (VStm None [(bs "Length", VRef 5 0)] [1; 2])
  else if n =? 5 then Ok (VAtom (OInt 2))
  else Err KeyErr.
Example C27_all_the_way_ex :
  acyclic deep_ex /\ (forall n g o, deep_ex n g = Ok o -> Sound deep_ex o) /\
  let s := VStm (Some []) [(bs "Length", VAtom (OInt 2))] [1; 2] in
  let f := VDict (Some (bs "Font")) [(bs "Type", VAtom (OName (bs "Font"))); (bs "ToUnicode", s)] in
  let r := VDict (Some []) [(bs "F1", f); (bs "F2", f)] in
  build deep_ex 20 false [] (VRef 1 0) = Ok (VDict (Some (bs "Page")) [(bs "Type", VAtom (OName (bs "Page"))); (bs "Resources", r); (bs "Annots", VArr [s; r])]).
Proof.
  split; [|split; [|reflexivity]].
  - exists (fun n g => Z.to_nat (10 - n)). intros n g o E a b HM. unfold deep_ex in E.
    repeat (match type of E with context [?u =? ?v] => destruct (Z.eqb_spec u v); [subst; injection E as <-|] end); try discriminate.
    all: repeat match goal with
      | H : Mentions (VAtom _) _ _ |- _ => inversion H
      | H : Mentions (VRef _ _) _ _ |- _ => inversion H; subst; clear H
      | H : Mentions (VArr _) _ _ |- _ => inversion H; subst; clear H
      | H : Mentions (VDict _ _) _ _ |- _ => inversion H; subst; clear H
      | H : Mentions (VStm _ _ _) _ _ |- _ => inversion H; subst; clear H
      | H : In _ (_ :: _) |- _ => destruct H as [H|H]
      | H : In _ [] |- _ => destruct H
      | H : (_, _) = (_, _) |- _ => inversion H; subst; clear H
      | H : VRef _ _ = _ |- _ => subst
      end; lia.
  - intros n g o E. unfold deep_ex in E.
    assert (forall m, In m [2; 3; 4; 5] -> Sound deep_ex (VRef m 0)) as HR.
    { intros m Hm. repeat (destruct Hm as [<-|Hm]; [eapply So_ref; [reflexivity|intros (? & ? & HD); discriminate]|]). destruct Hm. }
    repeat (match type of E with context [?u =? ?v] => destruct (Z.eqb_spec u v); [subst; injection E as <-|] end); try discriminate.
    + eapply So_dict with (c := bs "Page"); [left; split; [right; right; left; reflexivity|reflexivity]|].
      intros k x Hi. repeat (destruct Hi as [Hi|Hi]; [injection Hi as <- <-|]); try destruct Hi; try constructor; try (apply HR; cbn; tauto).
      intros y Hy. repeat (destruct Hy as [<-|Hy]; [apply HR; cbn; tauto|]). destruct Hy.
    + eapply So_dict with (c := []); [reflexivity|].
      intros k x Hi. repeat (destruct Hi as [Hi|Hi]; [injection Hi as <- <-; apply HR; cbn; tauto|]). destruct Hi.
    + eapply So_dict with (c := bs "Font"); [left; split; [do 5 right; left; reflexivity|reflexivity]|].
      intros k x Hi. repeat (destruct Hi as [Hi|Hi]; [injection Hi as <- <-|]); try destruct Hi; try constructor; try (apply HR; cbn; tauto).
    + eapply So_stm with (c := []); [right; split; [discriminate|reflexivity]|].
      intros k x Hi. repeat (destruct Hi as [Hi|Hi]; [injection Hi as <- <-; apply HR; cbn; tauto|]). destruct Hi.
    + constructor.
Qed.

Print Assumptions C27_all_the_way.
Print Assumptions C27_all_the_way_exists.
