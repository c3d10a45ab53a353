(** Resources of a page: C37. *)
From Coq Require Import String.
From Verif Require Import Prelude M_Parser M_Objects P_Objects M_Viewer S_Resources.
Local Open Scope Z_scope.

Section R.
  Variable bld : bv -> res bv.

  Lemma fold_aset {V} (d : list (list Z * V)) : NoDup (map fst d) -> forall base name,
    aget (fold_left (fun a p => aset a (fst p) (snd p)) d base) name = match aget d name with Some v => Some v | None => aget base name end.
  Proof.
    induction d as [|[k v] d IH]; intros ND base name; [reflexivity|]. cbn [map fst] in ND. inversion ND as [|? ? Hk ND']. subst.
    cbn [fold_left fst snd aget]. rewrite IH by auto. rewrite aget_aset. destruct (eqlZ name k) eqn:E; [|reflexivity].
    apply eqlZ_eq in E. subst. destruct (aget d k) eqn:Ed; [|reflexivity]. exfalso. apply Hk. clear - Ed.
    induction d as [|[k' v'] d IH]; [discriminate|]. cbn [aget] in Ed. destruct (eqlZ k k') eqn:E; [apply eqlZ_eq in E; left; auto|right; auto].
  Qed.
  Lemma map_vals_aget d d' : map_vals bld d = Ok d' -> map fst d' = map fst d /\ forall name v,
    aget d' name = Some v <-> exists x, aget d name = Some x /\ bld x = Ok v.
  Proof.
    unfold map_vals. revert d'. induction d as [|[k x] d IH]; intros d' H.
    - inversion H. split; [reflexivity|]. intros. cbn. split; [discriminate|intros (x & A & _); discriminate].
    - cbn [mapM fst snd] in H. destruct (bld x) as [w|e] eqn:Ew; [|discriminate]. cbn [rbind] in H.
      destruct (mapM _ d) as [d1|e] eqn:Ed; [|discriminate]. inversion H. subst. destruct (IH _ eq_refl) as [K A].
      split; [cbn; congruence|]. intros name v. cbn [aget]. destruct (eqlZ name k); [|apply A].
      split; [intros E; inversion E; subst; eauto|intros (y & E1 & E2); inversion E1; subst; congruence].
  Qed.
  Lemma map_vals_fails d : (forall k x, In (k, x) d -> exists w, bld x = Ok w) -> exists d', map_vals bld d = Ok d'.
  Proof.
    unfold map_vals. induction d as [|[k x] d IH]; intros H; [eexists; reflexivity|]. destruct (H k x (or_introl eq_refl)) as [w E].
    destruct IH as [d' E']; [intros; eapply H; right; eauto|]. cbn [mapM fst snd]. rewrite E. cbn [rbind]. rewrite E'. eexists. reflexivity.
  Qed.

  Definition set_of (o : option rentry) : list (list Z) := match o with Some (RSet a) => a | _ => [] end.
  Definition dict_of_e (o : option rentry) : list (list Z * bv) := match o with Some (RDict a) => a | _ => [] end.
  (** how one level's entry changes the merged entry of its kind *)
  Definition step (v : bv) (old new : option rentry) : Prop :=
    (btruthy v = false /\ new = old) \/
    match v with
    | VDict _ d => (forall a, old <> Some (RSet a)) /\ exists d', map_vals bld d = Ok d' /\
                   new = Some (RDict (fold_left (fun a p => aset a (fst p) (snd p)) d' (dict_of_e old)))
    | VArr l => (forall a, old <> Some (RDict a)) /\ exists ns, names_of l = Ok ns /\ new = Some (RSet (fold_left set_add ns (set_of old)))
    | _ => new = old
    end.
  Lemma merge_entries_step items : NoDup (map fst items) -> forall kw kw', merge_entries bld kw items = Ok kw' -> forall kind,
    match aget items kind with None => aget kw' kind = aget kw kind | Some v => step v (aget kw kind) (aget kw' kind) end.
  Proof.
    induction items as [|[e v] items IH]; intros ND kw kw' H kind.
    - cbn in *. now inversion H.
    - cbn [map fst] in ND. inversion ND as [|? ? Hk ND']. subst. cbn [merge_entries] in H. cbn [aget].
      match type of H with rbind ?m _ = _ => destruct m as [kw1|err] eqn:E1; [|discriminate] end. cbn [rbind] in H.
      specialize (IH ND' kw1 kw' H kind).
      assert (aget kw1 kind = aget kw kind \/ kind = e) as Ho.
      { destruct (list_eq_dec Z.eq_dec kind e) as [->|Hne]; [now right|left]. apply eqlZ_neq in Hne.
        destruct (negb (btruthy v)); [now inversion E1|]. destruct v; try (inversion E1; reflexivity).
        - destruct (aget kw e) as [[a|a]|] eqn:Ea; try discriminate; destruct (names_of l); inversion E1; rewrite aget_aset, Hne; reflexivity.
        - destruct (aget kw e) as [[a|a]|] eqn:Ea; try discriminate; destruct (map_vals bld d); inversion E1; rewrite aget_aset, Hne; reflexivity. }
      destruct (eqlZ kind e) eqn:Ek.
      + apply eqlZ_eq in Ek. subst kind.
        assert (aget items e = None) as Hn.
        { clear - Hk. destruct (aget items e) eqn:E; [|reflexivity]. exfalso. apply Hk.
          induction items as [|[k' v'] d IH]; [discriminate|]. cbn [aget] in E. destruct (eqlZ e k') eqn:E'; [apply eqlZ_eq in E'; left; auto|right; auto].
          apply IH; auto. intro. apply Hk. now right. }
        rewrite Hn in IH. rewrite IH. unfold step. destruct (btruthy v) eqn:Et; cbn [negb] in E1; [|left; split; [reflexivity|now inversion E1]].
        right. destruct v; try (inversion E1; reflexivity).
        * destruct (aget kw e) as [[a|a]|] eqn:Ea; try discriminate; (split; [intros ? X; inversion X|]);
            destruct (names_of l) as [ns|] eqn:En; inversion E1; rewrite aget_aset, eqlZ_refl; exists ns; split; reflexivity.
        * destruct (aget kw e) as [[a|a]|] eqn:Ea; try discriminate; (split; [intros ? X; inversion X|]);
            destruct (map_vals bld d) as [ns|] eqn:En; inversion E1; rewrite aget_aset, eqlZ_refl; exists ns; split; reflexivity.
      + destruct Ho as [Ho|Ho]; [|apply eqlZ_neq in Ek; contradiction]. rewrite Ho in IH. exact IH.
  Qed.

  Lemma rs_dict_eq kw kind : rs_dict kw kind = dict_of_e (aget kw kind). Proof. reflexivity. Qed.
  Lemma rs_set_eq kw kind : rs_set kw kind = set_of (aget kw kind). Proof. reflexivity. Qed.

  Lemma nearest_merge levels : Forall unique_keys levels -> forall kw, merge_levels bld levels = Ok kw -> forall kind name v,
    aget (rs_dict kw kind) name = Some v <-> Nearest bld kind name v levels.
  Proof.
    induction 1 as [|l r [U1 U2] Hr IH]; intros kw H kind name v.
    - inversion H. cbn. split; [discriminate|intros X; inversion X].
    - cbn [merge_levels] in H. destruct (merge_levels bld r) as [kw0|e]; [|discriminate]. cbn [rbind] in H.
      specialize (IH kw0 eq_refl kind name v). pose proof (merge_entries_step l U1 _ _ H kind) as S.
      rewrite rs_dict_eq in *.
      assert ((forall c d, aget l kind <> Some (VDict c d)) -> dict_of_e (aget kw kind) = dict_of_e (aget kw0 kind) ->
              (aget (dict_of_e (aget kw kind)) name = Some v <-> Nearest bld kind name v (l :: r))) as Other.
      { intros Hd He. rewrite He, IH. split; intros X.
        - apply Ne_up; auto. intros c d Ed. exfalso. eapply Hd; eauto.
        - inversion X as [? ? (c & d & x & Ed & _)|]; subst; auto. exfalso. eapply Hd; eauto. }
      destruct (aget l kind) as [w|] eqn:El.
      + destruct S as [[St E]|S].
        * destruct w; try (apply Other; [congruence|rewrite E; reflexivity]). destruct d as [|p d]; [|discriminate].
          rewrite E, IH. split; intros X.
          -- apply Ne_up; auto. intros c' d' Ed. rewrite El in Ed. inversion Ed. reflexivity.
          -- inversion X as [? ? (c' & d' & x & Ed & E2 & _)|]; subst; auto. rewrite El in Ed. inversion Ed. subst. discriminate.
        * destruct w; try (apply Other; [congruence|rewrite S; reflexivity]).
          -- destruct S as (Ho & ns & En & E). apply Other; [congruence|]. rewrite E. cbn. destruct (aget kw0 kind) as [[a|]|]; try reflexivity. exfalso. eapply Ho; eauto.
          -- destruct S as (Ho & d' & Em & E). rewrite E. cbn [dict_of_e]. destruct (map_vals_aget _ _ Em) as [K A].
             rewrite fold_aset by (rewrite K; eapply U2; eauto).
             destruct (aget d' name) as [y|] eqn:Ey.
             ++ split; intros X.
                ** inversion X. subst. apply A in Ey. destruct Ey as (x & E1 & E2). apply Ne_here. exists c, d, x. auto.
                ** apply A in Ey. destruct Ey as (x & E1 & E2). inversion X as [? ? (c' & d2 & x2 & Ed & E3 & E4)|? ? Hs]; subst.
                   --- rewrite El in Ed. inversion Ed. subst. congruence.
                   --- rewrite (Hs _ _ El) in E1. discriminate.
             ++ rewrite IH. split; intros X.
                ** apply Ne_up; auto. intros c' d2 Ed. rewrite El in Ed. inversion Ed. subst. destruct (aget d2 name) as [x|] eqn:Ex; [|reflexivity].
                   exfalso. clear - Em Ex Ey A. assert (exists w, bld x = Ok w) as [w Hw].
                   { clear A Ey. unfold map_vals in Em. assert (In (name, x) d2) as Hin.
                     { clear Em. induction d2 as [|[k y] d2 IH]; [discriminate|]. cbn [aget] in Ex. destruct (eqlZ name k) eqn:Ek; [apply eqlZ_eq in Ek; inversion Ex; subst; now left|right; auto]. }
                     destruct (mapM_in _ _ _ _ Em Hin) as [y Hy]. cbn [snd] in Hy. destruct (bld x); [eauto|discriminate]. }
                   assert (aget d' name = Some w) by (apply A; eauto). congruence.
                ** inversion X as [? ? (c' & d2 & x2 & Ed & E3 & E4)|]; subst; auto. rewrite El in Ed. inversion Ed. subst.
                   assert (aget d' name = Some v) by (apply A; eauto). congruence.
      + apply Other; [congruence|now rewrite S].
  Qed.

  (** *** procedure sets *)
  Lemma set_add_In l x y : In y (set_add l x) <-> In y l \/ y = x.
  Proof.
    unfold set_add. destruct (existsb (eqlZ x) l) eqn:E.
    - apply existsb_In in E. split; [auto|intros [H| ->]; auto].
    - rewrite in_app_iff. cbn. intuition congruence.
  Qed.
  Lemma fold_add ns : forall l y, In y (fold_left set_add ns l) <-> In y l \/ In y ns.
  Proof.
    induction ns as [|n ns IH]; intros l y; cbn [fold_left]; [cbn; tauto|]. rewrite IH, set_add_In. cbn. intuition congruence.
  Qed.
  Lemma names_of_In l ns : names_of l = Ok ns -> forall p, In p ns <->
    (In (VAtom (OName p)) l \/ exists m, In (VArr m) l /\ In (VAtom (OName p)) m).
  Proof.
    assert (forall m a, (fix go m := match m with [] => Ok [] | VAtom (OName s) :: q => rbind (go q) (fun x => Ok (s :: x)) | _ => Err TypeErr end) m = Ok a ->
      forall p, In p a <-> In (VAtom (OName p)) m) as G.
    { induction m as [|x m IH]; intros a H p; [inversion H; reflexivity|]. destruct x as [[]| | | |]; try discriminate.
      match type of H with rbind ?r _ = _ => destruct r as [b|] eqn:Eb; [|discriminate] end. inversion H. subst. cbn [In]. rewrite (IH b eq_refl p).
      intuition congruence. }
    revert ns. induction l as [|x l IH]; intros ns H p.
    - inversion H. cbn. split; [tauto|intros [[]|(m & [] & _)]].
    - cbn [names_of] in H. destruct x as [[]| |m| |]; try discriminate.
      + destruct (names_of l) as [b|] eqn:Eb; [|discriminate]. inversion H. subst. cbn [In]. rewrite (IH b eq_refl p). split.
        * intros [->|[X|(m & X & Y)]]; [left; now left|left; now right|right; exists m; auto].
        * intros [[X|X]|(m & [X|X] & Y)]; [inversion X; now left|right; now left|discriminate|right; right; eauto].
      + match type of H with rbind ?r _ = _ => destruct r as [a|] eqn:Ea; [|discriminate] end. cbn [rbind] in H.
        destruct (names_of l) as [b|] eqn:Eb; [|discriminate]. inversion H. subst. rewrite in_app_iff, (G m a Ea p), (IH b eq_refl p). cbn [In]. split.
        * intros [X|[X|(m' & X & Y)]]; [right; exists m; auto|left; now right|right; exists m'; auto].
        * intros [[X|X]|(m' & [X|X] & Y)]; [discriminate|right; now left|inversion X; subst; now left|right; right; eauto].
  Qed.
  Lemma sets_merge levels : Forall unique_keys levels -> forall kw, merge_levels bld levels = Ok kw -> forall kind p,
    In p (rs_set kw kind) <-> exists l, In l levels /\ Lists l kind p.
  Proof.
    induction 1 as [|l r [U1 U2] Hr IH]; intros kw H kind p.
    - inversion H. cbn. split; [tauto|intros (l & [] & _)].
    - cbn [merge_levels] in H. destruct (merge_levels bld r) as [kw0|e]; [|discriminate]. cbn [rbind] in H.
      specialize (IH kw0 eq_refl kind p). pose proof (merge_entries_step l U1 _ _ H kind) as S. rewrite rs_set_eq in *.
      assert ((forall a, aget l kind = Some (VArr a) -> a = []) -> set_of (aget kw kind) = set_of (aget kw0 kind) ->
              (In p (set_of (aget kw kind)) <-> exists l0, In l0 (l :: r) /\ Lists l0 kind p)) as Other.
      { intros Ha He. rewrite He, IH. split.
        - intros (l0 & X & Y). exists l0. split; [now right|exact Y].
        - intros (l0 & [<-|X] & Y); [|eauto]. exfalso. destruct Y as (a & E & Y). rewrite (Ha _ E) in Y. destruct Y as [[]|(m & [] & _)]. }
      destruct (aget l kind) as [w|] eqn:El.
      + destruct S as [[St E]|S].
        * apply Other; [|rewrite E; reflexivity]. intros a Ea. inversion Ea. subst. destruct a; [reflexivity|discriminate].
        * destruct w; try (apply Other; [congruence|rewrite S; reflexivity]).
          -- destruct S as (Ho & ns & En & E). rewrite E. cbn [set_of]. rewrite fold_add, IH, (names_of_In _ _ En p). split.
             ++ intros [(l1 & X & Y)|X]; [exists l1; split; [now right|auto]|exists l; split; [now left|]]. exists l0. auto.
             ++ intros (l1 & [<-|X] & Y); [right|left; eauto]. destruct Y as (a & E1 & Y). rewrite El in E1. inversion E1. subst. exact Y.
          -- destruct S as (Ho & d' & Em & E). apply Other; [congruence|]. rewrite E. cbn. destruct (aget kw0 kind) as [[|a]|]; try reflexivity. exfalso. eapply Ho; eauto.
      + apply Other; [congruence|now rewrite S].
  Qed.

  (** *** the chain of ancestors *)
  Lemma attr_ok node k v : Attr bld node k v -> attr bld node k = Ok v.
  Proof. intros (c & d & -> & H). unfold attr. destruct (aget d k); [|now subst]. rewrite H. reflexivity. Qed.
  Lemma absent_falsy v : Absent v -> btruthy v = false.
  Proof. intros [->|[->|[c ->]]]; reflexivity. Qed.
  Lemma present_truthy v : Present v -> btruthy v = true.
  Proof. intros (c & d & -> & Hd). destruct d; [contradiction|reflexivity]. Qed.
  Lemma chain_ancestors node lv : Chain bld node lv -> exists n0, (forall n, (n0 <= n)%nat -> ancestors bld n node = Ok lv) /\
    (forall n, (n < n0)%nat -> ancestors bld n node = Err OutOfFuel).
  Proof.
    induction 1 as [node r p lv Hr Hp Ha Hc|node r p lv lv' Hr Hp Hpr _ (n0 & IH & IH2) Hc].
    - exists 1%nat. split.
      + intros n Hn. destruct n as [|n]; [lia|]. cbn [ancestors]. rewrite (attr_ok _ _ _ Hr). cbn [rbind].
        rewrite (attr_ok _ _ _ Hp). cbn [rbind]. rewrite (absent_falsy _ Ha). cbn [rbind].
        destruct Hc as [[Hx ->]|[Hx ->]]; [rewrite (present_truthy _ Hx)|rewrite (absent_falsy _ Hx)]; reflexivity.
      + intros n Hn. destruct n; [reflexivity|lia].
    - exists (S n0). split.
      + intros n Hn. destruct n as [|n]; [lia|]. cbn [ancestors]. rewrite (attr_ok _ _ _ Hr). cbn [rbind].
        rewrite (attr_ok _ _ _ Hp). cbn [rbind]. rewrite (present_truthy _ Hpr). rewrite IH by lia. cbn [rbind].
        destruct Hc as [[Hx ->]|[Hx ->]]; [rewrite (present_truthy _ Hx)|rewrite (absent_falsy _ Hx)]; reflexivity.
      + intros n Hn. destruct n as [|n]; [reflexivity|]. cbn [ancestors]. rewrite (attr_ok _ _ _ Hr). cbn [rbind].
        rewrite (attr_ok _ _ _ Hp). cbn [rbind]. rewrite (present_truthy _ Hpr). rewrite IH2 by lia. reflexivity.
  Qed.
  Lemma mapM_Forall2 {A B} (g : A -> res B) l l' : Forall2 (fun x y => g x = Ok y) l l' -> mapM g l = Ok l'.
  Proof. induction 1 as [|x y l l' E _ IH]; [reflexivity|]. cbn [mapM]. rewrite E. cbn [rbind]. rewrite IH. reflexivity. Qed.
  Lemma aget_filter (kw : resources) kind : In kind rs_fields ->
    aget (filter (fun p => existsb (eqlZ (fst p)) rs_fields) kw) kind = aget kw kind.
  Proof.
    intros Hk. induction kw as [|[k v] kw IH]; [reflexivity|]. cbn [filter fst]. destruct (existsb (eqlZ k) rs_fields) eqn:E.
    - cbn [aget]. destruct (eqlZ kind k); auto.
    - cbn [aget]. destruct (eqlZ kind k) eqn:Ek; [|exact IH]. apply eqlZ_eq in Ek. subst. apply existsb_In in Hk. congruence.
  Qed.
  Lemma from_page_merge n page form lv ls rs : Chain bld page lv -> Forall2 (fun v l => level_items bld v = Ok l) (form ++ lv) ls ->
    from_page bld n page form = Ok rs -> exists kw, merge_levels bld ls = Ok kw /\ amem kw (bs "self") = false /\ rs = filter (fun p => existsb (eqlZ (fst p)) rs_fields) kw.
  Proof.
    intros Hc Hl H. destruct (chain_ancestors _ _ Hc) as (n0 & A & B). unfold from_page in H.
    destruct (Nat.lt_ge_cases n n0) as [Hn|Hn]; [rewrite (B n Hn) in H; discriminate|]. rewrite (A n Hn) in H. cbn [rbind] in H.
    rewrite (mapM_Forall2 _ _ _ Hl) in H. cbn [rbind] in H. destruct (merge_levels bld ls) as [kw|]; [|discriminate]. cbn [rbind] in H.
    destruct (amem kw (bs "self")) eqn:Em; [discriminate|]. inversion H. eauto.
  Qed.
End R.

(** C37.  A name of any kind resolves to the entry of the nearest level defining it - the form's resources if
    any, the page's, its parent's, ... up to the root - and to nothing if no level defines it. *)
Theorem C37_nearest_wins : forall bld n page form lv ls rs kind name v,
  Chain bld page lv -> Forall2 (fun x l => level_items bld x = Ok l) (form ++ lv) ls -> Forall unique_keys ls ->
  from_page bld n page form = Ok rs -> In kind (map bs ["ExtGState"; "ColorSpace"; "Pattern"; "Shading"; "XObject"; "Font"; "ProcSet"; "Properties"]%string) ->
  (aget (rs_dict rs kind) name = Some v <-> Nearest bld kind name v ls).
Proof.
  intros bld n page form lv ls rs kind name v Hc Hl Hu H Hk.
  destruct (from_page_merge _ _ _ _ _ _ _ Hc Hl H) as (kw & E & _ & ->). rewrite rs_dict_eq, (aget_filter kw kind Hk), <- rs_dict_eq.
  now apply nearest_merge.
Qed.
(** Procedure sets are the union over all levels. *)
Theorem C37_procsets_union : forall bld n page form lv ls rs kind p,
  Chain bld page lv -> Forall2 (fun x l => level_items bld x = Ok l) (form ++ lv) ls -> Forall unique_keys ls ->
  from_page bld n page form = Ok rs -> In kind (map bs ["ExtGState"; "ColorSpace"; "Pattern"; "Shading"; "XObject"; "Font"; "ProcSet"; "Properties"]%string) ->
  (In p (rs_set rs kind) <-> exists l, In l ls /\ Lists l kind p).
Proof.
  intros bld n page form lv ls rs kind p Hc Hl Hu H Hk.
  destruct (from_page_merge _ _ _ _ _ _ _ Hc Hl H) as (kw & E & _ & ->). rewrite rs_set_eq, (aget_filter kw kind Hk), <- rs_set_eq.
  eapply sets_merge; eauto.
Qed.

(** It does succeed when each kind is dictionaries everywhere or name arrays everywhere. *)
Lemma merge_entries_ok bld items : NoDup (map fst items) -> forall kw,
  (forall kind v, aget items kind = Some v -> (good_dict bld v /\ forall a, aget kw kind <> Some (RSet a)) \/ (good_array v /\ forall a, aget kw kind <> Some (RDict a))) ->
  exists kw', merge_entries bld kw items = Ok kw'.
Proof.
  induction items as [|[e v] items IH]; intros ND kw H; [eexists; reflexivity|]. cbn [map fst] in ND. inversion ND as [|? ? Hk ND']. subst.
  cbn [merge_entries].
  match goal with |- exists _, rbind ?m _ = _ => assert (exists kw1, m = Ok kw1 /\ forall k, k <> e -> aget kw1 k = aget kw k) as (kw1 & E & Hkeep) end.
  { destruct (btruthy v); cbn [negb]; [|exists kw; auto].
    destruct (H e v) as [[(c & d & -> & Hd) Ho]|[(a & -> & Ha) Ho]]; [cbn [aget]; now rewrite eqlZ_refl| |].
    - destruct (map_vals_fails bld d Hd) as [d' Ed]. destruct (aget kw e) as [[x|x]|] eqn:Ex; try (exfalso; eapply Ho; eauto; fail);
        rewrite Ed; cbn [rbind]; eexists; (split; [reflexivity|]); intros k Hk'; rewrite aget_aset; apply eqlZ_neq in Hk'; now rewrite Hk'.
    - assert (exists ns, names_of a = Ok ns) as [ns Ens].
      { clear - Ha. induction Ha as [|x a [p ->] _ [ns E]]; [eexists; reflexivity|]. cbn [names_of]. rewrite E. eexists. reflexivity. }
      destruct (aget kw e) as [[x|x]|] eqn:Ex; try (exfalso; eapply Ho; eauto; fail);
        rewrite Ens; cbn [rbind]; eexists; (split; [reflexivity|]); intros k Hk'; rewrite aget_aset; apply eqlZ_neq in Hk'; now rewrite Hk'. }
  rewrite E. cbn [rbind]. apply IH; auto. intros kind w Hw.
  assert (kind <> e) as Hne.
  { intros ->. apply Hk. clear - Hw. induction items as [|[k y] d IH]; [discriminate|]. cbn [aget] in Hw. destruct (eqlZ e k) eqn:E'; [apply eqlZ_eq in E'; left; auto|right; auto]. }
  rewrite (Hkeep kind Hne). apply H. cbn [aget]. apply eqlZ_neq in Hne. now rewrite Hne.
Qed.
Lemma amem_aget {V} (kw : list (list Z * V)) k : amem kw k = match aget kw k with Some _ => true | None => false end.
Proof. unfold amem. now destruct (aget kw k). Qed.
Lemma self_less bld ls : Forall unique_keys ls -> no_self ls -> forall kw, merge_levels bld ls = Ok kw -> aget kw (bs "self") = None.
Proof.
  induction 1 as [|l ls [U _] _ IH]; intros Hs kw E; [now inversion E|]. cbn [merge_levels] in E.
  destruct (merge_levels bld ls) as [kw0|]; [|discriminate]. cbn [rbind] in E.
  pose proof (merge_entries_step bld l U _ _ E (bs "self")) as S. rewrite (Hs l (or_introl eq_refl)) in S. rewrite S. apply IH; [|reflexivity].
  intros x Hx. apply Hs. now right.
Qed.
Theorem C37_succeeds : forall bld page form lv ls,
  Chain bld page lv -> Forall2 (fun x l => level_items bld x = Ok l) (form ++ lv) ls -> Forall unique_keys ls -> well_kinded bld ls -> no_self ls ->
  exists n0, forall n, (n0 <= n)%nat -> exists rs, from_page bld n page form = Ok rs.
Proof.
  intros bld page form lv ls Hc Hl Hu Hw Hself. destruct (chain_ancestors _ _ _ Hc) as (n0 & A & _). exists n0. intros n Hn.
  unfold from_page. rewrite (A n Hn). cbn [rbind]. rewrite (mapM_Forall2 _ _ _ Hl). cbn [rbind].
  assert (exists kw, merge_levels bld ls = Ok kw) as [kw Ekw].
  2:{ rewrite Ekw. cbn [rbind]. rewrite amem_aget, (self_less bld ls Hu Hself kw Ekw). eexists. reflexivity. }
  assert (forall r, (forall l, In l r -> In l ls) -> Forall unique_keys r -> exists kw, merge_levels bld r = Ok kw /\
    forall kind, ((forall l v, In l ls -> aget l kind = Some v -> good_dict bld v) -> forall a, aget kw kind <> Some (RSet a)) /\
                 ((forall l v, In l ls -> aget l kind = Some v -> good_array v) -> forall a, aget kw kind <> Some (RDict a))) as G.
  { intros r Hin Hr. induction Hr as [|l r [U1 U2] Hr IH]; [exists []; split; [reflexivity|]; intros kind; split; intros _ a; discriminate|].
    destruct IH as (kw0 & E0 & P0); [intros; apply Hin; now right|]. cbn [merge_levels]. rewrite E0. cbn [rbind].
    destruct (merge_entries_ok bld l U1 kw0) as [kw E].
    { intros kind v Hv. assert (In l ls) as Hls by (apply Hin; now left). destruct (P0 kind) as [P1 P2]. destruct (Hw kind) as [W|W]; [left|right]; split; eauto. }
    exists kw. split; [exact E|]. intros kind. pose proof (merge_entries_step bld l U1 _ _ E kind) as S. destruct (P0 kind) as [P1 P2].
    assert (In l ls) as Hls by (apply Hin; now left).
    destruct (aget l kind) as [w|] eqn:El.
    - split; intros W a X.
      + destruct (W l w Hls El) as (c & d & -> & _). destruct S as [[_ S]|(Ho & d' & _ & S)]; rewrite S in X; [eapply P1; eauto|discriminate].
      + destruct (W l w Hls El) as (c & -> & _). destruct S as [[_ S]|(Ho & d' & _ & S)]; rewrite S in X; [eapply P2; eauto|discriminate].
    - rewrite S. auto. }
  destruct (G ls (fun l H => H) Hu) as (kw & E & _). eauto.
Qed.
(** But a kind called "self" anywhere on the way up breaks the page: no resources, only an exception. *)
Theorem C37_kind_named_self : forall bld n page form lv ls l v rs,
  Chain bld page lv -> Forall2 (fun x l => level_items bld x = Ok l) (form ++ lv) ls -> Forall unique_keys ls ->
  In l ls -> aget l (bs "self") = Some v -> Present v -> from_page bld n page form <> Ok rs.
Proof.
  intros bld n page form lv ls l v rs Hc Hl Hu Hin Hs Hp H. destruct (from_page_merge _ _ _ _ _ _ _ Hc Hl H) as (kw & E & Hm & _).
  rewrite amem_aget in Hm. clear Hc Hl H. assert (aget kw (bs "self") <> None) as HX; [|destruct (aget kw (bs "self")); [discriminate|contradiction]].
  clear Hm. revert kw E. induction Hu as [|l0 ls [U _] Hu IH]; [contradiction|]. intros kw E. cbn [merge_levels] in E.
  destruct (merge_levels bld ls) as [kw0|]; [|discriminate]. cbn [rbind] in E.
  pose proof (merge_entries_step bld l0 U _ _ E (bs "self")) as S. destruct Hin as [->|Hin].
  - rewrite Hs in S. destruct Hp as (c & d & -> & Hd). destruct S as [[S _]|(_ & d' & _ & ->)]; [destruct d; [contradiction|discriminate]|discriminate].
  - specialize (IH Hin _ eq_refl). destruct (aget l0 (bs "self")) as [w|]; [|now rewrite S].
    destruct S as [[_ ->]|S]; [exact IH|]. destruct w; try (rewrite S; exact IH); destruct S as (_ & x & _ & ->); discriminate.
Qed.
(** A chain of parents that comes back never ends: no page tree, but nothing in the code stops it. *)
Theorem C37_parent_cycle_hangs : forall bld (S : bv -> Prop) page form,
  (forall x, S x -> (exists r, Attr bld x (bs "Resources") r) /\ exists p, Attr bld x (bs "Parent") p /\ Present p /\ S p) ->
  S page -> forall n, from_page bld n page form = Err OutOfFuel.
Proof.
  intros bld S page form HS Hp n.
  assert (ancestors bld n page = Err OutOfFuel) as E; [|unfold from_page; rewrite E; reflexivity].
  revert page Hp. induction n as [|n IH]; intros page Hp; [reflexivity|]. destruct (HS _ Hp) as [[r Hr] (p & Ha & Hpr & Hsp)].
  cbn [ancestors]. rewrite (attr_ok _ _ _ _ Hr). cbn [rbind]. rewrite (attr_ok _ _ _ _ Ha). cbn [rbind]. rewrite (present_truthy _ Hpr).
  rewrite (IH p Hsp). reflexivity.
Qed.

(** Resources that cannot be read (the page has no parent): a KeyError while reading the page's entry is swallowed, the page then
    counts as having no resources; other exceptions, and resources that are no dictionary, break the page. *)
Theorem C37_unreadable : forall bld n c d x form, aget d (bs "Resources") = None -> aget d (bs "Parent") = None ->
  let page := VDict (Some c) ((bs "Resources", x) :: d) in
  (bld x = Err KeyErr -> from_page bld (S n) page form = from_page bld (S n) (VDict (Some c) d) form) /\
  (forall e, bld x = Err e -> e <> KeyErr -> from_page bld (S n) page form = Err e) /\
  (forall v, bld x = Ok v -> btruthy v = true -> (forall c' d', v <> VDict (Some c') d') ->
     from_page bld (S n) page [] = Err (match v with VStm _ _ _ => TypeErr | _ => AttributeErr end)).
Proof.
  intros bld n c d x form HR HP page.
  assert (aget ((bs "Resources", x) :: d) (bs "Resources") = Some x) as A1 by reflexivity.
  assert (aget ((bs "Resources", x) :: d) (bs "Parent") = aget d (bs "Parent")) as A2 by reflexivity.
  unfold page, from_page. cbn [ancestors attr]. rewrite A1, A2, HR, HP. cbn [rbind]. change (btruthy (VAtom ONull)) with false. cbv beta iota. split; [|split].
  - intros ->. reflexivity.
  - intros e -> He. destruct e; try reflexivity. now destruct He.
  - intros v -> Hv Hd. cbn [rbind]. rewrite Hv. cbn [app mapM rbind]. destruct v as [a|n0 g0|l|[c1|] d1|[c1|] d1 data]; try reflexivity. now destruct (Hd c1 d1).
Qed.
Example C37_unreadable_ex : let bld := fun v => match v with VRef 1 0 => Err KeyErr | VRef 2 0 => Err ValueErr | v => Ok v end in
  let page x := VDict (Some (bs "Page")) [(bs "Resources", x)] in
  from_page bld 1 (page (VRef 1 0)) [] = Ok [] /\ from_page bld 1 (page (VRef 2 0)) [] = Err ValueErr /\
  from_page bld 1 (page (VAtom (OName (bs "X")))) [] = Err AttributeErr.
Proof. vm_compute. repeat split. Qed.

(** e.g. a page whose F1 hides its parent's, and that inherits F2 *)
Definition exb (x : bv) : res bv := match x with VDict _ d => Ok (VDict (Some []) d) | _ => Ok x end.
Definition fonts (l : list (string * Z)) : bv := VDict (Some []) [(bs "Font", VDict (Some []) (map (fun p => (bs (fst p), VAtom (OInt (snd p)))) l))].
Definition ex_parent : bv := VDict (Some (bs "Pages")) [(bs "Resources", fonts [("F1", 1); ("F2", 2)])]%string.
Definition ex_page : bv := VDict (Some (bs "Page")) [(bs "Resources", fonts [("F1", 7)]); (bs "Parent", VDict (Some []) [(bs "Resources", fonts [("F1", 1); ("F2", 2)])])]%string.
Definition ex_levels : list level := [[(bs "Font", VDict (Some []) [(bs "F1", VAtom (OInt 7))])]; [(bs "Font", VDict (Some []) [(bs "F1", VAtom (OInt 1)); (bs "F2", VAtom (OInt 2))])]].
Example C37_ex : exists lv rs, Chain exb ex_page lv /\ Forall2 (fun x l => level_items exb x = Ok l) ([] ++ lv) ex_levels /\ Forall unique_keys ex_levels /\
  well_kinded exb ex_levels /\ no_self ex_levels /\ from_page exb 5 ex_page [] = Ok rs /\
  aget (rs_dict rs (bs "Font")) (bs "F1") = Some (VAtom (OInt 7)) /\ aget (rs_dict rs (bs "Font")) (bs "F2") = Some (VAtom (OInt 2)).
Proof.
  exists [fonts [("F1", 7)]; fonts [("F1", 1); ("F2", 2)]]%string, [(bs "Font", RDict [(bs "F1", VAtom (OInt 7)); (bs "F2", VAtom (OInt 2))])].
  split.
  - eapply Ch_up with (p := VDict (Some []) [(bs "Resources", fonts [("F1", 1); ("F2", 2)])]%string).
    + exists (bs "Page"), [(bs "Resources", fonts [("F1", 7)]); (bs "Parent", VDict (Some []) [(bs "Resources", fonts [("F1", 1); ("F2", 2)])])]%string. split; reflexivity.
    + exists (bs "Page"), [(bs "Resources", fonts [("F1", 7)]); (bs "Parent", VDict (Some []) [(bs "Resources", fonts [("F1", 1); ("F2", 2)])])]%string. split; reflexivity.
    + exists (Some []), [(bs "Resources", fonts [("F1", 1); ("F2", 2)])]%string. split; [reflexivity|discriminate].
    + eapply Ch_root with (p := VAtom ONull).
      * exists [], [(bs "Resources", fonts [("F1", 1); ("F2", 2)])]%string. split; reflexivity.
      * exists [], [(bs "Resources", fonts [("F1", 1); ("F2", 2)])]%string. split; reflexivity.
      * now left.
      * left. split; [|reflexivity]. eexists _, _. split; [reflexivity|discriminate].
    + left. split; [|reflexivity]. eexists _, _. split; [reflexivity|discriminate].
  - split; [repeat constructor|]. split.
    + repeat constructor; cbn; try (intros [X|[]]; discriminate); try tauto; intros kind c d H;
        destruct (eqlZ kind _); inversion H; subst; repeat constructor; cbn; try (intros [X|[]]; discriminate); tauto.
    + split; [|split; [intros l [<-|[<-|[]]]; reflexivity|split; [vm_compute; reflexivity|split; vm_compute; reflexivity]]].
      intros kind. left. intros l v [<-|[<-|[]]] H; cbn [aget] in H; destruct (eqlZ kind _); inversion H; subst; eexists _, _; (split; [reflexivity|]).
      * intros k x [E|[]]. inversion E. subst. eexists. reflexivity.
      * intros k x [E|[E|[]]]; inversion E; subst; eexists; reflexivity.
Qed.

Print Assumptions C37_nearest_wins.
Print Assumptions C37_procsets_union.
Print Assumptions C37_kind_named_self.
Print Assumptions C37_succeeds.
Print Assumptions C37_parent_cycle_hangs.
Print Assumptions C37_unreadable.
