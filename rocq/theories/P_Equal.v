(** C109: == on parsed values. *)
From Coq Require Import String.
From Verif Require Import Prelude M_Parser L_Print M_Equal.
Local Open Scope Z_scope.

(** *** The specification *)
(** Direct values, as arrays and dictionaries hold them; a key is in a dictionary once. *)
Inductive Direct : obj -> Prop :=
| D_null : Direct ONull
| D_bool b : Direct (OBool b)
| D_int z : Direct (OInt z)
| D_real n c e : Direct (OReal n c e)
| D_name s : Direct (OName s)
| D_str s : Direct (OStr s)
| D_hex s : Direct (OHex s)
| D_ref n g : Direct (ORef n g)
| D_arr l : Forall Direct l -> Direct (OArr l)
| D_dict d : Forall (fun kv => Direct (snd kv)) d -> NoDup (map fst d) -> Direct (ODict d).
(** [number v m e]: v is the number m * 10 ^ e *)
Inductive number : obj -> Z -> Z -> Prop :=
| N_true : number (OBool true) 1 0
| N_false : number (OBool false) 0 0
| N_int z : number (OInt z) z 0
| N_pos c e : number (OReal false c e) c e
| N_neg c e : number (OReal true c e) (- c) e.
Inductive text : obj -> list Z -> Prop :=
| T_name s : text (OName s) s
| T_hex s : text (OHex s) s.
(** The same numbers, texts, bytes, references; arrays of the same items in the same order; dictionaries with the same items under the
    same keys. *)
Inductive Same : obj -> obj -> Prop :=
| S_null : Same ONull ONull
| S_number a b m e m' e' k : number a m e -> number b m' e' -> 0 <= e + k -> 0 <= e' + k -> m * 10 ^ (e + k) = m' * 10 ^ (e' + k) -> Same a b
| S_text a b s : text a s -> text b s -> Same a b
| S_str s : Same (OStr s) (OStr s)
| S_ref n g : Same (ORef n g) (ORef n g)
| S_arr l l' : Forall2 Same l l' -> Same (OArr l) (OArr l')
| S_dict d d' : (forall k v, dget d k = Some v -> exists v', dget d' k = Some v' /\ Same v v') ->
    (forall k v', dget d' k = Some v' -> dget d k <> None) -> Same (ODict d) (ODict d').

(** *** Lemmas *)
Lemma number_num v m e : number v m e <-> num_of v = Some (m, e).
Proof.
  split; [intros []; reflexivity|]. destruct v as [|[]|z|[] c x|s|s|s|l|d|d data|n g|s|d data]; cbn [num_of]; try discriminate; intros H; injection H; intros <- <-; constructor.
Qed.
Lemma num_eq_spec m e m' e' : num_eq (m, e) (m', e') = true <-> exists k, 0 <= e + k /\ 0 <= e' + k /\ m * 10 ^ (e + k) = m' * 10 ^ (e' + k).
Proof.
  unfold num_eq. cbn [fst snd]. rewrite Z.eqb_eq. split.
  - intros H. exists (- Z.min e e'). rewrite <- !Z.sub_opp_r, Z.opp_involutive. repeat split; [lia..|exact H].
  - intros (k & H1 & H2 & H3). set (n := Z.min e e') in *.
    assert (0 <= n + k) by (unfold n; lia). assert (0 <= e - n) by (unfold n; lia). assert (0 <= e' - n) by (unfold n; lia).
    replace (e + k) with ((e - n) + (n + k)) in H3 by lia. replace (e' + k) with ((e' - n) + (n + k)) in H3 by lia.
    rewrite (Z.pow_add_r 10 (e - n) (n + k)), (Z.pow_add_r 10 (e' - n) (n + k)), !Z.mul_assoc in H3 by lia. apply Z.mul_reg_r in H3; [exact H3|]. apply Z.pow_nonzero; lia.
Qed.
Lemma dget_In d k v : dget d k = Some v -> In (k, v) d.
Proof. induction d as [|[k' v'] d IH]; cbn [dget]; [discriminate|]. destruct (eqlZ k k') eqn:E; [intros H; injection H; intros <-; apply eqlZ_eq in E; subst; now left|intros H; right; auto]. Qed.
Lemma dget_key d k : In k (map fst d) <-> dget d k <> None.
Proof.
  induction d as [|[k' v'] d IH]; cbn [dget map fst In]; [tauto|]. destruct (eqlZ k k') eqn:E.
  - apply eqlZ_eq in E. subst. split; [discriminate|now left].
  - apply eqlZ_neq in E. rewrite <- IH. intuition congruence.
Qed.
Lemma dget_nodup d k v : NoDup (map fst d) -> In (k, v) d -> dget d k = Some v.
Proof.
  induction d as [|[k' v'] d IH]; cbn [dget map fst]; [intros _ []|]. intros HN HI. inversion HN as [|? ? HN1 HN2]; subst. destruct HI as [HI|HI].
  - injection HI; intros -> ->. now rewrite eqlZ_refl.
  - destruct (eqlZ k k') eqn:E; [|auto]. apply eqlZ_eq in E. subst. exfalso. apply HN1. change k' with (fst (k', v)). now apply in_map.
Qed.

Definition list_eq := fix go (l l' : list obj) {struct l} : res bool :=
  match l, l' with
  | x :: r, y :: r' => rbind (py_eq x y) (fun q => if q : bool then go r r' else Ok false)
  | _, _ => Ok true
  end.
Definition dict_eq := fix go (d d' : dict) {struct d} : res bool :=
  match d with
  | [] => Ok true
  | (k, v) :: r => match dget d' k with
                   | None => Ok false
                   | Some w => rbind (py_eq v w) (fun q => if q : bool then go r d' else Ok false)
                   end
  end.
Lemma py_arr l b : py_eq (OArr l) b = match b with ORef _ _ | OStream _ _ => Err AttributeErr | OArr l' => if zlen l =? zlen l' then list_eq l l' else Ok false | _ => Ok false end.
Proof. reflexivity. Qed.
Lemma py_dict d b : py_eq (ODict d) b = match b with ORef _ _ | OStream _ _ => Err AttributeErr | ODict d' => if zlen d =? zlen d' then dict_eq d d' else Ok false | _ => Ok false end.
Proof. reflexivity. Qed.
Lemma py_stm d data b : py_eq (OStream d data) b = match b with OStream d' data' => if zlen d =? zlen d' then rbind (dict_eq d d') (fun q => Ok (q && eqlZ data data')) else Ok false | _ => Err AttributeErr end.
Proof. reflexivity. Qed.

Lemma dict_true d d' : dict_eq d d' = Ok true <-> Forall (fun kv => exists w, dget d' (fst kv) = Some w /\ py_eq (snd kv) w = Ok true) d.
Proof.
  induction d as [|[k v] d IH]; cbn [dict_eq]; [split; [constructor|reflexivity]|]. split.
  - destruct (dget d' k) as [w|] eqn:E; [|discriminate]. destruct (py_eq v w) as [[]|] eqn:E2; cbn [rbind]; try discriminate. intros H. constructor; [exists w; auto|now apply IH].
  - intros H. apply Forall_cons_iff in H. destruct H as [(w & E1 & E2) H]. cbn [fst snd] in E1, E2. rewrite E1, E2. cbn [rbind]. now apply IH.
Qed.
Lemma list_true l : forall l', List.length l = List.length l' -> (list_eq l l' = Ok true <-> Forall2 (fun x y => py_eq x y = Ok true) l l').
Proof.
  induction l as [|x l IH]; intros [|y l'] HL; try discriminate HL; cbn [list_eq]; [split; [constructor|reflexivity]|]. injection HL; intros HL'. split.
  - destruct (py_eq x y) as [[]|] eqn:E2; cbn [rbind]; try discriminate. intros H. constructor; [exact E2|now apply IH].
  - intros H. inversion H as [|? ? ? ? H1 H2]; subst. rewrite H1. cbn [rbind]. now apply IH.
Qed.
Lemma zlen_eq {A B} (l : list A) (l' : list B) : (zlen l =? zlen l') = true <-> List.length l = List.length l'.
Proof. unfold zlen. rewrite Z.eqb_eq. lia. Qed.
Lemma keys_both (d d' : dict) : NoDup (map fst d) -> NoDup (map fst d') -> incl (map fst d) (map fst d') ->
  (List.length d = List.length d' <-> incl (map fst d') (map fst d)).
Proof.
  intros N1 N2 I. split.
  - intros HL. apply NoDup_length_incl; [exact N1|rewrite !map_length; lia|exact I].
  - intros I'. pose proof (NoDup_incl_length N1 I) as H1. pose proof (NoDup_incl_length N2 I') as H2. rewrite !map_length in H1, H2. lia.
Qed.

Definition atomic (v : obj) : Prop := match v with ORef _ _ | OArr _ | ODict _ | OStream _ _ | OInline _ _ => False | _ => True end.
Lemma atom_same a b : Direct a -> Direct b -> atomic a -> atomic b -> (atom_eq a b = true <-> Same a b).
Proof.
  intros Da Db Aa Ab. unfold atom_eq. destruct (num_of a) as [[m e]|] eqn:Na.
  - destruct (num_of b) as [[m' e']|] eqn:Nb.
    + rewrite num_eq_spec. apply number_num in Na, Nb. split; [intros (k & H1 & H2 & H3); eapply S_number; eauto|].
      intros H. inversion H as [|? ? m1 e1 m2 e2 k H1 H2 H3 H4 H5|? ? s H1 H2|s H1 H2|n g H1 H2|l l' H1 H2 H3|d d' H1 H2 H3 H4]; subst; try (now inversion Na).
      * apply number_num in Na, H1, Nb, H2. rewrite Na in H1. rewrite Nb in H2. injection H1; intros -> ->. injection H2; intros -> ->. exists k; auto.
      * destruct H1; inversion Na.
    + assert (text_of a = None) as Ta by (destruct a; try discriminate Na; reflexivity). rewrite Ta.
      split; [destruct a; try discriminate Na; discriminate|]. intros H. exfalso. apply number_num in Na.
      inversion H as [|? ? m1 e1 m2 e2 k H1 H2 H3 H4 H5|? ? s H1 H2|s H1 H2|n g H1 H2|l l' H1 H2 H3|d d' H1 H2 H3 H4]; subst; try (now inversion Na).
      * apply number_num in H2. congruence.
      * destruct H1; inversion Na.
  - destruct (text_of a) as [s|] eqn:Ta.
    + assert (text a s) as Ta' by (destruct Da; try discriminate Ta; injection Ta; intros <-; constructor).
      assert (text_of b = Some s -> text b s) as Tb' by (intros Tb; destruct Db; try discriminate Tb; injection Tb; intros <-; constructor).
      split.
      * intros H. assert (text_of b = Some s) as Tb.
        { destruct (text_of b) as [t|] eqn:Tb; [apply eqlZ_eq in H; now subst|]. destruct a, b; try discriminate Ta; try discriminate H. }
        eapply S_text; eauto.
      * intros H. inversion H as [|? ? m1 e1 m2 e2 k H1 H2 H3 H4 H5|? ? s1 H1 H2|s1 H1 H2|n g H1 H2|l l' H1 H2 H3|d d' H1 H2 H3 H4]; subst; try discriminate Ta; try contradiction.
        -- apply number_num in H1. congruence.
        -- assert (s1 = s) as -> by (destruct H1; injection Ta; congruence). destruct H2; cbn [text_of]; apply eqlZ_refl.
    + split.
      * intros H. destruct a, b; try discriminate H; try discriminate Ta; try discriminate Na; cbn [num_of text_of] in H; try contradiction; try constructor. apply eqlZ_eq in H. subst. constructor.
      * intros H. inversion H as [|? ? m1 e1 m2 e2 k H1 H2 H3 H4 H5|? ? s1 H1 H2|s1 H1 H2|n g H1 H2|l l' H1 H2 H3|d d' H1 H2 H3 H4]; subst; try contradiction; cbn [num_of text_of]; try reflexivity.
        -- apply number_num in H1. congruence.
        -- destruct H1; discriminate Ta.
        -- apply eqlZ_refl.
Qed.
Lemma py_atom a b : atomic a -> py_eq a b = match b with ORef _ _ | OStream _ _ => Err AttributeErr | _ => Ok (atom_eq a b) end.
Proof. destruct a; try contradiction; reflexivity. Qed.
Lemma same_kind a b : Same a b -> (atomic a <-> atomic b).
Proof.
  intros H. inversion H as [|? ? m1 e1 m2 e2 k H1 H2 H3 H4 H5|? ? s H1 H2|s H1 H2|n g H1 H2|l l' H1 H2 H3|d d' H1 H2 H3 H4]; subst; cbn [atomic]; try tauto.
  - destruct H1, H2; cbn; tauto.
  - destruct H1, H2; cbn; tauto.
Qed.
Lemma same_dict_inv d b : Same (ODict d) b -> exists d', b = ODict d' /\ (forall k v, dget d k = Some v -> exists v', dget d' k = Some v' /\ Same v v') /\
    (forall k v', dget d' k = Some v' -> dget d k <> None).
Proof.
  intros H. inversion H as [|? ? m1 e1 m2 e2 k H1 H2 H3 H4 H5|? ? s H1 H2|s H1 H2|n g H1 H2|l l' H1 H2 H3|d0 d' H1 H2 H3 H4]; subst; [inversion H1|inversion H1|]. eauto.
Qed.
Lemma same_arr_inv l b : Same (OArr l) b -> exists l', b = OArr l' /\ Forall2 Same l l'.
Proof.
  intros H. inversion H as [|? ? m1 e1 m2 e2 k H1 H2 H3 H4 H5|? ? s H1 H2|s H1 H2|n g H1 H2|l0 l' H1 H2 H3|d0 d' H1 H2 H3 H4]; subst; [inversion H1|inversion H1|]. eauto.
Qed.
Lemma same_ref_inv n g b : Same (ORef n g) b -> b = ORef n g.
Proof.
  intros H. inversion H as [|? ? m1 e1 m2 e2 k H1 H2 H3 H4 H5|? ? s H1 H2|s H1 H2|n0 g0 H1 H2|l0 l' H1 H2 H3|d0 d' H1 H2 H3 H4]; subst; [inversion H1|inversion H1|reflexivity].
Qed.

Lemma dicts_same d d' : Forall (fun kv => forall b, Direct (snd kv) -> Direct b -> (py_eq (snd kv) b = Ok true <-> Same (snd kv) b)) d ->
  Direct (ODict d) -> Direct (ODict d') -> ((zlen d =? zlen d') = true /\ dict_eq d d' = Ok true <-> Same (ODict d) (ODict d')).
Proof.
  intros IH Da Db. inversion Da as [| | | | | | | | |? F1 N1]; inversion Db as [| | | | | | | | |? F2 N2]; subst. rewrite zlen_eq, dict_true. rewrite Forall_forall in IH, F1, F2.
  assert (forall k v, dget d' k = Some v -> Direct v) as HD by (intros k v Hk; apply dget_In in Hk; apply (F2 _ Hk)).
  split.
  - intros [HL HF]. rewrite Forall_forall in HF. constructor.
    + intros k v Hk. apply dget_In in Hk. destruct (HF _ Hk) as (w & E1 & E2). cbn [fst snd] in *. exists w. split; [exact E1|]. apply (IH _ Hk); [apply (F1 _ Hk)|now apply (HD k)|exact E2].
    + intros k v' Hk. apply dget_key. assert (incl (map fst d) (map fst d')) as HI.
      { intros x Hx. apply in_map_iff in Hx. destruct Hx as ([k1 v1] & <- & Hx). destruct (HF _ Hx) as (w & E1 & _). apply dget_key. cbn [fst] in *. congruence. }
      apply (proj1 (keys_both d d' N1 N2 HI) HL). apply dget_key. congruence.
  - intros H. apply same_dict_inv in H. destruct H as (d0 & X & H1 & H2). injection X; intros <-. split.
    + assert (incl (map fst d) (map fst d')) as HI.
      { intros x Hx. apply dget_key in Hx. destruct (dget d x) as [v|] eqn:E; [|contradiction]. destruct (H1 _ _ E) as (v' & E' & _). apply dget_key. congruence. }
      apply (keys_both d d' N1 N2 HI). intros x Hx. apply dget_key in Hx. destruct (dget d' x) as [v|] eqn:E; [|contradiction]. apply dget_key. now apply (H2 _ v).
    + apply Forall_forall. intros [k v] Hk. cbn [fst snd]. destruct (H1 k v (dget_nodup _ _ _ N1 Hk)) as (v' & E & HS). exists v'. split; [exact E|].
      apply (IH _ Hk); [apply (F1 _ Hk)|now apply (HD k)|exact HS].
Qed.

Lemma ok_true b : Ok b = Ok true <-> b = true.
Proof. destruct b; split; try reflexivity; discriminate. Qed.

(** C109.  == holds between two values exactly if they are the same. *)
Theorem C109_equal : forall a b, Direct a -> Direct b -> (py_eq a b = Ok true <-> Same a b).
Proof.
  induction a as [|x|z|n c e|s|s|s|l IH|d IH|d data IH|n g|s|d data IH] using obj_ind2; intros b Da Db;
    try (rewrite py_atom by exact I; destruct b as [|x'|z'|n' c' e'|s'|s'|s'|l'|d'|d' data'|n' g'|s'|d' data'];
         try (rewrite <- (atom_same _ _ Da Db I I); apply ok_true);
         (split; [intros H; exfalso; try discriminate H; inversion Db|intros H; apply same_kind in H; cbn [atomic] in H; tauto])).
  - rewrite py_arr. inversion Da as [| | | | | | | |? F1|]; subst. split.
    + destruct b as [|x'|z'|n' c' e'|s'|s'|s'|l'|d'|d' data'|n' g'|s'|d' data']; try discriminate. destruct (zlen l =? zlen l') eqn:EL; [|discriminate].
      apply zlen_eq in EL. intros H. apply (list_true _ _ EL) in H. inversion Db as [| | | | | | | |? F2|]; subst. constructor. clear EL Da Db. revert l' H F2. induction l as [|x l IHl]; intros l' H F2.
      * inversion H; constructor.
      * inversion H as [|? y ? l2 H1 H2]; subst. apply Forall_cons_iff in IH, F1, F2. destruct IH as [Ix IH], F1 as [Dx F1], F2 as [Dy F2]. constructor; [now apply Ix|now apply IHl].
    + intros H. apply same_arr_inv in H. destruct H as (l' & -> & H). inversion Db as [| | | | | | | |? F2|]; subst.
      assert (List.length l = List.length l') as EL by (clear - H; induction H; cbn; [reflexivity|now f_equal]). rewrite (proj2 (zlen_eq l l') EL). apply (list_true _ _ EL). clear EL Da Db. revert l' H F2.
      induction l as [|x l IHl]; intros l' H F2.
      * inversion H; constructor.
      * inversion H as [|? y ? l2 H1 H2]; subst. apply Forall_cons_iff in IH, F1, F2. destruct IH as [Ix IH], F1 as [Dx F1], F2 as [Dy F2]. constructor; [now apply Ix|now apply IHl].
  - rewrite py_dict. split.
    + destruct b as [|x'|z'|n' c' e'|s'|s'|s'|l'|d'|d' data'|n' g'|s'|d' data']; try discriminate. destruct (zlen d =? zlen d') eqn:EL; [|discriminate].
      intros H. now apply (dicts_same d d' IH Da Db).
    + intros H. pose proof H as H'. apply same_dict_inv in H'. destruct H' as (d' & -> & _). apply (dicts_same d d' IH Da Db) in H. destruct H as [-> H]. exact H.
  - inversion Da.
  - cbn [py_eq]. split.
    + destruct b as [|x'|z'|n' c' e'|s'|s'|s'|l'|d'|d' data'|n' g'|s'|d' data']; try discriminate; [inversion Db|]. intros H. injection H. intros H'.
      apply andb_true_iff in H'. destruct H' as [E1 E2]. apply Z.eqb_eq in E1, E2. subst. constructor.
    + intros H. apply same_ref_inv in H. subst. now rewrite !Z.eqb_refl.
  - inversion Da.
Qed.
Theorem C109_streams : forall d data d' data', Direct (ODict d) -> Direct (ODict d') ->
  (py_eq (OStream d data) (OStream d' data') = Ok true <-> Same (ODict d) (ODict d') /\ data = data').
Proof.
  intros d data d' data' Da Db. rewrite <- (C109_equal _ _ Da Db), py_stm, py_dict. destruct (zlen d =? zlen d'); [|split; [discriminate|intros [H _]; discriminate H]].
  destruct (dict_eq d d') as [[]|]; cbn [rbind andb].
  - split; [intros H; split; [reflexivity|]; injection H; now rewrite eqlZ_eq|intros [_ <-]; now rewrite eqlZ_refl].
  - split; [discriminate|intros [H _]; discriminate H].
  - split; [discriminate|intros [H _]; discriminate H].
Qed.

(** It never fails in another way than by AttributeError, and that only if there are references. *)
Inductive Without : obj -> Prop :=
| W_atom v : atomic v -> Without v
| W_arr l : Forall Without l -> Without (OArr l)
| W_dict d : Forall (fun kv => Without (snd kv)) d -> Without (ODict d).
Lemma py_result a : forall b, Direct a -> Direct b -> (exists q, py_eq a b = Ok q) \/ (py_eq a b = Err AttributeErr /\ ~ (Without a /\ Without b)).
Proof.
  assert (forall b, Direct b -> match b with OStream _ _ => False | _ => True end) as HS by (intros b []; exact I).
  assert (forall d, Without (ODict d) -> forall kv, In kv d -> Without (snd kv)) as WD.
  { intros d H kv Hk. inversion H as [v X|l X|d0 X]; subst; [destruct X|]. rewrite Forall_forall in X. now apply X. }
  assert (forall l, Without (OArr l) -> Forall Without l) as WL.
  { intros l H. inversion H as [v X|l0 X|d0 X]; subst; [destruct X|exact X]. }
  assert (forall n g, ~ Without (ORef n g)) as WR by (intros n g H; inversion H as [v X|l0 X|d0 X]; subst; destruct X).
  induction a as [|x|z|n c e|s|s|s|l IH|d IH|d data IH|n g|s|d data IH] using obj_ind2; intros b Da Db; pose proof (HS b Db) as Hb;
    try (rewrite py_atom by exact I; destruct b; try contradiction; try (left; eexists; reflexivity); right; split; [reflexivity|intros [_ H]; exact (WR _ _ H)]).
  - rewrite py_arr. destruct b as [|x'|z'|n' c' e'|s'|s'|s'|l'|d'|d' data'|n' g'|s'|d' data']; try contradiction; try (left; eexists; reflexivity); [|right; split; [reflexivity|intros [_ H]; exact (WR _ _ H)]].
    destruct (zlen l =? zlen l'); [|left; eexists; reflexivity]. inversion Da as [| | | | | | | |? F1|]; inversion Db as [| | | | | | | |? F2|]; subst.
    assert ((exists q, list_eq l l' = Ok q) \/ (list_eq l l' = Err AttributeErr /\ ~ (Forall Without l /\ Forall Without l'))) as HL.
    { clear Da Db Hb. revert l' F2. induction l as [|x l IHl]; intros [|y l'] F2; cbn [list_eq]; try (left; eexists; reflexivity).
      apply Forall_cons_iff in IH, F1, F2. destruct IH as [Ix IH], F1 as [Dx F1], F2 as [Dy F2]. destruct (Ix y Dx Dy) as [([] & E)|[E N]]; rewrite E; cbn [rbind].
      - destruct (IHl IH F1 l' F2) as [(q & E')|[E' N']]; [left; eauto|right; split; [exact E'|]]. intros [H1 H2]. apply Forall_cons_iff in H1, H2. tauto.
      - left; eexists; reflexivity.
      - right; split; [reflexivity|]. intros [H1 H2]. apply Forall_cons_iff in H1, H2. tauto. }
    destruct HL as [HL|[HL N]]; [left; exact HL|right; split; [exact HL|]]. intros [H1 H2]. apply N. auto.
  - rewrite py_dict. destruct b as [|x'|z'|n' c' e'|s'|s'|s'|l'|d'|d' data'|n' g'|s'|d' data']; try contradiction; try (left; eexists; reflexivity); [|right; split; [reflexivity|intros [_ H]; exact (WR _ _ H)]].
    destruct (zlen d =? zlen d'); [|left; eexists; reflexivity]. inversion Da as [| | | | | | | | |? F1 N1]; inversion Db as [| | | | | | | | |? F2 N2]; subst.
    rewrite Forall_forall in F2.
    assert ((exists q, dict_eq d d' = Ok q) \/ (dict_eq d d' = Err AttributeErr /\ ~ ((forall kv, In kv d -> Without (snd kv)) /\ (forall kv, In kv d' -> Without (snd kv))))) as HL.
    { clear Da Db Hb N1. induction d as [|[k v] d IHd]; cbn [dict_eq]; [left; eexists; reflexivity|].
      apply Forall_cons_iff in IH, F1. destruct IH as [Ix IH], F1 as [Dx F1]. cbn [snd] in Ix, Dx. destruct (dget d' k) as [w|] eqn:E; [|left; eexists; reflexivity].
      apply dget_In in E. destruct (Ix w Dx (F2 _ E)) as [([] & E1)|[E1 N]]; rewrite E1; cbn [rbind].
      - destruct (IHd IH F1) as [(q & E')|[E' N']]; [left; eauto|right; split; [exact E'|]]. intros [H1 H2]. apply N'. split; [intros kv Hk; apply H1; now right|exact H2].
      - left; eexists; reflexivity.
      - right; split; [reflexivity|]. intros [H1 H2]. apply N. split; [apply (H1 (k, v)); now left|apply (H2 (k, w)); exact E]. }
    destruct HL as [HL|[HL N]]; [left; exact HL|right; split; [exact HL|]]. intros [H1 H2]. apply N. split; [now apply WD|now apply WD].
  - inversion Da.
  - cbn [py_eq]. destruct b; try contradiction; try (right; split; [reflexivity|intros [H _]; exact (WR _ _ H)]). left; eexists; reflexivity.
  - inversion Da.
Qed.
Theorem C109_result : forall a b, Direct a -> Direct b ->
  (py_eq a b = Ok true \/ py_eq a b = Ok false \/ py_eq a b = Err AttributeErr) /\
  (Without a -> Without b -> ~ Same a b -> py_eq a b = Ok false).
Proof.
  intros a b Da Db. destruct (py_result a b Da Db) as [([] & E)|[E N]].
  - split; [now left|]. intros _ _ HN. exfalso. apply HN. now apply C109_equal.
  - split; [right; now left|auto].
  - split; [right; now right|]. intros H1 H2. exfalso. tauto.
Qed.

(** == is an equivalence. *)
Lemma same_refl a : Direct a -> Same a a.
Proof.
  induction a as [|x|z|n c e|s|s|s|l IH|d IH|d data IH|n g|s|d data IH] using obj_ind2; intros Da; try (now inversion Da).
  - constructor.
  - destruct x; eapply (S_number _ _ _ 0 _ 0 0); try constructor; lia.
  - eapply (S_number _ _ z 0 z 0 0); try constructor; lia.
  - destruct n; [apply (S_number _ _ (- c) e (- c) e (- e))|apply (S_number _ _ c e c e (- e))]; try constructor; lia.
  - eapply S_text; constructor.
  - constructor.
  - eapply S_text; constructor.
  - inversion Da as [| | | | | | | |? F1|]; subst. constructor. clear Da. induction l as [|x l IHl]; [constructor|]. apply Forall_cons_iff in IH, F1. constructor; [now apply IH|now apply IHl].
  - inversion Da as [| | | | | | | | |? F1 N1]; subst. rewrite Forall_forall in IH, F1. constructor; [|congruence].
    intros k v Hk. exists v. split; [exact Hk|]. apply dget_In in Hk. apply (IH _ Hk), (F1 _ Hk).
  - constructor.
Qed.
Lemma same_number_l a b m e : Same a b -> number a m e -> exists m' e' k, number b m' e' /\ 0 <= e + k /\ 0 <= e' + k /\ m * 10 ^ (e + k) = m' * 10 ^ (e' + k).
Proof.
  intros H Ha. inversion H as [|? ? m1 e1 m2 e2 k H1 H2 H3 H4 H5|? ? s H1 H2|s H1 H2|n g H1 H2|l l' H1 H2 H3|d d' H1 H2 H3 H4]; subst; try (now inversion Ha).
  - apply number_num in Ha, H1. rewrite Ha in H1. injection H1; intros <- <-. eauto 10.
  - destruct H1; inversion Ha.
Qed.
Lemma same_text_l a b s : Same a b -> text a s -> text b s.
Proof.
  intros H Ha. inversion H as [|? ? m1 e1 m2 e2 k H1 H2 H3 H4 H5|? ? s1 H1 H2|s1 H1 H2|n g H1 H2|l l' H1 H2 H3|d d' H1 H2 H3 H4]; subst; try (now inversion Ha).
  - destruct H1; inversion Ha.
  - assert (s1 = s) as -> by (destruct H1; inversion Ha; congruence). exact H2.
Qed.
Lemma scale_up m e m' e' k j : k <= j -> 0 <= e + k -> 0 <= e' + k -> m * 10 ^ (e + k) = m' * 10 ^ (e' + k) -> m * 10 ^ (e + j) = m' * 10 ^ (e' + j).
Proof.
  intros Hj H1 H2 H. replace (e + j) with ((e + k) + (j - k)) by lia. replace (e' + j) with ((e' + k) + (j - k)) by lia.
  rewrite (Z.pow_add_r 10 (e + k) (j - k)), (Z.pow_add_r 10 (e' + k) (j - k)) by lia. now rewrite !Z.mul_assoc, H.
Qed.
Lemma same_numbers_trans a b c m1 e1 m2 e2 k : Same b c -> number a m1 e1 -> number b m2 e2 -> 0 <= e1 + k -> 0 <= e2 + k ->
  m1 * 10 ^ (e1 + k) = m2 * 10 ^ (e2 + k) -> Same a c.
Proof.
  intros H2 A1 A2 A3 A4 A5. destruct (same_number_l _ _ _ _ H2 A2) as (m3 & e3 & k' & B1 & B2 & B3 & B4).
  apply (S_number _ _ _ _ _ _ (Z.max k k') A1 B1); [lia..|].
  rewrite (scale_up _ _ _ _ k (Z.max k k') ltac:(lia) A3 A4 A5). apply (scale_up _ _ _ _ k' (Z.max k k') ltac:(lia) B2 B3 B4).
Qed.
Lemma same_trans a : forall b c, Same a b -> Same b c -> Same a c.
Proof.
  induction a as [|x|z|n c0 e|s|s|s|l IH|d IH|d data IH|n g|s|d data IH] using obj_ind2; intros b c H1 H2.
  - inversion H1 as [|? ? m1 e1 m2 e2 k A1 A2 A3 A4 A5|? ? s1 A1 A2|s1 A1 A2|n1 g1 A1 A2|l1 l' A1 A2 A3|d1 d' A1 A2 A3 A4]; subst; try exact H2; try solve [inversion A1].
  - inversion H1 as [|? ? m1 e1 m2 e2 k A1 A2 A3 A4 A5|? ? s1 A1 A2|s1 A1 A2|n1 g1 A1 A2|l1 l' A1 A2 A3|d1 d' A1 A2 A3 A4]; subst; try exact H2; try solve [inversion A1]; exact (same_numbers_trans _ _ _ _ _ _ _ _ H2 A1 A2 A3 A4 A5).
  - inversion H1 as [|? ? m1 e1 m2 e2 k A1 A2 A3 A4 A5|? ? s1 A1 A2|s1 A1 A2|n1 g1 A1 A2|l1 l' A1 A2 A3|d1 d' A1 A2 A3 A4]; subst; try exact H2; try solve [inversion A1]; exact (same_numbers_trans _ _ _ _ _ _ _ _ H2 A1 A2 A3 A4 A5).
  - inversion H1 as [|? ? m1 e1 m2 e2 k A1 A2 A3 A4 A5|? ? s1 A1 A2|s1 A1 A2|n1 g1 A1 A2|l1 l' A1 A2 A3|d1 d' A1 A2 A3 A4]; subst; try exact H2; try solve [inversion A1]; exact (same_numbers_trans _ _ _ _ _ _ _ _ H2 A1 A2 A3 A4 A5).
  - inversion H1 as [|? ? m1 e1 m2 e2 k A1 A2 A3 A4 A5|? ? s1 A1 A2|s1 A1 A2|n1 g1 A1 A2|l1 l' A1 A2 A3|d1 d' A1 A2 A3 A4]; subst; try exact H2; try solve [inversion A1]; apply (S_text _ _ s1); [exact A1|exact (same_text_l _ _ _ H2 A2)].
  - inversion H1 as [|? ? m1 e1 m2 e2 k A1 A2 A3 A4 A5|? ? s1 A1 A2|s1 A1 A2|n1 g1 A1 A2|l1 l' A1 A2 A3|d1 d' A1 A2 A3 A4]; subst; try exact H2; try solve [inversion A1].
  - inversion H1 as [|? ? m1 e1 m2 e2 k A1 A2 A3 A4 A5|? ? s1 A1 A2|s1 A1 A2|n1 g1 A1 A2|l1 l' A1 A2 A3|d1 d' A1 A2 A3 A4]; subst; try exact H2; try solve [inversion A1]; apply (S_text _ _ s1); [exact A1|exact (same_text_l _ _ _ H2 A2)].
  - apply same_arr_inv in H1. destruct H1 as (l' & -> & H1). apply same_arr_inv in H2. destruct H2 as (l2 & -> & H2). constructor. revert l' l2 H1 H2.
    induction l as [|x l IHl]; intros l' l2 H1 H2; inversion H1; subst; inversion H2; subst; constructor; apply Forall_cons_iff in IH; destruct IH as [Ix IH]; [eapply Ix; eauto|eapply IHl; eauto].
  - apply same_dict_inv in H1. destruct H1 as (d' & -> & A1 & A2). apply same_dict_inv in H2. destruct H2 as (d2 & -> & B1 & B2). rewrite Forall_forall in IH. constructor.
    + intros k v Hk. destruct (A1 _ _ Hk) as (v' & E & HS). destruct (B1 _ _ E) as (v2 & E2 & HS2). exists v2. split; [exact E2|]. apply dget_In in Hk. exact (IH _ Hk _ _ HS HS2).
    + intros k v' Hk. specialize (B2 _ _ Hk). destruct (dget d' k) as [v1|] eqn:E; [|contradiction]. exact (A2 _ _ E).
  - inversion H1 as [|? ? m1 e1 m2 e2 k A1 A2 A3 A4 A5|? ? s1 A1 A2|s1 A1 A2|n1 g1 A1 A2|l1 l' A1 A2 A3|d1 d' A1 A2 A3 A4]; subst; try exact H2; try solve [inversion A1].
  - inversion H1 as [|? ? m1 e1 m2 e2 k A1 A2 A3 A4 A5|? ? s1 A1 A2|s1 A1 A2|n1 g1 A1 A2|l1 l' A1 A2 A3|d1 d' A1 A2 A3 A4]; subst; try exact H2; try solve [inversion A1].
  - inversion H1; subst; try solve [match goal with X : number (?f ?x) _ _ |- _ => inversion X | X : text (?f ?x) _ |- _ => inversion X end].
  - inversion H1; subst; try solve [match goal with X : number (?f ?x) _ _ |- _ => inversion X | X : text (?f ?x) _ |- _ => inversion X end].
Qed.
Lemma same_sym a : forall b, Same a b -> Same b a.
Proof.
  induction a as [|x|z|n c0 e|s|s|s|l IH|d IH|d data IH|n g|s|d data IH] using obj_ind2; intros b H1.
  - inversion H1 as [|? ? m1 e1 m2 e2 k A1 A2 A3 A4 A5|? ? s1 A1 A2|s1 A1 A2|n1 g1 A1 A2|l1 l' A1 A2 A3|d1 d' A1 A2 A3 A4]; subst; try exact H1; try solve [inversion A1].
  - inversion H1 as [|? ? m1 e1 m2 e2 k A1 A2 A3 A4 A5|? ? s1 A1 A2|s1 A1 A2|n1 g1 A1 A2|l1 l' A1 A2 A3|d1 d' A1 A2 A3 A4]; subst; try exact H1; try solve [inversion A1]; apply (S_number _ _ _ _ _ _ k A2 A1); [lia..|now symmetry].
  - inversion H1 as [|? ? m1 e1 m2 e2 k A1 A2 A3 A4 A5|? ? s1 A1 A2|s1 A1 A2|n1 g1 A1 A2|l1 l' A1 A2 A3|d1 d' A1 A2 A3 A4]; subst; try exact H1; try solve [inversion A1]; apply (S_number _ _ _ _ _ _ k A2 A1); [lia..|now symmetry].
  - inversion H1 as [|? ? m1 e1 m2 e2 k A1 A2 A3 A4 A5|? ? s1 A1 A2|s1 A1 A2|n1 g1 A1 A2|l1 l' A1 A2 A3|d1 d' A1 A2 A3 A4]; subst; try exact H1; try solve [inversion A1]; apply (S_number _ _ _ _ _ _ k A2 A1); [lia..|now symmetry].
  - inversion H1 as [|? ? m1 e1 m2 e2 k A1 A2 A3 A4 A5|? ? s1 A1 A2|s1 A1 A2|n1 g1 A1 A2|l1 l' A1 A2 A3|d1 d' A1 A2 A3 A4]; subst; try exact H1; try solve [inversion A1]; apply (S_text _ _ s1); [exact A2|exact A1].
  - inversion H1 as [|? ? m1 e1 m2 e2 k A1 A2 A3 A4 A5|? ? s1 A1 A2|s1 A1 A2|n1 g1 A1 A2|l1 l' A1 A2 A3|d1 d' A1 A2 A3 A4]; subst; try exact H1; try solve [inversion A1].
  - inversion H1 as [|? ? m1 e1 m2 e2 k A1 A2 A3 A4 A5|? ? s1 A1 A2|s1 A1 A2|n1 g1 A1 A2|l1 l' A1 A2 A3|d1 d' A1 A2 A3 A4]; subst; try exact H1; try solve [inversion A1]; apply (S_text _ _ s1); [exact A2|exact A1].
  - apply same_arr_inv in H1. destruct H1 as (l' & -> & H1). constructor. revert l' H1.
    induction l as [|x l IHl]; intros l' H1; inversion H1; subst; constructor; apply Forall_cons_iff in IH; destruct IH as [Ix IH]; [eapply Ix; eauto|eapply IHl; eauto].
  - apply same_dict_inv in H1. destruct H1 as (d' & -> & A1 & A2). rewrite Forall_forall in IH. constructor.
    + intros k v Hk. pose proof (A2 _ _ Hk) as HN. destruct (dget d k) as [v1|] eqn:E; [|contradiction]. destruct (A1 _ _ E) as (v' & E' & HS). exists v1. split; [reflexivity|].
      rewrite Hk in E'. injection E'; intros <-. apply dget_In in E. exact (IH _ E _ HS).
    + intros k v' Hk. destruct (A1 _ _ Hk) as (v1 & E' & _). congruence.
  - inversion H1 as [|? ? m1 e1 m2 e2 k A1 A2 A3 A4 A5|? ? s1 A1 A2|s1 A1 A2|n1 g1 A1 A2|l1 l' A1 A2 A3|d1 d' A1 A2 A3 A4]; subst; try exact H1; try solve [inversion A1].
  - inversion H1 as [|? ? m1 e1 m2 e2 k A1 A2 A3 A4 A5|? ? s1 A1 A2|s1 A1 A2|n1 g1 A1 A2|l1 l' A1 A2 A3|d1 d' A1 A2 A3 A4]; subst; try exact H1; try solve [inversion A1].
  - inversion H1; subst; try solve [match goal with X : number (?f ?x) _ _ |- _ => inversion X | X : text (?f ?x) _ |- _ => inversion X end].
  - inversion H1; subst; try solve [match goal with X : number (?f ?x) _ _ |- _ => inversion X | X : text (?f ?x) _ |- _ => inversion X end].
Qed.
Theorem C109_equivalence : forall a b c, Direct a -> Direct b -> Direct c ->
  py_eq a a = Ok true /\ (py_eq a b = Ok true -> py_eq b a = Ok true) /\ (py_eq a b = Ok true -> py_eq b c = Ok true -> py_eq a c = Ok true).
Proof.
  intros a b c Da Db Dc. rewrite !C109_equal by assumption. split; [now apply same_refl|]. split; [apply same_sym|apply same_trans].
Qed.
(** A reference cannot be compared with anything but references and streams, from either side, nor a stream with anything but
    streams; a stream with the entries num and gen is taken for a reference. *)
Theorem C109_reference_refuted :
  (forall v n g, Direct v -> (forall n' g', v <> ORef n' g') -> py_eq (ORef n g) v = Err AttributeErr /\ py_eq v (ORef n g) = Err AttributeErr) /\
  (forall v d data, Direct v -> py_eq (OStream d data) v = Err AttributeErr /\ ((forall n' g', v <> ORef n' g') -> py_eq v (OStream d data) = Err AttributeErr)) /\
  (forall n g d data, dget d (bs "num") = Some (OInt n) -> dget d (bs "gen") = Some (OInt g) -> py_eq (ORef n g) (OStream d data) = Ok true).
Proof.
  split; [|split].
  - intros v n g Dv Hv. destruct Dv; try (split; reflexivity). now specialize (Hv n0 g0).
  - intros v d data Dv. destruct Dv; try (split; reflexivity). split; [reflexivity|]. intros H. now specialize (H n g).
  - intros n g d data H1 H2. cbn [py_eq]. rewrite H1. cbn [int_is]. unfold atom_eq. cbn [num_of]. unfold num_eq. cbn [fst snd]. rewrite Z.eqb_refl. cbn [rbind].
    rewrite H2. cbn [int_is]. unfold atom_eq. cbn [num_of]. unfold num_eq. cbn [fst snd]. now rewrite Z.eqb_refl.
Qed.
Theorem C109_reference_stream : forall n g d data, dget d (bs "num") = None \/ (exists m, dget d (bs "num") = Some (OInt m) /\ m <> n) -> py_eq (ORef n g) (OStream d data) = Ok false.
Proof.
  intros n g d data [H|(m & H & Hm)]; cbn [py_eq]; rewrite H; [reflexivity|]. cbn [int_is]. unfold atom_eq. cbn [num_of]. unfold num_eq. cbn [fst snd].
  change (10 ^ (0 - Z.min 0 0)) with 1. rewrite !Z.mul_1_r. assert (n =? m = false) as -> by (apply Z.eqb_neq; congruence). reflexivity.
Qed.
(** What PDF tells apart: a name and a hexadecimal string of the same text are equal, and so are true, 1 and 1.0. *)
Theorem C109_kinds_refuted : (forall s, py_eq (OName s) (OHex s) = Ok true) /\ py_eq (OBool true) (OInt 1) = Ok true /\
  (forall z, py_eq (OInt z) (OReal false (10 * z) (-1)) = Ok true) /\ (forall s t, py_eq (OName s) (OStr t) = Ok false).
Proof.
  split; [intros s; cbn; now rewrite eqlZ_refl|]. split; [reflexivity|]. split; [|reflexivity].
  intros z. apply C109_equal; [constructor..|]. apply (S_number _ _ z 0 (10 * z) (-1) 1); try constructor; try lia.
Qed.

(** *** Hypotheses met: two dictionaries written in different orders, with numbers written differently *)
Definition eq_a : obj := ODict [(bs "Rect", OArr [OInt 0; OReal false 15 (-1)]); (bs "P", ORef 3 0)].
Definition eq_b : obj := ODict [(bs "P", ORef 3 0); (bs "Rect", OArr [OReal true 0 (-1); OReal false 150 (-2)])].
Example C109_ex : Direct eq_a /\ Direct eq_b /\ Same eq_a eq_b /\ py_eq eq_a eq_b = Ok true /\ py_eq eq_a (ODict [(bs "P", ONull)]) = Ok false /\
  py_eq eq_a (ODict [(bs "P", ONull); (bs "Rect", OArr [OInt 0; OReal false 15 (-1)])]) = Err AttributeErr.
Proof.
  assert (NoDup [bs "Rect"; bs "P"] /\ NoDup [bs "P"; bs "Rect"]) as [N1 N2].
  { split; (constructor; [intros [H|[]]; discriminate H|constructor; [intros []|constructor]]). }
  assert (Direct eq_a) as Da by (apply D_dict; [repeat (constructor; cbn [snd])|exact N1]).
  assert (Direct eq_b) as Db by (apply D_dict; [repeat (constructor; cbn [snd])|exact N2]).
  assert (py_eq eq_a eq_b = Ok true) as E by (vm_compute; reflexivity).
  split; [exact Da|]. split; [exact Db|]. split; [now apply C109_equal|]. split; [exact E|]. split; vm_compute; reflexivity.
Qed.

Print Assumptions C109_equal.
Print Assumptions C109_streams.
Print Assumptions C109_result.
Print Assumptions C109_equivalence.
Print Assumptions C109_reference_refuted.
Print Assumptions C109_kinds_refuted.
Print Assumptions C109_reference_stream.
