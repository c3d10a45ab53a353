(** Merging cross-reference tables: C107. *)
From Coq Require Import String.
From Verif Require Import Prelude M_Document L_Xref M_Merge.
Local Open Scope Z_scope.

(** *** The specification *)
(** The table of a list of entries, each of a kind. *)
Definition table_of (es : list (xtyp * xent)) : xref := fold_left (fun x p => add_entry x (fst p) (snd p)) es xref0.
Definition listed (x : xref) (t : xtyp) : list (Z * xent) := match t with TFree => x_free x | TInUse => x_inuse x | TComp => x_comp x end.
(** the last entry of a kind and number *)
Inductive Last (t : xtyp) (n : Z) (e : xent) : list (xtyp * xent) -> Prop :=
| La es es' : e_num e = n -> (forall e', In (t, e') es' -> e_num e' <> n) -> Last t n e (es ++ (t, e) :: es').

(** *** Proofs *)
Notation put := (fun d e => zset d (e_num e) e).
Definition keyed (d : list (Z * xent)) : Prop := Forall (fun p => fst p = e_num (snd p)) d /\ NoDup (map fst d).
Lemma zset_same {A} (d : list (Z * A)) k v w : zset (zset d k v) k w = zset d k w.
Proof. induction d as [|[k' v'] d IH]; cbn [zset]; [now rewrite Z.eqb_refl|]. destruct (Z.eqb_spec k k') as [->|H]; cbn [zset]; [now rewrite Z.eqb_refl|]. rewrite (proj2 (Z.eqb_neq _ _) H). now rewrite IH. Qed.
Lemma zset_swap {A} (d : list (Z * A)) k v m w : k <> m -> In k (map fst d) -> zset (zset d m w) k v = zset (zset d k v) m w.
Proof.
  intros Hn. induction d as [|[k' v'] d IH]; [intros []|]. cbn [map fst In zset]. intros Hi.
  destruct (Z.eqb_spec m k') as [->|Hm]; destruct (Z.eqb_spec k k') as [->|Hk]; cbn [zset]; rewrite ?Z.eqb_refl; try congruence.
  - rewrite (proj2 (Z.eqb_neq _ _) Hk), ?Z.eqb_refl. reflexivity.
  - rewrite (proj2 (Z.eqb_neq _ _) Hm). reflexivity.
  - rewrite (proj2 (Z.eqb_neq _ _) Hm), (proj2 (Z.eqb_neq _ _) Hk). rewrite IH; [reflexivity|]. destruct Hi as [X|X]; [congruence|exact X].
Qed.
Lemma zset_keys {A} (d : list (Z * A)) k v x : In x (map fst (zset d k v)) <-> x = k \/ In x (map fst d).
Proof.
  induction d as [|[k' v'] d IH]; cbn [zset map fst In]; [intuition|]. destruct (Z.eqb_spec k k') as [->|H]; cbn [map fst In]; [intuition|]. rewrite IH. intuition.
Qed.
Lemma put_keys r : forall d x, In x (map fst d) -> In x (map fst (fold_left put r d)).
Proof. induction r as [|e r IH]; intros d x H; [exact H|]. cbn [fold_left]. apply IH. apply zset_keys. auto. Qed.
Lemma put_late r : forall d e, In (e_num e) (map fst d) -> (forall e', In e' r -> e_num e' <> e_num e) -> fold_left put r (put d e) = put (fold_left put r d) e.
Proof.
  induction r as [|e1 r IH]; intros d e Hi Hn; [reflexivity|]. cbn [fold_left]. rewrite <- (zset_swap d (e_num e) e (e_num e1) e1); [|intros X; apply (Hn e1 (or_introl eq_refl)); auto|exact Hi].
  apply (IH (zset d (e_num e1) e1) e); [apply zset_keys; auto|intros; apply Hn; now right].
Qed.
Lemma keyed_zset d e : keyed d -> keyed (put d e).
Proof.
  intros [H1 H2]. split.
  - clear H2. induction d as [|[k v] d IH]; cbn [zset]; [repeat constructor|]. inversion H1; subst. destruct (Z.eqb_spec (e_num e) k) as [<-|H]; constructor; auto.
  - clear H1. induction d as [|[k v] d IH]; cbn [zset map fst]; [constructor; [intros []|constructor]|]. cbn [map fst] in H2. inversion H2 as [|? ? H3 H4]; subst.
    destruct (Z.eqb_spec (e_num e) k) as [<-|H]; cbn [map fst]; [constructor; auto|]. constructor; [|auto]. intros X. apply zset_keys in X. destruct X as [X|X]; [congruence|contradiction].
Qed.
Lemma put_fold d e : keyed d -> forall d0, fold_left put (map snd (put d e)) d0 = put (fold_left put (map snd d) d0) e.
Proof.
  intros [H1 H2]. induction d as [|[k v] d IH]; intros d0; [reflexivity|]. cbn [zset]. inversion H1 as [|? ? H3 H4]; subst. cbn [fst snd map] in *. inversion H2 as [|? ? H5 H6]; subst.
  destruct (Z.eqb_spec (e_num e) (e_num v)) as [E|E]; cbn [map snd fold_left]; [|apply IH; auto].
  rewrite <- E in *. rewrite <- (zset_same d0 (e_num e) v e) at 1. apply (put_late (map snd d) (zset d0 (e_num e) v) e).
  - apply zset_keys. auto.
  - intros e' Hin X. apply H5. rewrite <- X. apply in_map_iff in Hin. destruct Hin as ([k' v'] & <- & Hin). rewrite Forall_forall in H4. pose proof (H4 _ Hin) as Y. cbn [fst snd] in *. rewrite <- Y. now apply (in_map fst) in Hin.
Qed.
Lemma put_twice d : keyed d -> forall d0, fold_left put (map snd d) (fold_left put (map snd d) d0) = fold_left put (map snd d) d0.
Proof.
  intros [H1 H2] d0. assert (forall r d1, (forall e, In e r -> zget d1 (e_num e) = Some e) -> fold_left put r d1 = d1) as HI.
  { assert (forall (d1 : list (Z * xent)) k v, zget d1 k = Some v -> zset d1 k v = d1) as HZ.
    { induction d1 as [|[k' v'] d1 IH]; intros k v; cbn [zget zset]; [discriminate|]. destruct (Z.eqb_spec k k') as [->|Hk]; [intros X; now injection X as ->|]. intros X. now rewrite IH. }
    induction r as [|e r IH]; intros d1 Hr; [reflexivity|]. cbn [fold_left]. rewrite HZ by (apply Hr; now left). apply IH. intros; apply Hr; now right. }
  apply HI. clear HI. revert d0. induction d as [|[k v] d IH]; intros d0 e; [intros []|]. inversion H1 as [|? ? H3 H4]; subst. cbn [fst snd map fold_left] in *. inversion H2 as [|? ? H5 H6]; subst.
  intros [<-|Hin]; [|apply IH; auto].
  assert (forall r d1, (forall e', In e' r -> e_num e' <> e_num v) -> zget d1 (e_num v) = Some v -> zget (fold_left put r d1) (e_num v) = Some v) as HK.
  { induction r as [|e1 r IHr]; intros d1 Hr Hz; [exact Hz|]. cbn [fold_left]. apply IHr; [intros; apply Hr; now right|]. rewrite zget_zset. rewrite (proj2 (Z.eqb_neq _ _)); [exact Hz|]. intros X. apply (Hr e1 (or_introl eq_refl)); auto. }
  apply HK; [|rewrite zget_zset, Z.eqb_refl; reflexivity]. intros e' Hin X. apply H5. rewrite <- X. apply in_map_iff in Hin. destruct Hin as ([k' v'] & <- & Hin). rewrite Forall_forall in H4. pose proof (H4 _ Hin) as Y. cbn [fst snd] in *. rewrite <- Y. now apply (in_map fst) in Hin.
Qed.

Definition of_kind (t : xtyp) (es : list (xtyp * xent)) : list xent :=
  flat_map (fun p => match t, fst p with TFree, TFree => [snd p] | TInUse, TInUse => [snd p] | TComp, TComp => [snd p] | _, _ => [] end) es.
Lemma listed_add t t' x e : listed (add_entry x t' e) t = match t, t' with TFree, TFree | TInUse, TInUse | TComp, TComp => put (listed x t) e | _, _ => listed x t end.
Proof. destruct t, t'; reflexivity. Qed.
Lemma listed_fold t es : forall x, listed (fold_left (fun x p => add_entry x (fst p) (snd p)) es x) t = fold_left put (of_kind t es) (listed x t).
Proof.
  induction es as [|[t' e] es IH]; intros x; [reflexivity|]. cbn [fold_left fst snd of_kind flat_map]. rewrite IH, listed_add. destruct t, t'; reflexivity.
Qed.
Lemma listed_add_all t t' d : forall x, listed (add_all t' d x) t = match t, t' with TFree, TFree | TInUse, TInUse | TComp, TComp => fold_left put (map snd d) (listed x t) | _, _ => listed x t end.
Proof.
  unfold add_all. induction (map snd d) as [|e r IH]; intros x; cbn [fold_left]; [destruct t, t'; reflexivity|]. rewrite IH, !listed_add. destruct t, t'; reflexivity.
Qed.
Lemma keyed_fold r : forall d, keyed d -> keyed (fold_left put r d).
Proof. induction r as [|e r IH]; intros d H; [exact H|]. cbn [fold_left]. apply IH. now apply (keyed_zset d e). Qed.
Lemma keyed_nil : keyed [].
Proof. split; constructor. Qed.
Lemma refold r : forall d0, fold_left put (map snd (fold_left put r [])) d0 = fold_left put r d0.
Proof.
  induction r as [|e r IH] using rev_ind; intros d0; [reflexivity|]. rewrite !fold_left_app. cbn [fold_left].
  rewrite (put_fold _ e (keyed_fold r [] keyed_nil)). now rewrite IH.
Qed.
Lemma table_ext x y : (forall t, listed x t = listed y t) -> x = y.
Proof. intros H. destruct x as [a1 b1 c1], y as [a2 b2 c2]. pose proof (H TFree). pose proof (H TInUse). pose proof (H TComp). cbn [listed x_free x_inuse x_comp] in *. congruence. Qed.

(** C107.  Merging the table of some entries with that of others gives the table of all of them, the others last. *)
Theorem C107_merge : forall es es', merge (table_of es) (table_of es') = table_of (es ++ es').
Proof.
  intros es es'. apply table_ext. intros t. unfold table_of at 3. rewrite fold_left_app. fold (table_of es). rewrite listed_fold.
  assert (listed (table_of es') t = fold_left put (of_kind t es') []) as E by (unfold table_of; rewrite listed_fold; destruct t; reflexivity).
  unfold merge. rewrite !listed_add_all. destruct t; cbn [listed] in *; rewrite E.
  - rewrite (put_twice _ (keyed_fold _ [] keyed_nil)). apply refold.
  - apply refold.
  - apply refold.
Qed.
(** ... so merging is associative, and merging the same table again changes nothing. *)
Theorem C107_algebra : forall es es' es'', merge (merge (table_of es) (table_of es')) (table_of es'') = merge (table_of es) (merge (table_of es') (table_of es'')) /\
  merge (merge (table_of es) (table_of es')) (table_of es') = merge (table_of es) (table_of es').
Proof.
  intros es es' es''. split; [rewrite !C107_merge, app_assoc; reflexivity|].
  apply table_ext. intros t. assert (listed (table_of es') t = fold_left put (of_kind t es') []) as E by (unfold table_of; rewrite listed_fold; destruct t; reflexivity).
  unfold merge. rewrite !listed_add_all. destruct t; cbn [listed] in *; rewrite !put_twice by (rewrite E; apply keyed_fold, keyed_nil); reflexivity.
Qed.
(** What a table lists of a kind and number is the last entry of them; every entry is listed once. *)
Theorem C107_table : forall es t n,
  (forall e, zget (listed (table_of es) t) n = Some e <-> Last t n e es) /\ NoDup (map fst (listed (table_of es) t)) /\
  (forall k, In k (map fst (listed (table_of es) t)) <-> exists e, In (t, e) es /\ e_num e = k).
Proof.
  intros es t n. assert (listed (table_of es) t = fold_left put (of_kind t es) []) as E by (unfold table_of; rewrite listed_fold; destruct t; reflexivity).
  assert (forall e, In e (of_kind t es) <-> In (t, e) es) as HK.
  { intros e. unfold of_kind. rewrite in_flat_map. split.
    - intros ([t' e'] & H1 & H2). cbn [fst snd] in H2. destruct t, t'; cbn [In] in H2; try contradiction; destruct H2 as [<-|[]]; exact H1.
    - intros H. exists (t, e). split; [exact H|]. destruct t; now left. }
  split; [|split; [rewrite E; apply (proj2 (keyed_fold _ [] keyed_nil))|]].
  - intros e. split.
    + rewrite E. clear E HK. induction es as [|[t' e'] es IH] using rev_ind; [discriminate|]. unfold of_kind. rewrite flat_map_app. fold (of_kind t es). cbn [flat_map fst snd]. rewrite app_nil_r.
      assert ((t' = t /\ fold_left put (of_kind t es ++ [e']) [] = put (fold_left put (of_kind t es) []) e') \/ t' <> t) as HC by (rewrite fold_left_app; destruct t, t'; first [left; split; reflexivity|right; discriminate]).
      destruct HC as [[-> HC]|HC].
      * assert (match t, t with TFree, TFree => [e'] | TInUse, TInUse => [e'] | TComp, TComp => [e'] | _, _ => [] end = [e']) as -> by (destruct t; reflexivity). rewrite HC, zget_zset.
        destruct (Z.eqb_spec n (e_num e')) as [En|Hn].
        -- intros X. injection X as ->. apply (La t n e es []); [auto|intros ? []].
        -- intros X. destruct (IH X) as [a b H1 H2]. rewrite <- app_assoc. cbn [app]. apply La; [exact H1|]. intros e0 Hin. apply in_app_or in Hin. destruct Hin as [Hin|[Hin|[]]]; [auto|]. injection Hin as ->. auto.
      * assert (match t, t' with TFree, TFree => [e'] | TInUse, TInUse => [e'] | TComp, TComp => [e'] | _, _ => [] end = []) as -> by (destruct t, t'; try reflexivity; contradiction HC; reflexivity). rewrite app_nil_r.
        intros X. destruct (IH X) as [a b H1 H2]. rewrite <- app_assoc. cbn [app]. apply La; [exact H1|]. intros e0 Hin. apply in_app_or in Hin. destruct Hin as [Hin|[Hin|[]]]; [auto|]. injection Hin as -> ->. contradiction HC. reflexivity.
    + rewrite E. clear E HK. intros [a b H1 H2]. unfold of_kind. rewrite flat_map_app. cbn [flat_map fst snd].
      assert (match t with TFree => match t with TFree => [e] | _ => [] end | TInUse => match t with TInUse => [e] | _ => [] end | TComp => match t with TComp => [e] | _ => [] end end = [e]) as -> by (destruct t; reflexivity).
      rewrite !fold_left_app. cbn [fold_left]. fold (of_kind t a). fold (of_kind t b). set (d := fold_left put (of_kind t a) []). clearbody d.
      assert (forall d1, zget d1 n = Some e -> zget (fold_left put (of_kind t b) d1) n = Some e) as HH; [|apply HH; rewrite zget_zset, <- H1, Z.eqb_refl; reflexivity].
      clear - H2. induction b as [|[t' e'] b IH]; intros d1 Hd; [exact Hd|]. cbn [of_kind flat_map fst snd]. rewrite fold_left_app. apply IH; [intros; apply H2; now right|].
      destruct t, t'; cbn [fold_left]; try exact Hd; rewrite zget_zset, (proj2 (Z.eqb_neq _ _)); try exact Hd; intros X; apply (H2 e'); auto; now left.
  - intros k. rewrite E. assert (forall r d, In k (map fst (fold_left put r d)) <-> In k (map (fun e => e_num e) r) \/ In k (map fst d)) as HP.
    { induction r as [|e r IH]; intros d; cbn [fold_left map In]; [tauto|]. rewrite IH, zset_keys. intuition congruence. }
    rewrite HP. cbn [map In]. rewrite in_map_iff. split; [intros [(e & X1 & X2)|[]]; exists e; split; [apply HK; exact X2|exact X1]|intros (e & X1 & X2); left; exists e; split; [exact X2|apply HK; exact X1]].
Qed.
(** A number that the other table frees stays in use. *)
Theorem C107_freed_refuted : ~ (forall es es' n e, Last TFree n e es' -> zget (x_inuse (merge (table_of es) (table_of es'))) n = None).
Proof.
  intros H. specialize (H [(TInUse, mkE 3 0 17)] [(TFree, mkE 3 1 0)] 3 (mkE 3 1 0)). assert (Last TFree 3 (mkE 3 1 0) [(TFree, mkE 3 1 0)]) as HL by (apply (La _ _ _ [] []); [reflexivity|intros ? []]).
  specialize (H HL). discriminate H.
Qed.
Example C107_ex : merge (table_of [(TInUse, mkE 1 0 9); (TInUse, mkE 2 0 40)]) (table_of [(TInUse, mkE 2 0 77); (TFree, mkE 0 65535 0); (TComp, mkE 5 4 0)]) =
  mkX [(0, mkE 0 65535 0)] [(1, mkE 1 0 9); (2, mkE 2 0 77)] [(5, mkE 5 4 0)] /\ Last TInUse 2 (mkE 2 0 77) ([(TInUse, mkE 1 0 9); (TInUse, mkE 2 0 40)] ++ [(TInUse, mkE 2 0 77); (TFree, mkE 0 65535 0); (TComp, mkE 5 4 0)]).
Proof.
  split; [reflexivity|]. apply (La _ _ _ [(TInUse, mkE 1 0 9); (TInUse, mkE 2 0 40)] [(TFree, mkE 0 65535 0); (TComp, mkE 5 4 0)]); [reflexivity|]. intros e' [X|[X|[]]]; discriminate X.
Qed.
Print Assumptions C107_merge.
Print Assumptions C107_table.
Print Assumptions C107_freed_refuted.
Print Assumptions C107_algebra.
