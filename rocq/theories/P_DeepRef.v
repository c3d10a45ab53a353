(** deep_obj_by_ref: C105. *)
From Coq Require Import String.
From Verif Require Import Prelude M_Parser M_Objects S_Objects M_DeepRef.
Local Open Scope Z_scope.

(** *** The specification *)
(** [Leads G x k v]: from [x], by asking for the object of an indirect object's number k times, one gets to [v], which is no indirect object. *)
Inductive Leads (G : Z -> Z -> res dval) : dval -> nat -> res dval -> Prop :=
| Le_end v : Leads G (DVal v) 0 (Ok (DVal v))
| Le_step n g u y k r : G n g = Ok y -> Leads G y k r -> Leads G (DInd n g u) (S k) r
| Le_fail n g u e : G n g = Err e -> Leads G (DInd n g u) 1 (Err e).
(** From [x] one never gets to anything else than indirect objects. *)
CoInductive Endless (G : Z -> Z -> res dval) : dval -> Prop :=
| En n g u y : G n g = Ok y -> Endless G y -> Endless G (DInd n g u).

(** The call with maximal depth [m] ends with [r]; [never]: it does not end. *)
Definition ends G x m r : Prop := exists n0, forall n, (n0 <= n)%nat -> deep_obj_by_ref G n x m = r.
Definition never G x m : Prop := forall n, deep_obj_by_ref G n x m = Err OutOfFuel.

Lemma leads_enough G x k r : Leads G x k r -> forall m, Z.of_nat k <= m \/ m < 0 -> ends G x m r.
Proof.
  induction 1 as [v|n g u y k r E HL IH|n g u e E]; intros m Hm.
  - exists 1%nat. intros [|n] Hn; [lia|reflexivity].
  - destruct (IH (m - 1)) as [n0 H0]; [lia|]. exists (S n0). intros [|n'] Hn; [lia|]. cbn [deep_obj_by_ref]. rewrite (proj2 (Z.eqb_neq m 0)) by lia.
    rewrite E. cbn [rbind]. apply H0. lia.
  - exists 1%nat. intros [|n'] Hn; [lia|]. cbn [deep_obj_by_ref]. rewrite (proj2 (Z.eqb_neq m 0)) by lia. now rewrite E.
Qed.
Lemma leads_short G x k r : Leads G x k r -> forall m, 0 <= m < Z.of_nat k -> ends G x m (Err ValueErr).
Proof.
  induction 1 as [v|n g u y k r E HL IH|n g u e E]; intros m Hm; [lia| |].
  - destruct (Z.eqb_spec m 0) as [->|Hz]; [exists 1%nat; intros [|n'] Hn; [lia|reflexivity]|].
    destruct (IH (m - 1)) as [n0 H0]; [lia|]. exists (S n0). intros [|n'] Hn; [lia|]. cbn [deep_obj_by_ref]. rewrite (proj2 (Z.eqb_neq m 0) Hz). rewrite E. cbn [rbind]. apply H0. lia.
  - assert (m = 0) as -> by lia. exists 1%nat. intros [|n'] Hn; [lia|reflexivity].
Qed.

(** C105.  With a depth that is enough the object at the end comes back, or the exception met on the way; with one
    that is not, ValueError; and it is ValueError after going round in circles - unless the depth is negative,
    when a circle is followed for ever. *)
Theorem C105_depth : forall G x,
  (forall k r m, Leads G x k r -> Z.of_nat k <= m \/ m < 0 -> ends G x m r) /\
  (forall k r m, Leads G x k r -> 0 <= m < Z.of_nat k -> ends G x m (Err ValueErr)) /\
  (forall m, Endless G x -> 0 <= m -> ends G x m (Err ValueErr)) /\
  (forall m, Endless G x -> m < 0 -> never G x m).
Proof.
  intros G x. split; [intros; eapply leads_enough; eauto|]. split; [intros; eapply leads_short; eauto|]. split.
  - intros m HE Hm. revert x HE. pattern m. apply natlike_ind; [| |exact Hm].
    + intros x HE. destruct HE. exists 1%nat. intros [|n'] Hn; [lia|reflexivity].
    + intros z Hz IH x HE. destruct HE as [n g u y E HE]. destruct (IH y HE) as [n0 H0]. exists (S n0). intros [|n'] Hn; [lia|]. cbn [deep_obj_by_ref].
      rewrite (proj2 (Z.eqb_neq (Z.succ z) 0)) by lia. rewrite E. cbn [rbind]. replace (Z.succ z - 1) with z by lia. apply H0. lia.
  - intros m HE Hm n. revert x m HE Hm. induction n as [|n IH]; intros x m HE Hm; [reflexivity|]. destruct HE as [n1 g u y E HE]. cbn [deep_obj_by_ref].
    rewrite (proj2 (Z.eqb_neq m 0)) by lia. rewrite E. cbn [rbind]. apply IH; [exact HE|lia].
Qed.

(** In a document nothing is followed: an indirect object is looked up once, and a reference - what the method is for - comes
    back as it is, with any depth (defect: the class that is tested is not that of references). *)
Theorem C105_document_refuted : forall H bld,
  (forall n g m, ends (document_obj_by_ref H bld) (DVal (VRef n g)) m (Ok (DVal (VRef n g)))) /\
  (forall n g u v w m, m <> 0 -> H n g = Ok v -> factory bld v = Ok w -> ends (document_obj_by_ref H bld) (DInd n g u) m (Ok (DVal w))) /\
  (forall n g n' g' u m, m <> 0 -> H n g = Ok (VRef n' g') -> ends (document_obj_by_ref H bld) (DInd n g u) m (Ok (DVal (VRef n' g')))).
Proof.
  intros H bld. assert (forall n g u v w m, m <> 0 -> H n g = Ok v -> factory bld v = Ok w -> ends (document_obj_by_ref H bld) (DInd n g u) m (Ok (DVal w))) as HO.
  { intros n g u v w m Hm E1 E2. apply (leads_enough _ _ 1); [|lia]. apply (Le_step _ _ _ _ (DVal w)); [|constructor]. unfold document_obj_by_ref. rewrite E1. cbn [rbind]. now rewrite E2. }
  split; [|split; [exact HO|]].
  - intros n g m. exists 1%nat. intros [|n'] Hn; [lia|reflexivity].
  - intros n g n' g' u m Hm E. apply (HO n g u (VRef n' g')); auto.
Qed.

(** three indirect objects in a row, and two in a circle *)
Definition d_ex (n g : Z) : res dval :=
  if n =? 1 then Ok (DInd 2 0 (VAtom ONull)) else if n =? 2 then Ok (DInd 3 0 (VAtom ONull)) else if n =? 3 then Ok (DVal (VAtom (OInt 7)))
  else if n =? 8 then Ok (DInd 9 0 (VAtom ONull)) else if n =? 9 then Ok (DInd 8 0 (VAtom ONull)) else Err ParserExc.
Example C105_ex : ends d_ex (DInd 1 0 (VAtom ONull)) 3 (Ok (DVal (VAtom (OInt 7)))) /\ ends d_ex (DInd 1 0 (VAtom ONull)) 2 (Err ValueErr) /\
  ends d_ex (DInd 8 0 (VAtom ONull)) 100 (Err ValueErr) /\ never d_ex (DInd 8 0 (VAtom ONull)) (-1) /\ ends d_ex (DInd 5 0 (VAtom ONull)) 100 (Err ParserExc).
Proof.
  assert (Leads d_ex (DInd 1 0 (VAtom ONull)) 3 (Ok (DVal (VAtom (OInt 7))))) as HL by (do 3 (eapply Le_step; [reflexivity|]); constructor).
  assert (Endless d_ex (DInd 8 0 (VAtom ONull))) as HE by (cofix F; apply (En d_ex 8 0 (VAtom ONull) (DInd 9 0 (VAtom ONull)) eq_refl); apply (En d_ex 9 0 (VAtom ONull) (DInd 8 0 (VAtom ONull)) eq_refl); exact F).
  split; [|split; [|split; [|split]]].
  - apply (proj1 (C105_depth d_ex _)) with (k := 3%nat); [exact HL|lia].
  - eapply (proj1 (proj2 (C105_depth d_ex _))); [exact HL|lia].
  - apply (proj1 (proj2 (proj2 (C105_depth d_ex _)))); [exact HE|lia].
  - apply (proj2 (proj2 (proj2 (C105_depth d_ex _)))); [exact HE|lia].
  - apply (proj1 (C105_depth d_ex _)) with (k := 1%nat); [apply Le_fail; reflexivity|lia].
Qed.
Print Assumptions C105_depth.
Print Assumptions C105_document_refuted.
