(** Specification of objects resolved all the way down (build(obj, lazy=False)), independent of build(). *)
From Coq Require Import String.
From Verif Require Import Prelude M_Parser M_Objects S_Objects.
Local Open Scope Z_scope.

(** [Resolved H x v]: [v] is the parsed object [x] with every reference in it, at any depth, replaced by the (resolved) object
    it names, and every dictionary and stream an instance of its class. *)
Inductive Resolved (H : Z -> Z -> res bv) : bv -> bv -> Prop :=
| Rs_atom o : Resolved H (VAtom o) (VAtom o)
| Rs_ref n g o v : H n g = Ok o -> ~ is_ref o -> Resolved H o v -> Resolved H (VRef n g) v
| Rs_arr l l' : ResolvedL H l l' -> Resolved H (VArr l) (VArr l')
| Rs_dict d d' c : dict_class d c -> ResolvedD H d d' -> Resolved H (VDict None d) (VDict (Some c) d')
| Rs_stm d d' c data : stm_class d c -> ResolvedD H d d' -> Resolved H (VStm None d data) (VStm (Some c) d' data)
with ResolvedL (H : Z -> Z -> res bv) : list bv -> list bv -> Prop :=
| Rl_nil : ResolvedL H [] []
| Rl_cons x v l l' : Resolved H x v -> ResolvedL H l l' -> ResolvedL H (x :: l) (v :: l')
with ResolvedD (H : Z -> Z -> res bv) : list (list Z * bv) -> list (list Z * bv) -> Prop :=
| Rd_nil : ResolvedD H [] []
| Rd_cons k x v d d' : Resolved H x v -> ResolvedD H d d' -> ResolvedD H ((k, x) :: d) ((k, v) :: d').
Scheme Resolved_mind := Induction for Resolved Sort Prop with ResolvedL_mind := Induction for ResolvedL Sort Prop
  with ResolvedD_mind := Induction for ResolvedD Sort Prop.
Combined Scheme Resolved_all from Resolved_mind, ResolvedL_mind, ResolvedD_mind.

(** The references written in an object, at any depth. *)
Inductive Mentions : bv -> Z -> Z -> Prop :=
| Me_ref n g : Mentions (VRef n g) n g
| Me_arr l x n g : In x l -> Mentions x n g -> Mentions (VArr l) n g
| Me_dict c d k x n g : In (k, x) d -> Mentions x n g -> Mentions (VDict c d) n g
| Me_stm c d data k x n g : In (k, x) d -> Mentions x n g -> Mentions (VStm c d data) n g.

(** No object leads back to itself. *)
Definition acyclic (H : Z -> Z -> res bv) : Prop :=
  exists rank : Z -> Z -> nat, forall n g o, H n g = Ok o -> forall a b, Mentions o a b -> (rank a b < rank n g)%nat.
(** Parsed objects whose dictionaries and streams, at any depth, have proper types, and whose references name objects that are
    not references. *)
Inductive Sound (H : Z -> Z -> res bv) : bv -> Prop :=
| So_atom o : Sound H (VAtom o)
| So_ref n g o : H n g = Ok o -> ~ is_ref o -> Sound H (VRef n g)
| So_arr l : (forall x, In x l -> Sound H x) -> Sound H (VArr l)
| So_dict d c : dict_class d c -> (forall k x, In (k, x) d -> Sound H x) -> Sound H (VDict None d)
| So_stm d c data : stm_class d c -> (forall k x, In (k, x) d -> Sound H x) -> Sound H (VStm None d data).
