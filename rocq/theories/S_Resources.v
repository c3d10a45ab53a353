(** Specification of resource inheritance, independent of Resources.from_page.  [bld x] is what a value of the
    document stands for (C27). *)
From Coq Require Import String.
From Verif Require Import Prelude M_Parser M_Objects.
Local Open Scope Z_scope.

Section R.
  Variable bld : bv -> res bv.
  (** A level is a resource dictionary: kinds (Font, XObject, ...) with their (resolved) values. *)
  Definition level := list (list Z * bv).
  Definition Defines (l : level) (kind name : list Z) (v : bv) : Prop :=
    exists c d x, aget l kind = Some (VDict c d) /\ aget d name = Some x /\ bld x = Ok v.
  Definition Silent (l : level) (kind name : list Z) : Prop :=
    forall c d, aget l kind = Some (VDict c d) -> aget d name = None.
  (** The nearest level that defines the name decides; levels are listed from near to far. *)
  Inductive Nearest (kind name : list Z) (v : bv) : list level -> Prop :=
  | Ne_here l r : Defines l kind name v -> Nearest kind name v (l :: r)
  | Ne_up l r : Silent l kind name -> Nearest kind name v r -> Nearest kind name v (l :: r).
  (** A procedure set name listed by a level, directly or one array deeper. *)
  Definition Lists (l : level) (kind p : list Z) : Prop :=
    exists a, aget l kind = Some (VArr a) /\
      (In (VAtom (OName p)) a \/ exists m, In (VArr m) a /\ In (VAtom (OName p)) m).

  (** Dictionaries have unique keys. *)
  Definition unique_keys (l : level) : Prop :=
    NoDup (map fst l) /\ forall kind c d, aget l kind = Some (VDict c d) -> NoDup (map fst d).

  (** An attribute of a page tree node (a dictionary object), null if missing. *)
  Definition Attr (node : bv) (k : list Z) (v : bv) : Prop :=
    exists c d, node = VDict (Some c) d /\
      match aget d k with None => v = VAtom ONull | Some x => bld x = Ok v end.
  (** "Present": not null and not empty. *)
  Definition Absent (v : bv) : Prop := v = VAtom ONull \/ v = VArr [] \/ exists c, v = VDict c [].
  Definition Present (v : bv) : Prop := (exists c d, v = VDict c d /\ d <> []).
  (** The Resources of a page and of its ancestors along Parent, from near to far. *)
  Inductive Chain : bv -> list bv -> Prop :=
  | Ch_root node r p lv : Attr node (bs "Resources") r -> Attr node (bs "Parent") p -> Absent p ->
      (Present r /\ lv = [r] \/ Absent r /\ lv = []) -> Chain node lv
  | Ch_up node r p lv lv' : Attr node (bs "Resources") r -> Attr node (bs "Parent") p -> Present p -> Chain p lv ->
      (Present r /\ lv' = r :: lv \/ Absent r /\ lv' = lv) -> Chain node lv'.

  (** Levels of which every kind is dictionaries everywhere or arrays of names everywhere. *)
  Definition good_dict (v : bv) : Prop := exists c d, v = VDict c d /\ forall k x, In (k, x) d -> exists w, bld x = Ok w.
  Definition good_array (v : bv) : Prop := exists a, v = VArr a /\ Forall (fun x => exists p, x = VAtom (OName p)) a.
  Definition well_kinded (ls : list level) : Prop := forall kind,
    (forall l v, In l ls -> aget l kind = Some v -> good_dict v) \/ (forall l v, In l ls -> aget l kind = Some v -> good_array v).
  (** No kind of resources is called "self". *)
  Definition no_self (ls : list level) : Prop := forall l, In l ls -> aget l (bs "self") = None.
End R.
