(** Specification of files whose newer revisions use another kind of cross-reference section than the
    older ones (ISO 32000-1, 7.5.4, 7.5.8): the sections met when following Prev. *)
From Coq Require Import String.
From Verif Require Import Prelude M_Parser M_Filters M_Document S_Syntax S_Stream S_Document S_Xref S_Modern.
Local Open Scope Z_scope.

(** [TablesTo f o n q]: at [o] stands a cross-reference table with its trailer, whose Prev leads to the
    next, and so on for [n] tables; the Prev of the last leads to the offset [q]. *)
Inductive TablesTo (f : list Z) : Z -> nat -> Z -> Prop :=
| TT_one o l t q : section_at f o l t -> dget t (bs "Prev") = Some (OInt q) -> 0 < q -> TablesTo f o 1 q
| TT_more o l t p n q : section_at f o l t -> dget t (bs "Prev") = Some (OInt p) -> 0 < p -> TablesTo f p n q -> TablesTo f o (S n) q.

Section Filters.
  Variable inflate : list Z -> option (list Z).
  Variable ccitt : list Z -> fparams -> res (list Z).
  (** The cross-reference stream at offset [o], with dictionary [d]. *)
  Definition stream_at (f : list Z) (o : Z) (d : dict) : Prop :=
    exists pre num gen raw text rest sec, f = pre ++ text ++ rest /\ o = zlen pre /\ IndObj num gen (OStream d raw) text rest /\ XrefStm inflate ccitt d raw sec.
  (** The same for [n] cross-reference streams. *)
  Inductive StreamsTo (f : list Z) : Z -> nat -> Z -> Prop :=
  | ST_one o d q : stream_at f o d -> dget d (bs "Prev") = Some (OInt q) -> 0 <= q -> StreamsTo f o 1 q
  | ST_more o d p n q : stream_at f o d -> dget d (bs "Prev") = Some (OInt p) -> 0 <= p -> StreamsTo f p n q -> StreamsTo f o (S n) q.
End Filters.

(** An indirect object - a cross-reference stream, or any other - stands at [q]. *)
Definition object_at (f : list Z) (q : Z) : Prop :=
  exists pre num gen v text rest, f = pre ++ text ++ rest /\ q = zlen pre /\ IndObj num gen v text rest.
