(** A page's content divided into several streams (PDF 32000, 7.8.2 and table 30: the streams of a Contents array read as one,
    with white space between them). *)
From Coq Require Import String.
From Verif Require Import Prelude M_Parser M_Objects S_Syntax S_Stream S_App.
Local Open Scope Z_scope.

(** The text of a sequence of operators and inline images, with separators before, between and after them. *)
Definition Text (its : list citem) (b : list Z) : Prop := exists lead ss, b = lead ++ ss /\ Sep lead /\ Content its ss.
(** It can be continued by anything: it is empty or its last byte is white space. *)
Definition closed (b : list Z) : Prop := b = [] \/ exists b' c, b = b' ++ [c] /\ is_ws c = true.
(** Every part but the last. *)
Fixpoint closed_parts (bs : list (list Z)) : Prop :=
  match bs with [] | [_] => True | b :: r => closed b /\ closed_parts r end.

(** The page [d] of the document [o] has several content streams, which spell [itss]; [sep] says what
    is asked of the streams' data. *)
Definition Split (o : Z -> Z -> option obj) (inflate : list Z -> option (list Z)) (sep : list (list Z) -> Prop) (d : dict) (itss : list (list citem)) : Prop :=
  exists v l parts, dget d (bs "Contents") = Some v /\ follow o v = OArr l /\ Forall2 (Data o inflate) l parts /\
    Forall2 Text itss parts /\ sep parts.
