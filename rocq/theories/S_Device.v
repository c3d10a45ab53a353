(** Specification vocabulary for file objects shared by several readers: what one reader's calls give when it has the file
    object to itself (M_Buffer.v, which knows no file position). *)
From Verif Require Import Prelude M_Prog M_Buffer M_Parser M_Filters M_Document.
Local Open Scope Z_scope.

(** The calls made one after the other, each on the state the one before has left: what they return or raise. *)
Fixpoint by_itself {U A} (f : list Z) (B : Z) (calls : list (prog U A)) (s : cst U) : list (res A) * cst U :=
  match calls with
  | [] => ([], s)
  | p :: more => let '(r, s1) := crun f B p s in let '(rs, s2) := by_itself f B more s1 in (r :: rs, s2)
  end.
(** How often it was somebody's turn. *)
Fixpoint turns (i : nat) (schedule : list nat) : nat :=
  match schedule with [] => O | j :: r => if Nat.eqb i j then S (turns i r) else turns i r end.
(** [l] is how the list [whole] begins. *)
Definition begins {X} (l whole : list X) : Prop := exists rest, whole = l ++ rest.

(** PDFDocument(file object) followed by lookups of objects. *)
Definition open_and_look_up (inflate : list Z -> option (list Z)) (ccitt : list Z -> fparams -> res (list Z)) (dec : Z -> Z -> obj -> res obj) (D m k : nat)
    (ids : list (Z * Z)) : list (prog rst ((list Z * Z * dict) + obj)) :=
  Reset 0 (bind (open_document inflate ccitt dec D m k) (fun r => Ret (inl r))) ::
  map (fun id => bind (locate_object inflate ccitt dec D m k (fst id) (snd id)) (fun v => Ret (inr v))) ids.
