(** Model of PDFDocument.deep_obj_by_ref (document.py 127-135).
    Simplifications: Python's while loop carries fuel; an IndirectObject is its number, generation and value (types/native.py
    150-158), every other value (an IndirectReference too) is a [bv]. *)
From Verif Require Import Prelude M_Parser M_Objects.
Local Open Scope Z_scope.

Inductive dval := DVal (v : bv) | DInd (num gen : Z) (v : bv).

Section Deep.
  (** document.py 111-113 obj_by_ref: by the attributes num and gen of its argument *)
  Variable obj_by_ref : Z -> Z -> res dval.
  (** document.py 127-135 deep_obj_by_ref(obj, maxdepth); [counter] is the local of this name *)
  Fixpoint deep_obj_by_ref (n : nat) (x : dval) (counter : Z) : res dval :=
    match n with
    | O => Err OutOfFuel
    | S n' =>
        match x with
        | DInd num gen _ => if counter =? 0 then Err ValueErr else rbind (obj_by_ref num gen) (fun y => deep_obj_by_ref n' y (counter - 1))
        | DVal _ => Ok x
        end
    end.
End Deep.
(** document.py 111-113 for the documents of the model, whose parser never returns an IndirectObject; [H]: parser.locate_object,
    [bld]: doc.build with no visited references *)
Definition document_obj_by_ref (H : Z -> Z -> res bv) (bld : bv -> res bv) (num gen : Z) : res dval :=
  rbind (H num gen) (fun v => rbind (factory bld v) (fun w => Ok (DVal w))).
