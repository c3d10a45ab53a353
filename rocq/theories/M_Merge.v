(** Model of XRef.merge (types/xref.py). *)
From Verif Require Import Prelude M_Document.
Local Open Scope Z_scope.

(** for xre in d.values(): self.add_entry(xre) - by the entry's type, which is the one of the dictionary it is in *)
Definition add_all (t : xtyp) (d : list (Z * xent)) (x : xref) : xref := fold_left (fun x e => add_entry x t e) (map snd d) x.
(** types/xref.py 99-107 merge (the entries of the free objects are added twice) *)
Definition merge (x other : xref) : xref :=
  add_all TComp (x_comp other) (add_all TFree (x_free other) (add_all TInUse (x_inuse other) (add_all TFree (x_free other) x))).
