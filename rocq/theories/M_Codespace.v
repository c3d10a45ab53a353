(** Model of CodespaceRanges (types/cmap.py 224-285): the code space of a character map. *)
From Verif Require Import Prelude M_CMap.
Local Open Scope Z_scope.

(** types/cmap.py 229-230 __bool__ *)
Definition cs_bool (rs : list range) : bool := match rs with [] => false | _ => true end.
(** types/cmap.py 232-255 __contains__: any(item in r for r in self.ranges) *)
Fixpoint cs_contains (rs : list range) (item : list Z) : res bool :=
  match rs with
  | [] => Ok false
  | r :: rest => rbind (range_contains r item) (fun b => if b : bool then Ok true else cs_contains rest item)
  end.
(** types/cmap.py 260-269 max; max() of nothing is a ValueError *)
Definition cs_max (rs : list range) : res Z :=
  match rs with [] => Err ValueErr | r :: rest => Ok (fold_left (fun a x => if a <? r_end x then r_end x else a) rest (r_end r)) end.
(** types/cmap.py 271-285 as_list: a set, sorted *)
Definition cs_list (rs : list range) : list (list Z) :=
  fold_left (fun acc r => fold_left (fun a x => insert x a) (range_list r) acc) rs [].
