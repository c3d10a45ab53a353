(** What a sequence of lookups in a file gives, exactly: the objects learnt so far and the part of the
    file body not scanned yet are remembered between lookups. *)
From Coq Require Import String.
From Verif Require Import Prelude M_Parser S_Open S_Write.
Local Open Scope Z_scope.

(** What is known of each id; what is learnt first stays. *)
Definition learn (K : contents) (n g : Z) (v : obj) : contents := fun a b =>
  match K a b with Some w => Some w | None => if (a =? n) && (b =? g) then Some v else None end.

(** Scanning the objects [l] of the body for an id: all objects up to the first with the id are learnt;
    at the end of the body the id is known to be missing. *)
Fixpoint scan_until (K : contents) (l : list (Z * Z * obj)) (num gen : Z) : contents * list (Z * Z * obj) :=
  match K num gen with
  | Some _ => (K, l)
  | None => match l with
            | [] => (learn K num gen ONull, [])
            | (n, g, v) :: r => scan_until (learn K n g v) r num gen
            end
  end.

(** One lookup: of what the tables list, else by scanning. *)
Definition look (listed : contents) (s : contents * list (Z * Z * obj)) (num gen : Z) : obj * (contents * list (Z * Z * obj)) :=
  let s1 := match listed num gen with
            | Some v => (learn (fst s) num gen v, snd s)
            | None => scan_until (fst s) (snd s) num gen
            end in
  (match fst s1 num gen with Some v => v | None => ONull end, s1).
Fixpoint looks (listed : contents) (s : contents * list (Z * Z * obj)) (ids : list (Z * Z)) : list obj :=
  match ids with
  | [] => []
  | (n, g) :: r => let '(v, s1) := look listed s n g in v :: looks listed s1 r
  end.

(** For a written document.  [id] is looked up after the ids [before]: it is the newest revision's value,
    unless an id that the document does not contain was looked up before [id] was looked up for the
    first time; then it is the oldest revision's value if that revision has [id]. *)
Definition same_id (x y : Z * Z) : bool := (fst x =? fst y) && (snd x =? snd y).
Fixpoint until_first (id : Z * Z) (before : list (Z * Z)) : list (Z * Z) :=
  match before with [] => [] | x :: r => if same_id id x then [] else x :: until_first id r end.
Definition missing (revs : list revision) (id : Z * Z) : bool := match current revs (fst id) (snd id) with None => true | _ => false end.
Definition oldest (revs : list revision) : revision := last revs (mkRev [] []).
Definition value_after (revs : list revision) (before : list (Z * Z)) (id : Z * Z) : obj :=
  match current revs (fst id) (snd id) with
  | None => ONull
  | Some v => if existsb (missing revs) (until_first id before)
              then match find_obj (rv_objs (oldest revs)) (fst id) (snd id) with Some w => w | None => v end
              else v
  end.
Fixpoint values_after (revs : list revision) (before ids : list (Z * Z)) : list obj :=
  match ids with [] => [] | id :: r => value_after revs before id :: values_after revs (before ++ [id]) r end.
