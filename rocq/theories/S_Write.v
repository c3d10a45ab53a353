(** A writer of whole files, independent of the parser: a version line, then one or more revisions, each
    with its objects, a cross-reference table of them, a trailer with /Prev, and startxref. *)
From Coq Require Import String.
From Verif Require Import Prelude M_Parser S_Print S_Xref.
Local Open Scope Z_scope.

(** Fixed-width decimals, entries "oooooooooo ggggg n CR LF", one subsection per object. *)
Fixpoint fixed_dec (w : nat) (z : Z) : list Z :=
  match w with O => [] | S w' => fixed_dec w' (z / 10) ++ [48 + z mod 10] end.

Definition entries_text (d : dict) : list Z :=
  flat_map (fun kv => 47 :: name_text (fst kv) ++ 32 :: print (snd kv) ++ [32]) d.
(** The text of one value; a stream is written with its dictionary, whose Length is the data's. *)
Definition value_text (v : obj) : list Z :=
  match v with
  | OStream d data => bs "<<" ++ entries_text d ++ bs ">> stream" ++ [10] ++ data ++ [10] ++ bs "endstream"
  | _ => print v
  end.
Definition writable (v : obj) : Prop :=
  match v with
  | OStream d data => printable (ODict d) /\ dget d (bs "Length") = Some (OInt (zlen data)) /\ dget d (bs "Type") <> Some (OName (bs "ObjStm"))
  | _ => printable v
  end.
Definition object_text (num gen : Z) (v : obj) : list Z :=
  dec num ++ [32] ++ dec gen ++ [32] ++ bs "obj" ++ [32] ++ value_text v ++ [32] ++ bs "endobj".

Record revision := mkRev { rv_objs : list (Z * Z * obj); rv_trailer : dict }.
(** Each object on its own line, from offset [start]; and what the table says of them. *)
Fixpoint body_text (objs : list (Z * Z * obj)) : list Z :=
  match objs with [] => [] | (n, g, v) :: r => object_text n g v ++ [10] ++ body_text r end.
Fixpoint listings (start : Z) (objs : list (Z * Z * obj)) : list listed :=
  match objs with
  | [] => []
  | (n, g, v) :: r => mkListed n g start true :: listings (start + zlen (object_text n g v) + 1) r
  end.
Definition row_text (x : listed) : list Z :=
  dec (li_num x) ++ bs " 1" ++ [10] ++ fixed_dec 10 (li_off x) ++ [32] ++ fixed_dec 5 (li_gen x) ++ [32] ++ [if li_used x then 110 else 102] ++ [13; 10].
Definition section_text (l : list listed) (t : dict) : list Z :=
  bs "xref" ++ [10] ++ flat_map row_text l ++ bs "trailer" ++ [10] ++ bs "<<" ++ entries_text t ++ bs ">>".
Definition end_text (o : Z) : list Z := [10] ++ bs "startxref" ++ [10] ++ dec o ++ [10] ++ bs "%%EOF" ++ [10].
Definition rev_text (start : Z) (t : dict) (r : revision) : list Z :=
  body_text (rv_objs r) ++ section_text (listings start (rv_objs r)) t ++ end_text (start + zlen (body_text (rv_objs r))).

(** Revisions are given newest first. *)
Section File.
  Variables (a b : Z).  (* the digits of the version *)
  Definition version_line : list Z := bs "%PDF-" ++ [a; 46; b] ++ [10].
  Definition trailer_with (prev : option Z) (t : dict) : dict :=
    match prev with None => t | Some p => t ++ [(bs "Prev", OInt p)] end.
  Fixpoint write (revs : list revision) : list Z * option Z :=
    match revs with
    | [] => (version_line, None)
    | r :: older => let '(f, prev) := write older in
                    (f ++ rev_text (zlen f) (trailer_with prev (rv_trailer r)) r, Some (zlen f + zlen (body_text (rv_objs r))))
    end.
  Definition file_of (revs : list revision) : list Z := fst (write revs).
  (** The trailer of the newest revision, as written. *)
  Definition trailer_of_file (revs : list revision) : dict :=
    match revs with [] => [] | r :: older => trailer_with (snd (write older)) (rv_trailer r) end.
End File.

(** What the objects of such a file are: the newest revision that has the id. *)
Fixpoint find_obj (objs : list (Z * Z * obj)) (num gen : Z) : option obj :=
  match objs with
  | [] => None
  | (n, g, v) :: r => if (n =? num) && (g =? gen) then Some v else find_obj r num gen
  end.
Fixpoint current (revs : list revision) (num gen : Z) : option obj :=
  match revs with
  | [] => None
  | r :: older => match find_obj (rv_objs r) num gen with Some v => Some v | None => current older num gen end
  end.
(** Object numbers and generations are in range and no revision has a number twice; values can be
    written; the trailer's entries can be written and none is named Prev, xrefs or self. *)
Definition rev_ok (r : revision) : Prop :=
  Forall (fun e => 0 <= fst (fst e) /\ 0 <= snd (fst e) < 10 ^ 5 /\ writable (snd e)) (rv_objs r) /\
  NoDup (map (fun e => fst (fst e)) (rv_objs r)) /\
  printable (ODict (rv_trailer r)) /\
  dget (rv_trailer r) (bs "Prev") = None /\ dget (rv_trailer r) (bs "xrefs") = None /\ dget (rv_trailer r) (bs "self") = None.
