(** A writer of files whose tables also have free rows: the row of object 0 that every PDF file has, and the rows of objects that an
    update deletes. *)
From Coq Require Import String.
From Verif Require Import Prelude M_Parser S_Print S_Xref S_Write.
Local Open Scope Z_scope.

(** One revision: its objects and trailer, and the free rows of its table (number, next generation, next free number). *)
Record update := mkUpd { up_rev : revision; up_free : list listed }.
Definition up_listed (start : Z) (x : update) : list listed := up_free x ++ listings start (rv_objs (up_rev x)).
Definition up_text (start : Z) (t : dict) (x : update) : list Z :=
  body_text (rv_objs (up_rev x)) ++ section_text (up_listed start x) t ++ end_text (start + zlen (body_text (rv_objs (up_rev x)))).
Section File.
  Variables (a b : Z).
  (** Updates are given newest first; the offset is that of the newest table. *)
  Fixpoint write_free (ups : list update) : list Z * option Z :=
    match ups with
    | [] => (version_line a b, None)
    | x :: older => let '(f, prev) := write_free older in
                    (f ++ up_text (zlen f) (trailer_with prev (rv_trailer (up_rev x))) x, Some (zlen f + zlen (body_text (rv_objs (up_rev x)))))
    end.
  Definition free_file (ups : list update) : list Z := fst (write_free ups).
  Definition free_trailer (ups : list update) : dict :=
    match ups with [] => [] | x :: older => trailer_with (snd (write_free older)) (rv_trailer (up_rev x)) end.
End File.
Definition upd_ok (x : update) : Prop :=
  rev_ok (up_rev x) /\
  Forall (fun y => li_used y = false /\ 0 <= li_num y /\ 0 <= li_gen y < 10 ^ 5 /\ 0 <= li_off y < 10 ^ 10) (up_free x).
(** The number is marked as free by the newest update that mentions it. *)
Fixpoint freed (ups : list update) (num : Z) : Prop :=
  match ups with
  | [] => False
  | x :: older => In num (map li_num (up_free x)) \/ (~ In num (map (fun e => fst (fst e)) (rv_objs (up_rev x))) /\ freed older num)
  end.
