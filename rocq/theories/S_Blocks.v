(** Specification vocabulary for documents opened through the buffer that loads the file block by block (M_Buffer.v). *)
From Coq Require Import String.
From Verif Require Import Prelude M_Prog M_Buffer M_Parser M_Filters M_Document S_Syntax S_Document.
Local Open Scope Z_scope.

(** The file ends with "startxref", a number (after white space and comments) and "%%EOF": these are the last ones, something
    precedes startxref and at most 1018 bytes follow %%EOF. *)
Definition ends_properly (f : list Z) : Prop := exists A sep ds r T,
  f = A ++ bs "startxref" ++ (sep ++ ds ++ r) ++ bs "%%EOF" ++ T /\
  A <> [] /\ zlen T + 5 <= 1023 /\
  last_occ (bs "%%EOF") (bs "%%EOF" ++ T) /\ last_occ (bs "startxref") (bs "startxref" ++ sep ++ ds ++ r) /\
  Sep sep /\ ds <> [] /\ digits_ok ds /\ int_end (r ++ bs "%%EOF" ++ T).

Section Session.
  Variable inflate : list Z -> option (list Z).
  Variable ccitt : list Z -> fparams -> res (list Z).
  Variable decrypt : Z -> Z -> obj -> res obj.
  Variables (D m k : nat).
  (** Lookups made one after the other, on the buffer with blocks of [B] bytes; some may raise. *)
  Fixpoint buffered_session (B : Z) (f : list Z) (c : cst rst) (ids : list (Z * Z)) : list (res obj) * cst rst :=
    match ids with
    | [] => ([], c)
    | (num, gen) :: r =>
        let '(v, c1) := crun f B (locate_object inflate ccitt decrypt D m k num gen) c in
        let '(vs, c2) := buffered_session B f c1 r in (v :: vs, c2)
    end.
End Session.

(** The Encrypt dictionary of the trailer, when there is one, is found through the cross-reference tables. *)
Definition encrypt_listed inflate ccitt (D m k : nat) (f : list Z) : Prop :=
  forall ver off t s n g, arun f (open_document inflate ccitt (fun _ _ v => Ok v) D m k) (mkA 0 [] (mkR [] None None [])) = (Ok (ver, off, t), s) ->
  dget t (bs "Encrypt") = Some (ORef n g) ->
  exists xs v s', r_xrefs (a_usr s) = Some xs /\ truthy v = true /\
    let locate := locate_object inflate ccitt (fun _ _ v => Ok v) D m k in
    arun f (by_xref locate (reg_indirect inflate ccitt (fun _ _ v => Ok v) D m (length_hook locate)) xs n g) s = (Ok v, s').
