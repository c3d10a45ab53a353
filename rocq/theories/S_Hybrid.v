(** A writer of hybrid-reference files (ISO 32000-1, 7.5.8.4), independent of the parser: the file has a
    cross-reference table, in whose trailer XRefStm gives the offset of a cross-reference stream; the
    objects "hidden" in object streams are listed in that stream only. *)
From Coq Require Import String.
From Verif Require Import Prelude M_Parser S_Print S_Xref S_XrefStream S_Write S_Modern S_ModWrite.
Local Open Scope Z_scope.

Section Writer.
  Variable deflate : list Z -> list Z.
  Variables (a b : Z).  (* the digits of the version *)
  (** The table lists in use those objects for which [sel] says so, and lists [hidden] as free. *)
  Variable sel : Z -> bool.
  Variable hidden : list Z.
  Variable r : mrev.
  Definition hstart : Z := zlen (version_line a b).
  (** The plain objects, the object streams and the cross-reference stream, as they stand in the file. *)
  Definition hobjs : list (Z * Z * obj) := mobjs deflate r ++ [(mr_num r, 0, xvalue deflate hstart None r)].
  Definition htable : list listed :=
    filter (fun x => sel (li_num x)) (listings hstart hobjs) ++ map (fun n => mkListed n 65535 0 false) hidden.
  Definition htrailer : dict := mr_trailer r ++ [(bs "XRefStm", OInt (hstart + zlen (body_text (mobjs deflate r))))].
  Definition hybrid_file : list Z :=
    version_line a b ++ body_text hobjs ++ section_text htable htrailer ++ end_text (hstart + zlen (body_text hobjs)).
  (** What the file contains, the objects held in its object streams included. *)
  Definition hybrid_contents : list (Z * Z * obj) := rev_contents deflate hstart None r.
End Writer.
