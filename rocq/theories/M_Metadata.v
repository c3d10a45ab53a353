(** PDFDocument.metadata on a file: document.py 145-164 over the parser (M_Document, M_Secure).
    Simplified: one reading, of an information dictionary that no earlier reading has changed; M_Meta and C66 say what
    further readings do. *)
From Coq Require Import String.
From Verif Require Import Prelude M_Prog M_Parser M_Document M_Meta.
Local Open Scope Z_scope.
Local Open Scope prog_scope.

Section Metadata.
  Context {DT : Type}.
  Variable parse_date : list Z -> res DT.
  (** parser.locate_object *)
  Variable locate : Z -> Z -> prog rst obj.

  (** document.py 155-163: res.items() of what was located *)
  Definition metadata_of (v : obj) : res (list (list Z * mval DT)) :=
    match v with
    | ODict d => match meta_pass parse_date (map (fun kv => (fst kv, MObj (snd kv))) d) with
                 | (r, None) => Ok r
                 | (_, Some e) => Err e
                 end
    | OStream _ _ => Err TypeErr
    | _ => Err AttributeErr
    end.
  (** document.py 145-164; [t] is the trailer's dictionary *)
  Definition read_metadata (t : dict) : prog rst (option (list (list Z * mval DT))) :=
    let info := oget t (bs "Info") in
    if truthy info then
      match info with
      | ORef n g => v <- locate n g ;;
                    match metadata_of v with Ok r => ret (Some r) | Err e => throw e end
      | _ => throw AttributeErr
      end
    else ret None.
End Metadata.
