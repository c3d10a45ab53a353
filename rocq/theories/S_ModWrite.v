(** A writer of whole files with cross-reference streams and object streams, independent of the parser. *)
From Coq Require Import String.
From Verif Require Import Prelude M_Parser S_Print S_Xref S_XrefStream S_Write S_Modern.
Local Open Scope Z_scope.

Section Writer.
  (** The Flate compressor. *)
  Variable deflate : list Z -> list Z.
  Definition packed (d : dict) (data : list Z) : obj :=
    OStream (d ++ [(bs "Filter", OName (bs "FlateDecode")); (bs "Length", OInt (zlen (deflate data)))]) (deflate data).

  (** An object stream: "number offset" for each object, then the values, each followed by a space. *)
  Fixpoint stm_entries (o : Z) (ms : list (Z * obj)) : list (Z * Z * obj) :=
    match ms with [] => [] | (n, v) :: r => (n, o, v) :: stm_entries (o + zlen (print v) + 1) r end.
  Definition stm_header (ms : list (Z * obj)) : list Z :=
    flat_map (fun e => dec (fst (fst e)) ++ [32] ++ dec (snd (fst e)) ++ [32]) (stm_entries 0 ms).
  Definition stm_data (ms : list (Z * obj)) : list Z := stm_header ms ++ flat_map (fun m => print (snd m) ++ [32]) ms.
  Definition stm_value (ms : list (Z * obj)) : obj :=
    packed [(bs "Type", OName (bs "ObjStm")); (bs "N", OInt (zlen ms)); (bs "First", OInt (zlen (stm_header ms)))] (stm_data ms).

  (** A revision: plain objects, object streams (number and objects), then its cross-reference stream,
      numbered [mr_num], with rows for the [mr_count] numbers from [mr_first]. *)
  Record mrev := mkMRev { mr_objs : list (Z * Z * obj); mr_stms : list (Z * list (Z * obj));
                          mr_num : Z; mr_first : Z; mr_count : nat; mr_trailer : dict }.
  Definition mobjs (r : mrev) : list (Z * Z * obj) := mr_objs r ++ map (fun s => (fst s, 0, stm_value (snd s))) (mr_stms r).
  Fixpoint index_of (n : Z) (ms : list (Z * obj)) (i : Z) : option Z :=
    match ms with [] => None | (m, _) :: r => if n =? m then Some i else index_of n r (i + 1) end.
  Fixpoint comp_of (n : Z) (ss : list (Z * list (Z * obj))) : option (Z * Z) :=
    match ss with [] => None | (s, ms) :: r => match index_of n ms 0 with Some i => Some (s, i) | None => comp_of n r end end.
  (** The row for number [n]: in use, compressed, or else free. *)
  Definition mrow (start : Z) (r : mrev) (n : Z) : srow :=
    match last_listed true n (listings start (mobjs r) ++ [mkListed (mr_num r) 0 (start + zlen (body_text (mobjs r))) true]) with
    | Some (g, o) => RUsed o g
    | None => match comp_of n (mr_stms r) with Some (s, i) => RComp s i | None => RFree 0 0 end
    end.
  Definition mrows (start : Z) (r : mrev) : list srow := map (fun i => mrow start r (mr_first r + Z.of_nat i)) (seq 0 (mr_count r)).
  Definition xdict (prev : option Z) (r : mrev) : dict :=
    [(bs "Type", OName (bs "XRef")); (bs "W", OArr [OInt 1; OInt 4; OInt 2]); (bs "Index", OArr [OInt (mr_first r); OInt (Z.of_nat (mr_count r))])] ++
    mr_trailer r ++ match prev with None => [] | Some p => [(bs "Prev", OInt p)] end.
  Definition xvalue (start : Z) (prev : option Z) (r : mrev) : obj :=
    packed (xdict prev r) (List.concat (map (row_bytes 1 4 2) (mrows start r))).
  Definition mrev_text (start : Z) (prev : option Z) (r : mrev) : list Z :=
    body_text (mobjs r) ++ object_text (mr_num r) 0 (xvalue start prev r) ++ end_text (start + zlen (body_text (mobjs r))).
  (** Revisions are given newest first.  [a], [b]: the digits of the version. *)
  Variables (a b : Z).
  Fixpoint mwrite (revs : list mrev) : list Z * option Z :=
    match revs with
    | [] => (version_line a b, None)
    | r :: older => let '(f, prev) := mwrite older in (f ++ mrev_text (zlen f) prev r, Some (zlen f + zlen (body_text (mobjs r))))
    end.
  Definition modern_file (revs : list mrev) : list Z := fst (mwrite revs).

  (** What the file contains, in the order of the file (oldest revision first): the plain objects, the
      object streams with the objects they hold (generation 0), the cross-reference streams. *)
  Definition rev_contents (start : Z) (prev : option Z) (r : mrev) : list (Z * Z * obj) :=
    mr_objs r ++ flat_map (fun s => (fst s, 0, stm_value (snd s)) :: map (fun m => (fst m, 0, snd m)) (snd s)) (mr_stms r) ++
    [(mr_num r, 0, xvalue start prev r)].
  Fixpoint file_contents (revs : list mrev) : list (Z * Z * obj) :=
    match revs with
    | [] => []
    | r :: older => file_contents older ++ rev_contents (zlen (modern_file older)) (snd (mwrite older)) r
    end.
  (** Only the objects that stand in the file themselves, with their texts. *)
  Definition rev_objects (start : Z) (prev : option Z) (r : mrev) : list (Z * Z * obj) := mobjs r ++ [(mr_num r, 0, xvalue start prev r)].
  Fixpoint file_objects (revs : list mrev) : list (Z * Z * obj) :=
    match revs with
    | [] => []
    | r :: older => file_objects older ++ rev_objects (zlen (modern_file older)) (snd (mwrite older)) r
    end.
  (** The value of the newest revision that has the object. *)
  Fixpoint newest_value (revs : list mrev) (num gen : Z) : option obj :=
    match revs with
    | [] => None
    | r :: older => match find_obj (rev_contents (zlen (modern_file older)) (snd (mwrite older)) r) num gen with
                    | Some v => Some v | None => newest_value older num gen end
    end.
  (** The trailer as read: the entries of the newest cross-reference stream, null where there is none. *)
  Definition trailer_read (prev : option Z) (t : dict) : dict :=
    map (fun k => (k, match (if eqlZ k (bs "Prev") then option_map OInt prev else dget t k) with Some v => v | None => ONull end))
        [bs "Size"; bs "Prev"; bs "Root"; bs "Encrypt"; bs "Info"; bs "ID"].

  (** What can be written. *)
  Definition mrev_ok (r : mrev) : Prop :=
    Forall (fun e => 0 <= fst (fst e) /\ 0 <= snd (fst e) < 256 ^ 2 /\ writable (snd e)) (mr_objs r) /\
    Forall (fun s => 0 <= fst s < 256 ^ 4 /\ zlen (snd s) < 256 ^ 2 /\ Forall (fun m => 0 <= fst m /\ printable (snd m)) (snd s)) (mr_stms r) /\
    0 <= mr_num r /\ 0 <= mr_first r /\ printable (ODict (mr_trailer r)) /\
    Forall (fun k => dget (mr_trailer r) k = None) [bs "Type"; bs "W"; bs "Index"; bs "Prev"; bs "Filter"; bs "DecodeParms"; bs "Length"].
End Writer.
