(** Files with cross-reference streams and object streams (ISO 32000-1, 7.5.7, 7.5.8): their texts, and
    what a sequence of lookups in such a file gives. *)
From Coq Require Import String.
From Verif Require Import Prelude M_Parser M_Filters M_Document S_Syntax S_Stream S_Document S_XrefStream S_Registry S_Open S_History.
Local Open Scope Z_scope.

(** ---- texts ---- *)

(** A file body: objects, and "startxref N" sections, with separators before and between them. *)
Inductive ModBody : list (Z * Z * obj) -> list Z -> list Z -> Prop :=
| MB_end s rest : Sep s -> nosep rest -> ModBody [] s rest
| MB_obj s num gen v t l ts rest : Sep s -> IndObj num gen v t (ts ++ rest) -> ModBody l ts rest ->
    ModBody ((num, gen, v) :: l) (s ++ t ++ ts) rest
| MB_start s sep ds l ts rest : Sep s -> Sep sep -> ds <> [] -> digits_ok ds -> int_end (ts ++ rest) -> ModBody l ts rest ->
    ModBody l (s ++ bs "startxref" ++ sep ++ ds ++ ts) rest.

(** One cross-reference stream: its rows, numbered from [first]. *)
Definition section : Type := Z * list srow.
Section Filters.
  Variable inflate : list Z -> option (list Z).
  Variable ccitt : list Z -> fparams -> res (list Z).
  (** The stream with dictionary [d] and data [raw] is a cross-reference stream with one range. *)
  Definition XrefStm (d : dict) (raw : list Z) (sec : section) : Prop :=
    exists w1 w2 w3,
    dget d (bs "Type") = Some (OName (bs "XRef")) /\
    dget d (bs "W") = Some (OArr [OInt (Z.of_nat w1); OInt (Z.of_nat w2); OInt (Z.of_nat w3)]) /\ (0 < w1)%nat /\
    ((exists n, dget d (bs "Index") = Some (OArr [OInt (fst sec); OInt n])) \/
     (dget d (bs "Index") = None /\ fst sec = 0 /\ exists s, dget d (bs "Size") = Some s)) /\ 0 <= fst sec /\
    Forall (fits w1 w2 w3) (snd sec) /\
    filtered inflate ccitt d raw = Ok (List.concat (map (row_bytes w1 w2 w3) (snd sec))).
  (** [XChain f o secs objs d]: the streams met when starting at offset [o] and following Prev: their
      rows, the stream objects themselves, and the dictionary of the first. *)
  Inductive XChain (f : list Z) : Z -> list section -> list (Z * Z * obj) -> dict -> Prop :=
  | XC_last pre num gen d raw text rest sec :
      f = pre ++ text ++ rest -> IndObj num gen (OStream d raw) text rest -> XrefStm d raw sec ->
      dget d (bs "Prev") = None -> XChain f (zlen pre) [sec] [(num, gen, OStream d raw)] d
  | XC_prev pre num gen d raw text rest sec p secs objs d' :
      f = pre ++ text ++ rest -> IndObj num gen (OStream d raw) text rest -> XrefStm d raw sec ->
      dget d (bs "Prev") = Some (OInt p) -> 0 <= p -> XChain f p secs objs d' ->
      XChain f (zlen pre) (sec :: secs) ((num, gen, OStream d raw) :: objs) d.
  (** [Held v ms]: the objects held by the value [v]: those of an object stream, in order. *)
  Inductive Held : obj -> list (Z * obj) -> Prop :=
  | H_plain v : (forall d raw, v = OStream d raw -> ~ In (dget d (bs "Type")) [Some (OName (bs "ObjStm")); Some (OHex (bs "ObjStm")); Some (OTok (bs "ObjStm"))]) -> Held v []
  | H_stream d raw data first entries :
      dget d (bs "Type") = Some (OName (bs "ObjStm")) -> dget d (bs "N") = Some (OInt (zlen entries)) -> dget d (bs "First") = Some (OInt first) ->
      filtered inflate ccitt d raw = Ok data -> StmData first entries data ->
      Held (OStream d raw) (map (fun e => (fst (fst e), snd e)) entries).
End Filters.
(** The trailer entries taken from the dictionary of the newest stream. *)
Definition stm_trailer (d : dict) : dict :=
  map (fun k => (k, match dget d k with Some v => v | None => ONull end)) [bs "Size"; bs "Prev"; bs "Root"; bs "Encrypt"; bs "Info"; bs "ID"].

(** The offset given for an id by the newest section that lists its number in use with its generation. *)
Definition lists (sec : section) (num gen o : Z) : Prop := row_of (fst sec) (snd sec) num = Some (RUsed o gen).
Definition newest_row (secs : list section) (num gen o : Z) : Prop :=
  exists newer sec older, secs = newer ++ sec :: older /\ lists sec num gen o /\
    Forall (fun s => forall o', ~ lists s num gen o') newer.

(** ---- the memory machine ---- *)

(** An object with the objects it holds. *)
Definition elem : Type := Z * Z * obj * list (Z * obj).
(** Learning an object: if its id is new, the object and then those it holds (generation 0). *)
Definition learn_elem (K : contents) (e : elem) : contents :=
  let '(n, g, v, ms) := e in
  match K n g with
  | Some _ => K
  | None => fold_left (fun K' mv => learn K' (fst mv) 0 (snd mv)) ms (learn K n g v)
  end.
Fixpoint scan_elems (K : contents) (l : list elem) (num gen : Z) : contents * list elem :=
  match K num gen with
  | Some _ => (K, l)
  | None => match l with
            | [] => (learn K num gen ONull, [])
            | e :: r => scan_elems (learn_elem K e) r num gen
            end
  end.
(** One lookup: of what the sections list in use, else by scanning. *)
Definition mlook (listed : Z -> Z -> option (obj * list (Z * obj))) (s : contents * list elem) (num gen : Z) : obj * (contents * list elem) :=
  let s1 := match listed num gen with
            | Some (v, ms) => (learn_elem (fst s) (num, gen, v, ms), snd s)
            | None => scan_elems (fst s) (snd s) num gen
            end in
  (match fst s1 num gen with Some v => v | None => ONull end, s1).
Fixpoint mlooks (listed : Z -> Z -> option (obj * list (Z * obj))) (s : contents * list elem) (ids : list (Z * Z)) : list obj :=
  match ids with
  | [] => []
  | (n, g) :: r => let '(v, s1) := mlook listed s n g in v :: mlooks listed s1 r
  end.
(** What is known after opening: the cross-reference streams. *)
Definition opened_with (objs : list (Z * Z * obj)) : contents :=
  fold_left (fun K e => learn K (fst (fst e)) (snd (fst e)) (snd e)) objs (fun _ _ => None).

(** The elements as read with a decryption: what the object in the file decrypts to, and what that holds. *)
Definition Viewed (inflate : list Z -> option (list Z)) (ccitt : list Z -> fparams -> res (list Z)) (decrypt : Z -> Z -> obj -> res obj)
    (e : Z * Z * obj) (e' : elem) : Prop :=
  let '(n, g, v) := e in let '(n', g', v', ms) := e' in n' = n /\ g' = g /\ decrypt n g v = Ok v' /\ Held inflate ccitt v' ms.

(** ---- documents in which every id occurs once ---- *)

Fixpoint first_of (ms : list (Z * obj)) (n : Z) : option obj :=
  match ms with [] => None | (m, v) :: r => if n =? m then Some v else first_of r n end.
Definition ids_of (e : elem) : list (Z * Z) := let '(n, g, v, ms) := e in (n, g) :: map (fun mv => (fst mv, 0)) ms.
(** What such a file contains: the objects of its body and those held by them. *)
Fixpoint provided (l : list elem) (num gen : Z) : option obj :=
  match l with
  | [] => None
  | (n, g, v, ms) :: r =>
      if (num =? n) && (gen =? g) then Some v
      else match (if gen =? 0 then first_of ms num else None) with Some w => Some w | None => provided r num gen end
  end.
