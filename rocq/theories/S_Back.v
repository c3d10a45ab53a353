(** The end of a file as the backwards search for the Encrypt dictionary needs it. *)
From Coq Require Import String.
From Verif Require Import Prelude M_Parser S_Syntax S_Print S_Write S_Length.
Local Open Scope Z_scope.

(** "num gen obj", as a search for that object spells it *)
Definition header_text (num gen : Z) : list Z := dec num ++ [32] ++ dec gen ++ bs " obj".
(** the word endobj is met at the end of [x endobj] and not before *)
Definition ends_once (x : list Z) : Prop := forall a b, x ++ bs "endobj" = a ++ bs "endobj" ++ b -> b = [].

(** One object at the end of the file: separators, then its text up to endobj.  It must not be too short for the
    search to step over it, nor start with the header looked for. *)
Definition block_text (b : list Z * list Z) : list Z := fst b ++ snd b ++ bs "endobj".
Definition block_ok (hdr : list Z) (b : list Z * list Z) : Prop :=
  Sep (fst b) /\ nosep (snd b) /\ snd b <> [] /\ ends_once (fst b ++ snd b) /\
  zlen hdr <= zlen (snd b) + 5 /\ firstn (List.length hdr) (snd b ++ bs "endobj") <> hdr.

(** [f] is  A endobj s  num gen obj .. endobj  later objects  z X  with [X] at offset [o] (where startxref points). *)
Definition last_objects (f : list Z) (num gen o : Z) (A s inner : list Z) (later : list (list Z * list Z)) (z X : list Z) : Prop :=
  let hdr := header_text num gen in
  f = A ++ bs "endobj" ++ s ++ (hdr ++ inner ++ bs "endobj") ++ flat_map block_text later ++ z ++ X /\
  o = zlen f - zlen X /\ Sep s /\ ends_once (s ++ hdr ++ inner) /\ Forall (block_ok hdr) later /\
  (List.length hdr <= List.length X)%nat /\ firstn (List.length hdr) X <> hdr /\ ~ has (bs "endobj") (z ++ firstn (List.length hdr) X).

(** A file with one revision whose table lists every object but number [en]. *)
Definition unlisted_items (objs : list (Z * Z * obj)) : list item := map (fun x => Whole (fst (fst x)) (snd (fst x)) (snd x)) objs.
Definition unlisted_file (a b en : Z) (objs : list (Z * Z * obj)) (t : dict) : list Z :=
  deferred_file a b (fun n => negb (n =? en)) (unlisted_items objs) t.
