(** Model of == on parsed values: Python's own comparisons of numbers, texts, lists and dictionaries, and __eq__ of Stream and
    IndirectReference (types/native.py). *)
From Coq Require Import String.
From Verif Require Import Prelude M_Parser.
Local Open Scope Z_scope.

(** Numbers are the integers, the booleans (bool is a subclass of int) and the reals (Decimal): m * 10 ^ e *)
Definition num_of (v : obj) : option (Z * Z) :=
  match v with
  | OBool b => Some (if b then 1 else 0, 0)
  | OInt z => Some (z, 0)
  | OReal neg c e => Some (if neg then - c else c, e)
  | _ => None
  end.
(** int.__eq__, Decimal.__eq__: exact, whatever the exponents *)
Definition num_eq (a b : Z * Z) : bool :=
  let e := Z.min (snd a) (snd b) in fst a * 10 ^ (snd a - e) =? fst b * 10 ^ (snd b - e).
(** types/native.py 22-41, 166-171: names, hexadecimal strings and tokens are str; none of them has an __eq__ of its own *)
Definition text_of (v : obj) : option (list Z) := match v with OName s | OHex s | OTok s => Some s | _ => None end.
(** values of the classes without an __eq__ of this library, except lists and dictionaries *)
Definition atom_eq (a b : obj) : bool :=
  match num_of a, num_of b with
  | Some x, Some y => num_eq x y
  | _, _ => match text_of a, text_of b with
            | Some s, Some t => eqlZ s t
            | _, _ => match a, b with
                      | ONull, ONull => true
                      | OStr s, OStr t => eqlZ s t
                      | _, _ => false
                      end
            end
  end.
(** self.num == other.num where other is a stream: Stream.__getattr__ (types/native.py 124-125) answers with the dictionary's entry *)
Definition int_is (z : Z) (v : option obj) : res bool :=
  match v with
  | None => Ok false
  | Some (ORef _ _) | Some (OStream _ _) => Err AttributeErr
  | Some x => Ok (atom_eq (OInt z) x)
  end.
(** a == b.  A reference, and a stream, is asked (on either side) by its own __eq__ (types/native.py 146-147, 117-118), which reads
    attributes that other values do not have.  Lists and dictionaries compare their lengths, then the items, left to right, up
    to the first difference; that an item is equal to itself without being asked (identity) shows nowhere (C109_equivalence).
    Inline images, which have no __eq__, are not modelled. *)
Fixpoint py_eq (a b : obj) {struct a} : res bool :=
  let dict_eq := fix go (d d' : dict) {struct d} : res bool :=
    match d with
    | [] => Ok true
    | (k, v) :: r => match dget d' k with
                     | None => Ok false
                     | Some w => rbind (py_eq v w) (fun q => if q : bool then go r d' else Ok false)
                     end
    end in
  match a with
  | ORef n g => match b with
                | ORef n' g' => Ok ((n =? n') && (g =? g'))
                | OStream d _ => rbind (int_is n (dget d (bs "num"))) (fun q => if q : bool then int_is g (dget d (bs "gen")) else Ok false)
                | _ => Err AttributeErr
                end
  | OStream d data => match b with
                      | OStream d' data' => if zlen d =? zlen d' then rbind (dict_eq d d') (fun q => Ok (q && eqlZ data data')) else Ok false
                      | _ => Err AttributeErr
                      end
  | OArr l => match b with
              | ORef _ _ | OStream _ _ => Err AttributeErr
              | OArr l' =>
                  if zlen l =? zlen l' then
                    (fix go (l l' : list obj) {struct l} : res bool :=
                       match l, l' with
                       | x :: r, y :: r' => rbind (py_eq x y) (fun q => if q : bool then go r r' else Ok false)
                       | _, _ => Ok true
                       end) l l'
                  else Ok false
              | _ => Ok false
              end
  | ODict d => match b with
               | ORef _ _ | OStream _ _ => Err AttributeErr
               | ODict d' => if zlen d =? zlen d' then dict_eq d d' else Ok false
               | _ => Ok false
               end
  | _ => match b with ORef _ _ | OStream _ _ => Err AttributeErr | _ => Ok (atom_eq a b) end
  end.
