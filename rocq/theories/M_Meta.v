(** Document metadata and dates: document.py 145-164, utils.py 9, 34-62. *)
From Coq Require Import String.
From Verif Require Import Prelude M_Parser M_Document M_Objects.
Local Open Scope Z_scope.

(** bytes.decode() of CPython: strict UTF-8.  Environment, not part of /repo. *)
Definition cont (b : Z) : bool := (128 <=? b) && (b <=? 191).
Fixpoint utf8_decode (l : list Z) : option (list Z) :=
  let more c r := match utf8_decode r with Some t => Some (c :: t) | None => None end in
  match l with
  | [] => Some []
  | b0 :: r0 =>
      if (0 <=? b0) && (b0 <=? 127) then more b0 r0
      else match r0 with
      | [] => None
      | b1 :: r1 =>
          if (194 <=? b0) && (b0 <=? 223)
          then if cont b1 then more ((b0 - 192) * 64 + (b1 - 128)) r1 else None
          else match r1 with
          | [] => None
          | b2 :: r2 =>
              if (224 <=? b0) && (b0 <=? 239)
              then let c := (b0 - 224) * 4096 + (b1 - 128) * 64 + (b2 - 128) in
                   if cont b1 && cont b2 && (2048 <=? c) && negb ((55296 <=? c) && (c <=? 57343)) then more c r2 else None
              else match r2 with
              | [] => None
              | b3 :: r3 =>
                  let c := (b0 - 240) * 262144 + (b1 - 128) * 4096 + (b2 - 128) * 64 + (b3 - 128) in
                  if (240 <=? b0) && (b0 <=? 244) && cont b1 && cont b2 && cont b3 && (65536 <=? c) && (c <=? 1114111)
                  then more c r3 else None
              end
          end
      end
  end.

(** \d of a str pattern: the decimal digits of Unicode (category Nd, Unicode 14 of Python 3.11), in runs of
    ten.  Environment, not part of /repo. *)
Definition nd_runs : list Z := [ 48; 1632; 1776; 1984; 2406; 2534; 2662; 2790; 2918; 3046; 3174; 3302; 3430; 3558; 3664; 3792; 3872; 4160; 4240; 6112; 6160; 6470; 6608; 6784; 6800; 6992; 7088; 7232; 7248; 42528; 43216; 43264; 43472; 43504; 43600; 44016; 65296; 66720; 68912; 69734; 69872; 69942; 70096; 70384; 70736; 70864; 71248; 71360; 71472; 71904; 72016; 72784; 73040; 73120; 92768; 92864; 93008; 120782; 120792; 120802; 120812; 120822; 123200; 123632; 125264; 130032 ].
Definition re_d (c : Z) : bool := existsb (fun s => (s <=? c) && (c <=? s + 9)) nd_runs.

(** utils.py 9: RE_PDF_DATETIME, one entry per character of the pattern: the group it belongs to (0: none)
    and the characters it matches *)
Definition re_lit (x : Z) : nat * (Z -> bool) := (0%nat, fun c => c =? x).
Definition re_digits (g n : nat) : list (nat * (Z -> bool)) := repeat (g, re_d) n.
Definition re_sign (c : Z) : bool := (c =? 43) || (c =? 45) || (c =? 90) || (c =? 122).
Definition date_pattern : list (nat * (Z -> bool)) :=
  [re_lit 68; re_lit 58] ++ re_digits 1 4 ++ re_digits 2 2 ++ re_digits 3 2 ++ re_digits 4 2 ++ re_digits 5 2 ++
  re_digits 6 2 ++ [(7%nat, re_sign)] ++ re_digits 8 2 ++ [re_lit 39] ++ re_digits 9 2 ++ [re_lit 39].
(** characters with their groups, and the rest of the text *)
Fixpoint re_match (pat : list (nat * (Z -> bool))) (s : list Z) : option (list (nat * Z) * list Z) :=
  match pat with
  | [] => Some ([], s)
  | (g, p) :: pat' =>
      match s with
      | c :: s' => if p c then match re_match pat' s' with Some (m, r) => Some ((g, c) :: m, r) | None => None end else None
      | [] => None
      end
  end.
(** the final $: end of text, or just before a final line feed *)
Definition re_end (rest : list Z) : bool := match rest with [] => true | [c] => c =? 10 | _ => false end.
Definition group (m : list (nat * Z)) (g : nat) : list Z := map snd (filter (fun p => Nat.eqb (fst p) g) m).

Section Meta.
  (** datetime values and dateutil.parser.parse: environment *)
  Context {DT : Type}.
  Variable parse_date : list Z -> res DT.

  (** utils.py 34-62 from_pdf_datetime; str.replace acts on the whole text *)
  Definition from_pdf_datetime (s : list Z) : res DT :=
    match re_match date_pattern s with
    | Some (m, rest) =>
        if re_end rest then
          let g := group m in
          let text := g 1%nat ++ [45] ++ g 2%nat ++ [45] ++ g 3%nat ++ [84] ++ g 4%nat ++ [58] ++ g 5%nat ++ [58] ++ g 6%nat
                      ++ g 7%nat ++ g 8%nat ++ [58] ++ g 9%nat ++ rest in
          parse_date (map (fun c => if c =? 90 then 43 else c) text)
        else Err ValueErr
    | None => Err ValueErr
    end.

  (** A value in the information dictionary: as parsed, or as left by an earlier reading of the metadata. *)
  Inductive mval : Type := MObj (o : obj) | MText (t : list Z) | MDate (d : DT).
  Definition date_key (k : list Z) : bool := eqlZ k (bs "CreationDate") || eqlZ k (bs "ModDate").
  Definition meta_caught (e : exn) : bool := exn_eqb e UnicodeErr || exn_eqb e ValueErr || exn_eqb e TypeErr.
  (** document.py 156-163, one entry: what it becomes and the exception that escapes *)
  Definition meta_entry (k : list Z) (v : mval) : mval * option exn :=
    match v with
    | MObj (OStr s) =>
        match utf8_decode s with
        | None => (v, None)
        | Some t =>
            if date_key k
            then match from_pdf_datetime t with
                 | Ok d => (MDate d, None)
                 | Err e => (MText t, if meta_caught e then None else Some e)
                 end
            else (MText t, None)
        end
    | _ => (v, None)
    end.
  (** document.py 155-163: entries are replaced in place, in order *)
  Fixpoint meta_pass (d : list (list Z * mval)) : list (list Z * mval) * option exn :=
    match d with
    | [] => ([], None)
    | (k, v) :: r =>
        match meta_entry k v with
        | (v', Some e) => ((k, v') :: r, Some e)
        | (v', None) => let '(r', oe) := meta_pass r in ((k, v') :: r', oe)
        end
    end.

  (** What parser.locate_object gives for each id: an exception, a dictionary object with its current entries
      (shared with the registry, so changes last), or something else. *)
  Inductive cell : Type := CDict (d : list (list Z * mval)) | COther (o : obj).
  Definition heap := Z -> Z -> res cell.
  Definition hset (h : heap) (n g : Z) (c : cell) : heap :=
    fun n' g' => if (n' =? n) && (g' =? g) then Ok c else h n' g'.
  (** document.py 145-164; [info] is trailer.info *)
  Definition metadata (info : obj) (h : heap) : res (option (list (list Z * mval))) * heap :=
    if truthy info then
      match info with
      | ORef n g =>
          match h n g with
          | Err e => (Err e, h)
          | Ok (CDict d) =>
              let '(d', oe) := meta_pass d in
              (match oe with None => Ok (Some d') | Some e => Err e end, hset h n g (CDict d'))
          | Ok (COther (OStream _ _)) => (Err TypeErr, h)
          | Ok (COther _) => (Err AttributeErr, h)
          end
      | _ => (Err AttributeErr, h)
      end
    else (Ok None, h).
End Meta.
Arguments mval : clear implicits.
Arguments heap : clear implicits.
Arguments cell : clear implicits.
