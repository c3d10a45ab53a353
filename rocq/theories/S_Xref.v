(** Specification of cross-reference tables, trailers and cross-reference streams. *)
From Coq Require Import String.
From Verif Require Import Prelude M_Parser S_Syntax.
Local Open Scope Z_scope.

(** One listed object: number, generation, offset, in use or free. *)
Record listed := mkListed { li_num : Z; li_gen : Z; li_off : Z; li_used : bool }.

(** "oooooooooo ggggg n" with a two-byte end of line: 20 bytes. *)
Inductive EntryText : listed -> list Z -> Prop :=
| ET num o g (used : bool) e :
    List.length o = 10%nat -> digits_ok o -> List.length g = 5%nat -> digits_ok g ->
    In e [[32; 13]; [32; 10]; [13; 10]] ->
    EntryText (mkListed num (dvalue g) (dvalue o) used)
              (o ++ [32] ++ g ++ [32] ++ [if used then 110 else 102] ++ e).
(** Consecutive entries of one subsection, numbered from [first]. *)
Inductive EntriesText : Z -> list listed -> list Z -> Prop :=
| EsT_nil first : EntriesText first [] []
| EsT_cons first x t l s : li_num x = first -> EntryText x t -> EntriesText (first + 1) l s ->
    EntriesText first (x :: l) (t ++ s).
(** Subsections "first count EOL entries", followed by [rest]. *)
Inductive Sections : list listed -> list Z -> list Z -> Prop :=
| Sec_nil rest : Sections [] [] rest
| Sec_cons d1 d2 e l s ls ss rest :
    d1 <> [] -> digits_ok d1 -> d2 <> [] -> digits_ok d2 -> dvalue d2 = zlen l ->
    Eol e (s ++ ss ++ rest) -> EntriesText (dvalue d1) l s -> Sections ls ss rest ->
    Sections (l ++ ls) (d1 ++ [32] ++ d2 ++ e ++ s ++ ss) rest.
(** A whole table. *)
Inductive TableText : list listed -> list Z -> list Z -> Prop :=
| TT l sep s rest : Sep sep -> Sections l s rest -> nosep (s ++ rest) ->
    TableText l (bs "xref" ++ sep ++ s) rest.

(** The last listing of number [k] among those in use (or free). *)
Fixpoint last_listed (used : bool) (k : Z) (l : list listed) : option (Z * Z) :=
  match l with
  | [] => None
  | x :: r =>
      match last_listed used k r with
      | Some y => Some y
      | None => if (li_num x =? k) && Bool.eqb (li_used x) used then Some (li_gen x, li_off x) else None
      end
  end.

(** A table and its trailer dictionary. *)
Inductive SectionText : list listed -> dict -> list Z -> list Z -> Prop :=
| ST l t sep1 sep2 s0 es s rest :
    TableText l t (sep1 ++ bs "trailer" ++ sep2 ++ 60 :: 60 :: s0 ++ s ++ 62 :: 62 :: rest) ->
    Sep sep1 -> Sep sep2 -> Sep s0 -> SerEntries FBasic es s (62 :: 62 :: rest) ->
    SectionText l (dict_of es) (t ++ sep1 ++ bs "trailer" ++ sep2 ++ 60 :: 60 :: s0 ++ s ++ [62; 62]) rest.
(** Such a section stands at offset [o] of the file. *)
Definition section_at (f : list Z) (o : Z) (l : list listed) (t : dict) : Prop :=
  exists pre text rest, f = pre ++ text ++ rest /\ o = zlen pre /\ SectionText l t text rest.

(** The chain of sections linked by /Prev, newest first: [Chain f o ls t] starts with the section at
    [o], whose trailer is [t]; it ends with a section without /Prev. *)
Inductive Chain (f : list Z) : Z -> list (list listed) -> dict -> Prop :=
| Ch_last o l t : section_at f o l t -> dget t (bs "Prev") = None -> Chain f o [l] t
| Ch_prev o l t p ls t' : section_at f o l t -> dget t (bs "Prev") = Some (OInt p) -> 0 < p ->
    Chain f p ls t' -> Chain f o (l :: ls) t.
