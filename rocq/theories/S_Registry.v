(** Specification of object streams (ISO 32000-1, 7.5.7) and of registration histories. *)
From Coq Require Import String.
From Verif Require Import Prelude M_Parser S_Syntax.
Local Open Scope Z_scope.

(** The header of an object stream: pairs of integers (object number, offset). *)
Inductive StmHeader : list (Z * Z) -> list Z -> list Z -> Prop :=
| SH_nil rest : StmHeader [] [] rest
| SH_cons s1 d1 s2 d2 l t rest :
    Sep s1 -> d1 <> [] -> digits_ok d1 -> s2 <> [] -> Sep s2 -> d2 <> [] -> digits_ok d2 ->
    int_end (t ++ rest) -> StmHeader l t rest ->
    StmHeader ((dvalue d1, dvalue d2) :: l) (s1 ++ d1 ++ s2 ++ d2 ++ t) rest.

(** The text of value [v] stands at offset [o] of [data]. *)
Definition value_at (data : list Z) (o : Z) (v : obj) : Prop :=
  exists pre lead s rest sep, data = pre ++ lead ++ s ++ rest /\ zlen pre = o /\ Sep lead /\
  Ser FBasic v s rest /\ tail_ok v sep rest.

(** [StmData fo entries data]: the decoded data of an object stream whose First is [fo] and that holds
    [entries] = (number, offset, value). *)
Definition StmData (fo : Z) (entries : list (Z * Z * obj)) (data : list Z) : Prop :=
  (exists hdr rest, data = hdr ++ rest /\ StmHeader (map fst entries) hdr rest) /\
  Forall (fun e => value_at data (fo + snd (fst e)) (snd e)) entries.

(** The first value listed for a number. *)
Fixpoint first_listed (entries : list (Z * Z * obj)) (n : Z) : option obj :=
  match entries with
  | [] => None
  | (m, _, v) :: r => if n =? m then Some v else first_listed r n
  end.
