(** Specification of stream objects, inline images and content streams (texts). *)
From Coq Require Import String.
From Verif Require Import Prelude M_Parser S_Syntax.
Local Open Scope Z_scope.

(** What may stand between the keyword "stream" and the data: LF, CR LF, CR (data not starting
    with LF), or nothing when the data starts with neither CR nor LF. *)
Definition StreamEol (e body : list Z) : Prop :=
  Eol e body \/ (e = [] /\ head_is (fun c => (c =? 13) || (c =? 10)) body = false).

Definition all_ws (l : list Z) : Prop := Forall (fun c => is_ws c = true) l.

(** Text of a stream: dictionary, separator, keyword, end of line, data, white space, keyword. *)
Definition stream_text (s0 s sp' e data ws : list Z) : list Z :=
  60 :: 60 :: s0 ++ s ++ 62 :: 62 :: sp' ++ bs "stream" ++ e ++ data ++ ws ++ bs "endstream".

(** [raw] is what precedes the first occurrence of "endstream". *)
Definition first_endstream (raw : list Z) : Prop :=
  forall a b, raw ++ bs "endstream" = a ++ bs "endstream" ++ b -> b = [].

(** Drop leading white space. *)
Fixpoint drop_ws (l : list Z) : list Z :=
  match l with x :: r => if is_ws x then drop_ws r else l | [] => [] end.

(** A Length of [k] is noticed to be wrong on [body] (all bytes after "stream" and its end of
    line): past [k] bytes and white space there are nine more bytes, and they are not "endstream". *)
Definition wrong_length (k : Z) (body : list Z) : Prop :=
  k <= zlen body /\ 9 <= zlen (drop_ws (skipn (Z.to_nat k) body)) /\
  firstn 9 (drop_ws (skipn (Z.to_nat k) body)) <> bs "endstream".

(** [data] is [raw] without its trailing CR and LF bytes. *)
Definition without_trailing_eol (raw data : list Z) : Prop :=
  exists eols, raw = data ++ eols /\ Forall (fun c => c = 13 \/ c = 10) eols /\
    (forall x d, data = d ++ [x] -> x <> 13 /\ x <> 10).

(** Inline images.  [bordered l]: l ends with EI next to white space. *)
Definition bordered (l : list Z) : Prop :=
  exists a w, is_ws w = true /\ (l = a ++ [w; 69; 73] \/ l = a ++ [69; 73; w]).
(** [ImageEnd data t]: [t] is the data followed by EI and one white space byte, before or after it,
    and no shorter part of [t] ends that way. *)
Definition ImageEnd (data t : list Z) : Prop :=
  (exists w, is_ws w = true /\ (t = data ++ [w; 69; 73] \/ t = data ++ [69; 73; w])) /\
  (forall a b, t = a ++ b -> bordered a -> b = []).
Definition image_text (sep0 s t : list Z) (w0 : Z) : list Z := 66 :: 73 :: sep0 ++ s ++ 73 :: 68 :: w0 :: t.

(** Operator names: regular characters, not starting like a number, and not a keyword. *)
Definition OpName (w : list Z) : Prop :=
  w <> [] /\ Forall (fun c => is_ws c = false /\ is_delim c = false) w /\
  head_is (fun c => is_digit c || memZ c [43; 45; 46]) w = false /\
  w <> bs "null" /\ w <> bs "true" /\ w <> bs "false" /\ w <> bs "BI".

(** A content stream: operands, operator, separator, ...; or an inline image. *)
Inductive Content : list citem -> list Z -> Prop :=
| Co_nil : Content [] []
| Co_op ops so op sep its ss :
    SerElems FContent ops so (op ++ sep ++ ss) -> OpName op -> Sep sep -> nonreg (sep ++ ss) ->
    Content its ss -> Content (COp op ops :: its) (so ++ op ++ sep ++ ss)
| Co_img es sep0 s w0 data t sep its ss :
    Sep sep0 -> nonreg (sep0 ++ s ++ bs "ID") -> SerEntries FInline es s (73 :: 68 :: w0 :: t ++ sep ++ ss) ->
    is_ws w0 = true -> ImageEnd data t -> Sep sep -> Content its ss ->
    Content (CImage (dict_of es) data :: its) (image_text sep0 s t w0 ++ sep ++ ss).
