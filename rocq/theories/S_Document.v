(** Specification of the file-level texts: indirect objects, headers, cross-reference tables. *)
From Coq Require Import String.
From Verif Require Import Prelude M_Parser M_Document S_Syntax S_Stream.
Local Open Scope Z_scope.

(** [StreamText d data s rest]: [s] is a text of the stream with dictionary [d] and data [data] when
    followed by [rest]: either its Length is right, or it is noticeably wrong and the data is what
    stands before the first "endstream" without trailing ends of line. *)
Inductive StreamText : dict -> list Z -> list Z -> list Z -> Prop :=
| STx_right es s0 s sp' e data ws rest :
    Sep s0 -> Sep sp' ->
    SerEntries FBasic es s (62 :: 62 :: sp' ++ bs "stream" ++ e ++ data ++ ws ++ bs "endstream" ++ rest) ->
    dget (dict_of es) (bs "Length") = Some (OInt (zlen data)) ->
    StreamEol e (data ++ ws ++ bs "endstream" ++ rest) -> all_ws ws ->
    StreamText (dict_of es) data (stream_text s0 s sp' e data ws) rest
| STx_wrong es s0 s sp' e raw data k rest :
    Sep s0 -> Sep sp' ->
    SerEntries FBasic es s (62 :: 62 :: sp' ++ bs "stream" ++ e ++ raw ++ bs "endstream" ++ rest) ->
    dget (dict_of es) (bs "Length") = Some (OInt k) ->
    StreamEol e (raw ++ bs "endstream" ++ rest) ->
    wrong_length k (raw ++ bs "endstream" ++ rest) ->
    first_endstream raw -> without_trailing_eol raw data ->
    StreamText (dict_of es) data (stream_text s0 s sp' e raw []) rest.

(** What may be the value of an indirect object. *)
Inductive Value : obj -> list Z -> list Z -> Prop :=
| V_plain v s rest : Ser FBasic v s rest -> Value v s rest
| V_stream d data s rest : StreamText d data s rest -> Value (OStream d data) s rest.

(** "n g obj" with separators. *)
Definition ind_head (ds1 s1 ds2 s2 s3 : list Z) : list Z := ds1 ++ s1 ++ ds2 ++ s2 ++ bs "obj" ++ s3.
Definition ind_head_ok (ds1 s1 ds2 s2 s3 : list Z) : Prop :=
  ds1 <> [] /\ digits_ok ds1 /\ Sep s1 /\ s1 <> [] /\ ds2 <> [] /\ digits_ok ds2 /\ Sep s2 /\ Sep s3.

(** [IndObj num gen v s rest]: [s] is a text of the indirect object when followed by [rest]; for a
    stream "endobj" may be missing if at least six other bytes follow. *)
Inductive IndObj : Z -> Z -> obj -> list Z -> list Z -> Prop :=
| IO_full ds1 s1 ds2 s2 s3 v vt s4 rest :
    ind_head_ok ds1 s1 ds2 s2 s3 -> Value v vt (s4 ++ bs "endobj" ++ rest) -> Sep s4 ->
    IndObj (dvalue ds1) (dvalue ds2) v (ind_head ds1 s1 ds2 s2 s3 ++ vt ++ s4 ++ bs "endobj") rest
| IO_noend ds1 s1 ds2 s2 s3 d data vt s4 rest :
    ind_head_ok ds1 s1 ds2 s2 s3 -> StreamText d data vt (s4 ++ rest) -> Sep s4 -> nosep rest ->
    6 <= zlen rest -> firstn 6 rest <> bs "endobj" ->
    IndObj (dvalue ds1) (dvalue ds2) (OStream d data) (ind_head ds1 s1 ds2 s2 s3 ++ vt ++ s4) rest.

(** The same object with a hook-independent text: a stream's Length is an integer in the text (not a
    reference), which [StreamText] says. *)

(** Version markers: "%PDF-a.b", or "%IPS-Adobe-c.d PDF-a.b". *)
Inductive MarkerText : list Z -> list Z -> Prop :=
| MT_pdf a b : is_digit a = true -> is_digit b = true ->
    MarkerText [a; 46; b] (bs "%PDF-" ++ [a; 46; b])
| MT_ips c d a b : is_digit c = true -> is_digit d = true -> is_digit a = true -> is_digit b = true ->
    MarkerText [a; 46; b] (bs "%IPS-Adobe-" ++ [c; 46; d] ++ bs " PDF-" ++ [a; 46; b]).
(** A marker with version [ver] stands at offset [p] of the file and ends at [e]. *)
Definition marker_at (f : list Z) (ver : list Z) (p e : Z) : Prop :=
  exists pre text rest, f = pre ++ text ++ rest /\ MarkerText ver text /\ p = zlen pre /\ e = p + zlen text.
(** [p] is the start of a line: the start of the file or just after a line feed. *)
Definition line_start (f : list Z) (p : Z) : Prop := p = 0 \/ exists pre rest, f = pre ++ 10 :: rest /\ p = zlen pre + 1.

(** [X] starts with [pat], and [pat] occurs nowhere else in it. *)
Definition last_occ (pat X : list Z) : Prop :=
  (exists Y, X = pat ++ Y) /\ forall a b, X = a ++ pat ++ b -> a = [].
(** [pat] does not occur in [X]. *)
Definition no_occ (pat X : list Z) : Prop := forall a b, X <> a ++ pat ++ b.
