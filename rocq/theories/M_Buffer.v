(** Model of pdfreader/buffer.py (class Buffer), and the interpreter of parser programs on it. *)
From Verif Require Import Prelude M_Prog.
Local Open Scope Z_scope.

(** buffer.py 83-94: attributes.  [offset] is never changed after construction and never read,
    and [last_block_size] is only written; both are omitted.  [stack] is unused. *)
Record buf := mkBuf { b_lbo : Z; b_index : Z; b_data : list Z }.

(** fileobj.seek(o); fileobj.read(n) on a file opened for reading: the bytes o .. o+n-1 that
    exist.  The file position left behind is irrelevant: every read in buffer.py seeks first. *)
Definition fread (f : list Z) (o n : Z) : list Z := slice f o (o + n).

Section Buf.
  Variable f : list Z.   (* the file *)
  Variable B : Z.        (* block_size *)

  (** 119-125 *)
  Definition read_head (o : Z) : buf := mkBuf o 0 (fread f o B).

  (** 127-133.  seek(o, SEEK_END) with o < 0 is clamped to 0 as io.BytesIO does (an operating
      system file shorter than -o raises OSError instead; not modelled). *)
  Definition read_tail (o : Z) : buf :=
    let real := Z.max 0 (zlen f + o) in
    let data := fread f real (zlen f) in
    mkBuf real (zlen data - 1) data.

  (** 159-163 *)
  Definition b_reset (o : Z) : buf := if 0 <=? o then read_head o else read_tail o.

  (** 96-104; None = EOFException *)
  Definition read_forward (b : buf) : option buf :=
    let data := fread f (b_lbo b + B) B in
    match data with
    | [] => None
    | _ => Some (mkBuf (b_lbo b + zlen data) (b_index b) (b_data b ++ data))
    end.

  (** 106-117 *)
  Definition read_backward (b : buf) : option buf :=
    if b_lbo b =? 0 then None
    else
      let size := Z.min (b_lbo b) B in
      let off := b_lbo b - size in
      let data := fread f off size in
      Some (mkBuf off (zlen data + b_index b) (data ++ b_data b)).

  (** Python [data[index]]: negative indices count from the end, IndexError outside. *)
  Definition py_index (l : list Z) (i : Z) : res Z :=
    let j := if i <? 0 then i + zlen l else i in
    match znth l j with Some c => Ok c | None => Err IndexErr end.

  (** 147-157: the byte (None at EOF) and the possibly reloaded buffer, or IndexError. *)
  Definition b_current (b : buf) : res (option Z * buf) :=
    let loaded :=
      if zlen (b_data b) <=? b_index b then read_forward b
      else if b_index b <? 0 then read_backward b
      else Some b in
    match loaded with
    | None => Ok (None, b)
    | Some b' => match py_index (b_data b') (b_index b') with
                 | Ok c => Ok (Some c, b')
                 | Err e => Err e
                 end
    end.

  (** Interpreter: buffer, saved states (177-184: get_state copies, set_state restores all
      attributes), user state. *)
  Record cst (U : Type) := mkC { c_buf : buf; c_store : list buf; c_usr : U }.
  Arguments mkC {U}.
  Arguments c_buf {U}.
  Arguments c_store {U}.
  Arguments c_usr {U}.

  Definition move (b : buf) (d : Z) : buf := mkBuf (b_lbo b) (b_index b + d) (b_data b).

  Fixpoint crun {U A} (p : prog U A) (s : cst U) : res A * cst U :=
    match p with
    | Ret a => (Ok a, s)
    | Throw e => (Err e, s)
    | Cur k => match b_current (c_buf s) with
               | Ok (c, b) => crun (k c) (mkC b (c_store s) (c_usr s))
               | Err e => (Err e, s)
               end
    | Next k => match b_current (c_buf s) with          (* 135-139 *)
                | Ok (c, b) => crun (k c) (mkC (move b 1) (c_store s) (c_usr s))
                | Err e => (Err e, s)
                end
    | Prev k => match b_current (c_buf s) with          (* 141-145 *)
                | Ok (c, b) => crun (k c) (mkC (move b (-1)) (c_store s) (c_usr s))
                | Err e => (Err e, s)
                end
    | Reset o k => crun k (mkC (b_reset o) (c_store s) (c_usr s))
    | Save k => crun (k (List.length (c_store s))) (mkC (c_buf s) (c_store s ++ [c_buf s]) (c_usr s))
    | Restore h k => match nth_error (c_store s) h with
                     | Some b => crun k (mkC b (c_store s) (c_usr s))
                     | None => (Err KeyErr, s)
                     end
    | Index k => crun (k (b_index (c_buf s))) s
    | GetU k => crun (k (c_usr s)) s
    | SetU u k => crun k (mkC (c_buf s) (c_store s) u)
    end.
End Buf.
Arguments mkC {U}.
Arguments c_buf {U}.
Arguments c_store {U}.
Arguments c_usr {U}.
