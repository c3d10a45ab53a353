(** Model of pdfreader/buffer.py with the position of the file object made explicit: what Buffer does when several
    buffers share one file object.  M_Buffer.v leaves the position out; P_Device.v justifies that. *)
From Verif Require Import Prelude M_Prog M_Buffer.
Local Open Scope Z_scope.

(** The calls made on a file object: seek(o), seek(o, SEEK_END), which gives the new position, read(n) and read(). *)
Inductive io (A : Type) : Type :=
| IoRet (a : A)
| IoSeek (o : Z) (k : io A)
| IoSeekEnd (o : Z) (k : Z -> io A)
| IoRead (n : option Z) (k : list Z -> io A).
Arguments IoRet {A} a.
Arguments IoSeek {A} o k.
Arguments IoSeekEnd {A} o k.
Arguments IoRead {A} n k.
Fixpoint io_bind {A B} (m : io A) (g : A -> io B) : io B :=
  match m with
  | IoRet a => g a
  | IoSeek o k => IoSeek o (io_bind k g)
  | IoSeekEnd o k => IoSeekEnd o (fun p => io_bind (k p) g)
  | IoRead n k => IoRead n (fun d => io_bind (k d) g)
  end.
(** io.BytesIO and files opened for reading: reading at [pos] gives the bytes that exist and moves behind them.
    seek(o) is only called with o >= 0; seek(o, SEEK_END) stops at the start of the file (as in M_Buffer.read_tail). *)
Definition io_step {A} (f : list Z) (m : io A) (pos : Z) : io A * Z :=
  match m with
  | IoRet a => (IoRet a, pos)
  | IoSeek o k => (k, o)
  | IoSeekEnd o k => let p := Z.max 0 (zlen f + o) in (k p, p)
  | IoRead n k => let d := slice f pos (match n with Some n => pos + n | None => zlen f end) in (k d, pos + zlen d)
  end.
Fixpoint io_run {A} (f : list Z) (m : io A) (pos : Z) : A * Z :=
  match m with
  | IoRet a => (a, pos)
  | IoSeek o k => io_run f k o
  | IoSeekEnd o k => let p := Z.max 0 (zlen f + o) in io_run f (k p) p
  | IoRead n k => let d := slice f pos (match n with Some n => pos + n | None => zlen f end) in io_run f (k d) (pos + zlen d)
  end.

Section Dev.
  Variable B : Z.        (* block_size *)
  (** buffer.py 96-104 *)
  Definition io_read_forward (b : buf) : io (option buf) :=
    IoSeek (b_lbo b + B) (IoRead (Some B) (fun data =>
      IoRet (match data with [] => None | _ => Some (mkBuf (b_lbo b + zlen data) (b_index b) (b_data b ++ data)) end))).
  (** 106-117: seek is called twice *)
  Definition io_read_backward (b : buf) : io (option buf) :=
    if b_lbo b =? 0 then IoRet None
    else
      let size := Z.min (b_lbo b) B in
      let off := b_lbo b - size in
      IoSeek off (IoSeek off (IoRead (Some size) (fun data =>
        IoRet (Some (mkBuf off (zlen data + b_index b) (data ++ b_data b)))))).
  (** 119-125 *)
  Definition io_read_head (o : Z) : io buf := IoSeek o (IoRead (Some B) (fun data => IoRet (mkBuf o 0 data))).
  (** 127-133 *)
  Definition io_read_tail (o : Z) : io buf := IoSeekEnd o (fun real => IoRead None (fun data => IoRet (mkBuf real (zlen data - 1) data))).
  (** 159-163 *)
  Definition io_reset (o : Z) : io buf := if 0 <=? o then io_read_head o else io_read_tail o.
  (** 147-157 *)
  Definition io_current (b : buf) : io (res (option Z * buf)) :=
    io_bind (if zlen (b_data b) <=? b_index b then io_read_forward b
             else if b_index b <? 0 then io_read_backward b
             else IoRet (Some b))
      (fun loaded => IoRet (match loaded with
        | None => Ok (None, b)
        | Some b' => match py_index (b_data b') (b_index b') with Ok c => Ok (Some c, b') | Err e => Err e end
        end)).
End Dev.

(** A user of one buffer: the calls it is going to make (each a parser's program), what they have returned or raised so
    far, and the state of its buffer and parser.  [u_block]: the block size of its buffer. *)
Record user (U A : Type) := mkUser { u_block : Z; u_calls : list (prog U A); u_results : list (res A); u_state : cst U }.
Arguments mkUser {U A}.
Arguments u_block {U A}.
Arguments u_calls {U A}.
Arguments u_results {U A}.
Arguments u_state {U A}.

(** One use of the buffer (or the end of a call), with what it does to the file object. *)
Definition use {U A} (t : user U A) : io (user U A) :=
  let 'mkUser B calls results s := t in
  match calls with
  | [] => IoRet t
  | p :: more =>
      let go p s := mkUser B (p :: more) results s in
      let done r := mkUser B more (results ++ [r]) s in
      match p with
      | Ret a => IoRet (done (Ok a))
      | Throw e => IoRet (done (Err e))
      | Cur k => io_bind (io_current B (c_buf s)) (fun r => IoRet (match r with
          | Ok (c, b) => go (k c) (mkC b (c_store s) (c_usr s)) | Err e => done (Err e) end))
      | Next k => io_bind (io_current B (c_buf s)) (fun r => IoRet (match r with      (* 135-139 *)
          | Ok (c, b) => go (k c) (mkC (move b 1) (c_store s) (c_usr s)) | Err e => done (Err e) end))
      | Prev k => io_bind (io_current B (c_buf s)) (fun r => IoRet (match r with      (* 141-145 *)
          | Ok (c, b) => go (k c) (mkC (move b (-1)) (c_store s) (c_usr s)) | Err e => done (Err e) end))
      | Reset o k => io_bind (io_reset B o) (fun b => IoRet (go k (mkC b (c_store s) (c_usr s))))
      | Save k => IoRet (go (k (List.length (c_store s))) (mkC (c_buf s) (c_store s ++ [c_buf s]) (c_usr s)))
      | Restore h k => match nth_error (c_store s) h with                             (* 180-184 *)
          | Some b => IoSeek (b_lbo b) (IoRet (go k (mkC b (c_store s) (c_usr s))))
          | None => IoRet (done (Err KeyErr)) end
      | Index k => IoRet (go (k (b_index (c_buf s))) s)
      | GetU k => IoRet (go (k (c_usr s)) s)
      | SetU u k => IoRet (go k (mkC (c_buf s) (c_store s) u))
      end
  end.

Fixpoint replace {X} (l : list X) (i : nat) (x : X) : list X :=
  match l, i with [], _ => [] | _ :: r, O => x :: r | y :: r, S j => y :: replace r j x end.
(** Users take turns: the schedule says whose turn it is.  Each use of a buffer is finished before the next begins. *)
Fixpoint take_turns {U A} (f : list Z) (schedule : list nat) (us : list (user U A)) (pos : Z) : list (user U A) * Z :=
  match schedule with
  | [] => (us, pos)
  | i :: rest => match nth_error us i with
                 | None => take_turns f rest us pos
                 | Some t => let '(t', pos') := io_run f (use t) pos in take_turns f rest (replace us i t') pos'
                 end
  end.
(** Threads: every single call on the file object may be followed by one of another thread. *)
Fixpoint race {U A} (f : list Z) (schedule : list nat) (us : list (io (user U A))) (pos : Z) : list (io (user U A)) * Z :=
  match schedule with
  | [] => (us, pos)
  | i :: rest => match nth_error us i with
                 | None => race f rest us pos
                 | Some (IoRet t) => race f rest (replace us i (use t)) pos
                 | Some m => let '(m', pos') := io_step f m pos in race f rest (replace us i m') pos'
                 end
  end.
