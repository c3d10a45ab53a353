(** Programs over a Buffer.

    Every parser of /repo/pdfreader/parsers touches its input only through
    buffer.py's [current], [next], [prev], [reset], [get_state], [set_state] (and once, in
    pdf_header, the [index] attribute).  A parser is therefore modelled as a tree of these
    operations; [U] is extra mutable state of the parser object (the registry, for
    RegistryPDFParser).  The tree is run by two interpreters: [crun] (M_Buffer.v) executes
    buffer.py literally, [arun] below executes it on a plain cursor over the file. *)
From Verif Require Import Prelude.
Local Open Scope Z_scope.

Inductive prog (U A : Type) : Type :=
| Ret (a : A)                                   (* return a *)
| Throw (e : exn)                               (* raise e *)
| Cur (k : option Z -> prog U A)                (* self.current; None at EOF *)
| Next (k : option Z -> prog U A)               (* self.next() *)
| Prev (k : option Z -> prog U A)               (* self.prev() *)
| Reset (off : Z) (k : prog U A)                (* self.reset(off) *)
| Save (k : nat -> prog U A)                    (* state = self.get_state() *)
| Restore (h : nat) (k : prog U A)              (* self.set_state(state) *)
| Index (k : Z -> prog U A)                     (* self.buffer.index *)
| GetU (k : U -> prog U A)
| SetU (u : U) (k : prog U A).

Arguments Ret {U A} a.
Arguments Throw {U A} e.
Arguments Cur {U A} k.
Arguments Next {U A} k.
Arguments Prev {U A} k.
Arguments Reset {U A} off k.
Arguments Save {U A} k.
Arguments Restore {U A} h k.
Arguments Index {U A} k.
Arguments GetU {U A} k.
Arguments SetU {U A} u k.

Fixpoint bind {U A B} (p : prog U A) (g : A -> prog U B) : prog U B :=
  match p with
  | Ret a => g a
  | Throw e => Throw e
  | Cur k => Cur (fun c => bind (k c) g)
  | Next k => Next (fun c => bind (k c) g)
  | Prev k => Prev (fun c => bind (k c) g)
  | Reset o k => Reset o (bind k g)
  | Save k => Save (fun h => bind (k h) g)
  | Restore h k => Restore h (bind k g)
  | Index k => Index (fun i => bind (k i) g)
  | GetU k => GetU (fun u => bind (k u) g)
  | SetU u k => SetU u (bind k g)
  end.

(** [try: p except <handled>: h].  OutOfFuel is not a Python exception and is never handled. *)
Fixpoint catch {U A} (p : prog U A) (handled : exn -> bool) (h : exn -> prog U A) : prog U A :=
  match p with
  | Ret a => Ret a
  | Throw e => if handled e && negb (exn_eqb e OutOfFuel) then h e else Throw e
  | Cur k => Cur (fun c => catch (k c) handled h)
  | Next k => Next (fun c => catch (k c) handled h)
  | Prev k => Prev (fun c => catch (k c) handled h)
  | Reset o k => Reset o (catch k handled h)
  | Save k => Save (fun x => catch (k x) handled h)
  | Restore x k => Restore x (catch k handled h)
  | Index k => Index (fun i => catch (k i) handled h)
  | GetU k => GetU (fun u => catch (k u) handled h)
  | SetU u k => SetU u (catch k handled h)
  end.

Declare Scope prog_scope.
Delimit Scope prog_scope with prog.
Notation "x <- p ;; q" := (bind p (fun x => q)) (at level 61, p at next level, right associativity) : prog_scope.
Notation "' pat <- p ;; q" := (bind p (fun pat => q)) (at level 61, pat pattern, p at next level, right associativity) : prog_scope.
Notation "p ;;; q" := (bind p (fun _ => q)) (at level 61, right associativity) : prog_scope.

Definition cur {U} : prog U (option Z) := Cur (fun c => Ret c).
Definition next {U} : prog U (option Z) := Next (fun c => Ret c).
Definition prev {U} : prog U (option Z) := Prev (fun c => Ret c).
Definition reset {U} (o : Z) : prog U unit := Reset o (Ret tt).
Definition save {U} : prog U nat := Save (fun h => Ret h).
Definition restore {U} (h : nat) : prog U unit := Restore h (Ret tt).
Definition index_ {U} : prog U Z := Index (fun i => Ret i).
Definition getu {U} : prog U U := GetU (fun u => Ret u).
Definition setu {U} (u : U) : prog U unit := SetU u (Ret tt).
Definition throw {U A} (e : exn) : prog U A := Throw e.
Definition ret {U A} (a : A) : prog U A := Ret a.

(** Plain cursor: position, saved positions, user state. *)
Record ast (U : Type) := mkA { a_pos : Z; a_store : list Z; a_usr : U }.
Arguments mkA {U}.
Arguments a_pos {U}.
Arguments a_store {U}.
Arguments a_usr {U}.

(** Position after reset(o): [o] itself, or the last byte of the file for negative [o]. *)
Definition reset_pos (f : list Z) (o : Z) : Z := if 0 <=? o then o else zlen f - 1.

Fixpoint arun {U A} (f : list Z) (p : prog U A) (s : ast U) : res A * ast U :=
  match p with
  | Ret a => (Ok a, s)
  | Throw e => (Err e, s)
  | Cur k => arun f (k (znth f (a_pos s))) s
  | Next k => arun f (k (znth f (a_pos s))) (mkA (a_pos s + 1) (a_store s) (a_usr s))
  | Prev k => arun f (k (znth f (a_pos s))) (mkA (a_pos s - 1) (a_store s) (a_usr s))
  | Reset o k => arun f k (mkA (reset_pos f o) (a_store s) (a_usr s))
  | Save k => arun f (k (List.length (a_store s))) (mkA (a_pos s) (a_store s ++ [a_pos s]) (a_usr s))
  | Restore h k =>
      match nth_error (a_store s) h with
      | Some q => arun f k (mkA q (a_store s) (a_usr s))
      | None => (Err KeyErr, s)   (* a handle that was never issued: no program does this *)
      end
  | Index k => arun f (k (a_pos s)) s
  | GetU k => arun f (k (a_usr s)) s
  | SetU u k => arun f k (mkA (a_pos s) (a_store s) u)
  end.
