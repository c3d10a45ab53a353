(** Specification vocabulary for buffering: which access patterns are promised to work.

    A session starts with Buffer.reset(r).  It remembers the base [s_base] (file offset of the
    first byte loaded), the end [s_end] of the block loaded by the reset, whether reading on
    past that block is possible at all ([s_fok]: always after reset(r>=0), after reset(-k) only
    if k <= block size or the file is that short), and whether the cursor has been at a position
    before the base ([s_back]) or past the initial block ([s_past]). *)
From Verif Require Import Prelude M_Prog.
Local Open Scope Z_scope.

Record sess := mkS { s_base : Z; s_end : Z; s_fok : bool; s_back : bool; s_past : bool }.

Definition sess_reset (f : list Z) (B o : Z) : sess :=
  if 0 <=? o
  then mkS o (Z.max o (Z.min (o + B) (zlen f))) true false false
  else let r := Z.max 0 (zlen f + o) in mkS r (zlen f) (zlen f <=? r + B) false false.

Definition visit (s : sess) (p : Z) : sess :=
  mkS (s_base s) (s_end s) (s_fok s)
      (s_back s || (p <? s_base s))
      (s_past s || (s_end s <=? p)).

(** Never both before the base and past the initial block. *)
Definition one_way (s : sess) : Prop :=
  (s_back s = true -> s_past s = true -> False) /\ (s_past s = true -> s_fok s = true).

(** [disciplined f B p s v vs]: running [p] on the plain cursor [s] keeps every session one-way.
    [v] is the running session, [vs] the sessions saved together with each saved state. *)
Fixpoint disciplined {U A} (f : list Z) (B : Z) (p : prog U A) (s : ast U) (v : sess) (vs : list sess) : Prop :=
  match p with
  | Ret _ | Throw _ => True
  | Cur k => one_way (visit v (a_pos s)) /\
             disciplined f B (k (znth f (a_pos s))) s (visit v (a_pos s)) vs
  | Next k => one_way (visit v (a_pos s)) /\
              disciplined f B (k (znth f (a_pos s))) (mkA (a_pos s + 1) (a_store s) (a_usr s)) (visit v (a_pos s)) vs
  | Prev k => one_way (visit v (a_pos s)) /\
              disciplined f B (k (znth f (a_pos s))) (mkA (a_pos s - 1) (a_store s) (a_usr s)) (visit v (a_pos s)) vs
  | Reset o k => disciplined f B k (mkA (reset_pos f o) (a_store s) (a_usr s)) (sess_reset f B o) vs
  | Save k => disciplined f B (k (List.length (a_store s)))
                (mkA (a_pos s) (a_store s ++ [a_pos s]) (a_usr s)) v (vs ++ [v])
  | Restore h k =>
      match nth_error (a_store s) h, nth_error vs h with
      | Some q, Some w => disciplined f B k (mkA q (a_store s) (a_usr s)) w vs
      | _, _ => True
      end
  | Index k => s_base v = 0 /\ disciplined f B (k (a_pos s)) s v vs
  | GetU k => disciplined f B (k (a_usr s)) s v vs
  | SetU u k => disciplined f B k (mkA (a_pos s) (a_store s) u) v vs
  end.

(** The simpler pattern that needs no block size: only resets to non-negative offsets, and the
    cursor never reads before the offset of the last reset ([b]; [bs_]: saved ones). *)
Fixpoint forward_only {U A} (f : list Z) (p : prog U A) (s : ast U) (b : Z) (bs_ : list Z) : Prop :=
  match p with
  | Ret _ | Throw _ => True
  | Cur k => b <= a_pos s /\ forward_only f (k (znth f (a_pos s))) s b bs_
  | Next k => b <= a_pos s /\
              forward_only f (k (znth f (a_pos s))) (mkA (a_pos s + 1) (a_store s) (a_usr s)) b bs_
  | Prev k => b <= a_pos s /\
              forward_only f (k (znth f (a_pos s))) (mkA (a_pos s - 1) (a_store s) (a_usr s)) b bs_
  | Reset o k => 0 <= o /\ forward_only f k (mkA (reset_pos f o) (a_store s) (a_usr s)) o bs_
  | Save k => forward_only f (k (List.length (a_store s)))
                (mkA (a_pos s) (a_store s ++ [a_pos s]) (a_usr s)) b (bs_ ++ [b])
  | Restore h k =>
      match nth_error (a_store s) h, nth_error bs_ h with
      | Some q, Some w => forward_only f k (mkA q (a_store s) (a_usr s)) w bs_
      | _, _ => True
      end
  | Index k => b = 0 /\ forward_only f (k (a_pos s)) s b bs_
  | GetU k => forward_only f (k (a_usr s)) s b bs_
  | SetU u k => forward_only f k (mkA (a_pos s) (a_store s) u) b bs_
  end.
