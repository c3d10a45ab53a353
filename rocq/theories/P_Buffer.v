(** Buffer properties: C01, C02. *)
From Verif Require Import Prelude M_Prog M_Buffer S_Buffer L_Buffer.
Local Open Scope Z_scope.

(** C01.  [p] is any (adaptive) sequence of current/next/prev/reset/get_state/set_state calls;
    on a buffer freshly reset to offset [o], with any block size, it observes exactly the bytes of
    the file at the logical cursor positions ([arun]) as long as the access pattern is one-way. *)
Theorem C01_buffer_transparent : forall U A f B (p : prog U A) o u,
  0 < B ->
  disciplined f B p (mkA (reset_pos f o) [] u) (sess_reset f B o) [] ->
  fst (crun f B p (mkC (b_reset f B o) [] u)) = fst (arun f p (mkA (reset_pos f o) [] u)) /\
  c_usr (snd (crun f B p (mkC (b_reset f B o) [] u))) = a_usr (snd (arun f p (mkA (reset_pos f o) [] u))).
Proof. intros U A. exact simulation_fresh. Qed.

(** Forward-only use (never before the last reset offset) is transparent for every block size. *)
Theorem C01_forward_use_transparent : forall U A f B (p : prog U A) o u,
  0 < B -> 0 <= o ->
  forward_only f p (mkA o [] u) o [] ->
  fst (crun f B p (mkC (b_reset f B o) [] u)) = fst (arun f p (mkA o [] u)) /\
  c_usr (snd (crun f B p (mkC (b_reset f B o) [] u))) = a_usr (snd (arun f p (mkA o [] u))).
Proof. intros U A. exact forward_transparent. Qed.

(** Reads over a straight walk, as lists: the bytes seen by a list of moves. *)
Inductive mv := MNext | MPrev.
Fixpoint walk (l : list mv) (acc : list (option Z)) : prog unit (list (option Z)) :=
  match l with
  | [] => Ret (rev acc)
  | MNext :: r => Next (fun c => walk r (c :: acc))
  | MPrev :: r => Prev (fun c => walk r (c :: acc))
  end.

(** Outside the discipline the claim is false: after reset(4) with block size 2 on the file
    1..8, going one byte back and then forward past the block yields byte 5 where 7 stands. *)
Theorem C01_two_way_use_transparent_refuted :
  ~ (forall f B l o, 0 < B -> 0 <= o <= zlen f ->
       fst (crun f B (walk l []) (mkC (b_reset f B o) [] tt)) =
       fst (arun f (walk l []) (mkA o [] tt))).
Proof.
  intro H.
  specialize (H [1;2;3;4;5;6;7;8] 2 [MPrev; MPrev; MNext; MNext; MNext; MNext; MNext] 4).
  assert (0 < 2) as H1 by lia. assert (0 <= 4 <= zlen [1;2;3;4;5;6;7;8]) as H2 by (cbv; split; discriminate).
  specialize (H H1 H2). vm_compute in H. discriminate.
Qed.

(** The discipline is met by a real mix: back inside the block, forward over several blocks. *)
Example C01_ex :
  disciplined [1;2;3;4;5;6;7;8] 2 (walk [MNext; MPrev; MNext; MNext; MNext; MNext; MPrev; MPrev; MNext] [])
     (mkA (reset_pos [1;2;3;4;5;6;7;8] 2) [] tt) (sess_reset [1;2;3;4;5;6;7;8] 2 2) [].
Proof. cbv. intuition discriminate. Qed.
Example C01_ex_value :
  fst (crun [1;2;3;4;5;6;7;8] 2 (walk [MNext; MPrev; MNext; MNext; MNext; MNext; MPrev; MPrev; MNext] [])
     (mkC (b_reset [1;2;3;4;5;6;7;8] 2 2) [] tt)) =
  Ok [Some 3; Some 4; Some 3; Some 4; Some 5; Some 6; Some 7; Some 6; Some 5].
Proof. vm_compute. reflexivity. Qed.
(** Backward reading from the end of the file (reset(-k)). *)
Example C01_ex_tail :
  disciplined [1;2;3;4;5;6;7;8] 2 (walk [MPrev; MPrev; MPrev; MPrev; MNext] [])
     (mkA (reset_pos [1;2;3;4;5;6;7;8] (-2)) [] tt) (sess_reset [1;2;3;4;5;6;7;8] 2 (-2)) [].
Proof. cbv. intuition discriminate. Qed.

(** C02.  set_state after anything restores the buffer object exactly. *)
Lemma store_grows {U A} f B (p : prog U A) : forall s,
  exists ex, c_store (snd (crun f B p s)) = c_store s ++ ex.
Proof.
  induction p as [a|e|k IH|k IH|k IH|o k IH|k IH|h k IH|k IH|k IH|u k IH]; intros s; cbn [crun].
  1,2: exists []; now rewrite app_nil_r.
  1-3: destruct (b_current f B (c_buf s)) as [[c b]|e];
       [exact (IH c (mkC _ (c_store s) (c_usr s)))|exists []; now rewrite app_nil_r].
  - exact (IH (mkC _ (c_store s) (c_usr s))).
  - destruct (IH (length (c_store s)) (mkC (c_buf s) (c_store s ++ [c_buf s]) (c_usr s))) as [ex H].
    rewrite H. exists ([c_buf s] ++ ex). cbn. now rewrite <- app_assoc.
  - destruct (nth_error (c_store s) h); [exact (IH (mkC _ (c_store s) (c_usr s)))|exists []; now rewrite app_nil_r].
  - apply IH.
  - apply IH.
  - exact (IH (mkC (c_buf s) (c_store s) u)).
Qed.

Theorem C02_restore_is_exact_undo : forall U A C f B (q : prog U A) (r : prog U C) s x s1,
  crun f B q (mkC (c_buf s) (c_store s ++ [c_buf s]) (c_usr s)) = (Ok x, s1) ->
  crun f B (Save (fun h => bind q (fun _ => Restore h r))) s =
  crun f B r (mkC (c_buf s) (c_store s1) (c_usr s1)).
Proof.
  intros U A C f B q r s x s1 H. cbn [crun].
  assert (forall (p : prog U A) (g : A -> prog U C) st, 
     crun f B (bind p g) st = match crun f B p st with
                              | (Ok a, st') => crun f B (g a) st'
                              | (Err e, st') => (Err e, st') end) as Hb.
  { clear. intros p g. induction p as [a|e|k IH|k IH|k IH|o k IH|k IH|h k IH|k IH|k IH|u k IH]; intros st; cbn [bind crun]; auto.
    1-3: destruct (b_current f B (c_buf st)) as [[c b]|e]; auto.
    destruct (nth_error (c_store st) h); auto. }
  rewrite Hb, H. cbn [crun].
  destruct (store_grows f B q (mkC (c_buf s) (c_store s ++ [c_buf s]) (c_usr s))) as [ex E].
  rewrite H in E. cbn [snd c_store] in E. rewrite E, <- app_assoc.
  rewrite nth_error_app2 by lia. rewrite Nat.sub_diag. cbn. reflexivity.
Qed.

(** ... so every later walk sees what it would have seen without the operations in between. *)
Theorem C02_later_reads_unaffected : forall A f B (q : prog unit A) l s x s1,
  crun f B q (mkC (c_buf s) (c_store s ++ [c_buf s]) (c_usr s)) = (Ok x, s1) ->
  fst (crun f B (Save (fun h => bind q (fun _ => Restore h (walk l [])))) s) =
  fst (crun f B (walk l []) s).
Proof.
  intros A f B q l s x s1 H. rewrite (C02_restore_is_exact_undo _ _ _ f B q (walk l []) s x s1 H).
  assert (forall acc b st u st' u', fst (crun f B (walk l acc) (mkC b st u)) = fst (crun f B (walk l acc) (mkC b st' u'))) as G.
  { clear. induction l as [|[|] l IH]; intros; cbn [walk crun c_buf]; auto;
      destruct (b_current f B b) as [[c b']|e]; auto. }
  destruct s as [b st u]. cbn [c_buf]. apply G.
Qed.

Example C02_ex :
  fst (crun [1;2;3;4;5;6;7;8] 2
     (Save (fun h => bind (walk [MPrev; MPrev; MNext; MNext; MNext; MNext] []) (fun _ => Restore h (walk [MNext; MNext; MNext] []))))
     (mkC (b_reset [1;2;3;4;5;6;7;8] 2 4) [] tt)) = Ok [Some 5; Some 6; Some 7].
Proof. vm_compute. reflexivity. Qed.

Print Assumptions C01_buffer_transparent.
Print Assumptions C01_forward_use_transparent.
Print Assumptions C01_two_way_use_transparent_refuted.
Print Assumptions C02_restore_is_exact_undo.
Print Assumptions C02_later_reads_unaffected.
