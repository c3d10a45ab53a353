(** C103: readers that share a file object do not disturb each other. *)
From Coq Require Import String.
From Verif Require Import Prelude M_Prog M_Buffer S_Buffer L_Buffer L_Prog M_Parser M_Filters M_Document S_Syntax S_Print S_Document P_Locate P_Open S_Write P_Write M_App M_Viewer M_Nav S_App S_Page P_View S_Blocks P_Blocks.
From Verif Require Import M_Device S_Device.
Local Open Scope Z_scope.

Lemma slice_end {A} (l : list A) a b : 0 <= a -> zlen l <= b -> slice l a b = slice l a (zlen l).
Proof.
  intros Ha Hb. unfold slice. rewrite !firstn_all2; [reflexivity| |]; rewrite skipn_length; unfold zlen in *; lia.
Qed.
Section One.
  Context {U A : Type}.
  Variable f : list Z.
  Lemma io_run_bind {X Y} (m : io X) (g : X -> io Y) pos : io_run f (io_bind m g) pos = io_run f (g (fst (io_run f m pos))) (snd (io_run f m pos)).
  Proof. revert pos. induction m as [a|o k IH|o k IH|n k IH]; intros pos; cbn [io_bind io_run]; auto. Qed.
  Lemma head_run B o pos : fst (io_run f (io_read_head B o) pos) = read_head f B o.
  Proof. reflexivity. Qed.
  Lemma reset_run B o pos : fst (io_run f (io_reset B o) pos) = b_reset f B o.
  Proof.
    unfold io_reset, b_reset. destruct (0 <=? o) eqn:E; [reflexivity|]. unfold io_read_tail, read_tail, fread. cbn [io_run fst]. cbv zeta.
    rewrite (slice_end f (Z.max 0 (zlen f + o)) (Z.max 0 (zlen f + o) + zlen f)) by lia. reflexivity.
  Qed.
  Lemma current_run B b pos : fst (io_run f (io_current B b) pos) = b_current f B b.
  Proof.
    unfold io_current, b_current. rewrite io_run_bind. cbn [io_run fst].
    assert (fst (io_run f (if zlen (b_data b) <=? b_index b then io_read_forward B b else if b_index b <? 0 then io_read_backward B b else IoRet (Some b)) pos) =
      (if zlen (b_data b) <=? b_index b then read_forward f B b else if b_index b <? 0 then read_backward f B b else Some b)) as ->; [|reflexivity].
    destruct (zlen (b_data b) <=? b_index b); [reflexivity|]. destruct (b_index b <? 0); [|reflexivity].
    unfold io_read_backward, read_backward. destruct (b_lbo b =? 0); reflexivity.
  Qed.
  (** One use, by itself. *)
  Definition used (t : user U A) : user U A := fst (io_run f (use t) 0).
  Lemma use_anywhere t pos : fst (io_run f (use t) pos) = used t.
  Proof.
    unfold used. destruct t as [B [|p more] results s]; [reflexivity|]. unfold use.
    destruct p as [a|e|k|k|k|o k|k|h k|k|k|u k]; try reflexivity; rewrite ?io_run_bind; cbn [io_run fst]; rewrite ?current_run, ?reset_run; try reflexivity.
    destruct (nth_error (c_store s) h); reflexivity.
  Qed.
  Definition after (n : nat) (t : user U A) : user U A := Nat.iter n used t.
  Lemma after_S n t : after (S n) t = after n (used t).
  Proof. unfold after. induction n as [|n IH]; [reflexivity|]. change (Nat.iter (S (S n)) used t) with (used (Nat.iter (S n) used t)). rewrite IH. reflexivity. Qed.
  Lemma after_add n m t : after (n + m) t = after m (after n t).
  Proof. revert t. induction n as [|n IH]; intros t; [reflexivity|]. cbn [Nat.add]. rewrite !after_S. apply IH. Qed.
  (** One call. *)
  Lemma call_alone B more p : forall results s, exists n,
    after n (mkUser B (p :: more) results s) = mkUser B more (results ++ [fst (crun f B p s)]) (snd (crun f B p s)).
  Proof.
    induction p as [a|e|k IH|k IH|k IH|o k IH|k IH|h k IH|k IH|k IH|u k IH]; intros results s.
    - exists 1%nat. reflexivity.
    - exists 1%nat. reflexivity.
    - cbn [crun]. destruct (b_current f B (c_buf s)) as [[c b]|e] eqn:E.
      + destruct (IH c results (mkC b (c_store s) (c_usr s))) as (n & Hn). exists (S n). rewrite after_S. unfold used, use.
        rewrite io_run_bind, current_run, E. exact Hn.
      + exists 1%nat. change (after 1 ?x) with (used x). unfold used, use. rewrite io_run_bind, current_run, E. reflexivity.
    - cbn [crun]. destruct (b_current f B (c_buf s)) as [[c b]|e] eqn:E.
      + destruct (IH c results (mkC (move b 1) (c_store s) (c_usr s))) as (n & Hn). exists (S n). rewrite after_S. unfold used, use.
        rewrite io_run_bind, current_run, E. exact Hn.
      + exists 1%nat. change (after 1 ?x) with (used x). unfold used, use. rewrite io_run_bind, current_run, E. reflexivity.
    - cbn [crun]. destruct (b_current f B (c_buf s)) as [[c b]|e] eqn:E.
      + destruct (IH c results (mkC (move b (-1)) (c_store s) (c_usr s))) as (n & Hn). exists (S n). rewrite after_S. unfold used, use.
        rewrite io_run_bind, current_run, E. exact Hn.
      + exists 1%nat. change (after 1 ?x) with (used x). unfold used, use. rewrite io_run_bind, current_run, E. reflexivity.
    - cbn [crun]. destruct (IH results (mkC (b_reset f B o) (c_store s) (c_usr s))) as (n & Hn). exists (S n). rewrite after_S. unfold used, use.
      rewrite io_run_bind, reset_run. exact Hn.
    - cbn [crun]. destruct (IH (List.length (c_store s)) results (mkC (c_buf s) (c_store s ++ [c_buf s]) (c_usr s))) as (n & Hn). exists (S n). rewrite after_S. exact Hn.
    - cbn [crun]. destruct (nth_error (c_store s) h) as [b|] eqn:E.
      + destruct (IH results (mkC b (c_store s) (c_usr s))) as (n & Hn). exists (S n). rewrite after_S. unfold used, use. rewrite E. exact Hn.
      + exists 1%nat. change (after 1 ?x) with (used x). unfold used, use. rewrite E. reflexivity.
    - cbn [crun]. destruct (IH (b_index (c_buf s)) results s) as (n & Hn). exists (S n). rewrite after_S. exact Hn.
    - cbn [crun]. destruct (IH (c_usr s) results s) as (n & Hn). exists (S n). rewrite after_S. exact Hn.
    - cbn [crun]. destruct (IH results (mkC (c_buf s) (c_store s) u)) as (n & Hn). exists (S n). rewrite after_S. exact Hn.
  Qed.
  Lemma calls_alone B calls : forall results s, exists n,
    after n (mkUser B calls results s) = mkUser B [] (results ++ fst (by_itself f B calls s)) (snd (by_itself f B calls s)).
  Proof.
    induction calls as [|p more IH]; intros results s; [exists O; cbn [by_itself fst snd]; now rewrite app_nil_r|].
    destruct (call_alone B more p results s) as (n & Hn). cbn [by_itself]. destruct (crun f B p s) as [r s1]. cbn [fst snd] in Hn.
    destruct (IH (results ++ [r]) s1) as (m & Hm). exists (n + m)%nat. rewrite after_add, Hn, Hm. destruct (by_itself f B more s1) as [rs s2]. cbn [fst snd].
    now rewrite <- app_assoc.
  Qed.
  Lemma idle n B results s : after n (mkUser (A := A) (U := U) B [] results s) = mkUser B [] results s.
  Proof. induction n as [|n IH]; [reflexivity|]. rewrite after_S. exact IH. Qed.
  (** Results are only added to. *)
  Lemma used_grows t : begins (u_results t) (u_results (used t)).
  Proof.
    assert (forall r : list (res A), begins r r) as HR by (intros r; exists []; now rewrite app_nil_r).
    destruct t as [B [|p more] results s]; [apply HR|]. unfold used, use.
    assert (forall r, begins results (results ++ [r])) as HB by (intros r; now exists [r]).
    destruct p as [a|e|k|k|k|o k|k|h k|k|k|u k]; cbn [u_results io_run fst]; try apply HB; try apply HR; rewrite ?io_run_bind; cbn [io_run fst].
    1-3: destruct (fst (io_run f (io_current B (c_buf s)) 0)) as [[c b]|e]; cbn [u_results]; [apply HR|apply HB].
    - apply HR.
    - destruct (nth_error (c_store s) h); cbn [io_run fst u_results]; [apply HR|apply HB].
  Qed.
  Lemma after_grows n t : begins (u_results t) (u_results (after n t)).
  Proof.
    revert t. induction n as [|n IH]; intros t; [exists []; now rewrite app_nil_r|]. rewrite after_S. destruct (used_grows t) as [a Ha], (IH (used t)) as [b Hb].
    exists (a ++ b). rewrite Hb, Ha. now rewrite <- app_assoc.
  Qed.
  Lemma replace_same {X} (l : list X) i x y : nth_error l i = Some y -> nth_error (replace l i x) i = Some x.
  Proof. revert i. induction l as [|z l IH]; intros [|i] H; cbn in *; try discriminate; auto. Qed.
  Lemma replace_other {X} (l : list X) i j x : i <> j -> nth_error (replace l i x) j = nth_error l j.
  Proof. revert i j. induction l as [|z l IH]; intros [|i] [|j] H; cbn; try congruence; auto. Qed.
  Lemma turns_alone schedule : forall us pos i t, nth_error us i = Some t ->
    nth_error (fst (take_turns f schedule us pos)) i = Some (after (turns i schedule) t).
  Proof.
    induction schedule as [|j schedule IH]; intros us pos i t H; cbn [take_turns turns]; [exact H|].
    destruct (Nat.eqb_spec i j) as [<-|Hn].
    - rewrite H. destruct (io_run f (use t) pos) as [t' pos'] eqn:E. pose proof (use_anywhere t pos) as Hu. rewrite E in Hu. cbn [fst] in Hu. subst t'.
      rewrite after_S. apply IH. now apply replace_same with (y := t).
    - destruct (nth_error us j) as [tj|]; [|now apply IH]. destruct (io_run f (use tj) pos) as [t' pos']. apply IH. rewrite replace_other by congruence. exact H.
  Qed.
End One.

(** Readers take turns with one file object, in any order, switching after any number of bytes.  What one of them gets depends
    on nothing but its own turns: ... *)
Theorem C103_own_turns : forall {U A} f schedule schedule' (us us' : list (user U A)) pos pos' i i' t,
  nth_error us i = Some t -> nth_error us' i' = Some t -> turns i schedule = turns i' schedule' ->
  nth_error (fst (take_turns f schedule us pos)) i = nth_error (fst (take_turns f schedule' us' pos')) i'.
Proof. intros U A f s s' us us' pos pos' i i' t H H' E. rewrite (turns_alone f s us pos i t H), (turns_alone f s' us' pos' i' t H'), E. reflexivity. Qed.
(** ... all it has got is what it gets by itself, ... *)
Theorem C103_never_wrong : forall {U A} f schedule (us : list (user U A)) pos i B calls s,
  nth_error us i = Some (mkUser B calls [] s) -> exists t, nth_error (fst (take_turns f schedule us pos)) i = Some t /\
  begins (u_results t) (fst (by_itself f B calls s)).
Proof.
  intros U A f schedule us pos i B calls s H. rewrite (turns_alone f schedule us pos i _ H). eexists. split; [reflexivity|].
  destruct (calls_alone f B calls [] s) as (n & Hn). cbn [app] in Hn. set (k := turns i schedule) in *. clearbody k.
  destruct (after_grows f n (after f k (mkUser B calls [] s))) as [rest E]. exists rest. rewrite <- E, <- after_add, Nat.add_comm, after_add, Hn, idle. reflexivity.
Qed.
(** ... and after enough turns it has got all of it. *)
Theorem C103_all_calls : forall {U A} f B (calls : list (prog U A)) s, exists n, forall schedule us pos i,
  nth_error us i = Some (mkUser B calls [] s) -> (n <= turns i schedule)%nat ->
  nth_error (fst (take_turns f schedule us pos)) i = Some (mkUser B [] (fst (by_itself f B calls s)) (snd (by_itself f B calls s))).
Proof.
  intros U A f B calls s. destruct (calls_alone f B calls [] s) as (n & Hn). exists n. intros schedule us pos i H Hle.
  rewrite (turns_alone f schedule us pos i _ H). f_equal. replace (turns i schedule) with (n + (turns i schedule - n))%nat by lia.
  rewrite after_add, Hn. apply idle.
Qed.

(** Documents.  Any number of documents and viewers on one file object, with whatever block sizes, opened and used in any
    interleaving: each gets what it would get by itself. *)
Lemma results_of inflate ccitt dec D m k f B b0 r c ids :
  crun f B (open_document inflate ccitt dec D m k) (mkC (b_reset f B 0) [] rst0) = (Ok r, c) ->
  fst (by_itself f B (open_and_look_up inflate ccitt dec D m k ids) (mkC b0 [] rst0)) =
  Ok (inl r) :: map (fun v => match v with Ok v => Ok (inr v) | Err e => Err e end) (fst (buffered_session inflate ccitt dec D m k B f c ids)).
Proof.
  intros E. unfold open_and_look_up. cbn [by_itself crun c_store c_usr]. rewrite crun_bind, E. cbn [crun].
  assert (forall ids c, fst (by_itself f B (map (fun id => bind (locate_object inflate ccitt dec D m k (fst id) (snd id)) (fun v => Ret (inr (list Z * Z * dict) v))) ids) c) =
    map (fun v => match v with Ok v => Ok (inr v) | Err e => Err e end) (fst (buffered_session inflate ccitt dec D m k B f c ids))) as H.
  { clear. induction ids as [|[n g] ids IH]; intros c; [reflexivity|]. cbn [map by_itself buffered_session fst snd]. rewrite crun_bind.
    destruct (crun f B (locate_object inflate ccitt dec D m k n g) c) as [[v|e] c1]; cbn [crun]; specialize (IH c1);
    destruct (by_itself f B _ c1) as [rs s2]; destruct (buffered_session inflate ccitt dec D m k B f c1 ids) as [vs c2]; cbn [fst map] in *; now rewrite IH. }
  specialize (H ids c). destruct (by_itself f B _ c) as [rs s2]. cbn [fst] in *. now rewrite H.
Qed.
Theorem C103_documents : forall inflate ccitt dec D m k f B b0 r s ids,
  0 < B -> ends_properly f -> 4 * zlen f + 8 <= Z.of_nat m ->
  arun f (open_document inflate ccitt dec D m k) (mkA 0 [] rst0) = (Ok r, s) ->
  exists n, forall schedule us pos i,
    nth_error us i = Some (mkUser B (open_and_look_up inflate ccitt dec D m k ids) [] (mkC b0 [] rst0)) -> (n <= turns i schedule)%nat ->
    exists t, nth_error (fst (take_turns f schedule us pos)) i = Some t /\ u_calls t = [] /\
    u_results t = Ok (inl r) :: map (fun v => match v with Ok v => Ok (inr v) | Err e => Err e end) (fst (session inflate ccitt dec D m k f s ids)).
Proof.
  intros inflate ccitt dec D m k f B b0 r s ids HB He Hm E.
  destruct (C88_open_document inflate ccitt dec D m k f B r s HB He Hm E) as (c & C & _ & HC).
  destruct (C103_all_calls f B (open_and_look_up inflate ccitt dec D m k ids) (mkC b0 [] rst0)) as (n & Hn). exists n. intros schedule us pos i H Hl.
  rewrite (Hn schedule us pos i H Hl). eexists. split; [reflexivity|]. split; [reflexivity|]. cbn [u_results].
  rewrite (results_of _ _ _ _ _ _ _ _ _ _ _ _ C). rewrite (proj1 (HC dec D m k ids)). reflexivity.
Qed.
Theorem C103_viewers : forall real_str python python_decode inflate ccitt cid a b r ps pages,
  is_digit a = true -> is_digit b = true -> rev_ok r -> zlen (file_of a b [r]) < 10 ^ 10 ->
  let o := or_null (find_obj (rv_objs r)) in
  Document o (rv_trailer r) ps -> ps <> [] -> Forall2 (page_is o inflate python) ps pages ->
  forall D m k B b0 ids, 0 < B -> (0 < D)%nat -> 4 * zlen (file_of a b [r]) + 8 <= Z.of_nat m -> (2 <= k)%nat ->
  exists n t look, viewer_gives real_str python python_decode inflate ccitt cid look t (fun cs => Forall2 (drawn_as o inflate python) pages cs) /\
  forall schedule us pos i,
    nth_error us i = Some (mkUser B (open_and_look_up inflate ccitt no_decrypt D m k ids) [] (mkC b0 [] rst0)) -> (n <= turns i schedule)%nat ->
    exists u, nth_error (fst (take_turns (file_of a b [r]) schedule us pos)) i = Some u /\ u_calls u = [] /\
    u_results u = Ok (inl ([a; 46; b], 0, t)) :: map (fun id => Ok (inr (look (fst id) (snd id)))) ids.
Proof.
  intros real_str python python_decode inflate ccitt cid a b r ps pages Ha Hb Hr Hlt o HD Hne HF D m k B b0 ids HB H1 H2 H3.
  destruct (C88_viewer real_str python python_decode inflate ccitt cid a b r ps pages B HB Ha Hb Hr Hlt HD Hne HF D m k H1 H2 ltac:(lia)) as (c & t & C & look & HS & HV).
  destruct (C103_all_calls (file_of a b [r]) B (open_and_look_up inflate ccitt no_decrypt D m k ids) (mkC b0 [] rst0)) as (n & Hn). exists n, t, look. split; [exact HV|].
  intros schedule us pos i H Hl. rewrite (Hn schedule us pos i H Hl). eexists. split; [reflexivity|]. split; [reflexivity|]. cbn [u_results].
  rewrite (results_of _ _ _ _ _ _ _ _ _ _ _ _ C). rewrite (HS k ids H3), map_map. reflexivity.
Qed.

(** Threads are another matter: between seek and read another thread may move the file's position, and then the wrong bytes are
    read - whatever the file, and whatever two places in it are read. *)
Theorem C103_threads_refuted : forall f B o1 o2 (s1 s2 : cst rst), 0 < B -> 0 <= o1 < zlen f -> 0 <= o2 < zlen f ->
  let read_at o s := mkUser B [Reset o (Cur (fun c => Ret c))] [] s in
  fst (by_itself f B [Reset o1 (Cur (fun c => Ret c))] s1) = [Ok (znth f o1)] /\
  exists t others, fst (race f [0; 0; 1; 1; 0; 0; 0; 0; 0]%nat [IoRet (read_at o1 s1); IoRet (read_at o2 s2)] 0) = IoRet t :: others /\
  u_results t = [Ok (znth f o2)].
Proof.
  intros f B o1 o2 s1 s2 HB H1 H2 read_at.
  assert (forall o, 0 <= o < zlen f -> 0 < zlen (slice f o (o + B)) /\ py_index (slice f o (o + B)) 0 = match znth f o with Some c => Ok c | None => Err IndexErr end) as HS.
  { intros o Ho. pose proof (zlen_slice f o (o + B) ltac:(lia) ltac:(lia)). split; [lia|]. unfold py_index. cbn [Z.ltb Z.compare].
    rewrite znth_slice by lia. rewrite Z.add_0_r. reflexivity. }
  assert (forall o, 0 <= o < zlen f -> exists c, znth f o = Some c) as HZ.
  { intros o Ho. unfold znth. assert (o <? 0 = false) as -> by lia. destruct (nth_error f (Z.to_nat o)) as [c|] eqn:E; [now exists c|].
    apply nth_error_None in E. unfold zlen in Ho. lia. }
  destruct (HS o1 H1) as [L1 I1], (HS o2 H2) as [L2 I2], (HZ o1 H1) as [c1 E1], (HZ o2 H2) as [c2 E2]. rewrite E1 in I1. rewrite E2 in I2.
  split.
  - cbn [by_itself crun c_buf c_store c_usr]. unfold b_reset. assert (0 <=? o1 = true) as -> by lia. unfold read_head, fread, b_current. cbn [b_data b_index b_lbo].
    assert (zlen (slice f o1 (o1 + B)) <=? 0 = false) as -> by lia. cbn [Z.ltb Z.compare]. cbv beta iota zeta. cbn [b_data b_index]. rewrite I1, E1. reflexivity.
  - assert (forall rest (t : user rst (option Z)) y pos, race f (0%nat :: rest) [IoRet t; y] pos = race f rest [use t; y] pos) as R0 by reflexivity.
    assert (forall rest (t : user rst (option Z)) y pos, race f (1%nat :: rest) [y; IoRet t] pos = race f rest [y; use t] pos) as R1 by reflexivity.
    assert (forall rest (k : io (user rst (option Z))) o y pos, race f (0%nat :: rest) [IoSeek o k; y] pos = race f rest [k; y] o) as S0 by reflexivity.
    assert (forall rest (k : io (user rst (option Z))) o y pos, race f (1%nat :: rest) [y; IoSeek o k] pos = race f rest [y; k] o) as S1 by reflexivity.
    assert (forall rest n (k : list Z -> io (user rst (option Z))) y pos, race f (0%nat :: rest) [IoRead (Some n) k; y] pos =
      race f rest [k (slice f pos (pos + n)); y] (pos + zlen (slice f pos (pos + n)))) as D0 by reflexivity.
    assert (forall o s, 0 <= o -> use (read_at o s) = IoSeek o (IoRead (Some B) (fun data => IoRet (mkUser B [Cur (fun c => Ret c)] [] (mkC (mkBuf o 0 data) (c_store s) (c_usr s)))))) as U.
    { intros o s Ho. unfold use, read_at, io_reset. assert (0 <=? o = true) as -> by lia. reflexivity. }
    rewrite R0, U, S0, R1, U, S1, D0 by lia. rewrite R0.
    set (data := slice f o2 (o2 + B)) in *.
    assert (forall st us, use (mkUser B [Cur (fun c => Ret c)] [] (mkC (mkBuf o1 0 data) st us)) =
      IoRet (mkUser B [Ret (znth f o2)] ([] : list (res (option Z))) (mkC (mkBuf o1 0 data) st us : cst rst))) as C.
    { intros st us. unfold use, io_current. cbn [c_buf b_data b_index b_lbo c_store c_usr]. assert (zlen data <=? 0 = false) as -> by lia.
      cbn [Z.ltb Z.compare io_bind]. cbn [b_data b_index]. rewrite I2, E2. reflexivity. }
    rewrite C, R0. eexists _, _. split; [reflexivity|]. reflexivity.
Qed.

(** ---- Examples: two readers of a short file, block size 1, a byte of one after a byte of the other; the document of P_View.v. ---- *)
Definition ex_read (n : nat) : prog rst (list (option Z)) :=
  (fix go n := match n with O => Ret [] | S n => Next (fun c => bind (go n) (fun cs => Ret (c :: cs))) end) n.
Example C103_ex : let reader o := mkUser 1 [Reset o (ex_read 3)] [] (mkC (mkBuf 0 0 []) [] rst0) in
  map u_results (fst (take_turns (bs "abcdef") [0; 1; 0; 1; 1; 0; 0; 1; 0; 1]%nat [reader 0; reader 2] 0)) =
    [[Ok [Some 97; Some 98; Some 99]]; [Ok [Some 99; Some 100; Some 101]]] /\
  turns 0 [0; 1; 0; 1; 1; 0; 0; 1; 0; 1]%nat = 5%nat.
Proof. vm_compute. split; reflexivity. Qed.
Example C103_viewers_ex real_str python python_decode inflate ccitt cid ids1 ids2 : exists m n t look,
  let file := file_of 49 55 [mkRev v_objs v_trailer] in let calls := open_and_look_up inflate ccitt no_decrypt 1 m 2 in
  viewer_gives real_str python python_decode inflate ccitt cid look t v_canvases /\
  forall schedule others pos u, (n <= turns 0 schedule)%nat ->
    nth_error (fst (take_turns file schedule (mkUser 1024 (calls ids1) [] (mkC (mkBuf 0 0 []) [] rst0) :: mkUser 16 (calls ids2) [] (mkC (mkBuf 0 0 []) [] rst0) :: others) pos)) 0 = Some u ->
    u_results u = Ok (inl (bs "1.7", 0, t)) :: map (fun id => Ok (inr (look (fst id) (snd id)))) ids1.
Proof.
  set (f := file_of 49 55 [mkRev v_objs v_trailer]). exists (Z.to_nat (4 * zlen f + 8)).
  destruct (C103_viewers real_str python python_decode inflate ccitt cid 49 55 (mkRev v_objs v_trailer) [v_page1; v_page2]
    [(v_its1, [v_l1; v_l2], [bs "Hi"; bs "end"]); (v_its2, [v_l2], [])] eq_refl eq_refl v_ok ltac:(vm_compute; reflexivity) (v_document v_trailer eq_refl) ltac:(discriminate)
    ltac:(constructor; [apply v_page1_is|constructor; [apply v_page2_is|constructor]]) 1%nat (Z.to_nat (4 * zlen f + 8)) 2%nat 1024 (mkBuf 0 0 []) ids1 eq_refl ltac:(apply le_n)) as (n & t & look & HV & HS).
  - fold f. pose proof (zlen_nonneg f). lia.
  - apply le_n.
  - exists n, t, look. cbv zeta. split; [eapply viewer_gives_imp; [|exact HV]; apply v_drawn|]. intros schedule others pos u Hn Hu.
    edestruct (HS schedule) as (u' & H1 & _ & H3); [|exact Hn|]. 2: { unfold f in *. rewrite H1 in Hu. injection Hu as <-. exact H3. } reflexivity.
Qed.

Print Assumptions C103_own_turns.
Print Assumptions C103_never_wrong.
Print Assumptions C103_all_calls.
Print Assumptions C103_documents.
Print Assumptions C103_viewers.
Print Assumptions C103_threads_refuted.
