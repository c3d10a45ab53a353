(** C30: enumeration of pages. *)
From Coq Require Import String.
From Verif Require Import Prelude M_Parser M_Objects S_Objects.
Local Open Scope Z_scope.

Section Pages.
  Variable bld : bv -> res bv.

  Lemma page_yes p : page_object p -> is_page p = true.
  Proof. intros [d ->]. apply eqlZ_refl. Qed.
  Lemma page_no c : ~ page_object c -> is_page c = false.
  Proof.
    intros HN. destruct (is_page c) eqn:E; auto. destruct c as [| | |[k|] d|]; try discriminate. cbn [is_page] in E. apply eqlZ_eq in E. subst. contradiction HN. now exists d.
  Qed.
  Lemma kids_ok self c l : kids_are bld c l -> kids bld (node_of self c) = Ok l.
  Proof. intros (k & d & v & -> & E1 & E2). cbn [node_of kids]. rewrite E1, E2. reflexivity. Qed.

  (** number of steps to walk a tree *)
  Fixpoint size (t : ptree) : nat := match t with Leaf _ => 1 | Node l => 2 + list_sum (map size l) end.
  Definition sizes (ts : list ptree) : nat := list_sum (map size ts).

  (** Generator states: the innermost children first; [junk] is what follows in the outermost node. *)
  Inductive Good (junk : list bv) : list (list bv) -> list bv -> nat -> Prop :=
  | G_bottom l ts : PageTrees bld l ts -> Good junk [l ++ junk] (all_leaves ts) (sizes ts + 2)
  | G_push l ts s lv m : PageTrees bld l ts -> Good junk s lv m -> Good junk (l :: s) (all_leaves ts ++ lv) (sizes ts + 1 + m).

  Lemma next_good junk self : forall n stk lv m, Good junk stk lv m -> (m <= n)%nat ->
    match lv with
    | [] => junk = [] -> next_page bld n self stk = Ok None
    | p :: r => exists stk' m', next_page bld n self stk = Ok (Some (p, stk')) /\ Good junk stk' r m' /\ (m' <= m)%nat
    end.
  Proof.
    induction n as [|n IH]; intros stk lv m HG Hm.
    { destruct HG; lia. }
    destruct HG as [l ts HT|l ts s lv m HT HG].
    - destruct HT as [|c t l ts Hc HT].
      + cbn. intros ->. cbn [next_page]. destruct n; [cbn in Hm; lia|]. reflexivity.
      + destruct Hc as [p Hp|c kl kts Hn Hk HT2].
        * cbn [next_page app]. rewrite (page_yes p Hp). do 2 eexists. split; [reflexivity|]. split; [now constructor|]. change (sizes (Leaf p :: ts)) with (1 + sizes ts)%nat. lia.
        * cbn [next_page app]. rewrite (page_no c Hn), (kids_ok self c kl Hk). cbn [rbind].
          assert (Good junk (kl :: [l ++ junk]) (all_leaves kts ++ all_leaves ts) (sizes kts + 1 + (sizes ts + 2))) as HG2 by (constructor; [auto|now constructor]).
          change (all_leaves (Node kts :: ts)) with (all_leaves kts ++ all_leaves ts).
          assert (sizes (Node kts :: ts) = (2 + sizes kts + sizes ts))%nat as Es by reflexivity.
          specialize (IH _ _ _ HG2). rewrite Es in *. destruct (all_leaves kts ++ all_leaves ts) as [|p r]; [intros Hj; apply IH; auto; lia|].
          destruct IH as (stk' & m' & E & HG' & Hm'); [lia|]. exists stk', m'. repeat split; auto; lia.
    - destruct HT as [|c t l ts Hc HT].
      + cbn [next_page all_leaves map concat app]. specialize (IH _ _ _ HG). cbn in Hm. destruct lv as [|p r]; [intros Hj; apply IH; auto; lia|].
        destruct IH as (stk' & m' & E & HG' & Hm'); [lia|]. exists stk', m'. repeat split; auto; cbn; lia.
      + destruct Hc as [p Hp|c kl kts Hn Hk HT2].
        * cbn [next_page]. rewrite (page_yes p Hp). do 2 eexists. split; [reflexivity|]. split; [exact (G_push junk l ts s lv m HT HG)|]. change (sizes (Leaf p :: ts)) with (1 + sizes ts)%nat. lia.
        * cbn [next_page]. rewrite (page_no c Hn), (kids_ok self c kl Hk). cbn [rbind].
          assert (Good junk (kl :: l :: s) (all_leaves kts ++ (all_leaves ts ++ lv)) (sizes kts + 1 + (sizes ts + 1 + m))) as HG2 by (constructor; [auto|now constructor]).
          change (all_leaves (Node kts :: ts)) with (all_leaves kts ++ all_leaves ts). rewrite <- app_assoc.
          assert (sizes (Node kts :: ts) = (2 + sizes kts + sizes ts))%nat as Es by reflexivity.
          specialize (IH _ _ _ HG2). rewrite Es in *. destruct (all_leaves kts ++ all_leaves ts ++ lv) as [|p r]; [intros Hj; apply IH; auto; lia|].
          destruct IH as (stk' & m' & E & HG' & Hm'); [lia|]. exists stk', m'. repeat split; auto; lia.
  Qed.

  Lemma take_good junk self n : forall count stk lv m, Good junk stk lv m -> (m <= n)%nat ->
    (count <= List.length lv)%nat -> take_pages bld n count self stk = (firstn count lv, Ok false).
  Proof.
    induction count as [|k IH]; intros stk lv m HG Hm Hc; [reflexivity|]. cbn [take_pages].
    pose proof (next_good junk self n stk lv m HG Hm) as HN. destruct lv as [|p r]; [cbn in Hc; lia|].
    destruct HN as (stk' & m' & -> & HG' & Hm'). rewrite (IH stk' r m' HG'); [reflexivity|lia|cbn in Hc; lia].
  Qed.
  Lemma take_all self n : forall count stk lv m, Good [] stk lv m -> (m <= n)%nat ->
    (List.length lv < count)%nat -> take_pages bld n count self stk = (lv, Ok true).
  Proof.
    induction count as [|k IH]; intros stk lv m HG Hm Hc; [lia|]. cbn [take_pages].
    pose proof (next_good [] self n stk lv m HG Hm) as HN. destruct lv as [|p r]; [now rewrite HN|].
    destruct HN as (stk' & m' & -> & HG' & Hm'). rewrite (IH stk' r m' HG'); [reflexivity|lia|cbn in Hc; lia].
  Qed.

  Definition tree_root (root : bv) (l : list bv) : Prop := kids_are bld root l /\ exists d, root = VDict (Some (bs "Pages")) d.
  Lemma pages_root n count root l : tree_root root l -> (0 < count)%nat -> pages bld n count root = take_pages bld n count root [l].
  Proof.
    intros [HK [d E]] Hc. destruct count as [|k]; [lia|]. subst root. cbn [pages]. rewrite eqlZ_refl.
    pose proof (kids_ok (VAtom ONull) _ _ HK) as HO. cbn [node_of] in HO. now rewrite HO.
  Qed.

  (** All pages, in document order, each once. *)
  Theorem C30_all_pages : forall root l ts, tree_root root l -> PageTrees bld l ts ->
    exists n0, forall n count, (n0 <= n)%nat -> (List.length (all_leaves ts) < count)%nat ->
      pages bld n count root = (all_leaves ts, Ok true).
  Proof.
    intros root l ts HR HT. exists (sizes ts + 2)%nat. intros n count Hn Hc. rewrite (pages_root n count root l HR) by lia.
    pose proof (G_bottom [] l ts HT) as HG. rewrite app_nil_r in HG. apply (take_all root n count _ _ _ HG); auto.
  Qed.
  (** The first pages need only the first children: whatever the children [later] are (not even
      dictionaries, or nodes whose own Kids cannot be read). *)
  Theorem C30_first_pages : forall root l later ts, tree_root root (l ++ later) -> PageTrees bld l ts ->
    exists n0, forall n count, (n0 <= n)%nat -> (count <= List.length (all_leaves ts))%nat ->
      pages bld n count root = (firstn count (all_leaves ts), Ok false).
  Proof.
    intros root l later ts HR HT. exists (sizes ts + 2)%nat. intros n count Hn Hc. destruct count as [|k].
    - destruct HR as [_ [d ->]]. cbn [pages]. now rewrite eqlZ_refl.
    - rewrite (pages_root n (S k) root _ HR) by lia.
      pose proof (G_bottom later l ts HT) as HG. apply (take_good later root n (S k) _ _ _ HG); auto.
  Qed.

  (** A child that is null (a dangling reference in Kids) starts the enumeration over: the pages before
      it are yielded again and again, and the enumeration never ends. *)
  Lemma next_skip n self : forall stk p l s, stk = (p :: l) :: s -> page_object p -> (0 < n)%nat ->
    next_page bld n self stk = Ok (Some (p, l :: s)).
  Proof. intros stk p l s -> Hp Hn. destruct n; [lia|]. cbn [next_page]. now rewrite (page_yes p Hp). Qed.
  Lemma take_app n self : forall ps l s count, Forall page_object ps -> (0 < n)%nat ->
    take_pages bld n (List.length ps + count) self ((ps ++ l) :: s) =
    (ps ++ fst (take_pages bld n count self (l :: s)), snd (take_pages bld n count self (l :: s))).
  Proof.
    induction ps as [|p ps IH]; intros l s count HF Hn; [cbn [app List.length plus]; now destruct (take_pages bld n count self (l :: s))|].
    inversion HF; subst. cbn [List.length plus take_pages app]. rewrite (next_skip n self _ p (ps ++ l) s eq_refl) by auto.
    rewrite IH by auto. reflexivity.
  Qed.
  Theorem C30_missing_kid_refuted : forall root p ps later, tree_root root (p :: ps ++ VAtom ONull :: later) ->
    Forall page_object (p :: ps) ->
    forall m n, (2 <= n)%nat ->
      pages bld n (m * List.length (p :: ps)) root = (concat (repeat (p :: ps) m), Ok false).
  Proof.
    intros root p ps later HR HF m n Hn. destruct m as [|m].
    - destruct HR as [_ [d ->]]. cbn [pages]. now rewrite eqlZ_refl.
    - rewrite (pages_root n _ root _ HR) by (cbn; lia).
      assert (kids bld (node_of root (VAtom ONull)) = Ok (p :: ps ++ VAtom ONull :: later)) as HK.
      { cbn [node_of]. destruct HR as [HK [d E]]. pose proof (kids_ok (VAtom ONull) _ _ HK) as HO. subst root. exact HO. }
      set (k0 := p :: ps ++ VAtom ONull :: later) in *.
      assert (forall m s, take_pages bld n (m * List.length (p :: ps)) root ((VAtom ONull :: later) :: s) = (concat (repeat (p :: ps) m), Ok false)) as HA.
      { induction m0 as [|m0 IH]; intros s; [reflexivity|].
        change (S m0 * List.length (p :: ps))%nat with (List.length (p :: ps) + m0 * List.length (p :: ps))%nat.
        destruct n as [|[|n]]; try lia.
        assert (take_pages bld (S (S n)) (List.length (p :: ps) + m0 * List.length (p :: ps)) root ((VAtom ONull :: later) :: s)
              = take_pages bld (S (S n)) (List.length (p :: ps) + m0 * List.length (p :: ps)) root (((p :: ps) ++ VAtom ONull :: later) :: later :: s)) as ->.
        { cbn [List.length plus take_pages app]. cbn [next_page is_page]. rewrite HK. cbn [rbind]. unfold k0. cbn [next_page].
          inversion HF; subst. now rewrite (page_yes p) by auto. }
        rewrite take_app by (auto; lia). rewrite IH. reflexivity. }
      change (S m * List.length (p :: ps))%nat with (List.length (p :: ps) + m * List.length (p :: ps))%nat.
      unfold k0. change (p :: ps ++ VAtom ONull :: later) with ((p :: ps) ++ VAtom ONull :: later).
      rewrite take_app by (auto; lia). rewrite HA. reflexivity.
  Qed.
End Pages.

(** A concrete document: two levels, three pages, a cycle through /Parent, and one dangling kid. *)
Definition ex_name (s : list Z) := VAtom (OName s).
Definition ex_page_d : list (list Z * bv) := [(bs "Type", ex_name (bs "Page")); (bs "Parent", VRef 1 0)].
Definition ex_node_d (ks : list Z) : list (list Z * bv) :=
  [(bs "Type", ex_name (bs "Pages")); (bs "Kids", VArr (map (fun k => VRef k 0) ks)); (bs "Parent", VRef 1 0)].
Definition ex_heap (n g : Z) : res bv :=
  Ok (if n =? 1 then VDict None (ex_node_d [2; 3; 6]) else if n =? 3 then VDict None (ex_node_d [4; 5])
      else if memZ n [2; 4; 5; 6] then VDict None ex_page_d else VAtom ONull).
Definition ex_bld := build ex_heap 10 true [].
Definition ex_page : bv := VDict (Some (bs "Page")) ex_page_d.
Definition ex_node (ks : list Z) : bv := VDict (Some (bs "Pages")) (ex_node_d ks).
Example C30_ex :
  tree_root ex_bld (ex_node [2; 3; 6]) [ex_page; ex_node [4; 5]; ex_page] /\
  (exists ts, PageTrees ex_bld [ex_page; ex_node [4; 5]; ex_page] ts /\ List.length (all_leaves ts) = 4%nat) /\
  pages ex_bld 20 10 (ex_node [2; 3; 6]) = ([ex_page; ex_page; ex_page; ex_page], Ok true).
Proof.
  assert (page_object ex_page) as HP by (exists ex_page_d; reflexivity).
  split; [|split].
  - split; [|eexists; reflexivity]. exists (bs "Pages"), (ex_node_d [2; 3; 6]), (VArr (map (fun k => VRef k 0) [2; 3; 6])). repeat split; vm_compute; reflexivity.
  - exists [Leaf ex_page; Node [Leaf ex_page; Leaf ex_page]; Leaf ex_page]. split; [|reflexivity].
    constructor; [now constructor|]. constructor; [|constructor; [now constructor|constructor]].
    apply (PT_node ex_bld _ [ex_page; ex_page]).
    + intros [d E]. discriminate E.
    + exists (bs "Pages"), (ex_node_d [4; 5]), (VArr (map (fun k => VRef k 0) [4; 5])). repeat split; vm_compute; reflexivity.
    + repeat constructor; auto.
  - vm_compute. reflexivity.
Qed.
Example C30_missing_kid_ex :
  tree_root ex_bld (ex_node [2; 9; 3]) [ex_page; VAtom ONull; ex_node [4; 5]] /\
  pages ex_bld 20 4 (ex_node [2; 9; 3]) = ([ex_page; ex_page; ex_page; ex_page], Ok false).
Proof.
  split; [|vm_compute; reflexivity].
  split; [|eexists; reflexivity]. exists (bs "Pages"), (ex_node_d [2; 9; 3]), (VArr (map (fun k => VRef k 0) [2; 9; 3])). repeat split; vm_compute; reflexivity.
Qed.

Print Assumptions C30_all_pages.
Print Assumptions C30_first_pages.
Print Assumptions C30_missing_kid_refuted.
