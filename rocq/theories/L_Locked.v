(** Lookups in files some of whose objects cannot be decrypted: lemmas for C97. *)
From Coq Require Import String.
From Verif Require Import Prelude M_Prog M_Parser S_Syntax L_Buffer L_Prog L_ParserWP L_Syntax L_Syntax2 S_Print L_Print
  S_Stream L_Stream M_Filters M_Document S_Document L_Document L_User L_Registry P_IndObj
  S_Xref L_Xref P_Header P_StartXref P_Xref P_Locate L_Steps S_Open P_Open S_History P_History S_XrefStream P_XrefStream S_Registry P_Registry S_Modern L_Modern P_Decrypt S_Locked.
Local Open Scope Z_scope.
Local Open Scope prog_scope.

Lemma fatal_facts x : fatal x -> is_parser_exc x = false /\ is_bfr x = false /\ x <> KeyErr /\ x <> OutOfFuel /\ exn_eqb x OutOfFuel = false.
Proof. intros H. cbn [fatal In] in H. repeat (destruct H as [<-|H]; [repeat split; try reflexivity; discriminate|]). destruct H. Qed.

Section Mod.
  Variable inflate : list Z -> option (list Z).
  Variable ccitt : list Z -> fparams -> res (list Z).
  Variable decrypt : Z -> Z -> obj -> res obj.
  Variables (D m : nat).
  Notation locate := (locate_object inflate ccitt decrypt D m).
  Notation iobj_of k := (reg_indirect inflate ccitt decrypt D m (length_hook (locate k))).
  Notation Held := (Held inflate ccitt).
  Variable f : list Z.
  Hypothesis HD : (2 <= D)%nat.
  Hypothesis Hm : 4 * zlen f + 8 <= Z.of_nat m.

  (** an object that cannot be decrypted *)
  Lemma b_iobj loc p n g v x t X u : IndObj n g v t X -> decrypt n g v = Err x -> At f p (t ++ X) ->
    uruns f (reg_indirect inflate ccitt decrypt D m (length_hook loc)) p u (Err x) (p + zlen t) u.
  Proof.
    intros HI Hd HA. pose proof (zlen_nonneg f). assert (0 <= p) by apply HA.
    unfold reg_indirect. eapply uruns_bind.
    - apply uruns_of. eapply (r_indirect f (length_hook loc)); eauto.
      + intros d z q Hd'. unfold length_hook. rewrite Hd'. apply runs_ret.
      + unfold ofuel. lia.
    - cbv beta iota. rewrite Hd. intros st. exists []. rewrite app_nil_r. reflexivity.
  Qed.
  Lemma b_hit loc pos st h p s n g v x t X u k : nth_error st h = Some p -> (2 <= k)%nat ->
    At f p (s ++ t ++ X) -> Sep s -> IndObj n g v t X -> decrypt n g v = Err x -> fatal x ->
    exists ex, arun f (bf_tasks m (reg_indirect inflate ccitt decrypt D m (length_hook loc)) k [h] None) (mkA pos st u) =
               (Err x, mkA (p + zlen s + zlen t) (st ++ ex) u).
  Proof.
    intros Hh Hk HA Hs HI Hd Hx. pose proof (zlen_nonneg f) as HL. assert (0 <= p) as Hp by apply HA.
    destruct (fatal_facts x Hx) as (F1 & F2 & F3 & F4 & F5).
    destruct (ind_digit _ _ _ _ _ HI) as (c & t' & Et & Hc).
    pose proof (At_app f p s (t ++ X) HA) as HA2.
    pose proof (b_iobj loc (p + zlen s) n g v x t X u HI Hd HA2) as HR.
    set (iobj := reg_indirect inflate ccitt decrypt D m (length_hook loc)) in *.
    destruct k as [|[|k]]; try lia. cbn [bf_tasks]. cbn [bind restore arun a_store a_usr]. rewrite Hh.
    assert (uruns f (sp m;;; (' ok <- catch (body_element m iobj;;; ret true) is_bfr (fun _ : exn => ret false);;
       (if ok : bool then ret None else skip_until_next m;;; (' h2 <- save;; bf_tasks m iobj (S k) [h2; h] (Some h2))))) p u (Err x)
       (p + zlen s + zlen t) u) as HU.
    { eapply uruns_bind.
      { apply uruns_of. apply (r_sp f s m p (t ++ X)); auto; [|unfold fuel; lia]. subst t. cbn [app].
        apply (digits_nosep [c] (t' ++ X)); [discriminate|repeat constructor; auto]. }
      apply uruns_bind_err. apply uruns_catch_pass; auto. apply uruns_bind_err.
      unfold body_element. intros st0. cbn [bind cur arun a_pos].
      rewrite (At_head f _ _ HA2). subst t. cbn [app hd_error p_digit]. rewrite Hc.
      assert (uruns f (iobj;;; ret tt) (p + zlen s) u (Err x) (p + zlen s + zlen (c :: t')) u) as HU; [|exact (HU st0)].
      apply uruns_bind_err. exact HR. }
    destruct (HU st) as [ex E]. exists ex. exact E.
  Qed.
  Lemma b_step iobj num gen n pos st u h q ex x : r_stack u = [] -> known u num gen = None -> r_bf u = Some h -> fatal x ->
    arun f (bf_tasks m iobj n [h] None) (mkA pos st (mkR (r_objs u) (r_xrefs u) (r_bf u) [(num, gen)])) = (Err x, mkA q (st ++ ex) (mkR (r_objs u) (r_xrefs u) (r_bf u) [(num, gen)])) ->
    arun f (brute_force inflate ccitt D m iobj (S n) num gen) (mkA pos st u) = (Err x, mkA q (st ++ ex) u).
  Proof.
    intros Hst Hku Hbf Hx E. destruct (fatal_facts x Hx) as (F1 & F2 & F3 & F4 & F5).
    cbn [brute_force]. cbn [bind getu arun a_usr]. unfold is_registered at 1. fold (known u num gen). rewrite Hku, Hst. cbn [on_stack existsb].
    set (u1 := mkR (r_objs u) (r_xrefs u) (r_bf u) [(num, gen)]) in *.
    cbn [push bind getu arun a_usr]. cbn [setu bind arun a_usr a_pos a_store]. rewrite Hst. fold u1.
    assert (arun f (next_brute_force m iobj n;;; ret true) (mkA pos st u1) = (Err x, mkA q (st ++ ex) u1)) as E3.
    { rewrite arun_bind. unfold next_brute_force at 1. cbn [bind getu arun a_usr]. change (r_bf u1) with (r_bf u). rewrite Hbf. rewrite arun_bind, E. reflexivity. }
    match goal with |- context [arun f (bind (catch (catch ?P ?H1 ?H2) ?H3 ?H4) ?B) ?S] =>
      assert (arun f (catch P H1 H2) S = (Err x, mkA q (st ++ ex) u1)) as E4 by (rewrite (arun_catch_err f P H1 H2 _ _ _ E3 F3), F1; reflexivity);
      assert (arun f (catch (catch P H1 H2) H3 H4) S = (Err x, mkA q (st ++ ex) u)) as E5 end.
    { rewrite (arun_catch_err f _ _ _ _ _ _ E4 F3). rewrite F5. cbn [negb andb]. cbn [pop bind getu setu arun a_usr a_pos a_store throw]. unfold u1. cbn [r_stack r_objs r_xrefs r_bf]. destruct u. cbn in *. now subst. }
    rewrite arun_bind, E5. reflexivity.
  Qed.

  Variable xs : list xref.
  Variable rest : list Z.
  Hypothesis Hrest : forall c, hd_error rest = Some c -> is_digit c = false /\ c <> 115 /\ c <> 116.
  Notation met := (Met inflate ccitt decrypt).
  Definition lst (l' : list entry) (st : list Z) (u : rst) : Prop :=
    r_xrefs u = Some xs /\ r_stack u = [] /\ exists h p body l, r_bf u = Some h /\ nth_error st h = Some p /\ ModBody l body rest /\ At f p (body ++ rest) /\ Forall2 met l l'.

  Lemma scan_entries_known K l num gen w : K num gen = Some w -> scan_entries K l num gen = (K, l, None).
  Proof. intros E. destruct l; cbn [scan_entries]; now rewrite E. Qed.
  Lemma lscan k num gen : forall l body rest0, ModBody l body rest0 -> rest0 = rest -> forall l', Forall2 met l l' ->
    forall n pos st u K h p, agrees u K -> r_xrefs u = Some xs -> r_stack u = [] -> r_bf u = Some h -> nth_error st h = Some p -> At f p (body ++ rest) ->
    K num gen = None -> (List.length body + 4 <= n)%nat ->
    let '(K', l2, x) := scan_entries K l' num gen in
    exists pos' st' u', arun f (brute_force inflate ccitt D m (iobj_of k) n num gen) (mkA pos st u) = (match x with None => Ok tt | Some e => Err e end, mkA pos' st' u') /\
      agrees u' K' /\ lst l2 st' u' /\ (x = None -> exists w, K' num gen = Some w).
  Proof.
    induction 1 as [s rest0 Hs Hr|s n0 g0 v0 t l ts rest0 Hs HI HB IH|s sep ds l ts rest0 Hs Hs2 Hn0 Hds HE HB IH];
      intros -> l' HV n pos st u K h p HK Hx Hst Hbf Hh HA Hk Hn; assert (known u num gen = None) as Hku by now rewrite HK.
    - inversion HV; subst. destruct n as [|[|n]]; try lia.
      cbn [brute_force]. cbn [bind getu arun a_usr]. unfold is_registered. fold (known u num gen). rewrite Hku, Hst. cbn [on_stack existsb].
      set (u1 := mkR (r_objs u) (r_xrefs u) (r_bf u) [(num, gen)]).
      cbn [push bind getu arun a_usr]. cbn [setu bind arun a_usr a_pos a_store]. rewrite Hst. fold u1.
      destruct (bf_miss inflate ccitt decrypt D m f (locate k) ltac:(lia) Hm pos st h p s rest u1 (S n)) as [ex E]; auto; [lia|].
      set (u2 := with_objs u1 (rset (r_objs u) num gen ONull)).
      match goal with |- context [arun f (bind ?A ?B) ?S] => assert (arun f A S = (Ok false, mkA (p + zlen s) (st ++ ex) u2)) as E2 end.
      { apply arun_catch_ok.
        assert (arun f (next_brute_force m (iobj_of k) (S n);;; ret true) (mkA pos st u1) = (Err ParserExc, mkA (p + zlen s) (st ++ ex) u1)) as E3.
        { rewrite arun_bind. unfold next_brute_force at 1. cbn [bind getu arun a_usr]. change (r_bf u1) with (r_bf u). rewrite Hbf.
          rewrite arun_bind, E. reflexivity. }
        rewrite (arun_catch_err f _ _ _ _ _ _ E3) by discriminate. cbn [is_parser_exc exn_eqb negb andb].
        unfold do_register. cbn [bind getu arun a_usr].
        rewrite (register_no_objstm inflate ccitt (fun _ _ w => Ok w) D); [|lia|intros d raw; discriminate].
        change (r_objs u1) with (r_objs u). unfold is_registered. fold (known u num gen). rewrite Hku. reflexivity. }
      rewrite arun_bind, E2. cbn [scan_entries]. rewrite Hk. cbn [fst snd]. do 3 eexists. split; [reflexivity|]. split; [|split].
      + intros a b. unfold known. cbn. rewrite rget_rset. fold (known u a b). rewrite HK. unfold learn.
        destruct ((a =? num) && (b =? gen)) eqn:Eab.
        * assert (a = num /\ b = gen) as [-> ->] by (apply andb_true_iff in Eab; lia). now rewrite Hk.
        * now destruct (K a b).
      + split; [exact Hx|]. split; [reflexivity|]. exists h, p, s, []. split; [exact Hbf|]. split; [|split; [now constructor|split; [exact HA|constructor]]].
        cbn [a_store]. rewrite nth_error_app1; auto. apply nth_error_Some. congruence.
      + intros _. exists ONull. rewrite learn_here, Hk. reflexivity.
    - inversion HV as [|? e' ? l1 HV1 HV2]; subst.
      destruct n as [|n]; try lia. repeat rewrite <- app_assoc in HA.
      destruct (ind_digit _ _ _ _ _ HI) as (c & t' & Et & Hc). assert (0 < List.length t)%nat as Ht by (subst t; cbn [List.length]; lia). clear Et.
      set (u1 := mkR (r_objs u) (r_xrefs u) (r_bf u) [(num, gen)]).
      destruct e' as [[[[n1 g1] v1] ms]|x].
      + destruct HV1 as (-> & -> & Hd & HH). rewrite !app_length in Hn.
        destruct (m_hit inflate ccitt decrypt D m f HD Hm (locate k) pos st h p s n0 g0 v0 v1 ms t (ts ++ rest) u1 n) as (ex & ue & E & (R1 & R2 & R3 & R4)); auto; [lia|].
        assert (agrees u1 K) as HK1 by exact HK. specialize (R4 K HK1).
        rewrite (bf_step inflate ccitt D m f (iobj_of k) num gen n pos st u h _ _ _ Hst Hku Hbf E R3).
        set (p1 := p + zlen s + zlen t) in *. set (h1 := List.length (st ++ ex)).
        set (u3 := mkR (r_objs ue) (r_xrefs ue) (Some h1) []).
        assert (agrees u3 (learn_elem K (n0, g0, v1, ms))) as HK3 by exact R4.
        assert (nth_error ((st ++ ex) ++ [p1]) h1 = Some p1) as Hh1 by (unfold h1; rewrite nth_error_app2 by lia; now rewrite Nat.sub_diag).
        assert (At f p1 (ts ++ rest)) as HA1 by (unfold p1; apply At_app; apply (At_app f p s); exact HA).
        assert (r_xrefs u3 = Some xs) as Hx3 by (cbn [r_xrefs u3]; rewrite R1; exact Hx).
        cbn [scan_entries]. rewrite Hk. destruct (learn_elem K (n0, g0, v1, ms) num gen) as [w|] eqn:Ew.
        * rewrite (scan_entries_known _ _ _ _ _ Ew). destruct n as [|n]; [lia|]. do 3 eexists.
          split; [apply (bf_known inflate ccitt decrypt D m f (locate k) n num gen p1 _ u3 w); rewrite HK3; exact Ew|].
          split; [exact HK3|]. split; [|intros _; exists w; exact Ew].
          split; [exact Hx3|]. split; [reflexivity|]. exists h1, p1, ts, l. auto.
        * apply (IH eq_refl l1 HV2 n p1 _ u3 _ h1 p1 HK3 Hx3 eq_refl eq_refl Hh1 HA1 Ew). lia.
      + destruct HV1 as [Hd Hfx]. cbn [fst snd] in Hd. cbn [scan_entries]. rewrite Hk.
        destruct (b_hit (locate k) pos st h p s n0 g0 v0 x t (ts ++ rest) u1 n) as (ex & E); auto; [rewrite !app_length in Hn; lia|].
        exists (p + zlen s + zlen t), (st ++ ex), u. split; [exact (b_step (iobj_of k) num gen n pos st u h _ ex x Hst Hku Hbf Hfx E)|].
        split; [exact HK|]. split; [|discriminate].
        split; [exact Hx|]. split; [exact Hst|]. exists h, p, (s ++ t ++ ts), ((n0, g0, v0) :: l). split; [exact Hbf|].
        split; [rewrite nth_error_app1; auto; apply nth_error_Some; congruence|]. split; [now constructor|]. split; [rewrite <- !app_assoc; exact HA|exact HV].
    - destruct n as [|n]; try lia. repeat rewrite <- app_assoc in HA. rewrite !app_length in Hn.
      assert (List.length (bs "startxref") = 9)%nat as H9 by reflexivity.
      set (u1 := mkR (r_objs u) (r_xrefs u) (r_bf u) [(num, gen)]).
      destruct (m_start inflate ccitt decrypt D m f HD Hm (locate k) pos st h p s sep ds (ts ++ rest) u1 n) as (ex & E); auto; [lia|].
      rewrite (bf_step inflate ccitt D m f (iobj_of k) num gen n pos st u h _ _ _ Hst Hku Hbf E eq_refl).
      set (p1 := p + zlen s + zlen (bs "startxref" ++ sep ++ ds)) in *. set (h1 := List.length (st ++ ex)).
      set (u3 := mkR (r_objs u1) (r_xrefs u1) (Some h1) []).
      assert (nth_error ((st ++ ex) ++ [p1]) h1 = Some p1) as Hh1 by (unfold h1; rewrite nth_error_app2 by lia; now rewrite Nat.sub_diag).
      assert (At f p1 (ts ++ rest)) as HA1.
      { unfold p1. apply At_app. apply (At_app f p s) in HA. rewrite <- !app_assoc. exact HA. }
      apply (IH eq_refl l' HV n p1 _ u3 K h1 p1 HK Hx eq_refl eq_refl Hh1 HA1 Hk). lia.
  Qed.

  Lemma lbf_done k n g pos st u w : known u n g = Some w -> arun f (brute_force inflate ccitt D m (iobj_of k) m n g) (mkA pos st u) = (Ok tt, mkA pos st u).
  Proof.
    intros HK. pose proof (zlen_nonneg f) as HL. assert (exists m', m = S m') as [m' Em] by (destruct m; [lia|eauto]).
    assert (forall j, (0 < j)%nat -> arun f (brute_force inflate ccitt D m (iobj_of k) j n g) (mkA pos st u) = (Ok tt, mkA pos st u)) as HJ.
    { intros [|j] Hj; [lia|]. apply (bf_known inflate ccitt decrypt D m f (locate k) j n g pos st u w HK). }
    apply HJ. lia.
  Qed.
  (** ---- lookups ---- *)
  Hypothesis Hself : Forall self_keyed xs.
  Variable listed : Z -> Z -> option ((obj * list (Z * obj)) + exn).
  Hypothesis Hcur : forall n g r, listed n g = Some r -> exists newer x older pre text rest v,
    xs = newer ++ x :: older /\ xlists x n g (zlen pre) /\ Forall (fun x => forall o', ~ xlists x n g o') newer /\
    f = pre ++ text ++ rest /\ IndObj n g v text rest /\
    match r with inl (v', ms) => decrypt n g v = Ok v' /\ Held v' ms | inr e => decrypt n g v = Err e /\ fatal e end.
  Hypothesis Hnone : forall n g, listed n g = None -> Forall (fun x => forall o', ~ xlists x n g o') xs.

  Lemma llook_ok k n g l' st u K pos : agrees u K -> lst l' st u ->
    let '(v, (K', l2)) := llook listed (K, l') n g in
    exists pos' st' u', arun f (locate (S k) n g) (mkA pos st u) = (v, mkA pos' st' u') /\ agrees u' K' /\ lst l2 st' u'.
  Proof.
    intros HK HS. pose proof HS as (Hx & Hst & h & p & body & l & Hbf & Hh & HB & HA & HV). pose proof (zlen_nonneg f) as HL.
    unfold llook. cbn [fst snd].
    set (bx := by_xref (locate k) (iobj_of k) xs n g).
    set (K1 := match listed n g with Some (inl (v, ms)) => learn_elem K (n, g, v, ms) | _ => K end).
    set (r1 := match listed n g with Some (inr x) => Err x | _ => Ok (match K1 n g with Some w => w | None => ONull end) end).
    assert (exists q u1, uruns f bx pos u r1 q u1 /\ agrees u1 K1 /\ r_bf u1 = r_bf u /\ r_stack u1 = [] /\ r_xrefs u1 = Some xs)
      as (q & u1 & HU & HK1 & G1 & G2 & G3).
    { unfold bx, r1, K1. destruct (listed n g) as [[[v' ms]|e]|] eqn:Ec.
      - destruct (Hcur n g _ Ec) as (newer & x & older & pre & text & rst' & v & El & (e & E1 & E2 & E3) & HN & Ef & HI & Hd & HH).
        pose proof (zlen_nonneg pre) as Hpre.
        assert (At f (zlen pre) (text ++ rst')) as HAp by now apply At_start with (pre := pre).
        destruct (m_iobj inflate ccitt decrypt D m f HD Hm (locate k) (zlen pre) n g v v' ms text rst' u HI Hd HH HAp) as (u' & HR & (R1 & R2 & R3 & R4)). specialize (R4 K HK).
        exists (zlen pre + zlen text), u'. split; [|split; [exact R4|split; [exact R2|split; [rewrite R3; exact Hst|rewrite R1; exact Hx]]]].
        assert (Forall self_keyed newer) as HSn by (rewrite El in Hself; apply Forall_app in Hself; apply Hself).
        rewrite El, (by_xref_pass inflate ccitt decrypt D m HD rest Hrest) by assumption. cbn [by_xref]. rewrite E1, E2, Z.eqb_refl, E3.
        eapply uruns_bind with (a := tt) (u1 := u').
        + apply uruns_catch_ok. apply uruns_reset. unfold reset_pos. rewrite (proj2 (Z.leb_le 0 (zlen pre))) by lia.
          eapply uruns_bind; [exact HR|apply uruns_ret].
        + destruct (learn_elem_some K n g v' ms) as [w Hw]. pose proof (R4 n g) as HKn. rewrite Hw in HKn |- *. unfold known in HKn. clear - HKn.
          unfold registered. intros st0. exists []. rewrite app_nil_r. cbn [bind getu ret arun a_usr]. unfold is_registered. rewrite HKn. cbn. rewrite HKn. reflexivity.
      - destruct (Hcur n g _ Ec) as (newer & x & older & pre & text & rst' & v & El & (e0 & E1 & E2 & E3) & HN & Ef & HI & Hd & HX).
        destruct (fatal_facts e HX) as (F1 & F2 & F3 & F4 & F5).
        pose proof (zlen_nonneg pre) as Hpre.
        assert (At f (zlen pre) (text ++ rst')) as HAp by now apply At_start with (pre := pre).
        pose proof (b_iobj (locate k) (zlen pre) n g v e text rst' u HI Hd HAp) as HR.
        exists (zlen pre + zlen text), u. split; [|split; [exact HK|split; [reflexivity|split; [exact Hst|exact Hx]]]].
        assert (Forall self_keyed newer) as HSn by (rewrite El in Hself; apply Forall_app in Hself; apply Hself).
        rewrite El, (by_xref_pass inflate ccitt decrypt D m HD rest Hrest) by assumption. cbn [by_xref]. rewrite E1, E2, Z.eqb_refl, E3.
        apply uruns_bind_err. apply uruns_catch_pass; auto. apply uruns_reset. unfold reset_pos. rewrite (proj2 (Z.leb_le 0 (zlen pre))) by lia.
        apply uruns_bind_err. exact HR.
      - exists pos, u. split; [|split; [exact HK|split; [reflexivity|split; [exact Hst|exact Hx]]]].
        rewrite <- (app_nil_r xs), (by_xref_pass inflate ccitt decrypt D m HD rest Hrest) by (auto; apply Hnone; exact Ec). intros st0. exists []. rewrite app_nil_r. cbn. fold (known u n g). rewrite HK. reflexivity. }
    destruct (HU st) as [ex EX].
    assert (nth_error (st ++ ex) h = Some p) as Hh1 by (rewrite nth_error_app1; auto; apply nth_error_Some; congruence).
    assert (lst l' (st ++ ex) u1) as HS1.
    { split; [exact G3|]. split; [exact G2|]. exists h, p, body, l. rewrite G1. auto. }
    change (locate (S k) n g) with (locate_object inflate ccitt decrypt D m (S k) n g). cbn [locate_object].
    cbn [bind getu arun a_usr]. fold (known u n g). rewrite HK, Hx.
    destruct (K n g) as [w|] eqn:Ew.
    - assert (K1 = K) as EK1 by (unfold K1; destruct (listed n g) as [[[v' ms]|?]|]; try reflexivity; apply (learn_elem_known _ _ _ _ _ w Ew)).
      rewrite EK1 in *. destruct (truthy w) eqn:Et.
      + exists pos, st, u. split; [reflexivity|]. split; [exact HK|exact HS].
      + fold bx. rewrite arun_bind, EX. unfold r1. rewrite EK1.
        pose proof (lbf_done k n g q (st ++ ex) u1 w ltac:(now rewrite HK1)) as EB.
        destruct (listed n g) as [[r|e]|];
          [| cbn [fst snd]; do 3 eexists; split; [reflexivity|]; split; [exact HK1|exact HS1]|];
          rewrite Ew, Et, arun_bind;
          (match type of EB with ?A = _ => match goal with |- context [arun f (brute_force inflate ccitt D m ?X m n g) ?S] => change (arun f (brute_force inflate ccitt D m X m n g) S) with A end end);
          rewrite EB; cbn; fold (known u1 n g); rewrite HK1, Ew; do 3 eexists; (split; [reflexivity|]); (split; [exact HK1|exact HS1]).
    - cbn [truthy]. fold bx. rewrite arun_bind, EX. unfold r1, K1 in *. destruct (listed n g) as [[[v' ms]|e]|] eqn:Ec.
      + cbn [fst snd]. rewrite (learn_elem_here K n g v' ms Ew). destruct (truthy v') eqn:Et.
        * do 3 eexists. split; [reflexivity|]. split; [exact HK1|exact HS1].
        * assert (known u1 n g = Some v') as HKv by (rewrite HK1; apply learn_elem_here; exact Ew).
          rewrite arun_bind. pose proof (lbf_done k n g q (st ++ ex) u1 v' HKv) as EB.
          match type of EB with ?A = _ => match goal with |- context [arun f (brute_force inflate ccitt D m ?X m n g) ?S] => change (arun f (brute_force inflate ccitt D m X m n g) S) with A end end.
          rewrite EB. cbn. fold (known u1 n g). rewrite HKv. do 3 eexists. split; [reflexivity|]. split; [exact HK1|exact HS1].
      + do 3 eexists. split; [reflexivity|]. split; [exact HK1|exact HS1].
      + rewrite Ew. cbn [truthy]. rewrite arun_bind. rewrite <- G1 in Hbf.
        assert (List.length body + 4 <= m)%nat as Hn.
        { destruct HA as [Hp0 HA]. clear - HA Hm Hp0. unfold zlen in Hm.
          assert (List.length (body ++ rest) <= List.length f)%nat; [|rewrite app_length in *; lia]. rewrite <- HA. rewrite skipn_length. lia. }
        pose proof (lscan k n g l body rest HB eq_refl l' HV m q (st ++ ex) u1 K h p HK1 G3 G2 Hbf Hh1 HA Ew Hn) as HL1.
        destruct (scan_entries K l' n g) as [[K' l2] [x|]]; destruct HL1 as (pos' & st' & u' & E' & A' & S' & Hw).
        * match type of E' with ?A = _ => match goal with |- context [arun f (brute_force inflate ccitt D m ?X m n g) ?S] => change (arun f (brute_force inflate ccitt D m X m n g) S) with A end end.
          rewrite E'. exists pos', st', u'. split; [reflexivity|]. split; [exact A'|exact S'].
        * destruct (Hw eq_refl) as [w Hw'].
          match type of E' with ?A = _ => match goal with |- context [arun f (brute_force inflate ccitt D m ?X m n g) ?S] => change (arun f (brute_force inflate ccitt D m X m n g) S) with A end end.
          rewrite E', Hw'. exists pos', st', u'. split; [cbn; fold (known u' n g); rewrite A', Hw'; reflexivity|]. split; [exact A'|exact S'].
  Qed.
  Lemma llooks_ok k : forall ids l' st u K pos, agrees u K -> lst l' st u ->
    exists a', session inflate ccitt decrypt D m (S k) f (mkA pos st u) ids = (llooks listed (K, l') ids, a').
  Proof.
    induction ids as [|[n g] ids IH]; intros l' st u K pos HK HS; cbn [session llooks]; [eexists; reflexivity|].
    pose proof (llook_ok k n g l' st u K pos HK HS) as H.
    destruct (llook listed (K, l') n g) as [v [K' l2]]. destruct H as (pos' & st' & u' & E & HK' & HS'). rewrite E.
    destruct (IH l2 st' u' K' pos' HK' HS') as (a2 & E2). rewrite E2. eexists. reflexivity.
  Qed.
End Mod.
