(** What sessions give depends on their history, and how: C77. *)
From Coq Require Import String.
From Verif Require Import Prelude M_Prog M_Parser S_Syntax L_Buffer L_Prog L_ParserWP L_Syntax L_Syntax2 S_Print L_Print
  S_Stream L_Stream M_Filters M_Document S_Document L_Document L_User L_Registry P_IndObj
  S_Xref L_Xref P_Header P_StartXref P_Xref P_Locate L_Steps S_Open P_Open S_Write P_Write S_History.
Local Open Scope Z_scope.
Local Open Scope prog_scope.

Definition agrees (u : rst) (K : contents) : Prop := forall n g, known u n g = K n g.
Lemma agrees_add u K n g v : agrees u K -> agrees (add_obj u n g v) (learn K n g v).
Proof.
  intros H a b. unfold learn. rewrite <- (H a b). unfold add_obj, known, is_registered. cbn [with_objs r_objs].
  destruct (rget (r_objs u) n g) as [w|] eqn:E.
  - destruct (rget (r_objs u) a b) as [x|] eqn:E2; [reflexivity|]. destruct ((a =? n) && (b =? g)) eqn:Eab; [|reflexivity].
    assert (a = n /\ b = g) as [-> ->] by (apply andb_true_iff in Eab; lia). congruence.
  - rewrite rget_rset. destruct ((a =? n) && (b =? g)) eqn:Eab.
    + assert (a = n /\ b = g) as [-> ->] by (apply andb_true_iff in Eab; lia). now rewrite E.
    + destruct (rget (r_objs u) a b); reflexivity.
Qed.
Lemma learn_known K n g v w : K n g = Some w -> forall a b, learn K n g v a b = K a b.
Proof.
  intros H a b. unfold learn. destruct (K a b) eqn:E; [reflexivity|]. destruct ((a =? n) && (b =? g)) eqn:Eab; [|reflexivity].
  assert (a = n /\ b = g) as [-> ->] by (apply andb_true_iff in Eab; lia). congruence.
Qed.
Lemma learn_here K n g v : learn K n g v n g = match K n g with Some w => Some w | None => Some v end.
Proof. unfold learn. rewrite !Z.eqb_refl. reflexivity. Qed.

Section Hist.
  Variable inflate : list Z -> option (list Z).
  Variable ccitt : list Z -> fparams -> res (list Z).
  Variables (D m : nat).
  Notation decrypt := (fun (_ _ : Z) (v : obj) => Ok v).
  Notation locate := (locate_object inflate ccitt decrypt D m).
  Notation iobj_of k := (reg_indirect inflate ccitt decrypt D m (length_hook (locate k))).
  Variable f : list Z.
  Hypothesis HD : (0 < D)%nat.
  Hypothesis Hm : 4 * zlen f + 8 <= Z.of_nat m.
  Variable ls : list (list listed).
  Notation xs := (map table_of ls).
  Variable rest : list Z.
  Hypothesis Hrest : forall c, hd_error rest = Some c -> is_digit c = false /\ c <> 115 /\ c <> 116.

  Definition sst (l : list (Z * Z * obj)) (st : list Z) (u : rst) : Prop :=
    r_xrefs u = Some xs /\ r_stack u = [] /\ exists h p body, r_bf u = Some h /\ nth_error st h = Some p /\ Body l body rest /\ At f p (body ++ rest).
  Definition plain (l : list (Z * Z * obj)) : Prop := Forall (fun e => no_objstm (snd e)) l.

  Lemma scan3 k num gen : forall l, plain l -> forall n pos st u K, agrees u K -> sst l st u -> K num gen = None -> (List.length l + 4 <= n)%nat ->
    exists pos' st' u', arun f (brute_force inflate ccitt D m (iobj_of k) n num gen) (mkA pos st u) = (Ok tt, mkA pos' st' u') /\
      agrees u' (fst (scan_until K l num gen)) /\ sst (snd (scan_until K l num gen)) st' u' /\ (exists w, fst (scan_until K l num gen) num gen = Some w).
  Proof.
    induction l as [|[[n0 g0] v0] l IH]; intros HP n pos st u K HK (Hx & Hst & h & p & body & Hbf & Hh & HB & HA) Hk Hn.
    - destruct n as [|[|n]]; cbn [List.length] in Hn; try lia. assert (known u num gen = None) as Hku by now rewrite HK.
      inversion HB as [s rest' Hs Hr|]; subst.
      cbn [brute_force]. cbn [bind getu arun a_usr]. unfold is_registered. fold (known u num gen). rewrite Hku, Hst. cbn [on_stack existsb].
      set (u1 := mkR (r_objs u) (r_xrefs u) (r_bf u) [(num, gen)]).
      cbn [push bind getu arun a_usr]. cbn [setu bind arun a_usr a_pos a_store]. rewrite Hst. fold u1.
      destruct (bf_miss inflate ccitt decrypt D m f (locate k) HD Hm pos st h p body rest u1 (S n)) as [ex E]; auto; [lia|].
      set (u2 := with_objs u1 (rset (r_objs u) num gen ONull)).
      match goal with |- context [arun f (bind ?A ?B) ?S] => assert (arun f A S = (Ok false, mkA (p + zlen body) (st ++ ex) u2)) as E2 end.
      { apply arun_catch_ok.
        assert (arun f (next_brute_force m (iobj_of k) (S n);;; ret true) (mkA pos st u1) = (Err ParserExc, mkA (p + zlen body) (st ++ ex) u1)) as E3.
        { rewrite arun_bind. unfold next_brute_force at 1. cbn [bind getu arun a_usr]. change (r_bf u1) with (r_bf u). rewrite Hbf.
          rewrite arun_bind, E. reflexivity. }
        rewrite (arun_catch_err f _ _ _ _ _ _ E3) by discriminate. cbn [is_parser_exc exn_eqb negb andb].
        unfold do_register. cbn [bind getu arun a_usr].
        rewrite (register_no_objstm inflate ccitt (fun _ _ w => Ok w) D); [|exact HD|intros d raw; discriminate].
        change (r_objs u1) with (r_objs u). unfold is_registered. fold (known u num gen). rewrite Hku. reflexivity. }
      rewrite arun_bind, E2. cbn [scan_until]. rewrite Hk. cbn [fst snd]. do 3 eexists. split; [reflexivity|]. split; [|split].
      + intros a b. unfold known. cbn. rewrite rget_rset. fold (known u a b). rewrite HK. unfold learn.
        destruct ((a =? num) && (b =? gen)) eqn:Eab.
        * assert (a = num /\ b = gen) as [-> ->] by (apply andb_true_iff in Eab; lia). now rewrite Hk.
        * now destruct (K a b).
      + split; [exact Hx|]. split; [reflexivity|]. exists h, p, body. split; [exact Hbf|]. split; [|split; [exact HB|exact HA]].
        cbn [a_store]. rewrite nth_error_app1; auto. apply nth_error_Some. congruence.
      + exists ONull. rewrite learn_here, Hk. reflexivity.
    - inversion HB as [|s n1 g1 v1 t l1 ts1 rest1 Hs HT HB1]; subst. inversion HP as [|? ? HO HP']; subst. cbn [snd] in HO.
      destruct n as [|n]; cbn [List.length] in Hn; try lia. assert (known u num gen = None) as Hku by now rewrite HK.
      cbn [brute_force]. cbn [bind getu arun a_usr]. unfold is_registered at 1. fold (known u num gen). rewrite Hku, Hst. cbn [on_stack existsb].
      set (u1 := mkR (r_objs u) (r_xrefs u) (r_bf u) [(num, gen)]).
      cbn [push bind getu arun a_usr]. cbn [setu bind arun a_usr a_pos a_store]. rewrite Hst. fold u1.
      repeat rewrite <- app_assoc in HA.
      destruct (bf_hit inflate ccitt decrypt D m f (locate k) HD Hm pos st h p s n0 g0 v0 t (ts1 ++ rest) u1 n) as (ex & E); auto; [lia|].
      set (ue := add_obj u1 n0 g0 v0) in *.
      set (p1 := p + zlen s + zlen t) in *.
      set (h1 := List.length (st ++ ex)).
      set (u2 := mkR (r_objs ue) (r_xrefs u) (Some h1) [(num, gen)]).
      match goal with |- context [arun f (bind ?A ?B) ?S] => assert (arun f A S = (Ok true, mkA p1 ((st ++ ex) ++ [p1]) u2)) as E2 end.
      { apply arun_catch_ok. apply arun_catch_ok. rewrite arun_bind. unfold next_brute_force at 1. cbn [bind getu arun a_usr].
        change (r_bf u1) with (r_bf u). rewrite Hbf. rewrite arun_bind, E. reflexivity. }
      rewrite arun_bind, E2.
      set (u3 := mkR (r_objs ue) (r_xrefs u) (Some h1) []).
      change (arun f (pop;;; (if true then brute_force inflate ccitt D m (iobj_of k) n num gen else ret tt)) (mkA p1 ((st ++ ex) ++ [p1]) u2))
        with (arun f (brute_force inflate ccitt D m (iobj_of k) n num gen) (mkA p1 ((st ++ ex) ++ [p1]) u3)).
      assert (agrees u3 (learn K n0 g0 v0)) as HK3 by exact (agrees_add u1 K n0 g0 v0 HK).
      assert (sst l ((st ++ ex) ++ [p1]) u3) as HS3.
      { split; [exact Hx|]. split; [reflexivity|]. exists h1, p1, ts1. split; [reflexivity|].
        split; [unfold h1; rewrite nth_error_app2 by lia; now rewrite Nat.sub_diag|]. split; [exact HB1|].
        unfold p1. apply At_app. apply (At_app f p s). exact HA. }
      cbn [scan_until]. rewrite Hk. destruct (learn K n0 g0 v0 num gen) as [w|] eqn:Ew.
      + assert (scan_until (learn K n0 g0 v0) l num gen = (learn K n0 g0 v0, l)) as -> by (destruct l as [|[[? ?] ?] ?]; cbn [scan_until]; now rewrite Ew).
        destruct n as [|n]; [lia|]. do 3 eexists.
        split; [apply (bf_known inflate ccitt decrypt D m f (locate k) n num gen p1 _ u3 w); rewrite HK3; exact Ew|].
        cbn [fst snd]. split; [exact HK3|]. split; [exact HS3|]. exists w. exact Ew.
      + apply (IH HP' n p1 _ u3 _ HK3 HS3 Ew). lia.
  Qed.

  Variable cur : contents.
  Hypothesis Hcur : forall n g v, cur n g = Some v -> no_objstm v /\ exists o pre text rest, newest ls n g o /\ f = pre ++ text ++ rest /\ o = zlen pre /\ IndObj n g v text rest.
  Hypothesis Hnone : forall n g, cur n g = None -> Forall (fun l' => forall o', last_listed true n l' <> Some (g, o')) ls.

  Let Hno : forall (num gen : Z) (v : obj), None = Some v -> no_objstm v.
  Proof. discriminate. Qed.
  Lemma look_ok k n g l st u K pos : plain l -> agrees u K -> sst l st u -> (List.length l + 4 <= m)%nat ->
    let '(v, (K', l')) := look cur (K, l) n g in
    exists pos' st' u', arun f (locate (S k) n g) (mkA pos st u) = (Ok v, mkA pos' st' u') /\ agrees u' K' /\ sst l' st' u'.
  Proof.
    intros HP HK HS Hn. pose proof HS as (Hx & Hst & h & p & body & Hbf & Hh & HB & HA). pose proof (zlen_nonneg f) as HL.
    unfold look. cbn [fst snd].
    set (bx := by_xref (locate k) (iobj_of k) xs n g).
    (* what the tables give *)
    assert (exists q u1, uruns f bx pos u (Ok (match cur n g with Some v => match learn K n g v n g with Some w => w | None => ONull end | None => match K n g with Some w => w | None => ONull end end)) q u1 /\
      agrees u1 (match cur n g with Some v => learn K n g v | None => K end) /\ r_bf u1 = r_bf u /\ r_stack u1 = [] /\ r_xrefs u1 = Some xs) as (q & u1 & HU & HK1 & G1 & G2 & G3).
    { unfold bx. destruct (cur n g) as [v|] eqn:Ec.
      - destruct (Hcur n g v Ec) as (HO & o & pre & text & rst' & (newer & t & older & El & Hl & HN) & Ef & Eo & HI).
        pose proof (zlen_nonneg pre) as Hpre.
        assert (uruns f (iobj_of k) o u (Ok (n, g, v)) (o + zlen text) (add_obj u n g v)) as HR.
        { eapply r_iobj; eauto. subst o. now apply At_start with (pre := pre). }
        pose proof (agrees_add u K n g v HK) as HKA.
        exists (o + zlen text), (add_obj u n g v). split; [|split; [exact HKA|split; [reflexivity|split; [exact Hst|exact Hx]]]].
        rewrite El, map_app, (by_xref_skip inflate ccitt D m f HD (fun _ _ => None) Hno) by exact HN. cbn [map by_xref].
        destruct (is_table_fold t) as (HT1 & _). fold (table_of t) in HT1. rewrite (HT1 n), Hl. cbn [e_gen e_off]. rewrite Z.eqb_refl.
        eapply uruns_bind with (a := tt) (u1 := add_obj u n g v).
        + apply uruns_catch_ok. apply uruns_reset. unfold reset_pos. rewrite (proj2 (Z.leb_le 0 o)) by lia.
          eapply uruns_bind; [exact HR|apply uruns_ret].
        + pose proof (HKA n g) as HKn. rewrite learn_here in HKn |- *. clear - HKn. revert HKn. generalize (add_obj u n g v). intros U HKn.
          unfold registered. intros st0. exists []. rewrite app_nil_r. cbn [bind getu ret arun a_usr]. unfold is_registered.
          unfold known in HKn. destruct (K n g) as [w|]; rewrite HKn; cbn; rewrite HKn; reflexivity.
      - exists pos, u. split; [|split; [exact HK|split; [reflexivity|split; [exact Hst|exact Hx]]]].
        rewrite (by_xref_none inflate ccitt D m f HD (fun _ _ => None) Hno) by (apply Hnone; exact Ec). intros st0. exists []. rewrite app_nil_r. cbn. fold (known u n g). rewrite HK. reflexivity. }
    destruct (HU st) as [ex EX].
    assert (sst l (st ++ ex) u1) as HS1.
    { split; [exact G3|]. split; [exact G2|]. exists h, p, body. rewrite G1. split; [exact Hbf|]. split; [|split; [exact HB|exact HA]].
      rewrite nth_error_app1; auto. apply nth_error_Some. congruence. }
    change (locate (S k) n g) with (locate_object inflate ccitt decrypt D m (S k) n g). cbn [locate_object].
    cbn [bind getu arun a_usr]. fold (known u n g). rewrite HK, Hx.
    destruct (K n g) as [w|] eqn:Ew.
    - (* known *)
      assert (scan_until K l n g = (K, l)) as Esc by (destruct l as [|[[? ?] ?] ?]; cbn [scan_until]; now rewrite Ew).
      assert (agrees u1 K) as HK1'.
      { destruct (cur n g) as [v|]; [|exact HK1]. intros a b. rewrite (HK1 a b). eapply learn_known; eauto. }
      destruct (truthy w) eqn:Et.
      + destruct (cur n g) as [v|].
        * cbn [fst snd]. rewrite learn_here, Ew. exists pos, st, u. split; [reflexivity|]. split; [|exact HS].
          intros a b. rewrite (HK a b). symmetry. eapply learn_known; eauto.
        * rewrite Esc. cbn [fst snd]. rewrite Ew. exists pos, st, u. split; [reflexivity|]. split; [exact HK|exact HS].
      + fold bx. rewrite arun_bind, EX.
        replace (match cur n g with Some v => match learn K n g v n g with Some w => w | None => ONull end | None => w end) with w
          by (destruct (cur n g); [rewrite learn_here, Ew; reflexivity|reflexivity]).
        rewrite Et, arun_bind.
        assert (arun f (brute_force inflate ccitt D m (iobj_of k) m n g) (mkA q (st ++ ex) u1) = (Ok tt, mkA q (st ++ ex) u1)) as EB.
        { assert (forall j, (0 < j)%nat -> arun f (brute_force inflate ccitt D m (iobj_of k) j n g) (mkA q (st ++ ex) u1) = (Ok tt, mkA q (st ++ ex) u1)) as HJ.
          { intros [|j] Hj; [lia|]. apply (bf_known inflate ccitt decrypt D m f (locate k) j n g q (st ++ ex) u1 w). now rewrite HK1'. }
          apply HJ. lia. }
        match type of EB with ?A = _ => match goal with |- context [arun f (brute_force inflate ccitt D m ?X m n g) ?S] => change (arun f (brute_force inflate ccitt D m X m n g) S) with A end end.
        rewrite EB. cbn. fold (known u1 n g). rewrite HK1', Ew.
        destruct (cur n g) as [v|].
        * cbn [fst snd]. rewrite learn_here, Ew. do 3 eexists. split; [reflexivity|]. split; [exact HK1|exact HS1].
        * rewrite Esc. cbn [fst snd]. rewrite Ew. do 3 eexists. split; [reflexivity|]. split; [exact HK1|exact HS1].
    - cbn [truthy]. fold bx. rewrite arun_bind, EX. destruct (cur n g) as [v|] eqn:Ec.
      + cbn [fst snd]. rewrite learn_here, Ew. destruct (truthy v) eqn:Et.
        * do 3 eexists. split; [reflexivity|]. split; [exact HK1|exact HS1].
        * assert (known u1 n g = Some v) as HKv by (rewrite HK1, learn_here, Ew; reflexivity).
          rewrite arun_bind.
          assert (arun f (brute_force inflate ccitt D m (iobj_of k) m n g) (mkA q (st ++ ex) u1) = (Ok tt, mkA q (st ++ ex) u1)) as EB.
          { assert (forall j, (0 < j)%nat -> arun f (brute_force inflate ccitt D m (iobj_of k) j n g) (mkA q (st ++ ex) u1) = (Ok tt, mkA q (st ++ ex) u1)) as HJ.
            { intros [|j] Hj; [lia|]. apply (bf_known inflate ccitt decrypt D m f (locate k) j n g q (st ++ ex) u1 v HKv). }
            apply HJ. lia. }
          match type of EB with ?A = _ => match goal with |- context [arun f (brute_force inflate ccitt D m ?X m n g) ?S] => change (arun f (brute_force inflate ccitt D m X m n g) S) with A end end.
          rewrite EB. cbn. fold (known u1 n g). rewrite HKv. do 3 eexists. split; [reflexivity|]. split; [exact HK1|exact HS1].
      + cbn [truthy]. rewrite arun_bind.
        destruct (scan3 k n g l HP m q (st ++ ex) u1 K HK1 HS1 Ew Hn) as (pos' & st' & u' & E' & A' & S' & (w & Hw)).
        match type of E' with ?A = _ => match goal with |- context [arun f (brute_force inflate ccitt D m ?X m n g) ?S] => change (arun f (brute_force inflate ccitt D m X m n g) S) with A end end.
        rewrite E'. destruct (scan_until K l n g) as [K' l'] eqn:Esc. cbn [fst snd] in *. rewrite Hw.
        exists pos', st', u'. split; [cbn; fold (known u' n g); rewrite A', Hw; reflexivity|]. split; [exact A'|exact S'].
  Qed.

  Lemma scan_sub : forall l K n g, exists l0, l = l0 ++ snd (scan_until K l n g).
  Proof.
    induction l as [|[[a b] v] l IH]; intros K n g; cbn [scan_until].
    - destruct (K n g); exists []; reflexivity.
    - destruct (K n g); [exists []; reflexivity|]. destruct (IH (learn K a b v) n g) as [l0 E]. exists ((a, b, v) :: l0). cbn [app]. now rewrite <- E.
  Qed.
  Lemma looks_ok k : forall ids l st u K pos, plain l -> agrees u K -> sst l st u -> (List.length l + 4 <= m)%nat ->
    fst (session inflate ccitt decrypt D m (S k) f (mkA pos st u) ids) = map Ok (looks cur (K, l) ids).
  Proof.
    induction ids as [|[n g] ids IH]; intros l st u K pos HP HK HS Hn; cbn [session looks map]; [reflexivity|].
    pose proof (look_ok k n g l st u K pos HP HK HS Hn) as H.
    assert (exists l0, l = l0 ++ snd (snd (look cur (K, l) n g))) as [l0 El].
    { unfold look. cbn [fst snd]. destruct (cur n g); [exists []; reflexivity|]. apply scan_sub. }
    destruct (look cur (K, l) n g) as [v [K' l']]. destruct H as (pos' & st' & u' & E & HK' & HS'). cbn [fst snd] in El. rewrite E.
    assert (plain l') as HP' by (rewrite El in HP; apply Forall_app in HP; apply HP).
    specialize (IH l' st' u' K' pos' HP' HK' HS' ltac:(rewrite El, app_length in Hn; lia)).
    destruct (session inflate ccitt decrypt D m (S k) f (mkA pos' st' u') ids) as [vs s2]. cbn [fst map] in *. now f_equal.
  Qed.
End Hist.

Definition direct : contents := fun _ _ => None.
Lemma body_direct l ts rest : BodyText direct l ts rest -> Body l ts rest.
Proof.
  induction 1 as [s rest Hs Hr|s n g v t l ts rest Hs HT HB IH]; [now constructor|]. constructor; auto.
  inversion HT as [? ? ? ? ? HI|? ? a b d data ? ? _ Hab]; subst; [exact HI|discriminate].
Qed.

(** C77 (a).  Any file with a header, a chain of tables and a body of objects, where the tables' newest
    listings lead to objects (the body may contain other revisions and unlisted objects): any sequence of
    lookups gives exactly what the specification's memory machine gives. *)
Theorem C77_sessions_exactly : forall inflate ccitt f ver pre body rest o ls t cur l,
  f = pre ++ body ++ rest -> header_of f (Ok (ver, zlen pre)) -> offset_of f (Ok o) -> Chain f o ls t ->
  dget t (bs "xrefs") = None -> dget t (bs "self") = None ->
  BodyText direct l body rest -> (forall c, hd_error rest = Some c -> is_digit c = false /\ c <> 115 /\ c <> 116) ->
  (forall n g v, cur n g = Some v -> exists o, newest ls n g o /\ stands direct f o n g v) ->
  (forall n g o, newest ls n g o -> cur n g <> None) ->
  (forall n g v, cur n g = Some v -> no_objstm v) -> Forall (fun e => no_objstm (snd e)) l ->
  forall D m k, (0 < D)%nat -> 4 * zlen f + 8 <= Z.of_nat m -> (List.length ls <= k)%nat ->
  exists s, arun f (open_document inflate ccitt no_decrypt D m k) (mkA 0 [] rst0) = (Ok (ver, zlen pre, t), s) /\
  forall k' ids, (1 <= k')%nat ->
    fst (session inflate ccitt no_decrypt D m k' f s ids) = map Ok (looks cur (fun _ _ => None, l) ids).
Proof.
  intros inflate ccitt f ver pre body rest o ls t cur l Ef Hh Hoff HC H1 H2 HB Hc HL HN HO HP D m k HD Hm Hk.
  pose proof (zlen_nonneg pre) as Hp.
  destruct (opened inflate ccitt D m f HD Hm k ver (zlen pre) o ls t Hh Hp Hoff HC H1 H2 Hk) as (pos & st & h & E & Hst).
  eexists. split; [exact E|]. intros k' ids Hk'. destruct k' as [|k']; [lia|].
  apply (looks_ok inflate ccitt D m f HD Hm ls rest Hc cur) with (l := l); auto.
  - intros n g v Hv. split; [exact (HO n g v Hv)|]. destruct (HL n g v Hv) as (o1 & HN1 & pre1 & text & rest1 & E1 & E2 & HT).
    exists o1, pre1, text, rest1. split; [exact HN1|]. split; [exact E1|]. split; [exact E2|].
    inversion HT as [? ? ? ? ? HI|? ? a b d data ? ? _ Hab]; subst; [exact HI|discriminate].
  - intros n g Hv. destruct (newest_or_none ls n g) as [(o1 & X)|X]; [|exact X]. exfalso. exact (HN n g o1 X Hv).
  - intros n g. reflexivity.
  - split; [reflexivity|]. split; [reflexivity|]. exists h, (zlen pre), body. split; [reflexivity|]. split; [exact Hst|].
    split; [now apply body_direct|]. now apply At_start with (pre := pre).
  - pose proof (body_length _ _ _ _ HB) as HLn. unfold zlen in Hm. rewrite Ef, !app_length in Hm. lia.
Qed.
Print Assumptions C77_sessions_exactly.

(** ---- written documents ---- *)
Lemma same_id_refl id : same_id id id = true. Proof. unfold same_id. now rewrite !Z.eqb_refl. Qed.
Lemma same_id_eq x y : same_id x y = true -> x = y.
Proof. destruct x, y. unfold same_id. cbn [fst snd]. intros H. apply andb_true_iff in H. f_equal; lia. Qed.
Definition seen (before : list (Z * Z)) (id : Z * Z) : bool := existsb (same_id id) before.
Lemma until_unseen before id : seen before id = false -> until_first id before = before.
Proof.
  induction before as [|x r IH]; cbn [seen existsb until_first]; [reflexivity|]. intros H. apply orb_false_iff in H. destruct H as [H1 H2].
  rewrite H1. f_equal. now apply IH.
Qed.
Lemma until_app_seen before id y : seen before id = true -> until_first id (before ++ [y]) = until_first id before.
Proof.
  induction before as [|x r IH]; cbn [seen existsb until_first app]; [discriminate|]. destruct (same_id id x); [reflexivity|]. intros H. f_equal. now apply IH.
Qed.
Lemma until_app_new before id : seen before id = false -> until_first id (before ++ [id]) = before.
Proof.
  induction before as [|x r IH]; cbn [seen existsb until_first app]; [now rewrite same_id_refl|]. intros H. apply orb_false_iff in H. destruct H as [H1 H2].
  rewrite H1. f_equal. now apply IH.
Qed.
Lemma find_current revs n g w : find_obj (rv_objs (oldest revs)) n g = Some w -> current revs n g <> None.
Proof.
  unfold oldest. induction revs as [|r older IH]; [discriminate|]. cbn [current]. destruct older as [|r2 o2].
  - cbn [last]. intros ->. discriminate.
  - intros H. destruct (find_obj (rv_objs r) n g); [discriminate|]. apply IH. exact H.
Qed.
Lemma scan_all n g : forall l K, find_obj l n g = None -> K n g = None -> exists K', scan_until K l n g = (K', []) /\
  forall a b, K' a b = if same_id (a, b) (n, g) then Some ONull else match K a b with Some w => Some w | None => find_obj l a b end.
Proof.
  induction l as [|[[n0 g0] v0] l IH]; intros K Hf Hk; cbn [scan_until]; rewrite Hk.
  - eexists. split; [reflexivity|]. intros a b. unfold learn, same_id. cbn [fst snd]. destruct ((a =? n) && (b =? g)) eqn:E; [|destruct (K a b); reflexivity].
    assert (a = n /\ b = g) as [-> ->] by (apply andb_true_iff in E; lia). now rewrite Hk.
  - cbn [find_obj] in Hf. destruct ((n0 =? n) && (g0 =? g)) eqn:E0; [discriminate|].
    destruct (IH (learn K n0 g0 v0) Hf) as (K' & E & HK').
    { unfold learn. rewrite Hk, (Z.eqb_sym n n0), (Z.eqb_sym g g0), E0. reflexivity. }
    exists K'. split; [exact E|]. intros a b. rewrite HK'. destruct (same_id (a, b) (n, g)); [reflexivity|]. unfold learn. cbn [find_obj].
    rewrite (Z.eqb_sym n0 a), (Z.eqb_sym g0 b). destruct (K a b); [reflexivity|]. destruct ((a =? n0) && (b =? g0)); reflexivity.
Qed.

Section Closed.
  Variable revs : list revision.
  Notation objs := (rv_objs (oldest revs)).
  Notation scanned before := (existsb (missing revs) before).
  Definition memory (before : list (Z * Z)) (K : contents) (l : list (Z * Z * obj)) : Prop :=
    l = (if scanned before then [] else objs) /\
    forall n g, K n g = if seen before (n, g) then Some (value_after revs before (n, g))
                        else if scanned before then find_obj objs n g else None.
  Lemma value_seen before id y : seen before id = true -> value_after revs (before ++ [y]) id = value_after revs before id.
  Proof. intros H. unfold value_after. now rewrite until_app_seen. Qed.
  Lemma value_new before id : seen before id = false -> value_after revs (before ++ [id]) id = value_after revs before id.
  Proof. intros H. unfold value_after. now rewrite until_app_new, until_unseen. Qed.
  Lemma seen_app before y id : seen (before ++ [y]) id = seen before id || same_id id y.
  Proof. unfold seen. rewrite existsb_app. cbn [existsb]. now rewrite orb_false_r. Qed.
  Lemma look_closed before K l n g : memory before K l ->
    exists K' l', look (current revs) (K, l) n g = (value_after revs before (n, g), (K', l')) /\ memory (before ++ [(n, g)]) K' l'.
  Proof.
    intros [Hl HK]. unfold look. cbn [fst snd].
    assert (scanned (before ++ [(n, g)]) = scanned before || missing revs (n, g)) as Hsc by (rewrite existsb_app; cbn [existsb]; now rewrite orb_false_r).
    assert (missing revs (n, g) = match current revs n g with None => true | _ => false end) as Hmi by reflexivity.
    destruct (current revs n g) as [v|] eqn:Ec.
    - do 2 eexists. split; [f_equal|].
      + cbn [fst]. rewrite learn_here, HK. destruct (seen before (n, g)) eqn:Es; [reflexivity|]. unfold value_after. cbn [fst snd]. rewrite Ec, until_unseen by exact Es.
        destruct (scanned before); [|reflexivity]. destruct (find_obj objs n g); reflexivity.
      + split; [rewrite Hsc, Hmi, orb_false_r; exact Hl|]. intros a b. rewrite Hsc, Hmi, orb_false_r, seen_app. unfold learn. rewrite HK.
        destruct (seen before (a, b)) eqn:Es; cbn [orb]; [now rewrite value_seen|].
        unfold same_id at 1. cbn [fst snd]. destruct ((a =? n) && (b =? g)) eqn:Eab.
        * assert (a = n /\ b = g) as [-> ->] by (apply andb_true_iff in Eab; lia). rewrite value_new by exact Es.
          unfold value_after. cbn [fst snd]. rewrite Ec, until_unseen by exact Es. destruct (scanned before); [|reflexivity]. destruct (find_obj objs n g); reflexivity.
        * destruct (scanned before); [|reflexivity]. destruct (find_obj objs a b); reflexivity.
    - assert (find_obj objs n g = None) as Hf by (destruct (find_obj objs n g) eqn:E; auto; exfalso; eapply find_current; eauto).
      assert (forall bf, value_after revs bf (n, g) = ONull) as HV by (intros bf; unfold value_after; cbn [fst snd]; now rewrite Ec).
      rewrite HV. destruct (seen before (n, g)) eqn:Es.
      + pose proof (HK n g) as HKn. rewrite Es, HV in HKn.
        assert (scan_until K l n g = (K, l)) as -> by (destruct l as [|[[? ?] ?] ?]; cbn [scan_until]; now rewrite HKn).
        cbn [fst]. rewrite HKn. do 2 eexists. split; [reflexivity|].
        assert (scanned before = true) as Hs.
        { apply existsb_exists. unfold seen in Es. apply existsb_exists in Es. destruct Es as (x & X1 & X2). apply same_id_eq in X2. subst x. exists (n, g). split; [exact X1|]. now rewrite Hmi. }
        rewrite Hs in *. split; [now rewrite Hsc|]. intros a b. rewrite Hsc, seen_app, HK. cbn [orb]. destruct (seen before (a, b)) eqn:Ea; cbn [orb]; [now rewrite value_seen|].
        destruct (same_id (a, b) (n, g)) eqn:Eid; [|reflexivity]. apply same_id_eq in Eid. injection Eid as -> ->. congruence.
      + pose proof (HK n g) as HKn. rewrite Es, Hf in HKn. assert (K n g = None) as HKn' by (destruct (scanned before); exact HKn).
        assert (find_obj l n g = None) as Hfl by (rewrite Hl; destruct (scanned before); [reflexivity|exact Hf]).
        destruct (scan_all n g l K Hfl HKn') as (K' & E & HK'). rewrite E. cbn [fst]. rewrite HK', same_id_refl. do 2 eexists. split; [reflexivity|].
        split; [now rewrite Hsc, Hmi, orb_true_r|]. intros a b. rewrite Hsc, Hmi, orb_true_r, seen_app, HK', HK, Hl.
        destruct (same_id (a, b) (n, g)) eqn:Eid.
        * apply same_id_eq in Eid. injection Eid as -> ->. rewrite orb_true_r, HV. reflexivity.
        * rewrite orb_false_r. destruct (seen before (a, b)) eqn:Ea; [now rewrite value_seen|].
          destruct (scanned before); [|reflexivity]. destruct (find_obj objs a b); reflexivity.
  Qed.
  Lemma looks_closed : forall ids before K l, memory before K l -> looks (current revs) (K, l) ids = values_after revs before ids.
  Proof.
    induction ids as [|[n g] ids IH]; intros before K l HM; cbn [looks values_after]; [reflexivity|].
    destruct (look_closed before K l n g HM) as (K' & l' & E & HM'). rewrite E. f_equal. now apply IH.
  Qed.
End Closed.

(** C77 (b).  For a written document with any number of revisions, the closed form. *)
Theorem C77_written_history : forall inflate ccitt a b revs,
  is_digit a = true -> is_digit b = true -> revs <> [] -> Forall rev_ok revs -> zlen (file_of a b revs) < 10 ^ 10 ->
  forall D m k, (0 < D)%nat -> 4 * zlen (file_of a b revs) + 8 <= Z.of_nat m -> (List.length revs <= k)%nat ->
  exists s, arun (file_of a b revs) (open_document inflate ccitt no_decrypt D m k) (mkA 0 [] rst0) =
              (Ok ([a; 46; b], 0, trailer_of_file a b revs), s) /\
  forall k' ids, (1 <= k')%nat ->
    fst (session inflate ccitt no_decrypt D m k' (file_of a b revs) s ids) = map Ok (values_after revs [] ids).
Proof.
  intros inflate ccitt a b revs Ha Hb Hne HF Hlt D m k HD Hm Hk. unfold file_of in *.
  destruct (written_facts a b revs Ha Hb Hne HF Hlt) as (o & Hh & Hoff & HC).
  assert (forall post, exists body rest, fst (write a b revs) ++ post = [] ++ body ++ rest /\ BodyText direct (rv_objs (oldest revs)) body rest /\ hd_error rest = Some 120 /\
    Forall (fun e => no_objstm (snd e)) (rv_objs (oldest revs))) as HW.
  { clear - Ha Hb Hne HF. induction revs as [|r older IH]; [congruence|]. intros post. inversion HF as [|? ? Hr HF']; subst. rewrite write_cons.
    destruct older as [|r2 o2].
    - change (oldest [r]) with r. destruct Hr as (R1 & R2 & _). change (fst (write a b [])) with (version_line a b).
      set (t := trailer_with (snd (write a b [])) (rv_trailer r)).
      set (sec := section_text (listings (zlen (version_line a b)) (rv_objs r)) t ++ end_text (zlen (version_line a b) + zlen (body_text (rv_objs r))) ++ post).
      assert (Sep (version_line a b)) as Hsep.
      { unfold version_line. replace (bs "%PDF-" ++ [a; 46; b] ++ [10]) with (37 :: (bs "PDF-" ++ [a; 46; b]) ++ [10] ++ []) by reflexivity.
        apply (Sep_comment (bs "PDF-" ++ [a; 46; b]) [10] []); [|left; reflexivity|constructor].
        unfold is_digit in Ha, Hb. repeat constructor; cbn; lia. }
      pose proof (body_ok direct sec eq_refl (rv_objs r) (version_line a b) R1 Hsep) as HB.
      assert (Forall (fun e => no_objstm (snd e)) (rv_objs r)) as HP.
      { eapply Forall_impl; [|exact R1]. intros [[n g] v] (A & B & C). cbn [fst snd] in *. apply (object_text_ok n g v [] A ltac:(lia) C). }
      unfold rev_text. destruct (rv_objs r) as [|[[n g] v] rs].
      + exists (version_line a b), sec. split; [unfold sec; cbn [body_text app]; now rewrite <- !app_assoc|]. split; [exact HB|]. split; [reflexivity|constructor].
      + eexists _, sec. split; [|split; [exact HB|split; [reflexivity|exact HP]]]. unfold sec. cbn [body_text app]. rewrite <- !app_assoc. reflexivity.
    - rewrite <- app_assoc. change (oldest (r :: r2 :: o2)) with (oldest (r2 :: o2)). apply IH; [discriminate|exact HF']. }
  destruct (HW []) as (body & rest & Ef & HB & Hr & HP). rewrite app_nil_r in Ef.
  destruct (C77_sessions_exactly inflate ccitt (fst (write a b revs)) [a; 46; b] [] body rest o (tables a b revs) (trailer_of_file a b revs) (current revs) (rv_objs (oldest revs)) Ef Hh Hoff HC
    (trailer_keys a b revs _ HF (or_introl eq_refl)) (trailer_keys a b revs _ HF (or_intror eq_refl)) HB) with (D := D) (m := m) (k := k) as (s & E & HS); auto.
  - intros c X. rewrite Hr in X. injection X as <-. repeat split; discriminate.
  - intros n g v Hv. destruct (written_listed a b direct revs HF [] n g v Hv) as [H _]. now rewrite app_nil_r in H.
  - intros n g o' HN. clear - HN. unfold newest in HN. revert HN. induction revs as [|r older IH]; intros (newer & l & old & E1 & E2 & E3); cbn [tables] in E1; [destruct newer; discriminate|].
    cbn [current]. destruct newer as [|l0 newer].
    + injection E1 as <- <-. apply listed_find in E2. destruct E2 as [v ->]. discriminate.
    + injection E1 as <- E1. destruct (find_obj (rv_objs r) n g); [discriminate|]. apply IH. exists newer, l, old. split; [exact E1|]. split; [exact E2|]. now inversion E3.
  - intros n g v Hv. apply (written_listed a b direct revs HF [] n g v Hv).
  - rewrite tables_len. exact Hk.
  - exists s. split; [exact E|]. intros k' ids Hk'. rewrite (HS k' ids Hk'). f_equal. apply looks_closed. split; reflexivity.
Qed.
Print Assumptions C77_written_history.

(** C77 (c).  So it is false that what a lookup gives does not depend on earlier lookups: in the file
    below (object 1 is updated in the second revision, there is no object 9) the lookup of 1 alone gives
    the new value, after a lookup of 9 the old one. *)
Theorem C77_history_independence_refuted : exists revs id missing_id old new,
  Forall rev_ok revs /\ old <> new /\
  forall inflate ccitt D m k, (0 < D)%nat -> 4 * zlen (file_of 49 55 revs) + 8 <= Z.of_nat m -> (2 <= k)%nat ->
  exists s, snd (arun (file_of 49 55 revs) (open_document inflate ccitt no_decrypt D m k) (mkA 0 [] rst0)) = s /\
    fst (session inflate ccitt no_decrypt D m k (file_of 49 55 revs) s [id]) = [Ok new] /\
    fst (session inflate ccitt no_decrypt D m k (file_of 49 55 revs) s [missing_id; id]) = [Ok ONull; Ok old] /\
    fst (session inflate ccitt no_decrypt D m k (file_of 49 55 revs) s [id; missing_id; id]) = [Ok new; Ok ONull; Ok new].
Proof.
  exists [ex_new; ex_old], (1, 0), (9, 0), (ODict [(bs "Type", OName (bs "Catalog")); (bs "Pages", ORef 3 0)]), (ODict [(bs "Type", OName (bs "Catalog")); (bs "Pages", ORef 4 0)]).
  split; [exact (Forall_cons _ ex_new_ok (Forall_cons _ ex_old_ok (Forall_nil _)))|]. split; [discriminate|].
  intros inflate ccitt D m k HD Hm Hk.
  destruct (C77_written_history inflate ccitt 49 55 [ex_new; ex_old] eq_refl eq_refl ltac:(discriminate)
    (Forall_cons _ ex_new_ok (Forall_cons _ ex_old_ok (Forall_nil _)))) with (D := D) (m := m) (k := k) as (s & E & HS); auto; [vm_compute; reflexivity|].
  exists s. rewrite E. split; [reflexivity|]. rewrite !HS by lia. repeat split; vm_compute; reflexivity.
Qed.
Print Assumptions C77_history_independence_refuted.
