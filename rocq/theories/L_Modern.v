(** Lookups in files with cross-reference streams and object streams: lemmas for C79. *)
From Coq Require Import String.
From Verif Require Import Prelude M_Prog M_Parser S_Syntax L_Buffer L_Prog L_ParserWP L_Syntax L_Syntax2 S_Print L_Print
  S_Stream L_Stream M_Filters M_Document S_Document L_Document L_User L_Registry P_IndObj
  S_Xref L_Xref P_Header P_StartXref P_Xref P_Locate L_Steps S_Open P_Open S_History P_History S_XrefStream P_XrefStream S_Registry P_Registry S_Modern.
Local Open Scope Z_scope.
Local Open Scope prog_scope.

(** ---- learning ---- *)
Lemma fold_learn : forall ms K a b,
  fold_left (fun K' mv => learn K' (fst mv) 0 (snd mv)) ms K a b = match K a b with Some w => Some w | None => if b =? 0 then first_of ms a else None end.
Proof.
  induction ms as [|[n v] ms IH]; intros K a b; cbn [fold_left first_of fst snd].
  - destruct (K a b); [reflexivity|]. now destruct (b =? 0).
  - rewrite IH. unfold learn. destruct (K a b); [reflexivity|]. destruct (a =? n), (b =? 0); reflexivity.
Qed.
Lemma first_of_listed : forall entries n, first_of (map (fun e : Z * Z * obj => (fst (fst e), snd e)) entries) n = first_listed entries n.
Proof. induction entries as [|[[a b] v] l IH]; intros n; cbn [map first_of first_listed fst snd]; [reflexivity|]. now rewrite IH. Qed.
Lemma learn_elem_get K n g v ms a b : learn_elem K (n, g, v, ms) a b =
  match K n g with
  | Some _ => K a b
  | None => if (a =? n) && (b =? g) then Some v else match K a b with Some w => Some w | None => if b =? 0 then first_of ms a else None end
  end.
Proof.
  unfold learn_elem. destruct (K n g) eqn:E; [reflexivity|]. rewrite fold_learn. unfold learn.
  destruct ((a =? n) && (b =? g)) eqn:Eab.
  - assert (a = n /\ b = g) as [-> ->] by (apply andb_true_iff in Eab; lia). now rewrite E.
  - destruct (K a b); reflexivity.
Qed.

Section Mod.
  Variable inflate : list Z -> option (list Z).
  Variable ccitt : list Z -> fparams -> res (list Z).
  Variable decrypt : Z -> Z -> obj -> res obj.
  Variables (D m : nat).
  Notation locate := (locate_object inflate ccitt decrypt D m).
  Notation iobj_of k := (reg_indirect inflate ccitt decrypt D m (length_hook (locate k))).
  Notation Held := (Held inflate ccitt).
  Variable f : list Z.
  Hypothesis HD : (2 <= D)%nat.
  Hypothesis Hm : 4 * zlen f + 8 <= Z.of_nat m.

  Lemma held_plain v : (forall d raw, v = OStream d raw -> ~ In (dget d (bs "Type")) [Some (OName (bs "ObjStm")); Some (OHex (bs "ObjStm")); Some (OTok (bs "ObjStm"))]) -> no_objstm v.
  Proof.
    intros H d raw E. specialize (H d raw E). unfold oget. destruct (dget d (bs "Type")) as [w|]; [|reflexivity].
    destruct w; cbn [is_name]; try reflexivity; apply eqlZ_neq; intros ->; apply H; cbn [In]; tauto.
  Qed.
  Lemma register_held K r n g v ms : Held v ms -> (forall a b, rget r a b = K a b) ->
    exists r', register inflate ccitt D false r n g v = (r', None) /\ forall a b, rget r' a b = learn_elem K (n, g, v, ms) a b.
  Proof.
    intros HH HK. destruct D as [|[|D']]; try lia. destruct (rget r n g) as [w|] eqn:E.
    - exists r. split; [cbn [register orb]; unfold is_registered; rewrite E; reflexivity|].
      intros a b. rewrite learn_elem_get, <- !HK, E. reflexivity.
    - destruct HH as [v Hv|d raw data fo entries H1 H2 H3 H4 H5].
      + exists (rset r n g v). split; [rewrite (register_no_objstm inflate ccitt decrypt (S (S D')) r n g v); [|lia|now apply held_plain]; unfold is_registered; now rewrite E|].
        intros a b. rewrite learn_elem_get, <- !HK, E, rget_rset. destruct ((a =? n) && (b =? g)); [reflexivity|].
        destruct (rget r a b); [reflexivity|]. now destruct (b =? 0).
      + destruct (C24_object_stream_unpacked inflate ccitt D' r n g d raw data fo entries E H1 H2 H3 H4 H5) as (r' & E1 & HR).
        exists r'. split; [exact E1|]. intros a b. rewrite HR, learn_elem_get, <- !HK, E, first_of_listed. reflexivity.
  Qed.
  (** what reading an object does *)
  Definition reads (u : rst) (e : elem) (u' : rst) : Prop :=
    r_xrefs u' = r_xrefs u /\ r_bf u' = r_bf u /\ r_stack u' = r_stack u /\ forall K, agrees u K -> agrees u' (learn_elem K e).
  Lemma m_iobj loc p n g v v' ms t X u : IndObj n g v t X -> decrypt n g v = Ok v' -> Held v' ms -> At f p (t ++ X) ->
    exists u', uruns f (reg_indirect inflate ccitt decrypt D m (length_hook loc)) p u (Ok (n, g, v')) (p + zlen t) u' /\ reads u (n, g, v', ms) u'.
  Proof.
    intros HI Hd HH HA. pose proof (zlen_nonneg f). assert (0 <= p) by apply HA.
    destruct (register_held (fun a b => rget (r_objs u) a b) (r_objs u) n g v' ms HH ltac:(reflexivity)) as (r' & E & HR).
    exists (with_objs u r'). split.
    - unfold reg_indirect. eapply uruns_bind.
      + apply uruns_of. eapply (r_indirect f (length_hook loc)); eauto.
        * intros d z q Hd'. unfold length_hook. rewrite Hd'. apply runs_ret.
        * unfold ofuel. lia.
      + cbv beta iota. rewrite Hd. eapply uruns_bind with (a := tt) (u1 := with_objs u r'); [|apply uruns_ret].
        unfold do_register. apply uruns_getu. rewrite E. apply uruns_setu. apply uruns_ret.
    - split; [reflexivity|]. split; [reflexivity|]. split; [reflexivity|]. intros K HK a b. unfold known. cbn [with_objs r_objs]. rewrite HR, !learn_elem_get.
      unfold agrees, known in HK. rewrite !HK. reflexivity.
  Qed.

  Lemma m_hit loc pos st h p s n g v v' ms t X u k : nth_error st h = Some p -> (2 <= k)%nat ->
    At f p (s ++ t ++ X) -> Sep s -> IndObj n g v t X -> decrypt n g v = Ok v' -> Held v' ms ->
    exists ex u', arun f (bf_tasks m (reg_indirect inflate ccitt decrypt D m (length_hook loc)) k [h] None) (mkA pos st u) =
               (Ok None, mkA (p + zlen s + zlen t) (st ++ ex) u') /\ reads u (n, g, v', ms) u'.
  Proof.
    intros Hh Hk HA Hs HI Hd HH. pose proof (zlen_nonneg f) as HL. assert (0 <= p) as Hp by apply HA.
    destruct (ind_digit _ _ _ _ _ HI) as (c & t' & Et & Hc).
    pose proof (At_app f p s (t ++ X) HA) as HA2.
    destruct (m_iobj loc (p + zlen s) n g v v' ms t X u HI Hd HH HA2) as (u' & HR & HRd).
    set (iobj := reg_indirect inflate ccitt decrypt D m (length_hook loc)) in *.
    destruct k as [|[|k]]; try lia. cbn [bf_tasks]. cbn [bind restore arun a_store a_usr]. rewrite Hh.
    assert (uruns f (sp m;;; (' ok <- catch (body_element m iobj;;; ret true) is_bfr (fun _ : exn => ret false);;
       (if ok : bool then ret None else skip_until_next m;;; (' h2 <- save;; bf_tasks m iobj (S k) [h2; h] (Some h2))))) p u (Ok None)
       (p + zlen s + zlen t) u') as HU.
    { eapply uruns_bind.
      { apply uruns_of. apply (r_sp f s m p (t ++ X)); auto; [|unfold fuel; lia]. subst t. cbn [app].
        apply (digits_nosep [c] (t' ++ X)); [discriminate|repeat constructor; auto]. }
      eapply uruns_bind with (a := true); [|apply uruns_ret]. apply uruns_catch_ok. eapply uruns_bind; [|apply uruns_ret].
      unfold body_element. intros st0. cbn [bind cur arun a_pos].
      rewrite (At_head f _ _ HA2). subst t. cbn [app hd_error p_digit]. rewrite Hc.
      assert (uruns f (iobj;;; ret tt) (p + zlen s) u (Ok tt) (p + zlen s + zlen (c :: t')) u') as HU; [|exact (HU st0)].
      eapply uruns_bind; [exact HR|apply uruns_ret]. }
    destruct (HU st) as [ex E]. exists ex, u'. split; [exact E|exact HRd].
  Qed.

  Lemma r_startxref sep ds X pos : At f pos (bs "startxref" ++ sep ++ ds ++ X) -> Sep sep -> ds <> [] -> digits_ok ds -> int_end X ->
    runs f (startxref m : prog rst Z) pos (Ok (dvalue ds)) (pos + zlen (bs "startxref" ++ sep ++ ds)).
  Proof.
    intros HA Hs Hn Hd HE. pose proof (zlen_nonneg f). assert (0 <= pos) by apply HA. unfold startxref.
    pose proof (At_app f _ _ _ HA) as HA1. pose proof (At_app f _ _ _ HA1) as HA2.
    pose proof (zlen_nonneg (bs "startxref")). pose proof (zlen_nonneg sep).
    eapply runs_bind; [apply (r_read f (bs "startxref") pos (sep ++ ds ++ X)); auto|]. cbv beta. rewrite eqlZ_refl.
    eapply runs_bind; [apply (r_sp f sep m _ (ds ++ X)); auto; [now apply digits_nosep|unfold fuel; lia]|].
    eapply runs_eq; [apply (r_nni f m (dvalue ds) ds _ X); auto; [now apply IT_plain|apply dvalue_nonneg; auto|unfold fuel; lia]|].
    rewrite !zlen_app. lia.
  Qed.
  Lemma m_start loc pos st h p s sep ds X u k : nth_error st h = Some p -> (2 <= k)%nat ->
    At f p (s ++ bs "startxref" ++ sep ++ ds ++ X) -> Sep s -> Sep sep -> ds <> [] -> digits_ok ds -> int_end X ->
    exists ex, arun f (bf_tasks m (reg_indirect inflate ccitt decrypt D m (length_hook loc)) k [h] None) (mkA pos st u) =
               (Ok None, mkA (p + zlen s + zlen (bs "startxref" ++ sep ++ ds)) (st ++ ex) u).
  Proof.
    intros Hh Hk HA Hs Hs2 Hn Hds HE. pose proof (zlen_nonneg f) as HL. assert (0 <= p) as Hp by apply HA.
    pose proof (At_app f p s _ HA) as HA2. pose proof (r_startxref sep ds X _ HA2 Hs2 Hn Hds HE) as HR.
    set (iobj := reg_indirect inflate ccitt decrypt D m (length_hook loc)) in *.
    destruct k as [|[|k]]; try lia. cbn [bf_tasks]. cbn [bind restore arun a_store a_usr]. rewrite Hh.
    assert (uruns f (sp m;;; (' ok <- catch (body_element m iobj;;; ret true) is_bfr (fun _ : exn => ret false);;
       (if ok : bool then ret None else skip_until_next m;;; (' h2 <- save;; bf_tasks m iobj (S k) [h2; h] (Some h2))))) p u (Ok None)
       (p + zlen s + zlen (bs "startxref" ++ sep ++ ds)) u) as HU; [|exact (HU st)].
    eapply uruns_bind.
    { apply uruns_of. apply (r_sp f s m p (bs "startxref" ++ sep ++ ds ++ X)); auto; [|unfold fuel; lia]. reflexivity. }
    eapply uruns_bind with (a := true); [|apply uruns_ret]. apply uruns_catch_ok. eapply uruns_bind; [|apply uruns_ret].
    unfold body_element. intros st0. cbn [bind cur arun a_pos]. rewrite (At_head f _ _ HA2). 
    change (hd_error (bs "startxref" ++ sep ++ ds ++ X)) with (Some 115). change (p_digit (Some 115)) with false. change (is_cur (Some 115) 115) with true. cbv iota.
    assert (uruns f (startxref m;;; ret tt) (p + zlen s) u (Ok tt) (p + zlen s + zlen (bs "startxref" ++ sep ++ ds)) u) as HU; [|exact (HU st0)].
    eapply uruns_bind; [apply uruns_of; exact HR|apply uruns_ret].
  Qed.

  Lemma bf_step iobj num gen n pos st u h p1 st1 ue : r_stack u = [] -> known u num gen = None -> r_bf u = Some h ->
    arun f (bf_tasks m iobj n [h] None) (mkA pos st (mkR (r_objs u) (r_xrefs u) (r_bf u) [(num, gen)])) = (Ok None, mkA p1 st1 ue) ->
    r_stack ue = [(num, gen)] ->
    arun f (brute_force inflate ccitt D m iobj (S n) num gen) (mkA pos st u) =
    arun f (brute_force inflate ccitt D m iobj n num gen) (mkA p1 (st1 ++ [p1]) (mkR (r_objs ue) (r_xrefs ue) (Some (List.length st1)) [])).
  Proof.
    intros Hst Hku Hbf E Hse. cbn [brute_force]. cbn [bind getu arun a_usr]. unfold is_registered at 1. fold (known u num gen). rewrite Hku, Hst. cbn [on_stack existsb].
    set (u1 := mkR (r_objs u) (r_xrefs u) (r_bf u) [(num, gen)]) in *.
    cbn [push bind getu arun a_usr]. cbn [setu bind arun a_usr a_pos a_store]. rewrite Hst. fold u1.
    set (u2 := mkR (r_objs ue) (r_xrefs ue) (Some (List.length st1)) [(num, gen)]).
    match goal with |- context [arun f (bind ?A ?B) ?S] => assert (arun f A S = (Ok true, mkA p1 (st1 ++ [p1]) u2)) as E2 end.
    { apply arun_catch_ok. apply arun_catch_ok. rewrite arun_bind. unfold next_brute_force at 1. cbn [bind getu arun a_usr].
      change (r_bf u1) with (r_bf u). rewrite Hbf. rewrite arun_bind, E. cbn [bind save getu setu arun a_usr a_pos a_store ret]. rewrite Hse. reflexivity. }
    rewrite arun_bind, E2. reflexivity.
  Qed.

  Variable xs : list xref.
  Variable rest : list Z.
  Hypothesis Hrest : forall c, hd_error rest = Some c -> is_digit c = false /\ c <> 115 /\ c <> 116.
  Notation view := (Viewed inflate ccitt decrypt).
  Definition mst (l' : list elem) (st : list Z) (u : rst) : Prop :=
    r_xrefs u = Some xs /\ r_stack u = [] /\ exists h p body l, r_bf u = Some h /\ nth_error st h = Some p /\ ModBody l body rest /\ At f p (body ++ rest) /\ Forall2 view l l'.

  Lemma scan_elems_known K l num gen w : K num gen = Some w -> scan_elems K l num gen = (K, l).
  Proof. intros E. destruct l; cbn [scan_elems]; now rewrite E. Qed.
  Lemma mscan k num gen : forall l body rest0, ModBody l body rest0 -> rest0 = rest -> forall l', Forall2 view l l' ->
    forall n pos st u K h p, agrees u K -> r_xrefs u = Some xs -> r_stack u = [] -> r_bf u = Some h -> nth_error st h = Some p -> At f p (body ++ rest) ->
    K num gen = None -> (List.length body + 4 <= n)%nat ->
    exists pos' st' u', arun f (brute_force inflate ccitt D m (iobj_of k) n num gen) (mkA pos st u) = (Ok tt, mkA pos' st' u') /\
      agrees u' (fst (scan_elems K l' num gen)) /\ mst (snd (scan_elems K l' num gen)) st' u' /\ (exists w, fst (scan_elems K l' num gen) num gen = Some w).
  Proof.
    induction 1 as [s rest0 Hs Hr|s n0 g0 v0 t l ts rest0 Hs HI HB IH|s sep ds l ts rest0 Hs Hs2 Hn0 Hds HE HB IH];
      intros -> l' HV n pos st u K h p HK Hx Hst Hbf Hh HA Hk Hn; assert (known u num gen = None) as Hku by now rewrite HK.
    - inversion HV; subst. destruct n as [|[|n]]; try lia.
      cbn [brute_force]. cbn [bind getu arun a_usr]. unfold is_registered. fold (known u num gen). rewrite Hku, Hst. cbn [on_stack existsb].
      set (u1 := mkR (r_objs u) (r_xrefs u) (r_bf u) [(num, gen)]).
      cbn [push bind getu arun a_usr]. cbn [setu bind arun a_usr a_pos a_store]. rewrite Hst. fold u1.
      destruct (bf_miss inflate ccitt decrypt D m f (locate k) ltac:(lia) Hm pos st h p s rest u1 (S n)) as [ex E]; auto; [lia|].
      set (u2 := with_objs u1 (rset (r_objs u) num gen ONull)).
      match goal with |- context [arun f (bind ?A ?B) ?S] => assert (arun f A S = (Ok false, mkA (p + zlen s) (st ++ ex) u2)) as E2 end.
      { apply arun_catch_ok.
        assert (arun f (next_brute_force m (iobj_of k) (S n);;; ret true) (mkA pos st u1) = (Err ParserExc, mkA (p + zlen s) (st ++ ex) u1)) as E3.
        { rewrite arun_bind. unfold next_brute_force at 1. cbn [bind getu arun a_usr]. change (r_bf u1) with (r_bf u). rewrite Hbf.
          rewrite arun_bind, E. reflexivity. }
        rewrite (arun_catch_err f _ _ _ _ _ _ E3) by discriminate. cbn [is_parser_exc exn_eqb negb andb].
        unfold do_register. cbn [bind getu arun a_usr].
        rewrite (register_no_objstm inflate ccitt (fun _ _ w => Ok w) D); [|lia|intros d raw; discriminate].
        change (r_objs u1) with (r_objs u). unfold is_registered. fold (known u num gen). rewrite Hku. reflexivity. }
      rewrite arun_bind, E2. cbn [scan_elems]. rewrite Hk. cbn [fst snd]. do 3 eexists. split; [reflexivity|]. split; [|split].
      + intros a b. unfold known. cbn. rewrite rget_rset. fold (known u a b). rewrite HK. unfold learn.
        destruct ((a =? num) && (b =? gen)) eqn:Eab.
        * assert (a = num /\ b = gen) as [-> ->] by (apply andb_true_iff in Eab; lia). now rewrite Hk.
        * now destruct (K a b).
      + split; [exact Hx|]. split; [reflexivity|]. exists h, p, s, []. split; [exact Hbf|]. split; [|split; [now constructor|split; [exact HA|constructor]]].
        cbn [a_store]. rewrite nth_error_app1; auto. apply nth_error_Some. congruence.
      + exists ONull. rewrite learn_here, Hk. reflexivity.
    - inversion HV as [|? e' ? l1 HV1 HV2]; subst. destruct e' as [[[n1 g1] v1] ms]. destruct HV1 as (-> & -> & Hd & HH).
      destruct n as [|n]; try lia. repeat rewrite <- app_assoc in HA. rewrite !app_length in Hn.
      destruct (ind_digit _ _ _ _ _ HI) as (c & t' & Et & Hc). assert (0 < List.length t)%nat as Ht by (subst t; cbn [List.length]; lia). clear Et.
      set (u1 := mkR (r_objs u) (r_xrefs u) (r_bf u) [(num, gen)]).
      destruct (m_hit (locate k) pos st h p s n0 g0 v0 v1 ms t (ts ++ rest) u1 n) as (ex & ue & E & (R1 & R2 & R3 & R4)); auto; [lia|].
      assert (agrees u1 K) as HK1 by exact HK. specialize (R4 K HK1).
      rewrite (bf_step (iobj_of k) num gen n pos st u h _ _ _ Hst Hku Hbf E R3).
      set (p1 := p + zlen s + zlen t) in *. set (h1 := List.length (st ++ ex)).
      set (u3 := mkR (r_objs ue) (r_xrefs ue) (Some h1) []).
      assert (agrees u3 (learn_elem K (n0, g0, v1, ms))) as HK3 by exact R4.
      assert (nth_error ((st ++ ex) ++ [p1]) h1 = Some p1) as Hh1 by (unfold h1; rewrite nth_error_app2 by lia; now rewrite Nat.sub_diag).
      assert (At f p1 (ts ++ rest)) as HA1 by (unfold p1; apply At_app; apply (At_app f p s); exact HA).
      assert (r_xrefs u3 = Some xs) as Hx3 by (cbn [r_xrefs u3]; rewrite R1; exact Hx).
      cbn [scan_elems]. rewrite Hk. destruct (learn_elem K (n0, g0, v1, ms) num gen) as [w|] eqn:Ew.
      + rewrite (scan_elems_known _ _ _ _ _ Ew). destruct n as [|n]; [lia|]. do 3 eexists.
        split; [apply (bf_known inflate ccitt decrypt D m f (locate k) n num gen p1 _ u3 w); rewrite HK3; exact Ew|].
        cbn [fst snd]. split; [exact HK3|]. split; [|exists w; exact Ew].
        split; [exact Hx3|]. split; [reflexivity|]. exists h1, p1, ts, l. auto.
      + apply (IH eq_refl l1 HV2 n p1 _ u3 _ h1 p1 HK3 Hx3 eq_refl eq_refl Hh1 HA1 Ew). lia.
    - destruct n as [|n]; try lia. repeat rewrite <- app_assoc in HA. rewrite !app_length in Hn.
      assert (List.length (bs "startxref") = 9)%nat as H9 by reflexivity.
      set (u1 := mkR (r_objs u) (r_xrefs u) (r_bf u) [(num, gen)]).
      destruct (m_start (locate k) pos st h p s sep ds (ts ++ rest) u1 n) as (ex & E); auto; [lia|].
      rewrite (bf_step (iobj_of k) num gen n pos st u h _ _ _ Hst Hku Hbf E eq_refl).
      set (p1 := p + zlen s + zlen (bs "startxref" ++ sep ++ ds)) in *. set (h1 := List.length (st ++ ex)).
      set (u3 := mkR (r_objs u1) (r_xrefs u1) (Some h1) []).
      assert (nth_error ((st ++ ex) ++ [p1]) h1 = Some p1) as Hh1 by (unfold h1; rewrite nth_error_app2 by lia; now rewrite Nat.sub_diag).
      assert (At f p1 (ts ++ rest)) as HA1.
      { unfold p1. apply At_app. apply (At_app f p s) in HA. rewrite <- !app_assoc. exact HA. }
      apply (IH eq_refl l' HV n p1 _ u3 K h1 p1 HK Hx eq_refl eq_refl Hh1 HA1 Hk). lia.
  Qed.

  (** ---- lookups ---- *)
  Definition xlists (x : xref) (n g o : Z) : Prop := exists e, zget (x_inuse x) n = Some e /\ e_gen e = g /\ e_off e = o.
  Lemma by_xref_pass loc iobj num gen : forall newer rest, Forall self_keyed newer -> Forall (fun x => forall o', ~ xlists x num gen o') newer ->
    by_xref loc iobj (newer ++ rest) num gen = by_xref loc iobj rest num gen.
  Proof.
    intros newer rest'. induction newer as [|x newer IH]; intros HS HN; cbn [app by_xref]; [reflexivity|].
    inversion HS as [|? ? S1 S2]; inversion HN as [|? ? N1 N2]; subst. specialize (IH S2 N2).
    assert (match zget (x_comp x) num with
            | Some e => if (e_gen e =? gen) && negb (e_num e =? num) then
                  loc (e_num e) (e_gen e) ;;; b <- registered num gen ;; if b : bool then reg_get num gen else by_xref loc iobj (newer ++ rest') num gen
                else by_xref loc iobj (newer ++ rest') num gen
            | None => by_xref loc iobj (newer ++ rest') num gen
            end = by_xref loc iobj rest' num gen) as E.
    { destruct (zget (x_comp x) num) as [e|] eqn:Ec; [|exact IH]. rewrite (S1 _ _ Ec), Z.eqb_refl. cbn [negb]. rewrite Bool.andb_false_r. exact IH. }
    destruct (zget (x_inuse x) num) as [e|] eqn:Eu; [|exact E]. destruct (e_gen e =? gen) eqn:Eg; [|exact E].
    exfalso. apply (N1 (e_off e)). exists e. repeat split; auto. lia.
  Qed.
  Hypothesis Hself : Forall self_keyed xs.
  Variable listed : Z -> Z -> option (obj * list (Z * obj)).
  Hypothesis Hcur : forall n g v' ms, listed n g = Some (v', ms) -> exists newer x older pre text rest v,
    xs = newer ++ x :: older /\ xlists x n g (zlen pre) /\ Forall (fun x => forall o', ~ xlists x n g o') newer /\
    f = pre ++ text ++ rest /\ IndObj n g v text rest /\ decrypt n g v = Ok v' /\ Held v' ms.
  Hypothesis Hnone : forall n g, listed n g = None -> Forall (fun x => forall o', ~ xlists x n g o') xs.

  Lemma learn_elem_known K n g v ms w : K n g = Some w -> learn_elem K (n, g, v, ms) = K.
  Proof. intros E. unfold learn_elem. now rewrite E. Qed.
  Lemma learn_elem_here K n g v ms : K n g = None -> learn_elem K (n, g, v, ms) n g = Some v.
  Proof. intros E. rewrite learn_elem_get, E, !Z.eqb_refl. reflexivity. Qed.
  Lemma learn_elem_some K n g v ms : exists w, learn_elem K (n, g, v, ms) n g = Some w.
  Proof. destruct (K n g) as [w|] eqn:E; [rewrite (learn_elem_known _ _ _ _ _ _ E); eauto|rewrite learn_elem_here by exact E; eauto]. Qed.

  Lemma bf_done k n g pos st u w : known u n g = Some w -> arun f (brute_force inflate ccitt D m (iobj_of k) m n g) (mkA pos st u) = (Ok tt, mkA pos st u).
  Proof.
    intros HK. pose proof (zlen_nonneg f) as HL. assert (exists m', m = S m') as [m' Em] by (destruct m; [lia|eauto]).
    assert (forall j, (0 < j)%nat -> arun f (brute_force inflate ccitt D m (iobj_of k) j n g) (mkA pos st u) = (Ok tt, mkA pos st u)) as HJ.
    { intros [|j] Hj; [lia|]. apply (bf_known inflate ccitt decrypt D m f (locate k) j n g pos st u w HK). }
    apply HJ. lia.
  Qed.

  Lemma mlook_ok k n g l' st u K pos : agrees u K -> mst l' st u ->
    let '(v, (K', l2)) := mlook listed (K, l') n g in
    exists pos' st' u', arun f (locate (S k) n g) (mkA pos st u) = (Ok v, mkA pos' st' u') /\ agrees u' K' /\ mst l2 st' u'.
  Proof.
    intros HK HS. pose proof HS as (Hx & Hst & h & p & body & l & Hbf & Hh & HB & HA & HV). pose proof (zlen_nonneg f) as HL.
    unfold mlook. cbn [fst snd].
    set (bx := by_xref (locate k) (iobj_of k) xs n g).
    set (K1 := match listed n g with Some (v, ms) => learn_elem K (n, g, v, ms) | None => K end).
    assert (exists q u1, uruns f bx pos u (Ok (match K1 n g with Some w => w | None => ONull end)) q u1 /\ agrees u1 K1 /\ r_bf u1 = r_bf u /\ r_stack u1 = [] /\ r_xrefs u1 = Some xs)
      as (q & u1 & HU & HK1 & G1 & G2 & G3).
    { unfold bx, K1. destruct (listed n g) as [[v' ms]|] eqn:Ec.
      - destruct (Hcur n g v' ms Ec) as (newer & x & older & pre & text & rst' & v & El & (e & E1 & E2 & E3) & HN & Ef & HI & Hd & HH).
        pose proof (zlen_nonneg pre) as Hpre.
        assert (At f (zlen pre) (text ++ rst')) as HAp by now apply At_start with (pre := pre).
        destruct (m_iobj (locate k) (zlen pre) n g v v' ms text rst' u HI Hd HH HAp) as (u' & HR & (R1 & R2 & R3 & R4)). specialize (R4 K HK).
        exists (zlen pre + zlen text), u'. split; [|split; [exact R4|split; [exact R2|split; [rewrite R3; exact Hst|rewrite R1; exact Hx]]]].
        assert (Forall self_keyed newer) as HSn by (rewrite El in Hself; apply Forall_app in Hself; apply Hself).
        rewrite El, by_xref_pass by assumption. cbn [by_xref]. rewrite E1, E2, Z.eqb_refl, E3.
        eapply uruns_bind with (a := tt) (u1 := u').
        + apply uruns_catch_ok. apply uruns_reset. unfold reset_pos. rewrite (proj2 (Z.leb_le 0 (zlen pre))) by lia.
          eapply uruns_bind; [exact HR|apply uruns_ret].
        + destruct (learn_elem_some K n g v' ms) as [w Hw]. pose proof (R4 n g) as HKn. rewrite Hw in HKn |- *. unfold known in HKn. clear - HKn.
          unfold registered. intros st0. exists []. rewrite app_nil_r. cbn [bind getu ret arun a_usr]. unfold is_registered. rewrite HKn. cbn. rewrite HKn. reflexivity.
      - exists pos, u. split; [|split; [exact HK|split; [reflexivity|split; [exact Hst|exact Hx]]]].
        rewrite <- (app_nil_r xs), by_xref_pass by (auto; apply Hnone; exact Ec). intros st0. exists []. rewrite app_nil_r. cbn. fold (known u n g). rewrite HK. reflexivity. }
    destruct (HU st) as [ex EX].
    assert (nth_error (st ++ ex) h = Some p) as Hh1 by (rewrite nth_error_app1; auto; apply nth_error_Some; congruence).
    assert (mst l' (st ++ ex) u1) as HS1.
    { split; [exact G3|]. split; [exact G2|]. exists h, p, body, l. rewrite G1. auto. }
    change (locate (S k) n g) with (locate_object inflate ccitt decrypt D m (S k) n g). cbn [locate_object].
    cbn [bind getu arun a_usr]. fold (known u n g). rewrite HK, Hx.
    destruct (K n g) as [w|] eqn:Ew.
    - assert (K1 = K) as EK1 by (unfold K1; destruct (listed n g) as [[v' ms]|]; [apply (learn_elem_known _ _ _ _ _ w Ew)|reflexivity]).
      assert ((match listed n g with Some (v, ms) => (learn_elem K (n, g, v, ms), l') | None => scan_elems K l' n g end) = (K, l')) as Es.
      { destruct (listed n g) as [[v' ms]|]; [now rewrite (learn_elem_known _ _ _ _ _ w Ew)|now apply (scan_elems_known _ _ _ _ w)]. }
      rewrite Es. cbn [fst snd]. rewrite Ew. rewrite EK1 in *. destruct (truthy w) eqn:Et.
      + exists pos, st, u. split; [reflexivity|]. split; [exact HK|exact HS].
      + fold bx. rewrite arun_bind, EX, Ew, Et, arun_bind.
        pose proof (bf_done k n g q (st ++ ex) u1 w ltac:(now rewrite HK1)) as EB.
        match type of EB with ?A = _ => match goal with |- context [arun f (brute_force inflate ccitt D m ?X m n g) ?S] => change (arun f (brute_force inflate ccitt D m X m n g) S) with A end end.
        rewrite EB. cbn. fold (known u1 n g). rewrite HK1, Ew. do 3 eexists. split; [reflexivity|]. split; [exact HK1|exact HS1].
    - cbn [truthy]. fold bx. rewrite arun_bind, EX. unfold K1 in *. destruct (listed n g) as [[v' ms]|] eqn:Ec.
      + cbn [fst snd]. rewrite (learn_elem_here K n g v' ms Ew). destruct (truthy v') eqn:Et.
        * do 3 eexists. split; [reflexivity|]. split; [exact HK1|exact HS1].
        * assert (known u1 n g = Some v') as HKv by (rewrite HK1; apply learn_elem_here; exact Ew).
          rewrite arun_bind. pose proof (bf_done k n g q (st ++ ex) u1 v' HKv) as EB.
          match type of EB with ?A = _ => match goal with |- context [arun f (brute_force inflate ccitt D m ?X m n g) ?S] => change (arun f (brute_force inflate ccitt D m X m n g) S) with A end end.
          rewrite EB. cbn. fold (known u1 n g). rewrite HKv. do 3 eexists. split; [reflexivity|]. split; [exact HK1|exact HS1].
      + rewrite Ew. cbn [truthy]. rewrite arun_bind. rewrite <- G1 in Hbf.
        assert (List.length body + 4 <= m)%nat as Hn.
        { destruct HA as [Hp0 HA]. clear - HA Hm Hp0. unfold zlen in Hm.
          assert (List.length (body ++ rest) <= List.length f)%nat; [|rewrite app_length in *; lia]. rewrite <- HA. rewrite skipn_length. lia. }
        destruct (mscan k n g l body rest HB eq_refl l' HV m q (st ++ ex) u1 K h p HK1 G3 G2 Hbf Hh1 HA Ew Hn) as (pos' & st' & u' & E' & A' & S' & (w & Hw)).
        match type of E' with ?A = _ => match goal with |- context [arun f (brute_force inflate ccitt D m ?X m n g) ?S] => change (arun f (brute_force inflate ccitt D m X m n g) S) with A end end.
        rewrite E'. destruct (scan_elems K l' n g) as [K' l2] eqn:Esc. cbn [fst snd] in *. rewrite Hw.
        exists pos', st', u'. split; [cbn; fold (known u' n g); rewrite A', Hw; reflexivity|]. split; [exact A'|exact S'].
  Qed.
  Fixpoint mend (s : contents * list elem) (ids : list (Z * Z)) : contents * list elem :=
    match ids with [] => s | (n, g) :: r => mend (snd (mlook listed s n g)) r end.
  Lemma mlooks_ok k : forall ids l' st u K pos, agrees u K -> mst l' st u ->
    exists pos' st' u', session inflate ccitt decrypt D m (S k) f (mkA pos st u) ids = (map Ok (mlooks listed (K, l') ids), mkA pos' st' u') /\
      agrees u' (fst (mend (K, l') ids)) /\ mst (snd (mend (K, l') ids)) st' u'.
  Proof.
    induction ids as [|[n g] ids IH]; intros l' st u K pos HK HS; cbn [session mlooks map mend]; [do 3 eexists; split; [reflexivity|auto]|].
    pose proof (mlook_ok k n g l' st u K pos HK HS) as H.
    destruct (mlook listed (K, l') n g) as [v [K' l2]]. destruct H as (pos' & st' & u' & E & HK' & HS'). rewrite E. cbn [snd].
    destruct (IH l2 st' u' K' pos' HK' HS') as (p2 & st2 & u2 & E2 & HK2 & HS2). rewrite E2. do 3 eexists. split; [reflexivity|]. auto.
  Qed.
End Mod.
