(** The file header: C16. *)
From Coq Require Import String.
From Verif Require Import Prelude M_Prog M_Parser S_Syntax S_Stream L_Buffer L_Prog L_ParserWP
  L_Syntax L_Syntax2 L_Stream L_Content M_Document S_Document L_Document.
Local Open Scope Z_scope.
Local Open Scope prog_scope.

(** *** the regular expressions *)
Lemma version_spec l v : version_at l = Some v <->
  exists a b r, l = a :: 46 :: b :: r /\ v = [a; 46; b] /\ is_digit a = true /\ is_digit b = true.
Proof.
  unfold version_at. destruct l as [|a [|p [|b r]]]; try (split; [discriminate|intros (?&?&?&?&_); discriminate]).
  destruct (is_digit a) eqn:Ea; cbn [andb]; [|split; [discriminate|intros (?&?&?&E&_&?&_); inversion E; subst; congruence]].
  destruct (p =? 46) eqn:Ep; cbn [andb]; [|split; [discriminate|intros (?&?&?&E&_); inversion E; subst; discriminate]].
  destruct (is_digit b) eqn:Eb; [|split; [discriminate|intros (?&?&?&E&_&_&?); inversion E; subst; congruence]].
  apply Z.eqb_eq in Ep. subst p. split.
  - intros H; inversion H; subst. exists a, b, r. auto.
  - intros (?&?&?&E&->&_); inversion E; subst. auto.
Qed.
Lemma after_spec pre : forall l r, after pre l = Some r <-> l = pre ++ r.
Proof.
  induction pre as [|x p IH]; intros l r; cbn [after app].
  - split; [intros H; inversion H; auto|intros ->; auto].
  - destruct l as [|y l]; [split; discriminate|]. destruct (x =? y) eqn:E.
    + apply Z.eqb_eq in E. subst. rewrite IH. split; [intros ->; auto|intros H; inversion H; auto].
    + split; [discriminate|]. intros H; inversion H; subst. rewrite Z.eqb_refl in E. discriminate.
Qed.
Lemma after_None pre l : after pre l = None -> forall r, l <> pre ++ r.
Proof. intros H r E. apply after_spec in E. congruence. Qed.
Lemma pdf_marker_spec l v : pdf_marker l = Some v <->
  exists a b r, l = bs "%PDF-" ++ [a; 46; b] ++ r /\ v = [a; 46; b] /\ is_digit a = true /\ is_digit b = true.
Proof.
  unfold pdf_marker. destruct (after (bs "%PDF-") l) as [r|] eqn:E.
  - apply after_spec in E. subst l. rewrite version_spec. split.
    + intros (a & b & r' & -> & H). exists a, b, r'. auto.
    + intros (a & b & r' & Er & H). apply app_inv_head in Er. exists a, b, r'. auto.
  - split; [discriminate|]. intros (a & b & r & -> & _). exfalso. eapply after_None; eauto.
Qed.
Lemma ips_marker_spec l v : ips_marker l = Some v <->
  exists c d a b r, l = bs "%IPS-Adobe-" ++ [c; 46; d] ++ bs " PDF-" ++ [a; 46; b] ++ r /\ v = [a; 46; b] /\
    is_digit c = true /\ is_digit d = true /\ is_digit a = true /\ is_digit b = true.
Proof.
  unfold ips_marker. destruct (after (bs "%IPS-Adobe-") l) as [r|] eqn:E.
  2:{ split; [discriminate|]. intros (c & d & a & b & r & -> & _). exfalso. eapply after_None; eauto. }
  apply after_spec in E. subst l.
  destruct (version_at r) as [v1|] eqn:E1.
  2:{ split; [discriminate|]. intros (c & d & a & b & r' & E & _ & Hc & Hd & _). apply app_inv_head in E. subst r.
      assert (version_at ([c; 46; d] ++ bs " PDF-" ++ [a; 46; b] ++ r') = Some [c; 46; d]) as H by (apply version_spec; cbn; eauto 8). congruence. }
  apply version_spec in E1. destruct E1 as (c & d & r1 & -> & _ & Hc & Hd). cbn [skipn].
  destruct (after (bs " PDF-") r1) as [r2|] eqn:E2.
  - apply after_spec in E2. subst r1. rewrite version_spec. split.
    + intros (a & b & r' & -> & H). exists c, d, a, b, r'. tauto.
    + intros (c' & d' & a & b & r' & Er & H). apply app_inv_head in Er. cbn [app] in Er. inversion Er as [[H1 H2 H3]]. 
      exists a, b, r'. tauto.
  - split; [discriminate|]. intros (c' & d' & a & b & r & E & _). apply app_inv_head in E. cbn [app] in E. inversion E. subst.
    exfalso. eapply (after_None _ _ E2). cbn [app bs]. reflexivity.
Qed.

Lemma search_some m : forall w bol i j v, search m bol i w = Some (j, v) ->
  exists a b, w = a ++ b /\ j = i + zlen a /\ m b = Some v /\ ((a = [] /\ bol = true) \/ exists a', a = a' ++ [10]).
Proof.
  induction w as [|x w IH]; intros bol i j v; cbn [search].
  - destruct (if bol then m [] else None) eqn:E; [|discriminate]. intros H; inversion H; subst.
    exists [], []. rewrite zlen_nil. destruct bol; [|discriminate]. repeat split; auto; lia.
  - destruct (if bol then m (x :: w) else None) eqn:E.
    + intros H; inversion H; subst. exists [], (x :: w). rewrite zlen_nil. destruct bol; [|discriminate]. repeat split; auto; lia.
    + intros H. apply IH in H. destruct H as (a & b & -> & -> & Hm & Ha). exists (x :: a), b. rewrite zlen_cons. repeat split; auto; [lia|].
      right. destruct Ha as [[-> Ex]|[a' ->]]; [exists []; cbn; f_equal; lia|exists (x :: a'); auto].
Qed.
Lemma search_none m : forall w bol i, search m bol i w = None ->
  (bol = true -> m w = None) /\ (forall a b, w = a ++ 10 :: b -> m b = None).
Proof.
  induction w as [|x w IH]; intros bol i; cbn [search].
  - destruct (if bol then m [] else None) eqn:E; [discriminate|]. intros _. split.
    + intros ->; auto.
    + intros [|? ?] b H; discriminate.
  - destruct (if bol then m (x :: w) else None) eqn:E; [discriminate|]. intros H. apply IH in H. destruct H as [H1 H2]. split.
    + intros ->; auto.
    + intros [|y a] b Hb; inversion Hb; subst; eauto.
Qed.
Lemma header_some w s v : header_in w = Some (s, v) ->
  exists a text r, w = a ++ text ++ r /\ s = zlen a /\ MarkerText v text /\ (a = [] \/ exists a', a = a' ++ [10]).
Proof.
  unfold header_in. destruct (search pdf_marker true 0 w) as [[j v']|] eqn:E.
  - intros H; inversion H; subst. apply search_some in E. destruct E as (a & b & -> & -> & E & Ha).
    apply pdf_marker_spec in E. destruct E as (x & y & r & -> & -> & ? & ?).
    exists a, (bs "%PDF-" ++ [x; 46; y]), r. repeat split; auto; [constructor; auto|tauto].
  - intros H. apply search_some in H. destruct H as (a & b & -> & -> & H & Ha).
    apply ips_marker_spec in H. destruct H as (c & d & x & y & r & -> & -> & ? & ? & ? & ?).
    exists a, (bs "%IPS-Adobe-" ++ [c; 46; d] ++ bs " PDF-" ++ [x; 46; y]), r.
    split; [repeat (rewrite <- ?app_assoc; cbn [app]); auto|]. split; auto. split; [constructor; auto|tauto].
Qed.
Lemma header_none w : header_in w = None -> forall a text r v, w = a ++ text ++ r -> MarkerText v text ->
  a = [] \/ (exists a', a = a' ++ [10]) -> False.
Proof.
  unfold header_in. destruct (search pdf_marker true 0 w) as [[? ?]|] eqn:E; [discriminate|].
  intros E2 a text r v Hw Ht Ha. apply search_none in E, E2. destruct E as [P1 P2], E2 as [I1 I2].
  assert (pdf_marker (text ++ r) = None /\ ips_marker (text ++ r) = None) as [N1 N2].
  { destruct Ha as [->|[a' ->]].
    - cbn [app] in Hw. rewrite <- Hw. auto.
    - rewrite <- app_assoc in Hw. cbn [app] in Hw. eauto. }
  destruct Ht as [x y Hx Hy|c d x y Hc Hd Hx Hy].
  - assert (pdf_marker ((bs "%PDF-" ++ [x; 46; y]) ++ r) = Some [x; 46; y]); [|congruence].
    apply pdf_marker_spec. exists x, y, r. split; [reflexivity|auto].
  - assert (ips_marker ((bs "%IPS-Adobe-" ++ [c; 46; d] ++ bs " PDF-" ++ [x; 46; y]) ++ r) = Some [x; 46; y]); [|congruence].
    apply ips_marker_spec. exists c, d, x, y, r. split; [repeat (rewrite <- ?app_assoc; cbn [app]); reflexivity|auto 6].
Qed.

(** *** the loop *)
Lemma header_loop_spec {U} f : forall k pre w rest pos, f = pre ++ w ++ rest -> List.length w = 22%nat -> pos = zlen pre + 22 ->
  exists r pos', (forall st (u : U), arun f (header_loop k w) (mkA pos st u) = (Ok r, mkA pos' st u)) /\
   match r with
   | Some (s, v) => exists pre2 w2 rest2, f = pre2 ++ w2 ++ rest2 /\ List.length w2 = 22%nat /\ header_in w2 = Some (s, v) /\
                      pos' = zlen pre2 + 22 /\ zlen pre2 <= zlen pre + Z.of_nat k
   | None => forall pre2 w2 rest2, f = pre2 ++ w2 ++ rest2 -> List.length w2 = 22%nat ->
                      zlen pre <= zlen pre2 <= zlen pre + Z.of_nat k -> header_in w2 = None
   end.
Proof.
  induction k as [|k IH]; intros pre w rest pos Hf Hw Hp; cbn [header_loop].
  - destruct (header_in w) as [[s v]|] eqn:E.
    + exists (Some (s, v)), pos. split; [reflexivity|]. exists pre, w, rest. repeat split; auto. lia.
    + exists None, pos. split; [reflexivity|]. intros pre2 w2 rest2 Hf2 Hw2 Hl.
      assert (pre2 = pre /\ w2 = w) as [-> ->]; auto.
      assert (List.length pre = List.length pre2) as HL by (unfold zlen in *; lia).
      rewrite Hf in Hf2. destruct (app_inj_2 _ _ _ _ HL Hf2) as [-> H2].
      assert (List.length w = List.length w2) as HL2 by lia. destruct (app_inj_2 _ _ _ _ HL2 H2). auto.
  - destruct (header_in w) as [[s v]|] eqn:E.
    + exists (Some (s, v)), pos. split; [reflexivity|]. exists pre, w, rest. repeat split; auto. lia.
    + assert (forall pre2 w2 rest2, f = pre2 ++ w2 ++ rest2 -> List.length w2 = 22%nat -> zlen pre2 = zlen pre -> header_in w2 = None) as Same.
      { intros pre2 w2 rest2 Hf2 Hw2 Hl. assert (pre2 = pre /\ w2 = w) as [-> ->]; auto.
        assert (List.length pre = List.length pre2) as HL by (unfold zlen in *; lia).
        rewrite Hf in Hf2. destruct (app_inj_2 _ _ _ _ HL Hf2) as [-> H2].
        assert (List.length w = List.length w2) as HL2 by lia. destruct (app_inj_2 _ _ _ _ HL2 H2). auto. }
      assert (At f pos rest) as HA.
      { rewrite app_assoc in Hf. eapply At_eq; [apply (At_start f (pre ++ w)); auto|]. rewrite zlen_app. unfold zlen at 2. lia. }
      destruct rest as [|x rest].
      * exists None, pos. split.
        -- intros st u. cbn [bind cur arun a_pos]. now rewrite (At_nil _ _ HA).
        -- intros pre2 w2 rest2 Hf2 Hw2 Hl. eapply Same; eauto.
           assert (zlen f = zlen pre + 22) as Z1 by (rewrite Hf, app_nil_r, zlen_app; unfold zlen; lia).
           assert (zlen f = zlen pre2 + 22 + zlen rest2) as Z2 by (rewrite Hf2, !zlen_app; unfold zlen; lia).
           pose proof (zlen_nonneg rest2). lia.
      * destruct (At_cons _ _ _ _ HA) as [Hx _].
        destruct w as [|y w]; [discriminate|].
        destruct (IH (pre ++ [y]) (w ++ [x]) rest (pos + 1)) as (r & pos' & Hrun & HR).
        { rewrite Hf. repeat (rewrite <- app_assoc; cbn [app]). reflexivity. }
        { rewrite app_length in *. cbn in *. lia. }
        { rewrite zlen_app. change (zlen [y]) with 1. lia. }
        exists r, pos'. split.
        -- intros st u. cbn [bind cur arun a_pos]. rewrite Hx. cbn [next_byte next bind arun a_pos a_store a_usr]. rewrite Hx.
           cbn [skipn]. apply Hrun.
        -- destruct r as [[s v]|].
           ++ destruct HR as (pre2 & w2 & rest2 & ? & ? & ? & ? & Hl). exists pre2, w2, rest2. repeat split; auto.
              rewrite zlen_app in Hl. change (zlen [y]) with 1 in Hl. lia.
           ++ intros pre2 w2 rest2 Hf2 Hw2 Hl. destruct (Z.eq_dec (zlen pre2) (zlen pre)); [eapply Same; eauto|].
              eapply HR; eauto. rewrite zlen_app. change (zlen [y]) with 1. lia.
Qed.

Definition header_of (f : list Z) (r : res (list Z * Z)) : Prop :=
  forall U st (u : U), exists pos, arun f pdf_header (mkA 0 st u) = (r, mkA pos st u).

Lemma arun_prevs {U} f : forall k pos st (u : U), arun f (prevs k) (mkA pos st u) = (Ok tt, mkA (pos - Z.of_nat k) st u).
Proof.
  induction k as [|k IH]; intros pos st u; cbn [prevs bind prev arun a_pos a_store a_usr].
  - cbn. f_equal; f_equal; lia.
  - rewrite IH. f_equal; f_equal; lia.
Qed.
Lemma arun_read_opts {U} f : forall k pos st (u : U), exists l,
  arun f (read_opts k) (mkA pos st u) = (Ok l, mkA (pos + Z.of_nat k) st u) /\
  (forall j, (j < k)%nat -> nth_error l j = Some (znth f (pos + Z.of_nat j))) /\ List.length l = k.
Proof.
  induction k as [|k IH]; intros pos st u; cbn [read_opts bind next arun a_pos a_store a_usr].
  - exists []. split; [cbn; f_equal; f_equal; lia|]. split; [lia|reflexivity].
  - destruct (IH (pos + 1) st u) as (l & E & H & HL). exists (znth f pos :: l).
    rewrite arun_bind, E. cbn [ret arun]. split; [f_equal; f_equal; lia|]. split; [|cbn; lia].
    intros [|j] Hj; cbn [nth_error]; [do 2 f_equal; lia|]. rewrite H by lia. do 2 f_equal. lia.
Qed.

Lemma nth_error_ext {A} : forall (a b : list A), (forall j, nth_error a j = nth_error b j) -> a = b.
Proof.
  induction a as [|x a IH]; intros [|y b] H; auto; try (specialize (H 0%nat); discriminate).
  pose proof (H 0%nat) as H0. inversion H0; subst. f_equal. apply IH. intros j. apply (H (S j)).
Qed.
Lemma header_loop_indep {U} f : forall k w pos st (u : U), arun f (header_loop k w) (mkA pos st u) =
     (fst (arun f (header_loop k w : prog unit _) (mkA pos [] tt)), mkA (a_pos (snd (arun f (header_loop k w : prog unit _) (mkA pos [] tt)))) st u).
Proof.
  induction k as [|k IH]; intros w pos st u; cbn [header_loop]; destruct (header_in w); try reflexivity.
  cbn [bind cur arun a_pos]. destruct (znth f pos) as [x|] eqn:Ex; [|reflexivity].
  cbn [next_byte next bind arun a_pos a_store a_usr]. rewrite Ex. cbn [bind ret]. rewrite (IH _ _ st u). reflexivity.
Qed.
Lemma arun_read {U} f w rest pos st (u : U) : At f pos (w ++ rest) ->
  arun f (read (List.length w)) (mkA pos st u) = (Ok w, mkA (pos + zlen w) st u).
Proof.
  intros HA. unfold read. rewrite arun_bind. destruct (arun_read_opts f (List.length w) pos st u) as (l & -> & Hl & HLn).
  assert (l = map Some w) as ->.
  { apply nth_error_ext. intros j. destruct (Nat.lt_ge_cases j (List.length w)) as [Hj|Hj].
    - rewrite Hl by lia. rewrite nth_error_map. destruct (nth_error w j) as [x|] eqn:En; [|apply nth_error_None in En; lia].
      cbn [option_map]. f_equal. apply nth_error_split in En. destruct En as (a & b & -> & <-).
      rewrite <- app_assoc in HA. apply At_app in HA. cbn [app] in HA. apply At_cons in HA. apply HA.
    - transitivity (@None (option Z)); [|symmetry]; apply nth_error_None; rewrite ?map_length; lia. }
  rewrite all_some_map. reflexivity.
Qed.

Definition header_after (n : nat) {U} : prog U (list Z * Z) :=
  reset 0 ;;; w <- read 22 ;; m <- header_loop n w ;;
  match m with
  | None => throw ParserExc
  | Some (start, v) => prevs 22 ;;; i <- index_ ;; ret (v, i + start)
  end.
Lemma header_run {U} f k w rest r pos' st (u : U) : f = w ++ rest -> List.length w = 22%nat ->
  arun f (header_loop k w : prog unit _) (mkA 22 [] tt) = (Ok r, mkA pos' [] tt) ->
  exists pos, arun f (header_after k) (mkA 0 st u) =
     (match r with Some (s, v) => Ok (v, pos' - 22 + s) | None => Err ParserExc end, mkA pos st u).
Proof.
  intros E Hw Hrun. unfold header_after. rewrite arun_bind. cbn [reset arun a_store a_usr].
  change (reset_pos f 0) with 0. rewrite arun_bind, <- Hw.
  rewrite (arun_read f w rest 0 st u) by (split; [lia|exact E]).
  unfold zlen. rewrite Hw. rewrite arun_bind. change (0 + Z.of_nat 22) with 22. rewrite header_loop_indep, Hrun. cbn [fst snd a_pos].
  destruct r as [[s v]|].
  - rewrite arun_bind, arun_prevs. cbn [bind index_ arun ret a_pos]. eexists. reflexivity.
  - eexists. reflexivity.
Qed.

Lemma header_cases f : 22 <= zlen f -> exists r,
  header_of f r /\
  match r with
  | Ok (ver, off) => exists pre2 w2 rest2 s, f = pre2 ++ w2 ++ rest2 /\ List.length w2 = 22%nat /\ header_in w2 = Some (s, ver) /\
      off = zlen pre2 + s /\ zlen pre2 <= 1002
  | Err e => e = ParserExc /\ forall pre2 w2 rest2, f = pre2 ++ w2 ++ rest2 -> List.length w2 = 22%nat ->
      zlen pre2 <= 1002 -> header_in w2 = None
  end.
Proof.
  intros Hf. assert (exists k, k = (1024 - 22)%nat) as [k Hk] by eauto.
  assert (Z.of_nat k = 1002) as Hk2 by (rewrite Hk; reflexivity).
  set (w := firstn 22 f). set (rest := skipn 22 f).
  assert (f = w ++ rest) as E by (symmetry; apply firstn_skipn).
  assert (List.length w = 22%nat) as Hw by (unfold w; rewrite firstn_length; unfold zlen in Hf; lia).
  destruct (header_loop_spec (U := unit) f k [] w rest 22) as (r & pos' & Hrun & HR); auto.
  assert (forall U st (u : U), exists pos, arun f pdf_header (mkA 0 st u) =
     (match r with Some (s, v) => Ok (v, pos' - 22 + s) | None => Err ParserExc end, mkA pos st u)) as Run.
  { intros U st u. destruct (header_run f k w rest r pos' st u) as [pos Hp]; auto.
    exists pos. rewrite <- Hp. unfold pdf_header, header_after. rewrite <- Hk. reflexivity. }
  clearbody w rest. clear Hk.
  destruct r as [[s v]|].
  - destruct HR as (pre2 & w2 & rest2 & H1 & H2 & H3 & H4 & H5). exists (Ok (v, zlen pre2 + s)). split.
    + intros U st u. destruct (Run U st u) as [pos Hp]. exists pos. rewrite Hp. do 3 f_equal. lia.
    + exists pre2, w2, rest2, s. rewrite zlen_nil, Hk2 in H5. repeat split; auto.
  - exists (Err ParserExc). split.
    + intros U st u. apply Run.
    + split; auto. intros pre2 w2 rest2 H1 H2 H3. eapply HR; eauto. pose proof (zlen_nonneg pre2). rewrite zlen_nil, Hk2. lia.
Qed.

Lemma read_short {U} f st (u : U) : zlen f < 22 -> exists s', arun f (read 22) (mkA 0 st u) = (Err TypeErr, s').
Proof.
  intros Hf. unfold read. rewrite arun_bind.
  destruct (arun_read_opts f 22 0 st u) as (l & El & Hl & HLn). rewrite El.
  assert (all_some l = None) as ->; [|eexists; reflexivity].
  specialize (Hl (List.length f)). assert (List.length f < 22)%nat as HL by (unfold zlen in Hf; lia).
  specialize (Hl HL). assert (znth f (0 + Z.of_nat (List.length f)) = None) as Hz by (apply znth_None; right; unfold zlen; lia).
  rewrite Hz in Hl. clear -Hl. revert Hl. generalize (List.length f). induction l as [|[x|] l IH]; intros [|j] H; cbn in *; try discriminate; auto.
  rewrite (IH j H). auto.
Qed.
Lemma header_short {U} f k st (u : U) : zlen f < 22 -> exists s', arun f (header_after k) (mkA 0 st u) = (Err TypeErr, s').
Proof.
  intros Hf. unfold header_after. rewrite arun_bind. cbn [reset arun a_store a_usr].
  change (reset_pos f 0) with 0. rewrite arun_bind. destruct (read_short f st u Hf) as [s' ->]. eauto.
Qed.
Lemma pdf_header_after {U} : @pdf_header U = header_after (1024 - 22).
Proof. reflexivity. Qed.
Lemma header_fun f r r' : header_of f r -> header_of f r' -> r = r'.
Proof. intros H H'. destruct (H unit [] tt) as [p E]. destruct (H' unit [] tt) as [p' E']. congruence. Qed.

(** C16, soundness: what is returned stands in the file, within the first 1024 bytes. *)
Theorem C16_header_sound : forall f ver off,
  header_of f (Ok (ver, off)) -> exists e, marker_at f ver off e /\ 0 <= off /\ e <= 1024.
Proof.
  intros f ver off H. destruct (Z_le_gt_dec 22 (zlen f)) as [Hf|Hf].
  - destruct (header_cases f Hf) as (r & Hr & HR). rewrite (header_fun _ _ _ Hr H) in HR.
    destruct HR as (pre2 & w2 & rest2 & s & E & Hw & Hh & -> & Hl).
    apply header_some in Hh. destruct Hh as (a & text & r2 & -> & -> & HM & Ha).
    exists (zlen pre2 + zlen a + zlen text). pose proof (zlen_nonneg pre2). pose proof (zlen_nonneg a).
    assert (zlen a + zlen text <= 22) by (unfold zlen in *; rewrite !app_length in Hw; lia).
    split; [|lia]. exists (pre2 ++ a), text, (r2 ++ rest2).
    repeat split; auto; rewrite ?zlen_app; try lia. rewrite E. repeat rewrite <- app_assoc. reflexivity.
  - exfalso. destruct (H unit [] tt) as [pos E]. rewrite pdf_header_after in E.
    revert E. generalize (1024 - 22)%nat. intros k E.
    destruct (header_short (U := unit) f k [] tt) as [s' Es]; [lia|]. rewrite Es in E. discriminate E.
Qed.
(** C16, exactly when: a marker starts a line and ends within the first 1024 bytes, or stands anywhere
    with 22 bytes from its start still within them. *)
Theorem C16_header_found_iff : forall f, 22 <= zlen f ->
  ((exists ver off, header_of f (Ok (ver, off))) <->
   (exists ver p e, marker_at f ver p e /\
      ((line_start f p /\ e <= 1024) \/ p + 22 <= Z.min 1024 (zlen f)))).
Proof.
  intros f Hf. destruct (header_cases f Hf) as (r & Hr & HR). split.
  - intros (ver & off & H). rewrite (header_fun _ _ _ Hr H) in HR.
    destruct HR as (pre2 & w2 & rest2 & s & E & Hw & Hh & -> & Hl).
    pose proof Hh as Hh0. apply header_some in Hh. destruct Hh as (a & text & r2 & -> & -> & HM & Ha).
    exists ver, (zlen pre2 + zlen a), (zlen pre2 + zlen a + zlen text). split.
    { exists (pre2 ++ a), text, (r2 ++ rest2). repeat split; auto; rewrite ?zlen_app; try lia.
      rewrite E. repeat rewrite <- app_assoc. reflexivity. }
    assert (List.length (a ++ text ++ r2) = 22%nat) as Hw' by exact Hw. rewrite !app_length in Hw'.
    assert (zlen f = zlen pre2 + 22 + zlen rest2) as HL by (rewrite E, !zlen_app; unfold zlen; lia).
    destruct Ha as [->|[a' ->]].
    + right. rewrite zlen_nil. pose proof (zlen_nonneg rest2). lia.
    + left. split; [|unfold zlen in *; lia]. right. exists (pre2 ++ a'), (text ++ r2 ++ rest2).
      rewrite E, !zlen_app. change (zlen [10]) with 1. split; [|lia]. repeat (rewrite <- app_assoc; cbn [app]). reflexivity.
  - intros (ver & p & e & (pre & text & rest & E & HM & -> & ->) & Hcase).
    destruct r as [[v o]|err]; [eauto|]. exfalso. destruct HR as [-> HN].
    assert (zlen text <= 22) as Ht by (destruct HM; vm_compute; discriminate).
    pose proof (zlen_nonneg pre) as Hpre. pose proof (zlen_nonneg rest) as Hrest. pose proof (zlen_nonneg text) as Htext.
    assert (zlen f = zlen pre + zlen text + zlen rest) as HL by (rewrite E, !zlen_app; lia).
    destruct (Z_le_gt_dec (zlen pre + 22) (Z.min 1024 (zlen f))) as [Hin|Hout].
    + (* the window that starts at the marker *)
      apply (header_none (firstn 22 (text ++ rest))) with (a := []) (text := text) (r := firstn (22 - List.length text) rest) (v := ver); auto.
      * apply (HN pre _ (skipn 22 (text ++ rest))); [rewrite firstn_skipn; auto| |lia].
        rewrite firstn_length, app_length. unfold zlen in *. lia.
      * cbn [app]. rewrite firstn_app. rewrite firstn_all2 by (unfold zlen in *; lia). reflexivity.
    + (* the last window; the marker starts a line inside it *)
      destruct Hcase as [[Hls He]|Hbad]; [|lia].
      set (i := Z.to_nat (Z.min 1002 (zlen f - 22))).
      assert (Z.of_nat i = Z.min 1002 (zlen f - 22)) as Hi by (unfold i; lia).
      assert (Z.of_nat i < zlen pre) as Hip by lia.
      assert (exists pre', pre = pre' ++ [10]) as [pre' ->].
      { destruct Hls as [H0|(q & r & Eq & Hq)]; [lia|]. exists q.
        assert (List.length (q ++ [10]) = List.length pre) as HLq by (rewrite app_length; cbn; unfold zlen in *; lia).
        rewrite E in Eq. change (10 :: r) with ([10] ++ r) in Eq. rewrite (app_assoc q) in Eq.
        destruct (app_inj_2 _ _ _ _ (eq_sym HLq) Eq). auto. }
      rewrite zlen_app in *. change (zlen [10]) with 1 in *.
      apply (header_none (skipn i pre' ++ [10] ++ text ++ firstn (22 - (List.length (skipn i pre') + 1 + List.length text)) rest))
        with (a := skipn i pre' ++ [10]) (text := text) (r := firstn (22 - (List.length (skipn i pre') + 1 + List.length text)) rest) (v := ver); auto.
      * assert (Hsk : List.length (skipn i pre') = (List.length pre' - i)%nat) by apply skipn_length.
        apply (HN (firstn i pre') _ (skipn (22 - (List.length (skipn i pre') + 1 + List.length text)) rest)).
        -- rewrite E. repeat (rewrite <- app_assoc; cbn [app]). rewrite firstn_skipn.
           rewrite (app_assoc (firstn i pre')), firstn_skipn. reflexivity.
        -- rewrite !app_length, firstn_length, Hsk. cbn [List.length]. unfold zlen in *. lia.
        -- unfold zlen in *. rewrite firstn_length. lia.
      * rewrite <- app_assoc. reflexivity.
      * right. eauto.
Qed.
(** Otherwise the file is rejected with ParserException. *)
Theorem C16_header_missing : forall f, 22 <= zlen f ->
  (forall ver p e, marker_at f ver p e -> ~ (line_start f p /\ e <= 1024) /\ ~ p + 22 <= Z.min 1024 (zlen f)) ->
  header_of f (Err ParserExc).
Proof.
  intros f Hf H. destruct (header_cases f Hf) as (r & Hr & HR). destruct r as [[ver off]|e].
  - exfalso. destruct (proj1 (C16_header_found_iff f Hf)) as (v & p & e & Hm & Hc); [eauto|].
    specialize (H v p e Hm). tauto.
  - destruct HR as [-> _]. auto.
Qed.
(** Files shorter than 22 bytes cannot be opened, even with a proper header: TypeError. *)
Theorem C16_short_file_refuted :
  ~ (forall f ver e, marker_at f ver 0 e -> exists off, header_of f (Ok (ver, off))).
Proof.
  intro H. destruct (H (bs "%PDF-1.4 tiny file") (bs "1.4") 8) as [off Ho].
  - exists [], (bs "%PDF-1.4"), (bs " tiny file"). repeat split; auto. constructor; reflexivity.
  - destruct (Ho unit [] tt) as [p E]. vm_compute in E. discriminate.
Qed.
(** Instances: junk before the header; a marker in the middle of a line. *)
Example C16_ex : header_of (bs "junk" ++ [10] ++ bs "%PDF-1.7 and some more bytes") (Ok (bs "1.7", 5)) /\
  header_of (bs "xx%IPS-Adobe-1.3 PDF-1.6 and some more bytes") (Ok (bs "1.6", 2)).
Proof. split; intros U st u; eexists; vm_compute; reflexivity. Qed.

Print Assumptions C16_header_sound.
Print Assumptions C16_header_found_iff.
Print Assumptions C16_header_missing.
Print Assumptions C16_short_file_refuted.
