(** Streams whose Length is an unlisted object: lemmas for C80. *)
From Coq Require Import String.
From Verif Require Import Prelude M_Prog M_Parser S_Syntax S_Stream L_Buffer L_Prog L_ParserWP L_Syntax L_Syntax2
  L_Stream M_Filters M_Document S_Document L_Document L_User L_Registry P_IndObj S_Xref L_Xref P_Header P_StartXref P_Xref P_Locate L_Steps L_Leads S_Open P_Open S_Length.
Local Open Scope Z_scope.
Local Open Scope prog_scope.

(** ---- the word endobj ---- *)
Lemma app_split {A} : forall (a b c d : list A), a ++ b = c ++ d ->
  (exists e, a = c ++ e /\ d = e ++ b) \/ (exists e, e <> [] /\ c = a ++ e /\ b = e ++ d).
Proof.
  induction a as [|x a IH]; intros b c d E.
  - destruct c as [|y c]; [left; exists []; auto|]. right. exists (y :: c). split; [discriminate|auto].
  - destruct c as [|y c]; cbn [app] in E.
    + left. exists (x :: a). auto.
    + injection E as -> E. destruct (IH b c d E) as [(e & -> & ->)|(e & He & -> & ->)]; [left; exists e; auto|right; exists e; auto].
Qed.
Definition eo : list Z := bs "endobj".
(** [clean x]: reading on from [x], followed by the word endobj, that word is the first one met *)
Definition clean (x : list Z) : Prop := forall a b, x ++ eo = a ++ eo ++ b -> b = [].
Definition no_e (x : list Z) : Prop := Forall (fun c => c <> 101) x.
(** a proper non-empty tail of the word does not start with e *)
Lemma eo_tail x y : eo = x ++ y -> x <> [] -> y <> [] -> hd_error y <> Some 101.
Proof.
  intros E Hx Hy. change eo with [101; 110; 100; 111; 98; 106] in E.
  destruct x as [|x1 x]; [congruence|]. injection E as <- E.
  intros H. destruct y as [|y1 y]; [congruence|]. injection H as ->. 
  assert (In 101 [110; 100; 111; 98; 106]) as HI by (rewrite E; apply in_or_app; right; left; reflexivity).
  cbn [In] in HI. lia.
Qed.
Lemma clean_nil : clean [].
Proof. intros a b E. apply (f_equal (@List.length Z)) in E. rewrite !app_length in E. destruct b; [reflexivity|]. cbn in E. lia. Qed.
(** putting [c], which is not part of an occurrence of the word, in front *)
Lemma clean_cons c x : clean x -> (forall y, c :: x ++ eo <> eo ++ y) -> clean (c :: x).
Proof.
  intros Hx Hc a b E. destruct a as [|a0 a]; cbn [app] in E; [exfalso; exact (Hc b E)|]. injection E as <- E. exact (Hx a b E).
Qed.
Lemma clean_cons_ne c x : c <> 101 -> clean x -> clean (c :: x).
Proof. intros Hc Hx. apply clean_cons; auto. intros y E. change eo with [101; 110; 100; 111; 98; 106] in E. cbn [app] in E. injection E as E _. congruence. Qed.
Lemma clean_no_e p x : no_e p -> clean x -> clean (p ++ x).
Proof. induction 1 as [|c p Hc HF IH]; intros Hx; [exact Hx|]. cbn [app]. apply clean_cons_ne; auto. Qed.
(** text without the word, before text that starts neither inside nor with it *)
Definition apart (x : list Z) : Prop := match x with [] => True | c :: _ => ~ In c [110; 100; 111; 98; 106] end.
Lemma clean_app x y : ~ has eo x -> clean y -> apart (y ++ eo) -> clean (x ++ y).
Proof.
  intros Hx Hy Ha a b E. rewrite <- app_assoc in E.
  destruct (app_split _ _ _ _ E) as [(e & Ex & E2)|(e & He & -> & E2)].
  - symmetry in E2. destruct (app_split _ _ _ _ E2) as [(e2 & Ee & Eb)|(e2 & He2 & Ee & E3)].
    + exfalso. apply Hx. exists a, e2. subst x e. reflexivity.
    + rewrite E3 in Ha. destruct e as [|e0 e].
      * cbn [app] in Ee. subst e2. apply (Hy [] b). rewrite E3. reflexivity.
      * exfalso. destruct e2 as [|e2 es]; [congruence|]. assert (In e2 [110; 100; 111; 98; 106]) as HI.
        { change eo with [101; 110; 100; 111; 98; 106] in Ee. cbn [app] in Ee. injection Ee as _ Ee. rewrite Ee. apply in_or_app. right. left. reflexivity. }
        exact (Ha HI).
  - exact (Hy e b E2).
Qed.

Lemma clean_stream e data ws s4 : no_e e -> ~ has eo data -> all_ws ws -> Sep s4 -> ~ has eo s4 ->
  clean (bs "stream" ++ e ++ data ++ ws ++ bs "endstream" ++ s4).
Proof.
  intros He Hd Hw Hs4 H4.
  assert (clean s4) as C1.
  { rewrite <- (app_nil_r s4). apply clean_app; auto; [apply clean_nil|]. cbn. intuition lia. }
  assert (clean (bs "endstream" ++ s4)) as C2.
  { change (bs "endstream" ++ s4) with ([101; 110; 100; 115; 116; 114; 101; 97; 109] ++ s4). cbn [app].
    apply clean_cons; [do 5 (apply clean_cons_ne; [lia|]); apply clean_cons; [do 2 (apply clean_cons_ne; [lia|]); exact C1|]|].
    - intros y E. change (eo ++ y) with (101 :: 110 :: 100 :: 111 :: 98 :: 106 :: y) in E. cbn [app] in E. injection E as E _. lia.
    - intros y E. change (eo ++ y) with (101 :: 110 :: 100 :: 111 :: 98 :: 106 :: y) in E. cbn [app] in E. injection E as E _. lia. }
  assert (forall c, In c ws -> In c [0; 9; 10; 12; 13; 32]) as Hw2.
  { intros c Hc. unfold all_ws in Hw. rewrite Forall_forall in Hw. specialize (Hw c Hc). clear - Hw. unfold is_ws in Hw. apply memZ_In in Hw. exact Hw. }
  assert (clean (ws ++ bs "endstream" ++ s4)) as C3.
  { apply clean_no_e; auto. apply Forall_forall. intros c Hc. specialize (Hw2 c Hc). cbn [In] in Hw2. lia. }
  assert (clean (data ++ ws ++ bs "endstream" ++ s4)) as C4.
  { apply clean_app; auto. destruct ws as [|w ws]; cbn [app]; [|specialize (Hw2 w (or_introl eq_refl))]; cbn; cbn [In] in *; lia. }
  assert (clean (e ++ data ++ ws ++ bs "endstream" ++ s4)) as C5.
  { apply clean_no_e; auto. }
  change (bs "stream") with [115; 116; 114; 101; 97; 109]. cbn [app].
  do 3 (apply clean_cons_ne; [lia|]). apply clean_cons; [do 2 (apply clean_cons_ne; [lia|]); exact C5|].
  intros y E. change (eo ++ y) with (101 :: 110 :: 100 :: 111 :: 98 :: 106 :: y) in E. injection E as E _. lia.
Qed.

Lemma eol_no_e e body : StreamEol e body -> no_e e.
Proof.
  intros [H|[-> _]]; [|constructor]. destruct H as [->|[->|[-> _]]]; repeat constructor; lia.
Qed.

Section Skip.
  Variable f : list Z.
  Lemma r_slide : forall x n q Y tok, clean x -> At f q (x ++ eo ++ Y) -> tok = firstn 6 (x ++ eo ++ Y) -> (List.length x < n)%nat ->
    runs f (skip_endobj n tok) (q + 6) (Ok tt) (q + zlen x + 6).
  Proof.
    induction x as [|c x IH]; intros n q Y tok Hc HA Et Hn; (destruct n as [|n]; [cbn in Hn; lia|]).
    - assert (tok = eo) as -> by (rewrite Et; reflexivity). cbn [skip_endobj]. unfold eo. rewrite eqlZ_refl. eapply runs_eq; [apply runs_ret|]. change (zlen (@nil Z)) with 0. lia.
    - cbn [skip_endobj]. destruct (eqlZ tok (bs "endobj")) eqn:E.
      { exfalso. apply eqlZ_eq in E. fold eo in E. rewrite E in Et.
        assert (((c :: x) ++ eo) = eo ++ skipn 6 ((c :: x) ++ eo)) as E2.
        { rewrite <- (firstn_skipn 6 ((c :: x) ++ eo)) at 1. f_equal. symmetry. etransitivity; [exact Et|]. rewrite app_assoc. rewrite (firstn_app 6 ((c :: x) ++ eo) Y).
          replace (6 - List.length ((c :: x) ++ eo))%nat with O by (rewrite app_length; change (List.length eo) with 6%nat; lia).
          rewrite firstn_O. apply app_nil_r. }
        specialize (Hc [] _ E2). apply (f_equal (@List.length Z)) in Hc. rewrite skipn_length, app_length in Hc. change (List.length eo) with 6%nat in Hc. cbn in Hc. lia. }
      pose proof HA as HA1. cbn [app] in HA1. destruct (At_cons _ _ _ _ HA1) as [_ HA2].
      set (L := x ++ eo ++ Y) in *.
      assert (6 <= List.length L)%nat as HL by (unfold L; rewrite !app_length; change (List.length eo) with 6%nat; lia).
      assert (exists y, nth_error L 5 = Some y) as [y Hy].
      { destruct (nth_error L 5) eqn:E5; [eauto|]. apply nth_error_None in E5. lia. }
      assert (L = firstn 5 L ++ y :: skipn 6 L) as EL.
      { rewrite <- (firstn_skipn 5 L) at 1. f_equal. clear - Hy. clearbody L. revert Hy. 
        destruct L as [|a1 [|a2 [|a3 [|a4 [|a5 [|a6 l]]]]]]; cbn; try discriminate. intros H. injection H as ->. reflexivity. }
      assert (tok = c :: firstn 5 L) as Et2 by (rewrite Et; reflexivity).
      eapply runs_bind with (a := [y]) (q := q + 6 + 1).
      { eapply runs_eq; [apply (r_read f [y] (q + 6) (skipn 6 L)); [reflexivity|]|reflexivity].
        rewrite EL in HA2. apply At_app in HA2. cbn [app]. eapply At_eq; [exact HA2|].
        unfold zlen. rewrite firstn_length, Nat.min_l by lia. lia. }
      rewrite Et2. cbn [skipn]. replace (q + 6 + 1) with (q + 1 + 6) by lia.
      eapply runs_eq; [apply (IH n (q + 1) Y); auto|].
      + intros a b E2. apply (Hc (c :: a) b). cbn [app]. now rewrite E2.
      + fold L. clear - HL EL. clearbody L. remember (firstn 5 L) as A eqn:EA. remember (skipn 6 L) as B eqn:EB.
        assert (List.length A = 5%nat) as HA5 by (rewrite EA, firstn_length; lia). rewrite EL. clear - HA5.
        do 5 (destruct A as [|? A]; [discriminate|]). destruct A; [reflexivity|discriminate].
      + cbn in Hn. lia.
      + rewrite zlen_cons. lia.
  Qed.
  Lemma r_skip m x p s tail : clean x -> At f p (x ++ eo ++ s ++ tail) -> Sep s -> nosep tail -> 4 * zlen f + 8 <= Z.of_nat m ->
    runs f (skip_until_next m) p (Ok tt) (p + zlen x + 6 + zlen s).
  Proof.
    intros Hx HA Hs Ht Hm. pose proof (zlen_nonneg f). pose proof (zlen_nonneg x). pose proof (At_len _ _ _ HA) as HL. assert (0 <= p) by apply HA.
    rewrite !zlen_app in HL. change (zlen eo) with 6 in HL. pose proof (zlen_nonneg s). pose proof (zlen_nonneg tail).
    unfold skip_until_next.
    set (L := x ++ eo ++ s ++ tail) in *.
    assert (6 <= List.length L)%nat as H6 by (unfold L; rewrite !app_length; change (List.length eo) with 6%nat; lia).
    eapply runs_bind.
    { apply (r_read f (firstn 6 L) p (skipn 6 L)); [rewrite firstn_length; lia|]. now rewrite firstn_skipn. }
    assert (zlen (firstn 6 L) = 6) as E6 by (unfold zlen; rewrite firstn_length; lia). rewrite E6.
    eapply runs_bind; [apply (r_slide x m p (s ++ tail)); auto; unfold zlen in *; lia|].
    unfold L in HA. apply At_app in HA. apply At_app in HA. change (zlen eo) with 6 in HA. apply (r_sp f s m _ tail); auto. unfold fuel. lia.
  Qed.
End Skip.

Lemma add_obj_known u a b v w : known u a b = Some w -> add_obj u a b v = u.
Proof. intros H. unfold add_obj, is_registered. unfold known in H. rewrite H. now destruct u. Qed.
Lemma ext_nth {A} (st ex : list A) h p : nth_error st h = Some p -> nth_error (st ++ ex) h = Some p.
Proof. intros H. rewrite nth_error_app1; auto. apply nth_error_Some. congruence. Qed.

Section Len.
  Variable inflate : list Z -> option (list Z).
  Variable ccitt : list Z -> fparams -> res (list Z).
  Variables (D m : nat).
  Notation decrypt := (fun (_ _ : Z) (v : obj) => Ok v).
  Notation locate := (locate_object inflate ccitt decrypt D m).
  Notation iobj_of k := (reg_indirect inflate ccitt decrypt D m (length_hook (locate k))).
  Variable f : list Z.
  Hypothesis HD : (0 < D)%nat.
  Hypothesis Hm : 4 * zlen f + 8 <= Z.of_nat m.
  Variable content : contents.
  Hypothesis Hobj : forall num gen v, content num gen = Some v -> no_objstm v.
  Variable ls : list (list listed).
  Notation xs := (map table_of ls).
  Notation want := (denoted content).
  Notation Inv := (Inv content ls).
  Notation read_state := (read_state content ls).
  Definition unlisted (a b : Z) : Prop := forall o, ~ newest ls a b o.
  Hypothesis HLR : listings_right content f ls.

  Lemma unl_none a b : unlisted a b -> Forall (fun l' => forall o', last_listed true a l' <> Some (b, o')) ls.
  Proof. intros H. destruct (newest_or_none ls a b) as [(o & HN)|HN]; [exfalso; exact (H o HN)|exact HN]. Qed.
  Lemma pass_none loc iobj a b : unlisted a b -> by_xref loc iobj xs a b = reg_get a b.
  Proof. intros H. rewrite <- (app_nil_r xs). rewrite (by_xref_skip inflate ccitt D m f HD content Hobj loc iobj a b ls []); [reflexivity|]. apply unl_none, H. Qed.

  (** looking up a listed integer *)
  Lemma locate_listed_int k a b o z p u : newest ls a b o -> content a b = Some (OInt z) -> Inv u ->
    exists q, uruns f (locate (S k) a b) p u (Ok (OInt z)) q (add_obj u a b (OInt z)).
  Proof.
    intros HN Hc HI. destruct (HLR a b o HN) as (v & Hv & pre & text & rest & Ef & Eo & HT). rewrite Hc in Hv. injection Hv as <-.
    inversion HT as [n1 g1 v1 s1 r1 HT1|]; subst n1 g1 v1 s1 r1. subst o. pose proof (zlen_nonneg pre).
    assert (uruns f (iobj_of k) (zlen pre) u (Ok (a, b, OInt z)) (zlen pre + zlen text) (add_obj u a b (OInt z))) as HU.
    { eapply r_iobj; eauto. now apply At_start with (pre := pre). }
    destruct (locate_gen inflate ccitt D m f HD Hm content Hobj ls k a b (OInt z) (zlen pre) _ u _ HN ltac:(lia) HU HI Hc) with (p := p) as [q' Hq].
    { destruct (add_obj_ok inflate ccitt D m f HD content Hobj ls u a b _ HI Hc) as (A1 & A2 & A3). split; auto. }
    exists q'. destruct (known_true u a b) eqn:E; [|exact Hq].
    unfold known_true in E. destruct (known u a b) as [w|] eqn:Ew; [|discriminate]. rewrite (add_obj_known u a b (OInt z) w Ew). exact Hq.
  Qed.
  Lemma locate_known k a b z p u : unlisted a b -> known u a b = Some (OInt z) -> Inv u ->
    uruns f (locate (S k) a b) p u (Ok (OInt z)) p (add_obj u a b (OInt z)).
  Proof.
    intros HU HK HI st. rewrite (add_obj_known u a b (OInt z) _ HK). exists []. rewrite app_nil_r. pose proof (zlen_nonneg f).
    cbn [locate_object]. cbn [bind getu arun a_usr]. fold (known u a b). rewrite HK. destruct (truthy (OInt z)) eqn:Et; [reflexivity|].
    rewrite (proj1 HI), pass_none by exact HU. cbn [reg_get bind getu ret arun a_usr]. fold (known u a b). rewrite HK, Et, arun_bind.
    assert (forall j iobj, (0 < j)%nat -> arun f (brute_force inflate ccitt D m iobj j a b) (mkA p st u) = (Ok tt, mkA p st u)) as HJ.
    { intros [|j] iobj Hj; [lia|]. cbn [brute_force]. cbn [bind getu arun a_usr]. unfold is_registered. fold (known u a b). rewrite HK. reflexivity. }
    rewrite HJ by lia. cbn. fold (known u a b). rewrite HK. reflexivity.
  Qed.
  Lemma locate_bfr k a b p u : unlisted a b -> known u a b = None -> on_stack (r_stack u) a b = true -> r_xrefs u = Some xs ->
    uruns f (locate (S k) a b) p u (Err BruteForceRec) p u.
  Proof.
    intros HU HK Hst HX st. exists []. rewrite app_nil_r. pose proof (zlen_nonneg f).
    cbn [locate_object]. cbn [bind getu arun a_usr]. fold (known u a b). rewrite HK. cbn [truthy].
    rewrite HX, pass_none by exact HU. cbn [reg_get bind getu ret arun a_usr]. fold (known u a b). rewrite HK. cbn [truthy]. rewrite arun_bind.
    assert (forall j iobj, (0 < j)%nat -> arun f (brute_force inflate ccitt D m iobj j a b) (mkA p st u) = (Err BruteForceRec, mkA p st u)) as HJ.
    { intros [|j] iobj Hj; [lia|]. cbn [brute_force]. cbn [bind getu arun a_usr]. unfold is_registered. fold (known u a b). rewrite HK, Hst. reflexivity. }
    rewrite HJ by lia. reflexivity.
  Qed.

  Lemma clean_len n g a b d data t X : CleanStream n g a b d data t X -> LenStream n g a b d data t X.
  Proof. destruct 1. now constructor. Qed.

  (** reading a stream whose Length can be looked up without more ado *)
  Lemma read_ready loc n g a b d data t X p u : LenStream n g a b d data t X ->
    content a b = Some (OInt (zlen data)) -> content n g = Some (with_length d data) ->
    (forall p1, exists q, uruns f (loc a b) p1 u (Ok (OInt (zlen data))) q (add_obj u a b (OInt (zlen data)))) ->
    At f p (t ++ X) -> Inv u ->
    exists u', uruns f (reg_indirect inflate ccitt decrypt D m (length_hook loc)) p u (Ok (n, g, with_length d data)) (p + zlen t) u' /\
      read_state u n g (with_length d data) u' /\ known u' a b = Some (OInt (zlen data)).
  Proof.
    intros HT Hab Hc HL HA HI. assert (0 <= p) by apply HA. pose proof (zlen_nonneg f).
    destruct HT as [ds1 s1 ds2 s2 s3 es s0 s sp' e data ws s4 rest a b Hh Hs0 Hsp He Heol Hw Hs4 Hd].
    unfold with_length in *. set (d' := dset (dict_of es) (bs "Length") (OInt (zlen data))) in *.
    destruct (add_obj_ok inflate ccitt D m f HD content Hobj ls u a b _ HI Hab) as (A1 & A2 & A3). set (u1 := add_obj u a b (OInt (zlen data))) in *.
    destruct (add_obj_ok inflate ccitt D m f HD content Hobj ls u1 _ _ _ A1 Hc) as (B1 & B2 & B3).
    exists (add_obj u1 (dvalue ds1) (dvalue ds2) (OStream d' data)). split.
    2:{ split; [split; [exact B1|split; [eapply frame_trans; eauto|exact B3]]|]. destruct B2 as (_ & _ & _ & G). exact (G a b _ A3). }
    unfold reg_indirect. eapply uruns_bind.
    - eapply (u_indirect f (length_hook loc) ds1 s1 ds2 s2 s3 es s0 s sp' e data ws s4 rest d' m p u u1); eauto.
      + apply dget_dset.
      + intros p1 Hp1. destruct (HL p1) as [q1 Hq1]. apply (u_hook inflate ccitt D m f HD content Hobj loc (dict_of es) a b (zlen data) p1 u q1 Hd Hq1).
      + unfold ofuel. lia.
    - cbv beta iota. eapply uruns_bind; [eapply u_register_ok; eauto|apply uruns_ret].
  Qed.
  (** reading a stream whose Length is being looked for: it stops there, and the window slides to the next object *)
  Lemma read_bfr loc n g a b d data t s' tail p u : CleanStream n g a b d data t (s' ++ tail) -> Sep s' -> nosep tail ->
    (forall p1, uruns f (loc a b) p1 u (Err BruteForceRec) p1 u) -> At f p (t ++ s' ++ tail) ->
    exists q, uruns f (reg_indirect inflate ccitt decrypt D m (length_hook loc)) p u (Err BruteForceRec) q u /\
      runs f (skip_until_next m) q (Ok tt) (p + zlen t + zlen s').
  Proof.
    intros HT Hs' Ht HL HA. assert (0 <= p) by apply HA. pose proof (zlen_nonneg f).
    remember (s' ++ tail) as X0. destruct HT as [ds1 s1 ds2 s2 s3 es s0 s sp' e data ws s4 rest a b Hh Hs0 Hsp He Heol Hw Hs4 Hd Hn1 Hn2]. subst rest.
    destruct (l_indirect f (length_hook loc) ds1 s1 ds2 s2 s3 es s0 s sp' e data ws s4 (s' ++ tail) m p Hh Hs0 Hsp He Heol Hw Hs4 HA) as (k & L1 & L2 & _); [unfold ofuel; lia|].
    set (p1 := kw_at ds1 s1 ds2 s2 s3 s0 s sp' p) in *. exists p1. split.
    - unfold reg_indirect. intros st. destruct (L1 st u) as [ex E]. rewrite arun_bind, E, arun_bind.
      unfold length_hook. rewrite Hd. cbn [save bind arun a_pos a_store a_usr]. rewrite arun_bind. destruct (HL p1 ((st ++ ex) ++ [p1])) as [ex2 E2]. rewrite E2.
      exists ((ex ++ [p1]) ++ ex2). now rewrite <- !app_assoc.
    - eapply runs_eq; [apply (r_skip f m (bs "stream" ++ e ++ data ++ ws ++ bs "endstream" ++ s4) p1 s' tail); auto|].
      + apply clean_stream; auto. eapply eol_no_e; eauto.
      + repeat (rewrite <- app_assoc). exact L2.
      + unfold p1, kw_at, stream_text. zlens. change (zlen (bs "stream")) with 6. change (zlen (bs "endobj")) with 6. lia.
  Qed.

  (** ---- one task of the scan ---- *)
  Lemma bf_head iobj pos st h p s c X u n r dp : nth_error st h = Some p -> At f p (s ++ c :: X) -> Sep s -> is_digit c = true ->
    exists ex0, (forall x s', arun f iobj (mkA (p + zlen s) (st ++ ex0) u) = (Ok x, s') ->
        arun f (bf_tasks m iobj (S n) (h :: r) dp) (mkA pos st u) = arun f (bf_tasks m iobj n r dp) s') /\
      (forall s', arun f iobj (mkA (p + zlen s) (st ++ ex0) u) = (Err BruteForceRec, s') ->
        arun f (bf_tasks m iobj (S n) (h :: r) dp) (mkA pos st u) =
        arun f (skip_until_next m;;; (' h2 <- save;; bf_tasks m iobj n (h2 :: h :: r) (Some h2))) s').
  Proof.
    intros Hh HA Hs Hc. pose proof (zlen_nonneg f) as HL. assert (0 <= p) as Hp by apply HA.
    pose proof (At_app f p s _ HA) as HA2.
    assert (runs f (sp m : prog rst unit) p (Ok tt) (p + zlen s)) as HS.
    { apply (r_sp f s m p (c :: X)); auto; [|unfold fuel; lia]. apply (digits_nosep [c] X); [discriminate|repeat constructor; auto]. }
    destruct (HS st u) as [ex0 E0]. exists ex0.
    assert (forall x s', arun f iobj (mkA (p + zlen s) (st ++ ex0) u) = (x, s') ->
      arun f (body_element m iobj) (mkA (p + zlen s) (st ++ ex0) u) = (match x with Ok _ => Ok tt | Err e => Err e end, s')) as HB.
    { intros x s' E. unfold body_element. cbn [bind cur arun a_pos]. rewrite (At_head f _ _ HA2). cbn [hd_error p_digit]. rewrite Hc, arun_bind, E. now destruct x. }
    split.
    - intros x s' E. cbn [bf_tasks]. cbn [bind restore arun a_store a_usr]. rewrite Hh, arun_bind, E0, arun_bind.
      rewrite (arun_catch_ok f (body_element m iobj;;; ret true) is_bfr (fun _ => ret false) (mkA (p + zlen s) (st ++ ex0) u) true s'); [reflexivity|].
      rewrite arun_bind, (HB _ _ E). reflexivity.
    - intros s' E. cbn [bf_tasks]. cbn [bind restore arun a_store a_usr]. rewrite Hh, arun_bind, E0, arun_bind.
      assert (arun f (body_element m iobj;;; ret true) (mkA (p + zlen s) (st ++ ex0) u) = (Err BruteForceRec, s')) as E1 by (rewrite arun_bind, (HB _ _ E); reflexivity).
      rewrite (arun_catch_err f _ is_bfr (fun _ => ret false) _ _ _ E1) by discriminate. reflexivity.
  Qed.
  Lemma bf_ok iobj pos st h p s c X u n r dp x q u' : nth_error st h = Some p -> At f p (s ++ c :: X) -> Sep s -> is_digit c = true ->
    uruns f iobj (p + zlen s) u (Ok x) q u' ->
    exists ex, arun f (bf_tasks m iobj (S n) (h :: r) dp) (mkA pos st u) = arun f (bf_tasks m iobj n r dp) (mkA q (st ++ ex) u').
  Proof.
    intros Hh HA Hs Hc HU. destruct (bf_head iobj pos st h p s c X u n r dp Hh HA Hs Hc) as (ex0 & H1 & _).
    destruct (HU (st ++ ex0)) as [ex E]. exists (ex0 ++ ex). rewrite (H1 _ _ E), app_assoc. reflexivity.
  Qed.
  Lemma bf_slide iobj pos st h p s c X u n r dp q q2 : nth_error st h = Some p -> At f p (s ++ c :: X) -> Sep s -> is_digit c = true ->
    uruns f iobj (p + zlen s) u (Err BruteForceRec) q u -> runs f (skip_until_next m) q (Ok tt) q2 ->
    exists ex, arun f (bf_tasks m iobj (S n) (h :: r) dp) (mkA pos st u) =
      arun f (bf_tasks m iobj n (List.length (st ++ ex) :: h :: r) (Some (List.length (st ++ ex)))) (mkA q2 ((st ++ ex) ++ [q2]) u).
  Proof.
    intros Hh HA Hs Hc HU HS. destruct (bf_head iobj pos st h p s c X u n r dp Hh HA Hs Hc) as (ex0 & _ & H1).
    destruct (HU (st ++ ex0)) as [ex E]. destruct (HS ((st ++ ex0) ++ ex) u) as [ex2 E2].
    exists (ex0 ++ ex ++ ex2). rewrite (H1 _ E), arun_bind, E2. cbn [save bind arun a_pos a_store a_usr]. rewrite <- !app_assoc. reflexivity.
  Qed.

  Definition digit_head (t : list Z) : Prop := exists c t', t = c :: t' /\ is_digit c = true.
  Lemma len_digit n g a b d data t X : LenStream n g a b d data t X -> digit_head t.
  Proof.
    destruct 1 as [ds1 s1 ds2 s2 s3 es s0 s sp' e data ws s4 rest a b Hh]. destruct Hh as (D1 & D1' & _).
    destruct ds1 as [|c ds1]; [congruence|]. unfold digit_head. cbn [app ind_head]. eexists c, _. split; [unfold ind_head; cbn [app]; reflexivity|]. inversion D1'; auto.
  Qed.

  (** the length object of the stream at the front is the one wanted: the stream is put off, the integer
      read, then the stream *)
  Lemma bf_pair k pos st h p s n g a b d data t s2 t2 X2 u j : nth_error st h = Some p -> At f p (s ++ t ++ s2 ++ t2 ++ X2) ->
    Sep s -> CleanStream n g a b d data t (s2 ++ t2 ++ X2) -> Sep s2 -> IndObj a b (OInt (zlen data)) t2 X2 ->
    content a b = Some (OInt (zlen data)) -> content n g = Some (with_length d data) -> unlisted a b ->
    Inv u -> known u a b = None -> on_stack (r_stack u) a b = true ->
    exists ex h2 u', arun f (bf_tasks m (iobj_of (S k)) (S (S (S (S j)))) [h] None) (mkA pos st u) = (Ok (Some h2), mkA (p + zlen s + zlen t) (st ++ ex) u') /\
      nth_error (st ++ ex) h2 = Some (p + zlen s + zlen t + zlen s2) /\ read_state u n g (with_length d data) u' /\ known u' a b = Some (OInt (zlen data)).
  Proof.
    intros Hh HA Hs HT Hs2 HI2 Hab Hng Hun HI HK Hst. pose proof (clean_len _ _ _ _ _ _ _ _ HT) as HLen.
    destruct (len_digit _ _ _ _ _ _ _ _ HLen) as (c & t' & Et & Hc). destruct (ind_digit _ _ _ _ _ HI2) as (c2 & t2' & Et2 & Hc2).
    pose proof (At_app f p s _ HA) as HA1. pose proof (At_app f _ t _ HA1) as HA2. pose proof (At_app f _ s2 _ HA2) as HA3.
    assert (nosep (t2 ++ X2)) as Hns. { rewrite Et2. apply (digits_nosep [c2] (t2' ++ X2)); [discriminate|repeat constructor; auto]. }
    destruct (read_bfr (locate (S k)) n g a b d data t s2 (t2 ++ X2) (p + zlen s) u HT Hs2 Hns) as (q & HB & HSk); auto.
    { intros p1. apply locate_bfr; auto. exact (proj1 HI). }
    assert (At f p (s ++ c :: t' ++ s2 ++ t2 ++ X2)) as HAc by (rewrite Et in HA; exact HA).
    destruct (bf_slide (iobj_of (S k)) pos st h p s c _ u (S (S (S j))) [] None q _ Hh HAc Hs Hc HB HSk) as [ex1 E1].
    set (q2 := p + zlen s + zlen t + zlen s2) in *. set (st1 := st ++ ex1) in *. set (h2 := List.length st1) in *.
    assert (nth_error (st1 ++ [q2]) h2 = Some q2) as Hh2 by (unfold h2; rewrite nth_error_app2 by lia; now rewrite Nat.sub_diag).
    assert (At f q2 ([] ++ c2 :: t2' ++ X2)) as HA3c by (cbn [app]; rewrite Et2 in HA3; exact HA3).
    assert (uruns f (iobj_of (S k)) (q2 + zlen (@nil Z)) u (Ok (a, b, OInt (zlen data))) (q2 + zlen (@nil Z) + zlen t2) (add_obj u a b (OInt (zlen data)))) as HR2.
    { eapply r_iobj; eauto. change (zlen (@nil Z)) with 0. rewrite Z.add_0_r. exact HA3. }
    destruct (bf_ok (iobj_of (S k)) q2 (st1 ++ [q2]) h2 q2 [] c2 (t2' ++ X2) u (S (S j)) [h] (Some h2) _ _ _ Hh2 HA3c ltac:(constructor) Hc2 HR2) as [ex2 E2].
    set (u1 := add_obj u a b (OInt (zlen data))) in *.
    destruct (add_obj_ok inflate ccitt D m f HD content Hobj ls u a b _ HI Hab) as (A1 & A2 & A3). fold u1 in A1, A2, A3.
    destruct (read_ready (locate (S k)) n g a b d data t (s2 ++ t2 ++ X2) (p + zlen s) u1 HLen Hab Hng) as (u' & HR & RS & RK); auto.
    { intros p1. exists p1. apply locate_known; auto. }
    assert (nth_error ((st1 ++ [q2]) ++ ex2) h = Some p) as Hh3. { apply ext_nth, ext_nth. unfold st1. apply ext_nth. exact Hh. }
    destruct (bf_ok (iobj_of (S k)) (q2 + zlen (@nil Z) + zlen t2) _ h p s c _ u1 (S j) [] (Some h2) _ _ _ Hh3 HAc Hs Hc HR) as [ex3 E3].
    exists (ex1 ++ [q2] ++ ex2 ++ ex3), h2, u'. split; [|split; [|split; [|exact RK]]].
    - rewrite E1, E2, E3. cbn [bf_tasks ret arun]. unfold st1. rewrite <- !app_assoc. reflexivity.
    - replace (st ++ ex1 ++ [q2] ++ ex2 ++ ex3) with (((st1 ++ [q2]) ++ ex2) ++ ex3) by (unfold st1; rewrite <- !app_assoc; reflexivity).
      apply ext_nth, ext_nth. exact Hh2.
    - destruct RS as (R1 & R2 & R3). split; [exact R1|]. split; [eapply frame_trans; eauto|exact R3].
  Qed.

  (** ---- a round of the scan ---- *)
  Definition after (d : option nat) (q : Z) (st : list Z) : list Z := match d with Some _ => st | None => st ++ [q] end.
  Definition after_h (d : option nat) (st : list Z) : nat := match d with Some h => h | None => List.length st end.
  Lemma bf_round iobj num gen n pos st u h d q st1 ue : known u num gen = None -> on_stack (r_stack u) num gen = false -> r_bf u = Some h ->
    arun f (bf_tasks m iobj n [h] None) (mkA pos st (mkR (r_objs u) (r_xrefs u) (r_bf u) ((num, gen) :: r_stack u))) = (Ok d, mkA q st1 ue) ->
    arun f (brute_force inflate ccitt D m iobj (S n) num gen) (mkA pos st u) =
    arun f (brute_force inflate ccitt D m iobj n num gen) (mkA q (after d q st1) (mkR (r_objs ue) (r_xrefs ue) (Some (after_h d st1)) (tl (r_stack ue)))).
  Proof.
    intros HK Hst Hbf E. cbn [brute_force]. cbn [bind getu arun a_usr]. unfold is_registered at 1. fold (known u num gen). rewrite HK, Hst.
    set (u1 := mkR (r_objs u) (r_xrefs u) (r_bf u) ((num, gen) :: r_stack u)) in *.
    cbn [push bind getu arun a_usr]. cbn [setu bind arun a_usr a_pos a_store]. fold u1.
    match goal with |- context [arun f (bind ?A ?B) ?S] => assert (arun f A S = (Ok true, mkA q (after d q st1) (mkR (r_objs ue) (r_xrefs ue) (Some (after_h d st1)) (r_stack ue)))) as E2 end.
    { apply arun_catch_ok. apply arun_catch_ok. rewrite arun_bind. unfold next_brute_force at 1. cbn [bind getu arun a_usr].
      change (r_bf u1) with (r_bf u). rewrite Hbf. rewrite arun_bind, E. destruct d; reflexivity. }
    rewrite arun_bind, E2. reflexivity.
  Qed.

  (** what lookups leave behind: nothing wrong, nothing forgotten *)
  Definition kept (u u' : rst) : Prop := Inv u' /\ grows u u' /\ r_stack u' = r_stack u.

  (** looking for the length object of the stream the scan stands at *)
  Lemma bf_nested k pos st h p s n g a b d data t s2 t2 X2 u j : r_bf u = Some h -> nth_error st h = Some p -> At f p (s ++ t ++ s2 ++ t2 ++ X2) ->
    Sep s -> CleanStream n g a b d data t (s2 ++ t2 ++ X2) -> Sep s2 -> IndObj a b (OInt (zlen data)) t2 X2 ->
    content a b = Some (OInt (zlen data)) -> content n g = Some (with_length d data) -> unlisted a b ->
    Inv u -> known u a b = None -> on_stack (r_stack u) a b = false -> (5 <= j)%nat ->
    exists q ex u', arun f (brute_force inflate ccitt D m (iobj_of (S k)) j a b) (mkA pos st u) = (Ok tt, mkA q (st ++ ex) u') /\
      kept u u' /\ known u' a b = Some (OInt (zlen data)).
  Proof.
    intros Hbf Hh HA Hs HT Hs2 HI2 Hab Hng Hun HI HK Hst Hj. do 5 (destruct j as [|j]; [lia|]).
    set (u1 := mkR (r_objs u) (r_xrefs u) (r_bf u) ((a, b) :: r_stack u)).
    assert (Inv u1) as HI1 by exact HI. assert (known u1 a b = None) as HK1 by exact HK.
    assert (on_stack (r_stack u1) a b = true) as Hon. { cbn [u1 r_stack on_stack existsb fst snd]. now rewrite !Z.eqb_refl. }
    destruct (bf_pair k pos st h p s n g a b d data t s2 t2 X2 u1 j Hh HA Hs HT Hs2 HI2 Hab Hng Hun HI1 HK1 Hon) as (ex & h2 & ue & E & Hh2 & (R1 & (F1 & F2 & F3 & F4) & R3) & RK).
    rewrite (bf_round (iobj_of (S k)) a b _ pos st u h _ _ _ _ HK Hst Hbf E). cbn [after after_h].
    set (u3 := mkR (r_objs ue) (r_xrefs ue) (Some h2) (tl (r_stack ue))).
    assert (known u3 a b = Some (OInt (zlen data))) as HK3 by exact RK.
    do 3 eexists. split; [apply (bf_known inflate ccitt decrypt D m f (locate (S k)) _ a b _ _ u3 _ HK3)|]. split; [|exact HK3].
    split; [exact R1|]. split; [exact F4|]. cbn [u3 r_stack]. rewrite F3. reflexivity.
  Qed.
  Lemma locate_nested k pos st h p s n g a b d data t s2 t2 X2 u : r_bf u = Some h -> nth_error st h = Some p -> At f p (s ++ t ++ s2 ++ t2 ++ X2) ->
    Sep s -> CleanStream n g a b d data t (s2 ++ t2 ++ X2) -> Sep s2 -> IndObj a b (OInt (zlen data)) t2 X2 ->
    content a b = Some (OInt (zlen data)) -> content n g = Some (with_length d data) -> unlisted a b ->
    Inv u -> known u a b = None -> on_stack (r_stack u) a b = false ->
    exists q ex u', arun f (locate (S (S k)) a b) (mkA pos st u) = (Ok (OInt (zlen data)), mkA q (st ++ ex) u') /\
      kept u u' /\ known u' a b = Some (OInt (zlen data)).
  Proof.
    intros Hbf Hh HA Hs HT Hs2 HI2 Hab Hng Hun HI HK Hst. pose proof (zlen_nonneg f).
    assert (5 <= m)%nat as H5 by lia.
    destruct (bf_nested k pos st h p s n g a b d data t s2 t2 X2 u m Hbf Hh HA Hs HT Hs2 HI2 Hab Hng Hun HI HK Hst H5) as (q & ex & u' & E & HKp & HKn).
    exists q, ex, u'. split; [|split; [exact HKp|exact HKn]].
    change (locate (S (S k)) a b) with (locate_object inflate ccitt decrypt D m (S (S k)) a b). cbn [locate_object].
    cbn [bind getu arun a_usr]. fold (known u a b). rewrite HK. cbn [truthy].
    rewrite (proj1 HI), pass_none by exact Hun. cbn [reg_get bind getu ret arun a_usr]. fold (known u a b). rewrite HK. cbn [truthy]. rewrite arun_bind.
    match type of E with ?A = _ => match goal with |- context [arun f (brute_force inflate ccitt D m ?X m a b) ?S] => change (arun f (brute_force inflate ccitt D m X m a b) S) with A end end.
    rewrite E. cbn. fold (known u' a b). rewrite HKn. reflexivity.
  Qed.

  Lemma kept_refl u : Inv u -> kept u u.
  Proof. intros H. split; [exact H|]. split; [apply grows_refl|reflexivity]. Qed.
  Lemma kept_trans a b c : kept a b -> kept b c -> kept a c.
  Proof. intros (A1 & A2 & A3) (B1 & B2 & B3). split; [exact B1|]. split; [eapply grows_trans; eauto|congruence]. Qed.

  (** reading a stream, whatever looking up its Length involves *)
  Lemma read_any (Q : list Z -> rst -> Prop) loc n g a b d data t X p st u : (forall st ex u, Q st u -> Q (st ++ ex) u) ->
    LenStream n g a b d data t X -> content n g = Some (with_length d data) -> At f p (t ++ X) ->
    (forall p1 ex, exists q ex2 u1, arun f (loc a b) (mkA p1 (st ++ ex) u) = (Ok (OInt (zlen data)), mkA q ((st ++ ex) ++ ex2) u1) /\ kept u u1 /\ Q ((st ++ ex) ++ ex2) u1) ->
    exists ex u1, arun f (reg_indirect inflate ccitt decrypt D m (length_hook loc)) (mkA p st u) =
        (Ok (n, g, with_length d data), mkA (p + zlen t) (st ++ ex) (add_obj u1 n g (with_length d data))) /\ kept u u1 /\ Q (st ++ ex) u1.
  Proof.
    intros HQ HT Hc HA HL. assert (0 <= p) by apply HA. pose proof (zlen_nonneg f).
    destruct HT as [ds1 s1 ds2 s2 s3 es s0 s sp' e data ws s4 rest a b Hh Hs0 Hsp He Heol Hw Hs4 Hd].
    destruct (l_indirect f (length_hook loc) ds1 s1 ds2 s2 s3 es s0 s sp' e data ws s4 rest m p Hh Hs0 Hsp He Heol Hw Hs4 HA) as (k & L1 & _ & L3); [unfold ofuel; lia|].
    set (p1 := kw_at ds1 s1 ds2 s2 s3 s0 s sp' p) in *. destruct (L1 st u) as [ex E].
    destruct (HL p1 (ex ++ [p1])) as (q & ex2 & u1 & E2 & HK & HQ1).
    unfold with_length in *. set (d' := dset (dict_of es) (bs "Length") (OInt (zlen data))) in *.
    destruct (L3 d' (dget_dset _ _ _) (((st ++ ex) ++ [p1]) ++ ex2) u1) as [ex3 E3].
    exists (ex ++ [p1] ++ ex2 ++ ex3), u1. split; [|split; [exact HK|]].
    - unfold reg_indirect. rewrite arun_bind, E, arun_bind.
      assert (arun f (length_hook loc (dict_of es)) (mkA p1 (st ++ ex) u) = (Ok d', mkA p1 (((st ++ ex) ++ [p1]) ++ ex2) u1)) as E1.
      { unfold length_hook. rewrite Hd. cbn [save bind arun a_pos a_store a_usr]. rewrite arun_bind. rewrite <- (app_assoc st ex [p1]), E2.
        cbn [restore bind arun a_store a_usr]. rewrite (ext_nth _ ex2 (List.length (st ++ ex)) p1); [unfold d'; rewrite <- !app_assoc; reflexivity|].
        rewrite app_assoc, nth_error_app2 by lia. now rewrite Nat.sub_diag. }
      rewrite E1, E3. cbv beta iota. rewrite arun_bind.
      destruct (u_register_ok inflate ccitt D f HD content Hobj u1 _ _ _ (p + zlen (ind_head ds1 s1 ds2 s2 s3 ++ stream_text s0 s sp' e data ws ++ s4 ++ bs "endobj")) Hc ((((st ++ ex) ++ [p1]) ++ ex2) ++ ex3)) as [ex4 E4].
      unfold do_register in *. cbn [bind getu arun a_usr] in *.
      rewrite (register_no_objstm inflate ccitt (fun _ _ w => Ok w) D) in * by (auto; exact (Hobj _ _ _ Hc)). cbn [setu bind arun ret a_usr a_pos a_store] in *.
      unfold add_obj. rewrite <- !app_assoc. reflexivity.
    - replace (st ++ ex ++ [p1] ++ ex2 ++ ex3) with (((st ++ ex ++ [p1]) ++ ex2) ++ ex3) by (rewrite <- !app_assoc; reflexivity). apply HQ, HQ1.
  Qed.
  Lemma kept_add u n g v : Inv u -> content n g = Some v -> kept u (add_obj u n g v) /\ known (add_obj u n g v) n g = Some v.
  Proof.
    intros HI Hc. destruct (add_obj_ok inflate ccitt D m f HD content Hobj ls u n g v HI Hc) as (A1 & (_ & _ & A2 & A3) & A4).
    split; [split; [exact A1|split; [exact A3|exact A2]]|exact A4].
  Qed.
  Lemma frame_kept u n g v u' : read_state u n g v u' -> kept u u'.
  Proof. intros (R1 & (_ & _ & F3 & F4) & _). split; [exact R1|split; [exact F4|exact F3]]. Qed.

  (** ---- the scan ---- *)
  Variable rest : list Z.
  Hypothesis Hrest : forall c, hd_error rest = Some c -> is_digit c = false /\ c <> 115 /\ c <> 116.
  Notation LB := (LenBody content ls).
  Definition sc (l : list (Z * Z * obj)) (st : list Z) (u : rst) : Prop :=
    exists h p, r_bf u = Some h /\ nth_error st h = Some p /\ exists ts, LB l ts rest /\ At f p (ts ++ rest).
  Lemma sc_ext l st ex u : sc l st u -> sc l (st ++ ex) u.
  Proof. intros (h & p & H1 & H2 & H3). exists h, p. split; [exact H1|]. split; [now apply ext_nth|exact H3]. Qed.

  (** one round at the first object of the body *)
  Lemma round k num gen n0 g0 v0 l st u pos j : Inv u -> sc ((n0, g0, v0) :: l) st u -> r_stack u = [] -> known u num gen = None ->
    (forall n g v, In (n, g, v) ((n0, g0, v0) :: l) -> content n g = Some v) -> (6 <= j)%nat ->
    exists pos' st' u', arun f (brute_force inflate ccitt D m (iobj_of (S (S k))) (S j) num gen) (mkA pos st u) =
        arun f (brute_force inflate ccitt D m (iobj_of (S (S k))) j num gen) (mkA pos' st' u') /\
      kept u u' /\ known u' n0 g0 = Some v0 /\ sc l st' u'.
  Proof.
    intros HI (h & p & Hbf & Hh & ts & HB & HA) Hst HK Hin Hj.
    assert (content n0 g0 = Some v0) as Hc0 by (apply Hin; now left).
    assert (on_stack (r_stack u) num gen = false) as Hon by (rewrite Hst; reflexivity).
    set (u1 := mkR (r_objs u) (r_xrefs u) (r_bf u) ((num, gen) :: r_stack u)).
    assert (Inv u1) as HI1 by exact HI.
    (* a round that reads the object at the front in one task *)
    assert (forall s t ts1, ts = s ++ t ++ ts1 -> LB l ts1 rest -> digit_head t -> Sep s ->
      (forall ex0, exists ex u', arun f (iobj_of (S (S k))) (mkA (p + zlen s) (st ++ ex0) u1) = (Ok (n0, g0, v0), mkA (p + zlen s + zlen t) ((st ++ ex0) ++ ex) u') /\ kept u1 u' /\ known u' n0 g0 = Some v0) ->
      exists pos' st' u', arun f (brute_force inflate ccitt D m (iobj_of (S (S k))) (S j) num gen) (mkA pos st u) =
        arun f (brute_force inflate ccitt D m (iobj_of (S (S k))) j num gen) (mkA pos' st' u') /\
      kept u u' /\ known u' n0 g0 = Some v0 /\ sc l st' u') as Plain.
    { intros s t ts1 -> HB1 (c & t' & Et & Hc) Hs HR. repeat rewrite <- app_assoc in HA.
      assert (At f p (s ++ c :: t' ++ ts1 ++ rest)) as HAc by (rewrite Et in HA; exact HA).
      destruct j as [|[|j]]; try lia.
      destruct (bf_head (iobj_of (S (S k))) pos st h p s c _ u1 (S j) [] None Hh HAc Hs Hc) as (ex0 & H1 & _).
      destruct (HR ex0) as (ex & ue & E & (K1 & K2 & K3) & HKe). specialize (H1 _ _ E).
      match type of H1 with ?A = _ => assert (A = (Ok None, mkA (p + zlen s + zlen t) ((st ++ ex0) ++ ex) ue)) as H2 by exact H1 end.
      rewrite (bf_round (iobj_of (S (S k))) num gen _ pos st u h None _ _ _ HK Hon Hbf H2). cbn [after after_h].
      do 3 eexists. split; [reflexivity|]. split; [|split; [exact HKe|]].
      - split; [exact K1|]. split; [exact K2|]. cbn [r_stack]. rewrite K3. reflexivity.
      - do 2 eexists. split; [reflexivity|]. split; [rewrite nth_error_app2 by lia; now rewrite Nat.sub_diag|].
        exists ts1. split; [exact HB1|]. apply At_app. apply (At_app f p s). exact HA. }
    inversion HB as [|s n1 g1 v1 t l1 ts1 rest1 Hs HT HB1|s n1 g1 a b o d data t l1 ts1 rest1 Hs HT Hab HN HB1|s n1 g1 a b d data t l1 ts1 rest1 Hs HT Hun HB1]; subst.
    - (* direct *)
      eapply (Plain s t ts1); auto.
      { destruct (ind_digit _ _ _ _ _ HT) as (c & t' & -> & Hc). exists c, t'. auto. }
      intros ex0. repeat rewrite <- app_assoc in HA.
      assert (uruns f (iobj_of (S (S k))) (p + zlen s) u1 (Ok (n0, g0, v0)) (p + zlen s + zlen t) (add_obj u1 n0 g0 v0)) as HU.
      { eapply r_iobj; eauto. apply (At_app f p s). exact HA. }
      destruct (HU (st ++ ex0)) as [ex E]. exists ex. eexists. split; [exact E|]. now apply kept_add.
    - (* listed length *)
      eapply (Plain s t ts1); auto; [now apply (len_digit _ _ _ _ _ _ _ _ HT)|]. intros ex0. repeat rewrite <- app_assoc in HA.
      destruct (read_ready (locate (S (S k))) n0 g0 a b d data t (ts1 ++ rest) (p + zlen s) u1 HT Hab Hc0) as (u' & HU & HR & _); auto.
      { intros p1. eapply locate_listed_int; eauto. }
      { apply (At_app f p s). exact HA. }
      destruct (HU (st ++ ex0)) as [ex E]. exists ex, u'. split; [exact E|]. split; [eapply frame_kept; exact HR|exact (proj2 (proj2 HR))].
    - (* the length object comes next *)
      assert (content a b = Some (OInt (zlen data))) as Hab by (apply Hin; right; now left).
      pose proof (clean_len _ _ _ _ _ _ _ _ HT) as HLen.
      inversion HB1 as [|s2 n2 g2 v2 t2 l2 ts2 rest2 Hs2 HT2 HB2| |]; subst.
      destruct (known u a b) as [w|] eqn:Ew.
      + assert (w = OInt (zlen data)) as -> by (rewrite (proj2 HI a b w Ew); unfold denoted; now rewrite Hab).
        eapply (Plain s t); [reflexivity|exact HB1|now apply (len_digit _ _ _ _ _ _ _ _ HLen)|exact Hs|]. intros ex0. repeat rewrite <- app_assoc in HA.
        destruct (read_ready (locate (S (S k))) n0 g0 a b d data t _ (p + zlen s) u1 HLen Hab Hc0) as (u' & HU & HR & _); auto.
        { intros p1. exists p1. apply locate_known; auto. }
        { repeat rewrite <- app_assoc. apply (At_app f p s). exact HA. }
        destruct (HU (st ++ ex0)) as [ex E]. exists ex, u'. split; [exact E|]. split; [eapply frame_kept; exact HR|exact (proj2 (proj2 HR))].
      + repeat rewrite <- app_assoc in HA. repeat rewrite <- app_assoc in HT. repeat rewrite <- app_assoc in HLen.
        destruct (on_stack [(num, gen)] a b) eqn:Eon.
        * (* it is the object looked for *)
          assert (on_stack (r_stack u1) a b = true) as Hon1 by (cbn [u1 r_stack]; rewrite Hst; exact Eon).
          do 4 (destruct j as [|j]; [lia|]).
          destruct (bf_pair (S k) pos st h p s n0 g0 a b d data t s2 t2 (ts2 ++ rest) u1 j Hh HA Hs HT Hs2 HT2 Hab Hc0 Hun HI1 Ew Hon1) as (ex & h2 & ue & E & Hh2 & HR & HKab).
          rewrite (bf_round (iobj_of (S (S k))) num gen _ pos st u h _ _ _ _ HK Hon Hbf E). cbn [after after_h].
          do 3 eexists. split; [reflexivity|]. destruct (frame_kept _ _ _ _ _ HR) as (K1 & K2 & K3).
          split; [split; [exact K1|split; [exact K2|cbn [r_stack]; rewrite K3; reflexivity]]|].
          split; [exact (proj2 (proj2 HR))|]. do 2 eexists. split; [reflexivity|]. split; [exact Hh2|].
          exists ([] ++ t2 ++ ts2). split; [apply LB_direct; auto; constructor|]. cbn [app]. rewrite <- app_assoc.
          apply At_app. apply At_app. apply (At_app f p s). exact HA.
        * (* looked for on the way *)
          eapply (Plain s t); [reflexivity|exact HB1|now apply (len_digit _ _ _ _ _ _ _ _ HLen)|exact Hs|]. intros ex0.
          assert (forall st0, nth_error st0 h = Some p -> forall p1, exists q ex2 u2, arun f (locate (S (S k)) a b) (mkA p1 st0 u1) = (Ok (OInt (zlen data)), mkA q (st0 ++ ex2) u2) /\ kept u1 u2 /\ True) as HL.
          { intros st0 H0 p1. assert (on_stack (r_stack u1) a b = false) as Hon1 by (cbn [u1 r_stack]; rewrite Hst; exact Eon).
            destruct (locate_nested k p1 st0 h p s n0 g0 a b d data t s2 t2 (ts2 ++ rest) u1 Hbf H0 HA Hs HT Hs2 HT2 Hab Hc0 Hun HI1 Ew Hon1) as (q & ex2 & u2 & E & HKp & _).
            exists q, ex2, u2. auto. }
          destruct (read_any (fun _ _ => True) (locate (S (S k))) n0 g0 a b d data t (s2 ++ t2 ++ ts2 ++ rest) (p + zlen s) (st ++ ex0) u1 ltac:(auto) HLen Hc0) as (ex & u2 & E & HKp & _).
          { apply (At_app f p s). exact HA. }
          { intros p1 ex. apply HL. apply ext_nth, ext_nth. exact Hh. }
          destruct (kept_add u2 n0 g0 _ (proj1 HKp) Hc0) as [KA KN].
          exists ex. eexists. split; [exact E|]. split; [eapply kept_trans; eauto|exact KN].
  Qed.

  Definition scanned (l l' : list (Z * Z * obj)) (u' : rst) : Prop :=
    exists l0, l = l0 ++ l' /\ Forall (fun e => known u' (fst (fst e)) (snd (fst e)) <> None) l0.
  Lemma scanned_grows l l' u u' : scanned l l' u -> grows u u' -> scanned l l' u'.
  Proof.
    intros (l0 & E & HF) G. exists l0. split; [exact E|]. eapply Forall_impl; [|exact HF]. intros e He.
    destruct (known u (fst (fst e)) (snd (fst e))) as [w|] eqn:Ew; [|congruence]. unfold known. rewrite (G _ _ _ Ew). discriminate.
  Qed.
  Lemma scanned_trans a b c u : scanned a b u -> scanned b c u -> scanned a c u.
  Proof. intros (x & -> & Hx) (y & -> & Hy). exists (x ++ y). split; [now rewrite app_assoc|]. apply Forall_app. auto. Qed.
  Lemma scanned_refl l u : scanned l l u.
  Proof. exists []. split; [reflexivity|constructor]. Qed.

  Lemma lscan k num gen : forall l, (forall n g v, In (n, g, v) l -> content n g = Some v) ->
    forall n pos st u, Inv u -> sc l st u -> r_stack u = [] -> known u num gen = None ->
    (forall v, content num gen = Some v -> In (num, gen, v) l) -> (List.length l + 8 <= n)%nat ->
    exists pos' st' u' l', arun f (brute_force inflate ccitt D m (iobj_of (S (S k))) n num gen) (mkA pos st u) = (Ok tt, mkA pos' st' u') /\
      known u' num gen = Some (want num gen) /\ kept u u' /\ sc l' st' u' /\ scanned l l' u'.
  Proof.
    induction l as [|[[n0 g0] v0] l IH]; intros Hin n pos st u HI HS Hst Hk Hmem Hn; cbn [List.length] in Hn.
    - destruct n as [|[|n]]; try lia.
      assert (content num gen = None) as HcN. { destruct (content num gen) as [v|] eqn:E; auto. exfalso. exact (Hmem v eq_refl). }
      destruct HS as (h & p & Hbf & Hh & ts & HB & HA).
      inversion HB as [s rest' Hs Hr| | |]; subst.
      cbn [brute_force]. cbn [bind getu arun a_usr]. unfold is_registered. fold (known u num gen). rewrite Hk, Hst. cbn [on_stack existsb].
      set (u1 := mkR (r_objs u) (r_xrefs u) (r_bf u) [(num, gen)]).
      cbn [push bind getu arun a_usr]. cbn [setu bind arun a_usr a_pos a_store]. rewrite Hst. fold u1.
      destruct (bf_miss inflate ccitt decrypt D m f (locate (S (S k))) HD Hm pos st h p ts rest u1 (S n)) as [ex E]; auto; [lia|].
      set (u2 := with_objs u1 (rset (r_objs u) num gen ONull)).
      match goal with |- context [arun f (bind ?A ?B) ?S] => assert (arun f A S = (Ok false, mkA (p + zlen ts) (st ++ ex) u2)) as E2 end.
      { apply arun_catch_ok.
        assert (arun f (next_brute_force m (iobj_of (S (S k))) (S n);;; ret true) (mkA pos st u1) = (Err ParserExc, mkA (p + zlen ts) (st ++ ex) u1)) as E3.
        { rewrite arun_bind. unfold next_brute_force at 1. cbn [bind getu arun a_usr]. change (r_bf u1) with (r_bf u). rewrite Hbf.
          rewrite arun_bind, E. reflexivity. }
        rewrite (arun_catch_err f _ _ _ _ _ _ E3) by discriminate. cbn [is_parser_exc exn_eqb negb andb].
        unfold do_register. cbn [bind getu arun a_usr].
        rewrite (register_no_objstm inflate ccitt (fun _ _ w => Ok w) D); [|exact HD|intros d raw; discriminate].
        change (r_objs u1) with (r_objs u). unfold is_registered. fold (known u num gen). rewrite Hk. reflexivity. }
      rewrite arun_bind, E2. do 4 eexists. split; [reflexivity|].
      assert (forall a b, rget (rset (r_objs u) num gen ONull) a b = if (a =? num) && (b =? gen) then Some ONull else known u a b) as HR.
      { intros a b. rewrite rget_rset. reflexivity. }
      unfold known. cbn. rewrite HR, !Z.eqb_refl. cbn [andb].
      split; [unfold denoted; now rewrite HcN|]. split; [split; [split|split]|split].
      + exact (proj1 HI).
      + intros a b w. unfold known. cbn. rewrite HR. destruct ((a =? num) && (b =? gen)) eqn:Eab.
        * assert (a = num /\ b = gen) as [-> ->] by (apply andb_true_iff in Eab; lia). intros X. inversion X. unfold denoted. now rewrite HcN.
        * apply (proj2 HI).
      + intros a b w Hw. cbn. rewrite HR. destruct ((a =? num) && (b =? gen)) eqn:Eab; [|exact Hw].
        assert (a = num /\ b = gen) as [-> ->] by (apply andb_true_iff in Eab; lia). unfold known in Hk. congruence.
      + cbn [r_stack]. now rewrite Hst.
      + exists h, p. split; [exact Hbf|]. split; [now apply ext_nth|]. exists ts. split; [exact HB|exact HA].
      + apply scanned_refl.
    - destruct n as [|n]; try lia.
      destruct (round k num gen n0 g0 v0 l st u pos n HI HS Hst Hk Hin ltac:(lia)) as (p1 & st1 & u1 & E1 & HKp & HK0 & HS1).
      pose proof HKp as (I1 & G1 & St1). rewrite Hst in St1.
      assert (scanned ((n0, g0, v0) :: l) l u1) as HSc.
      { exists [(n0, g0, v0)]. split; [reflexivity|]. constructor; [|constructor]. cbn [fst snd]. congruence. }
      rewrite E1. destruct (known u1 num gen) as [w|] eqn:HKn.
      + destruct n as [|n]; [lia|]. do 4 eexists. split; [apply (bf_known inflate ccitt decrypt D m f (locate (S (S k))) n num gen _ _ u1 w HKn)|].
        split; [rewrite HKn; f_equal; now apply (proj2 I1)|]. split; [exact HKp|]. split; [exact HS1|exact HSc].
      + assert (forall v, content num gen = Some v -> In (num, gen, v) l) as Hmem'.
        { intros v Hv. destruct (Hmem v Hv) as [X|X]; auto. exfalso. inversion X; subst. congruence. }
        destruct (IH (fun a b w X => Hin a b w (or_intror X)) n p1 st1 u1 I1 HS1 St1 HKn Hmem' ltac:(lia)) as (pos' & st' & u' & l' & E' & K' & P' & S' & C').
        exists pos', st', u', l'. split; [exact E'|]. split; [exact K'|]. split; [eapply kept_trans; eauto|]. split; [exact S'|].
        eapply scanned_trans; [eapply scanned_grows; [exact HSc|exact (proj1 (proj2 P'))]|exact C'].
  Qed.

  (** ---- lookups of any ids ---- *)
  Variable lall : list (Z * Z * obj).
  Hypothesis Hall : forall n g v, In (n, g, v) lall <-> content n g = Some v.
  Hypothesis Hln : (List.length lall + 8 <= m)%nat.
  Definition LSt (st : list Z) (u : rst) : Prop := Inv u /\ r_stack u = [] /\ exists l, scanned lall l u /\ sc l st u.
  Lemma LSt_ext st ex u : LSt st u -> LSt (st ++ ex) u.
  Proof. intros (A & B & l & C & E). split; [exact A|]. split; [exact B|]. exists l. split; [exact C|now apply sc_ext]. Qed.
  Lemma LSt_kept st u u' : LSt st u -> kept u u' -> r_bf u' = r_bf u -> LSt st u'.
  Proof.
    intros (A & B & l & C & h & p & E1 & E2) (K1 & K2 & K3) Hbf. split; [exact K1|]. split; [congruence|]. exists l. split; [eapply scanned_grows; eauto|].
    exists h, p. split; [congruence|exact E2].
  Qed.

  Lemma locate_un k n g pos st u : unlisted n g -> LSt st u ->
    exists pos' st' u', arun f (locate (S (S (S k))) n g) (mkA pos st u) = (Ok (want n g), mkA pos' st' u') /\ kept u u' /\ LSt st' u'.
  Proof.
    intros Hun HS. pose proof HS as (HI & Hst & l & HSc & HSC). pose proof (zlen_nonneg f).
    change (locate (S (S (S k))) n g) with (locate_object inflate ccitt decrypt D m (S (S (S k))) n g).
    remember (S (S k)) as k2. cbn [locate_object].
    cbn [bind getu arun a_usr]. fold (known u n g).
    destruct (known u n g) as [w|] eqn:HK.
    - assert (w = want n g) as Hw by now apply (proj2 HI). rewrite <- Hw. destruct (truthy w) eqn:Et.
      + exists pos, st, u. split; [reflexivity|]. split; [now apply kept_refl|exact HS].
      + rewrite (proj1 HI), pass_none by exact Hun. cbn [reg_get bind getu ret arun a_usr]. fold (known u n g). rewrite HK, Et, arun_bind.
        assert (forall j iobj, (0 < j)%nat -> arun f (brute_force inflate ccitt D m iobj j n g) (mkA pos st u) = (Ok tt, mkA pos st u)) as HJ.
        { intros [|j] iobj Hj; [lia|]. cbn [brute_force]. cbn [bind getu arun a_usr]. unfold is_registered. fold (known u n g). rewrite HK. reflexivity. }
        rewrite HJ by lia. exists pos, st, u. split; [cbn; fold (known u n g); rewrite HK; reflexivity|]. split; [now apply kept_refl|exact HS].
    - rewrite (proj1 HI), pass_none by exact Hun. cbn [truthy reg_get bind getu ret arun a_usr]. fold (known u n g). rewrite HK. cbn [truthy]. rewrite arun_bind.
      pose proof HSc as (l0 & El & HF).
      assert (forall a b w, In (a, b, w) l -> content a b = Some w) as Hin by (intros a b w X; apply Hall; rewrite El; apply in_or_app; now right).
      assert (forall v, content n g = Some v -> In (n, g, v) l) as Hmem.
      { intros v Hv. apply Hall in Hv. rewrite El in Hv. apply in_app_or in Hv. destruct Hv as [X|X]; auto. exfalso.
        rewrite Forall_forall in HF. apply (HF _ X). exact HK. }
      destruct (lscan k n g l Hin m pos st u HI HSC Hst HK Hmem) as (pos' & st' & u' & l' & E' & K' & P' & S' & C').
      { rewrite El, app_length in Hln. lia. }
      subst k2.
      match type of E' with ?A = _ => match goal with |- context [arun f (brute_force inflate ccitt D m ?X m n g) ?S] => change (arun f (brute_force inflate ccitt D m X m n g) S) with A end end.
      rewrite E'. exists pos', st', u'. split; [cbn; fold (known u' n g); rewrite K'; reflexivity|]. split; [exact P'|].
      split; [exact (proj1 P')|]. split; [rewrite (proj2 (proj2 P')); exact Hst|]. exists l'. split; [|exact S'].
      eapply scanned_trans; [eapply scanned_grows; [exact HSc|exact (proj1 (proj2 P'))]|exact C'].
  Qed.

  Lemma store_grows {A} (p : prog rst A) : forall s, exists ex, a_store (snd (arun f p s)) = a_store s ++ ex.
  Proof.
    induction p as [a|e|k IH|k IH|k IH|o k IH|k IH|x k IH|k IH|k IH|u k IH]; intros s; cbn [arun].
    - exists []. now rewrite app_nil_r.
    - exists []. now rewrite app_nil_r.
    - match goal with |- context [arun f (k ?c) ?s'] => destruct (IH c s') as [ex E] end. exists ex. exact E.
    - match goal with |- context [arun f (k ?c) ?s'] => destruct (IH c s') as [ex E] end. exists ex. exact E.
    - match goal with |- context [arun f (k ?c) ?s'] => destruct (IH c s') as [ex E] end. exists ex. exact E.
    - match goal with |- context [arun f k ?s'] => destruct (IH s') as [ex E] end. exists ex. exact E.
    - match goal with |- context [arun f (k ?c) ?s'] => destruct (IH c s') as [ex E] end. exists ([a_pos s] ++ ex). rewrite E. cbn [a_store]. now rewrite <- app_assoc.
    - destruct (nth_error (a_store s) x); [|exists []; now rewrite app_nil_r].
      match goal with |- context [arun f k ?s'] => destruct (IH s') as [ex E] end. exists ex. exact E.
    - match goal with |- context [arun f (k ?c) ?s'] => destruct (IH c s') as [ex E] end. exists ex. exact E.
    - match goal with |- context [arun f (k ?c) ?s'] => destruct (IH c s') as [ex E] end. exists ex. exact E.
    - match goal with |- context [arun f k ?s'] => destruct (IH s') as [ex E] end. exists ex. exact E.
  Qed.

  Lemma iobj_listed k n g v o st u : content n g = Some v -> stands content f o n g v -> LSt st u ->
    exists q st' u', arun f (iobj_of (S (S (S k)))) (mkA o st u) = (Ok (n, g, v), mkA q st' u') /\ kept u u' /\ known u' n g = Some v /\ LSt st' u'.
  Proof.
    intros Hc (pre & text & r & Ef & Eo & HT) HS. pose proof HS as (HI & _).
    assert (At f o (text ++ r)) as HA by (subst o; now apply At_start with (pre := pre)).
    inversion HT as [n1 g1 v1 s1 r1 HT1|n1 g1 a b d data s1 r1 HT1 Hab]; subst n1 g1 s1 r1.
    - subst v1. assert (uruns f (iobj_of (S (S (S k)))) o u (Ok (n, g, v)) (o + zlen text) (add_obj u n g v)) as HU by (eapply r_iobj; eauto).
      destruct (HU st) as [ex E]. destruct (kept_add u n g v HI Hc) as [KA KN].
      do 3 eexists. split; [exact E|]. split; [exact KA|]. split; [exact KN|]. apply LSt_ext. eapply LSt_kept; eauto.
    - destruct (newest_or_none ls a b) as [(o' & HN)|HN].
      + fold (with_length d data) in *. subst v.
        destruct (read_ready (locate (S (S (S k)))) n g a b d data text r o u HT1 Hab Hc) as (u' & HU & HR & _); auto.
        { intros p1. eapply locate_listed_int; eauto. }
        destruct (HU st) as [ex E]. do 3 eexists. split; [exact E|]. pose proof (frame_kept _ _ _ _ _ HR) as HK. split; [exact HK|]. split; [exact (proj2 (proj2 HR))|].
        apply LSt_ext. eapply LSt_kept; eauto. exact (proj1 (proj2 (proj1 (proj2 HR)))).
      + assert (unlisted a b) as Hun.
        { intros o' (newer & l1 & older & El & E1 & _). rewrite Forall_forall in HN. apply (HN l1) with (o' := o'); [|exact E1]. rewrite El. apply in_or_app. right. now left. }
        fold (with_length d data) in *. subst v.
        destruct (read_any LSt (locate (S (S (S k)))) n g a b d data text r o st u LSt_ext HT1 Hc HA) as (ex & u1 & E & HK & HS1).
        { intros p1 ex. destruct (locate_un k a b p1 (st ++ ex) u Hun (LSt_ext _ _ _ HS)) as (q & st' & u1 & E & HK & HS1).
          pose proof (store_grows (locate (S (S (S k))) a b) (mkA p1 (st ++ ex) u)) as [ex2 E2]. rewrite E in E2. cbn [snd a_store] in E2. subst st'.
          exists q, ex2, u1. split; [rewrite E; unfold denoted; rewrite Hab; reflexivity|]. auto. }
        destruct (kept_add u1 n g _ (proj1 HK) Hc) as [KA KN].
        do 3 eexists. split; [exact E|]. split; [eapply kept_trans; eauto|]. split; [exact KN|]. eapply LSt_kept; eauto.
  Qed.

  Lemma locate_any k n g pos st u : LSt st u ->
    exists pos' st' u', arun f (locate (S (S (S (S k)))) n g) (mkA pos st u) = (Ok (want n g), mkA pos' st' u') /\ LSt st' u'.
  Proof.
    intros HS. destruct (newest_or_none ls n g) as [(o & HN)|HN].
    2:{ assert (unlisted n g) as Hun.
        { intros o' (newer & l1 & older & El & E1 & _). rewrite Forall_forall in HN. apply (HN l1) with (o' := o'); [|exact E1]. rewrite El. apply in_or_app. right. now left. }
        destruct (locate_un (S k) n g pos st u Hun HS) as (p' & st' & u' & E & _ & HS'). exists p', st', u'. auto. }
    destruct (HLR n g o HN) as (v & Hc & HSt). assert (want n g = v) as Hw by (unfold denoted; now rewrite Hc). rewrite Hw.
    pose proof HS as (HI & Hst & _). pose proof (zlen_nonneg f).
    destruct (iobj_listed k n g v o st u Hc HSt HS) as (q & st' & u' & E & HK & HKn & HS').
    assert (arun f (by_xref (locate (S (S (S k)))) (iobj_of (S (S (S k)))) xs n g) (mkA pos st u) = (Ok v, mkA q st' u')) as HB.
    { destruct HN as (newer & l & older & El & Hl & HN). rewrite El, map_app.
      rewrite (by_xref_skip inflate ccitt D m f HD content Hobj _ _ n g newer _ HN). cbn [map by_xref].
      destruct (is_table_fold l) as (HT1 & _). fold (table_of l) in HT1. rewrite (HT1 n), Hl. cbn [e_gen e_off]. rewrite Z.eqb_refl.
      destruct HSt as (pre & text & r & Ef & Eo & _). pose proof (zlen_nonneg pre).
      rewrite arun_bind.
      assert (arun f (reset o;;; (iobj_of (S (S (S k)))) ;;; ret tt) (mkA pos st u) = (Ok tt, mkA q st' u')) as E1.
      { cbn [reset bind arun a_store a_usr]. unfold reset_pos. rewrite (proj2 (Z.leb_le 0 o)) by lia. rewrite arun_bind, E. reflexivity. }
      rewrite (arun_catch_ok f _ is_parser_exc (fun _ => ret tt) _ _ _ E1).
      unfold registered. cbn [bind getu ret arun a_usr]. unfold is_registered. unfold known in HKn. rewrite HKn. cbn. rewrite HKn. reflexivity. }
    change (locate (S (S (S (S k)))) n g) with (locate_object inflate ccitt decrypt D m (S (S (S (S k)))) n g).
    remember (S (S (S k))) as k3. cbn [locate_object]. cbn [bind getu arun a_usr]. fold (known u n g).
    assert (forall v0, truthy v0 = false -> exists pos' st1 u1, arun f (if truthy v0 then ret v0 else
       match r_xrefs u with None => throw AttributeErr | Some xs => v <- by_xref (locate k3) (iobj_of k3) xs n g ;;
                if truthy v then ret v else brute_force inflate ccitt D m (iobj_of k3) m n g ;;; reg_get n g end) (mkA pos st u) = (Ok v, mkA pos' st1 u1) /\ LSt st1 u1) as HF.
    { intros v0 ->. rewrite (proj1 HI), arun_bind, HB. destruct (truthy v); [exists q, st', u'; split; [reflexivity|exact HS']|].
      rewrite arun_bind.
      assert (forall j iobj, (0 < j)%nat -> arun f (brute_force inflate ccitt D m iobj j n g) (mkA q st' u') = (Ok tt, mkA q st' u')) as HJ.
      { intros [|j] iobj Hj; [lia|]. cbn [brute_force]. cbn [bind getu arun a_usr]. unfold is_registered. fold (known u' n g). rewrite HKn. reflexivity. }
      rewrite HJ by lia. exists q, st', u'. split; [cbn; fold (known u' n g); rewrite HKn; reflexivity|exact HS']. }
    destruct (known u n g) as [w|] eqn:HKu; [|apply (HF ONull eq_refl)].
    assert (w = v) as -> by (rewrite <- Hw; now apply (proj2 HI)). destruct (truthy v) eqn:Et; [|specialize (HF v Et); rewrite Et in HF; exact HF].
    exists pos, st, u. split; [reflexivity|exact HS].
  Qed.
  Lemma session_len k : forall ids s, LSt (a_store s) (a_usr s) ->
    fst (session inflate ccitt decrypt D m (S (S (S (S k)))) f s ids) = map (fun id => Ok (want (fst id) (snd id))) ids.
  Proof.
    induction ids as [|[n g] ids IH]; intros s HS; cbn [session map]; [reflexivity|].
    destruct s as [p st u]. cbn [a_usr a_store fst snd] in *.
    destruct (locate_any k n g p st u HS) as (p' & st' & u' & E & HS'). rewrite E. specialize (IH (mkA p' st' u') HS').
    destruct (session inflate ccitt decrypt D m (S (S (S (S k)))) f (mkA p' st' u') ids) as [vs s2]. cbn [fst] in *. now f_equal.
  Qed.
End Len.
