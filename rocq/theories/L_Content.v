(** ContentParser.objects() on content texts, inline images. *)
From Coq Require Import String.
From Verif Require Import Prelude M_Prog M_Buffer S_Buffer L_Buffer L_Prog M_Parser L_ParserWP S_Syntax L_Syntax L_Syntax2 S_Stream L_Stream.
Local Open Scope Z_scope.
Local Open Scope prog_scope.

Lemma ei_reached_bordered l : ei_reached l = true <-> bordered l.
Proof.
  unfold ei_reached. split.
  - destruct (rev l) as [|x [|y [|z r]]] eqn:E; try discriminate. intros H.
    assert (l = rev r ++ [z; y; x]) as -> by (rewrite <- (rev_involutive l), E; cbn; rewrite <- !app_assoc; auto).
    apply orb_true_iff in H. destruct H as [H|H]; apply andb_true_iff in H; destruct H as [H Hw];
      apply andb_true_iff in H; destruct H as [H1 H2]; apply Z.eqb_eq in H1, H2; subst.
    + exists (rev r), z; auto.
    + exists (rev r), x; auto.
  - intros (a & w & Hw & [-> | ->]); rewrite rev_app_distr; cbn [rev app]; rewrite Hw; cbn; auto.
    now rewrite orb_true_r.
Qed.

Section O.
  Context {U : Type}.
  Variable f : list Z.
  Variable fix_len : dict -> prog U dict.
  Notation P := (prog U).

  Lemma r_ii_data : forall b n a pos rest data, ImageEnd data (a ++ b) -> b <> [] ->
    At f pos (b ++ rest) -> fuel f n pos ->
    runs f (ii_data n a : P _) pos (Ok data) (pos + zlen b).
  Proof.
    induction b as [|x b IH]; intros [|n] a pos rest data He Hb HA Hn; try congruence; try (now apply fuel_O in Hn).
    cbn [ii_data app] in *. eapply r_next_byte; eauto. cbv zeta. destruct (At_cons _ _ _ _ HA) as [_ HA'].
    destruct (ei_reached (a ++ [x])) eqn:E.
    - destruct He as [(w & Hw & Ht) Hmin]. apply ei_reached_bordered in E.
      specialize (Hmin (a ++ [x]) b). rewrite <- app_assoc in Hmin. specialize (Hmin eq_refl E). subst b.
      assert (a ++ [x] = data ++ [w; 69; 73] \/ a ++ [x] = data ++ [69; 73; w]) as Ht' by exact Ht.
      replace (firstn (List.length (a ++ [x]) - 3) (a ++ [x])) with data.
      + eapply runs_eq; [apply runs_ret|zlens; lia].
      + destruct Ht' as [-> | ->]; rewrite app_length; cbn [List.length];
          replace (List.length data + 3 - 3)%nat with (List.length data + 0)%nat by lia;
          rewrite firstn_app_2, firstn_O, app_nil_r; auto.
    - destruct b as [|y b].
      + exfalso. destruct He as [(w & Hw & Ht) _].
        assert (bordered (a ++ [x])) as Hbd by (exists data, w; auto). apply ei_reached_bordered in Hbd. congruence.
      + eapply runs_eq; [eapply IH; eauto|].
        * rewrite <- app_assoc. exact He.
        * discriminate.
        * eapply fuel_cons; eauto.
        * zlens. lia.
  Qed.

  Lemma ser_not_tok fl v s rest : Ser fl v s rest -> forall t, v <> OTok t.
  Proof. destruct 1; try discriminate. destruct (real_not_int _ _ H) as (a & b & c & ->). discriminate. Qed.

  Lemma r_entities es s rest : SerEntries FInline es s rest -> forall n acc pos tl, rest = 73 :: tl ->
    At f pos (s ++ rest) -> ofuel f n pos 5 ->
    runs f (entities fix_len n acc) pos (Ok (fold_left (fun d kv => dset d (fst kv) (snd kv)) es acc)) (pos + zlen s).
  Proof.
    induction 1 as [rest|k kt sep1 v s sep2 es ss rest Hk Hnr Hs1 Hv Hs2 Hss IHs]; intros n acc pos tl Hrest HA Hn.
    - destruct n as [|n]; [fu|]. cbn [entities app] in *. subst rest.
      eapply r_cur; eauto. cbn [hd_error is_cur fold_left]. cbn [Z.eqb Pos.eqb]. eapply runs_eq; [apply runs_ret|zlens; lia].
    - destruct n as [|n]; [fu|]. cbn [entities].
      cbn [app] in HA. rewrite <- !app_assoc in HA.
      eapply r_cur; eauto. cbn [hd_error is_cur]. cbn [Z.eqb Pos.eqb].
      destruct (ser_start _ _ _ _ Hv) as (x & s' & Es & Hx).
      pose proof (At_len _ _ _ HA) as HL. rewrite zlen_cons, !zlen_app in HL.
      assert (1 <= zlen s) by (rewrite Es, zlen_cons; fu).
      assert (nosep (ss ++ rest)) as HN by (destruct Hss; [subst rest; reflexivity|reflexivity]).
      eapply runs_bind.
      { apply (r_name f k kt n pos (sep1 ++ s ++ sep2 ++ ss ++ rest)); auto; [|fu].
        rewrite Es in *. unfold nonreg in *. destruct sep1; exact Hnr. }
      destruct (At_cons _ _ _ _ HA) as [_ HA1]. apply At_app in HA1.
      eapply runs_bind; [apply (r_sp f sep1 n _ (s ++ sep2 ++ ss ++ rest)); auto; [eapply ser_nosep; eauto|fu]|].
      apply At_app in HA1. fu.
      set (p := pos + 1 + zlen kt + zlen sep1) in *.
      eapply runs_bind.
      { eapply (r_object f fix_len FInline v s _ n p [] sep2); eauto; [constructor|destruct v; cbn; eauto|]. cbn [oc]. unfold p; fu. }
      rewrite (@zlen_nil Z), Z.add_0_r.
      assert (At f (p + zlen s) (sep2 ++ ss ++ rest)) as HA2 by (apply At_app in HA1; exact HA1).
      assert (At f (p + zlen s + zlen sep2) (ss ++ rest)) as HA3 by (apply At_app in HA2; exact HA2).
      assert (runs f (sp n ;;; entities fix_len n (dset acc k v)) (p + zlen s + zlen (trailing v sep2))
               (Ok (fold_left (fun d kv => dset d (fst kv) (snd kv)) ((k, v) :: es) acc)) (pos + zlen (47 :: kt ++ sep1 ++ s ++ sep2 ++ ss))) as HR.
      { eapply (runs_bind f _ _ _ tt (p + zlen s + zlen sep2)).
        { destruct (trailing v sep2) as [|y tr] eqn:Etr.
          - rewrite (@zlen_nil Z), Z.add_0_r. apply (r_sp f sep2 n _ (ss ++ rest)); auto. unfold p; fu.
          - assert (trailing v sep2 = sep2) as E by (destruct v; cbn in *; congruence).
            rewrite <- Etr, E. apply (r_sp0 f n _ (ss ++ rest)); auto. unfold p; fu. }
        cbn [fold_left fst snd].
        eapply runs_eq; [eapply IHs; eauto; unfold p; fu|unfold p; zlens; lia]. }
      pose proof (ser_not_tok _ _ _ _ Hv) as Hnt.
      destruct v; auto. exfalso. eapply Hnt; eauto.
  Qed.

  Lemma r_prevs {A} (k : P A) r q : forall n pos, runs f k (pos - Z.of_nat n) r q -> runs f (prevs n ;;; k) pos r q.
  Proof.
    induction n as [|n IH]; intros pos H; cbn [prevs].
    - apply r_bret. replace (pos - Z.of_nat 0) with pos in H by lia. exact H.
    - apply r_assoc, r_prev. intros _. apply IH. replace (pos - 1 - Z.of_nat n) with (pos - Z.of_nat (S n)) by lia. exact H.
  Qed.

  Lemma r_inline_image es sep0 s w0 data t pos rest n :
    Sep sep0 -> nonreg (sep0 ++ s ++ bs "ID") -> SerEntries FInline es s (73 :: 68 :: w0 :: t ++ rest) ->
    is_ws w0 = true -> ImageEnd data t ->
    At f pos (image_text sep0 s t w0 ++ rest) -> ofuel f n pos 6 ->
    runs f (inline_image fix_len n) pos (Ok (OInline (dict_of es) data)) (pos + zlen (image_text sep0 s t w0)).
  Proof.
    intros Hs0 Hnr He Hw0 Him HA Hn. unfold image_text in *. cbn [app] in HA.
    rewrite <- !app_assoc in HA. cbn [app] in HA.
    pose proof (At_len _ _ _ HA) as HL. rewrite !zlen_cons, !zlen_app, !zlen_cons, !zlen_app in HL.
    destruct n as [|n]; [fu|]. cbn [inline_image].
    assert (At f pos (bs "BI" ++ sep0 ++ s ++ 73 :: 68 :: w0 :: t ++ rest)) as HA0 by exact HA.
    assert (nonreg (sep0 ++ s ++ 73 :: 68 :: w0 :: t ++ rest)) as Hnr'.
    { unfold nonreg in *. destruct sep0; [|exact Hnr]. destruct s; [discriminate|exact Hnr]. }
    assert (runs f (object fix_len FInline n) pos (Ok (OTok (bs "BI"))) (pos + 2)) as RB.
    { destruct n as [|n]; [fu|].
      eapply (r_object_intro f fix_len FInline n pos [] 66); [constructor|reflexivity|exact HA|fu|].
      rewrite (@zlen_nil Z), Z.add_0_r. unfold obj_body. cbn [refs_allowed].
      change (runs f (t0 <- token n ;; ret (OTok t0) : P _) pos (Ok (OTok (bs "BI"))) (pos + 2)).
      eapply runs_bind; [apply (r_token f (bs "BI") n pos (sep0 ++ s ++ 73 :: 68 :: w0 :: t ++ rest)); auto; [discriminate|repeat constructor|fu]|].
      apply runs_ret. }
    eapply runs_bind; [exact RB|]. cbv beta iota. rewrite eqlZ_refl.
    destruct (At_cons _ _ _ _ HA) as [_ HA1]. destruct (At_cons _ _ _ _ HA1) as [_ HA2].
    replace (pos + 1 + 1) with (pos + 2) in HA2 by lia.
    eapply runs_bind.
    { apply (r_sp f sep0 n _ (s ++ 73 :: 68 :: w0 :: t ++ rest)); auto; [|fu]. clear - He. remember (73 :: 68 :: w0 :: t ++ rest) as R. destruct He; [subst|]; reflexivity. }
    apply At_app in HA2.
    eapply runs_bind; [eapply (r_entities es s _ He n []); eauto; fu|].
    apply At_app in HA2. destruct (At_cons _ _ _ _ HA2) as [_ HA3]. destruct (At_cons _ _ _ _ HA3) as [_ HA4].
    eapply r_next; eauto. eapply r_next; eauto. cbn [hd_error is_cur]. cbn [Z.eqb Pos.eqb].
    eapply r_cur; eauto. cbn [hd_error p_ws]. rewrite Hw0.
    eapply r_next; eauto. destruct (At_cons _ _ _ _ HA4) as [_ HA5].
    assert (t <> []) as Ht. { destruct Him as [(w & _ & [-> | ->]) _]; destruct data; discriminate. }
    eapply runs_bind; [eapply (r_ii_data t n []); eauto; fu|].
    unfold dict_of. eapply runs_eq; [apply runs_ret|zlens; lia].
  Qed.
End O.

Section C.
  Context {U : Type}.
  Variable f : list Z.
  Notation P := (prog U).
  Notation hook := (fun d : dict => ret d : P dict).

  Definition op_start (x : Z) : Prop := is_ws x = false /\ is_delim x = false /\ is_digit x = false /\ memZ x [43; 45; 46] = false.
  Lemma op_head w : OpName w -> exists x w', w = x :: w' /\ op_start x.
  Proof.
    intros (Hne & Hf & Hh & _). destruct w as [|x w']; [congruence|]. exists x, w'. split; auto.
    inversion Hf; subst. cbn [head_is] in Hh. apply orb_false_iff in Hh. unfold op_start. tauto.
  Qed.
  Lemma op_start_ne x : op_start x -> x <> 60 /\ x <> 91 /\ x <> 40 /\ x <> 43 /\ x <> 45 /\ x <> 46 /\ x <> 47 /\ x <> 37.
  Proof. intros (H1 & H2 & H3 & H4). repeat split; intros ->; discriminate. Qed.

  Lemma r_op w n pos lead rest : Sep lead -> OpName w -> nonreg rest -> At f pos (lead ++ w ++ rest) -> ofuel f n pos 8 ->
    runs f (object hook FContent n) pos (Ok (OTok w)) (pos + zlen lead + zlen w).
  Proof.
    intros Hl Hw Hr HA Hn. destruct n as [|n]; [fu|].
    destruct (op_head w Hw) as (x & w' & Ew & Hx). destruct (op_start_ne x Hx) as (N1 & N2 & N3 & N4 & N5 & N6 & N7 & N8).
    destruct Hx as (X1 & X2 & X3 & X4). destruct Hw as (Hne & Hf & Hh & K1 & K2 & K3 & K4).
    assert (runs f (token n : P _) (pos + zlen lead) (Ok w) (pos + zlen lead + zlen w)) as RT.
    { apply At_app in HA. apply (r_token f w n _ rest); auto; [|fu]. subst w. exact X3. }
    eapply (r_object_intro f hook FContent n pos lead x (w' ++ rest)); auto.
    - unfold nosep. cbn [head_is]. rewrite X1. cbn [orb]. lia.
    - subst w. exact HA.
    - fu.
    - unfold obj_body. destruct ((x =? 110) || (x =? 102) || (x =? 116)) eqn:Ek.
      + eapply runs_bind; [exact RT|].
        rewrite (proj2 (eqlZ_neq _ _) K1), (proj2 (eqlZ_neq _ _) K2), (proj2 (eqlZ_neq _ _) K3). apply runs_ret.
      + replace (x =? 60) with false by lia. replace (x =? 91) with false by lia. replace (x =? 40) with false by lia.
        replace (x =? 110) with false by lia. replace (x =? 102) with false by lia. replace (x =? 116) with false by lia.
        replace ((x =? 43) || (x =? 45) || (x =? 46)) with false by lia. rewrite X3. replace (x =? 47) with false by lia.
        eapply runs_bind; [exact RT|]. apply r_prevs.
        replace (pos + zlen lead + zlen w - Z.of_nat (List.length w)) with (pos + zlen lead) by (unfold zlen; lia).
        rewrite (proj2 (eqlZ_neq _ _) K4). eapply runs_bind; [exact RT|apply runs_ret].
  Qed.

  Lemma r_bi es sep0 s w0 data t pos lead rest n :
    Sep lead -> Sep sep0 -> nonreg (sep0 ++ s ++ bs "ID") -> SerEntries FInline es s (73 :: 68 :: w0 :: t ++ rest) ->
    is_ws w0 = true -> ImageEnd data t ->
    At f pos (lead ++ image_text sep0 s t w0 ++ rest) -> ofuel f n pos 8 ->
    runs f (object hook FContent n) pos (Ok (OInline (dict_of es) data)) (pos + zlen lead + zlen (image_text sep0 s t w0)).
  Proof.
    intros Hl Hs0 Hnr He Hw0 Him HA Hn. destruct n as [|n]; [fu|].
    assert (At f (pos + zlen lead) (image_text sep0 s t w0 ++ rest)) as HA1 by (apply At_app in HA; exact HA).
    unfold image_text in HA at 1. cbn [app] in HA.
    eapply (r_object_intro f hook FContent n pos lead 66); eauto; [reflexivity|fu|].
    unfold obj_body. cbn [Z.eqb Pos.eqb orb is_digit Z.leb Z.compare Pos.compare Pos.compare_cont andb].
    assert (nonreg (sep0 ++ s ++ 73 :: 68 :: w0 :: t ++ rest)) as Hnr'.
    { unfold nonreg in *. destruct sep0; [|exact Hnr]. destruct s; [discriminate|exact Hnr]. }
    assert (At f (pos + zlen lead) (bs "BI" ++ sep0 ++ s ++ 73 :: 68 :: w0 :: t ++ rest)) as HA2.
    { unfold image_text in HA1. cbn [app] in HA1. rewrite <- !app_assoc in HA1. cbn [app] in HA1. exact HA1. }
    eapply runs_bind; [apply (r_token f (bs "BI") n _ (sep0 ++ s ++ 73 :: 68 :: w0 :: t ++ rest)); auto; [discriminate|repeat constructor|fu]|].
    apply r_prevs. change (eqlZ (bs "BI") (bs "BI")) with true. cbv iota.
    replace (pos + zlen lead + zlen (bs "BI") - Z.of_nat (List.length (bs "BI"))) with (pos + zlen lead) by (cbn; lia).
    eapply r_inline_image; eauto. fu.
  Qed.

  Lemma content_nosep its ss : Content its ss -> nosep ss.
  Proof.
    destruct 1 as [|ops so op sep its ss He Ho Hs Hr Hc|es sep0 s w0 data t sep its ss]; try reflexivity.
    remember (op ++ sep ++ ss) as R eqn:ER. destruct He as [rest|v s sep1 vs ss1 rest Hv]; [subst rest|].
    - destruct (op_head op Ho) as (x & w' & -> & Hx). unfold nosep; cbn [app head_is].
      destruct (op_start_ne x Hx) as (_ & _ & _ & _ & _ & _ & _ & N). destruct Hx as (X & _). rewrite X. cbn [orb]. lia.
    - rewrite <- !app_assoc. eapply ser_nosep; eauto.
  Qed.

  Lemma op_is_operator w : OpName w -> is_operator (OTok w) = true.
  Proof.
    intros H. destruct (op_head w H) as (x & w' & -> & Hx). cbn [is_operator]. apply negb_true_iff.
    destruct (op_start_ne x Hx) as (N1 & N2 & N3 & N4 & N5 & N6 & N7 & N8). destruct Hx as (_ & _ & D & _).
    apply not_true_is_false. rewrite memZ_In. intros Hin. cbn in Hin. unfold is_digit in D. lia.
  Qed.
  Lemma ser_not_op v s rest : Ser FContent v s rest -> is_operator v = false /\ (forall d x, v <> OInline d x).
  Proof. destruct 1; cbn; try (split; [reflexivity|discriminate]). destruct (real_not_int _ _ H) as (a & b & c & ->). split; [reflexivity|discriminate]. Qed.

  (** operands *)
  Lemma r_operands ops so rest : SerElems FContent ops so rest -> nosep rest -> forall n args out pos r q,
    At f pos (so ++ rest) -> ofuel f n pos 10 ->
    (forall m, ofuel f m (pos + zlen so) 10 -> runs f (content_loop m (args ++ ops) out : P _) (pos + zlen so) r q) ->
    runs f (content_loop n args out : P _) pos r q.
  Proof.
    induction 1 as [rest|v s sep vs ss rest Hv Hsep Hss IH]; intros Hns n args out pos r q HA Hn Hk.
    - rewrite app_nil_r in Hk. rewrite (@zlen_nil Z), Z.add_0_r in Hk. auto.
    - destruct n as [|n]; [fu|]. cbn [content_loop].
      destruct (ser_start _ _ _ _ Hv) as (x & s' & Es & Hx).
      rewrite <- !app_assoc in HA. eapply r_cur; eauto. rewrite Es at 1. cbn [app hd_error]. 
      pose proof (At_len _ _ _ HA) as HL. rewrite !zlen_app in HL. pose proof (zlen_nonneg rest).
      assert (1 <= zlen s) by (rewrite Es, zlen_cons; fu).
      assert (nosep (ss ++ rest)) as HN by (destruct Hss; [auto|rewrite <- app_assoc; eapply ser_nosep; eauto]).
      eapply runs_bind.
      { eapply (r_object f hook FContent v s _ n pos [] sep); eauto; [constructor|destruct v; cbn; eauto|]. cbn [oc]. fu. }
      rewrite (@zlen_nil Z), Z.add_0_r.
      assert (At f (pos + zlen s) (sep ++ ss ++ rest)) as HA2 by (apply At_app in HA; exact HA).
      assert (At f (pos + zlen s + zlen sep) (ss ++ rest)) as HA3 by (apply At_app in HA2; exact HA2).
      destruct (ser_not_op _ _ _ Hv) as [Hno Hni].
      assert (runs f (sp n ;;; content_loop n (args ++ [v]) out : P _) (pos + zlen s + zlen (trailing v sep)) r q) as HR.
      { eapply (runs_bind f _ _ _ tt (pos + zlen s + zlen sep)).
        { destruct (trailing v sep) as [|y tr] eqn:Etr.
          - rewrite (@zlen_nil Z), Z.add_0_r. apply (r_sp f sep n _ (ss ++ rest)); auto. fu.
          - assert (trailing v sep = sep) as E by (destruct v; cbn in *; congruence).
            rewrite <- Etr, E. apply (r_sp0 f n _ (ss ++ rest)); auto. fu. }
        apply IH; auto; [fu|]. intros m Hm.
        replace ((args ++ [v]) ++ vs) with (args ++ v :: vs) by (rewrite <- app_assoc; auto).
        replace (pos + zlen s + zlen sep + zlen ss) with (pos + zlen (s ++ sep ++ ss)) in * by (zlens; lia). auto. }
      destruct v; cbn [is_operator] in *; try exact HR; try (rewrite Hno; exact HR). exfalso. eapply Hni; eauto.
  Qed.

  Lemma r_content its ss : Content its ss -> forall n out pos, At f pos ss -> ofuel f n pos 10 ->
    runs f (content_loop n [] out : P _) pos (Ok (out ++ its)) (pos + zlen ss).
  Proof.
    induction 1 as [|ops so op sep its ss He Ho Hs Hr Hc IH|es sep0 s w0 data t sep its ss Hs0 Hnr He Hw0 Him Hs Hc IH];
      intros n out pos HA Hn.
    - destruct n as [|n]; [fu|]. cbn [content_loop]. eapply r_cur; eauto. cbn [hd_error].
      rewrite app_nil_r. eapply runs_eq; [apply runs_ret|zlens; lia].
    - assert (nosep (op ++ sep ++ ss)) as Hno.
      { destruct (op_head op Ho) as (x & w' & -> & Hx). unfold nosep; cbn [app head_is].
        destruct (op_start_ne x Hx) as (_ & _ & _ & _ & _ & _ & _ & N). destruct Hx as (X & _). rewrite X. cbn [orb]. lia. }
      eapply r_operands; eauto. cbn [app]. intros m Hm. apply At_app in HA.
      destruct m as [|m]; [fu|]. cbn [content_loop]. eapply r_cur; eauto.
      destruct (op_head op Ho) as (x & w' & Ew & Hx). rewrite Ew at 1. cbn [app hd_error].
      assert (1 <= zlen op) by (rewrite Ew, zlen_cons; fu).
      pose proof (At_len _ _ _ HA) as HL. rewrite !zlen_app in HL.
      eapply runs_bind; [eapply (r_op op m _ []); eauto; [constructor|fu]|].
      cbv beta iota. rewrite (op_is_operator op Ho). rewrite (@zlen_nil Z), Z.add_0_r.
      apply At_app in HA.
      eapply runs_bind; [apply (r_sp f sep m _ ss); auto; [eapply content_nosep; eauto|fu]|].
      apply At_app in HA. replace (out ++ COp op ops :: its) with ((out ++ [COp op ops]) ++ its) by (rewrite <- app_assoc; auto).
      eapply runs_eq; [apply IH; auto; fu|zlens; lia].
    - destruct n as [|n]; [fu|]. cbn [content_loop]. eapply r_cur; eauto. unfold image_text at 1. cbn [app hd_error].
      pose proof (At_len _ _ _ HA) as HL. rewrite !zlen_app in HL.
      assert (7 <= zlen (image_text sep0 s t w0)).
      { unfold image_text. zlens. destruct Him as [(w & _ & [-> | ->]) _]; zlens; fu. }
      eapply runs_bind; [eapply (r_bi es sep0 s w0 data t pos [] (sep ++ ss)); eauto; [constructor|fu]|].
      cbv beta iota. rewrite (@zlen_nil Z), Z.add_0_r. apply At_app in HA.
      eapply runs_bind; [apply (r_sp f sep n _ ss); auto; [eapply content_nosep; eauto|fu]|].
      apply At_app in HA. replace (out ++ CImage (dict_of es) data :: its) with ((out ++ [CImage (dict_of es) data]) ++ its) by (rewrite <- app_assoc; auto).
      eapply runs_eq; [apply IH; auto; fu|zlens; lia].
  Qed.

  Theorem r_content_objects its ss lead n pos : Content its ss -> Sep lead -> At f pos (lead ++ ss) -> ofuel f n pos 10 ->
    runs f (content_objects n : P _) pos (Ok its) (pos + zlen lead + zlen ss).
  Proof.
    intros Hc Hl HA Hn. unfold content_objects.
    eapply runs_bind; [apply (r_sp f lead n _ ss); auto; [eapply content_nosep; eauto|fu]|].
    apply At_app in HA. apply (r_content its ss Hc n []); auto. fu.
  Qed.
End C.
