(** Whole files with cross-reference streams and object streams read back what was written: C79. *)
From Coq Require Import String.
From Verif Require Import Prelude M_Prog M_Parser S_Syntax L_Buffer L_Prog L_ParserWP L_Syntax L_Syntax2 S_Print L_Print
  S_Stream L_Stream M_Filters M_Document S_Document L_Document L_User L_Registry P_IndObj
  S_Xref L_Xref P_Header P_StartXref P_Xref P_Locate L_Steps S_Open P_Open S_Write P_Write S_History P_History S_XrefStream P_XrefStream S_Registry P_Registry S_Modern L_Modern P_Modern S_ModWrite L_ModWrite.
Local Open Scope Z_scope.

Lemma listed_any : forall objs start n g o, last_listed true n (listings start objs) = Some (g, o) ->
  exists v before after, In (n, g, v) objs /\ body_text objs = before ++ object_text n g v ++ after /\ o = start + zlen before.
Proof.
  induction objs as [|[[n0 g0] v0] objs IH]; intros start n g o; cbn [listings last_listed body_text]; [discriminate|].
  destruct (last_listed true n (listings _ objs)) as [y|] eqn:El.
  - intros H. injection H as ->. destruct (IH _ _ _ _ El) as (v & before & after & H1 & H2 & H3).
    exists v, (object_text n0 g0 v0 ++ [10] ++ before), after. split; [now right|]. split; [rewrite H2, <- !app_assoc; reflexivity|].
    rewrite !zlen_app. change (zlen [10]) with 1. lia.
  - cbn [li_num li_used li_gen li_off Bool.eqb]. destruct (n0 =? n) eqn:En; [|discriminate]. intros H. injection H as <- <-. assert (n0 = n) as -> by lia.
    exists v0, [], ([10] ++ body_text objs). split; [now left|]. split; [reflexivity|]. change (zlen []) with 0. lia.
Qed.
Lemma last_listed_app u n l1 l2 : last_listed u n (l1 ++ l2) = match last_listed u n l2 with Some y => Some y | None => last_listed u n l1 end.
Proof. induction l1 as [|x l1 IH]; cbn [app last_listed]; [now destruct (last_listed u n l2)|]. rewrite IH. now destruct (last_listed u n l2). Qed.
Lemma index_bounds n ms : forall i j, index_of n ms i = Some j -> 0 <= i -> 0 <= j < i + zlen ms.
Proof.
  induction ms as [|[m v] ms IH]; intros i j; cbn [index_of]; [discriminate|]. rewrite zlen_cons. pose proof (zlen_nonneg ms) as Hz. destruct (n =? m); [intros X; injection X as <-; lia|].
  intros H Hi. specialize (IH _ _ H). lia.
Qed.
Lemma comp_bounds n ss s i : comp_of n ss = Some (s, i) -> Forall (fun s => 0 <= fst s < 256 ^ 4 /\ zlen (snd s) < 256 ^ 2 /\ Forall (fun m => 0 <= fst m /\ printable (snd m)) (snd s)) ss ->
  0 <= s < 256 ^ 4 /\ 0 <= i < 256 ^ 2.
Proof.
  induction ss as [|[s0 ms] ss IH]; cbn [comp_of]; [discriminate|]. intros H HF. inversion HF as [|? ? (A & B & _) HF']; subst. cbn [fst snd] in *.
  destruct (index_of n ms 0) as [j|] eqn:E; [|auto]. injection H as <- <-. apply index_bounds in E; lia.
Qed.
Lemma sep_lf s : Sep s -> Sep (10 :: s). Proof. apply Sep_ws. reflexivity. Qed.
Lemma sep_line body s : Forall (fun c => c <> 13 /\ c <> 10) body -> Sep s -> Sep (37 :: body ++ [10] ++ s).
Proof. intros HB Hs. apply (Sep_comment body [10] s HB); [left; reflexivity|exact Hs]. Qed.
Lemma body_prefix (P : list Z -> list Z) : (forall s, Sep s -> Sep (P s)) -> (forall s t, P (s ++ t) = P s ++ t) -> forall l ts rest, ModBody l ts rest -> ModBody l (P ts) rest.
Proof.
  intros HP HA l ts rest H. destruct H as [s rest Hs Hr|s num gen v t l ts rest Hs HI HB|s sep ds l ts rest Hs Hsep Hne Hds Hie HB].
  - constructor; auto.
  - rewrite HA. constructor; auto.
  - rewrite HA. constructor; auto.
Qed.

Section Files.
  Variable inflate : list Z -> option (list Z).
  Variable ccitt : list Z -> fparams -> res (list Z).
  Variable deflate : list Z -> list Z.
  Hypothesis Hround : forall x, inflate (deflate x) = Some x.
  Variables (a b : Z).
  Hypotheses (Ha : is_digit a = true) (Hb : is_digit b = true).
  Notation W revs := (fst (mwrite deflate a b revs)).
  Notation prev_of revs := (snd (mwrite deflate a b revs)).
  Notation objs_of := (mobjs deflate).
  Lemma mwrite_cons r older : W (r :: older) = W older ++ mrev_text deflate (zlen (W older)) (prev_of older) r.
  Proof. cbn [mwrite]. destruct (mwrite deflate a b older). reflexivity. Qed.
  Lemma mprev_cons r older : prev_of (r :: older) = Some (zlen (W older) + zlen (body_text (objs_of r))).
  Proof. cbn [mwrite]. destruct (mwrite deflate a b older). reflexivity. Qed.
  Lemma mW_version revs : exists rest, W revs = version_line a b ++ rest.
  Proof.
    induction revs as [|r older [rest IH]]; [exists []; cbn [mwrite fst]; now rewrite app_nil_r|]. rewrite mwrite_cons, IH, <- app_assoc. eexists. reflexivity.
  Qed.
  Lemma mprev_nonneg revs p : prev_of revs = Some p -> 0 <= p.
  Proof.
    destruct revs as [|r older]; [discriminate|]. rewrite mprev_cons. intros X. injection X as <-. pose proof (zlen_nonneg (W older)). pose proof (zlen_nonneg (body_text (objs_of r))). lia.
  Qed.

  (** the dictionary of the cross-reference stream *)
  Definition xkeys : list (list Z) := [bs "Type"; bs "W"; bs "Index"; bs "Prev"; bs "Filter"; bs "DecodeParms"; bs "Length"].
  Lemma xdict_key prev r k : Forall (fun k => dget (mr_trailer r) k = None) xkeys -> In k xkeys ->
    dget (xdict prev r) k = if eqlZ k (bs "Type") then Some (OName (bs "XRef")) else if eqlZ k (bs "W") then Some (OArr [OInt 1; OInt 4; OInt 2]) else
      if eqlZ k (bs "Index") then Some (OArr [OInt (mr_first r); OInt (Z.of_nat (mr_count r))]) else if eqlZ k (bs "Prev") then option_map OInt prev else None.
  Proof.
    intros HF Hk. rewrite Forall_forall in HF. specialize (HF k Hk). unfold xdict. rewrite !dget_app2, HF. cbn [dget].
    destruct (eqlZ k (bs "Type")); [reflexivity|]. destruct (eqlZ k (bs "W")); [reflexivity|]. destruct (eqlZ k (bs "Index")); [reflexivity|].
    destruct prev as [p|]; cbn [dget option_map]; destruct (eqlZ k (bs "Prev")); reflexivity.
  Qed.
  Lemma xdict_trailer prev r d data : Forall (fun k => dget (mr_trailer r) k = None) xkeys ->
    packed deflate (xdict prev r) data = OStream d (deflate data) -> stm_trailer d = trailer_read prev (mr_trailer r).
  Proof.
    intros HF E. assert (d = xdict prev r ++ [(bs "Filter", OName (bs "FlateDecode")); (bs "Length", OInt (zlen (deflate data)))]) as -> by (unfold packed in E; congruence). unfold stm_trailer, trailer_read. apply map_ext_in. intros k Hk. f_equal. rewrite dget_app2. unfold xdict. rewrite !dget_app2.
    assert (eqlZ k (bs "Type") = false /\ eqlZ k (bs "W") = false /\ eqlZ k (bs "Index") = false /\ eqlZ k (bs "Filter") = false /\ eqlZ k (bs "Length") = false) as (N1 & N2 & N3 & N4 & N5).
    { cbn [In] in Hk. repeat (destruct Hk as [<-|Hk]; [now vm_compute|]). destruct Hk. }
    cbn [dget]. rewrite N1, N2, N3, N4, N5. destruct (eqlZ k (bs "Prev")) eqn:EP.
    - apply eqlZ_eq in EP. subst k. rewrite Forall_forall in HF. rewrite (HF (bs "Prev")) by (cbn; tauto). destruct prev as [p|]; cbn [dget option_map]; [|reflexivity]. rewrite eqlZ_refl. reflexivity.
    - destruct (dget (mr_trailer r) k); [reflexivity|]. destruct prev as [p|]; cbn [dget]; [|reflexivity]. now rewrite EP.
  Qed.
  Lemma xdict_printable prev r : printable (ODict (mr_trailer r)) -> Forall (fun k => dget (mr_trailer r) k = None) xkeys -> printable (ODict (xdict prev r)).
  Proof.
    intros Hp HF. rewrite Forall_forall in HF.
    assert (forall s, forallb (fun c => (0 <=? c) && (c <? 256)) s = true -> bytes_ok s) as Hby.
    { intros s H. rewrite forallb_forall in H. apply Forall_forall. intros c Hc. specialize (H c Hc). unfold byte_ok. lia. }
    unfold xdict. apply printable_app; [|apply printable_app; [exact Hp| |]|].
    - split; [|cbn [fold_right fst snd printable]; repeat split; apply Hby; reflexivity].
      cbn [map fst]. repeat (constructor; [cbn [In]; intros X; repeat (destruct X as [X|X]; [discriminate X|]); exact X|]). constructor.
    - destruct prev as [p|].
      + split; [|cbn [fold_right fst snd printable]; repeat split; apply Hby; reflexivity]. cbn [map fst]. constructor; [intros []|constructor].
      + split; [constructor|exact I].
    - apply Forall_forall. intros k Hk. destruct prev as [p|]; [|reflexivity]. cbn [dget]. destruct (eqlZ k (bs "Prev")) eqn:E; [|reflexivity]. apply eqlZ_eq in E. subst k.
      exfalso. apply (proj1 (dget_none_in (mr_trailer r) (bs "Prev"))); [apply HF; cbn; tauto|exact Hk].
    - apply Forall_forall. intros k Hk. rewrite dget_app2. assert (In k xkeys /\ eqlZ k (bs "Prev") = false) as [Hx Hnp].
      { cbn [map fst In] in Hk. repeat (destruct Hk as [<-|Hk]; [split; [cbn; tauto|now vm_compute]|]). destruct Hk. }
      rewrite (HF k Hx). destruct prev as [p|]; [|reflexivity]. cbn [dget]. now rewrite Hnp.
  Qed.

  (** what a section says *)
  Definition sec_of (start : Z) (r : mrev) : section := (mr_first r, mrows deflate start r).
  Fixpoint msecs (revs : list mrev) : list section :=
    match revs with [] => [] | r :: older => sec_of (zlen (W older)) r :: msecs older end.
  Fixpoint mxobjs (revs : list mrev) : list (Z * Z * obj) :=
    match revs with [] => [] | r :: older => (mr_num r, 0, xvalue deflate (zlen (W older)) (prev_of older) r) :: mxobjs older end.
  Lemma row_of_mrow start r n w : row_of (mr_first r) (mrows deflate start r) n = Some w -> w = mrow deflate start r n.
  Proof.
    unfold row_of. destruct (n <? mr_first r) eqn:E; [discriminate|]. unfold mrows. rewrite nth_error_map.
    destruct (nth_error (seq 0 (mr_count r)) (Z.to_nat (n - mr_first r))) as [i|] eqn:En; [|discriminate]. cbn [option_map]. intros X. injection X as <-.
    assert (Z.to_nat (n - mr_first r) < mr_count r)%nat as Hlt by (rewrite <- (seq_length (mr_count r) 0); apply nth_error_Some; congruence).
    apply nth_error_nth with (d := O) in En. rewrite seq_nth in En by exact Hlt. subst i. f_equal. lia.
  Qed.
  Lemma sec_lists start r n g o : lists (sec_of start r) n g o ->
    (exists v before after, In (n, g, v) (objs_of r) /\ body_text (objs_of r) = before ++ object_text n g v ++ after /\ o = start + zlen before) \/
    (n = mr_num r /\ g = 0 /\ o = start + zlen (body_text (objs_of r))).
  Proof.
    unfold lists, sec_of. cbn [fst snd]. intros H. apply row_of_mrow in H. unfold mrow in H. rewrite last_listed_app in H. cbn [last_listed li_num li_used li_gen li_off Bool.eqb] in H.
    rewrite Bool.andb_true_r in H. destruct (mr_num r =? n) eqn:En.
    - injection H as -> ->. right. repeat split. lia.
    - destruct (last_listed true n (listings start (objs_of r))) as [[g' o']|] eqn:El.
      + injection H as -> ->. left. exact (listed_any _ _ _ _ _ El).
      + destruct (comp_of n (mr_stms r)) as [[? ?]|]; discriminate H.
  Qed.
  Lemma mobjs_gens r : mrev_ok r -> Forall (fun e => 0 <= fst (fst e) /\ 0 <= snd (fst e) < 256 ^ 2) (objs_of r).
  Proof.
    intros (R1 & R2 & _). unfold mobjs. apply Forall_app. split.
    - eapply Forall_impl; [|exact R1]. cbn beta. tauto.
    - apply Forall_map. eapply Forall_impl; [|exact R2]. cbn beta. intros s ((A & _) & _). cbn [fst snd]. lia.
  Qed.
  Lemma rows_fit start r : mrev_ok r -> 0 <= start -> start + zlen (body_text (objs_of r)) < 256 ^ 4 -> Forall (S_XrefStream.fits 1 4 2) (mrows deflate start r).
  Proof.
    intros Hr Hs Hlt. pose proof (mobjs_gens r Hr) as HG. destruct Hr as (R1 & R2 & R3 & R4 & _). unfold mrows. apply Forall_map. apply Forall_forall. intros i _.
    generalize (mr_first r + Z.of_nat i). intros n. unfold mrow. rewrite last_listed_app. cbn [last_listed li_num li_used li_gen li_off Bool.eqb]. rewrite Bool.andb_true_r.
    pose proof (zlen_nonneg (body_text (objs_of r))) as HB.
    change (Z.of_nat 1) with 1. unfold S_XrefStream.fits. change (256 ^ Z.of_nat 1) with 256. change (256 ^ Z.of_nat 4) with (256 ^ 4). change (256 ^ Z.of_nat 2) with (256 ^ 2).
    destruct (mr_num r =? n); [cbn [fields]; lia|]. destruct (last_listed true n (listings start (objs_of r))) as [[g o]|] eqn:El.
    - destruct (listed_any _ _ _ _ _ El) as (v & before & after & HI & E & ->). cbn [fields]. rewrite Forall_forall in HG. specialize (HG _ HI). cbn [fst snd] in HG.
      rewrite E, !zlen_app in Hlt. pose proof (zlen_nonneg before). pose proof (zlen_nonneg (object_text n g v)). pose proof (zlen_nonneg after). lia.
    - destruct (comp_of n (mr_stms r)) as [[s j]|] eqn:Ec.
      + destruct (comp_bounds _ _ _ _ Ec R2) as (C1 & C2). cbn [fields]. lia.
      + cbn [fields]. lia.
  Qed.
  Lemma xref_stm start prev r d raw : mrev_ok r -> 0 <= start -> start + zlen (body_text (objs_of r)) < 256 ^ 4 -> xvalue deflate start prev r = OStream d raw ->
    XrefStm inflate ccitt d raw (sec_of start r) /\ dget d (bs "Prev") = option_map OInt prev /\ stm_trailer d = trailer_read prev (mr_trailer r).
  Proof.
    intros Hr Hs Hlt E. pose proof Hr as (R1 & R2 & R3 & R4 & R5 & R6). change [bs "Type"; bs "W"; bs "Index"; bs "Prev"; bs "Filter"; bs "DecodeParms"; bs "Length"] with xkeys in R6.
    set (data := List.concat (map (row_bytes 1 4 2) (mrows deflate start r))) in *.
    assert (d = xdict prev r ++ [(bs "Filter", OName (bs "FlateDecode")); (bs "Length", OInt (zlen (deflate data)))] /\ raw = deflate data) as [Ed Eraw] by (unfold xvalue in E; fold data in E; unfold packed in E; split; congruence).
    assert (forall k, In k [bs "Type"; bs "W"; bs "Index"; bs "Prev"] -> dget d k = dget (xdict prev r) k) as Hd.
    { intros k Hk. rewrite Ed, dget_app2. destruct (dget (xdict prev r) k); [reflexivity|].
      cbn [In] in Hk. repeat (destruct Hk as [<-|Hk]; [reflexivity|]). destruct Hk. }
    split; [|split].
    - exists 1%nat, 4%nat, 2%nat. repeat split.
      + rewrite Hd by (cbn; tauto). rewrite xdict_key; [reflexivity|exact R6|cbn; tauto].
      + rewrite Hd by (cbn; tauto). rewrite xdict_key; [reflexivity|exact R6|cbn; tauto].
      + lia.
      + left. exists (Z.of_nat (mr_count r)). rewrite Hd by (cbn; tauto). rewrite xdict_key; [reflexivity|exact R6|cbn; tauto].
      + exact R4.
      + now apply rows_fit.
      + rewrite Ed, Eraw. apply packed_filtered; [exact Hround| |]; (rewrite xdict_key; [reflexivity|exact R6|cbn; tauto]).
    - rewrite Hd by (cbn; tauto). rewrite xdict_key; [reflexivity|exact R6|cbn; tauto].
    - eapply xdict_trailer; [exact R6|]. unfold xvalue in E. fold data in E. rewrite E, Eraw. reflexivity.
  Qed.
  Lemma x_text start prev r rest : mrev_ok r -> IndObj (mr_num r) 0 (xvalue deflate start prev r) (object_text (mr_num r) 0 (xvalue deflate start prev r)) rest.
  Proof.
    intros (R1 & R2 & R3 & R4 & R5 & R6). apply (packed_text inflate ccitt deflate Hround); [exact R3|lia|now apply xdict_printable| |]; (rewrite xdict_key; [reflexivity|exact R6|cbn; tauto]).
  Qed.
  Lemma mrev_len start prev r : zlen (body_text (objs_of r)) <= zlen (mrev_text deflate start prev r).
  Proof. unfold mrev_text. rewrite !zlen_app. pose proof (zlen_nonneg (object_text (mr_num r) 0 (xvalue deflate start prev r))). pose proof (zlen_nonneg (end_text (start + zlen (body_text (objs_of r))))). lia. Qed.

  Lemma mchain : forall revs, revs <> [] -> Forall mrev_ok revs -> zlen (W revs) < 256 ^ 4 ->
    forall post o, prev_of revs = Some o -> exists d, XChain inflate ccitt (W revs ++ post) o (msecs revs) (mxobjs revs) d /\
      match revs with [] => True | r :: older => stm_trailer d = trailer_read (prev_of older) (mr_trailer r) end.
  Proof.
    induction revs as [|r older IH]; intros Hne HF Hlt post o Eo; [congruence|]. inversion HF as [|? ? Hr HF']; subst.
    rewrite mprev_cons in Eo. injection Eo as <-. rewrite mwrite_cons in Hlt |- *. rewrite zlen_app in Hlt.
    pose proof (mrev_len (zlen (W older)) (prev_of older) r) as Hl. pose proof (zlen_nonneg (W older)) as Hw. pose proof (zlen_nonneg (body_text (objs_of r))) as Hb0.
    destruct (xvalue deflate (zlen (W older)) (prev_of older) r) as [|?|?|? ? ?|?|?|?|?|?|d raw|? ?|?|? ?] eqn:Ex; try discriminate Ex.
    destruct (xref_stm (zlen (W older)) (prev_of older) r d raw Hr ltac:(lia) ltac:(lia) Ex) as (HX & HP & HT).
    pose proof (fun rest => x_text (zlen (W older)) (prev_of older) r rest Hr) as Htx. rewrite Ex in Htx.
    exists d. split; [|exact HT]. cbn [msecs mxobjs]. rewrite Ex. rewrite <- zlen_app.
    assert ((W older ++ mrev_text deflate (zlen (W older)) (prev_of older) r) ++ post =
      (W older ++ body_text (objs_of r)) ++ object_text (mr_num r) 0 (OStream d raw) ++ end_text (zlen (W older) + zlen (body_text (objs_of r))) ++ post) as Ef.
    { unfold mrev_text. rewrite Ex, <- !app_assoc. reflexivity. }
    destruct (prev_of older) as [p|] eqn:Ep.
    - destruct older as [|r2 o2]; [discriminate|].
      destruct (IH ltac:(discriminate) HF' ltac:(pose proof (zlen_nonneg (mrev_text deflate (zlen (W (r2 :: o2))) (Some p) r)); lia) (mrev_text deflate (zlen (W (r2 :: o2))) (Some p) r ++ post) p eq_refl) as (d' & HC & _).
      eapply XC_prev; [exact Ef|apply Htx|exact HX|rewrite HP; reflexivity|eapply mprev_nonneg; exact Ep|]. rewrite <- app_assoc. exact HC.
    - destruct older as [|r2 o2]; [|rewrite mprev_cons in Ep; discriminate].
      eapply XC_last; [exact Ef|apply Htx|exact HX|rewrite HP; reflexivity].
  Qed.

  (** the body *)
  Notation robjs := (rev_objects deflate).
  Notation dobjs := (file_objects deflate a b).
  Lemma mobjs_text r n g v rest : mrev_ok r -> In (n, g, v) (objs_of r) -> IndObj n g v (object_text n g v) rest.
  Proof.
    intros (R1 & R2 & _) H. unfold mobjs in H. apply in_app_or in H. rewrite Forall_forall in R1, R2. destruct H as [H|H].
    - destruct (R1 _ H) as (A & B & C). cbn [fst snd] in *. apply object_text_ok; auto; lia.
    - apply in_map_iff in H. destruct H as ([s ms] & E & H). injection E as <- <- <-. destruct (R2 _ H) as (A & _). cbn [fst snd] in *. apply (stm_text inflate ccitt deflate Hround). lia.
  Qed.
  Lemma end_body o l ts rest : 0 <= o -> ModBody l ts rest -> ModBody l (end_text o ++ ts) rest.
  Proof.
    intros Ho HB. destruct (dec_ok o Ho) as (D1 & D2 & D3). unfold end_text. rewrite <- !app_assoc.
    assert (ModBody l (10 :: 37 :: bs "%EOF" ++ [10] ++ ts) rest) as HB2.
    { apply (body_prefix (fun x => 10 :: 37 :: bs "%EOF" ++ [10] ++ x)); [|reflexivity|exact HB].
      intros s Hs. apply sep_lf. apply (sep_line (bs "%EOF") s); [|exact Hs]. repeat constructor; discriminate. }
    apply (MB_start [10] [10] (dec o) l (10 :: 37 :: bs "%EOF" ++ [10] ++ ts) rest); auto; try (apply sep_lf; constructor). reflexivity.
  Qed.
  Lemma rev_body start prev r l ts rest : mrev_ok r -> 0 <= start -> ModBody l ts rest -> ModBody (robjs start prev r ++ l) (mrev_text deflate start prev r ++ ts) rest.
  Proof.
    intros Hr Hs HB. unfold rev_objects, mrev_text. rewrite <- !app_assoc. pose proof (fun n g v rest => mobjs_text r n g v rest Hr) as HT. pose proof (zlen_nonneg (body_text (objs_of r))) as H0.
    assert (ModBody ([(mr_num r, 0, xvalue deflate start prev r)] ++ l) (object_text (mr_num r) 0 (xvalue deflate start prev r) ++ end_text (start + zlen (body_text (objs_of r))) ++ ts) rest) as HX.
    { apply (MB_obj []); [constructor|now apply x_text|apply end_body; [lia|exact HB]]. }
    revert HX. generalize ([(mr_num r, 0, xvalue deflate start prev r)] ++ l) (object_text (mr_num r) 0 (xvalue deflate start prev r) ++ end_text (start + zlen (body_text (objs_of r))) ++ ts).
    intros l1 t1 HX. clear - HT HX. induction (objs_of r) as [|[[n g] v] os IH]; [exact HX|]. cbn [body_text app]. rewrite <- !app_assoc.
    apply (MB_obj []); [constructor|apply HT; now left|]. apply (body_prefix (fun x => [10] ++ x)); [intros s; apply sep_lf|reflexivity|]. apply IH. intros n0 g0 v0 rest0 Hi. apply HT. now right.
  Qed.
  Lemma file_body : forall revs, Forall mrev_ok revs -> forall l ts rest, ModBody l ts rest -> ModBody (dobjs revs ++ l) (W revs ++ ts) rest.
  Proof.
    induction revs as [|r older IH]; intros HF l ts rest HB.
    - cbn [file_objects app mwrite fst]. unfold version_line. replace ((bs "%PDF-" ++ [a; 46; b] ++ [10]) ++ ts) with (37 :: (bs "PDF-" ++ [a; 46; b]) ++ [10] ++ ts) by reflexivity.
      apply (body_prefix (fun x => 37 :: (bs "PDF-" ++ [a; 46; b]) ++ [10] ++ x)); [|reflexivity|exact HB]. intros s Hs. apply sep_line; [|exact Hs].
      unfold is_digit in Ha, Hb. repeat constructor; cbn; lia.
    - inversion HF as [|? ? Hr HF']; subst. rewrite mwrite_cons. cbn [file_objects]. rewrite <- !app_assoc. apply IH; [exact HF'|]. apply rev_body; auto using zlen_nonneg.
  Qed.

  (** the listed objects *)
  Lemma listed_written : forall revs, Forall mrev_ok revs -> forall post n g o, newest_row (msecs revs) n g o ->
    exists before text after v, o = zlen before /\ W revs ++ post = before ++ text ++ after /\ IndObj n g v text after /\ In (n, g, v) (dobjs revs).
  Proof.
    intros revs HF post n g o (newer & sec & old & E & HL & _). assert (In sec (msecs revs)) as Hin by (rewrite E; apply in_or_app; right; now left). clear E.
    revert post. induction revs as [|r older IH]; [destruct Hin|]. inversion HF as [|? ? Hr HF']; subst. intros post. rewrite mwrite_cons. cbn [file_objects msecs] in *. destruct Hin as [<-|Hin].
    - unfold mrev_text. destruct (sec_lists _ _ _ _ _ HL) as [(v & before & after & H1 & H2 & H3)|(-> & -> & ->)].
      + exists (W older ++ before), (object_text n g v). eexists. exists v. split; [rewrite zlen_app; lia|]. split; [rewrite H2 at 1; rewrite <- !app_assoc; reflexivity|].
        split; [now apply (mobjs_text r)|]. apply in_or_app. right. apply in_or_app. now left.
      + exists (W older ++ body_text (objs_of r)), (object_text (mr_num r) 0 (xvalue deflate (zlen (W older)) (prev_of older) r)). eexists. eexists. split; [now rewrite zlen_app|].
        split; [rewrite <- !app_assoc; reflexivity|]. split; [now apply x_text|]. apply in_or_app. right. apply in_or_app. right. now left.
    - rewrite <- app_assoc. destruct (IH HF' Hin (mrev_text deflate (zlen (W older)) (prev_of older) r ++ post)) as (before & text & after & v & H1 & H2 & H3 & H4).
      exists before, text, after, v. repeat split; auto. apply in_or_app. now left.
  Qed.

  (** the elements *)
  Definition relems (start : Z) (prev : option Z) (r : mrev) : list elem :=
    map (fun e => (e, [])) (mr_objs r) ++ map (fun s => (fst s, 0, stm_value deflate (snd s), snd s)) (mr_stms r) ++ [(mr_num r, 0, xvalue deflate start prev r, [])].
  Fixpoint delems (revs : list mrev) : list elem :=
    match revs with [] => [] | r :: older => delems older ++ relems (zlen (W older)) (prev_of older) r end.
  Notation viewed := (Viewed inflate ccitt (fun (_ _ : Z) (v : obj) => Ok v)).
  Lemma rviewed start prev r : mrev_ok r -> Forall2 viewed (robjs start prev r) (relems start prev r).
  Proof.
    intros (R1 & R2 & _). unfold rev_objects, relems, mobjs. rewrite <- app_assoc. apply Forall2_app; [|apply Forall2_app].
    - clear - R1. induction R1 as [|[[n g] v] l (A & B & C) _ IH]; cbn [map]; constructor; [|exact IH]. cbn [fst snd] in *. repeat split. now apply held_writable.
    - clear - R2 Hround. induction R2 as [|[s ms] l (A & B & C) _ IH]; cbn [map]; constructor; [|exact IH]. cbn [fst snd] in *. repeat split. now apply stm_held.
    - constructor; [|constructor]. repeat split. constructor. intros d raw E. assert (dget d (bs "Type") = Some (OName (bs "XRef"))) as -> by (unfold xvalue, packed, xdict in E; injection E as <- _; reflexivity). intros X. cbn [In] in X.
      destruct X as [X|[X|[X|[]]]]; discriminate X.
  Qed.
  Lemma dviewed revs : Forall mrev_ok revs -> Forall2 viewed (dobjs revs) (delems revs).
  Proof. induction 1 as [|r older Hr _ IH]; cbn [file_objects delems]; [constructor|]. apply Forall2_app; [exact IH|now apply rviewed]. Qed.
  Lemma elem_of_obj revs : Forall mrev_ok revs -> forall n g v, In (n, g, v) (dobjs revs) -> exists ms, In (n, g, v, ms) (delems revs) /\ Held inflate ccitt v ms.
  Proof.
    intros HF n g v. pose proof (dviewed revs HF) as HV. induction HV as [|[[n0 g0] v0] [[[n1 g1] v1] ms] l l' (E1 & E2 & E3 & E4) HV IH]; [intros []|].
    intros [X|X]; [|destruct (IH X) as (ms' & H1 & H2); exists ms'; split; [now right|exact H2]]. injection X as -> -> ->. injection E3 as <-. subst. exists ms. split; [now left|exact E4].
  Qed.
  (** contents *)
  Definition spread (e : elem) : list (Z * Z * obj) := let '(n, g, v, ms) := e in (n, g, v) :: map (fun m => (fst m, 0, snd m)) ms.
  Lemma spread_contents revs : flat_map spread (delems revs) = file_contents deflate a b revs.
  Proof.
    induction revs as [|r older IH]; [reflexivity|]. cbn [delems file_contents]. rewrite flat_map_app, IH. f_equal. unfold relems, rev_contents. rewrite !flat_map_app. f_equal; [|f_equal].
    - induction (mr_objs r) as [|[[n g] v] l IHl]; cbn [map flat_map]; [reflexivity|]. cbn [spread map app]. now rewrite IHl.
    - induction (mr_stms r) as [|[s ms] l IHl]; cbn [map flat_map]; [reflexivity|]. rewrite IHl. reflexivity.
  Qed.
  Lemma spread_ids l : flat_map ids_of l = map fst (flat_map spread l).
  Proof.
    induction l as [|[[[n g] v] ms] l IH]; [reflexivity|]. cbn [flat_map ids_of spread]. rewrite map_app, IH. cbn [map fst app]. f_equal. f_equal. rewrite map_map. reflexivity.
  Qed.
  Lemma find_app l1 l2 n g : find_obj (l1 ++ l2) n g = match find_obj l1 n g with Some v => Some v | None => find_obj l2 n g end.
  Proof. induction l1 as [|[[n0 g0] v0] l1 IH]; [reflexivity|]. cbn [app find_obj]. now destruct ((n0 =? n) && (g0 =? g)). Qed.
  Lemma find_members ms n g : find_obj (map (fun m => (fst m, 0, snd m)) ms) n g = if g =? 0 then first_of ms n else None.
  Proof.
    induction ms as [|[m v] ms IH]; cbn [map find_obj first_of fst snd]; [now destruct (g =? 0)|]. rewrite (Z.eqb_sym 0 g), (Z.eqb_sym m n).
    rewrite IH. destruct (g =? 0); destruct (n =? m); reflexivity.
  Qed.
  Lemma provided_find l n g : provided l n g = find_obj (flat_map spread l) n g.
  Proof.
    induction l as [|[[[n0 g0] v0] ms] l IH]; [reflexivity|]. cbn [provided flat_map spread app find_obj]. rewrite (Z.eqb_sym n n0), (Z.eqb_sym g g0). destruct ((n0 =? n) && (g0 =? g)); [reflexivity|].
    rewrite find_app, find_members, IH. reflexivity.
  Qed.
  Lemma find_in_nodup l n g v : NoDup (map fst l) -> In (n, g, v) l -> find_obj l n g = Some v.
  Proof.
    induction l as [|[[n0 g0] v0] l IH]; intros HN HI; [destruct HI|]. cbn [find_obj]. cbn [map fst] in HN. inversion HN as [|? ? Hni HN']; subst. destruct HI as [X|X].
    - injection X as -> -> ->. now rewrite !Z.eqb_refl.
    - destruct ((n0 =? n) && (g0 =? g)) eqn:E; [|now apply IH]. exfalso. apply Hni. apply in_map_iff. exists (n, g, v). split; [|exact X]. apply andb_true_iff in E. cbn [fst]. f_equal; lia.
  Qed.
  Lemma mxobjs_in revs n g v : In (n, g, v) (mxobjs revs) -> In (n, g, v, []) (delems revs).
  Proof.
    induction revs as [|r older IH]; [intros []|]. cbn [mxobjs delems]. intros [X|X]; apply in_or_app; [right|left; auto]. unfold relems. rewrite <- X. apply in_or_app. right. apply in_or_app. right. now left.
  Qed.
  Lemma msecs_len revs : List.length (msecs revs) = List.length revs.
  Proof. induction revs; cbn [msecs List.length]; auto. Qed.
  Lemma opened_in objs n g v : opened_with objs n g = Some v -> In (n, g, v) objs.
  Proof.
    assert (forall os K, fold_left (fun K e => learn K (fst (fst e)) (snd (fst e)) (snd e)) os K n g = Some v -> In (n, g, v) os \/ K n g = Some v) as HF.
    { induction os as [|[[x y] w] os IH]; intros K; cbn [fold_left fst snd]; [auto|]. intros H. destruct (IH _ H) as [Hv|H1]; [left; now right|].
      unfold learn in H1. destruct (K n g); [now right|]. destruct ((n =? x) && (g =? y)) eqn:Eab; [|discriminate]. left. left. injection H1 as ->. f_equal. f_equal; apply andb_true_iff in Eab; lia. }
    intros H. destruct (HF _ _ H) as [X|X]; [exact X|discriminate].
  Qed.
  Lemma mfacts r older : Forall mrev_ok (r :: older) -> zlen (W (r :: older)) < 256 ^ 4 ->
    exists o d, header_of (W (r :: older)) (Ok ([a; 46; b], 0)) /\ offset_of (W (r :: older)) (Ok o) /\ XChain inflate ccitt (W (r :: older)) o (msecs (r :: older)) (mxobjs (r :: older)) d /\
      stm_trailer d = trailer_read (prev_of older) (mr_trailer r) /\ ModBody (dobjs (r :: older)) (W (r :: older)) [].
  Proof.
    intros HF Hlt. destruct (mchain (r :: older) ltac:(discriminate) HF Hlt [] _ (mprev_cons r older)) as (d & HC & HT). rewrite app_nil_r in HC.
    eexists. exists d. split; [|split; [|split; [exact HC|split; [exact HT|]]]].
    - destruct (mW_version (r :: older)) as [rest Er]. apply (header_written _ _ _ rest); auto. rewrite mwrite_cons, zlen_app. unfold mrev_text, object_text, end_text. rewrite !zlen_app.
      repeat match goal with |- context [zlen (bs ?x)] => let n := eval vm_compute in (zlen (bs x)) in change (zlen (bs x)) with n end. change (zlen [10]) with 1. change (zlen [32]) with 1.
      repeat match goal with |- context [zlen ?x] => lazymatch goal with H : 0 <= zlen x |- _ => fail | _ => pose proof (zlen_nonneg x) end end. lia.
    - rewrite mwrite_cons. unfold mrev_text. rewrite !app_assoc. apply offset_written. pose proof (zlen_nonneg (W older)). pose proof (zlen_nonneg (body_text (objs_of r))). lia.
    - rewrite <- (app_nil_r (W (r :: older))), <- (app_nil_r (dobjs (r :: older))). apply file_body; [exact HF|]. constructor; [constructor|reflexivity].
  Qed.
End Files.

(** C79 (c).  A file written with cross-reference streams and object streams, in any number of revisions,
    where no id is used twice: it opens with its version and trailer, and every sequence of lookups, of
    any ids in any order, gives each object written - plain, in an object stream, or itself a stream of
    the file's structure - and null for other ids. *)
Theorem C79_written : forall inflate ccitt deflate a b r older,
  (forall x, inflate (deflate x) = Some x) -> is_digit a = true -> is_digit b = true ->
  Forall mrev_ok (r :: older) -> zlen (modern_file deflate a b (r :: older)) < 256 ^ 4 ->
  NoDup (map fst (file_contents deflate a b (r :: older))) ->
  forall D m k, (2 <= D)%nat -> 4 * zlen (modern_file deflate a b (r :: older)) + 8 <= Z.of_nat m -> (List.length older <= k)%nat ->
  exists s, arun (modern_file deflate a b (r :: older)) (open_document inflate ccitt no_decrypt D m k) (mkA 0 [] rst0) =
              (Ok ([a; 46; b], 0, trailer_read (snd (mwrite deflate a b older)) (mr_trailer r)), s) /\
  forall k' ids, (1 <= k')%nat ->
    fst (session inflate ccitt no_decrypt D m k' (modern_file deflate a b (r :: older)) s ids) =
    map (fun id => Ok (match find_obj (file_contents deflate a b (r :: older)) (fst id) (snd id) with Some v => v | None => ONull end)) ids.
Proof.
  intros inflate ccitt deflate a b r older Hround Ha Hb HF Hlt Hnd D m k HD Hm Hk. unfold modern_file in *.
  destruct (mfacts inflate ccitt deflate Hround a b Ha Hb r older HF Hlt) as (o & d & Hh & Hoff & HC & HT & HB). rewrite <- HT.
  set (f := fst (mwrite deflate a b (r :: older))) in *.
  assert (NoDup (flat_map ids_of (delems deflate a b (r :: older)))) as Hnd2 by (rewrite spread_ids, spread_contents; exact Hnd).
  destruct (C79_any_objects inflate ccitt no_decrypt f [a; 46; b] [] f [] o (msecs deflate a b (r :: older)) (mxobjs deflate a b (r :: older)) d (file_objects deflate a b (r :: older)) (delems deflate a b (r :: older)))
    with (D := D) (m := m) (k := k) as (s & E & HS); auto.
  - now rewrite app_nil_r.
  - now apply dviewed.
  - intros c X. discriminate X.
  - intros n g o' Hn. destruct (listed_written inflate ccitt deflate Hround a b Ha Hb (r :: older) HF [] n g o' Hn) as (before & text & after & v & H1 & H2 & H3 & H4). fold f in H2. rewrite app_nil_r in H2.
    destruct (elem_of_obj inflate ccitt deflate Hround a b (r :: older) HF n g v H4) as (ms & H5 & H6). exists before, text, after, v, v, ms. repeat split; auto.
  - intros n g v H. exists v. now apply mxobjs_in.
  - rewrite msecs_len. cbn [List.length]. lia.
  - exists s. split; [exact E|]. intros k' ids Hk'. rewrite (HS k' ids Hk'). apply map_ext. intros [n g]. cbn [fst snd]. f_equal.
    rewrite provided_find, spread_contents. destruct (opened_with (mxobjs deflate a b (r :: older)) n g) as [v|] eqn:Eo; [|reflexivity].
    apply (opened_in a b Ha Hb) in Eo. apply mxobjs_in in Eo.
    rewrite (find_in_nodup a b Ha Hb _ n g v Hnd); [reflexivity|]. rewrite <- spread_contents. apply in_flat_map. eexists. split; [exact Eo|]. now left.
Qed.
Print Assumptions C79_written.

(** ---- the oldest value wins ---- *)

Lemma find_some_in l n g v : find_obj l n g = Some v -> In (n, g, v) l.
Proof.
  induction l as [|[[n0 g0] v0] l IH]; cbn [find_obj]; [discriminate|]. destruct ((n0 =? n) && (g0 =? g)) eqn:E; [|intros H; right; auto].
  intros H. injection H as ->. left. apply andb_true_iff in E. repeat f_equal; lia.
Qed.
(** The lookups of a written file, where the objects that stand in the file have different ids. *)
Lemma sessions_written inflate ccitt deflate a b r older :
  (forall x, inflate (deflate x) = Some x) -> is_digit a = true -> is_digit b = true ->
  Forall mrev_ok (r :: older) -> zlen (modern_file deflate a b (r :: older)) < 256 ^ 4 ->
  NoDup (map fst (file_objects deflate a b (r :: older))) ->
  exists listed : Z -> Z -> option (obj * list (Z * obj)), (forall n g v ms, listed n g = Some (v, ms) -> In (n, g, v, ms) (delems deflate a b (r :: older))) /\
  (forall n g v, (exists o, newest_row (msecs deflate a b (r :: older)) n g o) -> In (n, g, v) (file_objects deflate a b (r :: older)) -> listed n g <> None) /\
  forall D m k, (2 <= D)%nat -> 4 * zlen (modern_file deflate a b (r :: older)) + 8 <= Z.of_nat m -> (List.length older <= k)%nat ->
  exists s, arun (modern_file deflate a b (r :: older)) (open_document inflate ccitt no_decrypt D m k) (mkA 0 [] rst0) =
              (Ok ([a; 46; b], 0, trailer_read (snd (mwrite deflate a b older)) (mr_trailer r)), s) /\
  forall k' ids, (1 <= k')%nat ->
    fst (session inflate ccitt no_decrypt D m k' (modern_file deflate a b (r :: older)) s ids) =
    map Ok (mlooks listed (opened_with (mxobjs deflate a b (r :: older)), delems deflate a b (r :: older)) ids).
Proof.
  intros Hround Ha Hb HF Hlt Hnd. unfold modern_file in *.
  destruct (mfacts inflate ccitt deflate Hround a b Ha Hb r older HF Hlt) as (o & d & Hh & Hoff & HC & HT & HB). rewrite <- HT.
  set (f := fst (mwrite deflate a b (r :: older))) in *. set (revs := r :: older) in *.
  pose proof (dviewed inflate ccitt deflate Hround a b revs HF) as HV.
  set (l := delems deflate a b revs) in *. set (secs := msecs deflate a b revs) in *.
  assert (forall e e', In e l -> In e' l -> fst (fst e) = fst (fst e') -> e = e') as Hsame.
  { assert (map (fun e => fst (fst e)) l = map fst (file_objects deflate a b revs)) as El.
    { clear - HV. induction HV as [|[[n0 g0] v0] [[[n1 g1] v1] ms] l0 l' (E1 & E2 & E3 & E4) HV IH]; [reflexivity|]. cbn [map fst]. rewrite IH. now subst. }
    rewrite <- El in Hnd. clearbody l. clear - Hnd. induction l as [|e0 l IH]; [intros ? ? []|]. cbn [map] in Hnd. inversion Hnd as [|? ? Hni Hnd']; subst.
    intros e e' [<-|H1] [<-|H2] E; [reflexivity| | |now apply IH]; exfalso; apply Hni; [rewrite E|rewrite <- E]; now apply (in_map (fun e => fst (fst e))). }
  set (find := fix find (r : list elem) (n g : Z) : option (obj * list (Z * obj)) :=
    match r with [] => None | (a, b, v, ms) :: r' => if (n =? a) && (g =? b) then Some (v, ms) else find r' n g end).
  assert (forall r n g v ms, find r n g = Some (v, ms) -> In (n, g, v, ms) r) as Hfind.
  { clear. induction r as [|[[[x y] w] ms0] r IH]; intros n g v ms; cbn [find]; [discriminate|]. destruct ((n =? x) && (g =? y)) eqn:E.
    - intros X. injection X as -> ->. left. assert (n = x /\ g = y) as [-> ->] by (apply andb_true_iff in E; lia). reflexivity.
    - intros X. right. now apply IH. }
  assert (forall n g v ms, In (n, g, v, ms) l -> find l n g <> None) as Hfind2.
  { clearbody l. clear. intros n g v ms He. induction l as [|[[[x y] w] ms0] r0 IH]; [destruct He|]. cbn [find]. destruct ((n =? x) && (g =? y)) eqn:E; [discriminate|]. destruct He as [X|X]; [injection X as -> -> -> ->; rewrite !Z.eqb_refl in E; discriminate|auto]. }
  set (row := fun (sec : section) (n g : Z) => match row_of (fst sec) (snd sec) n with Some (RUsed _ g') => g' =? g | _ => false end).
  set (listed := fun n g => if existsb (fun sec => row sec n g) secs then find l n g else None).
  assert (forall sec n g, row sec n g = false -> forall o', ~ lists sec n g o') as Hrow0.
  { intros sec n g E o' X. unfold row in E. unfold lists in X. rewrite X in E. lia. }
  assert (forall sec n g, row sec n g = true -> exists o', lists sec n g o') as Hrow1.
  { intros sec n g E. unfold row in E. unfold lists. destruct (row_of (fst sec) (snd sec) n) as [[? ?|o1 g1|? ?|? ? ?]|]; try discriminate E. assert (g1 = g) as -> by lia. eauto. }
  assert (forall n g, existsb (fun sec => row sec n g) secs = true -> exists o', newest_row secs n g o') as Hex.
  { clearbody secs. clear - Hrow0 Hrow1. intros n g. induction secs as [|sec secs IH]; cbn [existsb]; [discriminate|]. destruct (row sec n g) eqn:E.
    - intros _. destruct (Hrow1 _ _ _ E) as [o' Ho']. exists o', [], sec, secs. repeat split; auto.
    - cbn [orb]. intros H. destruct (IH H) as (o' & nw & sc & od & E1 & E2 & E3). exists o', (sec :: nw), sc, od. split; [now rewrite E1|]. split; [exact E2|]. constructor; auto. }
  assert (forall n g o', newest_row secs n g o' -> existsb (fun sec => row sec n g) secs = true) as Hex2.
  { intros n g o' (nw & sc & od & E1 & E2 & E3). apply existsb_exists. exists sc. split; [rewrite E1; apply in_or_app; right; now left|]. unfold row. unfold lists in E2. rewrite E2. apply Z.eqb_refl. }
  assert (forall n g o', newest_row secs n g o' -> exists before text after v ms, o' = zlen before /\ f = before ++ text ++ after /\ IndObj n g v text after /\ In (n, g, v, ms) l /\ Held inflate ccitt v ms) as HL.
  { intros n g o' Hn. destruct (listed_written inflate ccitt deflate Hround a b Ha Hb revs HF [] n g o' Hn) as (before & text & after & v & H1 & H2 & H3 & H4). fold f in H2. rewrite app_nil_r in H2.
    destruct (elem_of_obj inflate ccitt deflate Hround a b revs HF n g v H4) as (ms & H5 & H6). exists before, text, after, v, ms. auto 10. }
  exists listed. split; [|split].
  - intros n g v ms. unfold listed. destruct (existsb _ secs); [apply Hfind|discriminate].
  - intros n g v [o' Ho'] Hin. unfold listed. rewrite (Hex2 n g o' Ho'). destruct (elem_of_obj inflate ccitt deflate Hround a b revs HF n g v Hin) as (ms & H5 & _). eapply Hfind2; exact H5.
  - intros D m k HD Hm Hk.
    destruct (C79_sessions_exactly inflate ccitt no_decrypt f [a; 46; b] [] f [] o secs (mxobjs deflate a b revs) d listed (file_objects deflate a b revs) l) with (D := D) (m := m) (k := k) as (s & E & HS); auto.
    + now rewrite app_nil_r.
    + intros c X. discriminate X.
    + intros n g v ms. unfold listed. destruct (existsb (fun sec => row sec n g) secs) eqn:Ee; [|discriminate]. intros Hf. apply Hfind in Hf.
      destruct (Hex n g Ee) as [o' Ho']. destruct (HL n g o' Ho') as (before & text & aft & v1 & ms1 & -> & E2 & HI & Hin & HH).
      assert ((n, g, v, ms) = (n, g, v1, ms1)) as X by (apply (Hsame _ _ Hf Hin); reflexivity). injection X as -> ->. exists before, text, aft, v1. repeat split; auto.
    + intros n g o' Ho'. unfold listed. rewrite (Hex2 n g o' Ho'). destruct (HL n g o' Ho') as (before & text & aft & v1 & ms1 & _ & _ & _ & Hin & _). eapply Hfind2; exact Hin.
    + unfold secs. rewrite msecs_len. unfold revs. cbn [List.length]. lia.
    + exists s. auto.
Qed.

Lemma first_member ms n v : first_of ms n = Some v -> In n (map fst ms).
Proof. clear. induction ms as [|[m w] ms IH]; cbn [first_of map fst]; [discriminate|]. destruct (n =? m) eqn:E; [left; lia|right; auto]. Qed.
Lemma scan_first n : forall l K, K n 0 = None -> NoDup (map (fun e : elem => fst (fst e)) l) ->
  Forall (fun e : elem => (snd e = [] \/ K (fst (fst (fst e))) (snd (fst (fst e))) = None) /\ fst (fst e) <> (n, 0)) l ->
  (forall m, In (m, 0) (map (fun e : elem => fst (fst e)) l) -> forall e, In e l -> ~ In m (map fst (snd e))) ->
  fst (scan_elems K l n 0) n 0 = Some (match provided l n 0 with Some v => v | None => ONull end).
Proof.
  induction l as [|[[[c g] v] ms] l IH]; intros K Hn Hnd HF Hm; cbn [scan_elems]; rewrite Hn.
  - cbn [fst provided]. rewrite learn_here, Hn. reflexivity.
  - cbn [map fst] in Hnd. inversion Hnd as [|? ? Hni Hnd']; subst. inversion HF as [|? ? [HK Hne] HF']; subst. cbn [fst snd] in HK, Hne. cbn [provided].
    assert ((n =? c) && (0 =? g) = false) as E by (destruct ((n =? c) && (0 =? g)) eqn:E; [exfalso; apply Hne; apply andb_true_iff in E; f_equal; lia|reflexivity]). rewrite E.
    change (0 =? 0) with true. cbv iota.
    assert (first_of ms n = None -> fst (scan_elems (learn_elem K (c, g, v, ms)) l n 0) n 0 = Some match provided l n 0 with Some v0 => v0 | None => ONull end) as Hgo.
    { intros Ef. apply IH.
      - rewrite learn_elem_get. destruct (K c g) as [w|]; [exact Hn|]. rewrite E. rewrite Hn. exact Ef.
      - exact Hnd'.
      - rewrite Forall_forall in HF' |- *. intros e He. destruct (HF' e He) as [HKe Hne']. split; [|exact Hne']. destruct HKe as [HKe|HKe]; [now left|right].
        rewrite learn_elem_get. destruct (K c g) as [w|]; [exact HKe|]. destruct ((fst (fst (fst e)) =? c) && (snd (fst (fst e)) =? g)) eqn:E2.
        + exfalso. apply Hni. apply in_map_iff. exists e. split; [|exact He]. apply andb_true_iff in E2. destruct e as [[[c' g'] v'] ms']. cbn [fst snd] in *. f_equal; lia.
        + rewrite HKe. destruct (snd (fst (fst e)) =? 0) eqn:E0; [|reflexivity]. destruct (first_of ms (fst (fst (fst e)))) as [w|] eqn:Ef2; [|reflexivity]. exfalso.
          apply (Hm (fst (fst (fst e)))) with (e := (c, g, v, ms)); [|now left|eapply first_member; exact Ef2]. right. apply in_map_iff. exists e. split; [|exact He].
          destruct e as [[[c' g'] v'] ms']. cbn [fst snd] in *. f_equal. lia.
      - intros m Hin e He. apply Hm; [now right|now right]. }
    destruct (first_of ms n) as [w|] eqn:Ef; [|now apply Hgo].
    assert (K c g = None) as HKc by (destruct HK as [HK|HK]; [cbn [snd] in HK; subst ms; discriminate Ef|exact HK]).
    assert (learn_elem K (c, g, v, ms) n 0 = Some w) as HL by (rewrite learn_elem_get, HKc, E, Hn; exact Ef).
    destruct l as [|e' l']; cbn [scan_elems]; rewrite HL; exact HL.
Qed.

(** C79 (d).  An object that is kept in object streams only, and occurs in those of several revisions: the
    lookup after opening gives the OLDEST value (that nearest to the start of the file). *)
Theorem C79_oldest_value : forall inflate ccitt deflate a b r older n,
  (forall x, inflate (deflate x) = Some x) -> is_digit a = true -> is_digit b = true ->
  Forall mrev_ok (r :: older) -> zlen (modern_file deflate a b (r :: older)) < 256 ^ 4 ->
  NoDup (map fst (file_objects deflate a b (r :: older))) -> ~ In (n, 0) (map fst (file_objects deflate a b (r :: older))) ->
  (forall rv s ms m, In rv (r :: older) -> In (s, ms) (mr_stms rv) -> In m (map fst ms) -> ~ In (m, 0) (map fst (file_objects deflate a b (r :: older)))) ->
  forall D m k, (2 <= D)%nat -> 4 * zlen (modern_file deflate a b (r :: older)) + 8 <= Z.of_nat m -> (List.length older <= k)%nat ->
  exists t s, arun (modern_file deflate a b (r :: older)) (open_document inflate ccitt no_decrypt D m k) (mkA 0 [] rst0) = (Ok ([a; 46; b], 0, t), s) /\
  forall k', (1 <= k')%nat ->
    fst (session inflate ccitt no_decrypt D m k' (modern_file deflate a b (r :: older)) s [(n, 0)]) =
    [Ok (match find_obj (file_contents deflate a b (r :: older)) n 0 with Some v => v | None => ONull end)].
Proof.
  intros inflate ccitt deflate a b r older n Hround Ha Hb HF Hlt Hnd Hn Hmem D m k HD Hm Hk.
  destruct (sessions_written inflate ccitt deflate a b r older Hround Ha Hb HF Hlt Hnd) as (listed & HL1 & HL2 & HS). destruct (HS D m k HD Hm Hk) as (s & E & Hs).
  eexists _, s. split; [exact E|]. intros k' Hk'. rewrite (Hs k' _ Hk'). clear HS Hs E.
  set (revs := r :: older) in *. pose proof (dviewed inflate ccitt deflate Hround a b revs HF) as HV.
  assert (map (fun e : elem => fst (fst e)) (delems deflate a b revs) = map fst (file_objects deflate a b revs)) as El.
  { clear - HV. induction HV as [|[[n0 g0] v0] [[[n1 g1] v1] ms] l0 l' (E1 & E2 & E3 & E4) HV IH]; [reflexivity|]. cbn [map fst]. rewrite IH. now subst. }
  assert (forall e, In e (delems deflate a b revs) -> snd e = [] \/ exists rv, In rv revs /\ In (fst (fst (fst e)), snd e) (mr_stms rv) /\ snd (fst (fst e)) = 0) as Hel.
  { clear. induction revs as [|rv old IH]; [intros ? []|]. cbn [delems]. intros e He. apply in_app_or in He. destruct He as [He|He].
    - destruct (IH e He) as [X|(rv' & H1 & H2)]; [now left|right; exists rv'; split; [now right|exact H2]].
    - unfold relems in He. apply in_app_or in He. destruct He as [He|He]; [apply in_map_iff in He; destruct He as (x & <- & _); now left|].
      apply in_app_or in He. destruct He as [He|[<-|[]]]; [|now left]. apply in_map_iff in He. destruct He as ([s ms] & <- & Hs). right. exists rv. cbn [fst snd]. split; [now left|]. split; [exact Hs|reflexivity]. }
  cbn [mlooks map]. unfold mlook. cbn [fst snd].
  destruct (listed n 0) as [[v ms]|] eqn:Eli.
  { exfalso. apply Hn. rewrite <- El. apply HL1 in Eli. apply in_map_iff. eexists. split; [|exact Eli]. reflexivity. }
  assert (fst (scan_elems (opened_with (mxobjs deflate a b revs)) (delems deflate a b revs) n 0) n 0 = Some match find_obj (file_contents deflate a b revs) n 0 with Some v => v | None => ONull end) as Hsc.
  { rewrite <- spread_contents, <- provided_find. apply scan_first.
    - destruct (opened_with (mxobjs deflate a b revs) n 0) as [w|] eqn:Eo; [|reflexivity]. exfalso. apply Hn. rewrite <- El. apply (opened_in a b Ha Hb) in Eo. apply mxobjs_in in Eo.
      apply in_map_iff. eexists. split; [|exact Eo]. reflexivity.
    - rewrite El. exact Hnd.
    - apply Forall_forall. intros e He. split.
      + destruct (Hel e He) as [X|(rv & H1 & H2 & H3)]; [now left|]. destruct (snd e) as [|m0 ms0] eqn:Ems; [now left|right].
        destruct (opened_with (mxobjs deflate a b revs) (fst (fst (fst e))) (snd (fst (fst e)))) as [w|] eqn:Eo; [|reflexivity]. exfalso. apply (opened_in a b Ha Hb) in Eo. apply mxobjs_in in Eo.
        assert (NoDup (map (fun e : elem => fst (fst e)) (delems deflate a b revs))) as HN by (rewrite El; exact Hnd).
        clear - HN He Eo Ems. induction (delems deflate a b revs) as [|e0 l IH]; [destruct He|]. cbn [map] in HN. inversion HN as [|? ? Hni HN']; subst.
        destruct He as [->|He], Eo as [E|Eo]; [rewrite E in Ems; discriminate Ems| | |now apply IH].
        * apply Hni. apply in_map_iff. eexists. split; [|exact Eo]. destruct e as [[[? ?] ?] ?]. reflexivity.
        * apply Hni. subst e0. apply in_map_iff. exists e. split; [|exact He]. destruct e as [[[? ?] ?] ?]. reflexivity.
      + intros X. apply Hn. rewrite <- El, <- X. now apply (in_map (fun e : elem => fst (fst e))).
    - intros m0 Hin e He Hme. destruct (Hel e He) as [X|(rv & H1 & H2 & H3)]; [rewrite X in Hme; destruct Hme|]. rewrite El in Hin. exact (Hmem rv _ _ m0 H1 H2 Hme Hin). }
  destruct (scan_elems (opened_with (mxobjs deflate a b revs)) (delems deflate a b revs) n 0) as [K1 l1]. cbn [fst] in Hsc |- *. rewrite Hsc. reflexivity.
Qed.
Print Assumptions C79_oldest_value.

(** A file with two revisions: the old one has a catalog and an object stream (10) with objects 2 and 3,
    the new one a string and an object stream (12) with object 5. *)
Definition mex_old : mrev :=
  mkMRev [(1, 0, ODict [(bs "Type", OName (bs "Catalog")); (bs "Pages", ORef 2 0)])]
         [(10, [(2, ODict [(bs "Kids", OArr [ORef 3 0]); (bs "Count", OInt 0)]); (3, OInt 5)])] 11 0 12 [(bs "Root", ORef 1 0); (bs "Size", OInt 12)].
Definition mex_new : mrev :=
  mkMRev [(4, 1, OStr (bs "new"))] [(12, [(5, OName (bs "A")); (6, OInt 7); (7, ORef 1 0)])] 13 3 11 [(bs "Size", OInt 14); (bs "Root", ORef 1 0)].
(** ... and one that replaces object 3. *)
Definition mex_upd : mrev := mkMRev [] [(12, [(3, OInt 6)])] 13 0 14 [(bs "Root", ORef 1 0); (bs "Size", OInt 14)].
Ltac mwr := unfold mrev_ok; cbn [mr_objs mr_stms mr_num mr_first mr_count mr_trailer fst snd];
  repeat match goal with
  | |- _ /\ _ => split
  | |- Forall _ (snd (_, _)) => cbn [snd]
  | |- writable _ => progress cbn [writable snd printable fold_right fst map]
  | |- printable _ => progress cbn [snd printable fold_right fst map]
  | |- bytes_ok (bs ?x) => let l := eval vm_compute in (bs x) in change (bs x) with l; unfold bytes_ok
  | |- Forall _ (_ :: _) => constructor
  | |- Forall _ [] => constructor
  | |- NoDup (_ :: _) => constructor; [cbn; intuition discriminate|]
  | |- NoDup [] => constructor
  | |- True => exact I
  | |- byte_ok _ => unfold byte_ok; lia
  end; cbn [fst snd]; try (first [reflexivity | lia]).
Example mex_old_ok : mrev_ok mex_old. Proof. unfold mex_old. mwr. Qed.
Example mex_new_ok : mrev_ok mex_new. Proof. unfold mex_new. mwr. Qed.
Example mex_upd_ok : mrev_ok mex_upd. Proof. unfold mex_upd. mwr. Qed.
Definition store_only (x : list Z) : list Z := x.
Example C79_ex ccitt : exists s m,
  arun (modern_file store_only 49 53 [mex_new; mex_old]) (open_document Some ccitt no_decrypt 2 m 1) (mkA 0 [] rst0) =
    (Ok (bs "1.5", 0, [(bs "Size", OInt 14); (bs "Prev", OInt 196); (bs "Root", ORef 1 0); (bs "Encrypt", ONull); (bs "Info", ONull); (bs "ID", ONull)]), s) /\
  fst (session Some ccitt no_decrypt 2 m 1 (modern_file store_only 49 53 [mex_new; mex_old]) s [(7, 0); (3, 0); (4, 1); (9, 0); (1, 0); (5, 0); (3, 0)]) =
    [Ok (ORef 1 0); Ok (OInt 5); Ok (OStr (bs "new")); Ok ONull; Ok (ODict [(bs "Type", OName (bs "Catalog")); (bs "Pages", ORef 2 0)]); Ok (OName (bs "A")); Ok (OInt 5)].
Proof.
  destruct (C79_written Some ccitt store_only 49 53 mex_new [mex_old] (fun x => eq_refl) eq_refl eq_refl
    (Forall_cons _ mex_new_ok (Forall_cons _ mex_old_ok (Forall_nil _)))) with (D := 2%nat) (m := Z.to_nat (4 * zlen (modern_file store_only 49 53 [mex_new; mex_old]) + 8)) (k := 1%nat)
    as (s & E & HS); [vm_compute; reflexivity| |lia|rewrite Z2Nat.id; [lia|pose proof (zlen_nonneg (modern_file store_only 49 53 [mex_new; mex_old])); lia]|cbn; lia|].
  - assert (map fst (file_contents store_only 49 53 [mex_new; mex_old]) = [(1, 0); (10, 0); (2, 0); (3, 0); (11, 0); (4, 1); (12, 0); (5, 0); (6, 0); (7, 0); (13, 0)]) as -> by reflexivity.
    repeat (constructor; [cbn [In]; intros X; repeat (destruct X as [X|X]; [discriminate X|]); exact X|]). constructor.
  - eexists _, _. split; [rewrite E; do 4 f_equal; reflexivity|]. rewrite (HS 1%nat _ ltac:(lia)). reflexivity.
Qed.

(** C79 (e).  The claim that a lookup after opening gives the newest value of an object is false. *)
Theorem C79_update_refuted :
  ~ (forall inflate ccitt deflate a b r older n v D m k s t k',
      (forall x, inflate (deflate x) = Some x) -> is_digit a = true -> is_digit b = true ->
      Forall mrev_ok (r :: older) -> zlen (modern_file deflate a b (r :: older)) < 256 ^ 4 ->
      NoDup (map fst (file_objects deflate a b (r :: older))) ->
      (2 <= D)%nat -> 4 * zlen (modern_file deflate a b (r :: older)) + 8 <= Z.of_nat m -> (List.length older <= k)%nat -> (1 <= k')%nat ->
      newest_value deflate a b (r :: older) n 0 = Some v ->
      arun (modern_file deflate a b (r :: older)) (open_document inflate ccitt no_decrypt D m k) (mkA 0 [] rst0) = (Ok ([a; 46; b], 0, t), s) ->
      fst (session inflate ccitt no_decrypt D m k' (modern_file deflate a b (r :: older)) s [(n, 0)]) = [Ok v]).
Proof.
  intros H. assert (Forall mrev_ok [mex_upd; mex_old]) as HF by (constructor; [exact mex_upd_ok|constructor; [exact mex_old_ok|constructor]]).
  assert (map fst (file_objects store_only 49 53 [mex_upd; mex_old]) = [(1, 0); (10, 0); (11, 0); (12, 0); (13, 0)]) as Eo by reflexivity.
  assert (zlen (modern_file store_only 49 53 [mex_upd; mex_old]) < 256 ^ 4) as Hlt by (vm_compute; reflexivity).
  assert (NoDup (map fst (file_objects store_only 49 53 [mex_upd; mex_old]))) as Hnd.
  { rewrite Eo. repeat (constructor; [cbn [In]; intros X; repeat (destruct X as [X|X]; [discriminate X|]); exact X|]). constructor. }
  set (m := Z.to_nat (4 * zlen (modern_file store_only 49 53 [mex_upd; mex_old]) + 8)).
  assert (4 * zlen (modern_file store_only 49 53 [mex_upd; mex_old]) + 8 <= Z.of_nat m) as Hm.
  { unfold m. rewrite Z2Nat.id; [lia|]. pose proof (zlen_nonneg (modern_file store_only 49 53 [mex_upd; mex_old])). lia. }
  destruct (C79_oldest_value Some (fun _ _ => Err NotImpl) store_only 49 53 mex_upd [mex_old] 3 (fun x => eq_refl) eq_refl eq_refl HF Hlt Hnd) with (D := 2%nat) (m := m) (k := 1%nat) as (t & s & E & HS); auto.
  - rewrite Eo. cbn [In]. intros X. repeat (destruct X as [X|X]; [discriminate X|]). exact X.
  - intros rv x ms n Hrv Hx Hn. rewrite Eo. cbn [In] in Hrv. destruct Hrv as [<-|[<-|[]]]; cbn [mex_upd mex_old mr_stms In] in Hx; destruct Hx as [Hx|[]]; injection Hx as <- <-; cbn [map fst In] in Hn.
    + destruct Hn as [<-|[]]. cbn [In]. intros X. repeat (destruct X as [X|X]; [discriminate X|]). exact X.
    + destruct Hn as [<-|[<-|[]]]; cbn [In]; intros X; repeat (destruct X as [X|X]; [discriminate X|]); exact X.
  - specialize (H Some (fun _ _ => Err NotImpl) store_only 49 53 mex_upd [mex_old] 3 (OInt 6) 2%nat m 1%nat s t 1%nat (fun x => eq_refl) eq_refl eq_refl HF Hlt Hnd ltac:(lia) Hm ltac:(cbn; lia) ltac:(lia)).
    specialize (H ltac:(reflexivity) E). rewrite (HS 1%nat ltac:(lia)) in H.
    assert (find_obj (file_contents store_only 49 53 [mex_upd; mex_old]) 3 0 = Some (OInt 5)) as Ef by reflexivity. rewrite Ef in H. discriminate H.
Qed.
Print Assumptions C79_update_refuted.
