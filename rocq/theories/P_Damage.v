(** C99: damaged content streams are drawn up to the damage. *)
From Coq Require Import String.
From Verif Require Import Prelude M_Prog M_Parser S_Syntax S_Stream L_Buffer L_Prog L_ParserWP
  L_Syntax L_Syntax2 S_Print L_Print L_Stream L_Content P_Content P_ParserTotal M_Objects S_Objects M_Filters M_Viewer S_Viewer S_Canvas P_Canvas M_App S_App L_App S_Split P_Split.
Local Open Scope Z_scope.

(** Content items followed by any bytes [tail]. *)
Inductive Then (tail : list Z) : list citem -> list Z -> Prop :=
| Th_nil : Then tail [] []
| Th_op ops so op sep its ss :
    SerElems FContent ops so (op ++ sep ++ ss ++ tail) -> OpName op -> Sep sep -> nonreg (sep ++ ss ++ tail) ->
    Then tail its ss -> Then tail (COp op ops :: its) (so ++ op ++ sep ++ ss)
| Th_img es sep0 s w0 data t sep its ss :
    Sep sep0 -> nonreg (sep0 ++ s ++ bs "ID") -> SerEntries FInline es s (73 :: 68 :: w0 :: t ++ sep ++ ss ++ tail) ->
    is_ws w0 = true -> ImageEnd data t -> Sep sep -> Then tail its ss ->
    Then tail (CImage (dict_of es) data :: its) (image_text sep0 s t w0 ++ sep ++ ss).

Lemma content_then tail : forall its ss, Content its ss -> ss = [] \/ closed ss -> Then tail its ss.
Proof.
  intros its ss H. induction H as [|ops so op sep its ss Hops Hop Hs Hnr Hc IH|es sep0 s w0 data t sep its ss H0 Hn He Hw Him Hs Hc IH]; intros Hcl.
  - constructor.
  - assert (closed (so ++ op ++ sep ++ ss)) as Hcl' by (destruct Hcl as [->|]; [left; reflexivity|assumption]). clear Hcl.
    assert (SerElems FContent ops so ((op ++ sep ++ ss) ++ tail)) as Hops'.
    { apply (ser_ext FContent tail eq_refl); [exact Hops|]. destruct Hop as (Hne' & Hop'). destruct op as [|c op]; [contradiction|].
      apply solid_cons. apply (opname_nosep (c :: op)). split; auto. }
    rewrite <- !app_assoc in Hops'. apply Th_op; auto.
    + destruct sep as [|y sep]; [|exact Hnr]. cbn [app] in *. destruct ss as [|c ss]; [|exact Hnr]. exfalso. apply (opname_not_closed op Hop).
      rewrite app_nil_r in Hcl'. apply (closed_app so); [apply Hop|exact Hcl'].
    + apply IH. destruct ss as [|c ss]; [left; reflexivity|right]. rewrite !app_assoc in Hcl'. eapply closed_app; [discriminate|exact Hcl'].
  - assert (SerEntries FInline es s ((73 :: 68 :: w0 :: t ++ sep ++ ss) ++ tail)) as He'.
    { apply (ser_ext FInline tail eq_refl); [exact He|]. apply solid_cons. reflexivity. }
    cbn [app] in He'. rewrite <- !app_assoc in He'. apply Th_img; auto. apply IH.
    destruct ss as [|c ss]; [left; reflexivity|right]. destruct Hcl as [E|Hcl]; [discriminate E|]. rewrite !app_assoc in Hcl. eapply closed_app; [discriminate|exact Hcl].
Qed.
Lemma then_nosep tail its ss : Then tail its ss -> its <> [] -> nosep (ss ++ tail).
Proof.
  destruct 1 as [|ops so op sep its ss He Ho Hs Hr Hc|es sep0 s w0 data t sep its ss]; intros Hne; [contradiction| |reflexivity].
  rewrite <- !app_assoc. remember (op ++ sep ++ ss ++ tail) as R eqn:ER. destruct He as [rest|v s sep1 vs ss1 rest Hv].
  - cbn [app]. try rewrite ER. apply opname_nosep. exact Ho.
  - rewrite <- !app_assoc. eapply ser_nosep; eauto.
Qed.

Section Run.
  Variable f : list Z.
  Notation hook := (fun d : dict => ret d : prog unit dict).
  Ltac fu := unfold ofuel, fuel, fuel1 in *; try lia.
  Lemma cur_run pos st : arun f cur (mkA pos st tt) = (Ok (znth f pos), mkA pos st tt).
  Proof. reflexivity. Qed.
  Lemma at_cur pos l : At f pos l -> znth f pos = hd_error l.
  Proof.
    intros [Hp H]. unfold znth. replace (pos <? 0) with false by lia. rewrite <- H. clear. generalize (Z.to_nat pos). intros n. revert f.
    induction n as [|n IH]; intros [|x l]; cbn; auto.
  Qed.
  (** operands are collected *)
  Lemma run_operands ops so rest : SerElems FContent ops so rest -> nosep rest -> forall n args pos st,
    At f pos (so ++ rest) -> ofuel f n pos 10 ->
    exists m st', ofuel f m (pos + zlen so) 10 /\ content_run f n args (mkA pos st tt) = content_run f m (args ++ ops) (mkA (pos + zlen so) st' tt).
  Proof.
    induction 1 as [rest|v s sep vs ss rest Hv Hsep Hss IH]; intros Hns n args pos st HA Hn.
    - exists n, st. rewrite app_nil_r, (@zlen_nil Z), Z.add_0_r. auto.
    - destruct n as [|n]; [fu|]. cbn [content_run]. rewrite cur_run.
      destruct (ser_start _ _ _ _ Hv) as (x & s' & Es & Hx).
      rewrite <- !app_assoc in HA. rewrite (at_cur _ _ HA). replace (hd_error (s ++ sep ++ ss ++ rest)) with (Some x) by (rewrite Es; reflexivity).
      pose proof (At_len _ _ _ HA) as HL. rewrite !zlen_app in HL. pose proof (zlen_nonneg rest). pose proof (zlen_nonneg ss). pose proof (zlen_nonneg sep).
      assert (1 <= zlen s) by (rewrite Es, zlen_cons; pose proof (zlen_nonneg s'); lia).
      assert (nosep (ss ++ rest)) as HN by (destruct Hss; [auto|rewrite <- app_assoc; eapply ser_nosep; eauto]).
      assert (runs f (object hook FContent n) pos (Ok v) (pos + zlen (@nil Z) + zlen s + zlen (trailing v sep))) as HO.
      { eapply (r_object f hook FContent v s _ n pos [] sep); eauto; [constructor|destruct v; cbn; eauto|]. cbn [oc]. fu. }
      rewrite (@zlen_nil Z), Z.add_0_r in HO. destruct (HO st tt) as [ex EO]. rewrite EO.
      assert (At f (pos + zlen s) (sep ++ ss ++ rest)) as HA2 by (apply At_app in HA; exact HA).
      assert (At f (pos + zlen s + zlen sep) (ss ++ rest)) as HA3 by (apply At_app in HA2; exact HA2).
      assert (runs f (sp n : prog unit unit) (pos + zlen s + zlen (trailing v sep)) (Ok tt) (pos + zlen s + zlen sep)) as HS.
      { destruct (trailing v sep) as [|y tr] eqn:Etr.
        - rewrite (@zlen_nil Z), Z.add_0_r. apply (r_sp f sep n _ (ss ++ rest)); auto. fu.
        - assert (trailing v sep = sep) as E by (destruct v; cbn in *; congruence).
          rewrite <- Etr, E. apply (r_sp0 f n _ (ss ++ rest)); auto. fu. }
      destruct (HS (st ++ ex) tt) as [ex2 ES].
      destruct (IH Hns n (args ++ [v]) (pos + zlen s + zlen sep) ((st ++ ex) ++ ex2) HA3 ltac:(fu)) as (m & st' & Hm & E).
      exists m, st'. replace (pos + zlen (s ++ sep ++ ss)) with (pos + zlen s + zlen sep + zlen ss) by (rewrite !zlen_app; lia). split; [exact Hm|].
      replace (args ++ v :: vs) with ((args ++ [v]) ++ vs) by (rewrite <- app_assoc; auto). rewrite <- E.
      destruct (ser_not_op _ _ _ Hv) as [Hno Hni]. rewrite ES.
      destruct v; cbn [is_operator] in *; try reflexivity; try (rewrite Hno; reflexivity). exfalso. eapply Hni; eauto.
  Qed.
  (** the items are handed out, whatever follows *)
  Lemma run_then tail its ss : Then tail its ss -> forall n pos st, At f pos (ss ++ tail) -> ofuel f n pos 10 ->
    exists more e, content_run f n [] (mkA pos st tt) = (its ++ more, e).
  Proof.
    induction 1 as [|ops so op sep its ss He Ho Hs Hr Hc IH|es sep0 s w0 data t sep its ss Hs0 Hnr He Hw0 Him Hs Hc IH]; intros n pos st HA Hn.
    - destruct (content_run f n [] (mkA pos st tt)) as [more e]. exists more, e. reflexivity.
    - rewrite <- !app_assoc in HA.
      destruct (run_operands ops so _ He (opname_nosep op _ Ho) n [] pos st HA Hn) as (m & st' & Hm & E). rewrite E. clear E st. apply At_app in HA.
      cbn [app]. destruct m as [|m]; [fu|]. cbn [content_run]. rewrite cur_run, (at_cur _ _ HA).
      destruct (op_head op Ho) as (x & w' & Ew & Hx). replace (hd_error (op ++ sep ++ ss ++ tail)) with (Some x) by (rewrite Ew; reflexivity).
      assert (1 <= zlen op) by (rewrite Ew, zlen_cons; pose proof (zlen_nonneg w'); lia).
      pose proof (At_len _ _ _ HA) as HL. rewrite !zlen_app in HL. pose proof (zlen_nonneg sep). pose proof (zlen_nonneg ss). pose proof (zlen_nonneg tail).
      assert (runs f (object hook FContent m) (pos + zlen so) (Ok (OTok op)) (pos + zlen so + zlen (@nil Z) + zlen op)) as RO
        by (eapply (r_op f op m _ []); eauto; [constructor|fu]).
      rewrite (@zlen_nil Z), Z.add_0_r in RO. destruct (RO st' tt) as [ex EO]. rewrite EO, (op_is_operator op Ho). apply At_app in HA.
      destruct its as [|i its'].
      + destruct (arun f (sp m) _) as [[[]|e] s2]; [|exists [], (Some e); reflexivity].
        destruct (content_run f m [] s2) as [l e]. exists l, e. reflexivity.
      + assert (runs f (sp m : prog unit unit) (pos + zlen so + zlen op) (Ok tt) (pos + zlen so + zlen op + zlen sep)) as RS.
        { apply (r_sp f sep m _ (ss ++ tail)); auto; [eapply then_nosep; [exact Hc|discriminate]|fu]. }
        destruct (RS (st' ++ ex) tt) as [ex2 ES]. rewrite ES. apply At_app in HA.
        destruct (IH m _ ((st' ++ ex) ++ ex2) HA ltac:(fu)) as (more & e & E). rewrite E. exists more, e. reflexivity.
    - rewrite <- !app_assoc in HA. destruct n as [|n]; [fu|]. cbn [content_run]. rewrite cur_run, (at_cur _ _ HA). replace (hd_error (image_text sep0 s t w0 ++ sep ++ ss ++ tail)) with (Some 66) by reflexivity.
      pose proof (At_len _ _ _ HA) as HL. rewrite !zlen_app in HL. pose proof (zlen_nonneg sep). pose proof (zlen_nonneg ss). pose proof (zlen_nonneg tail).
      assert (1 <= zlen (image_text sep0 s t w0)) by (unfold image_text; rewrite zlen_cons; pose proof (zlen_nonneg (73 :: sep0 ++ s ++ 73 :: 68 :: w0 :: t)); lia).
      assert (runs f (object hook FContent n) pos (Ok (OInline (dict_of es) data)) (pos + zlen (@nil Z) + zlen (image_text sep0 s t w0))) as RO
        by (eapply (r_bi f es sep0 s w0 data t pos [] (sep ++ ss ++ tail)); eauto; [constructor|fu]).
      rewrite (@zlen_nil Z), Z.add_0_r in RO. destruct (RO st tt) as [ex EO]. rewrite EO. apply At_app in HA.
      destruct its as [|i its'].
      + destruct (arun f (sp n) _) as [[[]|e] s2]; [|exists [], (Some e); reflexivity].
        destruct (content_run f n [] s2) as [l e]. exists l, e. reflexivity.
      + assert (runs f (sp n : prog unit unit) (pos + zlen (image_text sep0 s t w0)) (Ok tt) (pos + zlen (image_text sep0 s t w0) + zlen sep)) as RS.
        { apply (r_sp f sep n _ (ss ++ tail)); auto; [eapply then_nosep; [exact Hc|discriminate]|fu]. }
        destruct (RS (st ++ ex) tt) as [ex2 ES]. rewrite ES. apply At_app in HA.
        destruct (IH n _ ((st ++ ex) ++ ex2) HA ltac:(fu)) as (more & e & E). rewrite E. exists more, e. reflexivity.
  Qed.
End Run.

Lemma run_outcome f : forall n ops out s, exists more, content_run f n ops s =
  (more, match fst (arun f (content_loop n ops out) s) with Ok _ => None | Err e => Some e end).
Proof.
  induction n as [|n IH]; intros ops out s; [exists []; reflexivity|]. cbn [content_loop content_run]. rewrite L_Prog.arun_bind.
  destruct (arun f cur s) as [[c|e] s0]; [|exists []; reflexivity]. destruct c as [c|]; [|exists []; reflexivity].
  rewrite L_Prog.arun_bind. destruct (arun f (object (fun d => ret d) FContent n) s0) as [[v|e] s1]; [|exists []; reflexivity].
  destruct v; try (destruct (is_operator _)); rewrite L_Prog.arun_bind; (destruct (arun f (sp n) s1) as [[[]|?] ?]; [|eexists; reflexivity]);
    match goal with |- context [arun f (content_loop n ?a ?b) ?st] => destruct (IH a b st) as [? ->] end; eexists; reflexivity.
Qed.
(** C99 (a).  Any bytes whatever: the content ends, or stops with one of three exceptions. *)
Theorem C99_any_bytes : forall b, exists its oe, content_items b = (its, oe) /\ In oe [None; Some ParserExc; Some TypeErr; Some KeyErr].
Proof.
  intros b. destruct (C68_content_terminates unit b 0 [] tt (Z.le_refl 0)) as (r & s' & Hr & He & Hn).
  specialize (Hn (Z.to_nat (4 * zlen b + 10)) ltac:(pose proof (zlen_nonneg b); lia)).
  unfold content_items. unfold content_objects in Hn. rewrite L_Prog.arun_bind in Hn. set (n := Z.to_nat (4 * zlen b + 10)) in *.
  destruct (arun b (sp n) (mkA 0 [] tt)) as [[x|e] s].
  - destruct (run_outcome b n [] [] s) as [more E]. rewrite E, Hn. cbn [fst]. exists more. eexists. split; [reflexivity|].
    destruct r as [a|e]; [left; reflexivity|right]. destruct (He e eq_refl) as [->|[-> | ->]]; cbn; auto.
  - injection Hn as <- _. exists [], (Some e). split; [reflexivity|]. right. destruct (He e eq_refl) as [->|[-> | ->]]; cbn; auto.
Qed.
Print Assumptions C99_any_bytes.
(** Each of them is raised by some content. *)
Theorem C99_each_is_raised : content_items (bs "q 0 g ] Q") = ([COp (bs "q") []; COp (bs "g") [OInt 0]], Some ParserExc) /\
  content_items (bs "q (never closed") = ([COp (bs "q") []], Some TypeErr) /\ content_items (bs "q << >> stream ") = ([COp (bs "q") []], Some KeyErr).
Proof. repeat split; vm_compute; reflexivity. Qed.

(** C99 (b).  Operators and images written before any bytes are handed out, first and in order. *)
Theorem C99_before_damage : forall its b tail, Text its b -> closed b ->
  exists more oe, content_items (b ++ tail) = (its ++ more, oe) /\ In oe [None; Some ParserExc; Some TypeErr; Some KeyErr].
Proof.
  intros its b tail (lead & ss & -> & Hl & Hc) Hcl.
  assert (exists more oe, content_items ((lead ++ ss) ++ tail) = (its ++ more, oe)) as (more & oe & E).
  2:{ exists more, oe. split; [exact E|]. destruct (C99_any_bytes ((lead ++ ss) ++ tail)) as (i & o & E' & Ho). rewrite E in E'. now injection E' as _ ->. }
  destruct its as [|i its]; [destruct (content_items ((lead ++ ss) ++ tail)) as [m o]; exists m, o; reflexivity|].
  assert (ss <> []) as Hne by (intros ->; pose proof (content_nil _ _ Hc eq_refl); discriminate).
  assert (Then tail (i :: its) ss) as HT by (apply content_then; [exact Hc|right; eapply closed_app; [exact Hne|exact Hcl]]).
  unfold content_items. set (f := (lead ++ ss) ++ tail). set (n := Z.to_nat (4 * zlen f + 10)).
  assert (At f 0 (lead ++ ss ++ tail)) as HA by (apply (At_start _ []); unfold f; now rewrite <- app_assoc).
  assert (ofuel f n 0 10) as Hn by (unfold ofuel, n; pose proof (zlen_nonneg f); lia).
  assert (runs f (sp n : prog unit unit) 0 (Ok tt) (0 + zlen lead)) as RS.
  { apply (r_sp f lead n 0 (ss ++ tail)); auto; [eapply then_nosep; [exact HT|discriminate]|]. unfold ofuel, fuel in *. pose proof (zlen_nonneg f). lia. }
  destruct (RS [] tt) as [ex ES]. rewrite ES. apply At_app in HA. apply (run_then f tail (i :: its) ss HT); [exact HA|].
  unfold ofuel in *. pose proof (zlen_nonneg lead). lia.
Qed.
Print Assumptions C99_before_damage.

Section Draw.
  Variables (real_str : bool -> Z -> Z -> list Z) (python : list Z -> bool) (python_decode : list Z -> list Z -> res (list Z))
    (inflate : list Z -> option (list Z)) (ccitt : list Z -> fparams -> res (list Z)) (cid : Z) (H : Z -> Z -> res bv) (nb n : nat).
  Notation show := (app_show python python_decode inflate ccitt cid H nb).
  Notation draws page := (run real_str show (page_Do real_str show (app_form_content inflate ccitt) (app_form_resources H nb n page)) KPage).
  Notation draw := (app_draw real_str python python_decode inflate ccitt cid H nb n).
  (** C99 (c).  Drawing a page whose content begins with operators that can be drawn, followed by any bytes: what they put
      on the canvas is there afterwards (unless an operator called navigate follows, see C84). *)
  Theorem C99_drawn : forall page rs its b tail s s1, Text its b -> closed b ->
    draws page rs its s = (Ok tt, s1) ->
    Forall (fun i => ~ named "navigate" i) (fst (content_items (b ++ tail))) ->
    grows (v_cv s1) (v_cv (snd (draw page rs (Some (b ++ tail)) s))).
  Proof.
    intros page rs its b tail s s1 HT Hcl E HN. destruct (C99_before_damage its b tail HT Hcl) as (more & oe & Ec & _).
    unfold app_draw. rewrite Ec in *. apply (C84_earlier_output_kept real_str show (app_form_content inflate ccitt) (app_form_resources H nb n page) rs its more oe s s1 E).
    cbn [fst] in HN. apply Forall_app in HN. apply HN.
  Qed.
  (** C99 (d).  If the damage comes right after them, drawing raises the damage's exception, one of the three, and the
      canvas and graphics state are those after the operators. *)
  Theorem C99_up_to_damage : forall page rs its b tail e s s1,
    content_items (b ++ tail) = (its, Some e) -> draws page rs its s = (Ok tt, s1) ->
    draw page rs (Some (b ++ tail)) s = (Err e, s1) /\ In e [ParserExc; TypeErr; KeyErr].
  Proof.
    intros page rs its b tail e s s1 Ec E. split.
    - unfold app_draw, render_page, render. rewrite Ec. cbn [fst snd]. unfold vbind. rewrite E. reflexivity.
    - destruct (C99_any_bytes (b ++ tail)) as (i & o & E' & Ho). rewrite Ec in E'. injection E' as <- <-.
      destruct Ho as [X|[X|[X|[X|[]]]]]; try discriminate X; injection X as <-; cbn; auto.
  Qed.
End Draw.
Print Assumptions C99_drawn.
Print Assumptions C99_up_to_damage.

(** A damaged page. *)
Definition ex_before : list Z := bs "q" ++ [10] ++ bs "(Hi) MP" ++ [10].
Definition ex_damage : list Z := bs "5 w (never closed".
Definition ex_items : list citem := [COp (bs "q") []; COp (bs "MP") [OStr (bs "Hi")]].
Example C99_ex : Text ex_items ex_before /\ closed ex_before /\
  content_items (ex_before ++ ex_damage) = (ex_items ++ [COp (bs "w") [OInt 5]], Some TypeErr).
Proof.
  split; [|split; [right; exists (bs "q" ++ [10] ++ bs "(Hi) MP"), 10; split; reflexivity|vm_compute; reflexivity]].
  exists [], ex_before. split; [reflexivity|]. split; [constructor|].
  apply (Co_op [] [] (bs "q") [10] [COp (bs "MP") [OStr (bs "Hi")]] (bs "(Hi) MP" ++ [10])); [constructor|opname|apply sep_lf|reflexivity|].
  apply (Co_op [OStr (bs "Hi")] ((40 :: str_text (bs "Hi") ++ [41]) ++ [32] ++ []) (bs "MP") [10] [] []); [|opname|apply sep_lf|reflexivity|constructor].
  apply SE_cons; [apply Ser_str, str_text_ok|apply sep_sp1|constructor].
Qed.
Example C99_ex_drawn real_str python python_decode inflate ccitt cid H nb n page rs s :
  let show := app_show python python_decode inflate ccitt cid H nb in
  exists s1, run real_str show (page_Do real_str show (app_form_content inflate ccitt) (app_form_resources H nb n page)) KPage rs ex_items s = (Ok tt, s1) /\
    cv_text (v_cv s1) <> cv_text (v_cv s).
Proof.
  cbv zeta. eexists. split; [reflexivity|].
  intros X. apply (f_equal (@List.length _)) in X. revert X. cbn. rewrite !app_length. cbn. intros X. lia.
Qed.
