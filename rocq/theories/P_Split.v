(** C94: page contents divided into several streams. *)
From Coq Require Import String.
From Verif Require Import Prelude M_Prog M_Parser S_Syntax S_Stream L_Buffer L_Prog L_ParserWP
  L_Syntax L_Syntax2 S_Print L_Print L_Stream L_Content P_Content M_Objects S_Objects M_Filters M_App S_App L_App S_Split.
Local Open Scope Z_scope.

Lemma sep_app a b : Sep a -> Sep b -> Sep (a ++ b).
Proof.
  intros Ha Hb. induction Ha as [|c s Hc _ IH|body e s Hbd He Hs IH]; [exact Hb|now constructor|].
  change ((37 :: body ++ e ++ s) ++ b) with (37 :: (body ++ e ++ s) ++ b). rewrite <- !app_assoc.
  destruct He as [->|[->|[-> Hh]]].
  - apply Sep_comment; auto. left. reflexivity.
  - apply Sep_comment; auto. right. left. reflexivity.
  - destruct s as [|c s]; [|apply Sep_comment; auto; right; right; split; [reflexivity|exact Hh]].
    cbn [app] in *. destruct b as [|x b]; [apply (Sep_comment body [13] []); auto; right; right; split; reflexivity|].
    destruct (Z.eqb_spec x 10) as [->|Hx].
    + apply (Sep_comment body [13; 10] b); auto; [right; left; reflexivity|].
      inversion Hb; subst; assumption.
    + apply (Sep_comment body [13]); auto. right. right. split; [reflexivity|]. cbn [head_is]. now apply Z.eqb_neq.
Qed.

(** What follows an operand inside a content stream is never separators alone. *)
Definition solid (rest : list Z) : Prop := exists sp c r, rest = sp ++ c :: r /\ Sep sp /\ nosep (c :: r).
Lemma solid_cons c r : nosep (c :: r) -> solid (c :: r).
Proof. intros H. exists [], c, r. repeat split; auto. constructor. Qed.
Lemma solid_sep sep rest : Sep sep -> solid rest -> solid (sep ++ rest).
Proof. intros Hs (sp & c & r & -> & H1 & H2). exists (sep ++ sp), c, r. rewrite app_assoc. split; [reflexivity|]. split; [now apply sep_app|exact H2]. Qed.
Lemma solid_ne rest : solid rest -> rest <> [].
Proof. intros (sp & c & r & -> & _) E. destruct sp; discriminate. Qed.
Lemma head_ext p rest x : rest <> [] -> head_is p rest = false -> head_is p (rest ++ x) = false.
Proof. destruct rest; [contradiction|auto]. Qed.
Lemma solid_elems fl vs s rest : SerElems fl vs s rest -> solid rest -> solid (s ++ rest).
Proof.
  destruct 1 as [|v s sep vs ss rest Hv Hs Hr]; [auto|]. intros H.
  destruct (ser_start _ _ _ _ Hv) as (x & s' & -> & Hx). rewrite <- !app_assoc. apply solid_cons. now apply start_nosep.
Qed.
Lemma solid_entries fl es s rest : SerEntries fl es s rest -> solid rest -> solid (s ++ rest).
Proof. destruct 1; [auto|]. intros _. apply solid_cons. reflexivity. Qed.

Section X.
  Variable fl : flavor.
  Variable x : list Z.
  Lemma ser_ext : refs_allowed fl = false ->
    (forall v s rest, Ser fl v s rest -> solid rest -> Ser fl v s (rest ++ x)) /\
    (forall vs s rest, SerElems fl vs s rest -> solid rest -> SerElems fl vs s (rest ++ x)) /\
    (forall es s rest, SerEntries fl es s rest -> solid rest -> SerEntries fl es s (rest ++ x)).
  Proof.
    intros Hfl.
    apply (Ser_combined fl (fun v s rest _ => solid rest -> Ser fl v s (rest ++ x))
      (fun vs s rest _ => solid rest -> SerElems fl vs s (rest ++ x)) (fun es s rest _ => solid rest -> SerEntries fl es s (rest ++ x))).
    - intros rest H S. constructor. intros E. apply head_ext; [now apply solid_ne|exact (H E)].
    - intros rest H S. constructor. intros E. apply head_ext; [now apply solid_ne|exact (H E)].
    - intros rest H S. constructor. intros E. apply head_ext; [now apply solid_ne|exact (H E)].
    - intros z t rest Ht Hr Hn S. constructor; [exact Ht|apply head_ext; [now apply solid_ne|exact Hr]|]. rewrite Hfl. discriminate.
    - intros v t rest Ht Hr S. apply Ser_real; [exact Ht|apply head_ext; [now apply solid_ne|exact Hr]].
    - intros cs t rest Ht Hr S. apply Ser_name; [exact Ht|apply head_ext; [now apply solid_ne|exact Hr]].
    - intros v t rest Ht S. now apply Ser_str.
    - intros ds s0 t rest A B C S. now apply Ser_hex.
    - intros ds1 s1 ds2 s2 rest A. congruence.
    - intros vs s0 s rest A B IH S. apply Ser_arr; [exact A|]. change (93 :: rest ++ x) with ((93 :: rest) ++ x). apply IH. apply solid_cons. reflexivity.
    - intros es s0 s sp' rest' A B IH C D E (sp & c & r & E1 & E2 & E3). rewrite <- app_assoc.
      destruct (Sep_unique _ _ _ _ C E2 D E3 E1) as [-> ->].
      apply Ser_dict; auto. change (62 :: 62 :: sp ++ (c :: r) ++ x) with ((62 :: 62 :: sp ++ (c :: r) ++ x)).
      replace (62 :: 62 :: sp ++ (c :: r) ++ x) with ((62 :: 62 :: sp ++ c :: r) ++ x) by (cbn [app]; now rewrite <- app_assoc).
      apply IH. apply solid_cons. reflexivity.
    - intros rest S. constructor.
    - intros v s sep vs ss rest Hv IHv Hs Hr IHr S. apply SE_cons; [|exact Hs|auto].
      replace (sep ++ ss ++ rest ++ x) with ((sep ++ ss ++ rest) ++ x) by now rewrite <- !app_assoc.
      apply IHv. apply solid_sep; [exact Hs|]. eapply solid_elems; eauto.
    - intros rest S. constructor.
    - intros k kt sep1 v s sep2 es ss rest A B C Hv IHv Hs Hr IHr S. apply SN_cons; auto.
      replace (sep2 ++ ss ++ rest ++ x) with ((sep2 ++ ss ++ rest) ++ x) by now rewrite <- !app_assoc.
      apply IHv. apply solid_sep; [exact Hs|]. eapply solid_entries; eauto.
  Qed.
End X.

Lemma closed_app a b : b <> [] -> closed (a ++ b) -> closed b.
Proof.
  intros Hb [E|(b' & c & E & Hc)]; [apply app_eq_nil in E; left; tauto|]. right.
  destruct (exists_last Hb) as (b2 & c2 & ->). rewrite app_assoc in E. apply app_inj_tail in E. destruct E as [_ <-]. eauto.
Qed.
Lemma content_nil its ss : Content its ss -> ss = [] -> its = [].
Proof.
  destruct 1 as [|ops so op sep its ss Hs Ho _ _ _|]; [auto| |discriminate]. intros E. exfalso. destruct Ho as (Hne & _).
  apply app_eq_nil in E. destruct E as [_ E]. apply app_eq_nil in E. destruct E as [E _]. contradiction.
Qed.
Lemma opname_nosep op r : OpName op -> nosep (op ++ r).
Proof.
  intros (Hne & Hr & _). destruct op as [|c op]; [contradiction|]. inversion Hr as [|? ? [A B] _]. subst. unfold nosep. cbn [app head_is]. rewrite A.
  cbn [orb]. destruct (Z.eqb_spec c 37) as [->|]; [discriminate B|reflexivity].
Qed.
Lemma opname_not_closed op : OpName op -> ~ closed op.
Proof.
  intros (Hne & Hr & _) [E|(b & c & -> & Hc)]; [contradiction|]. apply Forall_app in Hr. destruct Hr as [_ Hr]. inversion Hr as [|? ? [A _] _]. congruence.
Qed.
Lemma sep_nonreg sep r : Sep sep -> sep <> [] -> nonreg (sep ++ r).
Proof.
  intros H Hne. destruct H as [|c s Hc _|]; [contradiction| |reflexivity]. unfold nonreg. cbn [app head_is]. now rewrite Hc.
Qed.
Lemma content_app i1 s1 i2 lead s2 : Content i1 s1 -> s1 <> [] -> closed s1 -> Sep lead -> Content i2 s2 ->
  Content (i1 ++ i2) (s1 ++ lead ++ s2).
Proof.
  intros H Hne Hcl Hl H2.
  induction H as [|ops so op sep its ss Hops Hop Hs Hnr Hc IH|es sep0 s w0 data t sep its ss H0 Hn He Hw Him Hs Hc IH]; [contradiction| |].
  - assert (SerElems FContent ops so ((op ++ sep ++ ss) ++ lead ++ s2)) as Hops'.
    { apply (ser_ext FContent (lead ++ s2) eq_refl); [exact Hops|]. destruct Hop as (Hne' & Hop'). destruct op as [|c op]; [contradiction|].
      apply solid_cons. apply (opname_nosep (c :: op)). split; auto. }
    rewrite <- !app_assoc in *. cbn [app]. destruct ss as [|c ss].
    + rewrite (content_nil _ _ Hc eq_refl) in *. cbn [app] in *. rewrite app_nil_r in Hcl.
      rewrite (app_assoc sep lead s2) in *. apply Co_op; [exact Hops'|exact Hop|now apply sep_app| |exact H2].
      rewrite <- app_assoc. apply sep_nonreg; [exact Hs|]. intros ->. apply (opname_not_closed op Hop).
      rewrite app_nil_r in Hcl. apply (closed_app so); [apply Hop|exact Hcl].
    + apply Co_op; auto.
      * destruct sep as [|y sep]; [exact Hnr|exact Hnr].
      * apply IH; [discriminate|]. rewrite !app_assoc in Hcl. eapply closed_app; [discriminate|exact Hcl].
  - assert (SerEntries FInline es s ((73 :: 68 :: w0 :: t ++ sep ++ ss) ++ lead ++ s2)) as He'.
    { apply (ser_ext FInline (lead ++ s2) eq_refl); [exact He|]. apply solid_cons. reflexivity. }
    rewrite <- !app_assoc. cbn [app] in He' |- *. rewrite <- !app_assoc in He'. destruct ss as [|c ss].
    + rewrite (content_nil _ _ Hc eq_refl) in *. cbn [app] in *. rewrite (app_assoc sep lead s2) in *.
      apply Co_img; auto. now apply sep_app.
    + apply Co_img; auto. apply IH; [discriminate|]. rewrite app_assoc in Hcl. eapply closed_app; [discriminate|exact Hcl].
Qed.
Lemma text_app i1 b1 i2 b2 : Text i1 b1 -> closed b1 -> Text i2 b2 -> Text (i1 ++ i2) (b1 ++ b2).
Proof.
  intros (l1 & s1 & -> & Hl1 & Hc1) Hcl (l2 & s2 & -> & Hl2 & Hc2). destruct s1 as [|c s1].
  - rewrite (content_nil _ _ Hc1 eq_refl), app_nil_r, app_assoc. exists (l1 ++ l2), s2. split; [reflexivity|]. split; [now apply sep_app|exact Hc2].
  - rewrite <- app_assoc. exists l1, ((c :: s1) ++ l2 ++ s2). split; [reflexivity|]. split; [exact Hl1|].
    apply content_app; auto; [discriminate|]. eapply closed_app; [discriminate|exact Hcl].
Qed.
Lemma text_concat itss parts : Forall2 Text itss parts -> closed_parts parts -> Text (List.concat itss) (List.concat parts).
Proof.
  induction 1 as [|its b itss parts Hb Hr IH]; intros Hcl.
  - exists [], []. repeat split; constructor.
  - cbn [List.concat]. destruct parts as [|b2 parts].
    + inversion Hr. subst. cbn [List.concat]. rewrite !app_nil_r. exact Hb.
    + destruct Hcl as [H1 H2]. apply text_app; auto.
Qed.

(** C94.  A page whose content is divided into several streams, each (but the last) ending in white space, is read as the
    operators and inline images of all its streams, in order. *)
Theorem C94_split_contents : forall o inflate ccitt d itss, Split o inflate closed_parts d itss ->
  exists stream, (exists n0, forall n, (n0 <= n)%nat -> page_stream inflate ccitt (answer o) n (page_bv d) = Ok (Some stream)) /\
    content_items stream = (List.concat itss, None).
Proof.
  intros o inflate ccitt d itss (v & l & parts & Hv & Hf & HD & HT & Hcl). exists (List.concat parts). split.
  - apply page_content. exists v. split; [exact Hv|]. right. eauto.
  - destruct (text_concat _ _ HT Hcl) as (lead & ss & -> & Hl & Hc). now apply content_items_ok.
Qed.

(** Without the white space the claim is false: nothing is put between the streams, so the last token of one and the first
    token of the next become one.  A page with the streams "q" and "Q" saves and restores nothing: it has the one operator "qQ". *)
Definition qQ_doc (n g : Z) : option obj := if n =? 1 then Some (OStream [] (bs "q")) else if n =? 2 then Some (OStream [] (bs "Q")) else None.
Definition qQ_page : dict := [(bs "Type", OName (bs "Page")); (bs "Contents", OArr [ORef 1 0; ORef 2 0])].
Theorem C94_unseparated_refuted : forall inflate ccitt,
  Split qQ_doc inflate (fun _ => True) qQ_page [[COp (bs "q") []]; [COp (bs "Q") []]] /\
  forall stream, (exists n0, forall n, (n0 <= n)%nat -> page_stream inflate ccitt (answer qQ_doc) n (page_bv qQ_page) = Ok (Some stream)) ->
    content_items stream = ([COp (bs "qQ") []], None).
Proof.
  intros inflate ccitt.
  assert (Forall2 (Data qQ_doc inflate) [ORef 1 0; ORef 2 0] [bs "q"; bs "Q"]) as HD.
  { repeat constructor; eexists _, _; (split; [reflexivity|]); (split; [left; reflexivity|]); apply De_plain; left; reflexivity. }
  split.
  - exists (OArr [ORef 1 0; ORef 2 0]), [ORef 1 0; ORef 2 0], [bs "q"; bs "Q"]. repeat (split; [reflexivity || exact HD|]). split; [|exact I].
    assert (forall c, OpName [c] -> Text [COp [c] []] [c]) as HT.
    { intros c Hc. exists [], [c]. split; [reflexivity|]. split; [constructor|].
      apply (Co_op [] [] [c] [] [] []); [constructor|exact Hc|constructor|reflexivity|constructor]. }
    constructor; [apply HT; opname|]. constructor; [apply HT; opname|constructor].
  - intros stream (n0 & H).
    assert (ContentOf qQ_doc inflate qQ_page (bs "qQ")) as HC.
    { exists (OArr [ORef 1 0; ORef 2 0]). split; [reflexivity|]. right. exists [ORef 1 0; ORef 2 0], [bs "q"; bs "Q"]. repeat split; auto. }
    destruct (page_content qQ_doc inflate ccitt qQ_page _ HC) as (n1 & H1).
    specialize (H (Nat.max n0 n1) ltac:(lia)). rewrite H1 in H by lia. inversion H. subst. vm_compute. reflexivity.
Qed.

(** With white space at the end of the first stream all is well. *)
Definition q_Q_doc (n g : Z) : option obj := if n =? 1 then Some (OStream [] (bs "q ")) else if n =? 2 then Some (OStream [] (bs "Q")) else None.
Example C94_ex : Split q_Q_doc (fun _ => None) closed_parts qQ_page [[COp (bs "q") []]; [COp (bs "Q") []]].
Proof.
  exists (OArr [ORef 1 0; ORef 2 0]), [ORef 1 0; ORef 2 0], [bs "q "; bs "Q"]. split; [reflexivity|]. split; [reflexivity|].
  split; [repeat constructor; eexists _, _; (split; [reflexivity|]); (split; [left; reflexivity|]); apply De_plain; left; reflexivity|].
  split; [|split; [right; exists (bs "q"), 32; split; reflexivity|exact I]].
  constructor; [|constructor; [|constructor]].
  - exists [], (bs "q "). split; [reflexivity|]. split; [constructor|].
    apply (Co_op [] [] (bs "q") [32] [] []); [constructor|opname|apply sep_sp1|reflexivity|constructor].
  - exists [], (bs "Q"). split; [reflexivity|]. split; [constructor|].
    apply (Co_op [] [] (bs "Q") [] [] []); [constructor|opname|constructor|reflexivity|constructor].
Qed.

Print Assumptions C94_split_contents.
Print Assumptions C94_unseparated_refuted.
