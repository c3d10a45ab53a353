(** Updates that change the kind of cross-reference section: C91. *)
From Coq Require Import String.
From Verif Require Import Prelude M_Prog M_Parser S_Syntax L_Buffer L_Prog L_ParserWP L_Syntax L_Syntax2 S_Print L_Print
  S_Stream L_Stream M_Filters M_Document S_Document L_Document L_User L_Registry P_IndObj
  S_Xref L_Xref P_Header P_StartXref P_Xref P_Locate L_Steps S_Open P_Open S_History P_History S_XrefStream P_XrefStream S_Registry P_Registry S_Modern L_Modern P_Modern
  S_Write P_Write S_ModWrite L_ModWrite P_ModWrite S_Mixed.
Local Open Scope Z_scope.
Local Open Scope prog_scope.

  (** Four bytes that are not "xref". *)
  Definition no_table (f : list Z) (q : Z) : Prop := exists pre t rest, f = pre ++ t ++ rest /\ q = zlen pre /\ List.length t = 4%nat /\ t <> bs "xref".
  Lemma object_no_table f q : object_at f q -> no_table f q.
  Proof.
    intros (pre & num & gen & v & text & rest & Ef & Eq & HI).
    destruct (ind_digit _ _ _ _ _ HI) as (c & t' & Et & Hc).
    assert (4 <= zlen text) as Hl.
    { destruct HI as [ds1 s1 ds2 s2 s3 v vt s4 rest Hh Hv H4|ds1 s1 ds2 s2 s3 d data vt s4 rest Hh Hv H4 Hr H6 Hne];
        destruct Hh as (N1 & _ & N2 & _); unfold ind_head; rewrite !zlen_app; change (zlen (bs "obj")) with 3;
        (destruct ds1; [congruence|]); rewrite zlen_cons;
        repeat match goal with |- context [zlen ?x] => lazymatch goal with H : 0 <= zlen x |- _ => fail | _ => pose proof (zlen_nonneg x) end end; lia. }
    exists pre, (firstn 4 text), (skipn 4 text ++ rest). split; [rewrite Ef; now rewrite (app_assoc (firstn 4 text)), firstn_skipn|]. split; [exact Eq|].
    split; [rewrite firstn_length; unfold zlen in Hl; lia|].
    rewrite Et. cbn [firstn]. intros E. injection E as E _. subst c. discriminate Hc.
  Qed.
Section Mixed.
  Variable inflate : list Z -> option (list Z).
  Variable ccitt : list Z -> fparams -> res (list Z).
  Variables (D m : nat).
  Notation decrypt := (fun (_ _ : Z) (v : obj) => Ok v).
  Variable f : list Z.
  Hypothesis HD : (2 <= D)%nat.
  Hypothesis Hm : 4 * zlen f + 8 <= Z.of_nat m.

  Lemma r_no_table hook q : no_table f q -> 0 <= q /\ exists q', runs f (@table_section rst hook m) q (Err ParserExc) q'.
  Proof.
    intros (pre & t & rest & Ef & -> & L & N). split; [apply zlen_nonneg|].
    assert (At f (zlen pre) (t ++ rest)) as HA by now apply At_start.
    eexists. unfold table_section. eapply runs_bind_err. unfold direct_xref. rewrite <- L.
    eapply runs_bind; [apply (r_read f t (zlen pre) rest); [reflexivity|exact HA]|]. cbv beta.
    rewrite (proj2 (eqlZ_neq t (bs "xref")) N). apply runs_throw.
  Qed.
  Lemma r_dead_tables hook : forall o n q, TablesTo f o n q -> no_table f q -> forall k acc pos, 0 < o -> (n < k)%nat ->
    exists q', runs f (@prev_tables rst hook k m (OInt o) acc) pos (Err ParserExc) q'.
  Proof.
    induction 1 as [o l t q HS HP Hq|o l t p n q HS HP Hp HT IH]; intros HN k acc pos Ho Hk; (destruct k as [|k]; [lia|]); cbn [prev_tables truthy];
      destruct (r_section_hook inflate ccitt D m f ltac:(lia) Hm hook o l t HS) as [q1 Hq1].
    - destruct (r_no_table hook q HN) as (Hq0 & q2 & Hq2). exists q2.
      rewrite (proj2 (Z.eqb_neq o 0)) by lia. cbn [negb]. apply r_reset_to; [lia|]. eapply runs_bind; [exact Hq1|]. cbv beta iota. unfold oget. rewrite HP.
      destruct k as [|k]; [lia|]. cbn [prev_tables truthy]. rewrite (proj2 (Z.eqb_neq q 0)) by lia. cbn [negb]. apply r_reset_to; [lia|].
      eapply runs_bind_err. exact Hq2.
    - destruct (IH HN k (acc ++ [table_of l]) q1 Hp ltac:(lia)) as [q2 Hq2]. exists q2.
      rewrite (proj2 (Z.eqb_neq o 0)) by lia. cbn [negb]. apply r_reset_to; [lia|]. eapply runs_bind; [exact Hq1|]. cbv beta iota. unfold oget. rewrite HP. exact Hq2.
  Qed.


  (** Where no number starts there is no cross-reference stream. *)
  Lemma table_no_number q l t : section_at f q l t -> no_number_at f q.
  Proof.
    intros H. destruct (section_x _ _ _ _ H) as [Hx Ho]. split; [exact Ho|]. intros c Hc. rewrite Hc in Hx. unfold is_cur in Hx.
    apply Z.eqb_eq in Hx. subst c. repeat split; discriminate.
  Qed.
  Notation iobj loc := (reg_indirect inflate ccitt decrypt D m (length_hook loc)).
  Lemma u_no_stream loc q u : no_number_at f q -> uruns f (xref_stream_section inflate ccitt (iobj loc)) q u (Err ParserExc) q u.
  Proof.
    intros H. unfold xref_stream_section. eapply uruns_bind_err. unfold reg_indirect. eapply uruns_bind_err. apply uruns_of. unfold indirect_object.
    eapply runs_bind_err. apply (r_no_number inflate ccitt decrypt); [pose proof (zlen_nonneg f); lia|exact H].
  Qed.
  Lemma u_dead_streams loc : forall o n q, StreamsTo inflate ccitt f o n q -> no_number_at f q -> forall k acc pos u, 0 <= o -> (n < k)%nat ->
    exists q' u', uruns f (prev_streams inflate ccitt (iobj loc) k (OInt o) acc) pos u (Err ParserExc) q' u'.
  Proof.
    induction 1 as [o d q HS HP Hq|o d p n q HS HP Hp HT IH]; intros HN k acc pos u Ho Hk; (destruct k as [|k]; [lia|]); cbn [prev_streams];
      destruct HS as (pre & num & gen & raw & text & rest & sec & Ef & -> & HI & HX);
      destruct (u_xref_stream inflate ccitt D m f HD Hm loc pre num gen d raw text rest sec u Ef HI HX) as (x & u1 & HU & _ & _).
    - exists q, u1. unfold reset_to. cbn [as_range]. apply uruns_reset. unfold reset_pos. rewrite (proj2 (Z.leb_le 0 (zlen pre))) by lia.
      eapply uruns_bind; [exact HU|]. cbv beta iota. unfold oget. rewrite HP. destruct k as [|k]; [lia|]. cbn [prev_streams].
      unfold reset_to. cbn [as_range]. apply uruns_reset. unfold reset_pos. rewrite (proj2 (Z.leb_le 0 q)) by lia.
      eapply uruns_bind_err. now apply u_no_stream.
    - destruct (IH HN k (acc ++ [x]) (zlen pre + zlen text) u1 Hp ltac:(lia)) as (q2 & u2 & HU2). exists q2, u2.
      unfold reset_to. cbn [as_range]. apply uruns_reset. unfold reset_pos. rewrite (proj2 (Z.leb_le 0 (zlen pre))) by lia.
      eapply uruns_bind; [exact HU|]. cbv beta iota. unfold oget. rewrite HP. exact HU2.
  Qed.

  (** the newest section, from which [n - 1] Prev steps are left *)
  Lemma u_tables hook iobj0 o n q k pos (u : rst) : offset_of f (Ok o) -> TablesTo f o n q -> no_table f q -> (n <= k)%nat ->
    exists q' u', uruns f (pdf_trailer inflate ccitt hook iobj0 k m) pos u (Err ParserExc) q' u'.
  Proof.
    intros Hoff HT HN Hk.
    assert (exists q', runs f ('(x, t) <- table_section hook m ;; xs <- prev_tables hook k m (oget t (bs "Prev")) [x] ;; pdf_trailer_obj xs t) o (Err ParserExc) q' /\
      is_cur (znth f o) 120 = true /\ 0 <= o) as (q' & HR & Hx & Ho).
    { destruct HT as [o l t q HS HP Hq|o l t p n q HS HP Hp HT];
        destruct (section_x _ _ _ _ HS) as [Hx Ho]; destruct (r_section_hook inflate ccitt D m f ltac:(lia) Hm hook o l t HS) as [q1 Hq1].
      - destruct (r_no_table hook q HN) as (Hq0 & q2 & Hq2). exists q2. split; [|split; [exact Hx|exact Ho]].
        eapply runs_bind; [exact Hq1|]. cbv beta iota. unfold oget. rewrite HP. eapply runs_bind_err.
        destruct k as [|k]; [lia|]. cbn [prev_tables truthy]. rewrite (proj2 (Z.eqb_neq q 0)) by lia. cbn [negb]. apply r_reset_to; [lia|].
        eapply runs_bind_err. exact Hq2.
      - destruct (r_dead_tables hook p n q HT HN k [table_of l] q1 Hp ltac:(lia)) as [q2 Hq2]. exists q2. split; [|split; [exact Hx|exact Ho]].
        eapply runs_bind; [exact Hq1|]. cbv beta iota. unfold oget. rewrite HP. eapply runs_bind_err. exact Hq2. }
    exists q', u. intros st. destruct (Hoff rst st u m pos Hm) as (q1 & ex1 & E1).
    unfold pdf_trailer. rewrite arun_bind, E1. cbn [reset bind arun a_store a_usr a_pos].
    unfold reset_pos. rewrite (proj2 (Z.leb_le 0 o)) by lia. cbn [cur bind arun a_pos]. rewrite Hx.
    destruct (HR (st ++ ex1) u) as [ex2 E2]. exists (ex1 ++ ex2). rewrite app_assoc. exact E2.
  Qed.
  Lemma u_streams loc o n q k pos u : offset_of f (Ok o) -> StreamsTo inflate ccitt f o n q -> no_number_at f q -> (n <= k)%nat ->
    exists q' u', uruns f (pdf_trailer inflate ccitt (length_hook loc) (iobj loc) k m) pos u (Err ParserExc) q' u'.
  Proof.
    intros Hoff HT HN Hk.
    assert (exists q' u', uruns f ('(x, d) <- xref_stream_section inflate ccitt (iobj loc) ;; xs <- prev_streams inflate ccitt (iobj loc) k (oget d (bs "Prev")) [x] ;; pdf_trailer_obj xs (tdict_of d)) o u (Err ParserExc) q' u' /\
      (exists c, znth f o = Some c /\ is_digit c = true) /\ 0 <= o) as (q' & u' & HR & (c & Hc & Hdig) & Ho).
    { assert (forall o d, stream_at inflate ccitt f o d -> (exists c, znth f o = Some c /\ is_digit c = true) /\ 0 <= o /\
        exists x q1 u1, uruns f (xref_stream_section inflate ccitt (iobj loc)) o u (Ok (x, d)) q1 u1) as HS.
      { intros o0 d (pre & num & gen & raw & text & rest & sec & Ef & -> & HI & HX). split; [|split; [apply zlen_nonneg|]].
        - destruct (ind_digit _ _ _ _ _ HI) as (c & t' & -> & Hc). exists c. split; [|exact Hc].
          cbn [app] in Ef; apply At_start in Ef; apply At_cons in Ef; apply Ef.
        - destruct (u_xref_stream inflate ccitt D m f HD Hm loc pre num gen d raw text rest sec u Ef HI HX) as (x & u1 & HU & _ & _). eauto. }
      destruct HT as [o d q Hs HP Hq|o d p n q Hs HP Hp HT]; destruct (HS _ _ Hs) as (Hc & Ho & x & q1 & u1 & HU).
      - exists q, u1. split; [|split; [exact Hc|exact Ho]].
        eapply uruns_bind; [exact HU|]. cbv beta iota. unfold oget at 1. rewrite HP. eapply uruns_bind_err.
        destruct k as [|k]; [lia|]. cbn [prev_streams]. unfold reset_to. cbn [as_range]. apply uruns_reset. unfold reset_pos. rewrite (proj2 (Z.leb_le 0 q)) by lia.
        eapply uruns_bind_err. now apply u_no_stream.
      - destruct (u_dead_streams loc p n q HT HN k [x] q1 u1 Hp ltac:(lia)) as (q2 & u2 & HU2). exists q2, u2. split; [|split; [exact Hc|exact Ho]].
        eapply uruns_bind; [exact HU|]. cbv beta iota. unfold oget at 1. rewrite HP. eapply uruns_bind_err. exact HU2. }
    exists q', u'. intros st. destruct (Hoff rst st u m pos Hm) as (q1 & ex1 & E1).
    unfold pdf_trailer. rewrite arun_bind, E1. cbn [reset bind arun a_store a_usr a_pos].
    unfold reset_pos. rewrite (proj2 (Z.leb_le 0 o)) by lia. cbn [cur bind arun a_pos reset a_store a_usr]. rewrite Hc.
    assert (is_cur (Some c) 120 = false) as -> by (unfold is_cur; unfold is_digit in Hdig; lia). cbn [bind reset arun a_store a_usr a_pos].
    unfold reset_pos. rewrite (proj2 (Z.leb_le 0 o)) by lia.
    destruct (HR (st ++ ex1)) as [ex2 E2]. exists (ex1 ++ ex2). rewrite app_assoc. exact E2.
  Qed.
  Lemma not_opened k ver off : header_of f (Ok (ver, off)) ->
    (forall pos, exists q u', uruns f (pdf_trailer inflate ccitt (length_hook (locate_object inflate ccitt decrypt D m k)) (iobj (locate_object inflate ccitt decrypt D m k)) k m) pos rst0 (Err ParserExc) q u') ->
    fst (arun f (open_document inflate ccitt decrypt D m k) (mkA 0 [] rst0)) = Err ParserExc.
  Proof.
    intros Hh HT. destruct (Hh rst [] rst0) as [p0 E0]. destruct (HT p0) as (q & u' & HU). destruct (HU []) as [ex E1].
    unfold open_document. rewrite arun_bind, E0. cbv beta iota zeta. rewrite arun_bind.
    match type of E1 with ?A = _ => match goal with |- context [arun f (pdf_trailer inflate ccitt ?X ?Y k m) ?S] => change (arun f (pdf_trailer inflate ccitt X Y k m) S) with A end end.
    rewrite E1. reflexivity.
  Qed.
End Mixed.

(** C91 (a).  A file whose newest sections are [n] cross-reference tables (with trailers) and whose next
    Prev leads to anything but a table - to a cross-reference stream, say - cannot be opened:
    ParserException, whatever the rest of the file. *)
Theorem C91_no_table : forall inflate ccitt f ver off o n q before t rest,
  header_of f (Ok (ver, off)) -> offset_of f (Ok o) -> TablesTo f o n q ->
  f = before ++ t ++ rest -> q = zlen before -> List.length t = 4%nat -> t <> bs "xref" ->
  forall D m k, (2 <= D)%nat -> 4 * zlen f + 8 <= Z.of_nat m -> (n <= k)%nat ->
  fst (arun f (open_document inflate ccitt no_decrypt D m k) (mkA 0 [] rst0)) = Err ParserExc.
Proof.
  intros inflate ccitt f ver off o n q before t rest Hh Hoff HT Ef Eq Hl Hne D m k HD Hm Hk. eapply not_opened; [exact Hh|]. intros pos.
  apply (u_tables inflate ccitt D m f HD Hm) with (o := o) (n := n) (q := q); auto. exists before, t, rest. auto.
Qed.
Print Assumptions C91_no_table.
Theorem C91_tables_then_stream : forall inflate ccitt f ver off o n q,
  header_of f (Ok (ver, off)) -> offset_of f (Ok o) -> TablesTo f o n q -> object_at f q ->
  forall D m k, (2 <= D)%nat -> 4 * zlen f + 8 <= Z.of_nat m -> (n <= k)%nat ->
  fst (arun f (open_document inflate ccitt no_decrypt D m k) (mkA 0 [] rst0)) = Err ParserExc.
Proof.
  intros inflate ccitt f ver off o n q Hh Hoff HT HO D m k HD Hm Hk. destruct (object_no_table f q HO) as (before & t & rest & Ef & Eq & Hl & Hne).
  eapply C91_no_table; eauto.
Qed.
Print Assumptions C91_tables_then_stream.

(** C91 (b).  The same for [n] cross-reference streams before a table. *)
Theorem C91_streams_then_table : forall inflate ccitt f ver off o n q l t,
  header_of f (Ok (ver, off)) -> offset_of f (Ok o) -> StreamsTo inflate ccitt f o n q -> section_at f q l t ->
  forall D m k, (2 <= D)%nat -> 4 * zlen f + 8 <= Z.of_nat m -> (n <= k)%nat ->
  fst (arun f (open_document inflate ccitt no_decrypt D m k) (mkA 0 [] rst0)) = Err ParserExc.
Proof.
  intros inflate ccitt f ver off o n q l t Hh Hoff HT HS D m k HD Hm Hk. eapply not_opened; [exact Hh|]. intros pos.
  apply (u_streams inflate ccitt D m f HD Hm) with (o := o) (n := n) (q := q); auto. eapply table_no_number; exact HS.
Qed.
Print Assumptions C91_streams_then_table.

(** C91 (c).  Written files: revisions with cross-reference streams, updated by one with a table; and the
    other way round. *)
Theorem C91_table_update : forall inflate ccitt deflate a b r older r',
  (forall x, inflate (deflate x) = Some x) -> is_digit a = true -> is_digit b = true -> Forall mrev_ok (r :: older) -> rev_ok r' ->
  let f0 := modern_file deflate a b (r :: older) in
  let f := f0 ++ rev_text (zlen f0) (trailer_with (snd (mwrite deflate a b (r :: older))) (rv_trailer r')) r' in
  zlen f < 256 ^ 4 ->
  forall D m k, (2 <= D)%nat -> 4 * zlen f + 8 <= Z.of_nat m -> (1 <= k)%nat ->
  fst (arun f (open_document inflate ccitt no_decrypt D m k) (mkA 0 [] rst0)) = Err ParserExc.
Proof.
  intros inflate ccitt deflate a b r older r' Hround Ha Hb HF Hr' f0 f Hlt D m k HD Hm Hk.
  pose proof (mprev_cons deflate a b r older) as Ep. set (q := zlen (fst (mwrite deflate a b older)) + zlen (body_text (mobjs deflate r))) in *.
  assert (f0 = (fst (mwrite deflate a b older) ++ body_text (mobjs deflate r)) ++
      object_text (mr_num r) 0 (xvalue deflate (zlen (fst (mwrite deflate a b older))) (snd (mwrite deflate a b older)) r) ++ end_text q) as E0.
  { unfold f0, modern_file. rewrite mwrite_cons. unfold mrev_text. now rewrite <- !app_assoc. }
  assert (0 < q) as Hq.
  { destruct (mW_version deflate a b older) as [rest Er]. unfold q. rewrite Er. unfold version_line. rewrite !zlen_app. change (zlen (bs "%PDF-")) with 5.
    repeat match goal with |- context [zlen ?x] => lazymatch goal with H : 0 <= zlen x |- _ => fail | _ => pose proof (zlen_nonneg x) end end. lia. }
  set (t := trailer_with (snd (mwrite deflate a b (r :: older))) (rv_trailer r')) in *.
  inversion HF as [|? ? Hr _]; subst.
  destruct Hr' as (R1 & R2 & R3 & R4 & R5 & R6).
  pose proof (zlen_nonneg f0) as H0. pose proof (zlen_nonneg (body_text (rv_objs r'))) as H1.
  assert (zlen f0 + zlen (body_text (rv_objs r')) < 10 ^ 10) as Hlt2.
  { unfold f, rev_text in Hlt. rewrite !zlen_app in Hlt. pose proof (zlen_nonneg (section_text (listings (zlen f0) (rv_objs r')) t)).
    pose proof (zlen_nonneg (end_text (zlen f0 + zlen (body_text (rv_objs r'))))). change (256 ^ 4) with 4294967296 in Hlt. change (10 ^ 10) with 10000000000. lia. }
  assert (22 <= zlen f) as H22.
  { unfold f. rewrite zlen_app. pose proof (rev_text_len (zlen f0) t r'). lia. }
  eapply C91_tables_then_stream with (o := zlen f0 + zlen (body_text (rv_objs r'))) (n := 1%nat) (q := q) (ver := [a; 46; b]) (off := 0); auto.
  - destruct (mW_version deflate a b (r :: older)) as [rest Er]. apply (header_written a b f (rest ++ rev_text (zlen f0) t r')); auto.
    unfold f, f0, modern_file. rewrite Er. now rewrite <- app_assoc.
  - unfold f, rev_text. rewrite !app_assoc. apply offset_written. lia.
  - apply TT_one with (l := listings (zlen f0) (rv_objs r')) (t := t); [| |exact Hq].
    + exists (f0 ++ body_text (rv_objs r')), (section_text (listings (zlen f0) (rv_objs r')) t), (end_text (zlen f0 + zlen (body_text (rv_objs r')))).
      unfold f, rev_text. split; [now rewrite <- !app_assoc|]. split; [now rewrite zlen_app|]. apply section_ok.
      * apply listings_fit; auto.
      * unfold t. rewrite Ep. apply trailer_printable; auto. intros p E. injection E as <-. lia.
    + unfold t. rewrite Ep. cbn [trailer_with]. rewrite dget_app by exact R4. reflexivity.
  - do 6 eexists. split; [unfold f; rewrite E0, <- app_assoc, <- (app_assoc (object_text _ _ _)); reflexivity|].
    split; [unfold q; now rewrite zlen_app|]. apply (x_text inflate ccitt deflate Hround a b Ha Hb); auto.
Qed.
Print Assumptions C91_table_update.
Theorem C91_stream_update : forall inflate ccitt deflate a b r older r',
  (forall x, inflate (deflate x) = Some x) -> is_digit a = true -> is_digit b = true -> Forall rev_ok (r :: older) -> mrev_ok r' ->
  let f0 := file_of a b (r :: older) in
  let f := f0 ++ mrev_text deflate (zlen f0) (snd (write a b (r :: older))) r' in
  zlen f < 256 ^ 4 ->
  forall D m k, (2 <= D)%nat -> 4 * zlen f + 8 <= Z.of_nat m -> (1 <= k)%nat ->
  fst (arun f (open_document inflate ccitt no_decrypt D m k) (mkA 0 [] rst0)) = Err ParserExc.
Proof.
  intros inflate ccitt deflate a b r older r' Hround Ha Hb HF Hr' f0 f Hlt D m k HD Hm Hk.
  pose proof (prev_cons a b r older) as Ep. set (q := zlen (fst (write a b older)) + zlen (body_text (rv_objs r))) in *.
  set (pv := snd (write a b (r :: older))) in *.
  pose proof (zlen_nonneg f0) as H0. pose proof (zlen_nonneg (body_text (mobjs deflate r'))) as H1.
  assert (zlen f = zlen f0 + zlen (mrev_text deflate (zlen f0) pv r')) as Hlen by (unfold f; now rewrite zlen_app).
  pose proof (mrev_len deflate a b Ha Hb (zlen f0) pv r') as Hml.
  destruct (chain_written a b (r :: older) ltac:(discriminate) HF ltac:(change (10 ^ 10) with 10000000000; change (256 ^ 4) with 4294967296 in Hlt; change (fst (write a b (r :: older))) with f0; lia)
     (mrev_text deflate (zlen f0) pv r') q Ep) as [Hq HC]. change (fst (write a b (r :: older)) ++ mrev_text deflate (zlen f0) pv r') with f in HC.
  destruct (xvalue deflate (zlen f0) pv r') as [|?|?|? ? ?|?|?|?|?|?|d raw|? ?|?|? ?] eqn:Ex; try discriminate Ex.
  destruct (xref_stm inflate ccitt deflate Hround a b Ha Hb (zlen f0) pv r' d raw Hr' ltac:(lia) ltac:(lia) Ex) as (HX & HP & _).
  assert (22 <= zlen f) as H22.
  { unfold f, f0, file_of. rewrite write_cons, !zlen_app. pose proof (rev_text_len (zlen (fst (write a b older))) (trailer_with (snd (write a b older)) (rv_trailer r)) r).
    pose proof (zlen_nonneg (fst (write a b older))). match goal with |- context [zlen (mrev_text ?a ?b ?c ?d)] => pose proof (zlen_nonneg (mrev_text a b c d)) end. lia. }
  assert (exists l t, section_at f q l t) as (l & t & HS) by (inversion HC; subst; eauto).
  eapply C91_streams_then_table with (o := zlen f0 + zlen (body_text (mobjs deflate r'))) (n := 1%nat) (q := q) (ver := [a; 46; b]) (off := 0) (l := l) (t := t); auto.
  - destruct (W_version a b (r :: older)) as [rest Er]. apply (header_written a b f (rest ++ mrev_text deflate (zlen f0) pv r')); auto.
    unfold f, f0, file_of. rewrite Er. now rewrite <- app_assoc.
  - unfold f, mrev_text. rewrite !app_assoc. apply offset_written. lia.
  - apply ST_one with (d := d); [|rewrite HP, Ep; reflexivity|lia].
    exists (f0 ++ body_text (mobjs deflate r')), (mr_num r'), 0, raw, (object_text (mr_num r') 0 (xvalue deflate (zlen f0) pv r')), (end_text (zlen f0 + zlen (body_text (mobjs deflate r')))).
    eexists. split; [unfold f, mrev_text; now rewrite <- !app_assoc|]. split; [now rewrite zlen_app|].
    split; [rewrite <- Ex at 1; apply (x_text inflate ccitt deflate Hround a b Ha Hb); auto|exact HX].
Qed.
Print Assumptions C91_stream_update.

(** The two-revision examples of C76 and C79, updated the other way. *)
Example C91_ex_table ccitt : exists m,
  fst (arun (modern_file store_only 49 53 [mex_new; mex_old] ++
     rev_text (zlen (modern_file store_only 49 53 [mex_new; mex_old])) (trailer_with (snd (mwrite store_only 49 53 [mex_new; mex_old])) (rv_trailer ex_new)) ex_new)
   (open_document Some ccitt no_decrypt 2 m 1) (mkA 0 [] rst0)) = Err ParserExc.
Proof.
  eexists. apply (C91_table_update Some ccitt store_only 49 53 mex_new [mex_old] ex_new (fun x => eq_refl) eq_refl eq_refl
    (Forall_cons _ mex_new_ok (Forall_cons _ mex_old_ok (Forall_nil _))) ex_new_ok); [reflexivity|lia| |lia].
  match goal with |- 4 * zlen ?f + 8 <= _ => instantiate (1 := Z.to_nat (4 * zlen f + 8)); pose proof (zlen_nonneg f) end. lia.
Qed.
Example C91_ex_stream ccitt : exists m,
  fst (arun (file_of 49 53 [ex_new; ex_old] ++
     mrev_text store_only (zlen (file_of 49 53 [ex_new; ex_old])) (snd (write 49 53 [ex_new; ex_old])) mex_new)
   (open_document Some ccitt no_decrypt 2 m 1) (mkA 0 [] rst0)) = Err ParserExc.
Proof.
  eexists. apply (C91_stream_update Some ccitt store_only 49 53 ex_new [ex_old] mex_new (fun x => eq_refl) eq_refl eq_refl
    (Forall_cons _ ex_new_ok (Forall_cons _ ex_old_ok (Forall_nil _))) mex_new_ok); [reflexivity|lia| |lia].
  match goal with |- 4 * zlen ?f + 8 <= _ => instantiate (1 := Z.to_nat (4 * zlen f + 8)); pose proof (zlen_nonneg f) end. lia.
Qed.
