(** Indirect objects: C13. *)
From Coq Require Import String.
From Verif Require Import Prelude M_Prog M_Parser S_Syntax S_Stream L_Buffer L_Prog L_ParserWP
  L_Syntax L_Syntax2 S_Print L_Print L_Stream P_Stream M_Document S_Document L_Document.
Local Open Scope Z_scope.
Local Open Scope prog_scope.

(** [reads_ind f pos r q]: PDFParser.indirect_object() at [pos] has outcome [r] and stops at [q]. *)
Definition reads_ind (f : list Z) (pos : Z) (r : res (Z * Z * obj)) (q : Z) : Prop :=
  forall U st (u : U) n, 4 * zlen f + 8 <= Z.of_nat n ->
  exists ex, arun f (indirect_object (fun d => ret d) n) (mkA pos st u) = (r, mkA q (st ++ ex) u).

(** C13: every text of an indirect object, in any layout, whatever follows. *)
Theorem C13_indirect_objects : forall num gen v s pre rest,
  IndObj num gen v s rest ->
  reads_ind (pre ++ s ++ rest) (zlen pre) (Ok (num, gen, v)) (zlen pre + zlen s).
Proof.
  intros num gen v s pre rest H U st u n Hn.
  apply (r_indirect (pre ++ s ++ rest) (fun d => ret d)) with (rest := rest); auto.
  - intros d k pos _. apply runs_ret.
  - now apply At_start with (pre := pre).
  - unfold ofuel. pose proof (zlen_nonneg pre). pose proof (zlen_nonneg (pre ++ s ++ rest)). lia.
Qed.

(** Every value has such texts: numbers in decimal, one space between tokens. *)
Definition ind_text (num gen : Z) (body : list Z) : list Z :=
  dec num ++ [32] ++ dec gen ++ [32] ++ bs "obj" ++ [32] ++ body ++ [32] ++ bs "endobj".
Lemma ind_head_dec num gen : 0 <= num -> 0 <= gen -> ind_head_ok (dec num) [32] (dec gen) [32] [32].
Proof.
  intros H1 H2. destruct (dec_ok num H1) as (_ & A1 & A2). destruct (dec_ok gen H2) as (_ & B1 & B2).
  repeat split; auto using sep_sp1. discriminate.
Qed.
Theorem C13_every_value : forall num gen v rest, 0 <= num -> 0 <= gen -> printable v ->
  IndObj num gen v (ind_text num gen (print v)) rest.
Proof.
  intros num gen v rest H1 H2 Hv.
  pose proof (IO_full (dec num) [32] (dec gen) [32] [32] v (print v) [32] rest (ind_head_dec num gen H1 H2)) as H.
  destruct (dec_ok num H1) as (E1 & _). destruct (dec_ok gen H2) as (E2 & _). rewrite E1, E2 in H.
  unfold ind_head in H. unfold ind_text. repeat (rewrite <- app_assoc in H). apply H; [|apply sep_sp1].
  constructor. apply (print_ser FBasic v Hv (or_introl eq_refl) (bs "endobj" ++ rest)); try reflexivity. intros _. apply (NR_other [32] (bs "endobj" ++ rest)); auto using sep_sp1; reflexivity.
Qed.
(** Any bytes as stream data, with and without endobj. *)
Definition simple_stream (data : list Z) : list Z :=
  bs "<</Length " ++ dec (zlen data) ++ bs ">> stream" ++ [10] ++ data ++ [10] ++ bs "endstream".
Lemma simple_stream_text data rest :
  StreamText (dict_of (length_entry (zlen data))) data (simple_stream data) rest.
Proof.
  pose proof (STx_right (length_entry (zlen data)) [] (47 :: bs "Length" ++ [32] ++ dec (zlen data) ++ [] ++ []) [32] [10] data [10] rest) as H.
  unfold stream_text in H. unfold simple_stream. cbn [app bs] in *.
  repeat (rewrite <- ?app_assoc in H; cbn [app] in H).
  repeat (rewrite <- ?app_assoc; cbn [app]).
  apply H; try apply sep_sp1; try constructor; auto.
  - apply (length_entries FBasic (zlen data)). apply zlen_nonneg.
  - left; reflexivity.
Qed.
Theorem C13_every_stream : forall num gen data rest, 0 <= num -> 0 <= gen ->
  IndObj num gen (OStream (dict_of (length_entry (zlen data))) data) (ind_text num gen (simple_stream data)) rest /\
  (nosep rest -> 6 <= zlen rest -> firstn 6 rest <> bs "endobj" ->
   IndObj num gen (OStream (dict_of (length_entry (zlen data))) data)
     (dec num ++ [32] ++ dec gen ++ [32] ++ bs "obj" ++ [32] ++ simple_stream data ++ [10]) rest).
Proof.
  intros num gen data rest H1 H2.
  destruct (dec_ok num H1) as (E1 & _). destruct (dec_ok gen H2) as (E2 & _). split.
  - pose proof (IO_full (dec num) [32] (dec gen) [32] [32] (OStream (dict_of (length_entry (zlen data))) data)
      (simple_stream data) [32] rest (ind_head_dec num gen H1 H2)) as H. rewrite E1, E2 in H.
    unfold ind_head in H. unfold ind_text. repeat (rewrite <- app_assoc in H). apply H; [|apply sep_sp1].
    apply V_stream, simple_stream_text.
  - intros Hr H6 Hn.
    pose proof (IO_noend (dec num) [32] (dec gen) [32] [32] (dict_of (length_entry (zlen data))) data
      (simple_stream data) [10] rest (ind_head_dec num gen H1 H2)) as H. rewrite E1, E2 in H.
    unfold ind_head in H. repeat (rewrite <- app_assoc in H). apply H; auto.
    + apply simple_stream_text.
    + constructor; [reflexivity|constructor].
Qed.
(** The missing endobj is tolerated only if six bytes follow: at the end of the file the lookahead
    fails with TypeError. *)
Theorem C13_missing_endobj_at_eof_refuted :
  ~ (forall data, exists q, reads_ind (bs "1 0 obj " ++ simple_stream data) 0
       (Ok (1, 0, OStream (dict_of (length_entry (zlen data))) data)) q).
Proof.
  intro H. destruct (H []) as [q Hq]. specialize (Hq unit [] tt 400%nat).
  destruct Hq as [ex E]; [vm_compute; discriminate|]. vm_compute in E. discriminate.
Qed.
Print Assumptions C13_indirect_objects.
Print Assumptions C13_every_value.
Print Assumptions C13_every_stream.
Print Assumptions C13_missing_endobj_at_eof_refuted.
