(** Streams: C11, C12. *)
From Coq Require Import String.
From Verif Require Import Prelude M_Prog M_Parser S_Syntax S_Stream L_Buffer L_Prog L_ParserWP
  L_Syntax L_Syntax2 S_Print L_Print L_Stream.
Local Open Scope Z_scope.
Local Open Scope prog_scope.

(** [reads fl f pos r q]: object() of a parser of class [fl] (not the document parser, which first
    resolves an indirect Length), started at [pos], has outcome [r] and leaves the cursor at [q]. *)
Definition reads (fl : flavor) (f : list Z) (pos : Z) (r : res obj) (q : Z) : Prop :=
  forall U st (u : U) n, 4 * zlen f + 8 <= Z.of_nat n ->
  exists ex, arun f (object (fun d => ret d) fl n) (mkA pos st u) = (r, mkA q (st ++ ex) u).

Lemma reads_stream fl es s0 s sp' tail pre lead r q :
  Sep s0 -> SerEntries fl es s (62 :: 62 :: sp' ++ tail) -> Sep sp' -> head_is (fun c => c =? 115) tail = true ->
  Sep lead ->
  (forall U m, fuel (pre ++ lead ++ 60 :: 60 :: s0 ++ s ++ 62 :: 62 :: sp' ++ tail) m (zlen pre + zlen lead) ->
     runs (pre ++ lead ++ 60 :: 60 :: s0 ++ s ++ 62 :: 62 :: sp' ++ tail) (stream_body m (dict_of es) : prog U _)
       (zlen pre + zlen lead + 2 + zlen s0 + zlen s + 2 + zlen sp') r q) ->
  reads fl (pre ++ lead ++ 60 :: 60 :: s0 ++ s ++ 62 :: 62 :: sp' ++ tail) (zlen pre) r q.
Proof.
  intros Hs0 He Hsp Ht Hl HS U st u n Hn. pose proof (oc_range fl).
  eapply (r_object_stream _ (fun d => ret d) fl es s0 s sp' tail n (zlen pre) lead); eauto.
  - destruct tail as [|x tail]; [discriminate|]. cbn [head_is] in Ht. apply Z.eqb_eq in Ht. subst x. reflexivity.
  - now apply At_start with (pre := pre).
  - unfold ofuel. pose proof (zlen_nonneg pre).
    match goal with |- context [zlen ?l - _] => pose proof (zlen_nonneg l) end. lia.
  - intros m Hm. apply (HS U m Hm).
Qed.

(** C11.  The data is returned verbatim, whatever it contains. *)
Theorem C11_correct_length_verbatim : forall fl es s0 s sp' e data ws pre lead rest,
  Sep lead -> Sep s0 -> Sep sp' ->
  SerEntries fl es s (62 :: 62 :: sp' ++ bs "stream" ++ e ++ data ++ ws ++ bs "endstream" ++ rest) ->
  dget (dict_of es) (bs "Length") = Some (OInt (zlen data)) ->
  StreamEol e (data ++ ws ++ bs "endstream" ++ rest) -> all_ws ws ->
  reads fl (pre ++ lead ++ stream_text s0 s sp' e data ws ++ rest) (zlen pre)
    (Ok (OStream (dict_of es) data))
    (zlen pre + zlen lead + zlen (stream_text s0 s sp' e data ws)).
Proof.
  intros fl es s0 s sp' e data ws pre lead rest Hl Hs0 Hsp He Hd Heol Hw.
  unfold stream_text.
  replace (pre ++ lead ++ (60 :: 60 :: s0 ++ s ++ 62 :: 62 :: sp' ++ bs "stream" ++ e ++ data ++ ws ++ bs "endstream") ++ rest)
    with (pre ++ lead ++ 60 :: 60 :: s0 ++ s ++ 62 :: 62 :: sp' ++ (bs "stream" ++ e ++ data ++ ws ++ bs "endstream" ++ rest))
    by (repeat (rewrite <- ?app_assoc; cbn [app]); reflexivity).
  eapply reads_stream; eauto. intros U m Hm.
  set (f := pre ++ _) in *.
  assert (At f (zlen pre + zlen lead + 2 + zlen s0 + zlen s + 2 + zlen sp') (bs "stream" ++ e ++ data ++ ws ++ bs "endstream" ++ rest)) as HA.
  { eapply At_eq; [apply (At_start f (pre ++ lead ++ 60 :: 60 :: s0 ++ s ++ 62 :: 62 :: sp'))|zlens; lia].
    unfold f. repeat (rewrite <- ?app_assoc; cbn [app]). reflexivity. }
  eapply runs_eq; [eapply r_stream_ok; eauto; fu|].
  zlens. change (zlen (bs "stream")) with 6. change (zlen (bs "endstream")) with 9. lia.
Qed.

(** Every byte string, "endstream" included, is the data of such a stream. *)
Definition length_entry (k : Z) : list (list Z * obj) := [(bs "Length", OInt k)].
Lemma length_dict k : dget (dict_of (length_entry k)) (bs "Length") = Some (OInt k).
Proof. reflexivity. Qed.
Lemma length_entries fl k tail : 0 <= k ->
  SerEntries fl (length_entry k) (47 :: bs "Length" ++ [32] ++ dec k ++ [] ++ []) (62 :: 62 :: tail).
Proof.
  intros Hk. destruct (dec_ok k Hk) as (D1 & D2 & D3).
  apply (SN_cons fl (bs "Length") (bs "Length") [32] (OInt k) (dec k) [] [] [] (62 :: 62 :: tail)).
  - repeat (constructor; try reflexivity; try discriminate).
  - reflexivity.
  - apply sep_sp1.
  - cbn [app]. constructor; [|reflexivity|].
    + pose proof (IT_plain (dec k) D3 D2) as HI. rewrite D1 in HI. exact HI.
    + intros _ _. apply (NR_other [] (62 :: 62 :: tail)); try reflexivity. constructor.
  - constructor.
  - constructor.
Qed.
Example C11_ex : forall data rest,
  reads FBasic (bs "<</Length " ++ dec (zlen data) ++ bs ">> stream" ++ [13; 10] ++ data ++ [10] ++ bs "endstream" ++ rest) 0
    (Ok (OStream (dict_of (length_entry (zlen data))) data))
    (9 + 1 + zlen (dec (zlen data)) + 9 + 2 + zlen data + 1 + 9).
Proof.
  intros data rest.
  pose proof (C11_correct_length_verbatim FBasic (length_entry (zlen data)) [] (47 :: bs "Length" ++ [32] ++ dec (zlen data) ++ [] ++ []) [32] [13; 10] data [10] [] [] rest) as H.
  unfold stream_text in H. cbn [app] in H.
  repeat (rewrite <- ?app_assoc in H; cbn [app] in H). cbn [app bs] in *. 
  match type of H with _ -> _ -> _ -> _ -> _ -> _ -> _ -> reads _ _ _ _ ?q => replace q with (9 + 1 + zlen (dec (zlen data)) + 9 + 2 + zlen data + 1 + 9) in H end.
  - apply H; try apply sep_sp1; try constructor; auto.
    + apply length_entries, zlen_nonneg.
    + right; left; reflexivity.
  - clear H. cbn [app]. zlens. lia.
Qed.

(** C12.  Wrong Length: the data is what stands before the first "endstream", without trailing
    CR/LF bytes, as long as the Length does not lead out of the file. *)
Theorem C12_wrong_length_recovered : forall fl es s0 s sp' e raw data k pre lead rest,
  Sep lead -> Sep s0 -> Sep sp' ->
  SerEntries fl es s (62 :: 62 :: sp' ++ bs "stream" ++ e ++ raw ++ bs "endstream" ++ rest) ->
  dget (dict_of es) (bs "Length") = Some (OInt k) ->
  StreamEol e (raw ++ bs "endstream" ++ rest) ->
  wrong_length k (raw ++ bs "endstream" ++ rest) ->
  first_endstream raw -> without_trailing_eol raw data ->
  reads fl (pre ++ lead ++ stream_text s0 s sp' e raw [] ++ rest) (zlen pre)
    (Ok (OStream (dict_of es) data))
    (zlen pre + zlen lead + zlen (stream_text s0 s sp' e raw [])).
Proof.
  intros fl es s0 s sp' e raw data k pre lead rest Hl Hs0 Hsp He Hd Heol Hw Hf Hdata.
  unfold stream_text.
  replace (pre ++ lead ++ (60 :: 60 :: s0 ++ s ++ 62 :: 62 :: sp' ++ bs "stream" ++ e ++ raw ++ [] ++ bs "endstream") ++ rest)
    with (pre ++ lead ++ 60 :: 60 :: s0 ++ s ++ 62 :: 62 :: sp' ++ (bs "stream" ++ e ++ raw ++ bs "endstream" ++ rest))
    by (repeat (rewrite <- ?app_assoc; cbn [app]); reflexivity).
  eapply reads_stream; eauto. intros U m Hm.
  set (f := pre ++ _) in *.
  assert (At f (zlen pre + zlen lead + 2 + zlen s0 + zlen s + 2 + zlen sp') (bs "stream" ++ e ++ raw ++ bs "endstream" ++ rest)) as HA.
  { eapply At_eq; [apply (At_start f (pre ++ lead ++ 60 :: 60 :: s0 ++ s ++ 62 :: 62 :: sp'))|zlens; lia].
    unfold f. repeat (rewrite <- ?app_assoc; cbn [app]). reflexivity. }
  eapply runs_eq; [eapply r_stream_wrong; eauto; fu|].
  zlens. change (zlen (bs "stream")) with 6. change (zlen (bs "endstream")) with 9. lia.
Qed.
(** A computable check of [first_endstream]. *)
Lemma first_endstream_check raw :
  forallb (fun i => negb (eqlZ (firstn 9 (skipn i (raw ++ bs "endstream"))) (bs "endstream"))) (seq 0 (List.length raw)) = true ->
  first_endstream raw.
Proof.
  intros H a b E. rewrite forallb_forall in H.
  destruct (Nat.lt_ge_cases (List.length a) (List.length raw)) as [Hl|Hl].
  - exfalso. specialize (H (List.length a)). rewrite E, skipn_app, skipn_all, Nat.sub_diag in H. cbn [skipn app] in H.
    rewrite firstn_app in H. change (List.length (bs "endstream")) with 9%nat in H. rewrite Nat.sub_diag, firstn_O, app_nil_r in H.
    change (firstn 9 (bs "endstream")) with (bs "endstream") in H. rewrite eqlZ_refl in H. cbn in H.
    assert (false = true) by (apply H, in_seq; lia). discriminate.
  - apply (f_equal (@List.length Z)) in E. rewrite !app_length in E. destruct b; auto. cbn [List.length] in E. lia.
Qed.
(** Lengths that are too short or too long (but stay in the file) are wrong in this sense, unless
    the bytes there happen to read "endstream": here 1 and 12 for ten bytes of data. *)
Example C12_ex :
  let body := bs "***data***" ++ [10] ++ bs "endstream" ++ bs "          endobj" in
  wrong_length 1 body /\ wrong_length 12 body /\ wrong_length (-3) body /\ first_endstream (bs "***data***" ++ [10]) /\
  without_trailing_eol (bs "***data***" ++ [10]) (bs "***data***").
Proof.
  cbv zeta. split; [|split; [|split; [|split]]]; try (repeat split; vm_compute; discriminate).
  - apply first_endstream_check. reflexivity.
  - exists [10]. split; [reflexivity|]. split; [auto|].
    intros x d H. change (bs "***data***") with (bs "***data**" ++ [42]) in H. apply app_inj_tail in H. destruct H as [_ <-]. lia.
Qed.

(** The promise without the provisos is false. *)
(** 1. A Length that leads out of the file gives TypeError, not a recovered stream. *)
Theorem C12_length_past_eof_refuted :
  ~ (forall k raw data, zlen raw <> k -> first_endstream raw -> without_trailing_eol raw data ->
       reads FBasic (bs "<</Length " ++ dec k ++ bs ">> stream" ++ [10] ++ raw ++ bs "endstream") 0
         (Ok (OStream (dict_of (length_entry k)) data))
         (zlen (bs "<</Length " ++ dec k ++ bs ">> stream" ++ [10] ++ raw ++ bs "endstream"))).
Proof.
  intro H. specialize (H 50 [97] [97]). 
  assert (zlen [97] <> 50) as H1 by discriminate.
  assert (first_endstream [97]) as H2.
  { apply first_endstream_check. reflexivity. }
  assert (without_trailing_eol [97] [97]) as H3.
  { exists []. repeat split; auto. all: intros ->; destruct d as [|? [|? ?]]; discriminate. }
  specialize (H H1 H2 H3 unit [] tt 400%nat).
  destruct H as [ex H]; [vm_compute; discriminate|]. vm_compute in H. discriminate.
Qed.
(** 2. Data that really ends with an end of line loses it. *)
Theorem C12_trailing_eol_refuted :
  ~ (forall k data, zlen data <> k -> first_endstream data -> wrong_length k (data ++ [10] ++ bs "endstream" ++ bs "          ") ->
       reads FBasic (bs "<</Length " ++ dec k ++ bs ">> stream" ++ [10] ++ data ++ [10] ++ bs "endstream" ++ bs "          ") 0
         (Ok (OStream (dict_of (length_entry k)) data))
         (zlen (bs "<</Length " ++ dec k ++ bs ">> stream" ++ [10] ++ data ++ [10] ++ bs "endstream"))).
Proof.
  intro H. specialize (H 0 [97; 10]).
  assert (zlen [97; 10] <> 0) as H1 by discriminate.
  assert (first_endstream [97; 10]) as H2.
  { apply first_endstream_check. reflexivity. }
  assert (wrong_length 0 ([97; 10] ++ [10] ++ bs "endstream" ++ bs "          ")) as H3.
  { repeat split; vm_compute; discriminate. }
  specialize (H H1 H2 H3 unit [] tt 400%nat).
  destruct H as [ex H]; [vm_compute; discriminate|]. vm_compute in H. discriminate.
Qed.

Print Assumptions C11_correct_length_verbatim.
Print Assumptions C12_wrong_length_recovered.
Print Assumptions C12_length_past_eof_refuted.
Print Assumptions C12_trailing_eol_refuted.
