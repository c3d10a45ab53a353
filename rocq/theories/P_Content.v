(** Content streams: C38, C39. *)
From Coq Require Import String.
From Verif Require Import Prelude M_Prog M_Parser S_Syntax S_Stream L_Buffer L_Prog L_ParserWP
  L_Syntax L_Syntax2 S_Print L_Print L_Stream L_Content.
Local Open Scope Z_scope.
Local Open Scope prog_scope.

(** C38.  ContentParser(data).objects(), run to the end, on any content text: exactly the listed
    operators with their operands, and inline images, in order. *)
Theorem C38_content_operators : forall its ss lead U st (u : U) n,
  Content its ss -> Sep lead -> 4 * zlen (lead ++ ss) + 10 <= Z.of_nat n ->
  exists ex, arun (lead ++ ss) (content_objects n) (mkA 0 st u) = (Ok its, mkA (zlen (lead ++ ss)) (st ++ ex) u).
Proof.
  intros its ss lead U st u n Hc Hl Hn.
  pose proof (r_content_objects (U:=U) (lead ++ ss) its ss lead n 0 Hc Hl) as H.
  rewrite zlen_app in *. apply H; [apply (At_start _ []); reflexivity|].
  unfold ofuel. rewrite zlen_app. pos_facts. lia.
Qed.

(** e.g. "(…) Tj<LF>12.5 -3 Td" for every string *)
Lemma op_ok w : w <> [] -> forallb (fun c => negb (is_ws c) && negb (is_delim c)) w = true ->
  head_is (fun c => is_digit c || memZ c [43; 45; 46]) w = false ->
  w <> bs "null" -> w <> bs "true" -> w <> bs "false" -> w <> bs "BI" -> OpName w.
Proof.
  intros. repeat split; auto. apply Forall_forall. intros c Hc. rewrite forallb_forall in H0. specialize (H0 c Hc).
  apply andb_true_iff in H0. rewrite !negb_true_iff in H0. auto.
Qed.
Ltac opname := apply op_ok; try reflexivity; discriminate.
Lemma sep_lf : Sep [10]. Proof. apply (Sep_ws 10 []); [reflexivity|constructor]. Qed.
Example C38_ex : forall v : list Z,
  Content [COp (bs "Tj") [OStr v]; COp (bs "Td") [OReal false 125 (-1); OInt (-3)]]
    (((40 :: str_text v ++ [41]) ++ [32] ++ []) ++ bs "Tj" ++ [10] ++ bs "12.5 -3 Td").
Proof.
  intros v.
  apply (Co_op [OStr v] ((40 :: str_text v ++ [41]) ++ [32] ++ []) (bs "Tj") [10]
           [COp (bs "Td") [OReal false 125 (-1); OInt (-3)]] (bs "12.5 -3 Td")); try opname; try apply sep_lf; try reflexivity.
  - apply SE_cons; [apply Ser_str, str_text_ok|apply sep_sp1|constructor].
  - apply (Co_op [OReal false 125 (-1); OInt (-3)] (bs "12.5" ++ [32] ++ bs "-3" ++ [32] ++ []) (bs "Td") [] [] []); try opname; try constructor; try reflexivity.
    + apply (Ser_real FContent (OReal false 125 (-1))); [|reflexivity].
      apply (RT_pos [] (bs "12") (bs "5")); auto; try discriminate; repeat constructor.
    + apply sep_sp1.
    + apply SE_cons; [apply Ser_int; [apply (IT_minus (bs "3")); [discriminate|repeat constructor]|reflexivity|discriminate]|apply sep_sp1|constructor].
Qed.

(** C39.  An inline image yields its dictionary and its data verbatim; the cursor is left right
    after the EI (and its one white space byte), wherever the image stands. *)
Theorem C39_inline_image_verbatim : forall es sep0 s w0 data t pre lead rest U st (u : U) n,
  Sep lead -> Sep sep0 -> nonreg (sep0 ++ s ++ bs "ID") -> SerEntries FInline es s (73 :: 68 :: w0 :: t ++ rest) ->
  is_ws w0 = true -> ImageEnd data t ->
  4 * zlen (pre ++ lead ++ image_text sep0 s t w0 ++ rest) + 8 <= Z.of_nat n ->
  exists ex, arun (pre ++ lead ++ image_text sep0 s t w0 ++ rest) (object (fun d => ret d) FContent n) (mkA (zlen pre) st u)
    = (Ok (OInline (dict_of es) data), mkA (zlen pre + zlen lead + zlen (image_text sep0 s t w0)) (st ++ ex) u).
Proof.
  intros es sep0 s w0 data t pre lead rest U st u n Hl Hs0 Hnr He Hw Him Hn.
  eapply (r_bi (U:=U) _ es sep0 s w0 data t (zlen pre) lead rest n); eauto.
  - now apply At_start with (pre := pre).
  - unfold ofuel. pose proof (zlen_nonneg pre).
    match goal with |- context [zlen ?l - _] => pose proof (zlen_nonneg l) end. lia.
Qed.

(** Which data qualify: those in which EI never stands next to white space - counting one space
    written after the data.  Checked by a computation on the data. *)
Fixpoint no_ei (l : list Z) : bool :=
  match l with
  | x :: ((y :: z :: _) as r) =>
      negb (((z =? 73) && (y =? 69) && is_ws x) || ((y =? 73) && (x =? 69) && is_ws z)) && no_ei r
  | _ => true
  end.
Lemma no_ei_app a b : no_ei (a ++ b) = true -> no_ei b = true.
Proof.
  induction a as [|x a IH]; auto. cbn [app]. intros H. apply IH.
  destruct (a ++ b) as [|y [|z r]] eqn:E; auto. cbn [no_ei] in H. apply andb_true_iff in H. tauto.
Qed.
Lemma no_ei_bordered l : no_ei l = true -> forall a b, l = a ++ b -> ~ bordered a.
Proof.
  intros H a b -> (p & w & Hw & [-> | ->]); rewrite <- app_assoc in H; apply no_ei_app in H; cbn [app no_ei] in H;
    rewrite Hw in H; cbn in H; rewrite ?orb_true_r in H; discriminate.
Qed.
Theorem C39_ordinary_data : forall data w, is_ws w = true -> no_ei (data ++ [w; 69]) = true ->
  ImageEnd data (data ++ [w; 69; 73]).
Proof.
  intros data w Hw H. split; [exists w; auto|]. intros a b E Hb.
  destruct b as [|y b _] using rev_ind; auto. exfalso.
  change [w; 69; 73] with ([w; 69] ++ [73]) in E. rewrite app_assoc, app_assoc in E.
  apply app_inj_tail in E. destruct E as [E _]. eapply no_ei_bordered; eauto.
Qed.
Example C39_ex :
  Sep [32] /\ nonreg ([32] ++ bs "/W 1 " ++ bs "ID") /\
  SerEntries FInline [(bs "W", OInt 1)] (bs "/W 1 ") (73 :: 68 :: 10 :: bs "aEIb EI" ++ bs " Q") /\
  ImageEnd (bs "aEIb") (bs "aEIb EI").
Proof.
  split; [apply sep_sp1|]. split; [reflexivity|]. split.
  - apply (SN_cons FInline (bs "W") (bs "W") [32] (OInt 1) (bs "1") [32] [] []).
    + repeat (constructor; try reflexivity; try discriminate).
    + reflexivity.
    + apply sep_sp1.
    + apply Ser_int; [apply (IT_plain (bs "1")); [discriminate|repeat constructor]|reflexivity|discriminate].
    + apply sep_sp1.
    + constructor.
  - apply (C39_ordinary_data (bs "aEIb") 32); reflexivity.
Qed.
(** Data containing EI next to white space is cut there. *)
Theorem C39_bordered_EI_cut_refuted :
  ~ (forall data n, 4 * zlen (bs "BI /W 1 ID " ++ data ++ bs " EI") + 8 <= Z.of_nat n ->
       fst (arun (bs "BI /W 1 ID " ++ data ++ bs " EI") (object (fun d => ret d) FContent n) (mkA 0 [] tt))
       = Ok (OInline (dict_of [(bs "W", OInt 1)]) data)).
Proof.
  intro H. specialize (H (bs "a EI b") 300%nat).
  assert (4 * zlen (bs "BI /W 1 ID " ++ bs "a EI b" ++ bs " EI") + 8 <= Z.of_nat 300) as H1 by (vm_compute; discriminate).
  specialize (H H1). vm_compute in H. discriminate.
Qed.

Print Assumptions C38_content_operators.
Print Assumptions C39_inline_image_verbatim.
Print Assumptions C39_ordinary_data.
Print Assumptions C39_bordered_EI_cut_refuted.
