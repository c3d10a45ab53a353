(** Running the document-level parsers. *)
From Coq Require Import String.
From Verif Require Import Prelude M_Prog M_Buffer S_Buffer L_Buffer L_Prog M_Parser L_ParserWP S_Syntax L_Syntax L_Syntax2
  S_Stream L_Stream L_Content M_Filters M_Document S_Document.
Local Open Scope Z_scope.
Local Open Scope prog_scope.

Ltac pos_facts2 := repeat match goal with
  | |- context [zlen ?l] => lazymatch goal with H : 0 <= zlen l |- _ => fail | _ => pose proof (zlen_nonneg l) end end.
Ltac fu ::= unfold ofuel, fuel, fuel1 in *; pos_facts; pos_facts2; try lia.

Lemma app_inj_2 {A} (a : list A) : forall b x y, List.length a = List.length b -> a ++ x = b ++ y -> a = b /\ x = y.
Proof.
  induction a as [|h a IH]; intros [|g b] x y HL E; try discriminate; cbn in *; auto.
  inversion E; subst. destruct (IH b x y) as [-> ->]; auto.
Qed.
Lemma dvalue_int ds : ds <> [] -> digits_ok ds -> IntText (dvalue ds) ds /\ 0 <= dvalue ds.
Proof. intros. split; [now constructor|now apply dvalue_nonneg]. Qed.
Lemma sep_int_end s r : Sep s -> s <> [] -> int_end (s ++ r).
Proof.
  intros H Hs. destruct H as [|c s Hc _|body e s]; [congruence| |reflexivity].
  unfold int_end. cbn [app head_is]. unfold is_ws, is_digit in *. unfold whitespaces in Hc. cbn [memZ] in Hc. lia.
Qed.
Lemma digits_nosep ds r : ds <> [] -> digits_ok ds -> nosep (ds ++ r).
Proof.
  intros H D. destruct D as [|x l Hx _]; [congruence|]. unfold nosep. cbn [app head_is].
  unfold is_digit, is_ws, whitespaces in *. cbn [memZ]. lia.
Qed.
Lemma sep_int_end2 s w : Sep s -> int_end w -> int_end (s ++ w).
Proof. intros Hs Hw. destruct s as [|c s]; auto. apply sep_int_end; auto. discriminate. Qed.

Lemma runs_at {U A} f (p : prog U A) pos pos' r q : runs f p pos r q -> pos = pos' -> runs f p pos' r q.
Proof. intros; subst; auto. Qed.

Section D.
  Context {U : Type}.
  Variable f : list Z.
  Notation P := (prog U).
  Variable hook : dict -> prog U dict.
  (** the hook leaves dictionaries with a direct Length alone *)
  Hypothesis hook_id : forall d k pos, dget d (bs "Length") = Some (OInt k) -> runs f (hook d) pos (Ok d) pos.

  Lemma stream_nosep s0 s sp' e data ws r : nosep (stream_text s0 s sp' e data ws ++ r).
  Proof. reflexivity. Qed.

  Lemma r_stream_text d data s rest n pos lead : StreamText d data s rest -> Sep lead ->
    At f pos (lead ++ s ++ rest) -> ofuel f n pos 8 ->
    runs f (object hook FBasic n) pos (Ok (OStream d data)) (pos + zlen lead + zlen s).
  Proof.
    intros H Hl HA Hn. destruct H as [es s0 s sp' e data ws rest H0 Hsp He Hd Heol Hw|es s0 s sp' e raw data k rest H0 Hsp He Hd Heol Hk Hf Hdata];
      unfold stream_text in HA |- *.
    - assert (At f pos (lead ++ 60 :: 60 :: s0 ++ s ++ 62 :: 62 :: sp' ++ bs "stream" ++ e ++ data ++ ws ++ bs "endstream" ++ rest)) as HB.
      { revert HA. repeat (rewrite <- ?app_assoc; cbn [app]). auto. }
      eapply (r_object_stream f hook FBasic es s0 s sp'); eauto; try reflexivity.
      intros m Hm. eapply runs_bind; [eapply hook_id; eauto|].
      assert (At f (pos + zlen lead + 2 + zlen s0 + zlen s + 2 + zlen sp') (bs "stream" ++ e ++ data ++ ws ++ bs "endstream" ++ rest)) as HC.
      { revert HB. replace (lead ++ 60 :: 60 :: s0 ++ s ++ 62 :: 62 :: sp' ++ bs "stream" ++ e ++ data ++ ws ++ bs "endstream" ++ rest)
          with ((lead ++ [60;60] ++ s0 ++ s ++ [62; 62] ++ sp') ++ bs "stream" ++ e ++ data ++ ws ++ bs "endstream" ++ rest)
          by (repeat (rewrite <- ?app_assoc; cbn [app]); auto).
        intros HB. apply At_app in HB. eapply At_eq; eauto. zlens. lia. }
      eapply runs_eq; [eapply r_stream_ok; eauto; fu|].
      zlens. change (zlen (bs "stream")) with 6. change (zlen (bs "endstream")) with 9. lia.
    - assert (At f pos (lead ++ 60 :: 60 :: s0 ++ s ++ 62 :: 62 :: sp' ++ bs "stream" ++ e ++ raw ++ bs "endstream" ++ rest)) as HB.
      { revert HA. repeat (rewrite <- ?app_assoc; cbn [app]). auto. }
      eapply (r_object_stream f hook FBasic es s0 s sp'); eauto; try reflexivity.
      intros m Hm. eapply runs_bind; [eapply hook_id; eauto|].
      assert (At f (pos + zlen lead + 2 + zlen s0 + zlen s + 2 + zlen sp') (bs "stream" ++ e ++ raw ++ bs "endstream" ++ rest)) as HC.
      { revert HB. replace (lead ++ 60 :: 60 :: s0 ++ s ++ 62 :: 62 :: sp' ++ bs "stream" ++ e ++ raw ++ bs "endstream" ++ rest)
          with ((lead ++ [60;60] ++ s0 ++ s ++ [62; 62] ++ sp') ++ bs "stream" ++ e ++ raw ++ bs "endstream" ++ rest)
          by (repeat (rewrite <- ?app_assoc; cbn [app]); auto).
        intros HB. apply At_app in HB. eapply At_eq; eauto. zlens. lia. }
      eapply runs_eq; [eapply r_stream_wrong; eauto; fu|].
      zlens. change (zlen (bs "stream")) with 6. change (zlen (bs "endstream")) with 9. lia.
  Qed.
  Lemma stream_text_nosep d data s rest r : StreamText d data s rest -> nosep (s ++ r).
  Proof. destruct 1; reflexivity. Qed.
  Lemma value_nosep v s rest r : Value v s rest -> nosep (s ++ r).
  Proof. destruct 1; [eapply ser_nosep; eauto|eapply stream_text_nosep; eauto]. Qed.

  (** value then separator *)
  Lemma r_value_sp {A} (g : obj -> P A) v s s4 tail n pos r q : Value v s (s4 ++ tail) -> Sep s4 -> nosep tail ->
    At f pos (s ++ s4 ++ tail) -> ofuel f n pos 8 ->
    runs f (g v) (pos + zlen s + zlen s4) r q ->
    runs f (x <- object hook FBasic n ;; sp n ;;; g x) pos r q.
  Proof.
    intros H Hs4 Ht HA Hn HG. pose proof (At_len _ _ _ HA) as HL. rewrite !zlen_app in HL.
    remember (s4 ++ tail) as rest eqn:Er. destruct H as [v s rest HS|d data s rest HS]; subst rest.
    - eapply runs_bind; [apply (r_object f hook FBasic v s (s4 ++ tail) n pos [] s4); auto; [constructor|]|].
      + destruct v; cbn; auto. exists tail. auto.
      + change (zlen []) with 0. rewrite Z.add_0_r. apply At_app in HA.
        destruct v; cbn [trailing]; try (change (zlen []) with 0; rewrite Z.add_0_r;
          eapply runs_bind; [apply (r_sp f s4 n _ tail); auto; fu|exact HG]).
        apply At_app in HA.
        eapply runs_bind; [eapply (r_sp0 f n _ tail); auto; fu|exact HG].
    - eapply runs_bind; [apply (r_stream_text d data s (s4 ++ tail) n pos []); auto; constructor|].
      change (zlen []) with 0. rewrite Z.add_0_r. apply At_app in HA.
      eapply runs_bind; [apply (r_sp f s4 n _ tail); auto; fu|exact HG].
  Qed.

  Lemma r_ind_head {A} (k : Z -> Z -> P A) n ds1 s1 ds2 s2 s3 tail pos r q :
    ind_head_ok ds1 s1 ds2 s2 s3 -> nosep tail -> At f pos (ind_head ds1 s1 ds2 s2 s3 ++ tail) -> fuel f n pos ->
    runs f (k (dvalue ds1) (dvalue ds2)) (pos + zlen (ind_head ds1 s1 ds2 s2 s3)) r q ->
    runs f (num <- non_negative_int n ;; sp n ;;; gen <- non_negative_int n ;; sp n ;;; tok <- read 3 ;;
            if eqlZ tok (bs "obj") then sp n ;;; k num gen else throw ParserExc) pos r q.
  Proof.
    intros (D1 & D1' & S1 & S1' & D2 & D2' & S2 & S3) Ht HA Hn HK. unfold ind_head in HA.
    repeat (rewrite <- ?app_assoc in HA).
    destruct (dvalue_int _ D1 D1') as [I1 P1]. destruct (dvalue_int _ D2 D2') as [I2 P2].
    eapply runs_bind; [apply (r_nni f n (dvalue ds1) ds1 pos (s1 ++ ds2 ++ s2 ++ bs "obj" ++ s3 ++ tail)); auto; now apply sep_int_end|].
    apply At_app in HA.
    eapply runs_bind; [apply (r_sp f s1 n _ (ds2 ++ s2 ++ bs "obj" ++ s3 ++ tail)); auto; [now apply digits_nosep|fu]|].
    apply At_app in HA.
    eapply runs_bind; [apply (r_nni f n (dvalue ds2) ds2 _ (s2 ++ bs "obj" ++ s3 ++ tail)); auto; [now apply sep_int_end2|fu]|].
    apply At_app in HA.
    eapply runs_bind; [apply (r_sp f s2 n _ (bs "obj" ++ s3 ++ tail)); auto; [reflexivity|fu]|].
    apply At_app in HA.
    eapply runs_bind; [apply (r_read f (bs "obj") _ (s3 ++ tail)); auto|].
    rewrite eqlZ_refl. apply At_app in HA.
    eapply runs_bind; [apply (r_sp f s3 n _ tail); auto; fu|].
    unfold ind_head in HK. rewrite !zlen_app in HK.
    eapply runs_at; [exact HK|lia].
  Qed.

  Lemma r_indirect num gen v s rest n pos : IndObj num gen v s rest -> At f pos (s ++ rest) -> ofuel f n pos 8 ->
    runs f (indirect_object hook n) pos (Ok (num, gen, v)) (pos + zlen s).
  Proof.
    intros H HA Hn. unfold indirect_object.
    destruct H as [ds1 s1 ds2 s2 s3 v vt s4 rest Hh Hv H4|ds1 s1 ds2 s2 s3 d data vt s4 rest Hh Hv H4 Hr H6 Hne].
    - repeat (rewrite <- app_assoc in HA).
      eapply (r_ind_head (fun num gen => v <- object hook FBasic n ;; sp n ;;; tok2 <- read 6 ;;
        if eqlZ tok2 (bs "endobj") then ret (num, gen, v) else match v with OStream _ _ => prevs 6 ;;; ret (num, gen, v) | _ => throw ParserExc end)
        n ds1 s1 ds2 s2 s3 (vt ++ s4 ++ bs "endobj" ++ rest)); auto.
      { eapply value_nosep; eauto. } { fu. }
      apply At_app in HA. eapply r_value_sp; eauto; [reflexivity|fu|]. cbv beta.
      apply At_app in HA. apply At_app in HA.
      eapply runs_bind; [apply (r_read f (bs "endobj") _ rest); auto|]. rewrite eqlZ_refl.
      eapply runs_eq; [apply runs_ret|]. rewrite !zlen_app. lia.
    - repeat (rewrite <- app_assoc in HA).
      eapply (r_ind_head (fun num gen => v <- object hook FBasic n ;; sp n ;;; tok2 <- read 6 ;;
        if eqlZ tok2 (bs "endobj") then ret (num, gen, v) else match v with OStream _ _ => prevs 6 ;;; ret (num, gen, v) | _ => throw ParserExc end)
        n ds1 s1 ds2 s2 s3 (vt ++ s4 ++ rest)); auto.
      { eapply stream_text_nosep; eauto. } { fu. }
      apply At_app in HA. eapply r_value_sp; eauto; [apply V_stream; eauto|fu|]. cbv beta.
      apply At_app in HA. apply At_app in HA.
      assert (List.length (firstn 6 rest) = 6%nat) as L6 by (rewrite firstn_length; unfold zlen in H6; lia).
      eapply runs_bind; [apply (r_read f (firstn 6 rest) _ (skipn 6 rest)); auto; rewrite firstn_skipn; auto|].
      rewrite (proj2 (eqlZ_neq _ _) Hne). apply r_prevs.
      eapply runs_eq; [apply runs_ret|]. unfold zlen at 4. rewrite L6. rewrite !zlen_app. lia.
  Qed.
End D.
