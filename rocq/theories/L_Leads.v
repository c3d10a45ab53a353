(** Reading an indirect stream object up to the point where its Length is looked up, and from there on. *)
From Coq Require Import String.
From Verif Require Import Prelude M_Prog M_Parser S_Syntax S_Stream L_Buffer L_Prog L_ParserWP L_Syntax L_Syntax2
  L_Stream M_Document S_Document L_Document L_Registry L_Steps.
Local Open Scope Z_scope.
Local Open Scope prog_scope.

Section Leads.
  Context {U : Type}.
  Notation P := (prog U).
  Variable f : list Z.
  (** [p] at [pos] goes on as [p'] at [pos'], leaving the user state alone *)
  Definition leads {A} (p : P A) (pos : Z) (p' : P A) (pos' : Z) : Prop :=
    forall st u, exists ex, arun f p (mkA pos st u) = arun f p' (mkA pos' (st ++ ex) u).
  Lemma leads_refl {A} (p : P A) pos : leads p pos p pos.
  Proof. intros st u. exists []. now rewrite app_nil_r. Qed.
  Lemma leads_trans {A} (p q r : P A) a b c : leads p a q b -> leads q b r c -> leads p a r c.
  Proof. intros H1 H2 st u. destruct (H1 st u) as [e1 E1]. destruct (H2 (st ++ e1) u) as [e2 E2]. exists (e1 ++ e2). now rewrite E1, E2, app_assoc. Qed.
  Lemma leads_in {A B} (p p' : P A) (g : A -> P B) a b : leads p a p' b -> leads (bind p g) a (bind p' g) b.
  Proof. intros H st u. destruct (H st u) as [ex E]. exists ex. now rewrite !arun_bind, E. Qed.
  Lemma leads_step {A B} (p : P A) (g : A -> P B) (r : P B) a x b c : runs f p a (Ok x) b -> leads (g x) b r c -> leads (bind p g) a r c.
  Proof. intros H H2 st u. destruct (H st u) as [e1 E1]. destruct (H2 (st ++ e1) u) as [e2 E2]. exists (e1 ++ e2). now rewrite arun_bind, E1, E2, app_assoc. Qed.
  Lemma leads_at {A} (p : P A) a a' r c : leads p a r c -> a = a' -> leads p a' r c.
  Proof. now intros H <-. Qed.
  Lemma leads_to {A} (p : P A) a r c c' : leads p a r c -> c = c' -> leads p a r c'.
  Proof. now intros H <-. Qed.
  Lemma leads_assoc {A B C} (p : P A) (g : A -> P B) (h : B -> P C) r a b :
    leads (bind p (fun x => bind (g x) h)) a r b -> leads (bind (bind p g) h) a r b.
  Proof.
    intros H st u. destruct (H st u) as [ex E]. exists ex. rewrite <- E, !arun_bind.
    destruct (arun f p (mkA a st u)) as [[x|e] s]; [now rewrite arun_bind|reflexivity].
  Qed.
  Lemma leads_cur {A} (g : option Z -> P A) pos l r c : At f pos l -> leads (g (hd_error l)) pos r c -> leads (bind cur g) pos r c.
  Proof. intros HA H st u. destruct (H st u) as [ex E]. exists ex. rewrite <- E. cbn [bind cur arun a_pos]. now rewrite (At_head f _ _ HA). Qed.
  Lemma leads_next {A} (g : option Z -> P A) pos l r c : At f pos l -> leads (g (hd_error l)) (pos + 1) r c -> leads (bind next g) pos r c.
  Proof. intros HA H st u. destruct (H st u) as [ex E]. exists ex. rewrite <- E. cbn [bind next arun a_pos a_store a_usr]. now rewrite (At_head f _ _ HA). Qed.
  Lemma leads_prev {A} (g : option Z -> P A) pos r c : (forall x, leads (g x) (pos - 1) r c) -> leads (bind prev g) pos r c.
  Proof. intros H st u. cbn [bind prev arun a_pos]. apply H. Qed.
  Lemma leads_runs {A} (p p' : P A) a b x c : leads p a p' b -> runs f p' b x c -> runs f p a x c.
  Proof. intros H H2 st u. destruct (H st u) as [e1 E1]. destruct (H2 (st ++ e1) u) as [e2 E2]. exists (e1 ++ e2). now rewrite E1, E2, app_assoc. Qed.

  Variable hook : dict -> P dict.
  Lemma l_object_stream fl es s0 s sp' tail n pos :
    Sep s0 -> SerEntries fl es s (62 :: 62 :: sp' ++ tail) -> Sep sp' -> nosep tail -> head_is (fun c => c =? 115) tail = true ->
    At f pos (60 :: 60 :: s0 ++ s ++ 62 :: 62 :: sp' ++ tail) -> ofuel f n pos (oc fl) ->
    exists m, fuel f m pos /\ leads (object hook fl n) pos (d' <- hook (dict_of es) ;; stream_body m d') (pos + 2 + zlen s0 + zlen s + 2 + zlen sp').
  Proof.
    intros Hs0 He Hsp' Hr' H115 HA Hn. pose proof (oc_range fl) as Hoc.
    destruct n as [|n]; [fu|]. exists n. split; [fu|]. rewrite object_body.
    eapply leads_step; [apply (r_sp0 f n pos (60 :: 60 :: s0 ++ s ++ 62 :: 62 :: sp' ++ tail)); [reflexivity|exact HA|fu]|].
    eapply leads_cur; eauto. cbn [hd_error]. rewrite body_lt.
    pose proof (At_len _ _ _ HA) as HL. rewrite !zlen_cons, !zlen_app, !zlen_cons, !zlen_app in HL.
    destruct (At_cons _ _ _ _ HA) as [_ HA1].
    destruct (At_cons _ _ _ _ HA1) as [_ HA2].
    assert (At f (pos + 1 + 1 + zlen s0) (s ++ 62 :: 62 :: sp' ++ tail)) as HA3 by (apply At_app in HA2; exact HA2).
    pose proof HA3 as HA4. apply At_app in HA4. destruct (At_cons _ _ _ _ HA4) as [_ HA5]. destruct (At_cons _ _ _ _ HA5) as [_ HA6].
    eapply leads_next; eauto. eapply leads_cur; eauto.
    cbn [hd_error is_cur]. cbn [Z.eqb Pos.eqb].
    apply leads_prev. intros _. replace (pos + 1 - 1) with pos by lia.
    eapply leads_step with (x := dict_of es) (b := pos + 1 + 1 + zlen s0 + zlen s + 1 + 1).
    { destruct n as [|n]; [fu|]. cbn [dictionary].
      eapply runs_bind; [apply (r_read f [60; 60] pos (s0 ++ s ++ 62 :: 62 :: sp' ++ tail)); [reflexivity|exact HA]|].
      change (eqlZ [60; 60] (bs "<<")) with true. cbv beta iota.
      eapply runs_bind; [apply (r_sp f s0 n _ (s ++ 62 :: 62 :: sp' ++ tail)); auto; [eapply entries_nosep; eauto| |]|].
      - replace (pos + zlen [60; 60]) with (pos + 1 + 1) by (cbn; lia). exact HA2.
      - change (zlen [60; 60]) with 2. fu.
      - replace (pos + zlen [60; 60] + zlen s0) with (pos + 1 + 1 + zlen s0) by (cbn; lia).
        eapply runs_bind; [eapply (proj2 (proj2 (r_ser f hook fl)) es s _ He n []); eauto; fu|].
        eapply r_next; eauto. eapply r_next; eauto. cbn [hd_error is_cur]. cbn [Z.eqb Pos.eqb]. apply runs_ret. }
    eapply leads_step; [apply (r_sp f sp' n _ tail); auto; fu|].
    apply At_app in HA6. eapply leads_cur; eauto.
    replace (is_cur (hd_error tail) 115) with true by (destruct tail; auto).
    cbv iota. eapply leads_at; [apply leads_to with (c := pos + 2 + zlen s0 + zlen s + 2 + zlen sp'); [apply leads_refl|reflexivity]|lia].
  Qed.

  Lemma l_ind_head {A} (k : Z -> Z -> P A) n ds1 s1 ds2 s2 s3 tail pos r q :
    ind_head_ok ds1 s1 ds2 s2 s3 -> nosep tail -> At f pos (ind_head ds1 s1 ds2 s2 s3 ++ tail) -> fuel f n pos ->
    leads (k (dvalue ds1) (dvalue ds2)) (pos + zlen (ind_head ds1 s1 ds2 s2 s3)) r q ->
    leads (num <- non_negative_int n ;; sp n ;;; gen <- non_negative_int n ;; sp n ;;; tok <- read 3 ;;
            if eqlZ tok (bs "obj") then sp n ;;; k num gen else throw ParserExc) pos r q.
  Proof.
    intros (D1 & D1' & S1 & S1' & D2 & D2' & S2 & S3) Ht HA Hn HK. unfold ind_head in HA.
    repeat (rewrite <- ?app_assoc in HA).
    destruct (dvalue_int _ D1 D1') as [I1 P1]. destruct (dvalue_int _ D2 D2') as [I2 P2].
    eapply leads_step; [apply (r_nni f n (dvalue ds1) ds1 pos (s1 ++ ds2 ++ s2 ++ bs "obj" ++ s3 ++ tail)); auto; now apply sep_int_end|].
    apply At_app in HA.
    eapply leads_step; [apply (r_sp f s1 n _ (ds2 ++ s2 ++ bs "obj" ++ s3 ++ tail)); auto; [now apply digits_nosep|fu]|].
    apply At_app in HA.
    eapply leads_step; [apply (r_nni f n (dvalue ds2) ds2 _ (s2 ++ bs "obj" ++ s3 ++ tail)); auto; [now apply sep_int_end2|fu]|].
    apply At_app in HA.
    eapply leads_step; [apply (r_sp f s2 n _ (bs "obj" ++ s3 ++ tail)); auto; [reflexivity|fu]|].
    apply At_app in HA.
    eapply leads_step; [apply (r_read f (bs "obj") _ (s3 ++ tail)); auto|].
    rewrite eqlZ_refl. apply At_app in HA.
    eapply leads_step; [apply (r_sp f s3 n _ tail); auto; fu|].
    unfold ind_head in HK. rewrite !zlen_app in HK.
    eapply leads_at; [exact HK|lia].
  Qed.

  (** Where the word stream of such an object stands. *)
  Definition kw_at (ds1 s1 ds2 s2 s3 s0 s sp' : list Z) (pos : Z) : Z :=
    pos + zlen (ind_head ds1 s1 ds2 s2 s3) + 2 + zlen s0 + zlen s + 2 + zlen sp'.
  Lemma l_indirect ds1 s1 ds2 s2 s3 es s0 s sp' e data ws s4 rest n pos :
    ind_head_ok ds1 s1 ds2 s2 s3 -> Sep s0 -> Sep sp' ->
    SerEntries FBasic es s (62 :: 62 :: sp' ++ bs "stream" ++ e ++ data ++ ws ++ bs "endstream" ++ s4 ++ bs "endobj" ++ rest) ->
    StreamEol e (data ++ ws ++ bs "endstream" ++ s4 ++ bs "endobj" ++ rest) -> all_ws ws -> Sep s4 ->
    At f pos ((ind_head ds1 s1 ds2 s2 s3 ++ stream_text s0 s sp' e data ws ++ s4 ++ bs "endobj") ++ rest) -> ofuel f n pos 8 ->
    exists k : dict -> P (Z * Z * obj),
      leads (indirect_object hook n) pos (bind (hook (dict_of es)) k) (kw_at ds1 s1 ds2 s2 s3 s0 s sp' pos) /\
      At f (kw_at ds1 s1 ds2 s2 s3 s0 s sp' pos) (bs "stream" ++ e ++ data ++ ws ++ bs "endstream" ++ s4 ++ bs "endobj" ++ rest) /\
      forall d', dget d' (bs "Length") = Some (OInt (zlen data)) ->
        runs f (k d') (kw_at ds1 s1 ds2 s2 s3 s0 s sp' pos) (Ok (dvalue ds1, dvalue ds2, OStream d' data))
          (pos + zlen (ind_head ds1 s1 ds2 s2 s3 ++ stream_text s0 s sp' e data ws ++ s4 ++ bs "endobj")).
  Proof.
    intros Hh H0 Hsp He Heol Hw H4 HA Hn. assert (0 <= pos) as Hpos by apply HA.
    repeat (rewrite <- app_assoc in HA). pose proof HA as HA0. apply At_app in HA. set (p := pos + zlen (ind_head ds1 s1 ds2 s2 s3)) in *.
    assert (0 <= p) as Hp by apply HA.
    assert (pos <= p) as Hpp by (unfold p; pose proof (zlen_nonneg (ind_head ds1 s1 ds2 s2 s3)); lia).
    pose proof (At_app _ _ _ _ HA) as HAe. pose proof (At_app _ _ _ _ HAe) as HAf.
    assert (At f p (60 :: 60 :: s0 ++ s ++ 62 :: 62 :: sp' ++ bs "stream" ++ e ++ data ++ ws ++ bs "endstream" ++ s4 ++ bs "endobj" ++ rest)) as HB.
    { revert HA. unfold stream_text. repeat (rewrite <- ?app_assoc; cbn [app]). auto. }
    destruct (l_object_stream FBasic es s0 s sp' (bs "stream" ++ e ++ data ++ ws ++ bs "endstream" ++ s4 ++ bs "endobj" ++ rest) n p H0 He Hsp eq_refl eq_refl HB) as (m & Hm & HL);
      [unfold ofuel in *; change (oc FBasic) with 8; lia|].
    assert (At f (p + 2 + zlen s0 + zlen s + 2 + zlen sp') (bs "stream" ++ e ++ data ++ ws ++ bs "endstream" ++ s4 ++ bs "endobj" ++ rest)) as HC.
    { revert HB. replace (60 :: 60 :: s0 ++ s ++ 62 :: 62 :: sp' ++ bs "stream" ++ e ++ data ++ ws ++ bs "endstream" ++ s4 ++ bs "endobj" ++ rest)
        with (([60;60] ++ s0 ++ s ++ [62; 62] ++ sp') ++ bs "stream" ++ e ++ data ++ ws ++ bs "endstream" ++ s4 ++ bs "endobj" ++ rest)
        by (repeat (rewrite <- ?app_assoc; cbn [app]); auto).
      intros HB. apply At_app in HB. eapply At_eq; eauto. zlens. lia. }
    set (fin := fun v : obj => sp n ;;; (tok2 <- read 6 ;;
        if eqlZ tok2 (bs "endobj") then ret (dvalue ds1, dvalue ds2, v) else match v with OStream _ _ => prevs 6 ;;; ret (dvalue ds1, dvalue ds2, v) | _ => throw ParserExc end) : P (Z * Z * obj)).
    exists (fun d' => v <- stream_body m d' ;; fin v).
    assert (kw_at ds1 s1 ds2 s2 s3 s0 s sp' pos = p + 2 + zlen s0 + zlen s + 2 + zlen sp') as Ek by (unfold kw_at, p; lia).
    rewrite Ek. split; [|split; [exact HC|]].
    - unfold indirect_object.
      eapply (l_ind_head (fun num gen => v <- object hook FBasic n ;; sp n ;;; tok2 <- read 6 ;;
        if eqlZ tok2 (bs "endobj") then ret (num, gen, v) else match v with OStream _ _ => prevs 6 ;;; ret (num, gen, v) | _ => throw ParserExc end)
        n ds1 s1 ds2 s2 s3 (stream_text s0 s sp' e data ws ++ s4 ++ bs "endobj" ++ rest)); auto; [reflexivity|fu|].
      fold p. eapply leads_trans; [apply leads_in; exact HL|]. apply leads_assoc. apply leads_refl.
    - intros d' Hd. eapply runs_bind; [eapply r_stream_ok; eauto; fu|]. cbv beta. unfold fin.
      assert (p + 2 + zlen s0 + zlen s + 2 + zlen sp' + 6 + zlen e + zlen data + zlen ws + 9 = p + zlen (stream_text s0 s sp' e data ws)) as Ep.
      { unfold stream_text. zlens. change (zlen (bs "stream")) with 6. change (zlen (bs "endstream")) with 9. lia. }
      rewrite Ep.
      eapply runs_bind; [apply (r_sp f s4 n _ (bs "endobj" ++ rest)); auto; [reflexivity|fu]|].
      eapply runs_bind; [apply (r_read f (bs "endobj") _ rest); auto|]. rewrite eqlZ_refl.
      eapply runs_eq; [apply runs_ret|]. unfold p. rewrite !zlen_app. lia.
  Qed.
End Leads.
