(** Running the indirect-object parser on a stream whose Length is a reference: the hook that looks the
    length up may change the parser's registry. *)
From Coq Require Import String.
From Verif Require Import Prelude M_Prog M_Parser S_Syntax S_Stream L_Buffer L_Prog L_ParserWP L_Syntax L_Syntax2
  L_Stream M_Document S_Document L_Document L_Registry.
Local Open Scope Z_scope.
Local Open Scope prog_scope.

Lemma u_cur {U A} f (g : option Z -> prog U A) pos l u r q u' :
  At f pos l -> uruns f (g (hd_error l)) pos u r q u' -> uruns f (bind cur g) pos u r q u'.
Proof. intros HA H st. destruct (H st) as [ex E]. exists ex. rewrite <- E. cbn. now rewrite (At_head _ _ _ HA). Qed.
Lemma u_next {U A} f (g : option Z -> prog U A) pos l u r q u' :
  At f pos l -> uruns f (g (hd_error l)) (pos + 1) u r q u' -> uruns f (bind next g) pos u r q u'.
Proof. intros HA H st. destruct (H st) as [ex E]. exists ex. rewrite <- E. cbn. now rewrite (At_head _ _ _ HA). Qed.
Lemma u_prev {U A} f (g : option Z -> prog U A) pos u r q u' :
  (forall c, uruns f (g c) (pos - 1) u r q u') -> uruns f (bind prev g) pos u r q u'.
Proof. intros H st. cbn. apply H. Qed.
Lemma uruns_eq {U A} f (p : prog U A) pos u r q q' u' : uruns f p pos u r q u' -> q = q' -> uruns f p pos u r q' u'.
Proof. intros; subst; auto. Qed.
Lemma uruns_at {U A} f (p : prog U A) pos pos' u r q u' : uruns f p pos u r q u' -> pos = pos' -> uruns f p pos' u r q u'.
Proof. intros; subst; auto. Qed.

Section H.
  Context {U : Type}.
  Variable f : list Z.
  Notation P := (prog U).
  Variable hook : dict -> P dict.

  Lemma u_object_stream fl es s0 s sp' tail n pos u r q u' :
    Sep s0 -> SerEntries fl es s (62 :: 62 :: sp' ++ tail) -> Sep sp' -> nosep tail -> head_is (fun c => c =? 115) tail = true ->
    At f pos (60 :: 60 :: s0 ++ s ++ 62 :: 62 :: sp' ++ tail) -> ofuel f n pos (oc fl) ->
    (forall m, fuel f m pos -> uruns f (d' <- hook (dict_of es) ;; stream_body m d')
       (pos + 2 + zlen s0 + zlen s + 2 + zlen sp') u r q u') ->
    uruns f (object hook fl n) pos u r q u'.
  Proof.
    intros Hs0 He Hsp' Hr' H115 HA Hn HS. pose proof (oc_range fl) as Hoc.
    destruct n as [|n]; [fu|]. rewrite object_body.
    eapply uruns_bind; [apply uruns_of; apply (r_sp0 f n pos (60 :: 60 :: s0 ++ s ++ 62 :: 62 :: sp' ++ tail)); [reflexivity|exact HA|fu]|].
    eapply u_cur; eauto. cbn [hd_error]. rewrite body_lt.
    eapply u_next; eauto.
    pose proof (At_len _ _ _ HA) as HL. rewrite !zlen_cons, !zlen_app, !zlen_cons, !zlen_app in HL.
    destruct (At_cons _ _ _ _ HA) as [_ HA1]. eapply u_cur; eauto.
    cbn [hd_error is_cur]. cbn [Z.eqb Pos.eqb].
    apply u_prev. intros _. replace (pos + 1 - 1) with pos by lia.
    destruct (At_cons _ _ _ _ HA1) as [_ HA2].
    assert (At f (pos + 1 + 1 + zlen s0) (s ++ 62 :: 62 :: sp' ++ tail)) as HA3 by (apply At_app in HA2; exact HA2).
    pose proof HA3 as HA4. apply At_app in HA4. destruct (At_cons _ _ _ _ HA4) as [_ HA5]. destruct (At_cons _ _ _ _ HA5) as [_ HA6].
    eapply uruns_bind with (a := dict_of es) (q := pos + 1 + 1 + zlen s0 + zlen s + 1 + 1).
    { apply uruns_of. destruct n as [|n]; [fu|]. cbn [dictionary].
      eapply runs_bind; [apply (r_read f [60; 60] pos (s0 ++ s ++ 62 :: 62 :: sp' ++ tail)); [reflexivity|exact HA]|].
      change (eqlZ [60; 60] (bs "<<")) with true. cbv beta iota.
      eapply runs_bind; [apply (r_sp f s0 n _ (s ++ 62 :: 62 :: sp' ++ tail)); auto; [eapply entries_nosep; eauto| |]|].
      - replace (pos + zlen [60; 60]) with (pos + 1 + 1) by (cbn; lia). exact HA2.
      - change (zlen [60; 60]) with 2. fu.
      - replace (pos + zlen [60; 60] + zlen s0) with (pos + 1 + 1 + zlen s0) by (cbn; lia).
        eapply runs_bind; [eapply (proj2 (proj2 (r_ser f hook fl)) es s _ He n []); eauto; fu|].
        eapply r_next; eauto. eapply r_next; eauto. cbn [hd_error is_cur]. cbn [Z.eqb Pos.eqb]. apply runs_ret. }
    eapply uruns_bind; [apply uruns_of; apply (r_sp f sp' n _ tail); auto; fu|].
    apply At_app in HA6. eapply u_cur; eauto.
    replace (is_cur (hd_error tail) 115) with true by (destruct tail; auto).
    cbv iota. eapply uruns_at; [apply HS; fu|lia].
  Qed.

  Lemma u_ind_head {A} (k : Z -> Z -> P A) n ds1 s1 ds2 s2 s3 tail pos u r q u' :
    ind_head_ok ds1 s1 ds2 s2 s3 -> nosep tail -> At f pos (ind_head ds1 s1 ds2 s2 s3 ++ tail) -> fuel f n pos ->
    uruns f (k (dvalue ds1) (dvalue ds2)) (pos + zlen (ind_head ds1 s1 ds2 s2 s3)) u r q u' ->
    uruns f (num <- non_negative_int n ;; sp n ;;; gen <- non_negative_int n ;; sp n ;;; tok <- read 3 ;;
            if eqlZ tok (bs "obj") then sp n ;;; k num gen else throw ParserExc) pos u r q u'.
  Proof.
    intros (D1 & D1' & S1 & S1' & D2 & D2' & S2 & S3) Ht HA Hn HK. unfold ind_head in HA.
    repeat (rewrite <- ?app_assoc in HA).
    destruct (dvalue_int _ D1 D1') as [I1 P1]. destruct (dvalue_int _ D2 D2') as [I2 P2].
    eapply uruns_bind; [apply uruns_of; apply (r_nni f n (dvalue ds1) ds1 pos (s1 ++ ds2 ++ s2 ++ bs "obj" ++ s3 ++ tail)); auto; now apply sep_int_end|].
    apply At_app in HA.
    eapply uruns_bind; [apply uruns_of; apply (r_sp f s1 n _ (ds2 ++ s2 ++ bs "obj" ++ s3 ++ tail)); auto; [now apply digits_nosep|fu]|].
    apply At_app in HA.
    eapply uruns_bind; [apply uruns_of; apply (r_nni f n (dvalue ds2) ds2 _ (s2 ++ bs "obj" ++ s3 ++ tail)); auto; [now apply sep_int_end2|fu]|].
    apply At_app in HA.
    eapply uruns_bind; [apply uruns_of; apply (r_sp f s2 n _ (bs "obj" ++ s3 ++ tail)); auto; [reflexivity|fu]|].
    apply At_app in HA.
    eapply uruns_bind; [apply uruns_of; apply (r_read f (bs "obj") _ (s3 ++ tail)); auto|].
    rewrite eqlZ_refl. apply At_app in HA.
    eapply uruns_bind; [apply uruns_of; apply (r_sp f s3 n _ tail); auto; fu|].
    unfold ind_head in HK. rewrite !zlen_app in HK.
    eapply uruns_at; [exact HK|lia].
  Qed.

  (** "n g obj << ... >> stream data endstream endobj" where the hook turns the dictionary into [d'],
      whose Length is right, and the registry from [u] into [u']. *)
  Lemma u_indirect ds1 s1 ds2 s2 s3 es s0 s sp' e data ws s4 rest d' n pos u u' :
    ind_head_ok ds1 s1 ds2 s2 s3 -> Sep s0 -> Sep sp' ->
    SerEntries FBasic es s (62 :: 62 :: sp' ++ bs "stream" ++ e ++ data ++ ws ++ bs "endstream" ++ s4 ++ bs "endobj" ++ rest) ->
    StreamEol e (data ++ ws ++ bs "endstream" ++ s4 ++ bs "endobj" ++ rest) -> all_ws ws -> Sep s4 ->
    dget d' (bs "Length") = Some (OInt (zlen data)) ->
    (forall p, 0 <= p -> uruns f (hook (dict_of es)) p u (Ok d') p u') ->
    At f pos ((ind_head ds1 s1 ds2 s2 s3 ++ stream_text s0 s sp' e data ws ++ s4 ++ bs "endobj") ++ rest) -> ofuel f n pos 8 ->
    uruns f (indirect_object hook n) pos u (Ok (dvalue ds1, dvalue ds2, OStream d' data))
      (pos + zlen (ind_head ds1 s1 ds2 s2 s3 ++ stream_text s0 s sp' e data ws ++ s4 ++ bs "endobj")) u'.
  Proof.
    intros Hh H0 Hsp He Heol Hw H4 Hd Hhook HA Hn. unfold indirect_object. assert (0 <= pos) as Hpos by apply HA.
    repeat (rewrite <- app_assoc in HA).
    eapply (u_ind_head (fun num gen => v <- object hook FBasic n ;; sp n ;;; tok2 <- read 6 ;;
        if eqlZ tok2 (bs "endobj") then ret (num, gen, v) else match v with OStream _ _ => prevs 6 ;;; ret (num, gen, v) | _ => throw ParserExc end)
        n ds1 s1 ds2 s2 s3 (stream_text s0 s sp' e data ws ++ s4 ++ bs "endobj" ++ rest)); auto.
    { reflexivity. } { fu. }
    apply At_app in HA. set (p := pos + zlen (ind_head ds1 s1 ds2 s2 s3)) in *.
    assert (0 <= p) as Hp by apply HA.
    assert (pos <= p) as Hpp by (unfold p; pose proof (zlen_nonneg (ind_head ds1 s1 ds2 s2 s3)); lia).
    pose proof (At_app _ _ _ _ HA) as HAe. pose proof (At_app _ _ _ _ HAe) as HAf.
    unfold stream_text in HA.
    assert (At f p (60 :: 60 :: s0 ++ s ++ 62 :: 62 :: sp' ++ bs "stream" ++ e ++ data ++ ws ++ bs "endstream" ++ s4 ++ bs "endobj" ++ rest)) as HB.
    { revert HA. repeat (rewrite <- ?app_assoc; cbn [app]). auto. }
    eapply uruns_bind.
    { apply (u_object_stream FBasic es s0 s sp' (bs "stream" ++ e ++ data ++ ws ++ bs "endstream" ++ s4 ++ bs "endobj" ++ rest) n p u _ _ u' H0 He Hsp eq_refl eq_refl HB); [unfold ofuel in *; change (oc FBasic) with 8; lia|].
      intros m Hm. eapply uruns_bind; [apply Hhook; pose proof (zlen_nonneg s0); pose proof (zlen_nonneg s); pose proof (zlen_nonneg sp'); lia|].
      apply uruns_of.
      assert (At f (p + 2 + zlen s0 + zlen s + 2 + zlen sp') (bs "stream" ++ e ++ data ++ ws ++ bs "endstream" ++ s4 ++ bs "endobj" ++ rest)) as HC.
      { revert HB. replace (60 :: 60 :: s0 ++ s ++ 62 :: 62 :: sp' ++ bs "stream" ++ e ++ data ++ ws ++ bs "endstream" ++ s4 ++ bs "endobj" ++ rest)
          with (([60;60] ++ s0 ++ s ++ [62; 62] ++ sp') ++ bs "stream" ++ e ++ data ++ ws ++ bs "endstream" ++ s4 ++ bs "endobj" ++ rest)
          by (repeat (rewrite <- ?app_assoc; cbn [app]); auto).
        intros HB. apply At_app in HB. eapply At_eq; eauto. zlens. lia. }
      eapply r_stream_ok; eauto; fu. }
    cbv beta.
    assert (p + 2 + zlen s0 + zlen s + 2 + zlen sp' + 6 + zlen e + zlen data + zlen ws + 9 = p + zlen (stream_text s0 s sp' e data ws)) as Ep.
    { unfold stream_text. zlens. change (zlen (bs "stream")) with 6. change (zlen (bs "endstream")) with 9. lia. }
    rewrite Ep.
    eapply uruns_bind; [apply uruns_of; apply (r_sp f s4 n _ (bs "endobj" ++ rest)); auto; [reflexivity|fu]|].
    eapply uruns_bind; [apply uruns_of; apply (r_read f (bs "endobj") _ rest); auto|]. rewrite eqlZ_refl.
    eapply uruns_eq; [apply uruns_ret|]. unfold p. rewrite !zlen_app. lia.
  Qed.
End H.
