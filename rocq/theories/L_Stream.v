(** object() on stream texts. *)
From Coq Require Import String.
From Verif Require Import Prelude M_Prog M_Buffer S_Buffer L_Buffer L_Prog M_Parser L_ParserWP S_Syntax L_Syntax L_Syntax2 S_Stream.
Local Open Scope Z_scope.
Local Open Scope prog_scope.

Ltac zlens := repeat match goal with
  | |- context [zlen (?a ++ ?b)] => rewrite (zlen_app a b)
  | |- context [zlen (?a :: ?b)] => rewrite (zlen_cons a b)
  | |- context [zlen (@nil ?A)] => rewrite (@zlen_nil A) end.
Ltac pos_facts := repeat match goal with
  | l : list Z |- _ => lazymatch goal with H : 0 <= zlen l |- _ => fail | _ => pose proof (zlen_nonneg l) end end.
Ltac fu := unfold ofuel, fuel, fuel1 in *; pos_facts; try lia.

Lemma drop_ws_split l : exists w, l = w ++ drop_ws l /\ all_ws w /\ head_is is_ws (drop_ws l) = false.
Proof.
  induction l as [|x l (w & E & Hw & Hh)]; [exists []; repeat split; constructor|].
  cbn [drop_ws]. destruct (is_ws x) eqn:Ex.
  - exists (x :: w). cbn [app]. rewrite <- E. repeat split; auto. constructor; auto.
  - exists []. cbn [head_is]. repeat split; auto. constructor.
Qed.
Lemma drop_ws_app w l : all_ws w -> head_is is_ws l = false -> drop_ws (w ++ l) = l.
Proof.
  intros Hw Hl. induction Hw as [|x w Hx Hw IH]; cbn [app drop_ws].
  - destruct l; auto. cbn in Hl. cbn. now rewrite Hl.
  - now rewrite Hx.
Qed.

Lemma At_eq f pos pos1 l : At f pos l -> pos = pos1 -> At f pos1 l.
Proof. intros; subst; auto. Qed.
Lemma At_bound f pos l : At f pos l -> l <> [] -> pos + zlen l = zlen f.
Proof. intros H Hl. apply At_len in H. destruct l; [congruence|]. rewrite zlen_cons in *. pos_facts. lia. Qed.
Lemma At_skip f pos l k : At f pos l -> (k <= List.length l)%nat -> At f (pos + Z.of_nat k) (skipn k l).
Proof.
  intros H Hk. rewrite <- (firstn_skipn k l) in H. apply At_app in H.
  unfold zlen in H. rewrite firstn_length_le in H by lia. exact H.
Qed.

Section O.
  Context {U : Type}.
  Variable f : list Z.
  Notation P := (prog U).

  Lemma r_ws : forall w n pos rest, all_ws w -> head_is is_ws rest = false -> At f pos (w ++ rest) -> fuel f n pos ->
    runs f (maybe_spaces n : P _) pos (Ok tt) (pos + zlen w).
  Proof.
    induction w as [|x w IH]; intros [|n] pos rest Hw Hr HA Hn; try (now apply fuel_O in Hn); cbn [maybe_spaces app] in *.
    - eapply r_cur; eauto. replace (p_ws (hd_error rest)) with false by (destruct rest; auto).
      eapply runs_eq; [apply runs_ret|zlens; lia].
    - inversion Hw; subst. eapply r_cur; eauto. cbn [hd_error p_ws]. rewrite H1.
      eapply r_next; eauto. destruct (At_cons _ _ _ _ HA) as [_ HA'].
      eapply runs_eq; [eapply IH; eauto; eapply fuel_cons; eauto|zlens; lia].
  Qed.

  (** the keyword and the end of line: leaves the cursor on the first data byte *)
  Definition after_kw {A} (k : P A) : P A :=
    ch <- next ;; ch2 <- (if is_cur ch 13 then next else ret ch) ;;
    (if is_cur ch2 10 then ret tt else prev ;;; ret tt) ;;; k.
  Lemma r_after_kw {A} (k : P A) e body pos r q : StreamEol e body -> At f pos (e ++ body) ->
    runs f k (pos + zlen e) r q -> runs f (after_kw k) pos r q.
  Proof.
    intros He HA H. unfold after_kw. eapply r_next; eauto.
    destruct He as [[->|[->|[-> Hh]]]|[-> Hh]].
    - cbn [app hd_error is_cur]. cbn [Z.eqb Pos.eqb]. cbv iota. apply r_bret. cbn [is_cur Z.eqb Pos.eqb]. apply r_bret. exact H.
    - destruct (At_cons _ _ _ _ HA) as [_ HA'].
      cbn [app hd_error is_cur]. cbn [Z.eqb Pos.eqb]. cbv iota. eapply r_next; eauto.
      cbn [app hd_error is_cur]. cbn [Z.eqb Pos.eqb]. cbv iota. apply r_bret.
      replace (pos + 1 + 1) with (pos + zlen [13; 10]) by (zlens; lia). exact H.
    - destruct (At_cons _ _ _ _ HA) as [_ HA'].
      cbn [app hd_error is_cur]. cbn [Z.eqb Pos.eqb]. cbv iota. eapply r_next; eauto.
      replace (is_cur (hd_error body) 10) with false by (destruct body; auto).
      apply r_assoc, r_prev. intros _. apply r_bret. replace (pos + 1 + 1 - 1) with (pos + zlen [13]) by (zlens; lia). exact H.
    - replace (is_cur (hd_error ([] ++ body)) 13) with false by (destruct body; auto; cbn in *; lia).
      apply r_bret. replace (is_cur (hd_error ([] ++ body)) 10) with false by (destruct body; auto; cbn in *; lia).
      apply r_assoc, r_prev. intros _. apply r_bret. replace (pos + 1 - 1) with (pos + zlen (@nil Z)) by (zlens; lia). exact H.
  Qed.

  Definition after_len (n : nat) (d : dict) (len : obj) : P obj :=
          st <- save ;;
          match as_range len with
          | None => throw TypeErr
          | Some k =>
              data <- read (Z.to_nat k) ;;
              maybe_spaces n ;;;
              tok2 <- read 9 ;;
              if eqlZ tok2 endstream then ret (OStream d data)
              else
                err <- save ;;
                restore st ;;;
                data9 <- read 9 ;;
                data2 <- find_endstream n err data9 ;;
                ret (OStream d (strip_eol (firstn (List.length data2 - 9) data2)))
          end.
  Lemma stream_body_eq n d : stream_body n d =
    match dget d (bs "Length") with
    | None => throw KeyErr
    | Some len => tok <- read 6 ;; if eqlZ tok (bs "stream") then after_kw (after_len n d len) else throw ParserExc
    end.
  Proof. reflexivity. Qed.

  Lemma r_save {A} (g : nat -> P A) pos r q : (forall h, runs f (g h) pos r q) -> runs f (bind save g) pos r q.
  Proof.
    intros H st u. cbn [bind save arun a_store a_pos a_usr].
    destruct (H (List.length st) (st ++ [pos]) u) as [ex E]. exists ([pos] ++ ex). rewrite E, app_assoc. auto.
  Qed.

  (** correct Length *)
  Lemma r_stream_ok n d data e ws pos rest :
    dget d (bs "Length") = Some (OInt (zlen data)) -> StreamEol e (data ++ ws ++ bs "endstream" ++ rest) -> all_ws ws ->
    At f pos (bs "stream" ++ e ++ data ++ ws ++ bs "endstream" ++ rest) -> fuel f n pos ->
    runs f (stream_body n d : P _) pos (Ok (OStream d data)) (pos + 6 + zlen e + zlen data + zlen ws + 9).
  Proof.
    intros Hd He Hw HA Hn. rewrite stream_body_eq, Hd.
    eapply runs_bind; [apply (r_read f (bs "stream") pos (e ++ data ++ ws ++ bs "endstream" ++ rest)); auto|].
    rewrite eqlZ_refl. apply At_app in HA. change (zlen (bs "stream")) with 6 in *.
    eapply r_after_kw; eauto. apply At_app in HA. unfold after_len. apply r_save. intros h.
    cbn [as_range].
    eapply runs_bind; [apply (r_read f data _ (ws ++ bs "endstream" ++ rest)); auto; unfold zlen; lia|].
    apply At_app in HA.
    eapply runs_bind; [apply (r_ws ws n _ (bs "endstream" ++ rest)); auto; fu|].
    apply At_app in HA.
    eapply runs_bind; [apply (r_read f (bs "endstream") _ rest); auto|].
    change (eqlZ (bs "endstream") endstream) with true. cbv iota. apply runs_ret.
  Qed.

  Lemma r_endstream_mid : forall b n err a pos rest,
    first_endstream (firstn (List.length (a ++ b) - 9) (a ++ b)) -> 9 <= zlen a ->
    (exists raw, a ++ b = raw ++ bs "endstream") ->
    At f pos (b ++ rest) -> fuel f n pos ->
    runs f (find_endstream n err a : P _) pos (Ok (a ++ b)) (pos + zlen b).
  Proof.
    induction b as [|x b IH]; intros [|n] err a pos rest Hf Ha [raw Hraw] HA Hn; try (now apply fuel_O in Hn); cbn [find_endstream].
    - rewrite app_nil_r in *. subst a. unfold ends_with.
      replace (List.length (raw ++ bs "endstream") - List.length endstream)%nat with (List.length raw)
        by (rewrite app_length; change (List.length endstream) with 9%nat; change (List.length (bs "endstream")) with 9%nat; lia).
      rewrite skipn_app, skipn_all, Nat.sub_diag. cbn [app skipn].
      change (bs "endstream") with endstream. rewrite eqlZ_refl.
      replace (zlen endstream <=? zlen (raw ++ endstream)) with true by (rewrite zlen_app; pose proof (zlen_nonneg raw); lia).
      cbn [andb]. eapply runs_eq; [apply runs_ret|zlens; lia].
    - destruct (ends_with a endstream) eqn:E.
      + exfalso. unfold ends_with in E. apply andb_true_iff in E. destruct E as [E1 E2]. apply eqlZ_eq in E1.
        assert (a = firstn (List.length a - 9) a ++ endstream) as Ea.
        { change (List.length endstream) with 9%nat in E1. etransitivity; [symmetry; apply (firstn_skipn (List.length a - 9) a)|]. now rewrite E1. }
        rewrite Hraw in Hf.
        replace (List.length (raw ++ bs "endstream") - 9)%nat with (List.length raw + 0)%nat in Hf
          by (rewrite app_length; change (List.length (bs "endstream")) with 9%nat; lia).
        rewrite firstn_app_2, firstn_O, app_nil_r in Hf.
        specialize (Hf (firstn (List.length a - 9) a) (x :: b)). rewrite <- Hraw in Hf.
        rewrite Ea in Hf at 1. rewrite <- app_assoc in Hf. specialize (Hf eq_refl). discriminate.
      + cbn [app] in HA. eapply r_next; eauto. cbn [hd_error]. destruct (At_cons _ _ _ _ HA) as [_ HA'].
        replace (a ++ x :: b) with ((a ++ [x]) ++ b) in * by (rewrite <- app_assoc; auto).
        eapply runs_eq; [eapply IH; eauto|].
        * rewrite zlen_app. change (zlen [x]) with 1. lia.
        * eapply fuel_cons; eauto.
        * zlens. lia.
  Qed.

  Lemma lstrip_spec l : exists e, l = e ++ lstrip_eol l /\ Forall (fun c => c = 13 \/ c = 10) e /\
    (forall x d, lstrip_eol l = x :: d -> x <> 13 /\ x <> 10).
  Proof.
    induction l as [|x l (e & E & He & Hh)].
    - exists []. repeat split; auto; discriminate.
    - cbn [lstrip_eol]. destruct ((x =? 13) || (x =? 10)) eqn:Ex.
      + exists (x :: e). cbn [app]. rewrite <- E. repeat split; auto; try (eapply Hh; eauto). constructor; auto. lia.
      + exists []. repeat split; auto. all: inversion H; subst; lia.
  Qed.
  Lemma strip_spec raw : without_trailing_eol raw (strip_eol raw).
  Proof.
    destruct (lstrip_spec (rev raw)) as (e & E & He & Hh). exists (rev e). unfold strip_eol. split; [|split].
    - rewrite <- rev_app_distr, <- E, rev_involutive. auto.
    - apply Forall_rev. auto.
    - intros x d Hx. apply (f_equal (@rev Z)) in Hx. rewrite rev_involutive, rev_app_distr in Hx. cbn in Hx. eapply Hh; eauto.
  Qed.
  Lemma without_trailing_eol_fun raw d1 d2 : without_trailing_eol raw d1 -> without_trailing_eol raw d2 -> d1 = d2.
  Proof.
    intros (e1 & E1 & F1 & L1) (e2 & E2 & F2 & L2). subst raw.
    revert e2 E2 F2. induction e1 as [|x e1 IH] using rev_ind; intros e2 E2 F2.
    - rewrite app_nil_r in E2. destruct e2 as [|y e2 _] using rev_ind; [now rewrite app_nil_r in E2|].
      exfalso. rewrite app_assoc in E2. specialize (L1 _ _ E2). apply Forall_app in F2. destruct F2 as [_ F2]. inversion F2. lia.
    - apply Forall_app in F1. destruct F1 as [F1 Fx]. inversion Fx; subst.
      destruct e2 as [|y e2 _] using rev_ind.
      + exfalso. rewrite app_nil_r, app_assoc in E2. specialize (L2 _ _ (eq_sym E2)). lia.
      + rewrite !app_assoc in E2. apply app_inj_tail in E2. destruct E2 as [E2 ->].
        apply Forall_app in F2. destruct F2 as [F2 _]. eapply IH; eauto.
  Qed.

  (** wrong Length, noticed *)
  Lemma r_stream_wrong n d k raw data e pos rest :
    dget d (bs "Length") = Some (OInt k) -> StreamEol e (raw ++ bs "endstream" ++ rest) ->
    wrong_length k (raw ++ bs "endstream" ++ rest) -> first_endstream raw -> without_trailing_eol raw data ->
    At f pos (bs "stream" ++ e ++ raw ++ bs "endstream" ++ rest) -> fuel f n pos ->
    runs f (stream_body n d : P _) pos (Ok (OStream d data)) (pos + 6 + zlen e + zlen raw + 9).
  Proof.
    intros Hd He (Hk & H9 & Hne) Hf Hdata HA Hn. rewrite stream_body_eq, Hd.
    eapply runs_bind; [apply (r_read f (bs "stream") pos (e ++ raw ++ bs "endstream" ++ rest)); auto|].
    rewrite eqlZ_refl. apply At_app in HA. change (zlen (bs "stream")) with 6 in *.
    eapply r_after_kw; eauto. apply At_app in HA. unfold after_len. cbn [as_range].
    set (body := raw ++ bs "endstream" ++ rest) in *. set (p := pos + 6 + zlen e) in *.
    (* restore goes back to p *)
    intros st u. cbn [bind save arun a_store a_pos a_usr].
    set (st1 := st ++ [p]).
    assert (runs f (read (Z.to_nat k) : P _) p (Ok (firstn (Z.to_nat k) body)) (p + zlen (firstn (Z.to_nat k) body))) as R1.
    { apply (r_read f _ p (skipn (Z.to_nat k) body)); [|now rewrite firstn_skipn].
      rewrite firstn_length_le; auto. unfold zlen in Hk. lia. }
    destruct (R1 st1 u) as [ex1 E1]. rewrite arun_bind, E1. clear R1 E1.
    destruct (drop_ws_split (skipn (Z.to_nat k) body)) as (w & Ew & Hw & Hh).
    set (rem := drop_ws (skipn (Z.to_nat k) body)) in *.
    assert (At f (p + zlen (firstn (Z.to_nat k) body)) (w ++ rem)) as HA2
      by (rewrite <- Ew; rewrite <- (firstn_skipn (Z.to_nat k) body) in HA; apply At_app in HA; exact HA).
    destruct (r_ws w n (p + zlen (firstn (Z.to_nat k) body)) rem Hw Hh HA2) with (st := st1 ++ ex1) (u := u) as [ex2 E2].
    { pose proof (zlen_nonneg (firstn (Z.to_nat k) body)). unfold p; fu. }
    rewrite arun_bind, E2. clear E2. apply At_app in HA2.
    assert (runs f (read 9 : P _) (p + zlen (firstn (Z.to_nat k) body) + zlen w) (Ok (firstn 9 rem)) (p + zlen (firstn (Z.to_nat k) body) + zlen w + zlen (firstn 9 rem))) as R3.
    { apply (r_read f _ _ (skipn 9 rem)); [|now rewrite firstn_skipn]. rewrite firstn_length_le; auto. unfold zlen in H9. lia. }
    destruct (R3 ((st1 ++ ex1) ++ ex2) u) as [ex3 E3]. rewrite arun_bind, E3. clear E3 R3.
    replace (eqlZ (firstn 9 rem) endstream) with false by (symmetry; apply eqlZ_neq; exact Hne).
    cbn [bind save restore arun a_store a_pos a_usr].
    match goal with |- context [nth_error ?l (List.length st)] => assert (nth_error l (List.length st) = Some p) as ->
      by (unfold st1; rewrite <- !app_assoc, nth_error_app2, Nat.sub_diag by lia; auto) end.
    match goal with |- context [mkA p ?l u] => set (st2 := l) end.
    assert (runs f (read 9 : P _) p (Ok (firstn 9 (raw ++ bs "endstream"))) (p + 9)) as R4.
    { assert (List.length (firstn 9 (raw ++ bs "endstream")) = 9%nat) as L9
        by (rewrite firstn_length_le; auto; rewrite app_length; change (List.length (bs "endstream")) with 9%nat; lia).
      eapply runs_eq; [apply (r_read f _ p (skipn 9 (raw ++ bs "endstream") ++ rest)); auto|unfold zlen; rewrite L9; lia].
      rewrite app_assoc, firstn_skipn, <- app_assoc. exact HA. }
    destruct (R4 st2 u) as [ex4 E4]. rewrite arun_bind, E4. clear E4 R4.
    assert (List.length (firstn 9 (raw ++ bs "endstream")) = 9%nat) as L9
      by (rewrite firstn_length_le; auto; rewrite app_length; change (List.length (bs "endstream")) with 9%nat; lia).
    rewrite arun_bind.
    match goal with |- context [find_endstream n ?err _] =>
      destruct (r_endstream_mid (skipn 9 (raw ++ bs "endstream")) n err (firstn 9 (raw ++ bs "endstream")) (p + 9) rest) with (st := st2 ++ ex4) (u := u) as [ex5 E5] end.
    - rewrite firstn_skipn. replace (List.length (raw ++ bs "endstream") - 9)%nat with (List.length raw + 0)%nat
        by (rewrite app_length; change (List.length (bs "endstream")) with 9%nat; lia).
      now rewrite firstn_app_2, firstn_O, app_nil_r.
    - unfold zlen. lia.
    - rewrite firstn_skipn. eauto.
    - rewrite <- (firstn_skipn 9 (raw ++ bs "endstream")) in L9 at 1.
      assert (At f p (firstn 9 (raw ++ bs "endstream") ++ skipn 9 (raw ++ bs "endstream") ++ rest)) as HA5
        by (rewrite app_assoc, firstn_skipn, <- app_assoc; exact HA).
      apply At_app in HA5. unfold zlen in HA5. rewrite firstn_length_le in HA5; auto.
      rewrite app_length. change (List.length (bs "endstream")) with 9%nat. lia.
    - unfold p; fu.
    - rewrite E5. rewrite firstn_skipn. cbn [arun ret].
      replace (List.length (raw ++ bs "endstream") - 9)%nat with (List.length raw + 0)%nat
        by (rewrite app_length; change (List.length (bs "endstream")) with 9%nat; lia).
      rewrite firstn_app_2, firstn_O, app_nil_r.
      rewrite (without_trailing_eol_fun _ _ _ (strip_spec raw) Hdata).
      exists ([p] ++ ex1 ++ ex2 ++ ex3 ++ [p + zlen (firstn (Z.to_nat k) body) + zlen w + zlen (firstn 9 rem)] ++ ex4 ++ ex5).
      f_equal. f_equal.
      + assert (zlen (skipn 9 (raw ++ bs "endstream")) = zlen raw) as ->.
        { unfold zlen. rewrite skipn_length, app_length. change (List.length (bs "endstream")) with 9%nat. lia. }
        lia.
      + unfold st2, st1. rewrite <- !app_assoc. reflexivity.
  Qed.

  (** the whole object: dictionary, then whatever stream_body does *)
  Variable fix_len : dict -> prog U dict.
  Lemma r_object_stream fl es s0 s sp' tail n pos lead r q :
    Sep s0 -> SerEntries fl es s (62 :: 62 :: sp' ++ tail) -> Sep sp' -> nosep tail -> head_is (fun c => c =? 115) tail = true ->
    Sep lead -> At f pos (lead ++ 60 :: 60 :: s0 ++ s ++ 62 :: 62 :: sp' ++ tail) -> ofuel f n pos (oc fl) ->
    (forall m, fuel f m (pos + zlen lead) -> runs f (d' <- fix_len (dict_of es) ;; stream_body m d')
       (pos + zlen lead + 2 + zlen s0 + zlen s + 2 + zlen sp') r q) ->
    runs f (object fix_len fl n) pos r q.
  Proof.
    intros Hs0 He Hsp' Hr' H115 Hl HA Hn HS. pose proof (oc_range fl) as Hoc.
    destruct n as [|n]; [fu|].
    eapply (r_object_intro f fix_len fl n pos lead 60); eauto; [reflexivity|fu|].
    rewrite body_lt. apply At_app in HA. eapply r_next; eauto.
    pose proof (At_len _ _ _ HA) as HL. rewrite !zlen_cons, !zlen_app, !zlen_cons, !zlen_app in HL.
    destruct (At_cons _ _ _ _ HA) as [_ HA1]. eapply r_cur; eauto.
    cbn [hd_error is_cur]. cbn [Z.eqb Pos.eqb].
    apply r_prev. intros _. replace (pos + zlen lead + 1 - 1) with (pos + zlen lead) by lia.
    set (p := pos + zlen lead) in *.
    destruct (At_cons _ _ _ _ HA1) as [_ HA2].
    assert (At f (p + 1 + 1 + zlen s0) (s ++ 62 :: 62 :: sp' ++ tail)) as HA3 by (apply At_app in HA2; exact HA2).
    pose proof HA3 as HA4. apply At_app in HA4. destruct (At_cons _ _ _ _ HA4) as [_ HA5]. destruct (At_cons _ _ _ _ HA5) as [_ HA6].
    eapply (runs_bind f _ _ _ (dict_of es) (p + 1 + 1 + zlen s0 + zlen s + 1 + 1)).
    { destruct n as [|n]; [unfold p in *; fu|]. cbn [dictionary].
      eapply runs_bind; [apply (r_read f [60; 60] p (s0 ++ s ++ 62 :: 62 :: sp' ++ tail)); [reflexivity|exact HA]|].
      change (eqlZ [60; 60] (bs "<<")) with true. cbv beta iota.
      eapply runs_bind; [apply (r_sp f s0 n _ (s ++ 62 :: 62 :: sp' ++ tail)); auto; [eapply entries_nosep; eauto| |]|].
      - replace (p + zlen [60; 60]) with (p + 1 + 1) by (cbn; lia). exact HA2.
      - unfold p in *. change (zlen [60; 60]) with 2. fu.
      - replace (p + zlen [60; 60] + zlen s0) with (p + 1 + 1 + zlen s0) by (cbn; lia).
        eapply runs_bind; [eapply (proj2 (proj2 (r_ser f fix_len fl)) es s _ He n []); eauto; unfold p in *; fu|].
        eapply r_next; eauto. eapply r_next; eauto. cbn [hd_error is_cur]. cbn [Z.eqb Pos.eqb]. apply runs_ret. }
    eapply runs_bind; [apply (r_sp f sp' n _ tail); auto; unfold p in *; fu|].
    apply At_app in HA6. eapply r_cur; eauto.
    replace (is_cur (hd_error tail) 115) with true by (destruct tail; auto).
    cbv iota. replace (p + 1 + 1 + zlen s0 + zlen s + 1 + 1 + zlen sp') with (p + 2 + zlen s0 + zlen s + 2 + zlen sp') by lia.
    apply HS. unfold p in *. fu.
  Qed.
End O.
