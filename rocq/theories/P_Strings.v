(** Literal strings, completely: C07. *)
From Coq Require Import String.
From Verif Require Import Prelude M_Prog M_Parser S_Syntax L_Buffer L_Prog L_ParserWP L_Syntax L_Syntax2 S_Print L_Print P_Syntax.
Local Open Scope Z_scope.
Local Open Scope prog_scope.

(** C07.  Every text read as ISO 32000-1 says, unless it has one of the three constructions. *)
Lemma ovalue_nonneg ds : octal_ok ds -> 0 <= ovalue ds.
Proof. induction 1 as [|d ds Hd _ IH]; cbn [ovalue]; [lia|]. pose proof (Z.pow_nonneg 8 (zlen ds)). nia. Qed.
Lemma iso_strtext b v t : IsoStr b v t -> b = true -> StrText v t.
Proof.
  induction 1 as [|b c v t H40 H41 H92 H13 H10 HS IH|b e v t He HS IH|b1 b2 v1 t1 v t H1 IH1 H2 IH2|b c e v t He HS IH|b ds v t Ho Hl Hh HS IH|b e v t He HS IH|b e v t];
    intros Hb; try discriminate Hb.
  - constructor.
  - constructor; auto.
  - apply andb_true_iff in Hb as [Hb H13]. apply andb_true_iff in Hb as [Hb H1]. destruct He as [->|[->|[-> _]]]; [|discriminate H1|discriminate H13].
    cbn [app]. apply ST_raw; [discriminate..|auto].
  - apply andb_true_iff in Hb as [Hb1 Hb2]. apply ST_paren; auto.
  - apply ST_esc; auto.
  - apply andb_true_iff in Hb as [Hb H255]. pose proof (ovalue_nonneg ds Ho). rewrite Z.mod_small by lia. apply ST_oct; auto; lia.
  - apply ST_cont; auto.
Qed.
Theorem C07_iso : forall fl v t pre rest, IsoStr true v t ->
  parse_at fl (pre ++ (40 :: t ++ [41]) ++ rest) (zlen pre) (OStr v) (zlen pre + zlen t + 2).
Proof. intros. apply C07_strings_any_spelling. eapply iso_strtext; eauto. Qed.
Print Assumptions C07_iso.

(** ... and those three are read otherwise: a raw CR LF is kept, and so are the backslash of an unknown
    escape and an octal code above 255. *)
Lemma spelled fl v t k pre rest : StrText v t -> zlen t + 2 = k -> parse_at fl (pre ++ (40 :: t ++ [41]) ++ rest) (zlen pre) (OStr v) (zlen pre + k).
Proof. intros HS <-. replace (zlen pre + (zlen t + 2)) with (zlen pre + zlen t + 2) by lia. now apply C07_strings_any_spelling. Qed.
Theorem C07_iso_refuted : forall fl pre rest,
  (IsoStr false (bs "a" ++ [10] ++ bs "b") (bs "a" ++ [13; 10] ++ bs "b") /\
   parse_at fl (pre ++ (40 :: (bs "a" ++ [13; 10] ++ bs "b") ++ [41]) ++ rest) (zlen pre) (OStr (bs "a" ++ [13; 10] ++ bs "b")) (zlen pre + 6)) /\
  (IsoStr false (bs "aqb") (bs "a\qb") /\
   parse_at fl (pre ++ (40 :: bs "a\qb" ++ [41]) ++ rest) (zlen pre) (OStr (bs "a\qb")) (zlen pre + 6)) /\
  (IsoStr false (97 :: 1 :: bs "b") (bs "a\401b") /\
   parse_at fl (pre ++ (40 :: bs "a\401b" ++ [41]) ++ rest) (zlen pre) (OStr (bs "a\401b")) (zlen pre + 8)).
Proof.
  intros fl pre rest. split; [|split].
  - split.
    + apply IS_raw; [discriminate..|]. apply (IS_eol true [13; 10] (bs "b") (bs "b")); [right; left; reflexivity|]. apply IS_raw; [discriminate..|constructor].
    + apply spelled; [|reflexivity]. repeat (apply ST_raw; [discriminate..|]). constructor.
  - assert (forall c, ~ Escape c 113) as HE by (intros c H; inversion H). split.
    + apply IS_raw; [discriminate..|]. apply (IS_other true 113 (bs "b") (bs "b")); [lia|lia|lia|exact HE|]. apply IS_raw; [discriminate..|constructor].
    + apply spelled; [|reflexivity]. apply ST_raw; [discriminate..|].
      apply (ST_other 113 (bs "b") (bs "b")); [lia|lia|lia|exact HE|]. apply ST_raw; [discriminate..|constructor].
  - assert (octal_ok (bs "401")) as HO by (repeat constructor; discriminate). split.
    + apply IS_raw; [discriminate..|]. apply (IS_oct true (bs "401") (bs "b") (bs "b")); [exact HO|split; discriminate|discriminate|]. apply IS_raw; [discriminate..|constructor].
    + apply spelled; [|reflexivity]. apply ST_raw; [discriminate..|].
      apply (ST_big (bs "401") (bs "b") (bs "b")); [exact HO|reflexivity|reflexivity|]. apply ST_raw; [discriminate..|constructor].
Qed.
Print Assumptions C07_iso_refuted.

Section Cases.
  Context {U : Type}.
  Notation P := (prog U).
  Variable f : list Z.
  Lemma head_app (p : Z -> bool) t c rest : p c = false -> head_is p (t ++ c :: rest) = head_is p t.
  Proof. destruct t; cbn [app head_is]; auto. Qed.
  (** every text either has a string's end, or the string is not terminated *)
  Lemma str_cases : forall n w val pos, At f pos w -> fuel f n pos ->
    (exists v t rest, w = t ++ 41 :: rest /\ StrText v t) \/ (exists q, runs f (str_loop n val : P _) pos (Err TypeErr) q).
  Proof.
    induction n as [|n IH]; intros w val pos HA Hn; [now apply fuel_O in Hn|]. cbn [str_loop].
    destruct w as [|x w].
    { right. eexists. eapply r_next; eauto. cbn [hd_error]. apply runs_throw. }
    destruct (At_cons _ _ _ _ HA) as [_ HA1]. pose proof (fuel_cons _ _ _ _ _ HA Hn) as Hn1.
    destruct (Z.eqb_spec x 40) as [-> |N40].
    { destruct (IH w [] (pos + 1) HA1 Hn1) as [(v1 & t1 & w2 & -> & H1)|[q Hq]].
      - pose proof (At_app _ _ _ _ HA1) as HA2. destruct (At_cons _ _ _ _ HA2) as [_ HA3]. pose proof (zlen_nonneg t1) as Hz.
        destruct (IH w2 (val ++ [40] ++ v1 ++ [41]) (pos + 1 + zlen t1 + 1) HA3 ltac:(eapply fuel_mono; [exact Hn1|lia])) as [(v & t & rest & -> & H2)|[q Hq]].
        + left. exists (40 :: v1 ++ 41 :: v), (40 :: t1 ++ 41 :: t), rest. split; [cbn [app]; now rewrite <- app_assoc|]. now apply ST_paren.
        + right. exists q. eapply r_next; eauto. cbn [hd_error]. change (40 =? 40) with true. cbv beta iota.
          apply r_prev. intros _. replace (pos + 1 - 1) with pos by lia. eapply r_cur; eauto. cbn [hd_error is_cur]. change (40 =? 40) with true. cbv beta iota.
          eapply r_next; eauto. eapply runs_bind; [eapply (r_str_loop _ v1 t1 H1 n []); eauto|]. exact Hq.
      - right. exists q. eapply r_next; eauto. cbn [hd_error]. change (40 =? 40) with true. cbv beta iota.
        apply r_prev. intros _. replace (pos + 1 - 1) with pos by lia. eapply r_cur; eauto. cbn [hd_error is_cur]. change (40 =? 40) with true. cbv beta iota.
        eapply r_next; eauto. eapply runs_bind_err. exact Hq. }
    destruct (Z.eqb_spec x 92) as [-> |N92].
    { destruct w as [|y w].
      { right. eexists. eapply r_next; eauto. cbn [hd_error]. change (92 =? 40) with false. change (92 =? 92) with true. cbv beta iota. eapply r_next; eauto. cbn [hd_error]. apply runs_throw. }
      destruct (At_cons _ _ _ _ HA1) as [_ HA2]. pose proof (fuel_mono _ _ _ (pos + 1 + 1) Hn1 ltac:(lia)) as Hn2.
      destruct (is_octal y) eqn:Eo.
      - (* the octal digits that follow *)
        assert (48 <= y <= 55) as Hy by (unfold is_octal in Eo; lia).
        assert ((exists q, runs f (octal_more 2 [y] : P _) (pos + 1 + 1) (Err TypeErr) q) \/
          exists ds w2, w = ds ++ w2 /\ octal_ok ds /\ zlen ds <= 2 /\ (zlen ds < 2 -> head_is (fun c => (48 <=? c) && (c <=? 55)) w2 = false /\ w2 <> [])) as HO.
        { destruct w as [|a w]; [left; eexists; cbn [octal_more]; eapply r_cur; eauto; cbn [hd_error]; apply runs_throw|].
          destruct (is_octal a) eqn:Ea; [|right; exists [], (a :: w); split; [reflexivity|]; split; [constructor|]; split; [discriminate|]; intros _; cbn [head_is]; unfold is_octal in Ea; split; [exact Ea|discriminate]].
          assert (48 <= a <= 55) by (unfold is_octal in Ea; lia). destruct (At_cons _ _ _ _ HA2) as [_ HA3].
          destruct w as [|b w]; [left; eexists; cbn [octal_more]; eapply r_cur; eauto; cbn [hd_error]; rewrite Ea; eapply r_next; eauto; eapply r_cur; eauto; cbn [hd_error]; apply runs_throw|].
          destruct (is_octal b) eqn:Eb; right; [exists [a; b], w|exists [a], (b :: w)]; (split; [reflexivity|]).
          - split; [constructor; [lia|constructor; [unfold is_octal in Eb; lia|constructor]]|]. split; [discriminate|]. intros X. discriminate X.
          - split; [constructor; [lia|constructor]|]. split; [discriminate|]. intros _. cbn [head_is]. unfold is_octal in Eb. split; [exact Eb|discriminate]. }
        destruct HO as [[q Hq]|(ds & w2 & -> & Hds & Hl & Hh)].
        { right. exists q. eapply r_next; eauto. cbn [hd_error]. change (92 =? 40) with false. change (92 =? 92) with true. cbv beta iota. eapply r_next; eauto. cbn [hd_error]. rewrite Eo. eapply runs_bind_err. exact Hq. }
        pose proof (zlen_nonneg ds) as Hz. pose proof (At_app _ _ _ _ HA2) as HA3.
        assert (octal_ok (y :: ds)) as Hok by (constructor; [lia|exact Hds]).
        destruct (Z.leb_spec (ovalue (y :: ds)) 255) as [H255|H255].
        + destruct (IH w2 (val ++ [ovalue (y :: ds)]) _ HA3 ltac:(eapply fuel_mono; [exact Hn2|lia])) as [(v & t & rest & -> & H2)|[q Hq]].
          * left. exists (ovalue (y :: ds) :: v), (92 :: (y :: ds) ++ t), rest. split; [cbn [app]; now rewrite <- app_assoc|].
            apply ST_oct; auto; [rewrite zlen_cons; lia|]. rewrite zlen_cons. intros X. destruct (Hh ltac:(lia)) as [Hh1 _]. now rewrite head_app in Hh1 by reflexivity.
          * right. exists q. eapply r_next; eauto. cbn [hd_error]. change (92 =? 40) with false. change (92 =? 92) with true. cbv beta iota. eapply r_next; eauto. cbn [hd_error]. rewrite Eo.
            eapply runs_bind; [eapply (r_octal_more _ ds 2 [y]); eauto|]. cbn [app]. rewrite oct_val_ovalue. replace (ovalue (y :: ds) <=? 255) with true by lia. exact Hq.
        + assert (zlen ds = 2) as L2.
          { destruct (Z.eq_dec (zlen ds) 2); [assumption|]. exfalso. assert (zlen ds = 0 \/ zlen ds = 1) as [L|L] by lia.
            - destruct ds; [|rewrite zlen_cons in L; pose proof (zlen_nonneg ds); lia]. cbn [ovalue] in H255. change (zlen (@nil Z)) with 0 in H255. change (8 ^ 0) with 1 in H255. lia.
            - destruct ds as [|a [|b ds]]; [discriminate L| |rewrite !zlen_cons in L; pose proof (zlen_nonneg ds); lia]. inversion Hds; subst. cbn [ovalue] in H255.
              change (zlen [a]) with 1 in H255. change (zlen (@nil Z)) with 0 in H255. change (8 ^ 1) with 8 in H255. change (8 ^ 0) with 1 in H255. lia. }
          destruct (IH w2 (val ++ [92] ++ y :: ds) _ HA3 ltac:(eapply fuel_mono; [exact Hn2|lia])) as [(v & t & rest & -> & H2)|[q Hq]].
          * left. exists (92 :: (y :: ds) ++ v), (92 :: (y :: ds) ++ t), rest. split; [cbn [app]; now rewrite <- app_assoc|].
            apply ST_big; auto. rewrite zlen_cons. lia.
          * right. exists q. eapply r_next; eauto. cbn [hd_error]. change (92 =? 40) with false. change (92 =? 92) with true. cbv beta iota. eapply r_next; eauto. cbn [hd_error]. rewrite Eo.
            eapply runs_bind; [eapply (r_octal_more _ ds 2 [y]); eauto|]. cbn [app]. rewrite oct_val_ovalue. replace (ovalue (y :: ds) <=? 255) with false by lia. exact Hq.
      - destruct ((y =? 13) || (y =? 10)) eqn:Ee.
        + assert (exists e w2, y :: w = e ++ w2 /\ Eol e w2) as (e & w2 & Ew & He).
          { destruct (Z.eqb_spec y 10) as [-> |]; [exists [10], w; split; [reflexivity|left; reflexivity]|]. assert (y = 13) as -> by lia.
            destruct w as [|a w]; [exists [13], []; split; [reflexivity|right; right; auto]|].
            destruct (Z.eqb_spec a 10) as [-> |]; [exists [13; 10], w; split; [reflexivity|right; left; reflexivity]|].
            exists [13], (a :: w). split; [reflexivity|]. right; right. split; [reflexivity|]. cbn [head_is]. lia. }
          pose proof (zlen_nonneg e) as Hz. pose proof HA1 as HA1'. rewrite Ew in HA1'. pose proof (At_app _ _ _ _ HA1') as HA3.
          destruct (IH w2 val _ HA3 ltac:(eapply fuel_mono; [exact Hn1|lia])) as [(v & t & rest & -> & H2)|[q Hq]].
          * left. exists v, (92 :: e ++ t), rest. split; [rewrite Ew; cbn [app]; now rewrite <- app_assoc|]. apply ST_cont; [|exact H2].
            destruct He as [->|[->|[-> He]]]; [left; reflexivity|right; left; reflexivity|]. right; right. split; [reflexivity|]. now rewrite head_app in He by reflexivity.
          * right. exists q. eapply r_next; eauto. cbn [hd_error]. change (92 =? 40) with false. change (92 =? 92) with true. cbv beta iota. eapply r_next; [exact HA1|]. cbn [hd_error]. rewrite Eo, Ee.
            apply r_prev. intros _. replace (pos + 1 + 1 - 1) with (pos + 1) by lia. eapply runs_bind; [eapply r_eol; eauto|]. exact Hq.
        + destruct (string_escaped y) as [z|] eqn:Es.
          * destruct (IH w (val ++ [z]) _ HA2 Hn2) as [(v & t & rest & -> & H2)|[q Hq]].
            { left. exists (z :: v), (92 :: y :: t), rest. split; [reflexivity|]. apply ST_esc; [now apply escaped_table|exact H2]. }
            right. exists q. eapply r_next; eauto. cbn [hd_error]. change (92 =? 40) with false. change (92 =? 92) with true. cbv beta iota. eapply r_next; eauto. cbn [hd_error]. rewrite Eo, Ee, Es. exact Hq.
          * destruct (IH w (val ++ [92; y]) _ HA2 Hn2) as [(v & t & rest & -> & H2)|[q Hq]].
            { left. exists (92 :: y :: v), (92 :: y :: t), rest. split; [reflexivity|]. apply ST_other; [unfold is_octal in Eo; lia|lia|lia| |exact H2].
              intros c HE. destruct (escape_table _ _ HE) as (_ & _ & X). congruence. }
            right. exists q. eapply r_next; eauto. cbn [hd_error]. change (92 =? 40) with false. change (92 =? 92) with true. cbv beta iota. eapply r_next; eauto. cbn [hd_error]. rewrite Eo, Ee, Es. exact Hq. }
    destruct (Z.eqb_spec x 41) as [-> |N41].
    { left. exists [], [], w. split; [reflexivity|constructor]. }
    destruct (IH w (val ++ [x]) _ HA1 Hn1) as [(v & t & rest & -> & H2)|[q Hq]].
    - left. exists (x :: v), (x :: t), rest. split; [reflexivity|]. now apply ST_raw.
    - right. exists q. eapply r_next; eauto. cbn [hd_error]. rewrite !(proj2 (Z.eqb_neq _ _)) by assumption. exact Hq.
  Qed.
End Cases.

(** C07.  After an opening parenthesis anything at all is either read as a string, with the value that
    [StrText] gives, or - if no closing parenthesis matches - TypeError. *)
Theorem C07_every_string : forall U pre w st (u : U) n, 4 * zlen (pre ++ 40 :: w) + 8 <= Z.of_nat n ->
  (exists v t rest ex, w = t ++ 41 :: rest /\ StrText v t /\
     arun (pre ++ 40 :: w) (string_ n) (mkA (zlen pre) st u) = (Ok (OStr v), mkA (zlen pre + zlen t + 2) (st ++ ex) u)) \/
  ((forall v t rest, w = t ++ 41 :: rest -> ~ StrText v t) /\ fst (arun (pre ++ 40 :: w) (string_ n) (mkA (zlen pre) st u)) = Err TypeErr).
Proof.
  intros U pre w st u n Hn. set (f := pre ++ 40 :: w) in *.
  assert (At f (zlen pre) (40 :: w)) as HA by now apply At_start. destruct (At_cons _ _ _ _ HA) as [_ HA1].
  pose proof (zlen_nonneg pre) as Hp.
  assert (fuel f n (zlen pre)) as Hf by (unfold fuel; pose proof (zlen_nonneg f); lia).
  assert (forall v t rest, w = t ++ 41 :: rest -> StrText v t -> exists ex, arun f (string_ n) (mkA (zlen pre) st u) = (Ok (OStr v), mkA (zlen pre + zlen t + 2) (st ++ ex) u)) as HR.
  { intros v t rest -> HS. exact (r_string f n v t (zlen pre) rest HS HA Hf st u). }
  destruct (@str_cases U f n w [] (zlen pre + 1) HA1 ltac:(eapply fuel_mono; [exact Hf|lia])) as [(v & t & rest & Ew & HS)|[q Hq]].
  - left. destruct (HR v t rest Ew HS) as [ex E]. exists v, t, rest, ex. auto.
  - right. assert (exists q', runs f (@string_ U n) (zlen pre) (Err TypeErr) q') as [q' HE].
    { exists q. unfold string_. eapply r_cur; eauto. cbn [hd_error is_cur]. change (40 =? 40) with true. cbv beta iota. eapply r_next; eauto. eapply runs_bind_err. exact Hq. }
    destruct (HE st u) as [ex E]. split; [|now rewrite E]. intros v t rest Ew HS. destruct (HR v t rest Ew HS) as [ex2 E2]. rewrite E in E2. discriminate E2.
Qed.
Print Assumptions C07_every_string.
Example C07_ex_iso : IsoStr true (bs "a(b" ++ [10] ++ bs ")c") (bs "a(b" ++ [10] ++ bs ")\143").
Proof.
  apply IS_raw; [discriminate..|]. apply (IS_paren true true (98 :: [10]) (98 :: [10]) (bs "c") (bs "\143")).
  - apply IS_raw; [discriminate..|]. apply (IS_eol true [10] [] []); [left; reflexivity|constructor].
  - apply (IS_oct true (bs "143") [] []); [repeat constructor; discriminate|split; discriminate|discriminate|constructor].
Qed.
