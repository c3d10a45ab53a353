(** CMapParser on the texts of S_CMapFile.v. *)
From Coq Require Import String.
From Verif Require Import Prelude M_Prog M_Buffer S_Buffer L_Buffer L_Prog M_Parser L_ParserWP S_Syntax L_Syntax L_Syntax2 S_Stream L_Stream
  L_Content M_CMap S_CMap M_CMapParser S_CMapFile.
Local Open Scope Z_scope.
Local Open Scope prog_scope.

Lemma word_head w : Word w -> exists x w', w = x :: w' /\ op_start x.
Proof.
  intros (Hne & Hf & Hh & _). destruct w as [|x w']; [congruence|]. exists x, w'. split; auto.
  inversion Hf; subst. cbn [head_is] in Hh. apply orb_false_iff in Hh. unfold op_start. tauto.
Qed.
Lemma word_nosep w r : Word w -> nosep (w ++ r).
Proof.
  intros H. destruct (word_head w H) as (x & w' & -> & Hx). destruct (op_start_ne x Hx) as (_ & _ & _ & _ & _ & _ & _ & N).
  destruct Hx as (X & _). unfold nosep. cbn [app head_is]. rewrite X. cbn [orb]. lia.
Qed.
Lemma items_nosep its s : Items its s -> nosep s.
Proof.
  destruct 1 as [|v s sep its ss Hv Hsep Hi Hn|w sep its ss Hw]; [reflexivity| |].
  - eapply ser_nosep; eauto.
  - now apply word_nosep.
Qed.

Section C.
  Context {U : Type}.
  Variable f : list Z.
  Notation P := (prog U).
  Notation hook := (fun d : dict => ret d : P dict).

  (** at the first byte of the items / before them *)
  Definition Here (its : list item) (pos : Z) : Prop := exists s, At f pos s /\ Items its s.
  Definition Before (its : list item) (pos : Z) : Prop := exists sep s, Sep sep /\ At f pos (sep ++ s) /\ Items its s.

  Lemma here_before its pos : Here its pos -> Before its pos.
  Proof. intros (s & HA & Hi). exists [], s. split; [constructor|]. auto. Qed.

  Lemma b_sp its pos n : Before its pos -> fuel f n pos -> exists q, pos <= q /\ runs f (sp n : P _) pos (Ok tt) q /\ Here its q.
  Proof.
    intros (sep & s & Hs & HA & Hi) Hn. exists (pos + zlen sep). split; [pose proof (zlen_nonneg sep); lia|]. split.
    - eapply r_sp; eauto. eapply items_nosep; eauto.
    - exists s. split; auto. apply At_app in HA. exact HA.
  Qed.

  Lemma here_nil pos : Here [] pos -> znth f pos = None.
  Proof. intros (s & HA & Hi). inversion Hi; subst. now apply At_nil. Qed.
  Lemma here_cons i its pos : Here (i :: its) pos -> exists x, znth f pos = Some x.
  Proof.
    intros (s & HA & Hi). rewrite (At_head _ _ _ HA). inversion Hi; subst.
    - destruct (ser_start _ _ _ _ H1) as (x & s' & -> & _). exists x. reflexivity.
    - destruct (word_head _ H1) as (x & w' & -> & _). exists x. reflexivity.
  Qed.
  Lemma here_lt i its pos : Here (i :: its) pos -> pos < zlen f.
  Proof. intros H. destruct (here_cons _ _ _ H) as (x & E). eapply znth_lt; eauto. Qed.

  Lemma here_word w its pos n : Here (IWord w :: its) pos -> fuel f n pos ->
    runs f (token n : P _) pos (Ok w) (pos + zlen w) /\ Before its (pos + zlen w) /\ 1 <= zlen w.
  Proof.
    intros (s & HA & Hi) Hn. inversion Hi as [| |w0 sep its0 ss Hw Hnr Hs Hi' Hroom]; subst.
    pose proof Hw as (Hne & Hf & Hh & _).
    split; [|split].
    - eapply r_token; eauto. destruct w; [congruence|]. cbn [head_is] in *. apply orb_false_iff in Hh. tauto.
    - exists sep, ss. split; [assumption|]. split; [|assumption]. apply At_app in HA. exact HA.
    - destruct w; [congruence|]. rewrite zlen_cons. pose proof (zlen_nonneg w). lia.
  Qed.

  Lemma not_prefix_read kw v w rest pos : ~ prefix_of kw w -> kw <> [] -> Forall (fun c => is_ws c = false /\ is_delim c = false) kw ->
    nonreg rest -> zlen kw <= zlen (w ++ rest) ->
    At f pos (w ++ rest) -> runs f (keyword kw v : P _) pos (Err ParserExc) (pos + zlen kw).
  Proof.
    intros Hp Hne Hk Hr Hl HA. unfold keyword.
    set (a := firstn (List.length kw) (w ++ rest)).
    assert (List.length a = List.length kw) as La. { unfold a. apply firstn_length_le. unfold zlen in Hl. lia. }
    assert (w ++ rest = a ++ skipn (List.length kw) (w ++ rest)) as Ea by (symmetry; apply firstn_skipn).
    rewrite Ea in HA. eapply (runs_bind f _ _ _ a (pos + zlen kw)).
    { eapply runs_eq; [eapply (r_read f a); eauto|unfold zlen; lia]. }
    assert (a <> kw) as Hx.
    { intros E. apply Hp. rewrite E in Ea. clear - Ea Hk Hr Hne.
      revert Ea. generalize (skipn (List.length kw) (w ++ rest)). intros t.
      enough (forall kw, Forall (fun c => is_ws c = false /\ is_delim c = false) kw -> forall t w, w ++ rest = kw ++ t -> prefix_of kw w) as G.
      { intros Ea. eapply G; eauto. }
      clear - Hr. induction kw as [|x kw IH]; intros Hk t w E; [exists w; reflexivity|].
      inversion Hk as [|? ? [W1 W2] W3]; subst. destruct w as [|y w].
      - cbn [app] in E. subst rest. unfold nonreg in Hr. cbn [app head_is] in Hr. rewrite W1, W2 in Hr. discriminate.
      - cbn [app] in E. injection E as -> E. destruct (IH W3 t w E) as (t' & ->). exists t'. reflexivity. }
    rewrite (proj2 (eqlZ_neq _ _) Hx). apply runs_throw.
  Qed.

  Lemma object_above n pos : ofuel f n pos 8 -> forall st (u : U), exists lo, above f lo (object hook FNoRef n) (mkA pos st u).
  Proof.
    intros Hn st u. exists pos.
    destruct (proj1 (@wp_object U f pos [] n) FNoRef pos) with (st := st) (u := u) as (r & q & ex & _ & _ & HA); auto; [lia|constructor].
  Qed.

  Lemma word_object_fails w its pos n : Here (IWord w :: its) pos -> ofuel f n pos 8 ->
    exists q, runs f (object hook FNoRef n) pos (Err ParserExc) q.
  Proof.
    intros (s & HA & Hi) Hn. inversion Hi as [| |w0 sep its0 ss Hw Hnr Hs Hi' Hroom]; subst.
    destruct n as [|n]; [fu|].
    destruct (word_head w Hw) as (x & w' & Ew & Hx). destruct (op_start_ne x Hx) as (N1 & N2 & N3 & N4 & N5 & N6 & N7 & N8).
    destruct Hx as (X1 & X2 & X3 & X4). destruct Hw as (Hne & Hf & Hh & K1 & K2 & K3).
    assert (forall q, runs f (obj_body hook FNoRef n (Some x)) pos (Err ParserExc) q -> exists q, runs f (object hook FNoRef (S n)) pos (Err ParserExc) q) as G.
    { intros q Hq. exists q. eapply (r_object_intro f hook FNoRef n pos [] x (w' ++ sep ++ ss)); [constructor| | | |].
      - unfold nosep. cbn [head_is]. rewrite X1. cbn [orb]. lia.
      - subst w. exact HA.
      - fu.
      - rewrite (@zlen_nil Z), Z.add_0_r. exact Hq. }
    destruct (x =? 110) eqn:E1; [|destruct (x =? 102) eqn:E2; [|destruct (x =? 116) eqn:E3]].
    1-3: assert (5 <= zlen (w ++ sep ++ ss)) as H5 by (apply Hroom; subst w; cbn [head_is]; apply memZ_In; cbn; lia).
    - eapply G. apply Z.eqb_eq in E1. subst x. change (obj_body hook FNoRef n (Some 110)) with (keyword (bs "null") ONull : P _).
      eapply not_prefix_read; eauto; [discriminate|repeat constructor|]. change (zlen (bs "null")) with 4. lia.
    - eapply G. apply Z.eqb_eq in E2. subst x. change (obj_body hook FNoRef n (Some 102)) with (keyword (bs "false") (OBool false) : P _).
      eapply not_prefix_read; eauto; [discriminate|repeat constructor].
    - eapply G. apply Z.eqb_eq in E3. subst x. change (obj_body hook FNoRef n (Some 116)) with (keyword (bs "true") (OBool true) : P _).
      eapply not_prefix_read; eauto; [discriminate|repeat constructor|]. change (zlen (bs "true")) with 4. lia.
    - eapply (G pos). unfold obj_body. cbv beta iota.
      replace (x =? 60) with false by lia. replace (x =? 91) with false by lia. replace (x =? 40) with false by lia.
      rewrite E1, E2, E3. replace ((x =? 43) || (x =? 45) || (x =? 46)) with false by lia. rewrite X3. replace (x =? 47) with false by lia.
      apply runs_throw.
  Qed.

  Lemma here_obj v its pos n : Here (IObj v :: its) pos -> ofuel f n pos 8 ->
    exists q, pos < q /\ runs f (object hook FNoRef n) pos (Ok v) q /\ Before its q.
  Proof.
    intros (s & HA & Hi) Hn. inversion Hi as [|v0 so sep its0 ss Hv Hs Hi' Hname|]; subst.
    exists (pos + zlen so + zlen (trailing v sep)).
    destruct (ser_start _ _ _ _ Hv) as (x & s' & Es & _).
    assert (1 <= zlen so) by (rewrite Es, zlen_cons; fu). pose proof (zlen_nonneg (trailing v sep)).
    assert (At f (pos + zlen so) (sep ++ ss)) as HA2 by (apply At_app in HA; exact HA).
    assert (At f (pos + zlen so + zlen sep) ss) as HA3 by (apply At_app in HA2; exact HA2).
    split; [lia|]. split.
    - eapply runs_eq; [eapply (r_object f hook FNoRef v so _ n pos [] sep); eauto; [constructor|]|rewrite (@zlen_nil Z); lia].
      destruct v; cbn [tail_ok]; auto. exists ss. repeat split; auto. eapply items_nosep; eauto.
    - destruct (trailing v sep) as [|y tr] eqn:Etr.
      + exists sep, ss. rewrite (@zlen_nil Z), Z.add_0_r. auto.
      + assert (trailing v sep = sep) as E by (destruct v; cbn in *; congruence).
        exists [], ss. rewrite <- Etr, E. split; [constructor|]. auto.
  Qed.

  Lemma here_oot_obj v its pos n : Here (IObj v :: its) pos -> ofuel f n pos 8 ->
    exists q, pos < q /\ runs f (object_or_token n : P _) pos (Ok v) q /\ Before its q.
  Proof.
    intros H Hn. destruct (here_obj _ _ _ _ H Hn) as (q & Hq & HR & HB). exists q. repeat split; auto.
    unfold object_or_token. apply runs_try_ok; auto. now apply object_above.
  Qed.
  Lemma here_oot_word w its pos n : Here (IWord w :: its) pos -> ofuel f n pos 8 ->
    runs f (object_or_token n : P _) pos (Ok (OTok w)) (pos + zlen w) /\ Before its (pos + zlen w) /\ 1 <= zlen w.
  Proof.
    intros H Hn. assert (fuel f n pos) as Hf by fu. destruct (here_word _ _ _ _ H Hf) as (HR & HB & HL). repeat split; auto.
    destruct (word_object_fails _ _ _ _ H Hn) as (q & Hq).
    unfold object_or_token. eapply runs_try_err; [exact Hq|reflexivity| |now apply object_above].
    eapply runs_bind; [exact HR|apply runs_ret].
  Qed.

  (** leaves read directly *)
  Lemma name_inv fl v s rest x : Ser fl v s rest -> v = OName x -> exists t, s = 47 :: t /\ NameText x t /\ nonreg rest.
  Proof. destruct 1; intros E; try discriminate; [destruct (real_not_int _ _ H) as (? & ? & ? & ->); discriminate|]. injection E as ->. eauto. Qed.
  Lemma hex_inv fl v s rest d : Ser fl v s rest -> v = OHex d -> exists ds s0 t, s = 60 :: s0 ++ t ++ [62] /\ d = map upper (even_pad ds) /\ Sep s0 /\ HexBody ds t.
  Proof. destruct 1; intros E; try discriminate; [destruct (real_not_int _ _ H) as (? & ? & ? & ->); discriminate|]. injection E as <-. eauto 10. Qed.
  Lemma int_inv fl v s rest z : Ser fl v s rest -> v = OInt z -> IntText z s /\ int_end rest.
  Proof. destruct 1; intros E; try discriminate; [|destruct (real_not_int _ _ H) as (? & ? & ? & ->); discriminate]. injection E as ->. auto. Qed.

  Lemma here_name x its pos n : Here (IObj (OName x) :: its) pos -> fuel f n pos ->
    exists q, pos < q /\ runs f (name n : P _) pos (Ok x) q /\ Before its q /\ (x = bs "CMapName" -> q = pos + 9).
  Proof.
    intros (s & HA & Hi) Hn. inversion Hi as [|v0 so sep its0 ss Hv Hs Hi' Hname|]; subst.
    destruct (name_inv _ _ _ _ _ Hv eq_refl) as (t & E & Hx & Hnr).
    exists (pos + 1 + zlen t). pose proof (zlen_nonneg t).
    split; [lia|]. split; [|split].
    - subst so. eapply r_name; eauto.
    - exists sep, ss. split; [assumption|]. split; [|assumption]. apply At_app in HA. subst so. rewrite zlen_cons in HA. replace (pos + 1 + zlen t) with (pos + (1 + zlen t)) by lia. exact HA.
    - intros ->. specialize (Hname eq_refl). rewrite E in Hname. apply (f_equal zlen) in Hname. rewrite zlen_cons in Hname.
      change (zlen (bs "/CMapName")) with 9 in Hname. lia.
  Qed.
  Lemma here_hex d its pos n : Here (IObj (OHex d) :: its) pos -> fuel f n pos ->
    exists q, pos < q /\ runs f (hexstring n : P _) pos (Ok (OHex d)) q /\ Before its q /\ znth f pos = Some 60.
  Proof.
    intros (s & HA & Hi) Hn. inversion Hi as [|v0 so sep its0 ss Hv Hs Hi' Hname|]; subst.
    destruct (hex_inv _ _ _ _ _ Hv eq_refl) as (ds & s0 & t & -> & -> & Hs0 & Hb).
    pose proof (zlen_nonneg t). pose proof (zlen_nonneg s0).
    exists (pos + 2 + zlen s0 + zlen t). split; [lia|]. split; [|split].
    - eapply (r_hexstring f n ds s0 t pos (sep ++ ss)); auto. cbn [app] in HA. rewrite <- !app_assoc in HA. exact HA.
    - exists sep, ss. split; [assumption|]. split; [|assumption]. apply At_app in HA. rewrite zlen_cons, !zlen_app in HA. change (zlen [62]) with 1 in HA.
      replace (pos + 2 + zlen s0 + zlen t) with (pos + (1 + (zlen s0 + (zlen t + 1)))) by lia. exact HA.
    - rewrite (At_head _ _ _ HA). reflexivity.
  Qed.
  Lemma here_nni z its pos n : 0 <= z -> Here (IObj (OInt z) :: its) pos -> fuel f n pos ->
    exists q, pos < q /\ runs f (non_negative_int n : P _) pos (Ok z) q /\ Before its q.
  Proof.
    intros Hz (s & HA & Hi) Hn. inversion Hi as [|v0 so sep its0 ss Hv Hs Hi' Hname|]; subst.
    destruct (int_inv _ _ _ _ _ Hv eq_refl) as (Ht & He).
    destruct (int_nosep _ _ [] Ht) as (_ & Hne & _).
    exists (pos + zlen so). split; [|split].
    - destruct so; [congruence|]. rewrite zlen_cons. pose proof (zlen_nonneg so). lia.
    - eapply r_nni; eauto.
    - exists sep, ss. split; [assumption|]. split; [|assumption]. apply At_app in HA. exact HA.
  Qed.

  (** what does not start with < or / *)
  Definition is_hex_item (i : item) : bool := match i with IObj (OHex _) => true | IObj (ODict _) => true | _ => false end.
  Definition is_name_item (i : item) : bool := match i with IObj (OName _) => true | _ => false end.
  Lemma not_lt_start its pos : Here its pos -> match its with i :: _ => is_hex_item i = false | [] => True end -> is_cur (znth f pos) 60 = false.
  Proof.
    intros (s & HA & Hi) H. rewrite (At_head _ _ _ HA). destruct Hi as [|v s sep its ss Hv Y1 Y2 Y3|w sep its ss Hw]; [reflexivity| |].
    - clear Y1 Y2 Y3. destruct Hv; cbn [is_hex_item] in H; try discriminate; try reflexivity.
      + destruct (int_nosep _ _ [] H0) as (_ & Hne & Hh). destruct t as [|x t]; [congruence|]. cbn [app hd_error is_cur head_is] in *.
        apply not_true_is_false. intros E. apply Z.eqb_eq in E. subst x. discriminate.
      + destruct H0 as [sg ip fp Hs Hi0 Hfp Hne|ip fp Hi0 Hfp Hne Hc|ip fp Hi0 Hfp Hne Hc]; try reflexivity.
        destruct Hs as [-> | ->]; [|reflexivity]. destruct Hi0 as [|d l Hd _]; cbn [app hd_error is_cur]; [reflexivity|].
        apply is_digit_range in Hd. lia.
    - destruct (word_head _ Hw) as (x & w' & -> & Hx). cbn [app hd_error is_cur]. apply op_start_ne in Hx. lia.
  Qed.
  Lemma not_slash_start its pos : Here its pos -> match its with i :: _ => is_name_item i = false | [] => True end -> is_cur (znth f pos) 47 = false.
  Proof.
    intros (s & HA & Hi) H. rewrite (At_head _ _ _ HA). destruct Hi as [|v s sep its ss Hv Y1 Y2 Y3|w sep its ss Hw]; [reflexivity| |].
    - clear Y1 Y2 Y3. destruct Hv; cbn [is_name_item] in H; try discriminate; try reflexivity.
      + destruct (int_nosep _ _ [] H0) as (_ & Hne & Hh). destruct t as [|x t]; [congruence|]. cbn [app hd_error is_cur head_is] in *.
        apply not_true_is_false. intros E. apply Z.eqb_eq in E. subst x. discriminate.
      + destruct H0 as [sg ip fp Hs Hi0 Hfp Hne|ip fp Hi0 Hfp Hne Hc|ip fp Hi0 Hfp Hne Hc]; try reflexivity.
        destruct Hs as [-> | ->]; [|reflexivity]. destruct Hi0 as [|d l Hd _]; cbn [app hd_error is_cur]; [reflexivity|].
        apply is_digit_range in Hd. lia.
    - destruct (word_head _ Hw) as (x & w' & -> & Hx). cbn [app hd_error is_cur]. apply op_start_ne in Hx. lia.
  Qed.
End C.
