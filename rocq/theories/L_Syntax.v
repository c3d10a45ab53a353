(** The leaf parsers on the texts of S_Syntax.v. *)
From Coq Require Import String.
From Verif Require Import Prelude M_Prog M_Buffer S_Buffer L_Buffer L_Prog M_Parser L_ParserWP S_Syntax.
Local Open Scope Z_scope.
Local Open Scope prog_scope.

Lemma At_len f pos l : At f pos l -> zlen l = Z.max 0 (zlen f - pos).
Proof. intros [Hp <-]. unfold zlen. rewrite skipn_length. lia. Qed.

Lemma dec_val_acc l : forall a, fold_left (fun a c => a * 10 + (c - 48)) l a = a * 10 ^ zlen l + dvalue l.
Proof.
  induction l as [|d r IH]; intros a; cbn [fold_left dvalue].
  - rewrite zlen_nil. lia.
  - rewrite IH, zlen_cons, Z.add_comm with (n := 1), Z.pow_add_r by (pose proof (zlen_nonneg r); lia). lia.
Qed.
Lemma dec_val_dvalue l : dec_val l = dvalue l.
Proof. unfold dec_val. rewrite dec_val_acc. lia. Qed.
Lemma oct_val_acc l : forall a, fold_left (fun a c => a * 8 + (c - 48)) l a = a * 8 ^ zlen l + ovalue l.
Proof.
  induction l as [|d r IH]; intros a; cbn [fold_left ovalue].
  - rewrite zlen_nil. lia.
  - rewrite IH, zlen_cons, Z.add_comm with (n := 1), Z.pow_add_r by (pose proof (zlen_nonneg r); lia). lia.
Qed.
Lemma oct_val_ovalue l : oct_val l = ovalue l.
Proof. unfold oct_val. rewrite oct_val_acc. lia. Qed.

Lemma dvalue_nonneg l : digits_ok l -> 0 <= dvalue l.
Proof.
  induction 1 as [|d r H _ IH]; cbn [dvalue]; [lia|]. unfold is_digit in H.
  assert (0 <= 10 ^ zlen r) by (apply Z.pow_nonneg; lia).
  assert (0 <= (d - 48) * 10 ^ zlen r) by (apply Z.mul_nonneg_nonneg; lia). lia.
Qed.

Lemma ndigits_le n : forall c k, 0 <= k -> 0 <= c < 10 ^ k -> 1 <= k -> ndigits n c <= k.
Proof.
  induction n as [|n IH]; intros c k Hk Hc H1; cbn [ndigits]; [lia|].
  destruct (c <? 10) eqn:E; [lia|].
  assert (2 <= k).
  { destruct (Z.eq_dec k 1); [subst; change (10^1) with 10 in Hc; lia|lia]. }
  assert (ndigits n (c / 10) <= k - 1); [|lia].
  apply IH; try lia. split; [apply Z.div_pos; lia|].
  apply Z.div_lt_upper_bound; [lia|]. replace (10 * 10 ^ (k - 1)) with (10 ^ k); [lia|].
  rewrite <- Z.pow_succ_r by lia. f_equal. lia.
Qed.

Lemma dec_neg_exact c e : 0 < c < 10 ^ 28 -> dec_neg c e = OReal true c e.
Proof.
  intros H. unfold dec_neg. replace (c =? 0) with false by lia.
  assert (dec_len c <= 28) by (apply ndigits_le; lia). cbv zeta.
  replace (dec_len c - 28 <=? 0) with true by lia. auto.
Qed.

Section R.
  Context {U : Type}.
  Variable f : list Z.
  Notation P := (prog U).

  Lemma r_cur {A} (g : option Z -> P A) pos l r q :
    At f pos l -> runs f (g (hd_error l)) pos r q -> runs f (bind cur g) pos r q.
  Proof. intros HA H. apply runs_Cur. rewrite (At_head _ _ _ HA). exact H. Qed.
  Lemma r_next {A} (g : option Z -> P A) pos l r q :
    At f pos l -> runs f (g (hd_error l)) (pos + 1) r q -> runs f (bind next g) pos r q.
  Proof. intros HA H. apply runs_Next. rewrite (At_head _ _ _ HA). exact H. Qed.
  Lemma r_prev {A} (g : option Z -> P A) pos r q :
    (forall c, runs f (g c) (pos - 1) r q) -> runs f (bind prev g) pos r q.
  Proof. intros H. apply runs_Prev. apply H. Qed.
  Lemma r_bret {A B} (a : A) (g : A -> P B) pos r q :
    runs f (g a) pos r q -> runs f (bind (ret a) g) pos r q.
  Proof. intro H; exact H. Qed.
  Lemma r_assoc {A B C} (p : P A) (g : A -> P B) (h : B -> P C) pos r q :
    runs f (bind p (fun a => bind (g a) h)) pos r q -> runs f (bind (bind p g) h) pos r q.
  Proof.
    intros H st u. destruct (H st u) as [ex E]. exists ex. rewrite <- E, !arun_bind.
    destruct (arun f p (mkA pos st u)) as [[a|e] s']; auto. now rewrite arun_bind.
  Qed.
  Lemma r_next_byte {A} (g : Z -> P A) pos x l r q :
    At f pos (x :: l) -> runs f (g x) (pos + 1) r q -> runs f (bind next_byte g) pos r q.
  Proof. intros HA H. unfold next_byte. apply r_assoc. eapply r_next; eauto. Qed.
  Lemma runs_eq {A} (p : P A) pos r q q' : runs f p pos r q -> q = q' -> runs f p pos r q'.
  Proof. intros H <-; auto. Qed.

  Lemma fuel_cons n pos x l : At f pos (x :: l) -> fuel f (S n) pos -> fuel f n (pos + 1).
  Proof. intros HA. apply At_len in HA. rewrite zlen_cons in HA. pose proof (zlen_nonneg l). unfold fuel. lia. Qed.
  Lemma fuel_mono n pos q : fuel f n pos -> pos <= q -> fuel f n q.
  Proof. unfold fuel; lia. Qed.
  Lemma fuel_S n pos : fuel f n pos -> fuel f (S n) pos.
  Proof. unfold fuel; lia. Qed.
  Lemma fuel_O pos : ~ fuel f 0 pos.
  Proof. unfold fuel; lia. Qed.

  Lemma r_comment_loop : forall body n pos e r,
    Forall (fun c => c <> 13 /\ c <> 10) body -> head_is (fun c => (c =? 13) || (c =? 10)) (e ++ r) = true ->
    At f pos (body ++ e ++ r) -> zlen body < Z.of_nat n ->
    runs f (comment_loop n : P _) pos (Ok tt) (pos + zlen body).
  Proof.
    induction body as [|b body IH]; intros [|n] pos e r Hf He HA Hn;
      rewrite ?zlen_cons, ?zlen_nil in *; try (pose proof (zlen_nonneg body)); try lia; cbn [comment_loop app] in *.
    - eapply r_cur; eauto. cbn [app] in *. destruct (e ++ r) as [|x t]; [discriminate|].
      cbn [hd_error p_eol head_is] in *. rewrite He. eapply runs_eq; [apply runs_ret|lia].
    - inversion Hf as [|? ? [H1 H2] H3]; subst. eapply r_cur; eauto. cbn [hd_error p_eol].
      replace ((b =? 13) || (b =? 10)) with false by lia.
      eapply r_next_byte; eauto. destruct (At_cons _ _ _ _ HA) as [_ HA'].
      eapply runs_eq; [eapply IH; eauto; lia|lia].
  Qed.

  Lemma r_maybe_eol e r pos : Eol e r -> At f pos (e ++ r) -> runs f (maybe_eol : P _) pos (Ok tt) (pos + zlen e).
  Proof.
    intros [->|[->|[-> H]]] HA; unfold maybe_eol; eapply r_cur; eauto; cbn [app hd_error is_cur] in *.
    - cbn. eapply r_next; eauto. eapply runs_eq; [apply runs_ret|cbn; lia].
    - cbn. eapply r_next; eauto. destruct (At_cons _ _ _ _ HA) as [_ HA'].
      eapply r_cur; eauto. cbn. eapply r_next; eauto. eapply runs_eq; [apply runs_ret|cbn; lia].
    - cbn. eapply r_next; eauto. destruct (At_cons _ _ _ _ HA) as [_ HA'].
      eapply r_cur; eauto. destruct r as [|x r]; cbn [hd_error is_cur head_is] in *; [|rewrite H]; eapply runs_eq; try apply runs_ret; cbn; lia.
  Qed.
  Lemma Eol_head e r : Eol e r -> head_is (fun c => (c =? 13) || (c =? 10)) (e ++ r) = true.
  Proof. intros [->|[->|[-> H]]]; reflexivity. Qed.
  Lemma r_eol e r pos : Eol e r -> At f pos (e ++ r) -> runs f (eol : P _) pos (Ok tt) (pos + zlen e).
  Proof.
    intros He HA. unfold eol. eapply r_cur; eauto. pose proof (Eol_head _ _ He) as Hh.
    destruct (e ++ r) as [|x t] eqn:E; [discriminate|]. cbn [hd_error p_eol head_is] in *. rewrite Hh.
    eapply r_maybe_eol; eauto. now rewrite E.
  Qed.

  Lemma r_comment body e r n pos :
    Forall (fun c => c <> 13 /\ c <> 10) body -> Eol e r ->
    At f pos (37 :: body ++ e ++ r) -> fuel1 f n pos ->
    runs f (comment n : P _) pos (Ok tt) (pos + 1 + zlen body + zlen e).
  Proof.
    intros Hb He HA Hn. unfold comment. eapply r_cur; eauto. cbn [hd_error is_cur]. cbn [Z.eqb Pos.eqb].
    assert (Forall (fun c => c <> 13 /\ c <> 10) (37 :: body)) by (constructor; auto; lia).
    pose proof (At_len _ _ _ HA) as HL. rewrite zlen_cons, !zlen_app in HL.
    pose proof (zlen_nonneg body). pose proof (zlen_nonneg e). pose proof (zlen_nonneg r).
    eapply runs_bind.
    - eapply r_comment_loop; eauto using Eol_head. rewrite zlen_cons. assert (0 < zlen e) by (destruct He as [->|[->|[-> ?]]]; cbn; lia). unfold fuel1 in Hn. lia.
    - eapply runs_eq; [eapply r_eol; eauto|rewrite zlen_cons; lia].
      change (37 :: body ++ e ++ r) with ((37 :: body) ++ (e ++ r)) in HA. apply At_app in HA; exact HA.
  Qed.

  Lemma nosep_cons x r : nosep (x :: r) -> is_ws x = false /\ (x =? 37) = false.
  Proof. unfold nosep. cbn [head_is]. intros H%orb_false_iff. auto. Qed.

  Lemma r_spaces_comments s : Sep s -> forall n m pos rest, nosep rest -> At f pos (s ++ rest) ->
    fuel f n pos -> fuel f m pos ->
    runs f (maybe_spaces n ;;; comments_loop m : P _) pos (Ok tt) (pos + zlen s).
  Proof.
    induction 1 as [|c s Hc Hs IH|body e s Hb He Hs IH]; intros n m pos rest Hns HA Hn Hm.
    - destruct n as [|n]; [now apply fuel_O in Hn|]. destruct m as [|m]; [now apply fuel_O in Hm|].
      cbn [app] in HA. cbn [maybe_spaces comments_loop]. apply r_assoc. eapply r_cur; eauto.
      destruct rest as [|x rest]; cbn [hd_error p_ws].
      + eapply r_bret. eapply r_cur; eauto. cbn [hd_error is_cur]. eapply runs_eq; [apply runs_ret|rewrite zlen_nil; lia].
      + apply nosep_cons in Hns. destruct Hns as [H1 H2]. rewrite H1.
        eapply r_bret. eapply r_cur; eauto. cbn [hd_error is_cur]. rewrite H2. eapply runs_eq; [apply runs_ret|rewrite zlen_nil; lia].
    - destruct n as [|n]; [now apply fuel_O in Hn|]. cbn [maybe_spaces].
      cbn [app] in HA. apply r_assoc. eapply r_cur; eauto. cbn [hd_error p_ws]. rewrite Hc.
      apply r_assoc. eapply r_next; eauto. destruct (At_cons _ _ _ _ HA) as [_ HA'].
      eapply runs_eq; [eapply IH; eauto|rewrite zlen_cons; lia].
      + eapply fuel_cons; eauto.
      + eapply fuel_mono; eauto; lia.
    - destruct n as [|n]; [now apply fuel_O in Hn|]. destruct m as [|m]; [now apply fuel_O in Hm|].
      rewrite <- app_comm_cons, <- !app_assoc in HA. cbn [maybe_spaces comments_loop].
      apply r_assoc. eapply r_cur; eauto. cbn [hd_error p_ws].
      change (is_ws 37) with false. cbv beta iota. eapply r_bret.
      eapply r_cur; eauto. cbn [hd_error is_cur]. cbn [Z.eqb Pos.eqb].
      pose proof (fuel_cons _ _ _ _ HA Hm) as Hm'.
      assert (Eol e (s ++ rest)) as He'.
      { destruct He as [->|[->|[-> He]]]; unfold Eol; auto. right; right; split; auto.
        destruct s as [|y s]; cbn [app head_is] in *; auto.
        destruct rest as [|x rest]; cbn [head_is]; auto. apply nosep_cons in Hns.
        destruct (Z.eqb_spec x 10); auto. subst. now destruct Hns. }
      destruct (At_cons _ _ _ _ HA) as [_ HA'].
      assert (0 < zlen e) by (destruct He as [->|[->|[-> ?]]]; cbn; lia).
      pose proof (At_len _ _ _ HA) as HL. rewrite zlen_cons, !zlen_app in HL.
      pose proof (zlen_nonneg body). pose proof (zlen_nonneg rest). pose proof (zlen_nonneg s).
      eapply runs_bind.
      + eapply r_comment; eauto. unfold fuel, fuel1 in *; lia.
      + assert (At f (pos + 1 + zlen body + zlen e) (s ++ rest)) as HA2 by (apply At_app, At_app in HA'; exact HA').
        eapply runs_eq; [eapply IH; eauto|rewrite zlen_cons, !zlen_app; lia]; unfold fuel in *; lia.
  Qed.

  Lemma r_sp s n pos rest : Sep s -> nosep rest -> At f pos (s ++ rest) -> fuel f n pos ->
    runs f (sp n : P _) pos (Ok tt) (pos + zlen s).
  Proof. intros. unfold sp. eapply r_spaces_comments; eauto. Qed.

  Lemma r_digits : forall ds n acc pos rest, digits_ok ds -> head_is is_digit rest = false ->
    At f pos (ds ++ rest) -> fuel f n pos ->
    runs f (digits n acc : P _) pos (Ok (acc ++ ds)) (pos + zlen ds).
  Proof.
    induction ds as [|d ds IH]; intros [|n] acc pos rest Hd Hr HA Hn; try (now apply fuel_O in Hn); cbn [digits app] in *.
    - eapply r_cur; eauto. rewrite app_nil_r, zlen_nil, Z.add_0_r.
      destruct rest as [|x rest]; cbn [hd_error head_is] in *; [apply runs_ret|rewrite Hr; apply runs_ret].
    - inversion Hd; subst. eapply r_cur; eauto. cbn [hd_error]. rewrite H1.
      eapply r_next; eauto. destruct (At_cons _ _ _ _ HA) as [_ HA'].
      replace (acc ++ d :: ds) with ((acc ++ [d]) ++ ds) by (rewrite <- app_assoc; auto).
      eapply runs_eq; [eapply IH; eauto using fuel_cons|rewrite zlen_cons; lia].
  Qed.

  Lemma head_dig ds l : ds <> [] -> digits_ok ds -> exists d r, ds = d :: r /\ is_digit d = true /\ head_is is_digit (ds ++ l) = true.
  Proof. intros Hn Hd. destruct Hd as [|d r H]; [congruence|]. exists d, r. cbn. auto. Qed.
  Lemma is_digit_range d : is_digit d = true -> 48 <= d <= 57.
  Proof. unfold is_digit. lia. Qed.

  Lemma int_end_digit rest : int_end rest -> head_is is_digit rest = false /\ head_is (fun c => c =? 46) rest = false.
  Proof. unfold int_end. destruct rest; cbn [head_is]; auto. intros H%orb_false_iff; auto. Qed.

  (** common part of [numeric] after the sign *)
  Definition num_tail (n : nat) (neg : bool) : P obj :=
    ip <- digits n [] ;;
    c2 <- cur ;;
    ofp <- (if is_cur c2 46 then next ;;; fp <- digits n [] ;; ret (Some fp) else ret None) ;;
    match ofp with
    | None =>
        match ip with
        | [] => throw ParserExc
        | _ => ret (OInt (if neg : bool then - dec_val ip else dec_val ip))
        end
    | Some fp =>
        match ip, fp with
        | [], [] => throw ParserExc
        | _, _ =>
            let fp' := match fp with [] => [48] | _ => fp end in
            let coef := dec_val (ip ++ fp') in
            let exp := - zlen fp' in
            ret (if neg then dec_neg coef exp else OReal false coef exp)
        end
    end.

  Lemma r_numeric_sign n pos sg (neg : bool) l r q :
    (sg = [] /\ neg = false /\ head_is (fun c => memZ c [43; 45]) l = false) \/ (sg = [43] /\ neg = false) \/ (sg = [45] /\ neg = true) ->
    At f pos (sg ++ l) -> runs f (num_tail n neg) (pos + zlen sg) r q -> runs f (numeric n : P _) pos r q.
  Proof.
    intros Hs HA H. unfold numeric.
    destruct Hs as [(-> & -> & Hl)|[[-> ->]|[-> ->]]]; eapply r_cur; eauto; cbn [app hd_error is_cur] in *.
    - rewrite zlen_nil, Z.add_0_r in H.
      destruct l as [|x l]; cbn [hd_error is_cur head_is] in *; [exact H|].
      cbn [memZ] in Hl. destruct (x =? 43) eqn:E1; [discriminate|]. destruct (x =? 45) eqn:E2; [discriminate|]. exact H.
  Qed.

  Lemma r_num_tail_int n (neg : bool) ds pos rest : ds <> [] -> digits_ok ds -> int_end rest ->
    At f pos (ds ++ rest) -> fuel f n pos ->
    runs f (num_tail n neg) pos (Ok (OInt (if neg then - dvalue ds else dvalue ds))) (pos + zlen ds).
  Proof.
    intros Hne Hd Hr HA Hn. destruct (int_end_digit _ Hr) as [H1 H2]. unfold num_tail.
    eapply runs_bind; [eapply r_digits; eauto|]. cbn [app].
    apply At_app in HA. eapply r_cur; eauto.
    replace (is_cur (hd_error rest) 46) with false by (destruct rest; cbn in *; auto).
    apply r_bret. rewrite dec_val_dvalue. destruct ds; [congruence|]. apply runs_ret.
  Qed.

  Lemma r_numeric_int n z t pos rest : IntText z t -> int_end rest -> At f pos (t ++ rest) -> fuel f n pos ->
    runs f (numeric n : P _) pos (Ok (OInt z)) (pos + zlen t).
  Proof.
    intros Ht Hr HA Hn. destruct Ht as [ds Hne Hd|ds Hne Hd|ds Hne Hd].
    - destruct (head_dig ds rest Hne Hd) as (d & r & -> & Hdd & _). apply is_digit_range in Hdd.
      eapply (r_numeric_sign n pos [] false ((d :: r) ++ rest)); auto.
      + left. repeat split; auto. cbn [app head_is memZ]. lia.
      + rewrite zlen_nil, Z.add_0_r. eapply (r_num_tail_int n false); eauto.
    - eapply (r_numeric_sign n pos [43] false (ds ++ rest)); auto.
      destruct (At_cons _ _ _ _ HA) as [_ HA']. change (zlen [43]) with 1. rewrite zlen_cons, Z.add_assoc.
      eapply (r_num_tail_int n false); eauto. eapply fuel_mono; eauto; lia.
    - eapply (r_numeric_sign n pos [45] true (ds ++ rest)); auto.
      destruct (At_cons _ _ _ _ HA) as [_ HA']. change (zlen [45]) with 1. rewrite zlen_cons, Z.add_assoc.
      eapply (r_num_tail_int n true); eauto. eapply fuel_mono; eauto; lia.
  Qed.

  Lemma r_num_tail_real n (neg : bool) ip fp pos rest : ip ++ fp <> [] -> digits_ok ip -> digits_ok fp -> real_end rest ->
    At f pos (ip ++ 46 :: fp ++ rest) -> fuel f n pos ->
    let c := dvalue (ip ++ frac fp) in let e := - zlen (frac fp) in
    runs f (num_tail n neg) pos (Ok (if neg then dec_neg c e else OReal false c e)) (pos + zlen ip + 1 + zlen fp).
  Proof.
    intros Hne Hi Hfp Hr HA Hn c e. unfold num_tail.
    eapply runs_bind; [apply (r_digits ip n [] pos (46 :: fp ++ rest)); auto|]. cbn [app].
    apply At_app in HA. eapply r_cur; eauto. cbn [hd_error is_cur]. cbn [Z.eqb Pos.eqb].
    apply r_assoc. eapply r_next; eauto. destruct (At_cons _ _ _ _ HA) as [_ HA'].
    eapply runs_bind.
    { eapply runs_bind; [eapply r_digits; eauto|apply runs_ret].
      eapply fuel_mono; eauto. pose proof (zlen_nonneg ip); lia. }
    cbn [app]. cbv beta iota. unfold c, e. rewrite <- dec_val_dvalue. unfold frac.
    destruct ip, fp; try apply runs_ret. now elim Hne.
  Qed.

  Lemma r_numeric_real n v t pos rest : RealText v t -> real_end rest -> At f pos (t ++ rest) -> fuel f n pos ->
    runs f (numeric n : P _) pos (Ok v) (pos + zlen t).
  Proof.
    intros Ht Hr HA Hn. destruct Ht as [sg ip fp Hs Hi Hfp Hne|ip fp Hi Hfp Hne Hc|ip fp Hi Hfp Hne Hc].
    - rewrite <- !app_assoc in HA. cbn [app] in HA.
      eapply (r_numeric_sign n pos sg false (ip ++ 46 :: fp ++ rest)); auto.
      { destruct Hs as [->| ->]; auto. left. repeat split; auto.
        destruct Hi as [|d r Hd _]; cbn [app head_is memZ]; [reflexivity|]. apply is_digit_range in Hd. lia. }
      eapply runs_eq; [eapply (r_num_tail_real n false ip fp); eauto|].
      + apply At_app in HA; exact HA.
      + eapply fuel_mono; eauto. pose proof (zlen_nonneg sg); lia.
      + rewrite !zlen_app, zlen_cons. lia.
    - cbn [app] in HA. rewrite <- !app_assoc in HA. cbn [app] in HA.
      eapply (r_numeric_sign n pos [45] true (ip ++ 46 :: fp ++ rest)); auto.
      rewrite <- (dec_neg_exact _ _ Hc).
      eapply runs_eq; [eapply (r_num_tail_real n true ip fp); eauto|].
      + change (45 :: ip ++ 46 :: fp ++ rest) with ([45] ++ (ip ++ 46 :: fp ++ rest)) in HA. apply At_app in HA; exact HA.
      + eapply fuel_mono; eauto. cbn; lia.
      + rewrite !zlen_cons, !zlen_app, zlen_cons, zlen_nil. lia.
    - cbn [app] in HA. rewrite <- !app_assoc in HA. cbn [app] in HA.
      eapply (r_numeric_sign n pos [45] true (ip ++ 46 :: fp ++ rest)); auto.
      replace (OReal false 0 (- zlen (frac fp))) with (dec_neg (dvalue (ip ++ frac fp)) (- zlen (frac fp))) by (rewrite Hc; reflexivity).
      eapply runs_eq; [eapply (r_num_tail_real n true ip fp); eauto|].
      + change (45 :: ip ++ 46 :: fp ++ rest) with ([45] ++ (ip ++ 46 :: fp ++ rest)) in HA. apply At_app in HA; exact HA.
      + eapply fuel_mono; eauto. cbn; lia.
      + rewrite !zlen_cons, !zlen_app, zlen_cons, zlen_nil. lia.
  Qed.

  Lemma r_numeric_fail n pos l : head_is (fun c => is_digit c || memZ c [43; 45; 46]) l = false ->
    At f pos l -> fuel f n pos -> runs f (numeric n : P _) pos (Err ParserExc) pos.
  Proof.
    intros Hl HA Hn.
    assert (head_is is_digit l = false /\ head_is (fun c => memZ c [43; 45]) l = false /\ is_cur (hd_error l) 46 = false) as (H1 & H2 & H3).
    { destruct l as [|x l]; auto. cbn [head_is memZ hd_error is_cur] in *. lia. }
    eapply (r_numeric_sign n pos [] false l); auto. rewrite (@zlen_nil Z), Z.add_0_r. unfold num_tail.
    eapply runs_bind; [apply (r_digits [] n [] pos l); auto; constructor|]. rewrite (@zlen_nil Z), Z.add_0_r.
    eapply r_cur; eauto. rewrite H3. apply r_bret. cbn [app]. apply runs_throw.
  Qed.

  Lemma real_not_int v t : RealText v t -> exists a b c, v = OReal a b c.
  Proof. destruct 1; eauto. Qed.

  Lemma hex_regular x v : hexval x = Some v -> is_ws x = false /\ is_delim x = false /\ x <> 35.
  Proof.
    intros H. assert (48 <= x <= 57 \/ 65 <= x <= 70 \/ 97 <= x <= 102) as Hx.
    { unfold hexval in H. destruct ((48 <=? x) && (x <=? 57)) eqn:E1; [lia|]. destruct ((65 <=? x) && (x <=? 70)) eqn:E2; [lia|].
      destruct ((97 <=? x) && (x <=? 102)) eqn:E3; [lia|discriminate]. }
    split; [|split; [|lia]].
    - destruct (is_ws x) eqn:E; [|reflexivity]. apply memZ_In in E. cbn in E. lia.
    - destruct (is_delim x) eqn:E; [|reflexivity]. apply memZ_In in E. cbn in E. lia.
  Qed.
  Lemma r_name_loop cs t : NameText cs t -> forall n tok pos rest, nonreg rest ->
    At f pos (t ++ rest) -> fuel f n pos ->
    runs f (name_loop n tok : P _) pos (Ok (tok ++ cs)) (pos + zlen t).
  Proof.
    assert (forall k cs t, (List.length t < k)%nat -> NameText cs t -> forall n tok pos rest, nonreg rest ->
      At f pos (t ++ rest) -> fuel f n pos -> runs f (name_loop n tok : P _) pos (Ok (tok ++ cs)) (pos + zlen t)) as G;
      [|intros HT; apply (G (S (List.length t))); auto with arith].
    clear cs t. induction k as [|k IH0]; intros cs0 t0 Hk H0; [lia|].
    assert (forall cs t, (List.length t < List.length t0)%nat -> NameText cs t -> forall n tok pos rest, nonreg rest ->
      At f pos (t ++ rest) -> fuel f n pos -> runs f (name_loop n tok : P _) pos (Ok (tok ++ cs)) (pos + zlen t)) as IH
      by (intros cs1 t1 H1; apply IH0; lia). clear IH0 Hk.
    destruct H0 as [|c cs t Hw Hd H35 Ht|a b h l cs t Ha Hb Ht|cs t H2 Ht]; intros [|n] tok pos rest Hr HA Hn;
      try (now apply fuel_O in Hn); cbn [app] in HA; cbn [name_loop]; cbn [List.length] in IH.
    - eapply r_cur; eauto. rewrite app_nil_r, (@zlen_nil Z), Z.add_0_r.
      replace (p_regular (hd_error rest)) with false; [apply runs_ret|].
      unfold nonreg in Hr. destruct rest; auto.
    - eapply r_cur; eauto. cbn [hd_error p_regular is_cur]. rewrite Hw, Hd. cbn [orb negb].
      replace (c =? 35) with false by lia.
      eapply r_next_byte; eauto. destruct (At_cons _ _ _ _ HA) as [_ HA'].
      replace (tok ++ c :: cs) with ((tok ++ [c]) ++ cs) by (rewrite <- app_assoc; auto).
      eapply runs_eq; [eapply IH; eauto using fuel_cons|rewrite zlen_cons; lia].
    - eapply r_cur; eauto. cbn [hd_error p_regular is_cur]. change (negb (is_ws 35 || is_delim 35)) with true.
      change (35 =? 35) with true. cbv beta iota.
      destruct (At_cons _ _ _ _ HA) as [_ HA1]. destruct (At_cons _ _ _ _ HA1) as [_ HA2]. destruct (At_cons _ _ _ _ HA2) as [_ HA3].
      eapply r_next; eauto. eapply r_cur; eauto. cbn [hd_error]. unfold is_hex. rewrite Ha.
      eapply r_next; eauto. eapply r_cur; eauto. cbn [hd_error]. rewrite Hb.
      eapply r_next; eauto.
      replace (tok ++ 16 * h + l :: cs) with ((tok ++ [16 * h + l]) ++ cs) by (rewrite <- app_assoc; auto).
      eapply runs_eq; [eapply IH; eauto|rewrite !zlen_cons; lia].
      pose proof (fuel_cons _ _ _ _ HA Hn). eapply fuel_mono; eauto; lia.
    - eapply r_cur; eauto. cbn [hd_error p_regular is_cur]. change (negb (is_ws 35 || is_delim 35)) with true.
      change (35 =? 35) with true. cbv beta iota.
      destruct (At_cons _ _ _ _ HA) as [_ HA1]. pose proof (fuel_cons _ _ _ _ HA Hn) as Hn1.
      assert (head_is is_hex rest = false) as Hrest.
      { destruct rest as [|y rest]; [reflexivity|]. cbn [head_is]. unfold is_hex. destruct (hexval y) eqn:Ey; [|reflexivity].
        destruct (hex_regular _ _ Ey) as (E1 & E2 & _). unfold nonreg in Hr. cbn [head_is] in Hr. rewrite E1, E2 in Hr. discriminate. }
      eapply r_next; eauto. eapply r_cur; eauto.
      assert (forall tk, runs f (name_loop n tk : P _) (pos + 1) (Ok (tk ++ cs)) (pos + 1 + zlen t)) as Rnext.
      { intros tk. eapply IH; eauto; lia. }
      replace (tok ++ 35 :: cs) with ((tok ++ [35]) ++ cs) by (rewrite <- app_assoc; auto).
      rewrite zlen_cons. replace (pos + (1 + zlen t)) with (pos + 1 + zlen t) by lia.
      destruct t as [|x t].
      + cbn [app] in *. destruct rest as [|y rest]; cbn [hd_error]; [apply Rnext|]. cbn [head_is] in Hrest. rewrite Hrest. apply Rnext.
      + cbn [app hd_error] in *. destruct (is_hex x) eqn:Ex; [|apply Rnext].
        assert (exists vx, hexval x = Some vx) as [vx Evx] by (unfold is_hex in Ex; destruct (hexval x); [eauto|discriminate]).
        destruct (hex_regular _ _ Evx) as (Ew & Ed & E35).
        destruct (At_cons _ _ _ _ HA1) as [_ HA2].
        assert (exists cs', cs = x :: cs' /\ NameText cs' t) as (cs' & -> & Ht') by (inversion Ht; subst; try congruence; eauto).
        assert (forall tk, runs f (name_loop n tk : P _) (pos + 1 + 1) (Ok (tk ++ cs')) (pos + 1 + 1 + zlen t)) as R2.
        { intros tk. eapply IH; eauto; first [cbn [List.length]; lia | eapply fuel_mono; eauto; lia]. }
        rewrite zlen_cons. replace (pos + 1 + (1 + zlen t)) with (pos + 1 + 1 + zlen t) by lia.
        replace ((tok ++ [35]) ++ x :: cs') with ((tok ++ [35; x]) ++ cs') by (rewrite <- !app_assoc; reflexivity).
        eapply r_next; eauto. eapply r_cur; eauto.
        destruct t as [|y t].
        * cbn [app] in *. destruct rest as [|y rest]; cbn [hd_error]; [apply R2|]. cbn [head_is] in Hrest. rewrite Hrest. apply R2.
        * cbn [app hd_error]. cbn [two_hex] in H2. rewrite Evx in H2. unfold is_hex. destruct (hexval y); [discriminate|]. apply R2.
  Qed.

  Lemma r_name cs t n pos rest : NameText cs t -> nonreg rest ->
    At f pos (47 :: t ++ rest) -> fuel f n pos ->
    runs f (name n : P _) pos (Ok cs) (pos + 1 + zlen t).
  Proof.
    intros Ht Hr HA Hn. unfold name. eapply r_cur; eauto. cbn [hd_error is_cur]. cbn [Z.eqb Pos.eqb].
    eapply r_next; eauto. destruct (At_cons _ _ _ _ HA) as [_ HA'].
    eapply (r_name_loop cs t Ht n []); eauto. eapply fuel_mono; eauto; lia.
  Qed.

  Lemma r_octal_more : forall ds k code pos rest, octal_ok ds -> zlen ds <= Z.of_nat k ->
    (zlen ds < Z.of_nat k -> head_is (fun c => (48 <=? c) && (c <=? 55)) rest = false /\ rest <> []) ->
    At f pos (ds ++ rest) ->
    runs f (octal_more k code : P _) pos (Ok (code ++ ds)) (pos + zlen ds).
  Proof.
    induction ds as [|d ds IH]; intros [|k] code pos rest Hd Hk Hr HA; rewrite ?zlen_cons, ?zlen_nil in *;
      try (pose proof (zlen_nonneg ds); lia); cbn [octal_more app] in *.
    - rewrite app_nil_r. eapply runs_eq; [apply runs_ret|lia].
    - destruct Hr as [H1 H2]; [lia|]. destruct rest as [|x rest]; [congruence|].
      eapply r_cur; eauto. cbn [hd_error head_is] in *. unfold is_octal. rewrite H1.
      rewrite app_nil_r. eapply runs_eq; [apply runs_ret|lia].
    - inversion Hd; subst. eapply r_cur; eauto. cbn [hd_error].
      unfold is_octal. replace ((48 <=? d) && (d <=? 55)) with true by lia.
      eapply r_next; eauto. destruct (At_cons _ _ _ _ HA) as [_ HA'].
      replace (code ++ d :: ds) with ((code ++ [d]) ++ ds) by (rewrite <- app_assoc; auto).
      eapply runs_eq; [eapply IH; eauto; try lia|lia]. intros; apply Hr; lia.
  Qed.

  Lemma escape_table c e : Escape c e ->
    is_octal e = false /\ (e =? 13) || (e =? 10) = false /\ string_escaped e = Some c.
  Proof. destruct 1; cbn; auto. Qed.

  Lemma escaped_table c e : string_escaped e = Some c -> Escape c e.
  Proof.
    unfold string_escaped. repeat match goal with |- context [if ?a =? ?b then _ else _] => destruct (Z.eqb_spec a b); [subst; intros H; injection H as <-; constructor|] end. discriminate.
  Qed.
  Lemma r_str_loop v t : StrText v t -> forall n val pos rest,
    At f pos (t ++ 41 :: rest) -> fuel f n pos ->
    runs f (str_loop n val : P _) pos (Ok (val ++ v)) (pos + zlen t + 1).
  Proof.
    induction 1 as [|c v t H40 H41 H92 Ht IH|v1 t1 v t Ht1 IH1 Ht IH|c e v t He Ht IH|ds v t Ho Hl Hv Hh Ht IH|e v t He Ht IH|e v t H8 H13 H10 HE Ht IH|ds v t Ho Hl Hv Ht IH];
      intros [|n] val pos rest HA Hn; try (now apply fuel_O in Hn); cbn [app] in HA; cbn [str_loop].
    - eapply r_next; eauto. cbn [hd_error]. cbn. rewrite app_nil_r, Z.add_0_r. apply runs_ret.
    - eapply r_next; eauto. cbn [hd_error]. replace (c =? 40) with false by lia.
      replace (c =? 92) with false by lia. replace (c =? 41) with false by lia.
      destruct (At_cons _ _ _ _ HA) as [_ HA'].
      replace (val ++ c :: v) with ((val ++ [c]) ++ v) by (rewrite <- app_assoc; auto).
      eapply runs_eq; [eapply IH; eauto using fuel_cons|rewrite zlen_cons; lia].
    - eapply r_next; eauto. cbn [hd_error]. change (40 =? 40) with true. cbv beta iota.
      destruct (At_cons _ _ _ _ HA) as [_ HA'].
      apply r_prev. intros _. replace (pos + 1 - 1) with pos by lia.
      eapply r_cur; eauto. cbn [hd_error is_cur]. change (40 =? 40) with true. cbv beta iota.
      eapply r_next; eauto.
      rewrite <- app_assoc in HA'. cbn [app] in HA'.
      pose proof (fuel_cons _ _ _ _ HA Hn) as Hn'.
      eapply runs_bind; [eapply (IH1 n []); eauto|]. cbn [app].
      replace (val ++ 40 :: v1 ++ 41 :: v) with ((val ++ 40 :: v1 ++ [41]) ++ v)
        by (rewrite <- !app_assoc; cbn [app]; rewrite <- app_assoc; auto).
      pose proof (zlen_nonneg t1).
      eapply runs_eq; [eapply IH|rewrite !zlen_cons, zlen_app, zlen_cons; lia].
      + apply At_app in HA'. destruct (At_cons _ _ _ _ HA') as [_ HA'']. exact HA''.
      + eapply fuel_mono; eauto; lia.
    - destruct (escape_table _ _ He) as (E1 & E2 & E3).
      eapply r_next; eauto. cbn [hd_error]. cbn [Z.eqb Pos.eqb].
      destruct (At_cons _ _ _ _ HA) as [_ HA1]. destruct (At_cons _ _ _ _ HA1) as [_ HA2].
      eapply r_next; eauto. cbn [hd_error]. rewrite E1, E2, E3.
      replace (val ++ c :: v) with ((val ++ [c]) ++ v) by (rewrite <- app_assoc; auto).
      pose proof (fuel_cons _ _ _ _ HA Hn) as Hn'.
      eapply runs_eq; [eapply IH; eauto; eapply fuel_mono; eauto; lia|rewrite !zlen_cons; lia].
    - destruct ds as [|d ds]; [rewrite zlen_nil in Hl; lia|]. inversion Ho as [|? ? Hd Ho']; subst.
      eapply r_next; eauto. cbn [hd_error]. cbn [Z.eqb Pos.eqb].
      destruct (At_cons _ _ _ _ HA) as [_ HA1]. cbn [app] in HA1. destruct (At_cons _ _ _ _ HA1) as [_ HA2].
      rewrite <- app_assoc in HA2.
      eapply r_next; eauto. cbn [hd_error]. unfold is_octal at 1. replace ((48 <=? d) && (d <=? 55)) with true by lia.
      rewrite zlen_cons in *. pose proof (zlen_nonneg ds).
      eapply runs_bind.
      { eapply (r_octal_more ds 2 [d]); eauto; [lia|]. intros Hlt. split; [|destruct t; discriminate].
        destruct t as [|x t]; cbn [app head_is]; [reflexivity|]. apply Hh. lia. }
      cbn [app]. rewrite oct_val_ovalue. replace (ovalue (d :: ds) <=? 255) with true by lia.
      replace (val ++ ovalue (d :: ds) :: v) with ((val ++ [ovalue (d :: ds)]) ++ v) by (rewrite <- app_assoc; auto).
      pose proof (fuel_cons _ _ _ _ HA Hn) as Hn'.
      eapply runs_eq; [eapply IH|].
      + apply At_app in HA2; exact HA2.
      + eapply fuel_mono; eauto; lia.
      + rewrite !zlen_cons, zlen_app. lia.
    - assert (Eol e (t ++ 41 :: rest)) as He'.
      { destruct He as [->|[->|[-> He]]]; unfold Eol; auto. right; right; split; auto.
        destruct t as [|y t]; cbn [app head_is] in *; auto. }
      rewrite <- app_assoc in HA. pose proof (Eol_head _ _ He') as Hh.
      destruct (e ++ t ++ 41 :: rest) as [|x tl] eqn:El; [discriminate|]. cbn [head_is] in Hh.
      eapply r_next; eauto. cbn [hd_error]. cbn [Z.eqb Pos.eqb].
      destruct (At_cons _ _ _ _ HA) as [_ HA1].
      eapply r_next; eauto. cbn [hd_error]. unfold is_octal at 1. replace ((48 <=? x) && (x <=? 55)) with false by lia.
      rewrite Hh. apply r_prev. intros _. replace (pos + 1 + 1 - 1) with (pos + 1) by lia.
      rewrite <- El in HA1.
      eapply runs_bind; [eapply r_eol; eauto|].
      pose proof (fuel_cons _ _ _ _ HA Hn) as Hn'. pose proof (zlen_nonneg e).
      eapply runs_eq; [eapply IH|].
      + apply At_app in HA1; exact HA1.
      + eapply fuel_mono; eauto; lia.
      + rewrite !zlen_cons, zlen_app. lia.
    - assert (string_escaped e = None) as E3.
      { destruct (string_escaped e) as [c|] eqn:E; [|reflexivity]. exfalso. apply (HE c). apply escaped_table. exact E. }
      eapply r_next; eauto. cbn [hd_error]. cbn [Z.eqb Pos.eqb].
      destruct (At_cons _ _ _ _ HA) as [_ HA1]. destruct (At_cons _ _ _ _ HA1) as [_ HA2].
      eapply r_next; eauto. cbn [hd_error]. unfold is_octal at 1. replace ((48 <=? e) && (e <=? 55)) with false by lia.
      replace ((e =? 13) || (e =? 10)) with false by lia. rewrite E3.
      replace (val ++ 92 :: e :: v) with ((val ++ [92; e]) ++ v) by (rewrite <- app_assoc; auto).
      pose proof (fuel_cons _ _ _ _ HA Hn) as Hn'.
      eapply runs_eq; [eapply IH; eauto; eapply fuel_mono; eauto; lia|rewrite !zlen_cons; lia].
    - destruct ds as [|d ds]; [rewrite zlen_nil in Hl; lia|]. inversion Ho as [|? ? Hd Ho']; subst.
      eapply r_next; eauto. cbn [hd_error]. cbn [Z.eqb Pos.eqb].
      destruct (At_cons _ _ _ _ HA) as [_ HA1]. cbn [app] in HA1. destruct (At_cons _ _ _ _ HA1) as [_ HA2].
      rewrite <- app_assoc in HA2.
      eapply r_next; eauto. cbn [hd_error]. unfold is_octal at 1. replace ((48 <=? d) && (d <=? 55)) with true by lia.
      rewrite zlen_cons in *. pose proof (zlen_nonneg ds).
      eapply runs_bind; [eapply (r_octal_more ds 2 [d]); eauto; [lia|]; intros Hlt; lia|].
      cbn [app]. rewrite oct_val_ovalue. replace (ovalue (d :: ds) <=? 255) with false by lia.
      replace (val ++ 92 :: d :: ds ++ v) with ((val ++ 92 :: d :: ds) ++ v) by (rewrite <- app_assoc; auto).
      pose proof (fuel_cons _ _ _ _ HA Hn) as Hn'.
      eapply runs_eq; [eapply IH|].
      + apply At_app in HA2; exact HA2.
      + eapply fuel_mono; eauto; lia.
      + rewrite !zlen_cons, zlen_app. lia.
  Qed.

  Lemma r_string n v t pos rest : StrText v t -> At f pos (40 :: t ++ 41 :: rest) -> fuel f n pos ->
    runs f (string_ n : P _) pos (Ok (OStr v)) (pos + zlen t + 2).
  Proof.
    intros Ht HA Hn. unfold string_. eapply r_cur; eauto. cbn [hd_error is_cur]. cbn [Z.eqb Pos.eqb].
    eapply r_next; eauto. destruct (At_cons _ _ _ _ HA) as [_ HA'].
    eapply runs_bind; [eapply (r_str_loop v t Ht n []); eauto; eapply fuel_mono; eauto; lia|].
    cbn [app]. eapply runs_eq; [apply runs_ret|lia].
  Qed.

  Lemma hexval_nows d h : hexval d = Some h -> is_ws d = false /\ (d =? 37) = false /\ is_delim d = false.
  Proof.
    unfold hexval. intros H. assert (48 <= d <= 57 \/ 65 <= d <= 70 \/ 97 <= d <= 102).
    { destruct ((48 <=? d) && (d <=? 57)) eqn:E1; [lia|]. destruct ((65 <=? d) && (d <=? 70)) eqn:E2; [lia|].
      destruct ((97 <=? d) && (d <=? 102)) eqn:E3; [lia|discriminate]. }
    repeat split; [|lia|].
    - apply not_true_is_false. unfold is_ws, whitespaces. rewrite memZ_In. cbn [In]. lia.
    - apply not_true_is_false. unfold is_delim. rewrite memZ_In. cbn. lia.
  Qed.

  Lemma hexbody_nosep ds t r : HexBody ds t -> nosep (t ++ 62 :: r).
  Proof.
    destruct 1 as [|d h s ds t Hd]; [reflexivity|]. cbn. unfold nosep. cbn [head_is].
    destruct (hexval_nows _ _ Hd) as (H1 & H2 & _). now rewrite H1, H2.
  Qed.

  Lemma r_hex_loop ds t : HexBody ds t -> forall n tok pos rest, At f pos (t ++ 62 :: rest) -> fuel f n pos ->
    runs f (hex_loop n tok : P _) pos (Ok (tok ++ ds)) (pos + zlen t).
  Proof.
    induction 1 as [|d h s ds t Hd Hs Ht IH]; intros [|n] tok pos rest HA Hn; try (now apply fuel_O in Hn); cbn [app] in HA; cbn [hex_loop].
    - eapply r_cur; eauto. cbn. rewrite app_nil_r, Z.add_0_r. apply runs_ret.
    - eapply r_cur; eauto. cbn [hd_error]. unfold is_hex. rewrite Hd.
      eapply r_next; eauto. pose proof (fuel_cons _ _ _ _ HA Hn) as Hn'.
      destruct (At_cons _ _ _ _ HA) as [_ HA']. rewrite <- app_assoc in HA'. pose proof (zlen_nonneg s).
      eapply runs_bind; [eapply (r_sp s); eauto using hexbody_nosep|].
      replace (tok ++ d :: ds) with ((tok ++ [d]) ++ ds) by (rewrite <- app_assoc; auto).
      eapply runs_eq; [eapply IH|].
      + apply At_app in HA'; exact HA'.
      + eapply fuel_mono; eauto; lia.
      + rewrite zlen_cons, zlen_app. lia.
  Qed.

  Lemma upper_hex_upper ds t : HexBody ds t -> map upper_hex (even_pad ds) = map upper (even_pad ds).
  Proof.
    intros H. apply map_ext_in. intros c Hc.
    assert (exists h, hexval c = Some h) as [h Hh].
    { assert (forall c, In c ds -> exists h, hexval c = Some h) as Hd.
      { clear -H. induction H as [|d h s ds t Hd Hs Ht IH]; cbn; [tauto|]. intros c [<-|Hi]; eauto. }
      unfold even_pad in Hc. destruct (Z.odd (zlen ds)); auto. apply in_app_iff in Hc.
      destruct Hc as [Hc|[<-|[]]]; auto. exists 0. reflexivity. }
    unfold upper_hex, upper. unfold hexval in Hh.
    destruct ((97 <=? c) && (c <=? 102)) eqn:E.
    - replace ((97 <=? c) && (c <=? 122)) with true by lia. auto.
    - destruct ((48 <=? c) && (c <=? 57)) eqn:E1; [replace ((97 <=? c) && (c <=? 122)) with false by lia; auto|].
      destruct ((65 <=? c) && (c <=? 70)) eqn:E2; [replace ((97 <=? c) && (c <=? 122)) with false by lia; auto|discriminate].
  Qed.

  Lemma odd_zlen {A} (l : list A) : Nat.odd (List.length l) = Z.odd (zlen l).
  Proof. unfold zlen. symmetry. rewrite <- Z.negb_even, <- Nat.negb_even. f_equal.
    induction (List.length l) as [|k IH]; auto. rewrite Nat2Z.inj_succ, Z.even_succ, Nat.even_succ, <- Z.negb_even, <- Nat.negb_even. now rewrite IH. Qed.

  Lemma r_hexstring n ds s0 t pos rest : Sep s0 -> HexBody ds t -> At f pos (60 :: s0 ++ t ++ 62 :: rest) -> fuel f n pos ->
    runs f (hexstring n : P _) pos (Ok (OHex (map upper (even_pad ds)))) (pos + 2 + zlen s0 + zlen t).
  Proof.
    intros Hs Ht HA Hn. unfold hexstring. eapply r_cur; eauto. cbn [hd_error is_cur]. cbn [Z.eqb Pos.eqb].
    eapply r_next; eauto. destruct (At_cons _ _ _ _ HA) as [_ HA']. pose proof (zlen_nonneg s0).
    eapply runs_bind; [eapply (r_sp s0); eauto using hexbody_nosep; eapply fuel_mono; eauto; lia|].
    apply At_app in HA'.
    eapply runs_bind; [eapply (r_hex_loop ds t Ht n []); eauto; eapply fuel_mono; eauto; lia|].
    apply At_app in HA'. eapply r_next; eauto. cbn [hd_error is_cur app]. cbn [Z.eqb Pos.eqb].
    rewrite odd_zlen. rewrite <- (upper_hex_upper ds t Ht). unfold even_pad.
    eapply runs_eq; [apply runs_ret|lia].
  Qed.

  Lemma r_nni n z t pos rest : IntText z t -> 0 <= z -> int_end rest -> At f pos (t ++ rest) -> fuel f n pos ->
    runs f (non_negative_int n : P _) pos (Ok z) (pos + zlen t).
  Proof.
    intros. unfold non_negative_int. eapply runs_bind; [eapply r_numeric_int; eauto|].
    cbv beta iota. replace (z <? 0) with false by lia. apply runs_ret.
  Qed.

  Lemma int_nosep z t r : IntText z t -> nosep (t ++ r) /\ t <> [] /\ head_is (fun c => is_digit c || memZ c [43; 45]) t = true.
  Proof.
    unfold nosep. destruct 1 as [ds Hne Hd|ds Hne Hd|ds Hne Hd]; [|split; [reflexivity|split; [discriminate|reflexivity]]..].
    destruct (head_dig ds r Hne Hd) as (d & l & -> & H & _). split; [|split; [discriminate|cbn; now rewrite H]]. cbn [app head_is]. apply is_digit_range in H.
    apply not_true_is_false. unfold is_ws, whitespaces. rewrite orb_true_iff, memZ_In. cbn [In]. lia.
  Qed.
  Lemma real_nosep v t r : RealText v t -> nosep (t ++ r).
  Proof.
    unfold nosep. destruct 1 as [sg ip fp Hs Hi Hfp Hne|ip fp Hi Hfp Hne Hc|ip fp Hi Hfp Hne Hc]; [|reflexivity..].
    destruct Hs as [->| ->]; [|reflexivity]. destruct Hi as [|d l Hd _]; cbn [app head_is]; [reflexivity|].
    apply is_digit_range in Hd. apply not_true_is_false. unfold is_ws, whitespaces. rewrite orb_true_iff, memZ_In. cbn [In]. lia.
  Qed.

  Lemma sep_int_end s z t r : Sep s -> s <> [] -> IntText z t -> int_end (s ++ t ++ r).
  Proof.
    intros Hs Hne Ht. destruct Hs as [|c s Hc|]; [congruence| |reflexivity].
    unfold int_end. cbn [app head_is]. apply not_true_is_false. rewrite orb_true_iff.
    unfold is_digit. unfold is_ws, whitespaces in Hc. rewrite memZ_In in Hc. cbn [In] in Hc. lia.
  Qed.
  Lemma sep_end s r : Sep s -> s <> [] -> int_end (s ++ r) /\ real_end (s ++ r) /\ nonreg (s ++ r).
  Proof.
    intros Hs Hne. destruct Hs as [|c s Hc|]; [congruence| |repeat split; reflexivity].
    unfold int_end, real_end, nonreg. cbn [app head_is]. rewrite Hc. cbn [orb negb].
    assert (is_digit c || (c =? 46) = false) as E.
    { apply not_true_is_false. rewrite orb_true_iff.
      unfold is_digit. unfold is_ws, whitespaces in Hc. rewrite memZ_In in Hc. cbn [In] in Hc. lia. }
    apply orb_false_iff in E. destruct E as [E1 E2]. rewrite E1, E2. auto.
  Qed.

  (** The lookahead for a reference fails with ParserException on anything but a reference. *)
  Lemma r_ref_fail n ds pos rest : ds <> [] -> digits_ok ds -> int_end rest -> NotRefTail rest ->
    At f pos (ds ++ rest) -> fuel f n pos ->
    exists q, runs f (indirect_reference n : P _) pos (Err ParserExc) q.
  Proof.
    intros Hne Hd Hr HN HA Hn. unfold indirect_reference.
    pose proof (dvalue_nonneg _ Hd) as Hp.
    assert (runs f (non_negative_int n : P _) pos (Ok (dvalue ds)) (pos + zlen ds)) as R1.
    { eapply r_nni; eauto. constructor; auto. }
    apply At_app in HA. pose proof (zlen_nonneg ds).
    assert (fuel f n (pos + zlen ds)) as F1 by (eapply fuel_mono; eauto; lia).
    destruct HN as [sep r Hs Hns Hh|sep z t sep2 r Hs Ht Hs2 Hns Hie Hor|sep v t r Hs Ht Hre].
    - eexists. eapply runs_bind; [exact R1|].
      eapply runs_bind; [eapply (r_sp sep); eauto|]. apply At_app in HA. pose proof (zlen_nonneg sep).
      unfold non_negative_int. eapply runs_bind_err. eapply runs_bind_err. eapply r_numeric_fail; eauto.
      eapply fuel_mono; eauto; lia.
    - pose proof (zlen_nonneg sep). pose proof (zlen_nonneg t). pose proof (zlen_nonneg sep2).
      assert (runs f (sp n : P _) (pos + zlen ds) (Ok tt) (pos + zlen ds + zlen sep)) as R2.
      { apply (r_sp sep n _ (t ++ sep2 ++ r)); auto. apply (int_nosep z t); auto. }
      apply At_app in HA.
      destruct (Z.lt_ge_cases z 0) as [Hz|Hz].
      + eexists. eapply runs_bind; [exact R1|]. eapply runs_bind; [exact R2|].
        unfold non_negative_int at 1. eapply runs_bind_err. eapply runs_bind.
        { eapply r_numeric_int; eauto. eapply fuel_mono; eauto; lia. }
        cbv beta iota. replace (z <? 0) with true by lia. apply runs_throw.
      + destruct Hor as [Hor|]; [|lia].
        eexists. eapply runs_bind; [exact R1|]. eapply runs_bind; [exact R2|].
        eapply runs_bind; [eapply r_nni; eauto; eapply fuel_mono; eauto; lia|].
        apply At_app in HA.
        eapply runs_bind; [eapply (r_sp sep2); eauto; eapply fuel_mono; eauto; lia|].
        apply At_app in HA. eapply r_next; eauto.
        replace (is_cur (hd_error r) 82) with false; [apply runs_throw|].
        destruct r; auto.
    - pose proof (zlen_nonneg sep). 
      eexists. eapply runs_bind; [exact R1|].
      eapply runs_bind; [eapply (r_sp sep); eauto using real_nosep|]. apply At_app in HA.
      unfold non_negative_int at 1. eapply runs_bind_err. eapply runs_bind.
      { eapply r_numeric_real; eauto. eapply fuel_mono; eauto; lia. }
      destruct (real_not_int _ _ Ht) as (a & b & c & ->). cbv beta iota. apply runs_throw.
  Qed.

  Lemma above_ref n pos : fuel f n pos -> forall st (u : U), exists lo, above f lo (indirect_reference n) (mkA pos st u).
  Proof.
    intros Hn st u. exists pos.
    destruct (@wp_indirect_reference U f pos [] n pos (Z.le_refl _) Hn st u) as (r & q & ex & _ & _ & HA); [constructor|exact HA].
  Qed.

  Lemma r_numref_int n ds pos rest : ds <> [] -> digits_ok ds -> int_end rest -> NotRefTail rest ->
    At f pos (ds ++ rest) -> fuel f n pos ->
    runs f (numeric_or_indirect_reference n : P _) pos (Ok (OInt (dvalue ds))) (pos + zlen ds).
  Proof.
    intros. unfold numeric_or_indirect_reference.
    destruct (r_ref_fail n ds pos rest) as [q Hq]; auto.
    eapply runs_try_err; [exact Hq|reflexivity| |intros; eapply above_ref; eauto].
    eapply r_numeric_int; eauto. constructor; auto.
  Qed.

  Lemma r_numref_ref n ds1 s1 ds2 s2 pos rest :
    ds1 <> [] -> digits_ok ds1 -> ds2 <> [] -> digits_ok ds2 -> Sep s1 -> s1 <> [] -> Sep s2 ->
    At f pos (ds1 ++ s1 ++ ds2 ++ s2 ++ 82 :: rest) -> fuel f n pos ->
    runs f (numeric_or_indirect_reference n : P _) pos (Ok (ORef (dvalue ds1) (dvalue ds2)))
      (pos + zlen ds1 + zlen s1 + zlen ds2 + zlen s2 + 1).
  Proof.
    intros H1 D1 H2 D2 S1 N1 S2 HA Hn. unfold numeric_or_indirect_reference.
    apply runs_try_ok; [|intros; eapply above_ref; eauto]. unfold indirect_reference.
    assert (IntText (dvalue ds1) ds1) as I1 by (constructor; auto).
    assert (IntText (dvalue ds2) ds2) as I2 by (constructor; auto).
    pose proof (zlen_nonneg ds1). pose proof (zlen_nonneg s1). pose proof (zlen_nonneg ds2).
    pose proof (zlen_nonneg s2).
    eapply runs_bind; [apply (r_nni n (dvalue ds1) ds1 _ (s1 ++ ds2 ++ s2 ++ 82 :: rest)); auto using dvalue_nonneg; eapply sep_int_end; eauto|].
    apply At_app in HA.
    eapply runs_bind; [apply (r_sp s1 n _ (ds2 ++ s2 ++ 82 :: rest)); auto; [eapply int_nosep; eauto|eapply fuel_mono; eauto; lia]|].
    apply At_app in HA.
    eapply runs_bind; [apply (r_nni n (dvalue ds2) ds2 _ (s2 ++ 82 :: rest)); auto using dvalue_nonneg; [|eapply fuel_mono; eauto; lia]|].
    { destruct s2 as [|x s2']; [reflexivity|]. apply (sep_end (x :: s2') (82 :: rest) S2). discriminate. }
    apply At_app in HA.
    eapply runs_bind; [apply (r_sp s2 n _ (82 :: rest)); auto; [reflexivity|eapply fuel_mono; eauto; lia]|].
    apply At_app in HA. eapply r_next; eauto. cbn [hd_error is_cur]. cbn [Z.eqb Pos.eqb]. apply runs_ret.
  Qed.

  Lemma r_read_opts : forall w pos rest, At f pos (w ++ rest) ->
    runs f (read_opts (List.length w) : P _) pos (Ok (map Some w)) (pos + zlen w).
  Proof.
    induction w as [|x w IH]; intros pos rest HA; cbn [List.length read_opts map].
    - eapply runs_eq; [apply runs_ret|rewrite zlen_nil; lia].
    - cbn [app] in HA. eapply r_next; eauto. cbn [hd_error]. destruct (At_cons _ _ _ _ HA) as [_ HA'].
      eapply runs_bind; [eapply IH; eauto|]. eapply runs_eq; [apply runs_ret|rewrite zlen_cons; lia].
  Qed.
  Lemma all_some_map w : all_some (map Some w) = Some w.
  Proof. induction w as [|x w IH]; cbn; auto. now rewrite IH. Qed.
  Lemma r_read w pos rest n : n = List.length w -> At f pos (w ++ rest) ->
    runs f (read n : P _) pos (Ok w) (pos + zlen w).
  Proof.
    intros -> HA. unfold read. eapply runs_bind; [eapply r_read_opts; eauto|].
    rewrite all_some_map. apply runs_ret.
  Qed.
  Lemma r_keyword w v pos rest : At f pos (w ++ rest) -> runs f (keyword w v : P _) pos (Ok v) (pos + zlen w).
  Proof.
    intros HA. unfold keyword. eapply runs_bind; [eapply r_read; eauto|]. rewrite eqlZ_refl. apply runs_ret.
  Qed.

  Lemma r_token_loop : forall w n tok pos rest, Forall (fun c => is_ws c = false /\ is_delim c = false) w -> nonreg rest ->
    At f pos (w ++ rest) -> fuel f n pos ->
    runs f (token_loop n tok : P _) pos (Ok (tok ++ w)) (pos + zlen w).
  Proof.
    induction w as [|x w IH]; intros [|n] tok pos rest Hw Hr HA Hn; try (now apply fuel_O in Hn); cbn [token_loop app] in *.
    - eapply r_cur; eauto. rewrite app_nil_r, zlen_nil, Z.add_0_r. unfold nonreg in Hr.
      destruct rest as [|y rest]; cbn [hd_error p_regular head_is] in *; [apply runs_ret|rewrite Hr; apply runs_ret].
    - inversion Hw as [|? ? [W1 W2] W3]; subst. eapply r_cur; eauto. cbn [hd_error p_regular]. rewrite W1, W2. cbn [orb negb].
      eapply r_next; eauto. destruct (At_cons _ _ _ _ HA) as [_ HA'].
      replace (tok ++ x :: w) with ((tok ++ [x]) ++ w) by (rewrite <- app_assoc; auto).
      eapply runs_eq; [eapply IH; eauto using fuel_cons|rewrite zlen_cons; lia].
  Qed.
  Lemma r_token w n pos rest : w <> [] -> Forall (fun c => is_ws c = false /\ is_delim c = false) w ->
    head_is is_digit w = false -> nonreg rest ->
    At f pos (w ++ rest) -> fuel f n pos ->
    runs f (token n : P _) pos (Ok w) (pos + zlen w).
  Proof.
    intros Hne Hw Hd Hr HA Hn. unfold token. eapply r_cur; eauto.
    destruct w as [|x w]; [congruence|]. inversion Hw as [|? ? [W1 W2] W3]; subst.
    cbn [app hd_error p_regular p_digit head_is] in *. rewrite W1, W2, Hd. cbn [orb negb andb].
    eapply (r_token_loop (x :: w) n []); eauto.
  Qed.
End R.

(** A text starts with at most one maximal separator. *)
Lemma Sep_unique s1 r1 s2 r2 : Sep s1 -> Sep s2 -> nosep r1 -> nosep r2 -> s1 ++ r1 = s2 ++ r2 -> s1 = s2 /\ r1 = r2.
Proof.
  intros S1 S2 N1 N2 E. set (f := s1 ++ r1).
  assert (At f 0 (s1 ++ r1)) as A1 by (split; [lia|reflexivity]).
  assert (At f 0 (s2 ++ r2)) as A2 by (rewrite <- E; exact A1).
  assert (exists n, fuel f n 0) as [n Hn].
  { exists (Z.to_nat (zlen f + 5)). pose proof (zlen_nonneg f). unfold fuel. lia. }
  pose proof (@r_sp unit f s1 n 0 r1 S1 N1 A1 Hn [] tt) as [e1 R1].
  pose proof (@r_sp unit f s2 n 0 r2 S2 N2 A2 Hn [] tt) as [e2 R2].
  rewrite R1 in R2. inversion R2 as [HL].
  assert (List.length s1 = List.length s2) as HLn by (unfold zlen in HL; lia).
  clear -E HLn. revert s2 E HLn. induction s1 as [|x s1 IH]; intros [|y s2] E HL; cbn in *; try discriminate; auto.
  inversion E; subst. destruct (IH s2) as [-> ->]; auto.
Qed.
