(** object() on the texts of S_Syntax.v (composite values). *)
From Coq Require Import String.
From Verif Require Import Prelude M_Prog M_Buffer S_Buffer L_Buffer L_Prog M_Parser L_ParserWP S_Syntax L_Syntax.
Local Open Scope Z_scope.
Local Open Scope prog_scope.

Scheme Ser_mut := Induction for Ser Sort Prop
  with SerElems_mut := Induction for SerElems Sort Prop
  with SerEntries_mut := Induction for SerEntries Sort Prop.
Combined Scheme Ser_combined from Ser_mut, SerElems_mut, SerEntries_mut.

(** First byte of a value's text. *)
Definition value_start (x : Z) : Prop :=
  is_ws x = false /\ (x =? 37) = false /\ (x =? 93) = false /\ (x =? 62) = false /\ (x =? 73) = false.
Lemma digit_start d : is_digit d = true -> value_start d.
Proof.
  intros H%is_digit_range. unfold value_start. repeat split; try lia.
  apply not_true_is_false. unfold is_ws, whitespaces. rewrite memZ_In. cbn [In]. lia.
Qed.
Lemma ser_start fl v s rest : Ser fl v s rest -> exists x s', s = x :: s' /\ value_start x.
Proof.
  destruct 1; try (eexists _, _; split; [reflexivity|repeat split; reflexivity]).
  - destruct H as [ds Hne Hd|ds Hne Hd|ds Hne Hd]; try (eexists _, _; split; [reflexivity|repeat split; reflexivity]).
    destruct (head_dig ds [] Hne Hd) as (d & r & -> & Hx & _). exists d, r. split; auto using digit_start.
  - destruct H as [sg ip fp Hs Hi Hfp Hne|ip fp Hi Hfp Hne Hc|ip fp Hi Hfp Hne Hc]; try (eexists _, _; split; [reflexivity|repeat split; reflexivity]).
    destruct Hs as [->| ->]; [|eexists _, _; split; [reflexivity|repeat split; reflexivity]].
    destruct Hi as [|d l Hd _]; cbn [app]; (eexists _, _; split; [reflexivity|]); auto using digit_start. repeat split; reflexivity.
  - destruct (head_dig ds1 [] H0 H1) as (d & r & -> & Hx & _). eexists d, _. split; [reflexivity|auto using digit_start].
Qed.
Lemma start_nosep x l : value_start x -> nosep (x :: l).
Proof. intros (H1 & H2 & _). unfold nosep. cbn [head_is]. now rewrite H1, H2. Qed.
Lemma ser_nosep fl v s rest r : Ser fl v s rest -> nosep (s ++ r).
Proof. intros H. destruct (ser_start _ _ _ _ H) as (x & s' & -> & Hx). now apply start_nosep. Qed.
Lemma elems_nosep fl vs s rest r : SerElems fl vs s rest -> nosep (s ++ 93 :: r).
Proof. destruct 1 as [|v s sep vs ss rest Hv]; [reflexivity|]. rewrite <- app_assoc. eapply ser_nosep; eauto. Qed.
Lemma entries_nosep fl es s rest r : SerEntries fl es s rest -> nosep (s ++ 62 :: r).
Proof. destruct 1; reflexivity. Qed.

Section O.
  Context {U : Type}.
  Variable f : list Z.
  Variable fix_len : dict -> prog U dict.
  Notation P := (prog U).

  Ltac len := repeat match goal with
    | |- context [zlen (?a ++ ?b)] => rewrite (zlen_app a b)
    | |- context [zlen (?a :: ?b)] => rewrite (zlen_cons a b)
    | |- context [zlen (@nil ?A)] => rewrite (@zlen_nil A) end.
  Ltac pos_facts := repeat match goal with
    | l : list Z |- _ => lazymatch goal with H : 0 <= zlen l |- _ => fail | _ => pose proof (zlen_nonneg l) end end.
  Ltac fu := unfold ofuel, fuel, fuel1 in *; pos_facts; try lia.

  Lemma r_sp0 n pos rest : nosep rest -> At f pos rest -> fuel f n pos -> runs f (sp n : P _) pos (Ok tt) pos.
  Proof. intros. eapply runs_eq; [apply (r_sp f [] n pos rest); auto; constructor|cbn; lia]. Qed.

  Lemma oc_range fl : 4 <= oc fl <= 8.
  Proof. destruct fl; cbn; lia. Qed.


  (** object() after the leading sp(): the same text as in M_Parser.v *)
  Definition obj_body (fl : flavor) (n : nat) (c : option Z) : P obj :=
        match c with
        | None => throw TypeErr                                    (* None in b'+-.' / b'nft' *)
        | Some x =>
            if (match fl with FContent => (x =? 110) || (x =? 102) || (x =? 116) | _ => false end) then
              (* content.py 58-66 *)
              t <- token n ;;
              ret (if eqlZ t (bs "null") then ONull
                   else if eqlZ t (bs "true") then OBool true
                   else if eqlZ t (bs "false") then OBool false
                   else OTok t)
            else if x =? 60 then
              (* 333-351 *)
              next ;;;
              c2 <- cur ;;
              if is_cur c2 60 then
                prev ;;;
                d <- dictionary fix_len fl n ;;
                sp n ;;;
                c3 <- cur ;;
                (if is_cur c3 115 then d' <- fix_len d ;; stream_body n d' else ret (ODict d))
              else if p_hex c2 || p_ws c2 || is_cur c2 62 then prev ;;; hexstring n
              else throw ParserExc
            else if x =? 91 then
              (* 541-550 *)
              next ;;; sp n ;;; l <- arr_loop fix_len fl n [] ;; next ;;; ret (OArr l)
            else if x =? 40 then string_ n
            else if x =? 110 then null_
            else if x =? 102 then false_
            else if x =? 116 then true_
            else if (x =? 43) || (x =? 45) || (x =? 46) then numeric n
            else if is_digit x then
              if refs_allowed fl then numeric_or_indirect_reference n else numeric n
            else if x =? 47 then nm <- name n ;; ret (OName nm)
            else
              match fl with
              | FBasic | FNoRef => throw ParserExc                  (* 668 *)
              | FInline => t <- token n ;; ret (OTok t)
              | FContent =>
                  t <- token n ;;
                  prevs (List.length t) ;;;
                  if eqlZ t (bs "BI") then inline_image fix_len n
                  else t2 <- token n ;; ret (OTok t2)
              end
        end.

  Lemma object_body fl n : object fix_len fl (S n) = (sp n ;;; c <- cur ;; obj_body fl n c).
  Proof. reflexivity. Qed.

  Lemma r_object_intro fl n pos lead x l r q :
    Sep lead -> nosep (x :: l) -> At f pos (lead ++ x :: l) -> fuel f n pos ->
    runs f (obj_body fl n (Some x)) (pos + zlen lead) r q -> runs f (object fix_len fl (S n)) pos r q.
  Proof.
    intros Hl Hx HA Hn H. rewrite object_body.
    eapply runs_bind; [apply (r_sp f lead n pos (x :: l)); auto|].
    apply At_app in HA. eapply r_cur; eauto.
  Qed.

  Lemma r_body_kw fl n w v x w' pos rest :
    (w = bs "null" /\ v = ONull) \/ (w = bs "true" /\ v = OBool true) \/ (w = bs "false" /\ v = OBool false) ->
    w = x :: w' -> (fl = FContent -> nonreg rest) -> At f pos (w ++ rest) -> fuel f n pos ->
    runs f (obj_body fl n (Some x)) pos (Ok v) (pos + zlen w).
  Proof.
    intros Hw Hx Hr HA Hn. unfold obj_body.
    destruct fl.
    3:{ assert (runs f (token n : P _) pos (Ok w) (pos + zlen w)) as HT.
      { apply (r_token f w n _ rest); auto.
        - rewrite Hx; discriminate.
        - destruct Hw as [[-> _]|[[-> _]|[-> _]]]; repeat constructor.
        - destruct Hw as [[-> _]|[[-> _]|[-> _]]]; reflexivity. }
      destruct Hw as [[-> ->]|[[-> ->]|[-> ->]]]; inversion Hx; subst x;
        (eapply runs_bind; [exact HT|]); apply runs_ret. }
    all: destruct Hw as [[-> ->]|[[-> ->]|[-> ->]]]; inversion Hx; subst x;
      match goal with |- runs _ _ _ (Ok ?v) (_ + zlen ?w) => apply (r_keyword f w v pos rest); exact HA end.
  Qed.

  Lemma digit_not d : is_digit d = true ->
    (d =? 60) = false /\ (d =? 91) = false /\ (d =? 40) = false /\ (d =? 110) = false /\ (d =? 102) = false /\
    (d =? 116) = false /\ (d =? 43) = false /\ (d =? 45) = false /\ (d =? 46) = false.
  Proof. intros H%is_digit_range. repeat split; lia. Qed.

  Lemma body_digit fl n d : is_digit d = true ->
    obj_body fl n (Some d) = if refs_allowed fl then numeric_or_indirect_reference n else numeric n.
  Proof.
    intros H. destruct (digit_not d H) as (E1 & E2 & E3 & E4 & E5 & E6 & E7 & E8 & E9).
    unfold obj_body. rewrite E1, E2, E3, E4, E5, E6, E7, E8, E9, H. destruct fl; reflexivity.
  Qed.
  Lemma body_sign fl n d : d = 43 \/ d = 45 \/ d = 46 -> obj_body fl n (Some d) = numeric n.
  Proof. intros [->|[->| ->]]; destruct fl; reflexivity. Qed.

  Lemma r_body_int fl n z x t pos rest : IntText z (x :: t) -> int_end rest ->
    (refs_allowed fl = true -> is_digit x = true -> NotRefTail rest) ->
    At f pos (x :: t ++ rest) -> fuel f n pos ->
    runs f (obj_body fl n (Some x)) pos (Ok (OInt z)) (pos + zlen (x :: t)).
  Proof.
    intros HI Hr Hnr HA Hn.
    assert (runs f (numeric n : P _) pos (Ok (OInt z)) (pos + zlen (x :: t))) as RN
      by (eapply r_numeric_int; eauto).
    destruct (is_digit x) eqn:Ed.
    - rewrite body_digit by auto. destruct (refs_allowed fl) eqn:Er; auto.
      inversion HI as [ds Hne Hd E1 E2|ds Hne Hd E1 E2|ds Hne Hd E1 E2]; subst.
      + eapply r_numref_int; eauto.
      + discriminate.
      + discriminate.
    - rewrite body_sign; auto. inversion HI as [ds Hne Hd E1 E2|ds Hne Hd E1 E2|ds Hne Hd E1 E2]; subst; auto.
      inversion Hd; congruence.
  Qed.

  (** a real may start with a digit: the reference lookahead fails at the point *)
  Lemma r_ref_fail_real n v t pos rest : RealText v t -> real_end rest ->
    At f pos (t ++ rest) -> fuel f n pos ->
    runs f (indirect_reference n : P _) pos (Err ParserExc) (pos + zlen t).
  Proof.
    intros HR Hr HA Hn. unfold indirect_reference, non_negative_int at 1.
    eapply runs_bind_err. eapply runs_bind; [eapply r_numeric_real; eauto|].
    destruct (real_not_int _ _ HR) as (a & b & c & ->). apply runs_throw.
  Qed.

  Lemma r_body_real fl n v x t pos rest : RealText v (x :: t) -> real_end rest ->
    At f pos (x :: t ++ rest) -> fuel f n pos ->
    runs f (obj_body fl n (Some x)) pos (Ok v) (pos + zlen (x :: t)).
  Proof.
    intros HR Hr HA Hn.
    assert (runs f (numeric n : P _) pos (Ok v) (pos + zlen (x :: t))) as RN
      by (eapply r_numeric_real; eauto).
    destruct (is_digit x) eqn:Ed.
    - rewrite body_digit by auto. destruct (refs_allowed fl) eqn:Er; auto.
      unfold numeric_or_indirect_reference.
      eapply runs_try_err; [eapply (r_ref_fail_real n v (x :: t)); eauto|reflexivity|exact RN|].
      intros; eapply above_ref; eauto.
    - rewrite body_sign; auto.
      inversion HR as [sg ip fp Hs Hi Hfp Hne|ip fp Hi Hfp Hne Hc|ip fp Hi Hfp Hne Hc]; subst; auto.
      destruct Hs as [->| ->]; cbn [app] in *; [|match goal with H : _ :: _ = _ :: _ |- _ => inversion H; auto end].
      destruct Hi as [|d l Hd _]; cbn [app] in *; match goal with H : _ :: _ = _ :: _ |- _ => inversion H; subst; auto end.
      congruence.
  Qed.

  Lemma r_body_name fl n cs t pos rest : NameText cs t -> nonreg rest ->
    At f pos (47 :: t ++ rest) -> fuel f n pos ->
    runs f (obj_body fl n (Some 47)) pos (Ok (OName cs)) (pos + 1 + zlen t).
  Proof.
    intros. assert (obj_body fl n (Some 47) = (nm <- name n ;; ret (OName nm))) as -> by (destruct fl; reflexivity).
    eapply runs_bind; [eapply r_name; eauto|apply runs_ret].
  Qed.

  Lemma r_body_str fl n v t pos rest : StrText v t ->
    At f pos (40 :: t ++ 41 :: rest) -> fuel f n pos ->
    runs f (obj_body fl n (Some 40)) pos (Ok (OStr v)) (pos + zlen t + 2).
  Proof.
    intros. assert (obj_body fl n (Some 40) = string_ n) as -> by (destruct fl; reflexivity).
    eapply r_string; eauto.
  Qed.

  Lemma body_lt fl n : obj_body fl n (Some 60) =
    (next ;;; c2 <- cur ;;
     if is_cur c2 60 then
       prev ;;; d <- dictionary fix_len fl n ;; sp n ;;; c3 <- cur ;;
       (if is_cur c3 115 then d' <- fix_len d ;; stream_body n d' else ret (ODict d))
     else if p_hex c2 || p_ws c2 || is_cur c2 62 then prev ;;; hexstring n
     else throw ParserExc).
  Proof. destruct fl; reflexivity. Qed.

  Lemma hex_head ds s0 t rest : Sep s0 -> head_is (fun c => c =? 37) s0 = false -> HexBody ds t ->
    is_cur (hd_error (s0 ++ t ++ 62 :: rest)) 60 = false /\
    p_hex (hd_error (s0 ++ t ++ 62 :: rest)) || p_ws (hd_error (s0 ++ t ++ 62 :: rest)) || is_cur (hd_error (s0 ++ t ++ 62 :: rest)) 62 = true.
  Proof.
    intros Hs Hh Ht. destruct Hs as [|c s Hc Hs|]; [|cbn [app hd_error is_cur p_hex p_ws] in *|discriminate].
    - destruct Ht as [|d h s ds t Hd]; cbn [app hd_error is_cur p_hex p_ws]; [auto|].
      unfold is_hex. rewrite Hd. split; auto. destruct (hexval_nows _ _ Hd) as (_ & _ & Hdl).
      destruct (Z.eqb_spec d 60); auto. subst; discriminate.
    - rewrite Hc. split; [|now rewrite orb_true_r]. destruct (Z.eqb_spec c 60); auto. subst; discriminate.
  Qed.

  Lemma r_body_hex fl n ds s0 t pos rest : Sep s0 -> head_is (fun c => c =? 37) s0 = false -> HexBody ds t ->
    At f pos (60 :: s0 ++ t ++ 62 :: rest) -> fuel f n pos ->
    runs f (obj_body fl n (Some 60)) pos (Ok (OHex (map upper (even_pad ds)))) (pos + 2 + zlen s0 + zlen t).
  Proof.
    intros Hs Hh Ht HA Hn. rewrite body_lt. eapply r_next; eauto.
    destruct (At_cons _ _ _ _ HA) as [_ HA']. eapply r_cur; eauto.
    destruct (hex_head ds s0 t rest Hs Hh Ht) as [-> ->].
    apply r_prev. intros _. replace (pos + 1 - 1) with pos by lia. eapply r_hexstring; eauto.
  Qed.

  Lemma body_arr fl n : obj_body fl n (Some 91) =
    (next ;;; sp n ;;; l <- arr_loop fix_len fl n [] ;; next ;;; ret (OArr l)).
  Proof. destruct fl; reflexivity. Qed.

  Definition P_ser fl v s rest := forall n pos lead sep,
       Sep lead -> tail_ok v sep rest ->
       At f pos (lead ++ s ++ rest) -> ofuel f n pos (oc fl) ->
       runs f (object fix_len fl n) pos (Ok v) (pos + zlen lead + zlen s + zlen (trailing v sep)).
  Definition P_elems fl vs s rest := forall n acc pos tl,
       rest = 93 :: tl -> At f pos (s ++ rest) -> ofuel f n pos (oc fl + 1) ->
       runs f (arr_loop fix_len fl n acc) pos (Ok (acc ++ vs)) (pos + zlen s).
  Definition P_entries fl es s rest := forall n acc pos tl,
       rest = 62 :: 62 :: tl -> At f pos (s ++ rest) -> ofuel f n pos (oc fl + 1) ->
       runs f (dict_loop fix_len fl n acc) pos
         (Ok (fold_left (fun d kv => dset d (fst kv) (snd kv)) es acc)) (pos + zlen s).

  Lemma r_ser fl :
    (forall v s rest, Ser fl v s rest -> P_ser fl v s rest) /\
    (forall vs s rest, SerElems fl vs s rest -> P_elems fl vs s rest) /\
    (forall es s rest, SerEntries fl es s rest -> P_entries fl es s rest).
  Proof.
    pose proof (oc_range fl) as Hoc.
    (* entry: every leaf value *)
    assert (forall v s rest, (exists x s', s = x :: s' /\ value_start x /\ trailing v [0] = [] /\
              forall n pos, At f pos (s ++ rest) -> fuel f n pos ->
                runs f (obj_body fl n (Some x)) pos (Ok v) (pos + zlen s)) -> P_ser fl v s rest) as Leaf.
    { intros v s rest (x & s' & -> & Hx & Htr & Hrun) n pos lead sep Hl Htl HA Hn.
      replace (trailing v sep) with (@nil Z) by (destruct v; auto; discriminate).
      destruct n as [|n]; [fu|].
      eapply (r_object_intro fl n pos lead x (s' ++ rest)); eauto using start_nosep; [fu|].
      eapply runs_eq; [apply Hrun; [apply At_app in HA; exact HA|]|rewrite (@zlen_nil Z); lia].
      apply At_app in HA. apply At_len in HA. cbn [app] in HA. rewrite zlen_cons in HA. fu. }
    apply (Ser_combined fl (fun v s rest _ => P_ser fl v s rest) (fun vs s rest _ => P_elems fl vs s rest)
             (fun es s rest _ => P_entries fl es s rest)).
    - intros rest Hr. apply Leaf. eexists _, _; split; [reflexivity|]. split; [repeat split|]. split; [reflexivity|].
      intros. eapply r_body_kw; eauto; auto. reflexivity.
    - intros rest Hr. apply Leaf. eexists _, _; split; [reflexivity|]. split; [repeat split|]. split; [reflexivity|].
      intros. eapply r_body_kw; eauto; auto. reflexivity.
    - intros rest Hr. apply Leaf. eexists _, _; split; [reflexivity|]. split; [repeat split|]. split; [reflexivity|].
      intros. eapply r_body_kw; eauto; auto. reflexivity.
    - intros z t rest HI Hr Hnr. apply Leaf.
      destruct (ser_start fl _ _ _ (Ser_int fl z t rest HI Hr Hnr)) as (x & s' & -> & Hx).
      exists x, s'. repeat split; auto; try apply Hx. intros. eapply r_body_int; eauto.
    - intros v t rest HR Hr. apply Leaf.
      destruct (ser_start fl _ _ _ (Ser_real fl v t rest HR Hr)) as (x & s' & -> & Hx).
      exists x, s'. repeat split; auto; try apply Hx.
      + destruct (real_not_int _ _ HR) as (a & b & c & ->). reflexivity.
      + intros. eapply r_body_real; eauto.
    - intros cs t rest HT Hr. apply Leaf. eexists _, _; split; [reflexivity|]. split; [repeat split|]. split; [reflexivity|].
      intros. eapply runs_eq; [eapply r_body_name; eauto|len; lia].
    - intros v t rest HT. apply Leaf. eexists _, _; split; [reflexivity|]. split; [repeat split|]. split; [reflexivity|].
      intros n pos HA Hn. cbn [app] in HA. rewrite <- app_assoc in HA. eapply runs_eq; [eapply r_body_str; eauto|len; lia].
    - intros ds s0 t rest Hs Hh HT. apply Leaf. eexists _, _; split; [reflexivity|]. split; [repeat split|]. split; [reflexivity|].
      intros n pos HA Hn. cbn [app] in HA. rewrite <- !app_assoc in HA. eapply runs_eq; [eapply r_body_hex; eauto|len; lia].
    - intros ds1 s1 ds2 s2 rest Hra H1 D1 H2 D2 S1 N1 S2. apply Leaf.
      destruct (head_dig ds1 [] H1 D1) as (d & r & -> & Hx & _).
      eexists d, _. split; [reflexivity|]. split; [auto using digit_start|]. split; [reflexivity|].
      intros n pos HA Hn. rewrite body_digit, Hra by auto.
      eapply runs_eq; [eapply (r_numref_ref f n (d :: r) s1 ds2 s2); eauto|].
      + cbn [app] in *. rewrite <- !app_assoc in HA. exact HA.
      + len. lia.
    - (* array *)
      intros vs s0 s rest Hs0 He IH n pos lead sep Hl Htl HA Hn.
      destruct n as [|n]; [fu|]. cbn [trailing].
      cbn [app] in HA. rewrite <- !app_assoc in HA. cbn [app] in HA.
      eapply (r_object_intro fl n pos lead 91); eauto; [reflexivity|fu|].
      rewrite body_arr. apply At_app in HA. eapply r_next; eauto.
      pose proof (At_len _ _ _ HA) as HL. rewrite zlen_cons, !zlen_app, zlen_cons in HL.
      destruct (At_cons _ _ _ _ HA) as [_ HA'].
      eapply runs_bind; [apply (r_sp f s0 n _ (s ++ 93 :: rest)); auto; [eapply elems_nosep; eauto|fu]|].
      apply At_app in HA'.
      eapply runs_bind; [eapply (IH n []); eauto; fu|].
      apply At_app in HA'. eapply r_next; eauto. cbn [app]. eapply runs_eq; [apply runs_ret|len; lia].
    - (* dictionary *)
      intros es s0 s sp' rest' Hs0 He IH Hsp' Hr' H115 n pos lead sep Hl (X & Hrest & Hs & HX) HA Hn.
      destruct (Sep_unique _ _ _ _ Hsp' Hs Hr' HX Hrest) as [-> ->].
      destruct n as [|n]; [fu|]. cbn [trailing].
      cbn [app] in HA. rewrite <- !app_assoc in HA. cbn [app] in HA.
      eapply (r_object_intro fl n pos lead 60); eauto; [reflexivity|fu|].
      rewrite body_lt. apply At_app in HA. eapply r_next; eauto.
      pose proof (At_len _ _ _ HA) as HL. rewrite !zlen_cons, !zlen_app, !zlen_cons, !zlen_app in HL.
      destruct (At_cons _ _ _ _ HA) as [_ HA1]. eapply r_cur; eauto.
      cbn [hd_error is_cur]. cbn [Z.eqb Pos.eqb].
      apply r_prev. intros _. replace (pos + zlen lead + 1 - 1) with (pos + zlen lead) by lia.
      set (p := pos + zlen lead) in *.
      destruct (At_cons _ _ _ _ HA1) as [_ HA2].
      assert (At f (p + 1 + 1 + zlen s0) (s ++ 62 :: 62 :: sep ++ X)) as HA3 by (apply At_app in HA2; exact HA2).
      pose proof HA3 as HA4. apply At_app in HA4. destruct (At_cons _ _ _ _ HA4) as [_ HA5]. destruct (At_cons _ _ _ _ HA5) as [_ HA6].
      eapply (runs_bind f _ _ _ _ (p + 1 + 1 + zlen s0 + zlen s + 1 + 1)).
      { destruct n as [|n]; [unfold p in *; fu|]. cbn [dictionary].
        eapply runs_bind; [apply (r_read f [60; 60] p (s0 ++ s ++ 62 :: 62 :: sep ++ X)); [reflexivity|exact HA]|].
        change (eqlZ [60; 60] (bs "<<")) with true. cbv beta iota.
        eapply runs_bind; [apply (r_sp f s0 n _ (s ++ 62 :: 62 :: sep ++ X)); auto; [eapply entries_nosep; eauto| |]|].
        - replace (p + zlen [60; 60]) with (p + 1 + 1) by (cbn; lia). exact HA2.
        - unfold p in *. change (zlen [60; 60]) with 2. fu.
        - replace (p + zlen [60; 60] + zlen s0) with (p + 1 + 1 + zlen s0) by (cbn; lia).
          eapply runs_bind; [eapply (IH n []); eauto; unfold p in *; fu|].
          eapply r_next; eauto. eapply r_next; eauto. cbn [hd_error is_cur]. cbn [Z.eqb Pos.eqb]. apply runs_ret. }
      eapply runs_bind; [apply (r_sp f sep n _ X); auto; unfold p in *; fu|].
      apply At_app in HA6. eapply r_cur; eauto.
      replace (is_cur (hd_error X) 115) with false by (destruct X; auto).
      unfold dict_of. eapply runs_eq; [apply runs_ret|unfold p; len; lia].
    - (* no element *)
      intros rest n acc pos tl Hrest HA Hn. destruct n as [|n]; [fu|]. cbn [arr_loop app] in *. subst rest.
      eapply r_cur; eauto. cbn [hd_error is_cur]. cbn [Z.eqb Pos.eqb]. rewrite app_nil_r. eapply runs_eq; [apply runs_ret|len; lia].
    - (* one more element *)
      intros v s sep vs ss rest Hv IHv Hsep Hss IHs n acc pos tl Hrest HA Hn.
      destruct n as [|n]; [fu|]. cbn [arr_loop].
      destruct (ser_start _ _ _ _ Hv) as (x & s' & Es & Hx).
      rewrite <- !app_assoc in HA.
      eapply r_cur; eauto. rewrite Es at 1. cbn [app hd_error is_cur].
      destruct Hx as (_ & _ & -> & _).
      pose proof (At_len _ _ _ HA) as HL. rewrite Es in HL. cbn [app] in HL. rewrite !zlen_cons in HL.
      assert (1 <= zlen s) by (rewrite Es, zlen_cons; fu).
      assert (nosep (ss ++ rest)) as HN by (subst rest; eapply elems_nosep; eauto).
      eapply runs_bind.
      { eapply (IHv n pos [] sep); eauto; [constructor|destruct v; cbn; eauto|]. unfold ofuel in *.
        pose proof (zlen_nonneg (s' ++ sep ++ ss ++ rest)). lia. }
      rewrite (@zlen_nil Z), Z.add_0_r.
      assert (At f (pos + zlen s) (sep ++ ss ++ rest)) as HA2 by (apply At_app in HA; exact HA).
      assert (At f (pos + zlen s + zlen sep) (ss ++ rest)) as HA3 by (apply At_app in HA2; exact HA2).
      pose proof (zlen_nonneg (s' ++ sep ++ ss ++ rest)).
      eapply (runs_bind f _ _ _ tt (pos + zlen s + zlen sep)).
      { destruct (trailing v sep) as [|y tr] eqn:Etr.
        - rewrite (@zlen_nil Z), Z.add_0_r. apply (r_sp f sep n _ (ss ++ rest)); auto. fu.
        - assert (trailing v sep = sep) as E by (destruct v; cbn in *; congruence).
          rewrite <- Etr, E. apply (r_sp0 n _ (ss ++ rest)); auto. fu. }
      replace (acc ++ v :: vs) with ((acc ++ [v]) ++ vs) by (rewrite <- app_assoc; auto).
      eapply runs_eq; [eapply IHs; eauto; fu|len; lia].
    - (* no entry *)
      intros rest n acc pos tl Hrest HA Hn. destruct n as [|n]; [fu|]. cbn [dict_loop app] in *. subst rest.
      eapply r_cur; eauto. cbn [hd_error is_cur fold_left]. cbn [Z.eqb Pos.eqb]. eapply runs_eq; [apply runs_ret|len; lia].
    - (* one more entry *)
      intros k kt sep1 v s sep2 es ss rest Hk Hnr Hs1 Hv IHv Hs2 Hss IHs n acc pos tl Hrest HA Hn.
      destruct n as [|n]; [fu|]. cbn [dict_loop].
      cbn [app] in HA. rewrite <- !app_assoc in HA.
      eapply r_cur; eauto. cbn [hd_error is_cur]. cbn [Z.eqb Pos.eqb].
      destruct (ser_start _ _ _ _ Hv) as (x & s' & Es & Hx).
      pose proof (At_len _ _ _ HA) as HL. rewrite zlen_cons, !zlen_app in HL.
      assert (1 <= zlen s) by (rewrite Es, zlen_cons; fu).
      assert (nosep (ss ++ rest)) as HN by (subst rest; eapply entries_nosep; eauto).
      eapply runs_bind.
      { apply (r_name f k kt n pos (sep1 ++ s ++ sep2 ++ ss ++ rest)); auto; [|fu].
        rewrite Es in *. unfold nonreg in *. destruct sep1; exact Hnr. }
      destruct (At_cons _ _ _ _ HA) as [_ HA1]. apply At_app in HA1.
      eapply runs_bind; [apply (r_sp f sep1 n _ (s ++ sep2 ++ ss ++ rest)); auto; [eapply ser_nosep; eauto|fu]|].
      apply At_app in HA1. fu.
      set (p := pos + 1 + zlen kt + zlen sep1) in *.
      eapply runs_bind.
      { eapply (IHv n p [] sep2); eauto; [constructor|destruct v; cbn; eauto|]. unfold p; fu. }
      rewrite (@zlen_nil Z), Z.add_0_r.
      assert (At f (p + zlen s) (sep2 ++ ss ++ rest)) as HA2 by (apply At_app in HA1; exact HA1).
      assert (At f (p + zlen s + zlen sep2) (ss ++ rest)) as HA3 by (apply At_app in HA2; exact HA2).
      eapply (runs_bind f _ _ _ tt (p + zlen s + zlen sep2)).
      { destruct (trailing v sep2) as [|y tr] eqn:Etr.
        - rewrite (@zlen_nil Z), Z.add_0_r. apply (r_sp f sep2 n _ (ss ++ rest)); auto. unfold p; fu.
        - assert (trailing v sep2 = sep2) as E by (destruct v; cbn in *; congruence).
          rewrite <- Etr, E. apply (r_sp0 n _ (ss ++ rest)); auto. unfold p; fu. }
      cbn [fold_left fst snd].
      eapply runs_eq; [eapply IHs; eauto; unfold p; fu|unfold p; len; lia].
  Qed.

  (** object() on any text of a value. *)
  Theorem r_object fl v s rest n pos lead sep :
    Ser fl v s rest -> Sep lead -> tail_ok v sep rest ->
    At f pos (lead ++ s ++ rest) -> ofuel f n pos (oc fl) ->
    runs f (object fix_len fl n) pos (Ok v) (pos + zlen lead + zlen s + zlen (trailing v sep)).
  Proof. intros H. apply (proj1 (r_ser fl) v s rest H). Qed.
End O.
