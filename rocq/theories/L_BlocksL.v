(** Lookups of objects on the real buffer (L_Blocks.v): wherever they go they read forward from there. *)
From Coq Require Import String.
From Verif Require Import Prelude M_Prog M_Buffer S_Buffer L_Buffer L_Prog M_Parser L_Blocks L_BlocksP L_BlocksD M_Filters M_Document.
Local Open Scope Z_scope.
Local Open Scope prog_scope.

Section L.
  Variable inflate : list Z -> option (list Z).
  Variable ccitt : list Z -> fparams -> res (list Z).
  Variable decrypt : Z -> Z -> obj -> res obj.
  Variables (D m : nat).
  Variables (f : list Z) (B : Z).
  Notation P := (prog rst).
  Notation gw := (L_Blocks.gw f B I).
  Notation jw := (L_Blocks.jw f B I).
  Notation any := (fun _ _ => True).

  Section IOBJ.
    Variable loc : Z -> Z -> P obj.
    Hypothesis j_loc : forall num gen n, jw (loc num gen) n any.
    Notation hook := (length_hook loc).
    Notation iobj := (reg_indirect inflate ccitt decrypt D m hook).
    Lemma g_length_hook lo hs d pos : lo <= pos -> gw lo hs (hook d) pos (ge pos 0).
    Proof.
      intros Hlo. unfold length_hook. destruct (dget d (bs "Length")) as [[| | | | | | | | | |num gen| |]|]; try solve [gs].
      eapply (gw_excursion f B I lo hs (loc num gen) (fun v => ret (dset d (bs "Length") v))); auto. intros a. gs.
    Qed.
    Lemma g_iobj lo hs pos : lo <= pos -> gw lo hs iobj pos (fun _ q => pos <= q /\ pos + 3 <= zlen f).
    Proof. intros. apply g_reg_indirect; auto. intros. now apply g_length_hook. Qed.
    Lemma j_iobj n : jw iobj n any.
    Proof. apply jw_gw. intros pos. eapply gw_conseq; [apply g_iobj; lia|]. cbv beta. intros a q [H _]. exact H. Qed.

    Lemma j_reg_get num gen n : jw (reg_get num gen) n any.
    Proof. unfold reg_get. apply jw_GetU. intros. now apply jw_ret. Qed.
    Lemma j_registered num gen n : jw (registered num gen) n any.
    Proof. unfold registered. apply jw_GetU. intros. now apply jw_ret. Qed.
    Lemma j_do_register num gen v n : jw (do_register inflate ccitt D num gen v) n any.
    Proof. apply jw_gw. intros pos. eapply gw_conseq; [apply g_do_register; lia|]. unfold ge. intros; lia. Qed.
    Lemma j_by_xref num gen : forall xs n, Forall xok xs -> jw (by_xref loc iobj xs num gen) n any.
    Proof.
      induction xs as [|x xs IH]; intros n Hx; cbn [by_xref]; [apply j_reg_get|].
      assert (forall n, jw (by_xref loc iobj xs num gen) n any) as IH' by (intros; apply IH; inversion Hx; auto). clear IH.
      set (co := match zget (x_comp x) num with
                 | Some e => if (e_gen e =? gen) && negb (e_num e =? num) then
                     loc (e_num e) (e_gen e) ;;; b <- registered num gen ;; (if b : bool then reg_get num gen else by_xref loc iobj xs num gen)
                   else by_xref loc iobj xs num gen
                 | None => by_xref loc iobj xs num gen
                 end).
      assert (forall n, jw co n any) as Hco.
      { intros n'. unfold co. destruct (zget (x_comp x) num) as [e|]; auto. destruct (_ && _); auto.
        eapply jw_bind; [apply j_loc|]. intros _ n2 _ _. eapply jw_bind; [apply j_registered|]. intros b n3 _ _. destruct b; [apply j_reg_get|auto]. }
      clearbody co. destruct (zget (x_inuse x) num) as [e|] eqn:Ee; auto. destruct (e_gen e =? gen); auto.
      assert (0 <= e_off e) as He by (inversion Hx as [|? ? H]; eapply H; eauto).
      eapply jw_bind with (R := any).
      { apply jw_catch; [|intros; now apply jw_ret]. apply jw_Reset; auto. change (jw (iobj ;;; ret tt) n any).
        eapply jw_bind; [apply j_iobj|]. intros. now apply jw_ret. }
      intros _ n2 _ _. eapply jw_bind; [apply j_registered|]. intros b n3 _ _. destruct b; [apply j_reg_get|auto].
    Qed.
    Lemma j_sp k n : jw (sp k : P unit) n any.
    Proof. apply jw_gw. intros pos. eapply gw_conseq; [apply g_sp; lia|]. unfold ge. intros; lia. Qed.
    Lemma j_body n : jw (body_element m iobj) n any.
    Proof.
      apply jw_gw. intros pos. eapply gw_conseq; [apply g_body_element; [|lia]|]; [|unfold ge; intros; lia].
      intros q Hq. eapply gw_conseq; [apply g_iobj; auto|]. cbv beta. intros ? ? [? ?]; auto.
    Qed.
    Lemma j_skip n : jw (skip_until_next m : P unit) n any.
    Proof. apply jw_gw. intros pos. eapply gw_conseq; [apply g_skip_until_next; lia|]. unfold ge. intros; lia. Qed.
    Definition hok (o : option nat) (n : nat) : Prop := match o with Some h => (h < n)%nat | None => True end.
    Lemma hok_mono o n n' : hok o n -> (n <= n')%nat -> hok o n'.
    Proof. unfold hok. destruct o; [lia|auto]. Qed.
    Lemma below_mono (l : list nat) n n' : Forall (fun h => (h < n)%nat) l -> (n <= n')%nat -> Forall (fun h => (h < n')%nat) l.
    Proof. intros H Hn. eapply Forall_impl; [|exact H]. cbv beta. intros; lia. Qed.
    Lemma j_bf_tasks : forall fu tasks deepest n, Forall (fun h => (h < n)%nat) tasks -> hok deepest n -> jw (bf_tasks m iobj fu tasks deepest) n hok.
    Proof.
      induction fu as [|fu IH]; intros tasks deepest n Ht Hd; cbn [bf_tasks]; [apply jw_throw|]. destruct tasks as [|h r].
      { apply jw_ret. intros. eapply hok_mono; eauto. }
      inversion Ht as [|? ? Hh Hr]; subst. apply jw_Restore; auto.
      match goal with |- L_Blocks.jw _ _ _ ?p _ _ => change p with
        (sp m ;;; ok <- catch (body_element m iobj ;;; ret true) is_bfr (fun _ => ret false) ;;
         (if ok : bool then bf_tasks m iobj fu r deepest else skip_until_next m ;;; h2 <- save ;; bf_tasks m iobj fu (h2 :: h :: r) (Some h2))) end.
      eapply jw_bind; [apply j_sp|]. intros _ n2 Hn2 _.
      eapply jw_bind with (R := any).
      { apply jw_catch; [|intros; now apply jw_ret]. eapply jw_bind; [apply j_body|]. intros. now apply jw_ret. }
      intros b n3 Hn3 _. destruct b.
      { apply IH; [eapply below_mono; eauto; lia|eapply hok_mono; eauto; lia]. }
      eapply jw_bind; [apply j_skip|]. intros _ n4 Hn4 _.
      eapply jw_bind with (R := fun h n => (h < n)%nat).
      { unfold save. apply jw_Save. intros h'. apply jw_ret. intros; lia. }
      intros h2 n5 Hn5 Hh2. apply IH; [|exact Hh2]. constructor; [auto|]. eapply below_mono; [exact Ht|lia].
    Qed.
    Lemma j_next fu n : jw (next_brute_force m iobj fu) n any.
    Proof.
      unfold next_brute_force. apply jw_GetU. intros u n2 Hn2 [Hu _]. change (r_bf u) with (r_bf u) in *.
      destruct (r_bf u) as [h0|]; [|apply jw_throw].
      match goal with |- L_Blocks.jw _ _ _ ?p _ _ => change p with
        (d <- bf_tasks m iobj fu [h0] None ;; h <- match d with Some h => ret h | None => save end ;;
         u' <- getu ;; setu (mkR (r_objs u') (r_xrefs u') (Some h) (r_stack u'))) end.
      eapply jw_bind; [apply j_bf_tasks; [constructor; auto|exact Logic.I]|]. intros d n3 Hn3 Hd.
      eapply jw_bind with (R := fun h n => (h < n)%nat).
      { destruct d as [h|]; [apply jw_ret; cbn [hok] in Hd; intros; lia|]. unfold save. apply jw_Save. intros h'. apply jw_ret. intros; lia. }
      intros h n4 Hn4 Hh. apply jw_GetU. intros u' n5 Hn5 [Hu1 Hu2]. apply jw_SetU; [|now apply jw_ret].
      intros n6 Hn6. split; cbn [r_bf r_xrefs]; [lia|exact Hu2].
    Qed.
    Lemma j_push num gen n : jw (push num gen) n any.
    Proof. unfold push. apply jw_GetU. intros u n2 Hn2 Hu. apply jw_SetU; [|now apply jw_ret]. intros n3 Hn3. exact (Ih_mono _ _ _ Hu Hn3). Qed.
    Lemma j_pop n : jw pop n any.
    Proof. unfold pop. apply jw_GetU. intros u n2 Hn2 Hu. apply jw_SetU; [|now apply jw_ret]. intros n3 Hn3. exact (Ih_mono _ _ _ Hu Hn3). Qed.
    Lemma j_brute num gen : forall fu n, jw (brute_force inflate ccitt D m iobj fu num gen) n any.
    Proof.
      induction fu as [|fu IH]; intros n; cbn [brute_force]; [apply jw_throw|]. apply jw_GetU. intros u n2 _ _.
      match goal with |- L_Blocks.jw _ _ _ ?p _ _ => change p with
        (if is_registered (r_objs u) num gen then ret tt else if on_stack (r_stack u) num gen then throw BruteForceRec
         else push num gen ;;;
            go <- catch (catch (next_brute_force m iobj fu ;;; ret true) is_parser_exc (fun _ => do_register inflate ccitt D num gen ONull ;;; ret false))
                        (fun _ => true) (fun e => pop ;;; throw e) ;;
            pop ;;; if go : bool then brute_force inflate ccitt D m iobj fu num gen else ret tt) end.
      destruct (is_registered _ _ _); [now apply jw_ret|]. destruct (on_stack _ _ _); [apply jw_throw|].
      eapply jw_bind; [apply j_push|]. intros _ n3 _ _.
      eapply jw_bind with (R := any).
      { apply jw_catch.
        - apply jw_catch.
          + eapply jw_bind; [apply j_next|]. intros. now apply jw_ret.
          + intros e _. eapply jw_bind; [apply j_do_register|]. intros. now apply jw_ret.
        - intros e _. eapply jw_bind; [apply j_pop|]. intros. apply jw_throw. }
      intros go n4 _ _. eapply jw_bind; [apply j_pop|]. intros _ n5 _ _. destruct go; [apply IH|now apply jw_ret].
    Qed.
  End IOBJ.

  Notation locate := (locate_object inflate ccitt decrypt D m).
  Lemma j_locate : forall k num gen n, jw (locate k num gen) n any.
  Proof.
    induction k as [|k IH]; intros num gen n; cbn [locate_object]; [apply jw_throw|]. cbv zeta. apply jw_GetU. intros u n2 Hn2 [_ Hx].
    match goal with |- L_Blocks.jw _ _ _ ?p _ _ => change p with
      (if truthy (match rget (r_objs u) num gen with Some v => v | None => ONull end) then ret (match rget (r_objs u) num gen with Some v => v | None => ONull end)
       else match r_xrefs u with
            | None => throw AttributeErr
            | Some xs => v <- by_xref (locate k) (reg_indirect inflate ccitt decrypt D m (length_hook (locate k))) xs num gen ;;
                if truthy v then ret v
                else brute_force inflate ccitt D m (reg_indirect inflate ccitt decrypt D m (length_hook (locate k))) m num gen ;;; reg_get num gen
            end) end.
    destruct (truthy _); [now apply jw_ret|]. destruct (r_xrefs u) as [xs|]; [|apply jw_throw].
    eapply jw_bind; [apply j_by_xref; auto|]. intros v n3 _ _. destruct (truthy v); [now apply jw_ret|].
    eapply jw_bind; [apply j_brute; auto|]. intros _ n4 _ _. apply j_reg_get.
  Qed.
End L.
