(** text_content can be parsed back: C41. *)
From Coq Require Import String.
From Verif Require Import Prelude M_Prog M_Parser S_Syntax S_Stream L_Buffer L_Prog L_ParserWP L_Syntax L_Syntax2 S_Print L_Print
  L_Stream L_Content P_Content M_Text M_Objects P_Objects M_Filters M_Viewer S_Viewer L_Viewer P_GState P_Text P_ParserTotal.
Local Open Scope Z_scope.
Local Open Scope vm_scope.

(** Operands that text_content writes in PDF syntax: null, booleans, numbers (reals that str() writes without
    an exponent), names of regular characters other than #, arrays of these, and dictionaries of these under
    distinct keys of regular characters other than #.  Strings are not among them: see C41_strings_refuted. *)
Definition plain (s : list Z) : Prop := Forall (fun c => is_ws c = false /\ is_delim c = false /\ c <> 35) s.
Fixpoint writable (real_str : bool -> Z -> Z -> list Z) (o : obj) : Prop :=
  match o with
  | ONull | OBool _ | OInt _ => True
  | OReal n c e => e < 0 /\ 0 <= c /\ (n = true -> 0 < c < 10 ^ 28) /\ real_str n c e = real_text n c e
  | OName s => plain s
  | OArr l => fold_right (fun x P => writable real_str x /\ P) True l
  | ODict d => NoDup (map fst d) /\ fold_right (fun x P => (plain (fst x) /\ writable real_str (snd x)) /\ P) True d
  | _ => False
  end.
Definition is_dict (o : obj) : bool := match o with ODict _ => true | _ => false end.
(** Operators taken up: PDF operators (no inline images, no names that are handlers of the viewer itself).
    A dictionary directly before an operator that starts with "s" is excluded (the parser expects "stream"
    there). *)
Definition echoable real_str (i : citem) : Prop :=
  match i with
  | CImage _ _ => False
  | COp name args =>
      OpName name /\ name <> bs "handler" /\
      if eqlZ name (bs "Tj") || eqlZ name (bs "'") then True
      else if eqlZ name (bs "TJ") then exists l, args = [OArr l] /\ Forall (fun x => is_string x = true \/ writable real_str x) l
      else Forall (writable real_str) args /\ (is_dict (last args ONull) = true -> head_is (fun c => c =? 115) name = false)
  end.

Definition ends (rest : list Z) : Prop := head_is (fun c => (c =? 32) || (c =? 93) || (c =? 62)) rest = true.
Lemma ends_facts rest : ends rest -> int_end rest /\ real_end rest /\ nonreg rest.
Proof.
  unfold ends, int_end, real_end, nonreg. destruct rest as [|c r]; [discriminate|]. cbn [head_is]. intros H.
  apply orb_true_iff in H. rewrite orb_true_iff in H. destruct H as [[H|H]|H]; apply Z.eqb_eq in H; subst c; repeat split; reflexivity.
Qed.
(** what may follow a dictionary *)
Definition nostream (rest : list Z) : Prop := exists sp X, rest = sp ++ X /\ Sep sp /\ nosep X /\ head_is (fun c => c =? 115) X = false.
Definition W (o : obj) (t : list Z) : Prop := forall rest, ends rest -> (is_dict o = true -> nostream rest) -> Ser FContent o t rest.

Lemma digit_not_s d : is_digit d = true -> (d =? 115) = false.
Proof. intros H%is_digit_range. lia. Qed.
Lemma ser_not_s fl v s rest : Ser fl v s rest -> exists x s', s = x :: s' /\ (x =? 115) = false.
Proof.
  destruct 1; try (eexists _, _; split; [reflexivity|reflexivity]).
  - destruct H as [ds Hne Hd|ds Hne Hd|ds Hne Hd]; try (eexists _, _; split; [reflexivity|reflexivity]).
    destruct (head_dig ds [] Hne Hd) as (d & r & -> & Hx & _). exists d, r. split; auto using digit_not_s.
  - destruct H as [sg ip fp Hs Hi Hfp Hne|ip fp Hi Hfp Hne Hc|ip fp Hi Hfp Hne Hc]; try (eexists _, _; split; [reflexivity|reflexivity]).
    destruct Hs as [->| ->]; [|eexists _, _; split; [reflexivity|reflexivity]].
    destruct Hi as [|d l Hd _]; cbn [app]; (eexists _, _; split; [reflexivity|]); auto using digit_not_s.
  - destruct (head_dig ds1 [] H0 H1) as (d & r & -> & Hx & _). eexists d, _. split; [reflexivity|auto using digit_not_s].
Qed.
Lemma nostream_93 r : nostream (93 :: r).
Proof. exists [], (93 :: r). repeat split; constructor. Qed.
Lemma nostream_62 r : nostream (62 :: r).
Proof. exists [], (62 :: r). repeat split; constructor. Qed.
Lemma nostream_47 r : nostream (32 :: 47 :: r).
Proof. exists [32], (47 :: r). split; [reflexivity|]. split; [apply sep_sp1|]. split; reflexivity. Qed.
Lemma nostream_W o t r : W o t -> nostream (32 :: t ++ r).
Proof.
  intros H. specialize (H [93] eq_refl (fun _ => nostream_93 [])). pose proof (ser_nosep _ _ _ _ r H) as N.
  destruct (ser_not_s _ _ _ _ H) as (x & s' & -> & E).
  exists [32], ((x :: s') ++ r). split; [reflexivity|]. split; [apply sep_sp1|]. split; [exact N|exact E].
Qed.

Lemma joined os ts : Forall2 W os ts -> forall sep rest, Sep sep -> (os = [] -> sep = []) -> ends (sep ++ rest) ->
  (is_dict (last os ONull) = true -> nostream (sep ++ rest)) ->
  SerElems FContent os (join [32] ts ++ sep) rest.
Proof.
  induction 1 as [|o t os ts Ho Hr IH]; intros sep rest Hs He Hen Hns.
  - rewrite He by reflexivity. constructor.
  - destruct Hr as [|o2 t2 os ts Ho2 Hr].
    + cbn [join]. rewrite <- (app_nil_r sep) at 1. apply SE_cons; [|exact Hs|constructor]. apply Ho; [exact Hen|exact Hns].
    + change (join [32] (t :: t2 :: ts)) with (t ++ [32] ++ join [32] (t2 :: ts)). rewrite <- !app_assoc.
      apply SE_cons; [apply Ho; [reflexivity|]|apply sep_sp1|].
      * intros _. assert (exists r, (join [32] (t2 :: ts) ++ sep) ++ rest = t2 ++ r) as (r & Er).
        { destruct ts; [exists (sep ++ rest)|]; cbn [join]; rewrite <- !app_assoc; eauto. }
        cbn [app]. rewrite Er. eapply nostream_W; eauto.
      * apply IH; auto. discriminate.
Qed.
Lemma W_arr os ts : Forall2 W os ts -> W (OArr os) (91 :: join [32] ts ++ [93]).
Proof.
  intros H rest _ _. apply (Ser_arr FContent os [] (join [32] ts) rest (Sep_nil)).
  rewrite <- (app_nil_r (join [32] ts)). apply joined; auto. constructor. reflexivity. intros _. apply nostream_93.
Qed.
Lemma plain_name s : plain s -> NameText s s.
Proof. induction 1 as [|c s (A & B & C) _ IH]; constructor; auto. Qed.
Definition entry_text (k t : list Z) : list Z := 47 :: k ++ 32 :: t.
Lemma joined_entries d ts : Forall2 (fun kv t => plain (fst kv) /\ W (snd kv) t) d ts -> forall r,
  SerEntries FContent d (join [32] (map (fun p => entry_text (fst (fst p)) (snd p)) (combine d ts))) (62 :: r).
Proof.
  induction 1 as [|[k v] t d ts (Hk & Hv) Hr IH]; intros r.
  - constructor.
  - cbn [fst snd] in Hk, Hv. specialize (IH r). destruct Hr as [|[k2 v2] t2 d ts (Hk2 & Hv2) Hr].
    + cbn [combine map join fst snd]. unfold entry_text.
      replace (47 :: k ++ 32 :: t) with (47 :: k ++ [32] ++ t ++ [] ++ []) by now rewrite !app_nil_r.
      apply SN_cons; [now apply plain_name|reflexivity|apply sep_sp1| |constructor|constructor].
      apply Hv; [reflexivity|]. intros _. apply nostream_62.
    + cbn [combine map fst snd] in *. set (T := map _ (combine d ts)) in *.
      change (join [32] (entry_text k t :: entry_text k2 t2 :: T)) with (entry_text k t ++ [32] ++ join [32] (entry_text k2 t2 :: T)).
      unfold entry_text at 1. replace ((47 :: k ++ 32 :: t) ++ [32] ++ join [32] (entry_text k2 t2 :: T))
        with (47 :: k ++ [32] ++ t ++ [32] ++ join [32] (entry_text k2 t2 :: T)) by (cbn [app]; rewrite <- app_assoc; reflexivity).
      apply SN_cons; [now apply plain_name|reflexivity|apply sep_sp1| |apply sep_sp1|exact IH].
      apply Hv; [reflexivity|]. intros _.
      assert (exists q, join [32] (entry_text k2 t2 :: T) = 47 :: q) as (q & ->) by (destruct T; cbn [join]; unfold entry_text; cbn [app]; eauto).
      apply nostream_47.
Qed.
Lemma W_dict d ts : NoDup (map fst d) -> Forall2 (fun kv t => plain (fst kv) /\ W (snd kv) t) d ts ->
  W (ODict d) (60 :: 60 :: join [32] (map (fun p => entry_text (fst (fst p)) (snd p)) (combine d ts)) ++ [62; 62]).
Proof.
  intros Hd H rest _ Hns. destruct (Hns eq_refl) as (sp & X & -> & Hs & Hn & Hx).
  rewrite <- (dict_of_nodup d Hd) at 1. apply (Ser_dict FContent d [] _ sp X); auto. constructor.
  apply joined_entries. exact H.
Qed.
Lemma W_str t : W (OStr t) (40 :: pdf_escape_string t ++ [41]).
Proof. intros rest _ _. rewrite str_text_escape. apply Ser_str, str_text_ok. Qed.

Section E.
  Variable real_str : bool -> Z -> Z -> list Z.
  Variable show : option bv -> obj -> res (list Z).
  Lemma to_str_arr l : to_str real_str (OArr l) = rbind (mapM (to_str real_str) l) (fun ss => Ok (91 :: join [32] ss ++ [93])).
  Proof.
    cbn [to_str]. f_equal. induction l as [|x l IH]; [reflexivity|]. cbn [mapM].
    destruct (to_str real_str x); [|reflexivity]. cbn [rbind]. rewrite IH. reflexivity.
  Qed.
  Lemma to_str_dict d : to_str real_str (ODict d) =
    rbind (mapM (fun p => rbind (to_str real_str (snd p)) (fun a => Ok (entry_text (fst p) a))) d) (fun ss => Ok (60 :: 60 :: join [32] ss ++ [62; 62])).
  Proof.
    cbn [to_str]. f_equal. induction d as [|[k x] l IH]; [reflexivity|]. cbn [mapM fst snd].
    destruct (to_str real_str x); [|reflexivity]. cbn [rbind]. rewrite IH. reflexivity.
  Qed.
  Lemma writable_str o : writable real_str o -> exists t, to_str real_str o = Ok t /\ W o t.
  Proof.
    induction o as [| |z|n c e|s|s|s|l IH|d IH| | | |] using obj_ind2; cbn [writable]; intros HW; try contradiction.
    - exists (bs "null"). split; [reflexivity|]. intros r Hr _. apply ends_facts in Hr. constructor. tauto.
    - exists (if b then bs "true" else bs "false"). split; [reflexivity|]. intros r Hr _. apply ends_facts in Hr. destruct b; constructor; tauto.
    - exists (int_text z). split; [reflexivity|]. intros r Hr _. apply ends_facts in Hr. constructor; [apply int_text_ok|tauto|discriminate].
    - destruct HW as (A & B & C & D). exists (real_text n c e). split; [cbn [to_str]; congruence|]. intros r Hr _. apply ends_facts in Hr.
      apply Ser_real; [apply real_text_ok; auto|tauto].
    - exists (47 :: s). split; [reflexivity|]. intros r Hr _. apply ends_facts in Hr. apply Ser_name; [now apply plain_name|tauto].
    - assert (exists ts, mapM (to_str real_str) l = Ok ts /\ Forall2 W l ts) as (ts & E & F).
      { revert HW. induction IH as [|x l Hx _ IHl]; cbn [fold_right]; intros HW.
        - exists []. split; [reflexivity|constructor].
        - destruct HW as [H1 H2]. destruct (Hx H1) as (t & E1 & W1). destruct (IHl H2) as (ts & E2 & F2).
          exists (t :: ts). cbn [mapM]. rewrite E1. cbn [rbind]. rewrite E2. cbn [rbind]. split; [reflexivity|constructor; auto]. }
      exists (91 :: join [32] ts ++ [93]). split; [|now apply W_arr].
      rewrite to_str_arr, E. reflexivity.
    - destruct HW as [Hd HW].
      assert (exists ts, mapM (fun p => rbind (to_str real_str (snd p)) (fun a => Ok (entry_text (fst p) a))) d =
                         Ok (map (fun p => entry_text (fst (fst p)) (snd p)) (combine d ts)) /\
                         Forall2 (fun kv t => plain (fst kv) /\ W (snd kv) t) d ts) as (ts & E & F).
      { revert HW. clear Hd. induction IH as [|x l Hx _ IHl]; cbn [fold_right]; intros HW.
        - exists []. split; [reflexivity|constructor].
        - destruct HW as [[H0 H1] H2]. destruct (Hx H1) as (t & E1 & W1). destruct (IHl H2) as (ts & E2 & F2).
          exists (t :: ts). cbn [mapM]. rewrite E1. cbn [rbind]. rewrite E2. cbn [rbind combine map fst snd]. split; [reflexivity|constructor; auto]. }
      rewrite to_str_dict, E. cbn [rbind]. eexists. split; [reflexivity|]. now apply W_dict.
  Qed.
  Lemma writable_strs l : Forall (writable real_str) l -> exists ts, mapM (to_str real_str) l = Ok ts /\ Forall2 W l ts.
  Proof.
    induction 1 as [|x l Hx _ (ts & E & F)].
    - exists []. split; [reflexivity|constructor].
    - destruct (writable_str x Hx) as (t & E1 & W1). exists (t :: ts). cbn [mapM]. rewrite E1. cbn [rbind]. rewrite E. cbn [rbind].
      split; [reflexivity|constructor; auto].
  Qed.

  (** the text an operator's handling leaves: only after_handler writes text *)
  Definition Rt (a b : vst) : Prop := cv_text (v_cv b) = cv_text (v_cv a).
  Lemma Rt_refl s : Rt s s. Proof. reflexivity. Qed.
  Lemma Rt_trans a b c : Rt a b -> Rt b c -> Rt a c. Proof. unfold Rt. congruence. Qed.
  Ltac kt := repeat first
    [ match goal with |- keeps _ (vbind _ _) => apply keeps_bind; [exact Rt_trans| |intros ?] end
    | match goal with |- keeps _ (vret _) => apply keeps_ret; exact Rt_refl end
    | match goal with |- keeps _ (vlift _) => apply keeps_lift; exact Rt_refl end
    | match goal with |- keeps _ vget => apply keeps_get; exact Rt_refl end
    | match goal with |- keeps _ (vmod _) => apply keeps_mod; intros ?; reflexivity end ].
  Lemma t_with_gss g : keeps Rt (with_gss g). Proof. unfold with_gss. kt. Qed.
  Lemma t_arg0 args : keeps Rt (arg0 args). Proof. destruct args; cbn [arg0]; kt. Qed.
  Lemma t_decode rs o : keeps Rt (decode show rs o). Proof. unfold decode. kt. apply t_with_gss. Qed.
  Lemma t_add_string t : keeps Rt (add_string t). Proof. unfold add_string, with_cv. kt. Qed.
  Lemma t_add_inline t : keeps Rt (add_inline t). Proof. unfold add_inline, with_cv. kt. Qed.
  Lemma t_set_args f args : keeps Rt (set_args f args). Proof. apply t_with_gss. Qed.
  Lemma t_set_arg f args : keeps Rt (set_arg f args). Proof. unfold set_arg. kt; auto using t_arg0, t_with_gss. Qed.
  Lemma t_on_gs rs args : keeps Rt (on_gs rs args).
  Proof.
    unfold on_gs. kt; auto using t_arg0. destruct a0 as [st|]; kt. destruct (btruthy st); kt. destruct st; kt; auto using t_with_gss.
    destruct (amem d (bs "self")); kt. destruct (amem d (bs "font_name")); kt.
  Qed.
  Lemma t_page_Do fc fr rs args : keeps Rt (page_Do real_str show fc fr rs args).
  Proof.
    unfold page_Do. kt; auto using t_arg0. destruct a0 as [xo|]; kt. destruct (btruthy xo); kt. destruct (amem _ _); kt.
    destruct (is_class xo (bs "Image")); [unfold with_cv; kt|]. destruct (is_class xo (bs "Form")); kt.
    - intros s b s' H. unfold in_form in H.
      destruct (render real_str show no_Do KForm a1 a2 (mkV (v_gss s) [] empty_canvas)) as [[u|e] s2]; inversion H. reflexivity.
    - unfold with_cv. kt.
  Qed.

  Lemma show_all_echo rs l : Forall (fun x => is_string x = true \/ writable real_str x) l ->
    forall s l' s', show_all show rs l s = (Ok l', s') -> exists ts ss, adds ts s s' /\ Rt s s' /\
    List.length ts = List.length (filter is_string l) /\ mapM (to_str real_str) l' = Ok ss /\ Forall2 W (replace l ts) ss.
  Proof.
    induction 1 as [|x l Hx Hl IH]; intros s l' s' H.
    - cbn [show_all] in H. inversion H. subst. exists [], []. split; [apply adds_nil, Rq_refl|]. split; [reflexivity|]. split; [reflexivity|]. split; [reflexivity|constructor].
    - destruct (is_string x) eqn:Ex.
      + assert (show_all show rs (x :: l) = vbind (decode show rs x) (fun t => vbind (add_string t) (fun _ => vbind (show_all show rs l)
               (fun r' => vret (OTok (40 :: pdf_escape_string t ++ [41]) :: r'))))) as E by (destruct x; try discriminate; reflexivity).
        rewrite E in H. apply vbind_ok in H. destruct H as (t & s1 & E1 & H).
        apply vbind_ok in H. destruct H as ([] & s2 & E2 & H). apply vbind_ok in H. destruct H as (r' & s3 & E3 & H). inversion H. subst s3 l'.
        destruct (IH _ _ _ E3) as (ts & ss & A & R & L & M & F).
        exists (t :: ts), ((40 :: pdf_escape_string t ++ [41]) :: ss). split.
        * change (t :: ts) with ([t] ++ ts). eapply adds_app; [|exact A]. eapply adds_l; [eapply q_decode; eauto|]. apply add_string_ok in E2. tauto.
        * split; [eapply Rt_trans; [eapply t_decode; eauto|]; eapply Rt_trans; [eapply t_add_string; eauto|exact R]|].
          cbn [filter replace]. rewrite Ex. split; [cbn; congruence|]. cbn [mapM to_str rbind]. rewrite M. split; [reflexivity|].
          constructor; [apply W_str|exact F].
      + destruct Hx as [Hx|Hx]; [congruence|].
        assert (show_all show rs (x :: l) = vbind (show_all show rs l) (fun r' => vret (x :: r'))) as E by (destruct x; try discriminate; reflexivity).
        rewrite E in H. apply vbind_ok in H. destruct H as (r' & s1 & E1 & H). inversion H. subst.
        destruct (IH _ _ _ E1) as (ts & ss & A & R & L & M & F). destruct (writable_str x Hx) as (t & T1 & T2).
        exists ts, (t :: ss). split; [exact A|]. split; [exact R|]. cbn [filter replace]. rewrite Ex. split; [exact L|].
        cbn [mapM]. rewrite T1. cbn [rbind]. rewrite M. split; [reflexivity|constructor; auto].
  Qed.

  Definition op_args (i : citem) : list obj := match i with COp _ a => a | _ => [] end.
  Definition op_name (i : citem) : list Z := match i with COp n _ => n | _ => [] end.

  Variable fc : bv -> res (list citem * option exn).
  Variable fr : bv -> res resources.
  Notation on_P := (on_ show (page_Do real_str show fc fr) KPage).

  Definition Ru (a b : vst) : Prop := cv_strings (v_cv b) = cv_strings (v_cv a) /\ Rt a b.
  Lemma Ru_trans a b c : Ru a b -> Ru b c -> Ru a c. Proof. unfold Ru, Rt. intros [] []. split; congruence. Qed.
  Lemma u_of {A} (m : vm A) : keeps Rq m -> keeps Rt m -> keeps Ru m.
  Proof. intros K1 K2 s a s' H. split; [now apply (K1 _ _ _ H)|eapply K2; eauto]. Qed.
  Lemma keep_ok (m : vm unit) (args : list obj) s a s' : vbind m (fun _ => vret args) s = (Ok a, s') -> keeps Ru m -> a = args /\ Ru s s'.
  Proof. intros H K. apply vbind_ok in H. destruct H as (u & s1 & E & H). inversion H. subst. split; [reflexivity|eapply K; eauto]. Qed.

  Lemma last_strs ts : is_dict (last (map OStr ts) ONull) = false.
  Proof. induction ts as [|t [|t' ts] IH]; [reflexivity|reflexivity|exact IH]. Qed.
  Lemma writable_get d k v : writable real_str (ODict d) -> dget d k = Some v -> writable real_str v.
  Proof.
    cbn [writable]. intros [_ H]. revert H. induction d as [|[k' x] d IH]; cbn [fold_right dget fst snd]; [discriminate|].
    intros [[_ H1] H2]. destruct (eqlZ k k'); [intros E; inversion E; subst; exact H1|auto].
  Qed.
  Lemma on_plain rs h args s args' s' : Forall (writable real_str) args ->
    eqlZ h (bs "Tj") || eqlZ h (bs "apostrophe") = false -> eqlZ h (bs "TJ") || eqlZ h (bs "quotation") = false ->
    on_P rs h args s = (Ok args', s') -> args' = args /\ Ru s s'.
  Proof.
    intros Hw E1 E2 H. unfold on_ in H. rewrite E1, E2 in H.
    repeat match type of H with
    | (if ?b then _ else _) _ = _ => destruct b
    end;
    try (eapply keep_ok; [exact H|]; apply u_of; auto using q_with_gss, t_with_gss, q_set_args, t_set_args, q_set_arg, t_set_arg, q_on_gs, t_on_gs, q_add_inline, t_add_inline, q_page_Do, t_page_Do; fail).
    - unfold on_props in H. destruct args as [|x [|y [|]]]; try discriminate; inversion Hw as [|? ? W1 Hw2]; inversion Hw2 as [|? ? W2 W3];
        destruct y as [| | | | | | |yl|d| | | |]; try contradiction;
        try (destruct (dget d (bs "Contents")) as [v|] eqn:Ed; [pose proof (writable_get _ _ _ W2 Ed) as Wv; destruct v; try contradiction|]);
        inversion H; subst; split; try reflexivity; split; reflexivity.
    - eapply keep_ok; [exact H|]. intros a b c E. inversion E. split; reflexivity.
    - eapply keep_ok; [exact H|]. intros a b c E. inversion E. split; reflexivity.
    - discriminate.
    - inversion H. subst. split; [reflexivity|split; reflexivity].
  Qed.

  (** the handler's effect and the operands it leaves *)
  Lemma on_echo rs name args s args' s' :
    ordinary (COp name args) -> echoable real_str (COp name args) -> on_P rs (alias name) args s = (Ok args', s') ->
    exists ts ss, cv_strings (v_cv s') = cv_strings (v_cv s) ++ ts /\ Rt s s' /\
      List.length ts = List.length (shown (COp name args)) /\
      mapM (to_str real_str) args' = Ok ss /\ Forall2 W (op_args (echo (COp name args) ts)) ss.
  Proof.
    intros (Nn & Na & Nq & N34) (Hop & Hnh & He) H.
    rewrite is_named in Nn, Na, Nq, N34 by reflexivity.
    destruct (eqlZ name (bs "Tj") || eqlZ name (bs "'")) eqn:E1.
    { assert (on_P rs (alias name) args = on_Tj show rs args) as E.
      { apply orb_true_iff in E1. destruct E1 as [Hn|Hn]; apply eqlZ_eq in Hn; subst name; reflexivity. }
      rewrite E in H. unfold shown, echo. rewrite E1. clear E He.
      destruct args as [|x args]; [unfold on_Tj, arg0, vbind, vlift in H; discriminate|].
      unfold on_Tj in H. apply vbind_ok in H. destruct H as (x' & s1 & Ex & H). inversion Ex. subst x' s1.
      apply vbind_ok in H. destruct H as (t & s1 & E2 & H).
      apply vbind_ok in H. destruct H as ([] & s2 & E3 & H). inversion H. subst.
      pose proof (q_decode _ _ _ _ _ _ E2) as [Q1 _]. pose proof (add_string_ok _ _ _ _ E3) as [[Q2 _] _].
      exists [t], [40 :: pdf_escape_string t ++ [41]]. split; [congruence|].
      split; [eapply Rt_trans; [eapply t_decode|eapply t_add_string]; eauto|].
      split; [reflexivity|]. split; [reflexivity|]. constructor; [apply W_str|constructor]. }
    destruct (eqlZ name (bs "TJ")) eqn:E2.
    { unfold shown, echo. rewrite E1, E2. apply eqlZ_eq in E2. subst name. destruct He as (l & -> & Hl).
      change (on_P rs (alias (bs "TJ")) [OArr l]) with (on_TJ show rs [OArr l]) in H.
      unfold on_TJ in H. apply vbind_ok in H. destruct H as (x' & s1 & Ex & H). inversion Ex. subst x' s1.
      apply vbind_ok in H. destruct H as (l' & s1 & E3 & H). inversion H. subst. destruct (show_all_echo rs l Hl _ _ _ E3) as (ts & ss & A & R & L & M & F).
      exists ts, [91 :: join [32] ss ++ [93]]. destruct A as [A _]. split; [exact A|]. split; [exact R|]. split; [exact L|]. split.
      - cbn [mapM tl]. rewrite to_str_arr, M. reflexivity.
      - constructor; [now apply W_arr|constructor]. }
    unfold shown, echo. rewrite E1, E2. destruct He as [He _]. destruct (writable_strs args He) as (ss & M & F).
    assert (eqlZ (alias name) (bs "Tj") || eqlZ (alias name) (bs "apostrophe") = false /\ eqlZ (alias name) (bs "TJ") || eqlZ (alias name) (bs "quotation") = false) as [A1 A2].
    { apply orb_false_iff in E1. destruct E1 as [E1 E1']. unfold alias. change (bs "'") with [39] in E1'. change (bs """") with [34] in N34. rewrite E1', N34.
      destruct (eqlZ name (bs "T*")) eqn:ET; [split; reflexivity|]. rewrite E1, E2, Na, Nq. split; reflexivity. }
    apply on_plain in H; auto. destruct H as [-> [S1 S2]]. exists [], ss. rewrite app_nil_r. repeat split; auto.
  Qed.

  Lemma n_echo rs i s s' : ordinary i -> echoable real_str i ->
    notify real_str show (page_Do real_str show fc fr) KPage rs i s = (Ok tt, s') ->
    exists ts ss, cv_strings (v_cv s') = cv_strings (v_cv s) ++ ts /\ List.length ts = List.length (shown i) /\
      Forall2 W (op_args (echo i ts)) ss /\ op_name (echo i ts) = op_name i /\
      (is_dict (last (op_args (echo i ts)) ONull) = true -> head_is (fun c => c =? 115) (op_name i) = false) /\
      cv_text (v_cv s') = cv_text (v_cv s) ++ 10 :: join [32] ss ++ 32 :: op_name i.
  Proof.
    intros Ho He H. destruct i as [d data|name args]; [destruct He|].
    unfold notify in H. cbv zeta in H.
    apply vbind_ok in H. destruct H as ([] & s1 & E1 & H). apply vbind_ok in H. destruct H as (args' & s2 & E2 & H).
    apply vbind_ok in H. destruct H as ([] & s3 & E3 & H).
    assert (Ru s s1) as [R1 T1] by (unfold before_ in E1; destruct (eqlZ _ _); inversion E1; split; reflexivity).
    assert (Ru s2 s3) as [R3 T3].
    { unfold after_ in E3. destruct He as (_ & Hh & _). destruct Ho as (Hn & _). rewrite is_named in Hn by reflexivity.
      rewrite !(alias_eq name (bs "handler")) in E3 by (vm_compute; discriminate). rewrite (alias_eq name (bs "navigate")) in E3 by (vm_compute; discriminate).
      apply eqlZ_neq in Hh. rewrite Hh, Hn in E3. destruct (eqlZ (alias name) (bs "Do")); inversion E3; split; reflexivity. }
    destruct (on_echo rs name args s1 args' s2 Ho He E2) as (ts & ss & A & R & L & M & F).
    exists ts, ss. unfold op_str in H. rewrite M in H. cbn [rbind] in H. inversion H. subst s'. cbn [v_cv cv_strings cv_text].
    split; [congruence|]. split; [exact L|]. split; [exact F|]. split; [|split].
    - unfold echo. destruct (_ || _); [reflexivity|]. destruct (eqlZ _ _); [|reflexivity]. destruct args as [|[]]; reflexivity.
    - destruct He as (_ & _ & He). unfold echo. cbn [op_name]. destruct (_ || _); [cbn [op_args]; rewrite last_strs; discriminate|].
      destruct (eqlZ _ _); [destruct He as (l & -> & _); discriminate|]. apply He.
    - unfold Rt in *. rewrite T3, R, T1. reflexivity.
  Qed.

  Definition optext (ss : list (list Z)) (name : list Z) : list Z := 10 :: join [32] ss ++ 32 :: name.
  Definition no_s (i : citem) : Prop := is_dict (last (op_args i) ONull) = true -> head_is (fun c => c =? 115) (op_name i) = false.
  Lemma content_text its sss : Forall2 (fun i ss => OpName (op_name i) /\ Forall2 W (op_args i) ss /\ (exists a b, i = COp a b) /\ no_s i) its sss ->
    exists lead ss, List.concat (map (fun p => optext (snd p) (op_name (fst p))) (combine its sss)) = lead ++ ss /\ Sep lead /\
      nonreg (lead ++ ss) /\ Content its ss.
  Proof.
    induction 1 as [|i ss its sss (Hn & Hw & (a & b & ->) & Hs) _ (lead & tx & E & Hl & Hnr & Hc)].
    - exists [], []. repeat split; constructor.
    - cbn [combine map List.concat fst snd]. rewrite E. cbn [op_name op_args] in *. unfold optext.
      destruct Hw as [|o t os ts Ho Hos].
      + exists [10; 32], ([] ++ a ++ lead ++ tx). split; [reflexivity|]. split; [apply (Sep_ws 10 [32]); [reflexivity|apply sep_sp1]|]. split; [reflexivity|].
        apply Co_op; auto. constructor.
      + exists [10], ((join [32] (t :: ts) ++ [32]) ++ a ++ lead ++ tx). split; [cbn [app]; f_equal; rewrite <- !app_assoc; reflexivity|].
        split; [apply sep_lf|]. split; [reflexivity|]. apply Co_op; auto.
        apply joined; [constructor; auto|apply sep_sp1|discriminate|reflexivity|]. intros Hd. specialize (Hs Hd). cbn [op_name] in Hs.
        destruct Hn as (Hne & Hreg & _). destruct a as [|c a']; [contradiction|]. inversion Hreg as [|? ? [R1 R2] _]. subst.
        exists [32], ((c :: a') ++ lead ++ tx). split; [reflexivity|]. split; [apply sep_sp1|]. split; [|exact Hs].
        unfold nosep. cbn [app head_is]. rewrite R1. cbn [orb]. destruct (Z.eqb_spec c 37) as [->|]; [discriminate R2|reflexivity].
  Qed.

  Lemma run_echo rs l : Forall ordinary l -> Forall (echoable real_str) l -> forall s s',
    run real_str show (page_Do real_str show fc fr) KPage rs l s = (Ok tt, s') ->
    exists texts sss, Forall2 (fun i ts => List.length ts = List.length (shown i)) l texts /\
      cv_strings (v_cv s') = cv_strings (v_cv s) ++ List.concat texts /\
      Forall2 (fun i ss => OpName (op_name i) /\ Forall2 W (op_args i) ss /\ (exists a b, i = COp a b) /\ no_s i) (map (fun p => echo (fst p) (snd p)) (combine l texts)) sss /\
      cv_text (v_cv s') = cv_text (v_cv s) ++ List.concat (map (fun p => optext (snd p) (op_name (fst p))) (combine (map (fun p => echo (fst p) (snd p)) (combine l texts)) sss)).
  Proof.
    induction 1 as [|i l Ho Hl IH]; intros He s s' H.
    - inversion H. subst. exists [], []. cbn. rewrite !app_nil_r. repeat split; constructor.
    - inversion He as [|? ? He1 He2]. subst. cbn [run] in H. apply vbind_ok in H. destruct H as ([] & s1 & E1 & H).
      destruct (n_echo rs i s s1 Ho He1 E1) as (ts & ss & A & L & F & N & NS & T). destruct (IH He2 _ _ H) as (texts & sss & P1 & P2 & P3 & P4).
      exists (ts :: texts), (ss :: sss). split; [constructor; auto|]. split; [cbn [List.concat]; rewrite P2, A; now rewrite app_assoc|].
      cbn [combine map fst snd List.concat]. split.
      + constructor; auto. rewrite N. destruct i as [|nm args]; [destruct He1|]. split; [apply He1|]. split; [exact F|]. split; [|unfold no_s; rewrite N; exact NS].
        unfold echo. destruct (_ || _); [eauto|]. destruct (eqlZ _ _); [|eauto]. destruct args as [|[]]; eauto.
      + rewrite P4, T. rewrite N. unfold optext at 2. rewrite <- !app_assoc. reflexivity.
  Qed.
End E.

(** C41.  The text_content of a rendered page is a content stream again: parsing it gives the same operators,
    with every shown string replaced by its decoded text - the strings on canvas.strings.  (The text is taken
    as one byte per character; that is what it means for strings of latin-1 characters.) *)
Theorem C41_text_content_parses_back : forall real_str show fc fr rs l s s' n,
  Forall ordinary l -> Forall (echoable real_str) l -> cv_text (v_cv s) = [] ->
  run real_str show (page_Do real_str show fc fr) KPage rs l s = (Ok tt, s') ->
  4 * zlen (cv_text (v_cv s')) + 10 <= Z.of_nat n ->
  exists texts, Forall2 (fun i ts => List.length ts = List.length (shown i)) l texts /\
    cv_strings (v_cv s') = cv_strings (v_cv s) ++ List.concat texts /\
    fst (arun (cv_text (v_cv s')) (content_objects n) (mkA 0 [] tt)) = Ok (map (fun p => echo (fst p) (snd p)) (combine l texts)).
Proof.
  intros real_str show fc fr rs l s s' n Ho He Ht H Hn.
  destruct (run_echo _ _ _ _ rs l Ho He _ _ H) as (texts & sss & P1 & P2 & P3 & P4). exists texts. split; [exact P1|]. split; [exact P2|].
  rewrite Ht in P4. cbn [app] in P4. destruct (content_text _ _ P3) as (lead & ss & E & Hs & _ & Hc). rewrite E in P4. rewrite P4 in *.
  destruct (C38_content_operators _ ss lead unit [] tt n Hc Hs Hn) as (ex & R). rewrite R. reflexivity.
Qed.
Example C41_ex : Forall ordinary ex40 /\ Forall (echoable (fun _ _ _ => [])) ex40 /\ fst ex40_run = Ok tt /\
  cv_text (v_cv (snd ex40_run)) = [10] ++ bs "/F1 12 Tf" ++ [10] ++ bs " q" ++ [10] ++ bs "/F2 8 Tf" ++ [10] ++ bs "(2a) Tj" ++ [10] ++ bs " Q" ++ [10] ++ bs "[(1b) 3 (163)] TJ".
Proof.
  split; [repeat constructor; intros [a H]; discriminate|]. split.
  - assert (forall w, OpName w -> w <> bs "handler" -> eqlZ w (bs "Tj") || eqlZ w (bs "'") = true -> forall a, echoable (fun _ _ _ => []) (COp w a)) as HT.
    { intros w A B C a. split; auto. split; auto. now rewrite C. }
    assert (forall w a, OpName w -> w <> bs "handler" -> eqlZ w (bs "Tj") || eqlZ w (bs "'") = false -> eqlZ w (bs "TJ") = false ->
      Forall (writable (fun _ _ _ => [])) a -> is_dict (last a ONull) = false -> echoable (fun _ _ _ => []) (COp w a)) as HP.
    { intros w a A B C D E G. split; auto. split; auto. rewrite C, D. split; [exact E|]. rewrite G. discriminate. }
    assert (forall c, is_ws c = false -> is_delim c = false -> c <> 35 -> is_ws c = false /\ is_delim c = false /\ c <> 35) as HR by auto.
    constructor; [apply HP; try opname; try discriminate; try reflexivity; repeat constructor; discriminate|].
    constructor; [apply HP; try opname; try discriminate; try reflexivity; repeat constructor; discriminate|].
    constructor; [apply HP; try opname; try discriminate; try reflexivity; repeat constructor; discriminate|].
    constructor; [apply HT; try opname; try discriminate; reflexivity|].
    constructor; [apply HP; try opname; try discriminate; try reflexivity; repeat constructor; discriminate|].
    constructor; [|constructor]. split; [opname|]. split; [discriminate|]. change (eqlZ (bs "TJ") (bs "Tj") || eqlZ (bs "TJ") (bs "'")) with false. cbv iota.
    change (eqlZ (bs "TJ") (bs "TJ")) with true. cbv iota. exists [OStr (bs "b"); OInt 3; OHex (bs "63")]. split; [reflexivity|].
    constructor; [left; reflexivity|]. constructor; [right; exact I|]. constructor; [left; reflexivity|constructor].
  - split; vm_compute; reflexivity.
Qed.

(** A marked-content property list among the operands is covered. *)
Example C41_ex_dict : echoable (fun _ _ _ => []) (COp (bs "BDC") [OName (bs "P"); ODict [(bs "MCID", OInt 0); (bs "Kids", OArr [ODict []; OBool true])]]).
Proof.
  split; [opname|]. split; [discriminate|]. cbv iota. change (eqlZ (bs "BDC") _ || _) with false. change (eqlZ (bs "BDC") (bs "TJ")) with false. cbv iota.
  split; [|intros _; reflexivity]. constructor; [repeat constructor; discriminate|]. constructor; [|constructor].
  cbn [writable map fst snd fold_right]. split.
  - constructor; [intros [H|[]]; discriminate|]. constructor; [intros []|constructor].
  - repeat split; repeat constructor; discriminate.
Qed.

(** Inline images do not survive: their data is written in a base-85 alphabet that the filter it is labelled
    with does not use.  The text put on the canvas for some image, parsed back, has other data. *)
Definition image_round_trips (d : dict) (data : list Z) : Prop := forall t its n,
  image_str (fun _ _ _ => []) d data = Ok t -> 4 * zlen t + 10 <= Z.of_nat n ->
  fst (arun t (content_objects n) (mkA 0 [] tt)) = Ok its ->
  exists d' data', its = [CImage d' data'] /\ ascii85_decode data' = Ok data.
Definition img_text : list Z := [10] ++ bs "BI" ++ [10] ++ bs " /Filter [ /ASCII85Decode  /RL ]" ++ [10] ++ bs "ID" ++ [10] ++ bs "000~>" ++ [10] ++ bs "EI".
Definition img_items : list citem :=
  [CImage [(bs "Filter", OArr [OName (bs "ASCII85Decode"); OName (bs "RL")])] (bs "000~>")].
Theorem C41_inline_images_refuted : ~ (forall d data, image_round_trips d data).
Proof.
  intro H.
  destruct (H [(bs "F", OName (bs "RL"))] [0; 0] img_text img_items 400%nat) as (d' & data' & E & D);
    [vm_compute; reflexivity|vm_compute; discriminate|vm_compute; reflexivity|].
  inversion E. subst. vm_compute in D. discriminate.
Qed.

(** Nor do strings among the operands of operators that show no text: they are written without their
    parentheses.  A page that marks a span with an /ActualText "a b" has a text_content the parser rejects. *)
Definition span : list citem := [COp (bs "BDC") [OName (bs "Span"); ODict [(bs "ActualText", OStr (bs "a b"))]]].
Theorem C41_strings_refuted : forall real_str show fc fr rs s, cv_text (v_cv s) = [] ->
  exists s', run real_str show (page_Do real_str show fc fr) KPage rs span s = (Ok tt, s') /\
    cv_text (v_cv s') = 10 :: bs "/Span <</ActualText a b>> BDC" /\
    forall n, 4 * zlen (cv_text (v_cv s')) + 10 <= Z.of_nat n ->
      fst (arun (cv_text (v_cv s')) (content_objects n) (mkA 0 [] tt)) = Err ParserExc.
Proof.
  intros real_str show fc fr rs s Ht. eexists. split; [reflexivity|]. cbn [v_cv cv_text]. rewrite Ht. cbn [app]. split; [reflexivity|].
  set (f := 10 :: join _ _ ++ _). assert (f = 10 :: bs "/Span <</ActualText a b>> BDC") as -> by reflexivity.
  intros n Hn. destruct (C68_content_terminates unit (10 :: bs "/Span <</ActualText a b>> BDC") 0 [] tt ltac:(lia)) as (r & sx & _ & _ & H).
  rewrite H by exact Hn. rewrite <- (H 400%nat) by (vm_compute; discriminate). vm_compute. reflexivity.
Qed.

Print Assumptions C41_text_content_parses_back.
Print Assumptions C41_inline_images_refuted.
Print Assumptions C41_strings_refuted.
