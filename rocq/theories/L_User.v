(** How programs move the user state, whatever the file contains. *)
From Coq Require Import String.
From Verif Require Import Prelude M_Prog M_Parser L_Prog.
Local Open Scope Z_scope.
Local Open Scope prog_scope.

Section User.
  Context {U : Type}.
  Notation P := (prog U).

  (** [uwp E u p Q]: from user state [u], however the bytes and positions turn out, [p] ends with an
      outcome and user state satisfying [Q], or is stuck on an unknown saved state, with [E]. *)
  Fixpoint uwp {A} (E : U -> Prop) (u : U) (p : P A) (Q : res A -> U -> Prop) : Prop :=
    match p with
    | Ret a => Q (Ok a) u
    | Throw e => Q (Err e) u
    | Cur k | Next k | Prev k => forall c, uwp E u (k c) Q
    | Reset _ k => uwp E u k Q
    | Save k => forall h, uwp E u (k h) Q
    | Restore _ k => E u /\ uwp E u k Q
    | Index k => forall i, uwp E u (k i) Q
    | GetU k => uwp E u (k u) Q
    | SetU u' k => uwp E u' k Q
    end.
  Lemma uwp_sound {A} f E (p : P A) Q : forall s, uwp E (a_usr s) p Q ->
    Q (fst (arun f p s)) (a_usr (snd (arun f p s))) \/
    (fst (arun f p s) = Err KeyErr /\ E (a_usr (snd (arun f p s)))).
  Proof.
    induction p as [a|e|k IH|k IH|k IH|o k IH|k IH|x k IH|k IH|k IH|u k IH]; intros s H; cbn [uwp arun] in *; auto;
      try (match goal with |- context [arun f ?q ?s'] => apply IH with (s := s') end; cbn [a_usr]; auto; fail).
    destruct H as [HE H]. destruct (nth_error (a_store s) x).
    - match goal with |- context [arun f ?q ?s'] => apply IH with (s := s') end; auto.
    - right. split; auto.
  Qed.
  Lemma uwp_mono {A} E (p : P A) (Q Q' : res A -> U -> Prop) : (forall r u, Q r u -> Q' r u) ->
    forall u, uwp E u p Q -> uwp E u p Q'.
  Proof.
    intros H. induction p as [a|e|k IH|k IH|k IH|o k IH|k IH|x k IH|k IH|k IH|u0 k IH]; intros u; cbn [uwp]; intuition auto.
  Qed.
  Lemma uwp_bind {A B} E (p : P A) (g : A -> P B) Q : forall u,
    uwp E u p (fun r u' => match r with Ok a => uwp E u' (g a) Q | Err e => Q (Err e) u' end) ->
    uwp E u (bind p g) Q.
  Proof.
    induction p as [a|e|k IH|k IH|k IH|o k IH|k IH|x k IH|k IH|k IH|u0 k IH]; intros u; cbn [uwp bind]; intuition auto.
  Qed.
  Lemma uwp_catch {A} E (p : P A) hd h Q : forall u,
    uwp E u p (fun r u' => match r with
                           | Ok a => Q (Ok a) u'
                           | Err e => if hd e && negb (exn_eqb e OutOfFuel) then uwp E u' (h e) Q else Q (Err e) u' end) ->
    uwp E u (catch p hd h) Q.
  Proof.
    induction p as [a|e|k IH|k IH|k IH|o k IH|k IH|x k IH|k IH|k IH|u0 k IH]; intros u; cbn [uwp catch]; intuition auto.
    destruct (hd e && negb (exn_eqb e OutOfFuel)); auto.
  Qed.

  (** Programs that only move the user state along [R]. *)
  Variable R : U -> U -> Prop.
  Definition mv {A} (p : P A) : Prop := forall u0 u, R u0 u -> uwp (R u0) u p (fun _ u' => R u0 u').
  Lemma mv_bind {A B} (p : P A) (g : A -> P B) : mv p -> (forall a, mv (g a)) -> mv (bind p g).
  Proof.
    intros Hp Hg u0 u H. apply uwp_bind. eapply uwp_mono; [|apply Hp; auto].
    intros [a|e] u' H'; auto. apply Hg; auto.
  Qed.
  Lemma mv_catch {A} (p : P A) hd h : mv p -> (forall e, mv (h e)) -> mv (catch p hd h).
  Proof.
    intros Hp Hg u0 u H. apply uwp_catch. eapply uwp_mono; [|apply Hp; auto].
    intros [a|e] u' H'; auto. destruct (hd e && negb (exn_eqb e OutOfFuel)); auto. apply Hg; auto.
  Qed.
  Lemma mv_ret {A} (a : A) : mv (ret a). Proof. intros u0 u H. exact H. Qed.
  Lemma mv_throw {A} e : mv (throw e : P A). Proof. intros u0 u H. exact H. Qed.
  Lemma mv_cur : mv cur. Proof. intros u0 u H c. exact H. Qed.
  Lemma mv_next : mv next. Proof. intros u0 u H c. exact H. Qed.
  Lemma mv_prev : mv prev. Proof. intros u0 u H c. exact H. Qed.
  Lemma mv_reset o : mv (reset o). Proof. intros u0 u H. exact H. Qed.
  Lemma mv_save : mv save. Proof. intros u0 u H c. exact H. Qed.
  Lemma mv_restore h : mv (restore h). Proof. intros u0 u H. split; exact H. Qed.
  Lemma mv_index : mv index_. Proof. intros u0 u H c. exact H. Qed.
  Lemma mv_getu : mv getu. Proof. intros u0 u H. exact H. Qed.
  (** After reading the state, moving on from what was read. *)
  Lemma mv_get {A} (g : U -> P A) : (forall u0 u, R u0 u -> uwp (R u0) u (g u) (fun _ u' => R u0 u')) -> mv (bind getu g).
  Proof. intros H u0 u Hu. cbn. auto. Qed.
  Lemma mv_sound {A} f (p : P A) s : (forall u, R u u) -> mv p -> R (a_usr s) (a_usr (snd (arun f p s))).
  Proof.
    intros HR H. destruct (uwp_sound f (R (a_usr s)) p (fun _ u' => R (a_usr s) u') s) as [X|[_ X]]; auto.
  Qed.
End User.

Create HintDb mv.
#[global] Hint Resolve mv_ret mv_throw mv_cur mv_next mv_prev mv_reset mv_save mv_restore mv_index mv_getu : mv.
Ltac mv_step :=
  lazymatch goal with
  | |- mv _ (bind _ _) => apply mv_bind; [|intros]
  | |- mv _ (catch _ _ _) => apply mv_catch; [|intros]
  | |- mv _ (if ?b then _ else _) => destruct b
  | |- mv _ (match ?x with _ => _ end) => destruct x
  | |- mv _ (let _ := _ in _) => cbv zeta
  end.
Ltac mv_go := repeat (mv_step || (progress auto with mv)).

Section Parsers.
  Context {U : Type}.
  Variable R : U -> U -> Prop.
  Notation P := (prog U).

  Lemma mv_next_byte : mv R (next_byte : P _).
  Proof. unfold next_byte. mv_go. Qed.
  Hint Resolve mv_next_byte : mv.
  Lemma mv_maybe_spaces : forall n, mv R (maybe_spaces n : P _).
  Proof. induction n; cbn [maybe_spaces]; mv_go. Qed.
  Lemma mv_maybe_eol : mv R (maybe_eol : P _).
  Proof. unfold maybe_eol. mv_go. Qed.
  Hint Resolve mv_maybe_eol : mv.
  Lemma mv_eol : mv R (eol : P _).
  Proof. unfold eol. mv_go. Qed.
  Hint Resolve mv_maybe_spaces mv_eol : mv.
  Lemma mv_comment_loop : forall n, mv R (comment_loop n : P _).
  Proof. induction n; cbn [comment_loop]; mv_go. Qed.
  Hint Resolve mv_comment_loop : mv.
  Lemma mv_comment n : mv R (comment n : P _).
  Proof. unfold comment. mv_go. Qed.
  Hint Resolve mv_comment : mv.
  Lemma mv_comments_loop : forall n, mv R (comments_loop n : P _).
  Proof. induction n; cbn [comments_loop]; mv_go. Qed.
  Hint Resolve mv_comments_loop : mv.
  Lemma mv_sp n : mv R (sp n : P _).
  Proof. unfold sp. mv_go. Qed.
  Lemma mv_digits : forall n acc, mv R (digits n acc : P _).
  Proof. induction n; intros; cbn [digits]; mv_go. Qed.
  Hint Resolve mv_sp mv_digits : mv.
  Lemma mv_numeric n : mv R (numeric n : P _).
  Proof. unfold numeric. mv_go. Qed.
  Hint Resolve mv_numeric : mv.
  Lemma mv_nni n : mv R (non_negative_int n : P _).
  Proof. unfold non_negative_int. mv_go. Qed.
  Hint Resolve mv_nni : mv.
  Lemma mv_name_loop : forall n acc, mv R (name_loop n acc : P _).
  Proof. induction n; intros; cbn [name_loop]; mv_go. Qed.
  Hint Resolve mv_name_loop : mv.
  Lemma mv_name n : mv R (name n : P _).
  Proof. unfold name. mv_go. Qed.
  Lemma mv_hex_loop : forall n acc, mv R (hex_loop n acc : P _).
  Proof. induction n; intros; cbn [hex_loop]; mv_go. Qed.
  Hint Resolve mv_name mv_hex_loop : mv.
  Lemma mv_hexstring n : mv R (hexstring n : P _).
  Proof. unfold hexstring. mv_go. Qed.
  Lemma mv_octal_more : forall k acc, mv R (octal_more k acc : P _).
  Proof. induction k; intros; cbn [octal_more]; mv_go. Qed.
  Hint Resolve mv_octal_more : mv.
  Lemma mv_str_loop : forall n acc, mv R (str_loop n acc : P _).
  Proof. induction n; intros; cbn [str_loop]; mv_go. Qed.
  Hint Resolve mv_hexstring mv_str_loop : mv.
  Lemma mv_string n : mv R (string_ n : P _).
  Proof. unfold string_. mv_go. Qed.
  Lemma mv_indirect_reference n : mv R (indirect_reference n : P _).
  Proof. unfold indirect_reference. mv_go. Qed.
  Hint Resolve mv_string mv_indirect_reference : mv.
  Lemma mv_numref n : mv R (numeric_or_indirect_reference n : P _).
  Proof. unfold numeric_or_indirect_reference. mv_go. Qed.
  Lemma mv_token_loop : forall n acc, mv R (token_loop n acc : P _).
  Proof. induction n; intros; cbn [token_loop]; mv_go. Qed.
  Hint Resolve mv_numref mv_token_loop : mv.
  Lemma mv_token n : mv R (token n : P _).
  Proof. unfold token. mv_go. Qed.
  Lemma mv_read_opts : forall k, mv R (read_opts k : P _).
  Proof. induction k; cbn [read_opts]; mv_go. Qed.
  Hint Resolve mv_token mv_read_opts : mv.
  Lemma mv_read k : mv R (read k : P _).
  Proof. unfold read. mv_go. Qed.
  Lemma mv_find_endstream : forall n err acc, mv R (find_endstream n err acc : P _).
  Proof. induction n; intros; cbn [find_endstream]; mv_go. Qed.
  Hint Resolve mv_read mv_find_endstream : mv.
  Lemma mv_stream_body n d : mv R (stream_body n d : P _).
  Proof. unfold stream_body. mv_go. Qed.
  Lemma mv_prevs : forall k, mv R (prevs k : P _).
  Proof. induction k; cbn [prevs]; mv_go. Qed.
  Hint Resolve mv_stream_body mv_prevs : mv.
  Lemma mv_ii_data : forall n acc, mv R (ii_data n acc : P _).
  Proof. induction n; intros; cbn [ii_data]; mv_go. Qed.
  Hint Resolve mv_ii_data : mv.

  Variable fix_len : dict -> P dict.
  Hypothesis Hfix : forall d, mv R (fix_len d).
  Hint Resolve Hfix : mv.
  Lemma mv_objects : forall n,
    (forall fl, mv R (object fix_len fl n : P _)) /\
    (forall fl, mv R (dictionary fix_len fl n : P _)) /\
    (forall fl acc, mv R (dict_loop fix_len fl n acc : P _)) /\
    (forall fl acc, mv R (arr_loop fix_len fl n acc : P _)) /\
    (mv R (inline_image fix_len n : P _)) /\
    (forall acc, mv R (entities fix_len n acc : P _)).
  Proof.
    induction n as [|n IH]; [repeat split; intros; apply mv_throw|].
    destruct IH as (IHo & IHd & IHdl & IHal & IHi & IHe).
    repeat split; intros; cbn [object dictionary dict_loop arr_loop inline_image entities]; mv_go; [unfold null_|unfold false_|unfold true_]; unfold keyword; mv_go.
  Qed.
  Lemma mv_object fl n : mv R (object fix_len fl n : P _).
  Proof. apply mv_objects. Qed.
End Parsers.
#[global] Hint Resolve mv_next_byte mv_maybe_spaces mv_eol mv_maybe_eol mv_comment mv_sp mv_digits mv_numeric mv_nni mv_name
  mv_hexstring mv_string mv_token mv_read mv_read_opts mv_stream_body mv_prevs mv_object : mv.
