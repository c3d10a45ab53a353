(** Opening a document on the real buffer (L_Blocks.v). *)
From Coq Require Import String.
From Verif Require Import Prelude M_Prog M_Buffer S_Buffer L_Buffer L_Prog M_Parser L_Blocks L_BlocksP L_BlocksD L_BlocksL M_Filters M_Document.
Local Open Scope Z_scope.
Local Open Scope prog_scope.

Section Det.
  Context {U : Type}.
  Variables (f : list Z) (B : Z).
  Notation P := (prog U).
  (** what [dw] speaks of is the run of the plain cursor *)
  Lemma dw_det {A} (p : P A) : forall s v vs Q, dw f B p s v vs Q ->
    dw f B p s v vs (fun r s' v' vs' => arun f p s = (r, s') /\ Q r s' v' vs').
  Proof.
    induction p as [a|e|k IH|k IH|k IH|o k IH|k IH|h k IH|k IH|k IH|u k IH]; intros s v vs Q Hd; cbn [dw arun] in *; auto.
    1-3: destruct Hd as [W Hd]; split; eauto.
    - destruct (nth_error (a_store s) h), (nth_error vs h); auto; contradiction.
    - destruct Hd as [W Hd]; split; eauto.
  Qed.
  Lemma dw_end {A} (p : P A) s v vs Q : dw f B p s v vs Q -> exists v' vs', Q (fst (arun f p s)) (snd (arun f p s)) v' vs'.
  Proof.
    revert s v vs. induction p as [a|e|k IH|k IH|k IH|o k IH|k IH|h k IH|k IH|k IH|u k IH]; intros s v vs Hd; cbn [dw arun fst snd] in *; eauto.
    1-3: destruct Hd as [W Hd]; eauto.
    - destruct (nth_error (a_store s) h), (nth_error vs h); eauto; contradiction.
    - destruct Hd as [W Hd]; eauto.
  Qed.
  Lemma dw_bind_det {A C} (p : P A) (g : A -> P C) s v vs Q1 Q : dw f B p s v vs Q1 ->
    (forall a s' v' vs', arun f p s = (Ok a, s') -> Q1 (Ok a) s' v' vs' -> dw f B (g a) s' v' vs' Q) ->
    (forall e s' v' vs', arun f p s = (Err e, s') -> Q1 (Err e) s' v' vs' -> Q (Err e) s' v' vs') -> dw f B (bind p g) s v vs Q.
  Proof.
    intros H Ha He. apply dw_bind. eapply dw_conseq; [apply dw_det; exact H|]. cbv beta. intros [a|e] s' v' vs' [E HQ]; eauto.
  Qed.

  (** programs that only move on, and programs that only move back *)
  Fixpoint fwd {A} (p : P A) : Prop := match p with Ret _ | Throw _ => True | Cur k | Next k => forall x, fwd (k x) | _ => False end.
  Fixpoint bwd {A} (p : P A) : Prop := match p with Ret _ | Throw _ => True | Cur k | Prev k => forall x, bwd (k x) | _ => False end.
  Lemma fwd_bind {A C} (p : P A) (g : A -> P C) : fwd p -> (forall a, fwd (g a)) -> fwd (bind p g).
  Proof. induction p; cbn [fwd bind]; intros; auto; contradiction. Qed.
  Lemma bwd_bind {A C} (p : P A) (g : A -> P C) : bwd p -> (forall a, bwd (g a)) -> bwd (bind p g).
  Proof. induction p; cbn [bwd bind]; intros; auto; contradiction. Qed.
  Lemma fwd_mono {A} (p : P A) : fwd p -> forall s, a_pos s <= a_pos (snd (arun f p s)).
  Proof.
    induction p as [a|e|k IH|k IH|k IH|o k IH|k IH|h k IH|k IH|k IH|u k IH]; cbn [fwd arun]; intros Hf s; try contradiction; cbn [snd]; try lia.
    - apply IH. auto.
    - specialize (IH (znth f (a_pos s)) (Hf _) (mkA (a_pos s + 1) (a_store s) (a_usr s))). cbn [a_pos] in IH. lia.
  Qed.
  Definition tails (v : sess) : Prop := s_end v = zlen f /\ s_past v = false.
  Lemma tails_visit v p : tails v -> p < zlen f -> tails (visit v p) /\ one_way (visit v p).
  Proof.
    intros [H1 H2] Hp. unfold tails, one_way, visit. cbn [s_back s_past s_fok s_end]. rewrite H1, H2. cbn [orb].
    replace (zlen f <=? p) with false by lia. repeat split; auto; discriminate.
  Qed.
  Definition tpost {A} (st : list Z) (u : U) (vs : list sess) (r : res A) (s' : ast U) (v' : sess) (vs' : list sess) : Prop :=
    tails v' /\ vs' = vs /\ a_store s' = st /\ a_usr s' = u /\ a_pos s' < zlen f.
  Lemma bwd_dw {A} (p : P A) : bwd p -> forall pos st u v vs, tails v -> pos < zlen f -> dw f B p (mkA pos st u) v vs (tpost st u vs).
  Proof.
    induction p as [a|e|k IH|k IH|k IH|o k IH|k IH|h k IH|k IH|k IH|u k IH]; cbn [bwd]; intros Hf pos st us v vs Hv Hp; try contradiction; cbn [dw a_pos a_store a_usr].
    1-2: unfold tpost; cbn [a_pos a_store a_usr]; auto.
    - destruct (tails_visit v pos Hv Hp). split; auto.
    - destruct (tails_visit v pos Hv Hp). split; auto. apply IH; auto. lia.
  Qed.
  Lemma fwd_dw {A} (p : P A) : fwd p -> forall pos st u v vs, tails v -> a_pos (snd (arun f p (mkA pos st u))) < zlen f ->
    dw f B p (mkA pos st u) v vs (tpost st u vs).
  Proof.
    induction p as [a|e|k IH|k IH|k IH|o k IH|k IH|h k IH|k IH|k IH|u k IH]; cbn [fwd]; intros Hf pos st us v vs Hv Hp; try contradiction; cbn [dw a_pos a_store a_usr].
    1-2: unfold tpost; cbn [a_pos a_store a_usr arun snd] in *; auto.
    - cbn [arun a_pos] in Hp. pose proof (fwd_mono _ (Hf (znth f pos)) (mkA pos st us)) as Hm. cbn [a_pos] in Hm.
      destruct (tails_visit v pos Hv ltac:(lia)). split; auto.
    - cbn [arun a_pos a_store a_usr] in Hp. pose proof (fwd_mono _ (Hf (znth f pos)) (mkA (pos + 1) st us)) as Hm. cbn [a_pos] in Hm.
      destruct (tails_visit v pos Hv ltac:(lia)). split; auto.
  Qed.

  Ltac fs := repeat match goal with
    | |- fwd (bind cur _) => apply fwd_bind; [intros ?; exact Logic.I|intros ?]
    | |- fwd (bind next _) => apply fwd_bind; [intros ?; exact Logic.I|intros ?]
    | |- fwd (if ?b then _ else _) => destruct b
    | |- fwd (match ?x with _ => _ end) => destruct x
    | |- fwd (ret _) => exact Logic.I
    | |- fwd (throw _) => exact Logic.I
    end; auto.
  Lemma f_maybe_spaces n : fwd (maybe_spaces n : P unit).
  Proof. induction n; cbn [maybe_spaces]; fs. Qed.
  Lemma f_maybe_eol : fwd (maybe_eol : P unit).
  Proof. unfold maybe_eol; fs. Qed.
  Lemma f_eol : fwd (eol : P unit).
  Proof. unfold eol; fs. apply f_maybe_eol. Qed.
  Lemma f_next_byte : fwd (next_byte : P Z).
  Proof. unfold next_byte; fs. Qed.
  Lemma f_comment_loop n : fwd (comment_loop n : P unit).
  Proof. induction n; cbn [comment_loop]; fs. apply fwd_bind; [apply f_next_byte|auto]. Qed.
  Lemma f_comment n : fwd (comment n : P unit).
  Proof. unfold comment; fs. apply fwd_bind; [apply f_comment_loop|]. intros; apply f_eol. Qed.
  Lemma f_comments_loop n : fwd (comments_loop n : P unit).
  Proof. induction n; cbn [comments_loop]; fs. apply fwd_bind; [apply f_comment|]. intros. apply fwd_bind; [apply f_maybe_spaces|auto]. Qed.
  Lemma f_sp n : fwd (sp n : P unit).
  Proof. unfold sp. apply fwd_bind; [apply f_maybe_spaces|]. intros; apply f_comments_loop. Qed.
  Lemma f_read_opts k : fwd (read_opts k : P _).
  Proof. induction k; cbn [read_opts]; fs. apply fwd_bind; auto. intros; exact Logic.I. Qed.
  Lemma f_read k : fwd (read k : P _).
  Proof. unfold read. apply fwd_bind; [apply f_read_opts|]. intros; fs. Qed.
  Lemma f_digits n : forall acc, fwd (digits n acc : P _).
  Proof. induction n; intros acc; cbn [digits]; fs. Qed.
  Lemma f_numeric n : fwd (numeric n : P _).
  Proof.
    unfold numeric. cbn [bind cur fwd]. intros c. apply fwd_bind; [fs|]. intros neg. apply fwd_bind; [apply f_digits|]. intros ip.
    cbn [bind cur fwd]. intros c2. apply fwd_bind; [fs; apply fwd_bind; [apply f_digits|intros; exact Logic.I]|]. intros ofp. fs.
  Qed.
  Lemma f_nni n : fwd (non_negative_int n : P _).
  Proof. unfold non_negative_int. apply fwd_bind; [apply f_numeric|]. intros; fs. Qed.
  Lemma b_prev_byte : bwd (prev_byte : P Z).
  Proof. unfold prev_byte. cbn [bind prev bwd]. intros [?|]; exact Logic.I. Qed.
  Lemma b_read_back k : forall w, bwd (read_back k w : P _).
  Proof. induction k; intros w; cbn [read_back]; [exact Logic.I|]. apply bwd_bind; [apply b_prev_byte|auto]. Qed.
  Lemma b_eof_loop k : forall w, bwd (eof_loop k w : P _).
  Proof.
    induction k; intros w; cbn [eof_loop]; [exact Logic.I|]. cbn [bind cur bwd]. intros [?|]; [|exact Logic.I].
    destruct (eqlZ _ _); [exact Logic.I|]. apply bwd_bind; [apply b_prev_byte|auto].
  Qed.
  Lemma b_startxref_loop k : forall w, bwd (startxref_loop k w : P _).
  Proof.
    induction k; intros w; cbn [startxref_loop]; [exact Logic.I|]. cbn [bind cur bwd]. intros [?|]; [|exact Logic.I].
    destruct (eqlZ _ _); [exact Logic.I|]. apply bwd_bind; [apply b_prev_byte|auto].
  Qed.
  Lemma nni_nonneg n s z s' : arun f (non_negative_int n : P Z) s = (Ok z, s') -> 0 <= z.
  Proof.
    unfold non_negative_int. rewrite arun_bind. destruct (arun f (numeric n) s) as [[v|] s1]; [|discriminate].
    destruct v; try discriminate. destruct (_ <? 0) eqn:E; cbn; intros [= -> ->]; lia.
  Qed.
  (** The search from the end of the file: the buffer goes back block by block, and then on to the number. *)
  Definition xpost (st : list Z) (u : U) (vs : list sess) (r : res Z) (s' : ast U) (v' : sess) (vs' : list sess) : Prop :=
    vs' = vs /\ a_store s' = st /\ a_usr s' = u /\ match r with Err _ => tails v' | Ok z => 0 <= z end.
  Lemma xpost_err st u vs e s' v' vs' : tpost st u vs (@Err Z e) s' v' vs' -> xpost st u vs (Err e) s' v' vs'.
  Proof. unfold tpost, xpost. tauto. Qed.
  Lemma dw_xref_offset n s v vs : a_pos (snd (arun f (xref_offset n : P Z) s)) < zlen f ->
    dw f B (xref_offset n : P Z) s v vs (xpost (a_store s) (a_usr s) vs).
  Proof.
    destruct s as [pos st u]. cbn [a_store a_usr]. unfold xref_offset. intros HF.
    assert (dw f B (seek_eof : P unit) (mkA pos st u) v vs (tpost st u vs)) as Hs.
    { unfold seek_eof. cbn [reset bind dw a_store a_usr]. apply bwd_dw.
      - apply bwd_bind; [apply b_read_back|]. intros; apply b_eof_loop.
      - unfold sess_reset, tails. cbn. auto.
      - unfold reset_pos. cbn [Z.leb Z.compare Z.opp]. lia. }
    rewrite arun_bind in HF.
    eapply dw_bind_det; [exact Hs| |].
    2:{ intros e s' v' vs' _ H. apply xpost_err. exact H. }
    intros [] s1 v1 vs1 E1 (Hv1 & -> & Est1 & Eu1 & Hp1). rewrite E1 in HF. destruct s1 as [p1 st1 u1]. cbn [a_store a_usr a_pos] in *. subst st1 u1.
    rewrite arun_bind in HF. eapply dw_bind_det; [apply bwd_dw; [apply b_read_back|exact Hv1|exact Hp1]| |].
    2:{ intros e s' v' vs' _ H. apply xpost_err. exact H. }
    intros w s2 v2 vs2 E2 (Hv2 & -> & Est2 & Eu2 & Hp2). rewrite E2 in HF. destruct s2 as [p2 st2 u2]. cbn [a_store a_usr a_pos] in *. subst st2 u2.
    rewrite arun_bind in HF. eapply dw_bind_det; [apply bwd_dw; [apply b_startxref_loop|exact Hv2|exact Hp2]| |].
    2:{ intros e s' v' vs' _ H. apply xpost_err. exact H. }
    intros [] s3 v3 vs3 E3 (Hv3 & -> & Est3 & Eu3 & Hp3). rewrite E3 in HF. destruct s3 as [p3 st3 u3]. cbn [a_store a_usr a_pos] in *. subst st3 u3.
    eapply dw_conseq; [apply dw_det; apply fwd_dw; [|exact Hv3|exact HF]|].
    - apply fwd_bind; [apply f_read|]. intros _. apply fwd_bind; [apply f_sp|]. intros _. apply f_nni.
    - cbv beta. intros r s' v' vs' (E & Hv' & -> & Est & Eu & Hp). unfold xpost. repeat (split; [auto|]).
      destruct r as [z|e]; [|auto]. rewrite arun_bind in E. destruct (arun f (read 10) _) as [[w'|] s4]; [|discriminate].
      rewrite arun_bind in E. destruct (arun f (sp n) s4) as [[w''|] s5]; [|discriminate]. eapply nni_nonneg; eauto.
  Qed.
End Det.

Section Open.
  Variable inflate : list Z -> option (list Z).
  Variable ccitt : list Z -> fparams -> res (list Z).
  Variable decrypt : Z -> Z -> obj -> res obj.
  Variables (D m : nat).
  Variables (f : list Z) (B : Z).
  Notation P := (prog rst).
  Notation gw := (L_Blocks.gw f B I).
  Notation jw := (L_Blocks.jw f B I).
  Notation any := (fun _ _ => True).

  (** a fact about positions in a forward run is a fact about the plain run *)
  Lemma gw_arun {A} (p : P A) pos R st u a s' : gw pos [] p pos R -> I u (List.length st) -> arun f p (mkA pos st u) = (Ok a, s') -> R a (a_pos s').
  Proof.
    intros H HI E. pose (w q := mkS q q true false false).
    assert (Forall2 stored (map w st) st) as HF.
    { clear. induction st; constructor; auto. unfold stored, fine, w. cbn. repeat split. lia. }
    specialize (H st u (w pos) (map w st)). apply dw_end in H; auto.
    - destruct H as (v' & vs' & H). rewrite E in H. cbn [fst snd] in H. destruct H as (_ & _ & _ & _ & H). exact H.
    - unfold fine, w. cbn. auto.
    - unfold w. cbn. lia.
    - constructor.
  Qed.
  Lemma jw_gwR {A} (p : P A) n (R : A -> Prop) : (forall pos, gw pos [] p pos (fun a q => pos <= q /\ R a)) -> jw p n (fun a _ => R a).
  Proof.
    intros H st u v vs pos [Hv Hb] HF HI Hm. eapply dw_conseq; [apply (H pos); auto; constructor|].
    intros r s2 v2 vs2 (G2 & HI2 & Hv2 & HX2). split; [auto|]. split; [auto|]. destruct r; [destruct HX2 as (? & ? & ?)|]; (split; [split; [auto|]|]); auto; lia.
  Qed.

  (** runs that are known to succeed *)
  Definition okrun {A} (p : P A) (s : ast rst) : Prop := exists a s', arun f p s = (Ok a, s').
  Definition jwo {A} (p : P A) (n : nat) (R : A -> nat -> Prop) : Prop :=
    forall st u v vs pos, stored v pos -> Forall2 stored vs st -> I u (List.length st) -> (n <= List.length st)%nat -> okrun p (mkA pos st u) ->
    dw f B p (mkA pos st u) v vs (jpost I st vs R).
  Lemma jwo_jw {A} (p : P A) n R : jw p n R -> jwo p n R.
  Proof. intros H st u v vs pos Hv HF HI Hn _. now apply H. Qed.
  Lemma okrun_bind {A C} (p : P A) (g : A -> P C) s a s' : okrun (bind p g) s -> arun f p s = (Ok a, s') -> okrun (g a) s'.
  Proof. intros (c & s2 & E) E1. rewrite arun_bind, E1 in E. exists c, s2. exact E. Qed.
  Lemma jwo_bind {A C} (p : P A) (g : A -> P C) n R R' : jwo p n R -> (forall a n', (n <= n')%nat -> R a n' -> jwo (g a) n' R') -> jwo (bind p g) n R'.
  Proof.
    intros H Hg st u v vs pos Hv HF HI Hn Hok.
    assert (okrun p (mkA pos st u)) as Hok1.
    { destruct Hok as (c & s2 & E). rewrite arun_bind in E. destruct (arun f p (mkA pos st u)) as [[a|] s1] eqn:E1; [|discriminate]. exists a, s1. auto. }
    eapply dw_bind_det; [apply H; auto| |].
    - intros a s' v' vs' E (G & HI' & Hv' & HX). pose proof (okrun_bind _ _ _ _ _ Hok E) as Hok2.
      destruct s' as [pos' st' u']. cbn [a_store a_usr a_pos] in *. pose proof (grown_len _ _ _ _ G).
      eapply dw_conseq; [apply (Hg a (List.length st')); auto; [lia|eapply grown_stored; eauto]|].
      intros r s2 v2 vs2 (G2 & HI2 & Hv2 & HX2). split; [eapply grown_trans; eauto|]. auto.
    - intros e s' v' vs' E (G & HI' & Hv' & _). unfold jpost. auto.
  Qed.
  Lemma jwo_Reset_any {A} o (k : P A) n R st u v vs pos : 0 <= o -> jwo k n R -> Forall2 stored vs st -> I u (List.length st) ->
    (n <= List.length st)%nat -> okrun (Reset o k) (mkA pos st u) -> dw f B (Reset o k) (mkA pos st u) v vs (jpost I st vs R).
  Proof.
    intros Ho H HF HI Hm Hok. cbn [dw a_store a_usr]. apply H; auto. unfold stored, fine, reset_pos, sess_reset.
    replace (0 <=? o) with true by lia. cbn. repeat split. lia.
  Qed.
  Lemma jwo_Reset {A} o (k : P A) n R : 0 <= o -> jwo k n R -> jwo (Reset o k) n R.
  Proof.
    intros Ho H st u v vs pos Hv HF HI Hm Hok. cbn [dw a_store a_usr]. apply H; auto. unfold stored, fine, reset_pos, sess_reset.
    replace (0 <=? o) with true by lia. cbn. repeat split. lia.
  Qed.
  (** going to the last byte of the file and reading on from there cannot succeed *)
  Lemma jwo_back {A C} o (p : P A) (g : A -> P C) n R' : o < 0 ->
    (forall pos, gw pos [] p pos (fun _ _ => pos + 2 <= zlen f)) -> jwo (Reset o (bind p g)) n R'.
  Proof.
    intros Ho H st u v vs pos Hv HF HI Hm (c & s2 & E). exfalso. cbn [arun a_store a_usr] in E. rewrite arun_bind in E.
    unfold reset_pos in E. replace (0 <=? o) with false in E by lia. destruct (arun f p (mkA (zlen f - 1) st u)) as [[a|] s1] eqn:E1; [|discriminate].
    eapply gw_arun in E1; [|apply H|exact HI]. cbv beta in E1. lia.
  Qed.

  (** the header *)
  Lemma search_nonneg (mk : list Z -> option (list Z)) : forall w b i j v, 0 <= i -> search mk b i w = Some (j, v) -> 0 <= j.
  Proof.
    induction w as [|x w IH]; intros b i j v Hi; cbn [search].
    - destruct b; [|discriminate]. destruct (mk []); [|discriminate]. intros [= <- _]. auto.
    - destruct (if b then mk (x :: w) else None); [intros [= <- _]; auto|]. apply IH. lia.
  Qed.
  Lemma header_in_nonneg w j v : header_in w = Some (j, v) -> 0 <= j.
  Proof.
    unfold header_in. destruct (search pdf_marker true 0 w) as [[j' v']|] eqn:E.
    - intros [= <- <-]. eapply search_nonneg in E; lia.
    - intros E2. eapply search_nonneg in E2; lia.
  Qed.
  Lemma g_header_loop lo hs : forall k w pos, lo <= pos ->
    gw lo hs (header_loop k w : P _) pos (fun r q => pos <= q /\ match r with Some (j, _) => 0 <= j | None => True end).
  Proof.
    induction k as [|k IH]; intros w pos Hlo; cbn [header_loop]; destruct (header_in w) as [[j v]|] eqn:E; try (apply header_in_nonneg in E); gs.
    destruct (znth f pos); gs. apply g_next_byte; auto. intros x. eapply gw_conseq; [apply IH; lia|]. cbv beta. intros r q [H1 H2]. split; [lia|auto].
  Qed.
  Lemma dw_bind_gw {A C} lo (p : P A) (g : A -> P C) pos R st u v vs Q : gw lo [] p pos R ->
    fine v -> s_base v <= lo -> Forall2 stored vs st -> I u (List.length st) ->
    (forall a pos' st' u' v' vs', grown st vs st' vs' -> Forall2 stored vs' st' -> I u' (List.length st') -> fine v' -> s_base v' = s_base v -> R a pos' ->
       dw f B (g a) (mkA pos' st' u') v' vs' Q) ->
    (forall e s' v' vs', grown st vs (a_store s') vs' -> I (a_usr s') (List.length (a_store s')) -> stored v' (a_pos s') -> Q (Err e) s' v' vs') ->
    dw f B (bind p g) (mkA pos st u) v vs Q.
  Proof.
    intros H Hv Hb HF HI Hok Herr. apply dw_bind. eapply dw_conseq; [apply (H st u v vs); auto; constructor|].
    intros r [pos' st' u'] v' vs' (G & HI' & Hv' & HX). cbn [a_pos a_store a_usr] in *. destruct r as [a|e].
    - destruct HX. apply Hok; auto. eapply grown_stored; eauto.
    - apply Herr; cbn [a_pos a_store a_usr]; auto. split; auto.
  Qed.
  Lemma j_header n : jw (pdf_header : P _) n (fun r _ => 0 <= snd r).
  Proof.
    intros st u v vs pos Hv HF HI Hn. unfold pdf_header. cbn [reset bind dw a_store a_usr].
    change (reset_pos f 0) with 0.
    assert (fine (sess_reset f B 0)) as H0 by (split; reflexivity). assert (s_base (sess_reset f B 0) = 0) as Hb0 by reflexivity.
    revert H0 Hb0. generalize (sess_reset f B 0). intros v0 H0 Hb0.
    eapply dw_bind_gw; [apply g_read; apply Z.le_refl|auto|lia|auto|auto| |].
    2:{ intros e s' v' vs' G HI' HS. unfold jpost. auto. }
    intros w p1 st1 u1 v1 vs1 G1 HF1 HI1 Hv1 Hb1 [-> _].
    eapply dw_bind_gw; [apply (g_header_loop 0); lia|auto|lia|auto|auto| |].
    2:{ intros e s' v' vs' G HI' HS. unfold jpost. split; [eapply grown_trans; eauto|]. auto. }
    intros r p2 st2 u2 v2 vs2 G2 HF2 HI2 Hv2 Hb2 [Hp2 Hr].
    pose proof (grown_trans _ _ _ _ _ _ G1 G2) as G12.
    destruct r as [[j ver]|].
    2:{ cbn [throw dw]. unfold jpost. cbn [a_pos a_store a_usr]. split; [exact G12|]. split; [auto|]. split; [|auto]. split; [auto|lia]. }
    eapply dw_bind_gw; [apply (g_prevs f B I 0 [] 22); lia|auto|lia|auto|auto| |].
    2:{ intros e s' v' vs' G HI' HS. unfold jpost. split; [eapply grown_trans; eauto|]. auto. }
    intros [] p3 st3 u3 v3 vs3 G3 HF3 HI3 Hv3 Hb3 ->. cbn [index_ bind dw ret a_pos]. split; [lia|]. unfold jpost. cbn [a_pos a_store a_usr snd].
    split; [eapply grown_trans; eauto|]. split; [auto|]. split; [split; [auto|lia]|lia].
  Qed.

  Section T.
    Variable kl : nat.
    Notation hook := (length_hook (locate_object inflate ccitt decrypt D m kl)).
    Notation iobj := (reg_indirect inflate ccitt decrypt D m hook).
    Lemma g_hook lo hs d pos : lo <= pos -> gw lo hs (hook d) pos (ge pos 0).
    Proof. apply (g_length_hook inflate ccitt decrypt m). intros. apply j_locate. Qed.
    Lemma g_table n pos : gw pos [] (table_section hook n) pos (fun a q => (pos <= q /\ xok (fst a)) /\ pos + 2 <= zlen f).
    Proof.
      unfold table_section. eapply gw_bind; [apply g_direct_xref; lia|]. cbv beta. intros x q (H1 & H2 & H3).
      eapply gw_bind; [eapply g_sp; lia|]. cbv beta. unfold ge at 1. intros _ q2 Hq2.
      eapply gw_bind; [eapply g_trailer; [intros; now apply g_hook|lia]|]. cbv beta. unfold ge at 1. intros t q3 Hq3. apply gw_ret. cbn [fst]. split; [split; [lia|auto]|lia].
    Qed.
    Lemma j_table n n' : jw (table_section hook n) n' (fun a _ => xok (fst a)).
    Proof. apply jw_gwR. intros pos. eapply gw_conseq; [apply g_table|]. cbv beta. intros a q [H _]. exact H. Qed.
    Lemma g_section pos : gw pos [] (xref_stream_section inflate ccitt iobj) pos (fun a q => (pos <= q /\ xok (fst a)) /\ pos + 2 <= zlen f).
    Proof.
      unfold xref_stream_section. eapply gw_bind; [eapply g_iobj; [intros; apply j_locate|lia]|]. cbv beta. intros [[num gen] v] q [H1 H2].
      destruct v; try (apply gw_throw; lia). destruct (dget d (bs "Type")) as [t|]; [|apply gw_throw; lia].
      destruct (is_name t (bs "XRef")); [|apply gw_throw; lia].
      destruct (xref_from_stream inflate ccitt d data) as [x|] eqn:E; [|apply gw_throw; lia]. apply gw_ret. cbn [fst]. split; [split; [lia|]|lia].
      eapply xok_stream; eauto.
    Qed.
    Lemma j_section n' : jw (xref_stream_section inflate ccitt iobj) n' (fun a _ => xok (fst a)).
    Proof. apply jw_gwR. intros pos. eapply gw_conseq; [apply g_section|]. cbv beta. intros a q [H _]. exact H. Qed.
    Notation good := (fun (l : list xref) (_ : nat) => Forall xok l).
    Lemma jo_prev_tables n : forall k p acc n', Forall xok acc -> jwo (prev_tables hook k n p acc) n' good.
    Proof.
      induction k as [|k IH]; intros p acc n' Ha; cbn [prev_tables]; (destruct (truthy p); [|apply jwo_jw, jw_ret; auto]); [apply jwo_jw, jw_throw|].
      unfold reset_to. destruct (as_range p) as [z|]; [|apply jwo_jw, jw_throw]. unfold reset. cbn [bind].
      destruct (Z_lt_ge_dec z 0) as [Hz|Hz]; [eapply jwo_back; [auto|intros; eapply gw_conseq; [apply g_table|cbv beta; intros ? ? [_ H]; exact H]]|].
      apply jwo_Reset; [lia|]. eapply jwo_bind; [apply jwo_jw, j_table|]. cbv beta. intros [x t] n2 Hn2 Hx. apply IH. apply Forall_app; auto.
    Qed.
    Lemma jo_prev_streams : forall k p acc n', Forall xok acc -> jwo (prev_streams inflate ccitt iobj k p acc) n' good.
    Proof.
      assert (forall z (g : xref * dict -> P (list xref)) n', (forall a n', xok (fst a) -> jwo (g a) n' good) ->
        jwo (bind (reset z) (fun _ => bind (xref_stream_section inflate ccitt iobj) g)) n' good) as Hstep.
      { intros z g n' Hg. unfold reset. cbn [bind]. destruct (Z_lt_ge_dec z 0) as [Hz|Hz]; [eapply jwo_back; [auto|intros; eapply gw_conseq; [apply g_section|cbv beta; intros ? ? [_ H]; exact H]]|].
        apply jwo_Reset; [lia|]. eapply jwo_bind; [apply jwo_jw, j_section|]. cbv beta. intros a n2 Hn2 Hx. now apply Hg. }
      induction k as [|k IH]; intros p acc n' Ha; cbn [prev_streams].
      { destruct p; try (apply jwo_jw, jw_throw). apply jwo_jw, jw_ret. auto. }
      assert (jwo (reset_to p;;; ' (x, d) <- xref_stream_section inflate ccitt iobj;; prev_streams inflate ccitt iobj k (oget d (bs "Prev")) (acc ++ [x])) n' good) as H.
      { unfold reset_to. destruct (as_range p) as [z|]; [|apply jwo_jw, jw_throw]. apply Hstep. intros [x d] n2 Hx. apply IH. apply Forall_app; auto. }
      destruct p; try exact H. apply jwo_jw, jw_ret. auto.
    Qed.
    Lemma j_trailer_obj xs d n' : Forall xok xs -> jw (pdf_trailer_obj xs d : P _) n' (fun a _ => Forall xok (fst a)).
    Proof. intros H. unfold pdf_trailer_obj. destruct (dget d (bs "xrefs")); [apply jw_throw|]. destruct (dget d (bs "self")); [apply jw_throw|]. apply jw_ret. auto. Qed.
    Lemma jo_trailer k n n' : (forall s, a_pos (snd (arun f (xref_offset n : P Z) s)) < zlen f) ->
      jwo (pdf_trailer inflate ccitt hook iobj k n) n' (fun a _ => Forall xok (fst a)).
    Proof.
      intros HF st u v vs pos Hv HFs HI Hn Hok. unfold pdf_trailer in *.
      set (rest := fun off : Z => c <- cur;;
        (if is_cur c 120 then ' (x, t) <- table_section hook n;; xs <- prev_tables hook k n (oget t (bs "Prev")) [x];; pdf_trailer_obj xs t
         else reset off;;; ' (x, d) <- xref_stream_section inflate ccitt iobj;; xs <- prev_streams inflate ccitt iobj k (oget d (bs "Prev")) [x];;
              pdf_trailer_obj xs (tdict_of d))).
      change (okrun (bind (xref_offset n) (fun off => Reset off (rest off))) (mkA pos st u)) in Hok.
      change (dw f B (bind (xref_offset n) (fun off => Reset off (rest off))) (mkA pos st u) v vs (jpost I st vs (fun a _ => Forall xok (fst a)))).
      assert (forall off n2, 0 <= off -> jwo (rest off) n2 (fun a _ => Forall xok (fst a))) as Hrest.
      { intros off n2 Ho. unfold rest, reset. cbn [bind].
        eapply jwo_bind with (R := any). { apply jwo_jw, jw_gw. intros p. apply (g_cur f B I p [] (fun x => ret x)); [lia|]. apply gw_ret. lia. }
        intros c n3 _ _. destruct (is_cur c 120).
        - eapply jwo_bind; [apply jwo_jw, j_table|]. cbv beta. intros [x t] n4 _ Hx. eapply jwo_bind; [apply jo_prev_tables; auto|]. cbv beta.
          intros xs n5 _ Hxs. now apply jwo_jw, j_trailer_obj.
        - apply jwo_Reset; auto. eapply jwo_bind; [apply jwo_jw, j_section|]. cbv beta. intros [x t] n4 _ Hx. eapply jwo_bind; [apply jo_prev_streams; auto|]. cbv beta.
          intros xs n5 _ Hxs. now apply jwo_jw, j_trailer_obj. }
      clearbody rest.
      eapply dw_bind_det; [apply dw_xref_offset; apply HF| |].
      - intros off s' v' vs' E (-> & Est & Eu & Ho). destruct s' as [p' st' u']. cbn [a_store a_usr] in *. subst st' u'.
        pose proof (okrun_bind _ _ _ _ _ Hok E) as Hok2. eapply jwo_Reset_any; [auto|apply (Hrest off n'); auto|auto|auto|auto|exact Hok2].
      - intros e s' v' vs' E _. exfalso. destruct Hok as (c & s2 & E2). rewrite arun_bind, E in E2. discriminate.
    Qed.

  End T.

  Lemma jo_open k n : (forall s, a_pos (snd (arun f (xref_offset m : P Z) s)) < zlen f) ->
    jwo (open_document inflate ccitt decrypt D m k) n any.
  Proof.
    intros HF. unfold open_document. eapply jwo_bind; [apply jwo_jw, j_header|]. cbv beta. intros [ver off] n2 _ Ho. cbn [snd] in Ho.
    eapply jwo_bind; [apply jo_trailer; exact HF|]. cbv beta. intros [xs t] n3 _ Hxs. cbn [fst] in Hxs. apply jwo_jw.
    apply jw_GetU. intros u n4 Hn4 [Hu1 _]. apply jw_SetU; [intros n5 Hn5; split; cbn [r_bf r_xrefs]; [destruct (r_bf u); [lia|auto]|exact Hxs]|].
    apply jw_Reset; auto. apply jw_Save. intros h. apply jw_GetU. intros u2 n5 Hn5 [_ Hu2].
    apply jw_SetU; [intros n6 Hn6; split; cbn [r_bf r_xrefs]; [lia|exact Hu2]|]. now apply jw_ret.
  Qed.
End Open.

(** Going on from related states. *)
Definition linked (f : list Z) (B : Z) (s : ast rst) (c : cst rst) : Prop :=
  exists v vs, sim f B s c v vs /\ stored v (a_pos s) /\ Forall2 stored vs (a_store s) /\ I (a_usr s) (List.length (a_store s)).
Lemma linked_usr f B s c : linked f B s c -> c_usr c = a_usr s.
Proof. intros (v & vs & (_ & _ & _ & _ & H) & _). auto. Qed.
Lemma linked_jwo {A} f B (p : prog rst A) R s c : 0 < B -> linked f B s c -> jwo f B p 0 R -> okrun f p s ->
  fst (crun f B p c) = fst (arun f p s) /\ linked f B (snd (arun f p s)) (snd (crun f B p c)).
Proof.
  intros HB (v & vs & Hs & Hv & HF & HI) Hj Hok. destruct s as [pos st u]. cbn [a_pos a_store a_usr] in *.
  destruct (dw_sim f B p HB _ _ _ _ _ Hs (Hj st u v vs pos Hv HF HI ltac:(lia) Hok)) as (v' & vs' & E & Hs' & G & HI' & Hv' & _).
  split; [exact E|]. exists v', vs'. split; [exact Hs'|]. split; [exact Hv'|]. split; [eapply grown_stored; eauto|exact HI'].
Qed.
Lemma linked_jw {A} f B (p : prog rst A) R s c : 0 < B -> linked f B s c -> jw f B I p 0 R ->
  fst (crun f B p c) = fst (arun f p s) /\ linked f B (snd (arun f p s)) (snd (crun f B p c)).
Proof.
  intros HB (v & vs & Hs & Hv & HF & HI) Hj. destruct s as [pos st u]. cbn [a_pos a_store a_usr] in *.
  destruct (dw_sim f B p HB _ _ _ _ _ Hs (Hj st u v vs pos Hv HF HI ltac:(lia))) as (v' & vs' & E & Hs' & G & HI' & Hv' & _).
  split; [exact E|]. exists v', vs'. split; [exact Hs'|]. split; [exact Hv'|]. split; [eapply grown_stored; eauto|exact HI'].
Qed.
Lemma linked_start f B : 0 < B -> linked f B (mkA 0 [] (mkR [] None None [])) (mkC (b_reset f B 0) [] (mkR [] None None [])).
Proof.
  intros HB. exists (sess_reset f B 0), []. split; [|split; [|split; [constructor|split; exact Logic.I]]].
  - split; [apply (reset_rep f B 0 HB)|]. split; [reflexivity|]. split; [reflexivity|]. split; [|reflexivity]. intros [|?]; discriminate.
  - unfold stored, fine, sess_reset. cbn. repeat split. lia.
Qed.
