(** Which exceptions the document parser can raise, on any bytes, and what happens to the stack of scanning lookups. *)
From Coq Require Import String.
From Verif Require Import Prelude M_Prog L_Prog M_Parser M_Filters M_Document.
Local Open Scope Z_scope.
Local Open Scope prog_scope.

(** The run of [p] from [s] never restores a state that was not saved, and ends with [Q]. *)
Fixpoint bw {U A} (f : list Z) (p : prog U A) (s : ast U) (Q : res A -> ast U -> Prop) : Prop :=
  match p with
  | Ret a => Q (Ok a) s
  | Throw e => Q (Err e) s
  | Cur k => bw f (k (znth f (a_pos s))) s Q
  | Next k => bw f (k (znth f (a_pos s))) (mkA (a_pos s + 1) (a_store s) (a_usr s)) Q
  | Prev k => bw f (k (znth f (a_pos s))) (mkA (a_pos s - 1) (a_store s) (a_usr s)) Q
  | Reset o k => bw f k (mkA (reset_pos f o) (a_store s) (a_usr s)) Q
  | Save k => bw f (k (List.length (a_store s))) (mkA (a_pos s) (a_store s ++ [a_pos s]) (a_usr s)) Q
  | Restore h k => match nth_error (a_store s) h with Some q => bw f k (mkA q (a_store s) (a_usr s)) Q | None => False end
  | Index k => bw f (k (a_pos s)) s Q
  | GetU k => bw f (k (a_usr s)) s Q
  | SetU u k => bw f k (mkA (a_pos s) (a_store s) u) Q
  end.
Lemma bw_arun {U A} f (p : prog U A) : forall s Q, bw f p s Q -> Q (fst (arun f p s)) (snd (arun f p s)).
Proof. induction p as [a|e|k IH|k IH|k IH|o k IH|k IH|h k IH|k IH|k IH|u k IH]; intros s Q; cbn [bw arun fst snd]; auto; try apply IH. destruct (nth_error (a_store s) h); [apply IH|tauto]. Qed.
Lemma bw_conseq {U A} f (p : prog U A) : forall s (Q Q' : res A -> ast U -> Prop), bw f p s Q -> (forall r s', Q r s' -> Q' r s') -> bw f p s Q'.
Proof. induction p as [a|e|k IH|k IH|k IH|o k IH|k IH|h k IH|k IH|k IH|u k IH]; intros s Q Q'; cbn [bw]; eauto. destruct (nth_error (a_store s) h); eauto. Qed.
Lemma bw_bind {U A C} f (p : prog U A) (g : A -> prog U C) : forall s Q,
  bw f p s (fun r s' => match r with Ok a => bw f (g a) s' Q | Err e => Q (Err e) s' end) -> bw f (bind p g) s Q.
Proof. induction p as [a|e|k IH|k IH|k IH|o k IH|k IH|h k IH|k IH|k IH|u k IH]; intros s Q; cbn [bw bind]; eauto. destruct (nth_error (a_store s) h); eauto. Qed.
Lemma bw_catch {U A} f (p : prog U A) hd (g : exn -> prog U A) : forall s (Q : res A -> ast U -> Prop),
  bw f p s (fun r s' => match r with Ok a => Q (Ok a) s'
                        | Err e => if hd e && negb (exn_eqb e OutOfFuel) then bw f (g e) s' Q else Q (Err e) s' end) ->
  bw f (catch p hd g) s Q.
Proof.
  induction p as [a|e|k IH|k IH|k IH|o k IH|k IH|h k IH|k IH|k IH|u k IH]; intros s Q; cbn [bw catch]; eauto.
  - destruct (hd e && negb (exn_eqb e OutOfFuel)); auto.
  - destruct (nth_error (a_store s) h); eauto.
Qed.

Section Raises.
  Variable f : list Z.
  (** the exceptions allowed *)
  Variable E : list exn.
  Context {U : Type}.
  (** an invariant of the user state (kept when more states are saved), and the stack of lookups in it *)
  Variable I : U -> nat -> Prop.
  Variable stack : U -> list (Z * Z).
  Notation P := (prog U).
  Notation len s := (List.length (a_store s)).
  Notation stk s := (stack (a_usr s)).
  Notation inv s := (I (a_usr s) (len s)).

  (** [bal b m p R]: with [m] states saved, the run leaves the stack of lookups as it was, and raises only an allowed exception; if [b],
      also BruteForceRecursion while the stack is not empty.  (When the model's fuel runs out, nothing is said.) *)
  Definition bpost {A} (b : bool) (s : ast U) (R : A -> nat -> Prop) (r : res A) (s' : ast U) : Prop :=
    r = Err OutOfFuel \/
    ((len s <= len s')%nat /\ inv s' /\ stk s' = stk s /\
     match r with Ok a => R a (len s') | Err e => In e E \/ (b = true /\ e = BruteForceRec /\ stk s <> []) end).
  Definition bal {A} (b : bool) (m : nat) (p : P A) (R : A -> nat -> Prop) : Prop := forall s, (m <= len s)%nat -> inv s -> bw f p s (bpost b s R).
  Definition anyR {A} (_ : A) (_ : nat) : Prop := True.

  Ltac four := split; [auto|split; [auto|split; [auto|auto]]].
  Lemma bal_conseq {A} b m (p : P A) (R R' : A -> nat -> Prop) : bal b m p R -> (forall a n, (m <= n)%nat -> R a n -> R' a n) -> bal b m p R'.
  Proof.
    intros H HR s Hm Hi. eapply bw_conseq; [apply H; auto|]. intros r s' [->|(A1 & A2 & A3 & A4)]; [now left|]. right. four. destruct r; auto. apply HR; auto. lia.
  Qed.
  Lemma bal_weak {A} b m (p : P A) R : bal false m p R -> bal b m p R.
  Proof. intros H s Hm Hi. eapply bw_conseq; [apply H; auto|]. intros r s' [->|(A1 & A2 & A3 & A4)]; [now left|]. right. four. destruct r; auto. destruct A4 as [?|(? & _)]; [auto|discriminate]. Qed.
  Lemma bal_any {A} b m (p : P A) R : bal b m p R -> bal b m p anyR.
  Proof. intros H. eapply bal_conseq; eauto. intros; exact Logic.I. Qed.
  Lemma bal_more {A} b m m' (p : P A) R : bal b m p R -> (m <= m')%nat -> bal b m' p R.
  Proof. intros H L s Hm Hi. apply H; auto. lia. Qed.
  Lemma bal_ret {A} b m (a : A) (R : A -> nat -> Prop) : (forall n, (m <= n)%nat -> R a n) -> bal b m (ret a) R.
  Proof. intros H s Hm Hi. cbn. right. four. Qed.
  Lemma bal_throw {A} b m e (R : A -> nat -> Prop) : In e E -> bal b m (throw e) R.
  Proof. intros H s Hm Hi. cbn. right. four. Qed.
  Lemma bal_bind {A C} b m (p : P A) (g : A -> P C) R R' : bal b m p R -> (forall a n, (m <= n)%nat -> R a n -> bal b n (g a) R') -> bal b m (bind p g) R'.
  Proof.
    intros Hp Hg s Hm Hi. apply bw_bind. eapply bw_conseq; [apply Hp; auto|]. intros [a|e] s1 [X|(A1 & A2 & A3 & A4)]; [discriminate X| |left; congruence|right; four].
    eapply bw_conseq; [apply (Hg a (len s1)); auto; lia|]. intros r s2 [->|(B1 & B2 & B3 & B4)]; [now left|]. right. rewrite A3 in *. (split; [lia|]); (split; [exact B2|]); (split; [exact B3|]). destruct r; auto.
  Qed.
  Lemma bal_catch {A} b m (p : P A) hd (g : exn -> P A) R : bal b m p R -> (forall e, hd e = true -> bal b m (g e) R) -> bal b m (catch p hd g) R.
  Proof.
    intros Hp Hg s Hm Hi. apply bw_catch. eapply bw_conseq; [apply Hp; auto|]. intros [a|e] s1 [X|(A1 & A2 & A3 & A4)]; [discriminate X|right; four| |].
    { injection X as ->. change (negb (exn_eqb OutOfFuel OutOfFuel)) with false. rewrite andb_false_r. now left. }
    destruct (hd e) eqn:Eh; cbn [andb]; [|right; four]. destruct (negb (exn_eqb e OutOfFuel)); [|right; four].
    eapply bw_conseq; [apply (Hg e Eh s1); auto; lia|]. intros r s2 [->|(B1 & B2 & B3 & B4)]; [now left|]. right. rewrite A3 in *. (split; [lia|]); (split; [exact B2|]); (split; [exact B3|]). destruct r; auto.
  Qed.
  (** catching BruteForceRecursion *)
  Lemma bal_catch_bfr {A} m (p : P A) (g : exn -> P A) R : bal true m p R -> (forall e, bal false m (g e) R) -> bal false m (catch p is_bfr g) R.
  Proof.
    intros Hp Hg s Hm Hi. apply bw_catch. eapply bw_conseq; [apply Hp; auto|]. intros [a|e] s1 [X|(A1 & A2 & A3 & A4)]; [discriminate X|right; four| |].
    { injection X as ->. change (negb (exn_eqb OutOfFuel OutOfFuel)) with false. rewrite andb_false_r. now left. }
    destruct (is_bfr e && negb (exn_eqb e OutOfFuel)) eqn:Eh.
    - eapply bw_conseq; [apply (Hg e s1); auto; lia|]. intros r s2 [->|(B1 & B2 & B3 & B4)]; [now left|]. right. rewrite A3 in *. (split; [lia|]); (split; [exact B2|]); (split; [exact B3|]). destruct r; auto.
    - right. four. destruct A4 as [?|(_ & -> & _)]; [auto|]. discriminate Eh.
  Qed.
  Lemma bal_cur b m : bal b m cur anyR. Proof. intros s Hm Hi. cbn. right. four. exact Logic.I. Qed.
  Lemma bal_next b m : bal b m next anyR. Proof. intros s Hm Hi. cbn. right. four. exact Logic.I. Qed.
  Lemma bal_prev b m : bal b m prev anyR. Proof. intros s Hm Hi. cbn. right. four. exact Logic.I. Qed.
  Lemma bal_reset b m o : bal b m (reset o) anyR. Proof. intros s Hm Hi. cbn. right. four. exact Logic.I. Qed.
  Lemma bal_index b m : bal b m index_ anyR. Proof. intros s Hm Hi. cbn. right. four. exact Logic.I. Qed.
  Lemma bal_save (Imono : forall u n n', I u n -> (n <= n')%nat -> I u n') b m : bal b m save (fun h n => (h < n)%nat).
  Proof.
    intros s Hm Hi. cbn. right. cbn [a_store a_usr a_pos]. rewrite app_length. cbn [List.length].
    split; [lia|]. split; [eapply Imono; [exact Hi|lia]|]. split; [auto|]. lia.
  Qed.
  Lemma bal_restore b m h : (h < m)%nat -> bal b m (restore h) anyR.
  Proof.
    intros Hh s Hm Hi. cbn. destruct (nth_error (a_store s) h) as [q|] eqn:Eq; [right; four; exact Logic.I|]. apply nth_error_None in Eq. lia.
  Qed.
  Lemma bal_getu b m : bal b m getu (fun u n => I u n).
  Proof. intros s Hm Hi. cbn. right. four. Qed.
  (** changing the user state, but not the stack *)
  Lemma bal_modify {A} b m (F : U -> U) (k : U -> P A) (R : A -> nat -> Prop) :
    (forall u n, (m <= n)%nat -> I u n -> I (F u) n /\ stack (F u) = stack u) -> (forall u, bal b m (k u) R) ->
    bal b m (bind getu (fun u => bind (setu (F u)) (fun _ => k u))) R.
  Proof.
    intros HF Hk s Hm Hi. cbn. destruct (HF (a_usr s) _ Hm Hi) as [F1 F2]. set (s1 := mkA (a_pos s) (a_store s) (F (a_usr s))).
    eapply bw_conseq; [apply (Hk (a_usr s) s1); auto|]. intros r s2 [->|(B1 & B2 & B3 & B4)]; [now left|]. right. cbn [s1 a_usr a_store] in *. rewrite F2 in *. four.
  Qed.
End Raises.
Ltac spl_ms := repeat (first [left; reflexivity | right]).

(** What the parser of a document can raise. *)
Definition raisable : list exn := [ParserExc; TypeErr; ValueErr; KeyErr; AttributeErr; IndexErr; AssertionErr; NotImpl; OutOfFuel].

Section Filters.
  Variable E : list exn.
  Hypothesis HE : incl raisable E.
  Definition okr {A} (r : res A) : Prop := match r with Ok _ => True | Err e => In e E end.
  Variable inflate : list Z -> option (list Z).
  Variable ccitt : list Z -> fparams -> res (list Z).
  Hypothesis Hcc : forall d p, okr (ccitt d p).
  Lemma okr_err {A} e : In e raisable -> @okr A (Err e).
  Proof. intros H. now apply HE. Qed.
  Ltac ms := cbn; auto 12.
  Lemma okr_rbind {A C} (r : res A) (g : A -> res C) : okr r -> (forall a, okr (g a)) -> okr (rbind r g).
  Proof. destruct r; cbn; auto. Qed.
  Lemma okr_fromhex : forall n s, (List.length s <= n)%nat -> okr (fromhex s).
  Proof.
    clear Hcc ccitt inflate.
    induction n as [|n IH]; intros [|a r] H; cbn [fromhex]; try (cbn; exact I); cbn [List.length] in H; [lia|].
    destruct (py_isspace a); [apply IH; lia|]. destruct (hexval a); [|apply okr_err; ms]. destruct r as [|b r']; [apply okr_err; ms|]. cbn [List.length] in H.
    destruct (hexval b); [|apply okr_err; ms]. specialize (IH r' ltac:(lia)). destruct (fromhex r'); [exact I|exact IH].
  Qed.
  Lemma okr_predictors d p c : okr (remove_predictors d p c).
  Proof.
    unfold remove_predictors. destruct (_ =? 1); [exact I|]. destruct (_ =? 2); [apply okr_err; ms|]. destruct (_ && _); [|apply okr_err; ms].
    destruct c as [c|]; [|apply okr_err; ms]. cbv zeta. destruct (_ =? 0); [apply okr_err; ms|]. destruct (_ <? 0); exact I.
  Qed.
  Lemma okr_pget p k : okr (pget p k).
  Proof. destruct p; try exact I. apply okr_err. ms. Qed.
  Lemma okr_ahx : forall data buf acc e, snd (ahx_loop data buf acc) = Some e -> In e E.
  Proof.
    assert (forall buf acc e, snd (ahx_final buf acc) = Some e -> In e E) as HF.
    { intros buf acc e. unfold ahx_final. destruct buf as [|x buf]; [discriminate|]. cbv zeta.
      match goal with |- context [fromhex ?b] => pose proof (okr_fromhex _ b (le_n _)) as H; destruct (fromhex b) end; cbn; [discriminate|]. intros X. injection X as <-. exact H. }
    induction data as [|c r IH]; intros buf acc e; cbn [ahx_loop]; [apply HF|]. destruct (is_ws c); [apply IH|]. destruct (c =? 62); [apply HF|]. cbv zeta.
    destruct (1 <? _); [|apply IH].
    match goal with |- context [fromhex ?b] => pose proof (okr_fromhex _ b (le_n _)) as H; destruct (fromhex b) end; [apply IH|]. cbn. intros X. injection X as <-. exact H.
  Qed.
  Lemma okr_a85 : forall b curr acc, okr (a85_loop b curr acc).
  Proof.
    induction b as [|x r IH]; intros curr acc; cbn [a85_loop]; [exact I|]. destruct (_ && _).
    - cbv zeta. destruct (_ =? 5); [|apply IH]. unfold packI. destruct (_ && _); [apply IH|apply okr_err; ms].
    - destruct (x =? 122); [destruct curr; [apply IH|apply okr_err; ms]|]. destruct (a85_ignore x); [apply IH|apply okr_err; ms].
  Qed.
  Lemma okr_lzw : forall cps d acc, okr (lzw_decode_codes d cps acc).
  Proof.
    induction cps as [|cp r IH]; intros d acc; cbn [lzw_decode_codes]; [exact I|]. unfold decode_codepoint.
    destruct (cp =? 256); [apply IH|]. destruct (cp =? 257); [apply okr_err; ms|]. destruct (nth_error _ _); [apply IH|]. destruct (d_prefix d); [apply IH|apply okr_err; ms].
  Qed.
  Lemma okr_filter n d p : okr (apply_filter inflate ccitt n d p).
  Proof.
    unfold apply_filter. destruct (find_filter n filter_table) as [[]|]; cbn [run_filter]; try exact I; try (apply okr_err; ms).
    - unfold ascii85_decode. cbv zeta. match goal with |- okr (match ?r with _ => _ end) => assert (okr r) as H end.
      { destruct (M_Filters.ends_with _ _); [|apply okr_err; ms]. unfold a85decode. match goal with |- context [a85_loop ?b ?c ?d] => pose proof (okr_a85 b c d) as H; destruct (a85_loop b c d) as [[u v]|e] end; [|exact H].
        cbv zeta. destruct (_ =? 0); exact I. }
      match goal with |- okr (match ?r with _ => _ end) => destruct r end; [exact I|]. destruct (_ || _); [exact I|exact H].
    - unfold asciihex_decode. pose proof (okr_ahx d [] []) as H. destruct (ahx_loop d [] []) as [acc [e|]]; [|exact I]. destruct (exn_eqb e ValueErr); [exact I|]. now apply H.
    - destruct (inflate d); [|exact I]. apply okr_rbind; [apply okr_pget|intros]. apply okr_rbind; [apply okr_pget|intros]. apply okr_predictors.
    - match goal with |- okr (match ?r with _ => _ end) => assert (okr r) as H end.
      { apply okr_rbind; [apply okr_lzw|intros]. apply okr_rbind; [apply okr_pget|intros]. apply okr_rbind; [apply okr_pget|intros]. apply okr_predictors. }
      match goal with |- okr (match ?r with _ => _ end) => destruct r end; [exact I|]. destruct (exn_eqb e ValueErr); [exact I|exact H].
    - unfold runlength_decode. destruct (rl_loop _ _ _ _ _) as [[] ?]; exact I.
    - apply Hcc.
  Qed.
  Lemma okr_objs : forall l d p, okr (apply_objs inflate ccitt l d p).
  Proof.
    induction l as [|v l IH]; intros d p; cbn [apply_objs]; [exact I|]. destruct v; try (apply okr_err; ms).
    apply okr_rbind; [apply okr_filter|intros; apply IH].
  Qed.
  Lemma okr_filtered d raw : okr (filtered inflate ccitt d raw).
  Proof.
    unfold filtered. cbv zeta. destruct (truthy _); [|exact I]. destruct (oget d (bs "Filter")); try (apply okr_err; ms); [apply okr_filter|apply okr_objs].
  Qed.
  Lemma okr_rows w1 w2 w3 : forall rows num x, okr (xrows w1 w2 w3 num rows x).
  Proof.
    induction rows as [|row r IH]; intros num x; cbn [xrows]; [exact I|]. apply okr_rbind; [|intros; apply IH].
    assert (forall a b c, okr (new_entry a b c)) as HN by (intros; unfold new_entry; destruct (_ && _); [exact I|apply okr_err; ms]).
    unfold xrow. cbv zeta. destruct (_ =? 0); [apply okr_rbind; [apply HN|intros; exact I]|]. destruct (_ =? 1); [apply okr_rbind; [apply HN|intros; exact I]|].
    destruct (_ =? 2); [apply okr_rbind; [apply HN|intros; exact I]|exact I].
  Qed.
  Lemma okr_xref d raw : okr (xref_from_stream inflate ccitt d raw).
  Proof.
    unfold xref_from_stream. apply okr_rbind.
    - assert (okr (match dget d (bs "Size") with Some _ => Ok 0 | None => Err KeyErr end)) as HS by (destruct (dget d (bs "Size")); [exact I|apply okr_err; ms]).
      destruct (dget d (bs "Index")) as [v|]; [|exact HS]. destruct (truthy v); [|exact HS]. destruct v; try (apply okr_err; ms).
      destruct l as [|x [|y l]]; try (apply okr_err; ms). destruct (as_range x); [exact I|apply okr_err; ms].
    - intros first. destruct (dget d (bs "W")) as [[]|]; try (apply okr_err; ms). destruct (ints l) as [[|w1 [|w2 more]]|]; try (apply okr_err; ms).
      cbv zeta. apply okr_rbind.
      { unfold if_none. pose proof (okr_filtered d raw) as H. destruct (filtered inflate ccitt d raw) as [x|e]; [exact I|]. destruct e; try exact H. apply okr_err; ms. }
      intros data. destruct (_ =? 0); [apply okr_err; ms|]. destruct (_ <? 0); [exact I|]. destruct data; [exact I|]. destruct more; [apply okr_err; ms|apply okr_rows].
  Qed.
End Filters.
