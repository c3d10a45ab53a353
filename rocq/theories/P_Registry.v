(** The registry: C23 (first registration wins) and C24 (object streams). *)
From Coq Require Import String.
From Verif Require Import Prelude M_Prog M_Parser S_Syntax L_Buffer L_Prog L_ParserWP L_Syntax L_Syntax2 S_Print L_Print
  S_Stream L_Stream M_Filters M_Document S_Document L_Document L_User L_Registry S_Registry.
Local Open Scope Z_scope.
Local Open Scope prog_scope.

Section Registry.
  Variable inflate : list Z -> option (list Z).
  Variable ccitt : list Z -> fparams -> res (list Z).
  (** bound on the nesting of object streams inside object streams *)
  Variable D : nat.
  Notation reg := (register inflate ccitt (S D)).

  (** A history of registrations (number, generation, value), exceptions included. *)
  Definition history := list (Z * Z * obj).
  Definition after (r : regs) (h : history) : regs :=
    fold_left (fun r e => fst (reg false r (fst (fst e)) (snd (fst e)) (snd e))) h r.

  Lemma after_extends h : forall r, extends r (after r h).
  Proof.
    induction h as [|e h IH]; intros r; cbn [after fold_left]; [apply extends_refl|].
    eapply extends_trans; [apply register_extends|apply IH].
  Qed.
  (** C23: the first registration of an id decides its value for ever, whatever happens before or after,
      object streams and failing registrations included. *)
  Theorem C23_first_registration_wins : forall r h1 num gen v h2,
    rget (after r h1) num gen = None ->
    rget (after r (h1 ++ (num, gen, v) :: h2)) num gen = Some v.
  Proof.
    intros r h1 num gen v h2 H. unfold after in *. rewrite fold_left_app. cbn [fold_left fst snd].
    apply (after_extends h2). now apply register_new.
  Qed.
  (** Once registered, an id keeps its value: registrations never disappear nor change. *)
  Theorem C23_registrations_stay : forall r h1 h2 num gen v,
    rget (after r h1) num gen = Some v -> rget (after r (h1 ++ h2)) num gen = Some v.
  Proof. intros r h1 h2 num gen v H. unfold after in *. rewrite fold_left_app. now apply (after_extends h2). Qed.
  (** Other ids are unaffected: registering a value that is not an object stream changes one id only. *)
  Theorem C23_only_that_id : forall r num gen v n g,
    (forall d raw, v = OStream d raw -> is_name (oget d (bs "Type")) (bs "ObjStm") = false) ->
    (n, g) <> (num, gen) -> rget (after r [(num, gen, v)]) n g = rget r n g.
  Proof.
    intros r num gen v n g Hv Hne. cbn [after fold_left fst snd register orb].
    destruct (is_registered r num gen); cbn [negb fst]; auto.
    assert (rget (rset r num gen v) n g = rget r n g) as E.
    { rewrite rget_rset. destruct ((n =? num) && (g =? gen)) eqn:E; auto. apply andb_true_iff in E. destruct E as [E1 E2].
      apply Z.eqb_eq in E1, E2. congruence. }
    destruct v; cbn [fst]; auto. rewrite (Hv d data eq_refl). auto.
  Qed.
  (** A forced registration replaces the value. *)
  Theorem C23_forced : forall r num gen v,
    rget (fst (reg true r num gen v)) num gen = Some v.
  Proof.
    intros r num gen v.
    assert (extends (rset r num gen v) (fst (reg true r num gen v))) as H.
    { cbn [register orb].
      destruct v; try apply extends_refl. destruct (is_name _ _); try apply extends_refl. destruct (filtered inflate ccitt d data) as [dt|]; try apply extends_refl.
      destruct (dget d (bs "First")) as [first|]; try apply extends_refl. destruct (dget d (bs "N")) as [cnt|]; try apply extends_refl.
      destruct (as_range cnt) as [c|]; try apply extends_refl.
      match goal with |- context [arun ?F ?P ?S] => pose proof (mv_sound extends F P S extends_refl) as HM; destruct (arun F P S) as [out s'] end.
      cbn [fst snd a_usr] in *. apply HM.
      apply mv_bind; [apply mv_header|intros]. eapply mv_unpack; [|apply le_n].
      intros a0 b0 v0 u0 u Hu. cbn. pose proof (register_extends inflate ccitt D u a0 b0 v0) as HI.
      destruct (register inflate ccitt D false u a0 b0 v0) as [u' oe]. cbn [fst] in HI.
      assert (extends u0 u') by (eapply extends_trans; eauto). cbn. destruct oe; cbn; auto. }
    apply H. rewrite rget_rset, !Z.eqb_refl. reflexivity.
  Qed.
End Registry.

(** C24. *)
Section ObjStm.
  Variable data : list Z.
  Lemma r_header_ints {U} n : 4 * zlen data + 8 <= Z.of_nat n -> forall l t rest pos,
    StmHeader l t rest -> At data pos (t ++ rest) ->
    runs data (header_ints (2 * List.length l) n : prog U _) pos
      (Ok (concat (map (fun p => [fst p; snd p]) l))) (pos + zlen t).
  Proof.
    intros Hn l t rest pos H. revert pos. pose proof (zlen_nonneg data) as HL.
    induction H as [rest|s1 d1 s2 d2 l t rest H1 N1 D1 M2 H2 N2 D2 HE H IH]; intros pos HA.
    - cbn. eapply runs_eq; [apply runs_ret|]. lia.
    - replace (2 * List.length ((dvalue d1, dvalue d2) :: l))%nat with (S (S (2 * List.length l))) by (cbn [List.length]; lia).
      cbn [header_ints map concat fst snd]. repeat rewrite <- app_assoc in HA.
      assert (0 <= pos) as Hp by apply HA.
      eapply runs_bind; [eapply (r_sp data s1 n pos); eauto|].
      { now apply digits_nosep. } { unfold fuel; lia. }
      apply At_app in HA. pose proof (zlen_nonneg s1).
      eapply runs_bind.
      { apply (r_nni data n (dvalue d1) d1 _ (s2 ++ d2 ++ t ++ rest)); auto; [now apply IT_plain|apply dvalue_nonneg; auto|now apply sep_int_end|unfold fuel; lia]. }
      cbv beta iota. apply At_app in HA. pose proof (zlen_nonneg d1).
      apply r_assoc.
      eapply runs_bind; [eapply (r_sp data s2 n); eauto|].
      { now apply digits_nosep. } { unfold fuel; lia. }
      apply At_app in HA. pose proof (zlen_nonneg s2). apply r_assoc.
      eapply runs_bind.
      { apply (r_nni data n (dvalue d2) d2 _ (t ++ rest)); auto; [now apply IT_plain|apply dvalue_nonneg; auto|unfold fuel; lia]. }
      cbv beta iota. apply At_app in HA. pose proof (zlen_nonneg d2). apply r_assoc.
      eapply runs_bind; [apply IH; exact HA|].
      cbv beta iota. eapply runs_eq; [apply runs_ret|]. rewrite !zlen_app. lia.
  Qed.
End ObjStm.

Section Unpack.
  Variable inflate : list Z -> option (list Z).
  Variable ccitt : list Z -> fparams -> res (list Z).
  Fixpoint add_all (r : regs) (entries : list (Z * Z * obj)) : regs :=
    match entries with
    | [] => r
    | (n, _, v) :: l => add_all (if is_registered r n 0 then r else rset r n 0 v) l
    end.
  Lemma add_all_get : forall entries r n g, rget (add_all r entries) n g =
    match rget r n g with Some w => Some w | None => if g =? 0 then first_listed entries n else None end.
  Proof.
    induction entries as [|[[m o] v] l IH]; intros r n g; cbn [add_all first_listed].
    - destruct (rget r n g); auto. destruct (g =? 0); auto.
    - rewrite IH. unfold is_registered. destruct (rget r m 0) as [w|] eqn:E.
      + destruct (rget r n g) as [w'|] eqn:E'; auto. destruct (g =? 0) eqn:Eg; auto. destruct (n =? m) eqn:En; auto.
        assert (g = 0) by lia. assert (n = m) by lia. subst. congruence.
      + rewrite rget_rset. destruct (n =? m) eqn:En; destruct (g =? 0) eqn:Eg; cbn [andb]; auto.
        assert (g = 0) by lia. assert (n = m) by lia. subst. rewrite E. reflexivity.
  Qed.
  Lemma ser_no_stream fl v s rest : Ser fl v s rest -> forall d raw, v <> OStream d raw.
  Proof. intros H d raw E. subst. inversion H as [| | | |? ? ? HR| | | | | |]. inversion HR. Qed.

  Lemma r_unpack data n fo D : 4 * zlen data + 8 <= Z.of_nat n -> forall entries r pos,
    Forall (fun e => value_at data (fo + snd (fst e)) (snd e)) entries ->
    exists q, uruns data (unpack (fun num gen v => u <- getu ;;
                              let '(u', oe) := register inflate ccitt (S D) false u num gen v in
                              setu u' ;;; match oe with None => ret tt | Some e => throw e end)
              (OInt fo) (concat (map (fun p => [fst p; snd p]) (map fst entries))) n)
         pos r (Ok tt) q (add_all r entries).
  Proof.
    intros Hn. induction entries as [|[[m o] v] l IH]; intros r pos HF; cbn [map concat fst snd unpack add_all app as_range].
    - exists pos. apply uruns_ret.
    - inversion HF as [|? ? HV HF']; subst. cbn [fst snd] in HV. destruct HV as (pre & lead & s & rest & sep & HD & HP & HLe & HS & HT).
      destruct (IH (if is_registered r m 0 then r else rset r m 0 v) (fo + o + zlen lead + zlen s + zlen (trailing v sep)) HF') as [q Hq].
      exists q. apply uruns_reset. pose proof (zlen_nonneg pre).
      unfold reset_pos. rewrite (proj2 (Z.leb_le 0 (fo + o))) by lia.
      eapply uruns_bind.
      { apply uruns_of. apply (r_object data _ FBasic v s rest n (fo + o) lead sep); auto.
        - rewrite <- HP. now apply At_start with (pre := pre).
        - pose proof (zlen_nonneg data). unfold ofuel. cbn [oc]. lia. }
      cbv beta. eapply uruns_bind; [|exact Hq].
      apply uruns_getu. rewrite (register_plain inflate ccitt D r m 0 v) by (eapply ser_no_stream; eauto).
      apply uruns_setu. apply uruns_ret.
  Qed.

  (** C24: registering an unknown object stream that holds [entries] succeeds; afterwards the stream is
      registered, earlier registrations are unchanged, and every listed number has its (first) value
      with generation 0; nothing else is added. *)
  Theorem C24_object_stream_unpacked : forall D r num gen d raw data fo entries,
    rget r num gen = None ->
    dget d (bs "Type") = Some (OName (bs "ObjStm")) ->
    dget d (bs "N") = Some (OInt (zlen entries)) -> dget d (bs "First") = Some (OInt fo) ->
    filtered inflate ccitt d raw = Ok data -> StmData fo entries data ->
    exists r', register inflate ccitt (S (S D)) false r num gen (OStream d raw) = (r', None) /\
    forall n g, rget r' n g =
      if (n =? num) && (g =? gen) then Some (OStream d raw)
      else match rget r n g with
           | Some w => Some w
           | None => if g =? 0 then first_listed entries n else None
           end.
  Proof.
    intros D r num gen d raw data fo entries Hnew Ht HN HF HD [(hdr & rest & Hd & HH) HV].
    exists (add_all (rset r num gen (OStream d raw)) entries). split.
    - remember (S D) as D1. cbn [register orb]. unfold is_registered. rewrite Hnew. cbn [negb].
      unfold oget. rewrite Ht. cbn [is_name]. rewrite eqlZ_refl, HD, HF, HN. cbn [as_range]. subst D1.
      set (n := Z.to_nat (4 * zlen data + 8)). pose proof (zlen_nonneg data).
      assert (4 * zlen data + 8 <= Z.of_nat n) as Hn by (unfold n; lia).
      replace (Z.to_nat (2 * zlen entries)) with (2 * List.length (map fst entries))%nat
        by (rewrite map_length; unfold zlen; lia).
      assert (At data 0 (hdr ++ rest)) as HA by (apply (At_start data [] (hdr ++ rest)); exact Hd).
      destruct (r_unpack data n fo D Hn entries (rset r num gen (OStream d raw)) (0 + zlen hdr) HV) as [q Hq].
      match goal with |- context [arun data ?P (mkA 0 [] ?u)] =>
        assert (uruns data P 0 u (Ok tt) q (add_all u entries)) as HU end.
      { eapply uruns_bind; [apply uruns_of; apply (r_header_ints data n Hn _ _ _ _ HH HA)|]. exact Hq. }
      destruct (HU []) as [ex E]. rewrite E. reflexivity.
    - intros n g. rewrite add_all_get, rget_rset. destruct ((n =? num) && (g =? gen)); auto.
  Qed.
End Unpack.

(** Concrete cases. *)
Definition ex_stm : list Z := bs "11 0 12 3 42 (ab)".
Definition ex_entries : list (Z * Z * obj) := [(11, 0, OInt 42); (12, 3, OStr (bs "ab"))].
Definition ex_stm_dict : dict :=
  [(bs "Type", OName (bs "ObjStm")); (bs "N", OInt 2); (bs "First", OInt 10); (bs "Length", OInt 17)].
Example C24_ex : StmData 10 ex_entries ex_stm /\ zlen ex_entries = 2.
Proof.
  split; [|reflexivity]. split.
  - exists (bs "11 0 12 3"), (bs " 42 (ab)"). split; [reflexivity|].
    apply (SH_cons [] (bs "11") [32] (bs "0") [(12, 3)] (bs " 12 3")); try reflexivity; try discriminate;
      try (repeat constructor; fail); try (apply Sep_ws; [reflexivity|constructor]).
    apply (SH_cons [32] (bs "12") [32] (bs "3") [] []); try reflexivity; try discriminate;
      try (repeat constructor; fail); try (apply Sep_ws; [reflexivity|constructor]).
  - repeat constructor.
    + exists (bs "11 0 12 3 "), [], (bs "42"), (bs " (ab)"), []. split; [reflexivity|]. split; [reflexivity|].
      split; [constructor|]. split; [|exact I]. apply Ser_int; [apply (IT_plain (bs "42")); [discriminate|repeat constructor]|reflexivity|].
      intros _ _. apply (NR_other [32] (bs "(ab)")); try reflexivity. apply Sep_ws; [reflexivity|constructor].
    + exists (bs "11 0 12 3 42 "), [], (bs "(ab)"), [], []. split; [reflexivity|]. split; [reflexivity|].
      split; [constructor|]. split; [|exact I].
      apply (Ser_str FBasic (bs "ab") (bs "ab")). repeat (constructor; try discriminate).
Qed.
Example C23_ex :
  let r := after (fun _ => None) (fun _ _ => Err NotImpl) 3 []
    [(4, 0, OInt 7); (9, 0, OStream ex_stm_dict ex_stm); (11, 0, OInt 1); (4, 0, OInt 8); (4, 1, OInt 9)] in
  rget r 4 0 = Some (OInt 7) /\ rget r 11 0 = Some (OInt 42) /\ rget r 12 0 = Some (OStr (bs "ab")) /\ rget r 4 1 = Some (OInt 9) /\
  rget r 12 1 = None.
Proof. vm_compute. repeat split. Qed.

Print Assumptions C23_first_registration_wins.
Print Assumptions C23_registrations_stay.
Print Assumptions C23_only_that_id.
Print Assumptions C23_forced.
Print Assumptions C24_object_stream_unpacked.
