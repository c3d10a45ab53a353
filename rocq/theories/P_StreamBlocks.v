(** C69 for the two parsers that read decompressed streams: CMap files and object streams. *)
From Coq Require Import String.
From Verif Require Import Prelude M_Prog M_Buffer S_Buffer L_Buffer L_Prog M_Parser L_ParserWP L_Fuel L_Blocks L_BlocksP L_BlocksD
  M_Filters M_Document P_ParserTotal M_CMap M_CMapParser L_CMapWP.
Local Open Scope Z_scope.
Local Open Scope prog_scope.

(** Parsing a CMap file: the outcome and what is read next are the same for any two block sizes, and are those of a plain cursor. *)
Theorem C69_cmap_block_size : forall f o n k B1 B2,
  0 <= o -> 0 < B1 -> 0 < B2 -> 4 * zlen f + 60 <= Z.of_nat n ->
  let run B := fst (crun f B (then_read k (cmap n)) (mkC (b_reset f B o) [] tt)) in
  run B1 = run B2 /\ run B1 = fst (arun f (then_read k (cmap n)) (mkA o [] tt)).
Proof.
  intros f o n k B1 B2 Ho H1 H2 Hn run. unfold run.
  assert (wp f o [] (cmap n : prog unit _) o (adv o 0 cme)) as W.
  { apply wp_cmap; [lia|]. unfold ofuel. pose proof (zlen_nonneg f). lia. }
  rewrite !(block_size_irrelevant f o _ cme Ho W) by auto. auto.
Qed.

Section Unpack.
  Context {U : Type}.
  Definition T : inv U := mkInv (fun _ _ => True) (fun _ _ _ H _ => H).
  Variables (f : list Z) (B : Z).
  Notation P := (prog U).

  Lemma j_header_ints n : forall k m, jw f B T (header_ints k n : P _) m (fun l _ => Forall (fun z => 0 <= z) l).
  Proof.
    intros k m. apply (jw_conseq f B T _ _ (fun l _ => Forall (fun z => 0 <= z) l)); auto.
    revert m. induction k as [|k IH]; intros m; cbn [header_ints].
    - apply jw_ret. constructor.
    - eapply jw_bind.
      { apply jw_gw. intros pos. eapply gw_conseq; [apply g_sp; lia|]. unfold ge. intros; lia. }
      cbv beta. intros _ m1 _ _.
      eapply jw_bind with (R := fun z _ => 0 <= z).
      { intros st u v vs pos [Hv Hb] HF HI Hm. eapply dw_conseq; [apply (g_nni f B T pos [] n pos); auto; [lia|constructor]|].
        intros r s2 v2 vs2 (G2 & HI2 & Hv2 & HX2). repeat split; auto; try apply Hv2; [|destruct r; [apply HX2|auto]].
        destruct r; [destruct HX2; lia|auto]. }
      cbv beta. intros z m2 _ Hz. eapply jw_bind; [apply IH|]. cbv beta. intros l m3 _ Hl. apply jw_ret. auto.
  Qed.

  (** what registering does: any computation on the caller's state, with an exception or not *)
  Variable step : U -> Z -> Z -> obj -> U * option exn.
  Definition registering (num gen : Z) (v : obj) : P unit :=
    u <- getu ;; let '(u', oe) := step u num gen v in setu u' ;;; match oe with None => ret tt | Some e => throw e end.

  Lemma j_unpack first fo n : as_range first = Some fo -> 0 <= fo -> forall l m, Forall (fun z => 0 <= z) l ->
    jw f B T (unpack registering first l n) m (fun _ _ => True).
  Proof.
    intros Ef Hfo. fix IH 1. intros [|num [|off r]] m Hl; cbn [unpack].
    - now apply jw_ret.
    - now apply jw_ret.
    - rewrite Ef. inversion Hl as [|? ? Hn Hl2]; subst. inversion Hl2 as [|? ? Ho Hl3]; subst.
      apply jw_Reset; [lia|].
      eapply jw_bind.
      { apply jw_gw. intros pos. eapply gw_conseq.
        - apply (g_object f B T pos (fun d => ret d)); [|lia]. intros. apply gw_ret. unfold ge. lia.
        - unfold ge. intros; lia. }
      cbv beta. intros v m1 _ _. eapply jw_bind with (R := fun _ _ => True).
      { unfold registering. apply jw_GetU. intros u m2 _ _. cbn [bind]. destruct (step u num 0 v) as [u' [e|]].
        - apply jw_SetU; [intros; exact Logic.I|]. apply jw_throw.
        - apply jw_SetU; [intros; exact Logic.I|]. now apply jw_ret. }
      cbv beta. intros _ m2 _ _. apply IH. exact Hl3.
  Qed.
End Unpack.

(** Unpacking an object stream: which objects are registered, with which values, in which order, and whether and how it fails do not
    depend on the block size, whatever the data, the count, the offsets and the registering function (it may fail, or unpack a nested
    object stream).  Offsets are read as non-negative numbers; First must not be negative. *)
Theorem C69_object_stream_block_size : forall U (step : U -> Z -> Z -> obj -> U * option exn) data first fo c n u B,
  0 < B -> as_range first = Some fo -> 0 <= fo ->
  let p := l <- header_ints c n ;; unpack (registering step) first l n in
  let real := crun data B p (mkC (b_reset data B 0) [] u) in
  let plain := arun data p (mkA 0 [] u) in
  fst real = fst plain /\ c_usr (snd real) = a_usr (snd plain).
Proof.
  intros U step data first fo c n u B HB Ef Hfo p real plain.
  assert (jw data B T p 0 (fun _ _ => True)) as J.
  { eapply jw_bind; [apply j_header_ints|]. cbv beta. intros l m _ Hl. eapply j_unpack; eauto. }
  assert (sim data B (mkA 0 [] u) (mkC (b_reset data B 0) [] u) (sess_reset data B 0) []) as S.
  { split; [apply (reset_rep data B 0 HB)|]. split; [reflexivity|]. split; [reflexivity|]. split; [|reflexivity]. intros [|?]; discriminate. }
  assert (stored (sess_reset data B 0) 0) as HS by (unfold stored, fine, sess_reset; cbn; repeat split; lia).
  destruct (dw_sim data B p HB _ _ _ _ _ S (J [] u _ [] 0 HS (Forall2_nil _) Logic.I ltac:(cbn; lia))) as (v' & vs' & E & Hs & _).
  split; [exact E|]. destruct Hs as (_ & _ & _ & _ & X). symmetry. exact X.
Qed.

(** The registry: registering an object stream runs the parser on the buffer of whatever block size. *)
Theorem C69_register_block_size : forall inflate ccitt k force r num gen d raw data first fo cnt c B,
  0 < B -> force = true \/ rget r num gen = None ->
  is_name (oget d (bs "Type")) (bs "ObjStm") = true -> filtered inflate ccitt d raw = Ok data ->
  dget d (bs "First") = Some first -> as_range first = Some fo -> 0 <= fo -> dget d (bs "N") = Some cnt -> as_range cnt = Some c ->
  let n := Z.to_nat (4 * zlen data + 8) in
  let real := crun data B (l <- header_ints (Z.to_nat (2 * c)) n ;; unpack (registering (register inflate ccitt k false)) first l n)
                   (mkC (b_reset data B 0) [] (rset r num gen (OStream d raw))) in
  register inflate ccitt (S k) force r num gen (OStream d raw) =
  (c_usr (snd real), match fst real with Ok _ => None | Err e => Some e end).
Proof.
  intros inflate ccitt k force r num gen d raw data first fo cnt c B HB Hf Ht Hd H1 H2 H3 H4 H5 n real.
  cbn [register]. replace (force || negb (is_registered r num gen)) with true
    by (symmetry; destruct Hf as [->|Hf]; [reflexivity|unfold is_registered; rewrite Hf; apply Bool.orb_true_r]).
  cbv zeta. rewrite Ht, Hd, H1, H4, H5.
  destruct (C69_object_stream_block_size _ (register inflate ccitt k false) data first fo (Z.to_nat (2 * c)) n
              (rset r num gen (OStream d raw)) B HB H2 H3) as [E1 E2].
  unfold real. rewrite E1, E2. unfold registering. fold n. destruct (arun data _ _) as [o s]. reflexivity.
Qed.

Definition stm_data : list Z := bs "11 0 12 10 <</A (b)>> [11 0 R 7]".
Definition note (u : list (Z * obj)) (num gen : Z) (v : obj) : list (Z * obj) * option exn := (u ++ [(num, v)], None).
Example C69_object_stream_ex : forall B, In B [1; 2; 3; 64] ->
  c_usr (snd (crun stm_data B (l <- header_ints 4 200 ;; unpack (registering note) (OInt 11) l 200) (mkC (b_reset stm_data B 0) [] []))) =
  [(11, ODict [(bs "A", OStr (bs "b"))]); (12, OArr [ORef 11 0; OInt 7])].
Proof. intros B H. cbn in H. repeat destruct H as [<-|H]; try contradiction; vm_compute; reflexivity. Qed.
Example C69_register_ex :
  let d := [(bs "Type", OName (bs "ObjStm")); (bs "N", OInt 2); (bs "First", OInt 11)] in
  fst (register (fun _ => None) (fun _ _ => Err ValueErr) 3 true [] 5 0 (OStream d stm_data)) =
  [((5, 0), OStream d stm_data); ((11, 0), ODict [(bs "A", OStr (bs "b"))]); ((12, 0), OArr [ORef 11 0; OInt 7])].
Proof. vm_compute. reflexivity. Qed.

Print Assumptions C69_cmap_block_size.
Print Assumptions C69_object_stream_block_size.
Print Assumptions C69_register_block_size.
