(** CMapParser on the texts of S_CMapFile.v: sections. *)
From Coq Require Import String.
From Verif Require Import Prelude M_Prog M_Buffer S_Buffer L_Buffer L_Prog M_Parser L_ParserWP S_Syntax L_Syntax L_Syntax2 S_Stream L_Stream
  L_Content M_CMap S_CMap M_CMapParser S_CMapFile L_CMapParser.
Local Open Scope Z_scope.
Local Open Scope prog_scope.

Section C.
  Context {U : Type}.
  Variable f : list Z.
  Notation P := (prog U).
  Notation hook := (fun d : dict => ret d : P dict).
  Notation Here := (Here f).
  Notation Before := (Before f).

  Lemma r_curz {A} (g : option Z -> P A) pos r q : runs f (g (znth f pos)) pos r q -> runs f (bind cur g) pos r q.
  Proof. intros H. apply runs_Cur. exact H. Qed.
  Lemma r_lift {A B} (a : A) (g : A -> P B) x pos r q : x = Ok a -> runs f (g a) pos r q -> runs f (bind (lift x) g) pos r q.
  Proof. intros -> H. exact H. Qed.

  Lemma before_empty pos its : Before its pos -> znth f pos = None -> its = [].
  Proof.
    intros (sep & s & Hs & HA & Hi) E. rewrite (At_head _ _ _ HA) in E. destruct sep; [|discriminate]. cbn [app] in E.
    destruct s; [|discriminate]. inversion Hi as [|v s sep its0 ss Hv Y1 Y2 Y3 E1 E2|w sep its0 ss Hw Y1 Y2 Y3 Y4 E1 E2]; auto; exfalso.
    - destruct (ser_start _ _ _ _ Hv) as (x & s' & -> & _). discriminate.
    - destruct (word_head _ Hw) as (x & w' & -> & _). discriminate.
  Qed.

  Lemma r_skip w : forall pre n pos its, Before (pre ++ its) pos -> Forall (fun i => i <> IWord w) pre -> ofuel f n pos 10 ->
    (its = [] -> exists q, runs f (skip_until_token n w : P _) pos (Ok false) q) /\
    (forall tl, its = IWord w :: tl -> exists q, pos <= q /\ runs f (skip_until_token n w : P _) pos (Ok true) q /\ Here its q).
  Proof.
    induction pre as [|i pre IH]; intros n pos its HB Hf Hn; (destruct n as [|n]; [fu|]); cbn [app skip_until_token] in *.
    - split.
      + intros ->. destruct (znth f pos) as [x|] eqn:E0.
        * destruct (b_sp (U:=U) f _ _ n HB) as (q & Hq & HR & HH); [fu|]. exists q. apply r_curz. rewrite E0.
          eapply runs_bind; [exact HR|]. apply r_curz. rewrite (here_nil _ _ HH). apply runs_ret.
        * exists pos. apply r_curz. rewrite E0. apply runs_ret.
      + intros tl ->. destruct (znth f pos) as [x|] eqn:E0; [|apply before_empty in HB; [discriminate|auto]].
        destruct (b_sp (U:=U) f _ _ n HB) as (q & Hq & HR & HH); [fu|]. exists q. split; auto. split; auto.
        apply r_curz. rewrite E0. eapply runs_bind; [exact HR|]. apply r_curz.
        destruct (here_cons _ _ _ _ HH) as (y & ->).
        destruct (here_oot_word (U:=U) f w tl q n HH) as (HR2 & _ & _); [fu|].
        eapply runs_bind; [exact HR2|]. cbv beta iota. rewrite eqlZ_refl. apply r_prevs.
        replace (q + zlen w - Z.of_nat (List.length w)) with q by (unfold zlen; lia). apply runs_ret.
    - destruct (znth f pos) as [x|] eqn:E0; [|apply before_empty in HB; [discriminate|auto]].
      destruct (b_sp (U:=U) f _ _ n HB) as (q & Hq & HR & HH); [fu|]. inversion Hf as [|? ? Hi Hf']; subst.
      pose proof (here_lt _ _ _ _ HH) as Hlt. destruct (here_cons _ _ _ _ HH) as (y & Ey).
      assert (exists q2 o, q < q2 /\ runs f (object_or_token n : P _) q (Ok o) q2 /\ Before (pre ++ its) q2 /\ o <> OTok w) as (q2 & o & Hq2 & HR2 & HB2 & Ho).
      { destruct i as [v|w0].
        - destruct (here_oot_obj (U:=U) f v _ q n HH) as (q2 & Hq2 & HR2 & HB2); [fu|]. exists q2, v. repeat split; auto.
          intros ->. destruct HH as (s & _ & Hs). inversion Hs as [|v0 so sep its0 ss Hv|]; subst. eapply ser_not_tok; eauto.
        - destruct (here_oot_word (U:=U) f w0 _ q n HH) as (HR2 & HB2 & HL); [fu|]. exists (q + zlen w0), (OTok w0). repeat split; auto; [lia|congruence]. }
      destruct (IH n q2 its HB2 Hf') as (IH1 & IH2); [fu|].
      assert (forall b q', runs f (skip_until_token n w : P _) q2 (Ok b) q' ->
        runs f (c0 <- cur ;; match c0 with None => ret false | Some _ => sp n ;;; c <- cur ;; match c with None => ret false | Some _ =>
          o <- object_or_token n ;; match o with OTok x0 => if eqlZ x0 w then prevs (List.length w) ;;; ret true else skip_until_token n w | _ => skip_until_token n w end end end : P _) pos (Ok b) q') as G.
      { intros b q' Hb. apply r_curz. rewrite E0. eapply runs_bind; [exact HR|]. apply r_curz. rewrite Ey.
        eapply runs_bind; [exact HR2|]. destruct o as [| | | | | | | | | | |tk|]; auto.
        assert (tk <> w) as Hw by congruence. rewrite (proj2 (eqlZ_neq _ _) Hw). exact Hb. }
      split.
      + intros E. destruct (IH1 E) as (q' & Hr). exists q'. now apply G.
      + intros tl E. destruct (IH2 tl E) as (q' & Hle & Hr & HH'). exists q'. split; [lia|]. split; [now apply G|exact HH'].
  Qed.

  (** the next item is read, then white space *)
  Lemma hex_then d its pos n {A} (g : obj -> P A) r q :
    Here (IObj (OHex d) :: its) pos -> ofuel f n pos 8 ->
    (forall q1, pos < q1 -> Here its q1 -> runs f (g (OHex d)) q1 r q) ->
    runs f (a <- hexstring n ;; sp n ;;; g a) pos r q.
  Proof.
    intros HH Hn Hk. destruct (here_hex (U:=U) f d its pos n HH) as (q1 & H1 & HR & HB & _); [fu|].
    destruct (b_sp (U:=U) f _ _ n HB) as (q2 & H2 & HR2 & HH2); [fu|].
    eapply runs_bind; [exact HR|]. eapply runs_bind; [exact HR2|]. apply Hk; auto. lia.
  Qed.

  Definition flat2 (be : list Z * list Z) : list item := [IObj (OHex (fst be)); IObj (OHex (snd be))].
  Definition flat3 (bed : list Z * list Z * obj) : list item := [IObj (OHex (fst (fst bed))); IObj (OHex (snd (fst bed))); IObj (snd bed)].
  Definition flatc (bd : list Z * obj) : list item := [IObj (OHex (fst bd)); IObj (snd bd)].

  Lemma hex_cur d its pos : Here (IObj (OHex d) :: its) pos -> is_cur (znth f pos) 60 = true.
  Proof.
    intros (s & HA & Hi). inversion Hi as [|v0 so sep its0 ss Hv Hs Hi' Hname|]; subst.
    destruct (hex_inv _ _ _ _ _ Hv eq_refl) as (ds & s0 & t & -> & -> & Hs0 & Hb). rewrite (At_head _ _ _ HA). reflexivity.
  Qed.
  Lemma word_cur w its pos : Here (IWord w :: its) pos -> is_cur (znth f pos) 60 = false.
  Proof. intros H. eapply not_lt_start; eauto. reflexivity. Qed.

  Lemma r_codespace_loop l rs : Forall2 (fun be r => mk_range (fst be) (snd be) = Ok r) l rs -> forall n pos acc e its,
    Here (flat_map flat2 l ++ IWord e :: its) pos -> ofuel f n pos 10 ->
    exists q, pos <= q /\ runs f (codespace_loop n acc : P _) pos (Ok (acc ++ rs)) q /\ Here (IWord e :: its) q.
  Proof.
    induction 1 as [|[b e0] r l rs Hr Hf IH]; intros n pos acc e its HH Hn; (destruct n as [|n]; [fu|]); cbn [codespace_loop].
    - exists pos. split; [lia|]. split; [|exact HH]. apply r_curz. cbn [flat_map app] in HH. rewrite (word_cur _ _ _ HH).
      rewrite app_nil_r. apply runs_ret.
    - cbn [flat_map flat2 app fst snd] in HH, Hr. pose proof (here_lt _ _ _ _ HH) as Hlt.
      destruct (here_hex (U:=U) f _ _ pos n HH) as (p1 & H1 & R1 & B1 & _); [fu|].
      destruct (b_sp (U:=U) f _ _ n B1) as (p2 & H2 & R2 & HH2); [fu|].
      destruct (here_hex (U:=U) f _ _ p2 n HH2) as (p3 & H3 & R3 & B3 & _); [fu|].
      destruct (b_sp (U:=U) f _ _ n B3) as (p4 & H4 & R4 & HH4); [fu|].
      destruct (IH n p4 (acc ++ [r]) e its HH4) as (q & Hq & RQ & HQ); [fu|].
      exists q. split; [lia|]. split; [|exact HQ].
      apply r_curz. rewrite (hex_cur _ _ _ HH).
      eapply runs_bind; [exact R1|]. eapply runs_bind; [exact R2|]. eapply runs_bind; [exact R3|]. eapply runs_bind; [exact R4|].
      eapply r_lift; [exact Hr|]. rewrite <- app_assoc in RQ. exact RQ.
  Qed.

  Lemma r_mapped_loop l rs : Forall2 (fun bed ms => range_maps (fst (fst bed)) (snd (fst bed)) (snd bed) = Ok ms) l rs -> forall n pos acc e its,
    Here (flat_map flat3 l ++ IWord e :: its) pos -> ofuel f n pos 10 ->
    exists q, pos <= q /\ runs f (mapped_loop n acc : P _) pos (Ok (acc ++ List.concat rs)) q /\ Here (IWord e :: its) q.
  Proof.
    induction 1 as [|[[b e0] o] r l rs Hr Hf IH]; intros n pos acc e its HH Hn; (destruct n as [|n]; [fu|]); cbn [mapped_loop].
    - exists pos. split; [lia|]. split; [|exact HH]. apply r_curz. cbn [flat_map app] in HH. rewrite (word_cur _ _ _ HH).
      cbn [List.concat]. rewrite app_nil_r. apply runs_ret.
    - cbn [flat_map flat3 app fst snd] in HH, Hr. pose proof (here_lt _ _ _ _ HH) as Hlt.
      destruct (here_hex (U:=U) f _ _ pos n HH) as (p1 & H1 & R1 & B1 & _); [fu|].
      destruct (b_sp (U:=U) f _ _ n B1) as (p2 & H2 & R2 & HH2); [fu|].
      destruct (here_hex (U:=U) f _ _ p2 n HH2) as (p3 & H3 & R3 & B3 & _); [fu|].
      destruct (b_sp (U:=U) f _ _ n B3) as (p4 & H4 & R4 & HH4); [fu|].
      destruct (here_obj (U:=U) f _ _ p4 n HH4) as (p5 & H5 & R5 & B5); [fu|].
      destruct (b_sp (U:=U) f _ _ n B5) as (p6 & H6 & R6 & HH6); [fu|].
      destruct (IH n p6 (acc ++ r) e its HH6) as (q & Hq & RQ & HQ); [fu|].
      exists q. split; [lia|]. split; [|exact HQ].
      apply r_curz. rewrite (hex_cur _ _ _ HH).
      eapply runs_bind; [exact R1|]. eapply runs_bind; [exact R2|]. eapply runs_bind; [exact R3|]. eapply runs_bind; [exact R4|].
      eapply runs_bind; [exact R5|]. eapply r_lift; [exact Hr|]. eapply runs_bind; [exact R6|].
      cbn [List.concat]. rewrite app_assoc. exact RQ.
  Qed.

  (** good entries of a char section, then either its end or an entry whose destination is no code *)
  Definition good_char k (bd : list Z * obj) (m : mapping) : Prop := exists d, snd bd = OHex d /\ char_map k (fst bd) d = Ok m.
  Lemma r_char_loop k l rs : Forall2 (good_char k) l rs -> forall n pos acc tl,
    Here (flat_map flatc l ++ tl) pos -> ofuel f n pos 10 ->
    (forall e its, tl = IWord e :: its ->
      exists q, pos <= q /\ runs f (char_loop n k acc : P _) pos (Ok (acc ++ rs)) q /\ Here (IWord e :: its) q) /\
    (forall b o its, tl = IObj (OHex b) :: IObj o :: its -> (exists z, o = OInt z) \/ (exists x, o = OName x) ->
      exists q, runs f (char_loop n k acc : P _) pos (Err ParserExc) q).
  Proof.
    induction 1 as [|[b e0] r l rs Hr Hf IH]; intros n pos acc tl HH Hn; (destruct n as [|n]; [fu|]); cbn [char_loop].
    - cbn [flat_map app] in HH. split.
      + intros e its ->. exists pos. split; [lia|]. split; [|exact HH]. apply r_curz. rewrite (word_cur _ _ _ HH).
        rewrite app_nil_r. apply runs_ret.
      + intros b o its -> Ho. destruct (here_hex (U:=U) f _ _ pos n HH) as (p1 & H1 & R1 & B1 & _); [fu|].
        destruct (b_sp (U:=U) f _ _ n B1) as (p2 & H2 & R2 & HH2); [fu|].
        exists p2. apply r_curz. rewrite (hex_cur _ _ _ HH).
        eapply runs_bind; [exact R1|]. eapply runs_bind; [exact R2|].
        apply runs_bind_err. unfold hexstring. apply r_curz.
        rewrite (not_lt_start f _ _ HH2); [apply runs_throw|]. destruct Ho as [(z & ->)|(x & ->)]; reflexivity.
    - destruct Hr as (d & Ed & Hm). cbn [snd fst] in Ed, Hm. subst e0.
      cbn [flat_map flatc app fst snd] in HH. pose proof (here_lt _ _ _ _ HH) as Hlt.
      destruct (here_hex (U:=U) f _ _ pos n HH) as (p1 & H1 & R1 & B1 & _); [fu|].
      destruct (b_sp (U:=U) f _ _ n B1) as (p2 & H2 & R2 & HH2); [fu|].
      destruct (here_hex (U:=U) f _ _ p2 n HH2) as (p3 & H3 & R3 & B3 & _); [fu|].
      destruct (b_sp (U:=U) f _ _ n B3) as (p4 & H4 & R4 & HH4); [fu|].
      destruct (IH n p4 (acc ++ [r]) tl HH4) as (IH1 & IH2); [fu|].
      assert (forall x q, runs f (char_loop n k (acc ++ [r]) : P _) p4 x q ->
        runs f (c <- cur ;; if is_cur c 60 then a <- hexstring n ;; sp n ;;; b0 <- hexstring n ;; sp n ;;;
          m <- lift (char_map k (hextext a) (hextext b0)) ;; char_loop n k (acc ++ [m]) else ret acc : P _) pos x q) as G.
      { intros x q HQ. apply r_curz. rewrite (hex_cur _ _ _ HH).
        eapply runs_bind; [exact R1|]. eapply runs_bind; [exact R2|]. eapply runs_bind; [exact R3|]. eapply runs_bind; [exact R4|].
        eapply r_lift; [exact Hm|]. exact HQ. }
      split.
      + intros e its E. destruct (IH1 e its E) as (q & Hq & RQ & HQ). exists q. split; [lia|]. split; [|exact HQ].
        apply G. rewrite <- app_assoc in RQ. exact RQ.
      + intros b' o its E Ho. destruct (IH2 b' o its E Ho) as (q & RQ). exists q. now apply G.
  Qed.

  Lemma r_expected_token w its pos n : Here (IWord w :: its) pos -> fuel f n pos ->
    runs f (expected_token n w : P _) pos (Ok tt) (pos + zlen w) /\ Before its (pos + zlen w) /\ 1 <= zlen w.
  Proof.
    intros HH Hn. destruct (here_word (U:=U) f w its pos n HH Hn) as (R & B & L). split; [|auto].
    unfold expected_token. eapply runs_bind; [exact R|]. rewrite eqlZ_refl. apply runs_ret.
  Qed.
  Lemma r_expected_name w its pos n : Here (IObj (OName w) :: its) pos -> fuel f n pos ->
    exists q, pos < q /\ runs f (expected_name n w : P _) pos (Ok tt) q /\ Before its q.
  Proof.
    intros HH Hn. destruct (here_name (U:=U) f w its pos n HH Hn) as (q & Hq & R & B & _). exists q. split; auto. split; auto.
    unfold expected_name. eapply runs_bind; [exact R|]. rewrite eqlZ_refl. apply runs_ret.
  Qed.

  (** section: [w] body [e], with the loop running over the body *)
  Lemma r_section {A} (w e : list Z) (loop : P A) (n : nat) body its pos (v : A) :
    Here (IWord w :: body ++ IWord e :: its) pos -> ofuel f n pos 10 ->
    (forall p, pos < p -> Here (body ++ IWord e :: its) p ->
       exists q, p <= q /\ runs f loop p (Ok v) q /\ Here (IWord e :: its) q) ->
    exists q, pos < q /\ runs f (expected_token n w ;;; sp n ;;; l <- loop ;; expected_token n e ;;; ret l) pos (Ok v) q /\ Before its q.
  Proof.
    intros HH Hn Hl. destruct (r_expected_token w _ pos n HH) as (R1 & B1 & L1); [fu|].
    destruct (b_sp (U:=U) f _ _ n B1) as (p2 & H2 & R2 & HH2); [fu|].
    destruct (Hl p2) as (p3 & H3 & R3 & HH3); [lia|auto|].
    destruct (r_expected_token e _ p3 n HH3) as (R4 & B4 & L4); [fu|].
    exists (p3 + zlen e). split; [lia|]. split; [|exact B4].
    eapply runs_bind; [exact R1|]. eapply runs_bind; [exact R2|]. eapply runs_bind; [exact R3|]. eapply runs_bind; [exact R4|]. apply runs_ret.
  Qed.
  Lemma r_section_err {A} (w e : list Z) (loop : P A) (n : nat) body pos x :
    Here (IWord w :: body) pos -> ofuel f n pos 10 ->
    (forall p, pos < p -> Here body p -> exists q, runs f loop p (Err x) q) ->
    exists q, runs f (expected_token n w ;;; sp n ;;; l <- loop ;; expected_token n e ;;; ret l) pos (Err x) q.
  Proof.
    intros HH Hn Hl. destruct (r_expected_token w _ pos n HH) as (R1 & B1 & L1); [fu|].
    destruct (b_sp (U:=U) f _ _ n B1) as (p2 & H2 & R2 & HH2); [fu|].
    destruct (Hl p2) as (p3 & R3); [lia|auto|].
    exists p3. eapply runs_bind; [exact R1|]. eapply runs_bind; [exact R2|]. now apply runs_bind_err.
  Qed.

  (** *** All sections of one kind *)
  Section Sections.
    Context {A : Type}.
    Variables (w : list Z) (section : nat -> P (list A)).
    (** what a chunk contributes *)
    Definition gives_section (c : chunk) (l : list A) : Prop :=
      (l = [] /\ Forall (fun i => i <> IWord w) (chunk_items c)) \/
      (exists tl, chunk_items c = IWord w :: tl /\
        forall n q its, Here (chunk_items c ++ its) q -> ofuel f n q 10 ->
          exists q', q < q' /\ runs f (section n) q (Ok l) q' /\ Before its q').
    Definition fails_section (c : chunk) : Prop :=
      exists tl, chunk_items c = IWord w :: tl /\
        forall n q its, Here (chunk_items c ++ its) q -> ofuel f n q 10 -> exists q', runs f (section n) q (Err ParserExc) q'.

    Lemma r_sections cs ls : Forall2 gives_section cs ls -> forall n pos acc pre,
      Before (pre ++ flat_map chunk_items cs) pos -> Forall (fun i => i <> IWord w) pre -> ofuel f n pos 12 ->
      exists q, runs f (sections n w section acc) pos (Ok (acc ++ List.concat ls)) q.
    Proof.
      induction 1 as [|c l cs ls Hc Hf IH]; intros n pos acc pre HB Hp Hn; (destruct n as [|n]; [fu|]); cbn [sections].
      - destruct (r_skip w pre n pos [] HB Hp) as (H1 & _); [fu|]. destruct (H1 eq_refl) as (q & R). exists q.
        eapply runs_bind; [exact R|]. cbn [List.concat]. rewrite app_nil_r. apply runs_ret.
      - destruct Hc as [[-> Hno]|(tl & Etl & Hsec)].
        + destruct (IH (S n) pos acc (pre ++ chunk_items c)) as (q & R).
          * rewrite <- app_assoc. exact HB.
          * apply Forall_app. auto.
          * auto.
          * exists q. exact R.
        + cbn [flat_map] in HB. destruct (r_skip w pre n pos (chunk_items c ++ flat_map chunk_items cs) HB Hp) as (_ & H2); [fu|].
          destruct (H2 (tl ++ flat_map chunk_items cs)) as (q & Hq & R & HH); [rewrite Etl; reflexivity|].
          destruct (Hsec n q _ HH) as (q' & Hq' & R' & HB'); [fu|].
          assert (q < zlen f) as Hlt by (rewrite Etl in HH; eapply here_lt; eauto).
          destruct (IH n q' (acc ++ l) []) as (q2 & R2); [exact HB'|constructor|fu|].
          exists q2. eapply runs_bind; [exact R|]. eapply runs_bind; [exact R'|]. cbn [List.concat]. rewrite app_assoc. exact R2.
    Qed.
    Lemma r_sections_err cs ls c cs' : Forall2 gives_section cs ls -> fails_section c -> forall n pos acc pre,
      Before (pre ++ flat_map chunk_items (cs ++ c :: cs')) pos -> Forall (fun i => i <> IWord w) pre -> ofuel f n pos 12 ->
      exists q, runs f (sections n w section acc) pos (Err ParserExc) q.
    Proof.
      intros HF Hbad. induction HF as [|c0 l cs ls Hc Hf IH]; intros n pos acc pre HB Hp Hn; (destruct n as [|n]; [fu|]); cbn [sections].
      - destruct Hbad as (tl & Etl & Hsec). cbn [app flat_map] in HB.
        destruct (r_skip w pre n pos (chunk_items c ++ flat_map chunk_items cs') HB Hp) as (_ & H2); [fu|].
        destruct (H2 (tl ++ flat_map chunk_items cs')) as (q & Hq & R & HH); [rewrite Etl; reflexivity|].
        destruct (Hsec n q _ HH) as (q' & R'); [fu|]. exists q'.
        eapply runs_bind; [exact R|]. now apply runs_bind_err.
      - destruct Hc as [[-> Hno]|(tl & Etl & Hsec)].
        + destruct (IH (S n) pos acc (pre ++ chunk_items c0)) as (q & R).
          * rewrite <- app_assoc. exact HB.
          * apply Forall_app. auto.
          * auto.
          * exists q. exact R.
        + cbn [flat_map app] in HB. destruct (r_skip w pre n pos (chunk_items c0 ++ flat_map chunk_items (cs ++ c :: cs')) HB Hp) as (_ & H2); [fu|].
          destruct (H2 (tl ++ flat_map chunk_items (cs ++ c :: cs'))) as (q & Hq & R & HH); [rewrite Etl; reflexivity|].
          destruct (Hsec n q _ HH) as (q' & Hq' & R' & HB'); [fu|].
          assert (q < zlen f) as Hlt by (rewrite Etl in HH; eapply here_lt; eauto).
          destruct (IH n q' (acc ++ l) []) as (q2 & R2); [exact HB'|constructor|fu|].
          exists q2. eapply runs_bind; [exact R|]. eapply runs_bind; [exact R'|]. exact R2.
    Qed.
  End Sections.
End C.
