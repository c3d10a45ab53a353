(** The backwards search for an object (M_Secure.locate_backwards): lemmas for C82. *)
From Coq Require Import String.
From Verif Require Import Prelude M_Prog M_Parser S_Syntax L_Buffer L_Prog L_ParserWP L_Syntax L_Syntax2 S_Print L_Print
  M_Filters M_Document S_Document L_User L_Document L_Registry P_StartXref L_Steps S_Length L_Length P_IndObj S_Xref S_Open P_Locate L_Sealed M_Secure S_Back.
Local Open Scope Z_scope.
Local Open Scope prog_scope.

Lemma ends_once_clean x : ends_once x -> clean x. Proof. exact (fun H => H). Qed.
Lemma clean_no_has x : clean x -> ~ has eo x.
Proof. intros H (a & b & ->). specialize (H a (b ++ eo)). rewrite <- !app_assoc in H. specialize (H eq_refl). destruct b; discriminate. Qed.
Lemma eo_last B : ~ has eo B -> last_occ eo (eo ++ B).
Proof.
  intros H. split; [eauto|]. intros a b E. destruct (app_split _ _ _ _ E) as [(e & Ee & E2)|(e & He & -> & E2)].
  - destruct a as [|x a]; [reflexivity|exfalso]. destruct e as [|e0 e].
    + cbn [app] in E2. apply H. exists [], b. auto.
    + apply (eo_tail (x :: a) (e0 :: e)); [exact Ee|discriminate|discriminate|]. change eo with [101; 110; 100; 111; 98; 106] in E2. cbn [app] in E2. injection E2 as <- _. reflexivity.
  - exfalso. apply H. exists e, b. exact E2.
Qed.

Section Back.
  Variable f : list Z.
  Variable U : Type.
  Notation P A := (prog U A).
  Lemma r_back_loop A0 Y Z0 : f = A0 ++ (eo ++ Y) ++ Z0 -> last_occ eo (eo ++ Y) ->
    forall D w R k pos, eo ++ Y = D ++ w ++ R -> List.length w = 6%nat -> pos = zlen A0 + zlen D - 1 -> (List.length D < k)%nat ->
    runs f (back_loop k eo w : P _) pos (Ok tt) (zlen A0 - 1).
  Proof.
    intros Hf Hl D. induction D as [|x D IH] using rev_ind; intros w R [|k] pos E Hw Hp Hk; try lia; cbn [back_loop].
    - rewrite zlen_nil in Hp. cbn [app] in E. rewrite (same_len_prefix eo w R Y E Hw), eqlZ_refl. eapply runs_eq; [apply runs_ret|lia].
    - destruct (window_step f A0 _ _ _ _ _ _ Hl E Hw) as (H1 & H2 & _).
      assert (znth f (zlen A0 + zlen D) = Some x) as H3.
      { rewrite <- zlen_app. apply (At_last f) with (R := w ++ R ++ Z0). rewrite Hf, E. repeat (rewrite <- app_assoc). reflexivity. }
      rewrite zlen_app in Hp. change (zlen [x]) with 1 in Hp. rewrite H1.
      eapply r_prev_byte; [replace pos with (zlen A0 + zlen D) by lia; exact H3|]. destruct H2 as (R' & E' & Hw'); [discriminate|].
      eapply IH; [exact E'|exact Hw'|lia|]. rewrite app_length in Hk. cbn in Hk. lia.
  Qed.
  Lemma r_skip_backwards A0 Y Z0 m pos : f = A0 ++ eo ++ Y ++ Z0 -> ~ has eo Y -> pos = zlen A0 + 6 + zlen Y -> zlen f < Z.of_nat m ->
    runs f (skip_backwards m eo : P _) pos (Ok tt) (zlen A0).
  Proof.
    intros Hf HY Hp Hm. pose proof (eo_last Y HY) as HL. pose proof (zlen_nonneg A0). pose proof (zlen_nonneg Y). pose proof (zlen_nonneg Z0).
    assert (zlen f = zlen A0 + 6 + zlen Y + zlen Z0) as Hz by (rewrite Hf, !zlen_app; change (zlen eo) with 6; lia).
    unfold skip_backwards.
    set (T := eo ++ Y) in *. set (D := firstn (List.length Y) T). set (w := skipn (List.length Y) T).
    assert (List.length T = (6 + List.length Y)%nat) as HT by (unfold T; rewrite app_length; reflexivity).
    assert (T = D ++ w ++ []) as ET by (rewrite app_nil_r; unfold D, w; now rewrite firstn_skipn).
    assert (List.length w = 6%nat) as Hw by (unfold w; rewrite skipn_length; lia).
    assert (zlen D = zlen Y) as HDl by (unfold zlen, D; rewrite firstn_length; lia).
    apply runs_Prev. cbn [bind].
    change (List.length eo) with 6%nat. rewrite <- Hw.
    apply (r_read_back f (fun tok => back_loop m eo tok;;; (next;;; ret tt)) (Ok tt) (zlen A0) w (A0 ++ D) Z0 []).
    - rewrite Hf. change (eo ++ Y ++ Z0) with (eo ++ (Y ++ Z0)). rewrite (app_assoc eo Y Z0). fold T. rewrite ET, app_nil_r, <- !app_assoc. reflexivity.
    - rewrite zlen_app. unfold zlen at 3. rewrite Hw. lia.
    - rewrite app_nil_r. eapply runs_bind.
      + eapply (r_back_loop A0 Y Z0); [rewrite Hf, <- app_assoc; reflexivity|exact HL|exact ET|exact Hw|rewrite zlen_app; reflexivity|].
        unfold D. rewrite firstn_length. unfold zlen in *. lia.
      + eapply runs_eq; [apply runs_Next; apply runs_ret|lia].
  Qed.

  (** one round of the search: from after a header to after the header of the object before *)
  Lemma r_round {B} m k A s Y z X pos (g : list Z -> P B) r q : f = A ++ eo ++ s ++ Y ++ eo ++ z ++ X -> ~ has eo (z ++ firstn k X) -> (k <= List.length X)%nat ->
    clean (s ++ Y) -> Sep s -> nosep Y -> Y <> [] -> (k <= List.length (Y ++ eo ++ z ++ X))%nat -> 4 * zlen f + 8 <= Z.of_nat m ->
    pos = zlen f - zlen X + Z.of_nat k ->
    runs f (g (firstn k (Y ++ eo ++ z ++ X))) (zlen (A ++ eo ++ s) + Z.of_nat k) r q ->
    runs f (skip_backwards m (bs "endobj") ;;; skip_backwards m (bs "endobj") ;;; read 6 ;;; sp m ;;; h <- read k ;; g h) pos r q.
  Proof.
    intros Hf HzX Hk Hc Hs Hn HYn Hk2 Hm Hp Hg. pose proof (zlen_nonneg f).
    eapply runs_bind.
    { apply (r_skip_backwards (A ++ eo ++ s ++ Y) (z ++ firstn k X) (skipn k X)); [|exact HzX| |lia].
      - rewrite Hf at 1. rewrite <- (firstn_skipn k X) at 1. rewrite <- !app_assoc. reflexivity.
      - subst pos. assert (zlen (firstn k X) = Z.of_nat k) as EK by (unfold zlen; rewrite firstn_length; lia). rewrite Hf, !zlen_app, EK. change (zlen eo) with 6. lia. }
    eapply runs_bind.
    { apply (r_skip_backwards A (s ++ Y) (eo ++ z ++ X)); [rewrite Hf, <- !app_assoc; reflexivity|now apply clean_no_has| |lia].
      rewrite !zlen_app. change (zlen eo) with 6. lia. }
    eapply runs_bind.
    { apply (r_read f eo (zlen A) (s ++ Y ++ eo ++ z ++ X)); [reflexivity|]. apply L_Prog.At_start. exact Hf. }
    eapply runs_bind.
    { apply (r_sp f s m _ (Y ++ eo ++ z ++ X)); [exact Hs| | |].
      - destruct Y; [congruence|exact Hn].
      - rewrite <- zlen_app. apply L_Prog.At_start. rewrite Hf, <- !app_assoc. reflexivity.
      - unfold fuel. pose proof (zlen_nonneg A). change (zlen eo) with 6. lia. }
    rewrite <- !zlen_app. rewrite <- !app_assoc.
    eapply runs_bind.
    { apply (r_read f (firstn k (Y ++ eo ++ z ++ X)) _ (skipn k (Y ++ eo ++ z ++ X))).
      - rewrite firstn_length. lia.
      - rewrite firstn_skipn. apply L_Prog.At_start. rewrite Hf at 1. rewrite <- !app_assoc. reflexivity. }
    replace (zlen (firstn k (Y ++ eo ++ z ++ X))) with (Z.of_nat k) by (unfold zlen; rewrite firstn_length, Nat.min_l by lia; reflexivity). exact Hg.
  Qed.

  Lemma prefix_clean (s Y W : list Z) k : clean (s ++ Y) -> Z.of_nat k <= zlen Y + 5 -> ~ has eo (s ++ firstn k (Y ++ eo ++ W)).
  Proof.
    intros Hc Hk (a & b & E).
    assert (firstn k (Y ++ eo ++ W) = firstn k (Y ++ eo)) as EF.
    { rewrite app_assoc, (firstn_app k (Y ++ eo)). replace (k - List.length (Y ++ eo))%nat with 0%nat by (rewrite app_length; change (List.length eo) with 6%nat; unfold zlen in *; lia).
      now rewrite firstn_O, app_nil_r. }
    rewrite EF in E. specialize (Hc a (b ++ skipn k (Y ++ eo))).
    assert ((s ++ Y) ++ eo = a ++ eo ++ b ++ skipn k (Y ++ eo)) as E2.
    { rewrite <- app_assoc. rewrite <- (firstn_skipn k (Y ++ eo)) at 1. rewrite (app_assoc s), E, <- !app_assoc. reflexivity. }
    specialize (Hc E2). apply (f_equal (@List.length Z)) in Hc. rewrite app_length, skipn_length, app_length in Hc. change (List.length eo) with 6%nat in Hc. change (List.length (@nil Z)) with 0%nat in Hc. unfold zlen in *. lia.
  Qed.
  Lemma r_headers hdr m : 4 * zlen f + 8 <= Z.of_nat m -> nosep hdr -> hdr <> [] -> forall later A s inner z X n pos,
    f = A ++ eo ++ s ++ (hdr ++ inner ++ eo) ++ flat_map block_text later ++ z ++ X -> Sep s -> clean (s ++ hdr ++ inner) ->
    Forall (block_ok hdr) later -> (List.length hdr <= List.length X)%nat -> firstn (List.length hdr) X <> hdr ->
    ~ has eo (z ++ firstn (List.length hdr) X) -> (List.length later + 1 < n)%nat -> pos = zlen f - zlen X + zlen hdr ->
    runs f (headers_back m n hdr (firstn (List.length hdr) X) : P _) pos (Ok tt) (zlen (A ++ eo ++ s) + zlen hdr).
  Proof.
    intros Hm Hnh Hhn later. induction later as [|b later IH] using rev_ind; intros A s inner z X n pos Hf Hs Hc HF HX Hne Hz Hn Hp.
    - destruct n as [|[|n]]; [lia|lia|]. cbn [headers_back]. rewrite (proj2 (eqlZ_neq _ _) Hne).
      cbn [flat_map app] in Hf. rewrite <- !app_assoc in Hf.
      apply (r_round m (List.length hdr) A s (hdr ++ inner) z X).
      + rewrite Hf at 1. rewrite <- !app_assoc. reflexivity.
      + exact Hz.
      + exact HX.
      + exact Hc.
      + exact Hs.
      + destruct hdr; [congruence|exact Hnh].
      + destruct hdr; [congruence|discriminate].
      + rewrite !app_length. lia.
      + exact Hm.
      + exact Hp.
      + rewrite <- app_assoc, firstn_app, Nat.sub_diag, firstn_O, app_nil_r, firstn_all.
        cbn [headers_back]. rewrite eqlZ_refl. apply runs_ret.
    - rewrite app_length in Hn. cbn [List.length] in Hn. apply Forall_app in HF. destruct HF as [HF Hb].
      inversion Hb as [|? ? (B1 & B2 & B3 & B4 & B5 & B6) _]; subst x l. destruct b as [sb Y]. cbn [fst snd] in *.
      destruct n as [|n]; [lia|]. cbn [headers_back]. rewrite (proj2 (eqlZ_neq _ _) Hne).
      rewrite flat_map_app in Hf. cbn [flat_map block_text fst snd] in Hf. rewrite app_nil_r in Hf. unfold block_text in Hf at 2. cbn [fst snd] in Hf. rewrite <- !app_assoc in Hf. fold eo in Hf.
      (* the text up to the endobj before the block *)
      assert (exists A1, A ++ eo ++ s ++ hdr ++ inner ++ eo ++ flat_map block_text later = A1 ++ eo) as [A1 EA1].
      { destruct later as [|b0 later0] using rev_ind; [exists (A ++ eo ++ s ++ hdr ++ inner); cbn [flat_map]; rewrite app_nil_r, <- !app_assoc; reflexivity|].
        rewrite flat_map_app. cbn [flat_map]. rewrite app_nil_r. unfold block_text at 2.
        exists (A ++ eo ++ s ++ hdr ++ inner ++ eo ++ flat_map block_text later0 ++ fst b0 ++ snd b0). rewrite <- !app_assoc. reflexivity. }
      assert (f = A1 ++ eo ++ sb ++ Y ++ eo ++ z ++ X) as Hf1.
      { rewrite Hf at 1. rewrite (app_assoc A1 eo), <- EA1. rewrite <- !app_assoc. reflexivity. }
      apply (r_round m (List.length hdr) A1 sb Y z X); auto.
      + rewrite !app_length. change (List.length eo) with 6%nat. unfold zlen in B5. lia.
      + assert (zlen (A1 ++ eo ++ sb) = zlen f - zlen (Y ++ eo ++ z ++ X)) as EZ by (rewrite Hf1 at 1; rewrite !zlen_app; lia). 
        rewrite EZ. apply (IH A s inner sb (Y ++ eo ++ z ++ X)); auto.
        * rewrite Hf at 1. rewrite <- !app_assoc. reflexivity.
        * rewrite !app_length. change (List.length eo) with 6%nat. unfold zlen in B5. lia.
        * intros E. apply B6. rewrite <- E at 2. fold eo. rewrite app_assoc, (firstn_app _ (Y ++ eo)).
          replace (List.length hdr - List.length (Y ++ eo))%nat with 0%nat by (rewrite app_length; change (List.length eo) with 6%nat; unfold zlen in B5; lia).
          now rewrite firstn_O, app_nil_r.
        * apply prefix_clean; [exact B4|exact B5].
        * lia.
  Qed.
End Back.

Lemma str_digits_dec : forall n z acc, str_digits n z acc = ddigits n z ++ acc.
Proof.
  induction n as [|n IH]; intros z acc; [reflexivity|]. cbn [str_digits ddigits]. destruct (z <? 10); [reflexivity|]. now rewrite IH, <- app_assoc.
Qed.
Lemma py_str_dec z : py_str z = dec z.
Proof. unfold py_str, dec. now rewrite str_digits_dec, app_nil_r. Qed.
Lemma obj_header_text n g : obj_header n g = header_text n g.
Proof. unfold obj_header, header_text. now rewrite !py_str_dec. Qed.

Lemma uruns_save {U A} f (g : nat -> prog U A) pos (u : U) r q u' :
  (forall st, exists ex, arun f (g (List.length st)) (mkA pos (st ++ [pos]) u) = (r, mkA q ((st ++ [pos]) ++ ex) u')) -> uruns f (bind save g) pos u r q u'.
Proof. intros H st. destruct (H st) as [ex E]. exists ([pos] ++ ex). cbn [save bind arun a_pos a_store a_usr]. rewrite E, <- app_assoc. reflexivity. Qed.

Section Found.
  Variable inflate : list Z -> option (list Z).
  Variable ccitt : list Z -> fparams -> res (list Z).
  Notation decrypt := (fun (_ _ : Z) (v : obj) => Ok v).
  Variables (D m : nat) (f : list Z).
  Hypothesis HD : (0 < D)%nat.
  Hypothesis Hm : 4 * zlen f + 8 <= Z.of_nat m.
  Lemma add_twice u n g v w : known u n g = None -> add_obj (add_obj u n g v) n g w = add_obj u n g v.
  Proof.
    intros HK. unfold add_obj at 2 3. unfold is_registered. unfold known in HK. rewrite HK.
    unfold add_obj, is_registered. cbn [r_objs with_objs]. rewrite rget_rset, !Z.eqb_refl. reflexivity.
  Qed.
  Lemma locate_backwards_found loc o n g w A s inner later z X p u : offset_of f (Ok o) -> 0 <= n -> 0 <= g ->
    last_objects f n g o A s inner later z X -> no_objstm w -> known u n g = None ->
    IndObj n g w (header_text n g ++ inner ++ bs "endobj") (flat_map block_text later ++ z ++ X) ->
    uruns f (locate_backwards inflate ccitt D m (reg_indirect inflate ccitt decrypt D m (length_hook loc)) n g) p u (Ok (Some w)) p (add_obj u n g w).
  Proof.
    intros Hoff Hn Hg (Hf & Ho & Hs & Hc & HF & HX & Hne & Hz) HO HK HI. unfold locate_backwards. rewrite !obj_header_text.
    set (hdr := header_text n g) in *.
    assert (exists c h', hdr = c :: h' /\ is_digit c = true) as (c & h' & Eh & Hcd).
    { unfold hdr, header_text. destruct (dec_ok n Hn) as (_ & X2 & X1). destruct (dec n) as [|c h'] eqn:Ed; [congruence|].
      exists c, (h' ++ [32] ++ dec g ++ bs " obj"). split; [reflexivity|]. now inversion X2. }
    assert (nosep hdr) as Hnh by (rewrite Eh; apply (digits_nosep [c] h'); [discriminate|repeat constructor; auto]).
    pose proof (zlen_nonneg X). pose proof (zlen_nonneg f). pose proof (zlen_nonneg A). pose proof (zlen_nonneg s).
    assert (0 <= o) as Ho0.
    { rewrite Ho, Hf, !zlen_app. pose proof (zlen_nonneg (bs "endobj")). pose proof (zlen_nonneg hdr). pose proof (zlen_nonneg inner). pose proof (zlen_nonneg (flat_map block_text later)). pose proof (zlen_nonneg z). lia. }
    assert (exists Apre, f = Apre ++ X /\ zlen Apre = o) as (Apre & HfX & HApre).
    { exists (A ++ bs "endobj" ++ s ++ (hdr ++ inner ++ bs "endobj") ++ flat_map block_text later ++ z). split; [rewrite Hf at 1; rewrite <- !app_assoc; reflexivity|].
      rewrite Ho, Hf, !zlen_app. lia. }
    assert (List.length later + 1 < m)%nat as Hlm.
    { assert (forall l, Z.of_nat (List.length l) <= zlen (flat_map block_text l)) as HB.
      { induction l as [|b l IH]; [cbn; lia|]. cbn [flat_map List.length]. rewrite zlen_app. unfold block_text at 1. rewrite !zlen_app. change (zlen (bs "endobj")) with 6.
        pose proof (zlen_nonneg (fst b)). pose proof (zlen_nonneg (snd b)). lia. }
      specialize (HB later). assert (zlen (flat_map block_text later) + 12 <= zlen f) as HL2.
      { rewrite Hf, !zlen_app. change (zlen (bs "endobj")) with 6. pose proof (zlen_nonneg hdr). pose proof (zlen_nonneg inner). pose proof (zlen_nonneg z). lia. }
      lia. }
    apply uruns_save. intros st. destruct (Hoff rst (st ++ [p]) u m p Hm) as (q0 & ex0 & E0). rewrite arun_bind, E0. cbv beta iota.
    assert (f = (A ++ eo ++ s) ++ hdr ++ (inner ++ bs "endobj") ++ flat_map block_text later ++ z ++ X) as Hf2.
    { rewrite Hf at 1. unfold eo. rewrite <- !app_assoc. reflexivity. }
    assert (exists y I', (inner ++ bs "endobj") ++ flat_map block_text later ++ z ++ X = y :: I') as (y & I' & EI).
    { destruct inner as [|y i]; cbn [app]; [change (bs "endobj") with (101 :: bs "ndobj"); cbn [app]|]; eauto. }
    unfold reset at 1. cbn [bind arun a_pos a_store a_usr]. unfold reset_pos. rewrite (proj2 (Z.leb_le 0 o)) by lia.
    assert (runs f (read (List.length hdr) : prog rst _) o (Ok (firstn (List.length hdr) X)) (o + zlen hdr)) as R1.
    { eapply runs_eq; [apply (r_read f (firstn (List.length hdr) X) o (skipn (List.length hdr) X))|].
      - rewrite firstn_length. lia.
      - rewrite firstn_skipn. rewrite <- HApre. apply L_Prog.At_start. exact HfX.
      - unfold zlen. rewrite firstn_length, Nat.min_l by lia. reflexivity. }
    destruct (R1 ((st ++ [p]) ++ ex0) u) as [ex1 E1]. rewrite arun_bind, E1. cbv beta iota.
    assert (uruns f (catch (headers_back m m hdr (firstn (List.length hdr) X) ;;; ret true) is_type_err (fun _ => ret false)) (o + zlen hdr) u (Ok true) (zlen (A ++ eo ++ s) + zlen hdr) u) as R2.
    { apply uruns_catch_ok. eapply uruns_bind; [|apply uruns_ret]. apply uruns_of.
      apply (r_headers f rst hdr m Hm Hnh ltac:(rewrite Eh; discriminate) later A s inner z X); auto. now rewrite Ho. }
    destruct (R2 (((st ++ [p]) ++ ex0) ++ ex1)) as [ex2 E2]. rewrite arun_bind, E2. cbv beta iota.
    set (w0 := h' ++ [y]).
    assert (List.length hdr = List.length w0) as Lw by (unfold w0; rewrite Eh, app_length; cbn; lia).
    assert (runs f (x <- read_back (List.length hdr) [] ;; ret x : prog rst _) (zlen (A ++ eo ++ s) + zlen hdr) (Ok w0) (zlen (A ++ eo ++ s))) as R3.
    { rewrite Lw. apply (r_read_back f (fun x => ret x) (Ok w0) (zlen (A ++ eo ++ s)) w0 ((A ++ eo ++ s) ++ [c]) I' []).
      - rewrite Hf2 at 1. rewrite EI, Eh. unfold w0. rewrite <- !app_assoc. reflexivity.
      - rewrite (zlen_app (A ++ eo ++ s) [c]). change (zlen [c]) with 1. unfold zlen at 2 4. rewrite Lw. lia.
      - rewrite app_nil_r. eapply runs_at; [apply runs_ret|]. rewrite (zlen_app (A ++ eo ++ s) [c]). change (zlen [c]) with 1. lia. }
    destruct (R3 ((((st ++ [p]) ++ ex0) ++ ex1) ++ ex2) u) as [ex3 E3].
    assert (arun f (read_back (List.length hdr) [] : prog rst _) (mkA (zlen (A ++ eo ++ s) + zlen hdr) ((((st ++ [p]) ++ ex0) ++ ex1) ++ ex2) u) =
      (Ok w0, mkA (zlen (A ++ eo ++ s)) (((((st ++ [p]) ++ ex0) ++ ex1) ++ ex2) ++ ex3) u)) as E3'.
    { rewrite arun_bind in E3. destruct (arun f (read_back (List.length hdr) [] : prog rst _) (mkA (zlen (A ++ eo ++ s) + zlen hdr) ((((st ++ [p]) ++ ex0) ++ ex1) ++ ex2) u)) as [[a|e] s3]; [exact E3|discriminate]. }
    rewrite arun_bind, E3'. cbv beta iota.
    assert (uruns f (reg_indirect inflate ccitt decrypt D m (length_hook loc)) (zlen (A ++ eo ++ s)) u (Ok (n, g, w)) (zlen (A ++ eo ++ s) + zlen (hdr ++ inner ++ bs "endobj")) (add_obj u n g w)) as R4.
    { eapply (i_iobj inflate ccitt decrypt D m f HD Hm (fun _ _ => None) (fun _ _ => None)); [intros ? ? ? X1; discriminate X1|reflexivity|reflexivity|exact HI|reflexivity|exact HO|].
      apply L_Prog.At_start. rewrite Hf2 at 1. rewrite <- !app_assoc. reflexivity. }
    destruct (R4 (((((st ++ [p]) ++ ex0) ++ ex1) ++ ex2) ++ ex3)) as [ex4 E4]. rewrite arun_bind, E4. cbv beta iota.
    destruct (u_register_ok inflate ccitt D f HD (add_obj u n g w) n g w (zlen (A ++ eo ++ s) + zlen (hdr ++ inner ++ bs "endobj")) HO
      ((((((st ++ [p]) ++ ex0) ++ ex1) ++ ex2) ++ ex3) ++ ex4)) as [ex5 E5].
    rewrite arun_bind, E5. cbn [restore bind arun a_store a_usr ret].
    exists (ex0 ++ ex1 ++ ex2 ++ ex3 ++ ex4 ++ ex5). rewrite add_twice by exact HK. rewrite <- !app_assoc. rewrite nth_error_app2 by lia. rewrite Nat.sub_diag. reflexivity.
  Qed.
End Found.
