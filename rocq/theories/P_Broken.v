(** C101: pages that cannot be shown do not affect the others. *)
From Coq Require Import String.
From Verif Require Import Prelude M_Prog M_Parser M_Filters M_Document M_Objects S_Objects P_Objects P_Pages M_Viewer S_Viewer M_Nav P_Nav M_Decoder M_App S_App L_App L_App2 L_App3 P_App
  S_Syntax S_Stream S_Page L_View P_View S_Print L_Print S_Xref S_Document S_Open P_Locate P_Open S_Write P_Write P_Content P_Codec P_Text P_Echo P_Retold
  S_History P_History P_Updates M_Secure M_Crypto S_Crypto P_Crypto P_Decrypt S_Sealed P_Secure S_Length S_Back P_Back S_ModWrite P_ModWrite.
Local Open Scope Z_scope.

(** What a user does: viewer.navigate(n); viewer.render(); and then he looks at viewer.canvas.  He catches exceptions. *)
Definition show_page gen get_resources get_stream draw (n : Z) (s : nav) : res canvas * nav :=
  match navigate gen get_resources get_stream n s with
  | (Err e, s1) => (Err e, s1)
  | (Ok _, s1) => match render_nav draw s1 with
                  | (Err e, s2) => (Err e, s2)
                  | (Ok _, s2) => (Ok (the_canvas s2), s2)
                  end
  end.
Fixpoint show_pages gen get_resources get_stream draw (l : list Z) (s : nav) : list (res canvas) * nav :=
  match l with
  | [] => ([], s)
  | n :: l' => let '(r, s1) := show_page gen get_resources get_stream draw n s in
               let '(rs, s2) := show_pages gen get_resources get_stream draw l' s1 in (r :: rs, s2)
  end.

Section N.
  Variable gen : nat -> list bv * res bool.
  Variable get_resources : bv -> res resources.
  Variable get_stream : bv -> res (option (list Z)).
  Variable draw : bv -> resources -> option (list Z) -> vst -> res unit * vst.
  Variable ps : list bv.
  Hypothesis Hgen : Yields gen ps.
  Notation navigate := (navigate gen get_resources get_stream).
  Notation show_page := (show_page gen get_resources get_stream draw).
  Notation show_pages := (show_pages gen get_resources get_stream draw).

  (** what becomes of a page by itself *)
  Definition outcome (p : bv) : res canvas :=
    match get_resources p, get_stream p with
    | Err e, _ => Err e
    | _, Err e => Err e
    | Ok rs, Ok st => match draw p rs st (mkV [] [] empty_canvas) with (Ok _, v) => Ok (v_cv v) | (Err e, _) => Err e end
    end.
  Definition outcome_no (n : Z) : res canvas :=
    match page_no ps n with
    | Some p => outcome p
    | None => Err (if n <? 1 then ValueErr else PageDoesNotExist)
    end.

  Record J (s : nav) : Prop := {
    j_pages : good_pages ps s;
    j_cv : (n_cv s < List.length (n_heap s))%nat;
    j_cache : forall n a, zget (n_cache s) n = Some a -> (a < List.length (n_heap s))%nat /\ a <> n_cv s /\
              exists p, page_no ps n = Some p /\ outcome p = Ok (nth a (n_heap s) empty_canvas) }.

  Lemma j_move s pg n rs st g b : J s -> (forall k q, zget pg k = Some q -> page_no ps k = Some q) ->
    J (mkN pg n (upd (n_heap s) (n_cv s) empty_canvas) (n_cv s) (n_cache s) g b rs st).
  Proof.
    intros I Hp. constructor; cbn [n_pages n_cur n_heap n_cv n_cache n_gss n_br n_rs n_stream]; rewrite ?upd_length.
    - exact Hp.
    - apply I.
    - intros k a Ha. rewrite ?upd_length. destruct (j_cache _ I k a Ha) as (B1 & B2 & q & B4 & B5). repeat split; auto. exists q. split; auto.
      rewrite nth_upd. assert (Nat.eqb a (n_cv s) = false) as -> by now apply Nat.eqb_neq. exact B5.
  Qed.

  Lemma show_page_outcome n s : J s -> fst (show_page n s) = outcome_no n /\ J (snd (show_page n s)).
  Proof.
    intros I. unfold outcome_no, P_Broken.show_page. destruct (page_no ps n) as [p|] eqn:En.
    2:{ rewrite (navigate_missing gen get_resources get_stream ps Hgen n s (j_pages _ I) En). auto. }
    assert (exists pg, zget pg n = Some p /\ (forall k q, zget pg k = Some q -> page_no ps k = Some q) /\
       navigate n s = after_navigate get_resources get_stream (mkN pg n (n_heap s) (n_cv s) (n_cache s) (n_gss s) (n_br s) (n_rs s) (n_stream s))) as (pg & Epg & Hpg & EN).
    { unfold M_Nav.navigate. destruct (zget (n_pages s) n) as [q|] eqn:Eq.
      - pose proof (j_pages _ I _ _ Eq). assert (q = p) as -> by congruence. exists (n_pages s). split; [exact Eq|]. split; [apply I|reflexivity].
      - rewrite (fetch_ok gen ps Hgen), En. exists ((n, p) :: n_pages s). split; [rewrite zget_cons, Z.eqb_refl; reflexivity|]. split; [|reflexivity].
        intros k q Hk. rewrite zget_cons in Hk. destruct (Z.eqb_spec k n) as [->|]; [congruence|]. now apply (j_pages _ I). }
    rewrite EN. clear EN. unfold after_navigate, current_page. cbn [n_pages n_cur n_heap n_cv n_cache n_gss n_br n_rs n_stream]. rewrite Epg. unfold outcome.
    destruct (get_resources p) as [rs|e] eqn:E1; [|cbn [fst snd]; split; [reflexivity|now apply j_move]].
    destruct (get_stream p) as [st|e] eqn:E2; [|cbn [fst snd]; split; [reflexivity|now apply j_move]].
    unfold render_nav, current_page. cbn [n_pages n_cur n_heap n_cv n_cache n_gss n_br n_rs n_stream]. rewrite Epg.
    pose proof (j_cv _ I) as Hcv.
    destruct (zget (n_cache s) n) as [a|] eqn:Ec.
    - destruct (j_cache _ I _ _ Ec) as (A1 & A2 & q & A3 & A4). assert (q = p) as -> by congruence. cbn [fst snd].
      assert (nth a (upd (n_heap s) (n_cv s) empty_canvas) empty_canvas = nth a (n_heap s) empty_canvas) as EA.
      { rewrite nth_upd. assert (Nat.eqb a (n_cv s) = false) as -> by now apply Nat.eqb_neq. reflexivity. }
      split.
      + unfold the_canvas. cbn [n_cv n_heap]. rewrite app_nth2 by lia. rewrite Nat.sub_diag. cbn [nth]. rewrite EA. rewrite <- A4. unfold outcome. rewrite E1, E2. reflexivity.
      + constructor; cbn [n_pages n_cur n_heap n_cv n_cache]; [exact Hpg|rewrite app_length; cbn; lia|].
        intros k x Hx. destruct (j_cache _ I k x Hx) as (B1 & B2 & q & B4 & B5). rewrite app_length, upd_length. split; [lia|]. split; [lia|]. exists q. split; [exact B4|].
        rewrite app_nth1 by (rewrite upd_length; exact B1). rewrite nth_upd. assert (Nat.eqb x (n_cv s) = false) as -> by now apply Nat.eqb_neq. exact B5.
    - assert (the_canvas (mkN pg n (upd (n_heap s) (n_cv s) empty_canvas) (n_cv s) (n_cache s) [] [] rs st) = empty_canvas) as Ecv.
      { unfold the_canvas. cbn [n_cv n_heap]. rewrite nth_upd, Nat.eqb_refl. destruct (Nat.ltb_spec (n_cv s) (List.length (n_heap s))); [reflexivity|lia]. }
      rewrite Ecv. destruct (draw p rs st (mkV [] [] empty_canvas)) as [[u|e] v] eqn:Ed; cbn [fst snd].
      + split.
        * unfold the_canvas. cbn [n_cv n_heap]. rewrite app_nth1 by (rewrite !upd_length; exact Hcv). rewrite nth_upd, upd_length, Nat.eqb_refl.
          destruct (Nat.ltb_spec (n_cv s) (List.length (n_heap s))); [reflexivity|lia].
        * constructor; cbn [n_pages n_cur n_heap n_cv n_cache]; [exact Hpg|rewrite app_length, !upd_length; cbn; lia|].
          intros k x Hx. rewrite zget_cons in Hx. rewrite app_length, !upd_length. destruct (Z.eqb_spec k n) as [->|].
          -- injection Hx as <-. rewrite !upd_length. cbn [List.length]. split; [lia|]. split; [lia|]. exists p. split; [exact En|].
             rewrite app_nth2 by (rewrite !upd_length; lia). rewrite !upd_length, Nat.sub_diag. cbn [nth]. unfold outcome. rewrite E1, E2, Ed. reflexivity.
          -- destruct (j_cache _ I k x Hx) as (B1 & B2 & q & B4 & B5). split; [lia|]. split; [exact B2|]. exists q. split; [exact B4|].
             rewrite app_nth1 by (rewrite !upd_length; exact B1). rewrite !nth_upd. assert (Nat.eqb x (n_cv s) = false) as -> by now apply Nat.eqb_neq. exact B5.
      + split; [reflexivity|]. constructor; cbn [n_pages n_cur n_heap n_cv n_cache]; rewrite ?upd_length; [exact Hpg|exact Hcv|].
        intros k x Hx. rewrite ?upd_length. destruct (j_cache _ I k x Hx) as (B1 & B2 & q & B4 & B5). split; [lia|]. split; [exact B2|]. exists q. split; [exact B4|].
        rewrite !nth_upd. assert (Nat.eqb x (n_cv s) = false) as -> by now apply Nat.eqb_neq. exact B5.
  Qed.
  Lemma show_pages_outcome l : forall s, J s -> fst (show_pages l s) = map outcome_no l.
  Proof.
    induction l as [|n l IH]; intros s I; [reflexivity|]. cbn [P_Broken.show_pages map]. destruct (show_page_outcome n s I) as [E I']. destruct (show_page n s) as [r s1]. cbn [fst snd] in *.
    specialize (IH s1 I'). destruct (show_pages l s1) as [rs s2]. cbn [fst] in *. congruence.
  Qed.
  Lemma j_start : J (mkN [] 1 [empty_canvas] 0 [] [] [] [] None).
  Proof. constructor; cbn; [intros k q; discriminate|lia|discriminate]. Qed.
  Lemma j_open s : open gen get_resources get_stream = (Ok tt, s) -> J s.
  Proof.
    intros H. destruct (navigate_ok gen get_resources get_stream ps Hgen _ _ _ (j_pages _ j_start) H) as (p & rs & st & pg & E1 & E2 & E3 & E4 & E5 & ->).
    exact (j_move _ pg 1 rs st [] [] j_start E5).
  Qed.
End N.

(** C101.  After opening, whatever pages were visited before, and whether they could be shown or not: what a visit to page n
    gives depends on that page alone. *)
Theorem C101_visits : forall gen get_resources get_stream draw ps s, Yields gen ps -> open gen get_resources get_stream = (Ok tt, s) ->
  forall l, fst (show_pages gen get_resources get_stream draw l s) = map (outcome_no get_resources get_stream draw ps) l.
Proof. intros gen get_resources get_stream draw ps s HY HO l. apply show_pages_outcome; [exact HY|]. exact (j_open gen get_resources get_stream draw ps HY s HO). Qed.

(** The first page is an exception: the viewer goes there when it is made, so if it cannot be loaded no page can be seen. *)
Theorem C101_first_page_refuted : forall gen get_resources get_stream ps p e, Yields gen ps -> page_no ps 1 = Some p ->
  get_resources p = Err e \/ (exists rs, get_resources p = Ok rs) /\ get_stream p = Err e ->
  fst (open gen get_resources get_stream) = Err e.
Proof.
  intros gen get_resources get_stream ps p e HY Hp He. unfold open, navigate, after_navigate, current_page. cbn [n_pages zget].
  rewrite (fetch_ok gen ps HY), Hp. cbn [n_pages n_cur n_heap n_cv n_cache n_gss n_br n_rs n_stream]. cbn [zget]. rewrite Z.eqb_refl.
  destruct He as [->|[[rs ->] ->]]; reflexivity.
Qed.

(** From the file's bytes.  [infos] says of some pages what they hold ([page_is], S_Page.v) and of the others nothing. *)
Definition known o inflate python (d : dict) (i : option (list citem * list dict * list (list Z))) : Prop :=
  match i with Some p => page_is o inflate python d p | None => True end.
(** What a visit to page [n] must give. *)
Definition as_known o inflate python (infos : list (option (list citem * list dict * list (list Z)))) (n : Z) (r : res canvas) : Prop :=
  if n <? 1 then r = Err ValueErr
  else match nth_error infos (Z.to_nat n - 1) with
       | Some (Some p) => exists c, r = Ok c /\ drawn_as o inflate python p c
       | Some None => True
       | None => r = Err PageDoesNotExist
       end.
(** [shows_known]: a viewer opens, and visits to pages, in any order and however often, give for each page always the same:
    what is known of it. *)
Definition shows_known real_str python python_decode inflate ccitt cid (o look : Z -> Z -> option obj) (t : dict) infos : Prop :=
  let H := fun x g => match look x g with Some v => Ok (raw v) | None => Err OutOfFuel end in
  exists root nb0, forall nb, (nb0 <= nb)%nat -> exists n0, forall n, (n0 <= n)%nat -> exists v out,
    app_open inflate ccitt H nb n t = Ok (root, v) /\ (forall k, as_known o inflate python infos k (out k)) /\
    forall l, fst (show_pages (doc_pages H nb n root) (page_resources H nb n) (page_stream inflate ccitt H nb)
                     (app_draw real_str python python_decode inflate ccitt cid H nb n) l v) = map out l.

Theorem C101_viewer : forall o inflate python python_decode ccitt cid real_str t ps infos p,
  Document o t ps -> Forall2 (known o inflate python) ps (Some p :: infos) ->
  shows_known real_str python python_decode inflate ccitt cid o o t (Some p :: infos).
Proof.
  intros o inflate python python_decode ccitt cid real_str t ps infos p HD HK. destruct (document_pages o t ps HD) as [root HE].
  set (drawsc := P_App.draws o inflate python python_decode ccitt cid real_str).
  assert (ev2 (fun nb n => Forall2 (fun d i => match i with Some q => exists c, drawsc nb n d c /\ drawn_as o inflate python q c | None => True end) ps (Some p :: infos))) as HC.
  { clear HD HE. induction HK as [|d i ps infos' Hd _ IH]; [apply ev2_all; constructor|].
    assert (ev2 (fun nb n => match i with Some q => exists c, drawsc nb n d c /\ drawn_as o inflate python q c | None => True end)) as HX.
    { destruct i as [q|]; [|apply ev2_all; auto]. exact (page_drawn2 o inflate python python_decode ccitt cid real_str d _ _ _ Hd). }
    eapply ev2_imp; [|apply ev2_and; [exact HX|exact IH]]. cbv beta. intros nb n [A B]. constructor; auto. }
  unfold shows_known. cbv zeta. exists root. change (fun x g => match o x g with Some v => Ok (raw v) | None => Err OutOfFuel end) with (answer o).
  destruct (ev_and _ _ HE HC) as [nb0 Hnb]. exists nb0. intros nb Hle. destruct (Hnb nb Hle) as [[R1 R2] H2]. clear HE HC Hnb Hle.
  destruct (ev_and _ _ R2 H2) as [n0 Hn]. exists n0. intros n Hle. destruct (Hn n Hle) as [HY HF]. clear R2 H2 Hn Hle.
  set (gen := doc_pages (answer o) nb n root) in *. set (gr := page_resources (answer o) nb n). set (gs := page_stream inflate ccitt (answer o) nb).
  set (dr := app_draw real_str python python_decode inflate ccitt cid (answer o) nb n).
  inversion HF as [|d i ps' infos' Hx HF' E1 E2]; subst. destruct Hx as (c & Hd & _).
  pose proof Hd as (rs & st & v & G1 & G2 & _).
  destruct (navigate_loads gen gr gs (map page_bv (d :: ps')) HY 1 (mkN [] 1 [empty_canvas] 0 [] [] [] [] None) (page_bv d) rs st) as [s Hs]; auto.
  { intros k q Hk. discriminate. }
  assert (M_Nav.open gen gr gs = (Ok tt, s)) as HO by exact Hs.
  exists s, (outcome_no gr gs dr (map page_bv (d :: ps'))). split; [unfold app_open; rewrite R1; cbn [rbind]; fold gen gr gs; now rewrite HO|].
  split; [|intros l; exact (C101_visits gen gr gs dr _ s HY HO l)].
  intros k. unfold as_known, outcome_no, page_no. destruct (k <? 1); [reflexivity|]. clear - HF.  revert HF.
  generalize (d :: ps') as l. generalize (Some p :: infos) as is. generalize (Z.to_nat k - 1)%nat as j.
  intros j is l HF. revert j. induction HF as [|d0 i l is Hi _ IH]; intros j; [destruct j; reflexivity|]. destruct j as [|j]; [|exact (IH j)].
  cbn [map nth_error]. destruct i as [q|]; [|exact I]. destruct Hi as (c0 & (rs0 & st0 & v0 & G1 & G2 & G3 & ->) & HDr). exists (v_cv v0). split; [|exact HDr].
  unfold outcome. fold gr in G1. fold gs in G2. fold dr in G3. rewrite G1, G2, G3. reflexivity.
Qed.

Theorem C101_written_file : forall real_str python python_decode inflate ccitt cid a b r ps infos p,
  is_digit a = true -> is_digit b = true -> rev_ok r -> zlen (file_of a b [r]) < 10 ^ 10 ->
  let o := or_null (find_obj (rv_objs r)) in
  Document o (rv_trailer r) ps -> Forall2 (known o inflate python) ps (Some p :: infos) ->
  forall D m k, (0 < D)%nat -> 4 * zlen (file_of a b [r]) + 8 <= Z.of_nat m -> (1 <= k)%nat ->
  exists s t, arun (file_of a b [r]) (open_document inflate ccitt no_decrypt D m k) (mkA 0 [] rst0) = (Ok ([a; 46; b], 0, t), s) /\
  exists look, (forall k' ids, (2 <= k')%nat ->
     fst (session inflate ccitt no_decrypt D m k' (file_of a b [r]) s ids) = map (fun id => Ok (look (fst id) (snd id))) ids) /\
  shows_known real_str python python_decode inflate ccitt cid o (fun x g => Some (look x g)) t (Some p :: infos).
Proof.
  intros real_str python python_decode inflate ccitt cid a b r ps infos p Ha Hb Hr Hlt o HD HK D m k H1 H2 H3.
  destruct (C76_written_once inflate ccitt a b r Ha Hb Hr Hlt D m k H1 H2 H3) as (s & E & HS). exists s, (rv_trailer r). split; [exact E|]. exists (meant o). split; [exact HS|].
  exact (C101_viewer o inflate python python_decode ccitt cid real_str (rv_trailer r) ps infos p HD HK).
Qed.

(** The same for files that were updated, for modern files and for encrypted files. *)
Theorem C101_updated_file : forall real_str python python_decode inflate ccitt cid a b revs ps infos p,
  is_digit a = true -> is_digit b = true -> revs <> [] -> Forall rev_ok revs -> zlen (file_of a b revs) < 10 ^ 10 ->
  let o := current revs in let t := trailer_of_file a b revs in
  Document o t ps -> Forall2 (known o inflate python) ps (Some p :: infos) ->
  forall D m k, (0 < D)%nat -> 4 * zlen (file_of a b revs) + 8 <= Z.of_nat m -> (List.length revs <= k)%nat ->
  exists s, arun (file_of a b revs) (open_document inflate ccitt no_decrypt D m k) (mkA 0 [] rst0) = (Ok ([a; 46; b], 0, t), s) /\
  (forall k' ids vs, (2 <= k')%nat -> map (fun id => o (fst id) (snd id)) ids = map Some vs ->
     fst (session inflate ccitt no_decrypt D m k' (file_of a b revs) s ids) = map Ok vs) /\
  shows_known real_str python python_decode inflate ccitt cid o o t (Some p :: infos).
Proof.
  intros real_str python python_decode inflate ccitt cid a b revs ps infos p Ha Hb Hr HF Hlt o t HD HK D m k H1 H2 H3.
  destruct (C76_written_documents inflate ccitt a b revs Ha Hb Hr HF Hlt D m k H1 H2 H3) as (s & E & HS). exists s. split; [exact E|]. split.
  - intros k' ids vs Hk Hv. apply somes_inj. rewrite (HS k' ids Hk).
    + clear - Hv. revert vs Hv. induction ids as [|id ids IH]; intros [|v vs] Hv; cbn [map] in *; try discriminate; [reflexivity|]. injection Hv as Hv Hvs. unfold o in Hv. rewrite Hv. f_equal. now apply IH.
    + clear - Hv. revert vs Hv. induction ids as [|id ids IH]; intros [|v vs] Hv; cbn [map] in *; try discriminate; constructor; injection Hv as Hv Hvs; [unfold o in Hv; rewrite Hv; discriminate|eauto].
  - exact (C101_viewer o inflate python python_decode ccitt cid real_str t ps infos p HD HK).
Qed.

Theorem C101_modern_file : forall real_str python python_decode inflate ccitt cid deflate a b r older ps infos p,
  (forall x, inflate (deflate x) = Some x) -> is_digit a = true -> is_digit b = true ->
  let file := modern_file deflate a b (r :: older) in
  Forall mrev_ok (r :: older) -> zlen file < 256 ^ 4 -> NoDup (map fst (file_contents deflate a b (r :: older))) ->
  let o := or_null (find_obj (file_contents deflate a b (r :: older))) in
  let t := trailer_read (snd (mwrite deflate a b older)) (mr_trailer r) in
  Document o t ps -> Forall2 (known o inflate python) ps (Some p :: infos) ->
  forall D m k, (2 <= D)%nat -> 4 * zlen file + 8 <= Z.of_nat m -> (List.length older <= k)%nat ->
  exists s, arun file (open_document inflate ccitt no_decrypt D m k) (mkA 0 [] rst0) = (Ok ([a; 46; b], 0, t), s) /\
  exists look, (forall k' ids, (1 <= k')%nat ->
     fst (session inflate ccitt no_decrypt D m k' file s ids) = map (fun id => Ok (look (fst id) (snd id))) ids) /\
  shows_known real_str python python_decode inflate ccitt cid o (fun x g => Some (look x g)) t (Some p :: infos).
Proof.
  intros real_str python python_decode inflate ccitt cid deflate a b r older ps infos p Hrd Ha Hb file Hr Hlt Hnd o t HD HK D m k H1 H2 H3.
  destruct (C79_written inflate ccitt deflate a b r older Hrd Ha Hb Hr Hlt Hnd D m k H1 H2 H3) as (s & E & HS). exists s. split; [exact E|]. exists (meant o). split; [exact HS|].
  exact (C101_viewer o inflate python python_decode ccitt cid real_str t ps infos p HD HK).
Qed.

Theorem C101_encrypted_file : forall real_str python python_decode inflate ccitt cid md5 sha256 rc4_size aes_dec a b r en eg e rn rg V R P len id0 ids0 id opw upw key pw ps infos p,
  (forall x, List.length (md5 x) = 16%nat) -> (forall k, 5 <= k <= 16 -> rc4_size k = true) ->
  is_digit a = true -> is_digit b = true -> rev_ok r ->
  Forall (fun e => fst (fst e) <= 4294967295 /\ not_string (snd e)) (rv_objs r) ->
  let file := file_of a b [mkRev (seal_all md5 key (rv_objs r)) (rv_trailer r)] in zlen file < 10 ^ 10 ->
  dget (rv_trailer r) (bs "Encrypt") = Some (ORef en eg) -> find_obj (rv_objs r) en eg = Some (ODict e) ->
  dget (rv_trailer r) (bs "Root") = Some (ORef rn rg) ->
  dget (rv_trailer r) (bs "ID") = Some (OArr (OHex id0 :: ids0)) -> M_CMap.fromhex id0 = Ok id ->
  In V [1; 2; 3] -> In R [2; 3] -> written md5 e V R P len id opw upw key ->
  pw = upw \/ (pw = opw /\ ~ passes md5 e R P len id opw) ->
  let o := or_null (find_obj (rv_objs r)) in
  Document o (rv_trailer r) ps -> Forall2 (known o inflate python) ps (Some p :: infos) ->
  forall D m k, (0 < D)%nat -> 4 * zlen file + 8 <= Z.of_nat m -> (2 <= k)%nat ->
  exists s h v, arun file (open_pdf inflate ccitt D m md5 sha256 rc4_size aes_dec k pw) (mkA 0 [] rst0) = (Ok ([a; 46; b], rv_trailer r, Some h, v), s) /\
  exists look, (forall ids, fst (session inflate ccitt (decrypt_object md5 rc4_size aes_dec (Some h)) D m k file s ids) = map (fun id => Ok (look (fst id) (snd id))) ids) /\
  shows_known real_str python python_decode inflate ccitt cid o (fun x g => Some (look x g)) (rv_trailer r) (Some p :: infos).
Proof.
  intros real_str python python_decode inflate ccitt cid md5 sha256 rc4_size aes_dec a b r en eg e rn rg V R P len id0 ids0 id opw upw key pw ps infos p
    H1 H2 H3 H4 H5 H6 file H7 H8 H9 H10 H11 H12 H13 H14 H15 H16 o HD HK D m k K1 K2 K3.
  destruct (C81_passwords inflate ccitt md5 sha256 rc4_size aes_dec a b r en eg e rn rg V R P len id0 ids0 id opw upw key pw H1 H2 H3 H4 H5 H6 H7 H8 H9 H10 H11 H12 H13 H14 H15 H16 D m k K1 K2 K3) as (s & E & HS).
  exists s, (HBase key). eexists. split; [exact E|]. exists (meant o). split; [exact HS|].
  exact (C101_viewer o inflate python python_decode ccitt cid real_str (rv_trailer r) ps infos p HD HK).
Qed.

(** A document of three pages; the content of the second is damaged. *)
Definition b_page : dict := [(bs "Type", OName (bs "Page")); (bs "Parent", ORef 2 0); (bs "Contents", ORef 6 0)].
Definition b_node : dict := [(bs "Type", OName (bs "Pages")); (bs "Kids", OArr [ORef 3 0; ORef 4 0; ORef 3 0]); (bs "Count", OInt 3)].
Definition b_objs : list (Z * Z * obj) :=
  [(1, 0, ODict [(bs "Type", OName (bs "Catalog")); (bs "Pages", ORef 2 0)]); (2, 0, ODict b_node); (3, 0, ODict r_page); (4, 0, ODict b_page);
   (5, 0, v_stream [] (S_App.content_text r_its)); (6, 0, v_stream [] (bs "q )")); (8, 0, ODict P_App.ex_font2)].
Notation b_o := (or_null (find_obj b_objs)).
Example b_ok : rev_ok (mkRev b_objs v_trailer).
Proof.
  unfold rev_ok, b_objs, b_node, b_page, v_trailer, v_stream, r_page, P_App.ex_font2, v_lf. cbn [rv_objs rv_trailer map fst snd writable printable fold_right].
  wr; first [apply bytes_ok_b; reflexivity | reflexivity | discriminate | (vm_compute; discriminate) | idtac].
Qed.
Example b_document : Document b_o v_trailer [r_page; b_page; r_page].
Proof.
  exists 1, 0, [(bs "Type", OName (bs "Catalog")); (bs "Pages", ORef 2 0)], b_node, [ORef 3 0; ORef 4 0; ORef 3 0].
  split; [reflexivity|]. split; [reflexivity|]. split; [apply typed_class; cbn; auto|]. split; [reflexivity|]. split; [reflexivity|]. split; [reflexivity|].
  apply (Pi_cons _ (ORef 3 0) _ [r_page] [b_page; r_page]); [apply Pa_page with (d := r_page); reflexivity|].
  apply (Pi_cons _ (ORef 4 0) _ [b_page] [r_page]); [apply Pa_page with (d := b_page); reflexivity|].
  apply (Pi_cons _ (ORef 3 0) _ [r_page] []); [apply Pa_page with (d := r_page); reflexivity|constructor].
Qed.
Example b_page_is inflate python : page_is b_o inflate python r_page (r_its, [v_lf], [bs "Hi"; [196]; bs "a(b"]).
Proof.
  unfold page_is. cbn [fst snd]. exists [], (S_App.content_text r_its). split.
  { exists (ORef 5 0). split; [reflexivity|left]. exists [(bs "Length", OInt (zlen (S_App.content_text r_its)))], (S_App.content_text r_its). split; [reflexivity|]. split; [left; reflexivity|]. apply De_plain; left; reflexivity. }
  split; [constructor|]. split.
  { apply content_written. unfold r_its. wops; cbn [printable fold_right]; try (apply bytes_ok_b; reflexivity); try exact I; repeat split; try (apply bytes_ok_b; reflexivity); try lia.
    repeat constructor; [exists 8|exists 0]; split; try lia; reflexivity. }
  split. { change [v_lf] with ([v_lf] ++ []). apply Le_up with (p := b_node);
    [left; exists v_lf; repeat split; discriminate|reflexivity|reflexivity|]. apply Le_top; [right; split; [left; reflexivity|reflexivity]|reflexivity]. }
  split.
  { constructor; [|constructor]. split; [split; reflexivity|]. split; [repeat constructor; cbn; intuition discriminate|]. intros k v [E|[]]; injection E as <- <-.
    change (eqlZ (bs "Font") (bs "ProcSet")) with false. exists [(bs "F1", ORef 8 0)]. split; [reflexivity|]. split; [reflexivity|]. split; [repeat constructor; auto|].
    intros k' x [E|[]]. injection E as _ <-. exists (VDict (Some (bs "Font")) (rd P_App.ex_font2)). apply mean_dict; [reflexivity|apply typed_class; [reflexivity|cbn; auto 20]]. }
  split.
  - apply each_page. unfold r_its. cbn [each_ok app]. repeat (split; [left; drawop|]). exact I.
  - unfold texts. change (shows None [] r_its) with [(Some (bs "F1"), OStr (bs "Hi")); (Some (bs "F1"), OHex (bs "80")); (@None (list Z), OStr (bs "a(b"))].
    assert (forall v s, Bytes v s -> FontText b_o inflate python (res_in b_o "Font" [v_lf] (bs "F1")) v (flat_map (char_of (base_of (Some (bs "MacRomanEncoding")))) s)) as HM.
    { intros v s Hv. change (res_in b_o "Font" [v_lf] (bs "F1")) with (Some (ORef 8 0)).
      apply (Ft_base b_o inflate python (ORef 8 0) P_App.ex_font2 [(bs "Type", OName (bs "Encoding")); (bs "BaseEncoding", OName (bs "MacRomanEncoding"))] (bs "MacRomanEncoding") v s); try reflexivity; try discriminate; [split; reflexivity|exact Hv]. }
    constructor; [|constructor; [|constructor; [|constructor]]]; cbn [fst snd].
    + change (bs "Hi") with (flat_map (char_of (base_of (Some (bs "MacRomanEncoding")))) (bs "Hi")). apply HM. apply ex_bytes; [reflexivity|left; reflexivity].
    + change [196] with (flat_map (char_of (base_of (Some (bs "MacRomanEncoding")))) [128]). apply HM. apply ex_bytes; [reflexivity|right; reflexivity].
    + apply Ft_none. apply ex_bytes; [reflexivity|left; reflexivity].
Qed.
Example C101_ex real_str python python_decode inflate ccitt cid :
  let info := (r_its, [v_lf], [bs "Hi"; [196]; bs "a(b"]) in
  (exists m s t, arun (file_of 49 55 [mkRev b_objs v_trailer]) (open_document inflate ccitt no_decrypt 1 m 2) (mkA 0 [] rst0) = (Ok (bs "1.7", 0, t), s) /\
   exists look, (forall ids, fst (session inflate ccitt no_decrypt 1 m 2 (file_of 49 55 [mkRev b_objs v_trailer]) s ids) = map (fun id => Ok (look (fst id) (snd id))) ids) /\
   shows_known real_str python python_decode inflate ccitt cid b_o (fun x g => Some (look x g)) t [Some info; None; Some info]) /\
  (* the second page cannot be drawn *)
  outcome (page_resources (answer b_o) 20 20) (page_stream inflate ccitt (answer b_o) 20) (app_draw real_str python python_decode inflate ccitt cid (answer b_o) 20 20) (page_bv b_page) = Err ParserExc.
Proof.
  intros info. split.
  - set (f := file_of 49 55 [mkRev b_objs v_trailer]). exists (Z.to_nat (4 * zlen f + 8)).
    destruct (C101_written_file real_str python python_decode inflate ccitt cid 49 55 (mkRev b_objs v_trailer) [r_page; b_page; r_page] [None; Some info] info
      eq_refl eq_refl b_ok ltac:(vm_compute; reflexivity) b_document
      ltac:(constructor; [apply b_page_is|constructor; [exact I|constructor; [apply b_page_is|constructor]]]) 1%nat (Z.to_nat (4 * zlen f + 8)) 2%nat ltac:(apply le_n)) as (s & t & E & look & HS & HV).
    + fold f. pose proof (zlen_nonneg f). lia.
    + apply le_S, le_n.
    + exists s, t. split; [exact E|]. exists look. split; [intros ids; apply HS, le_n|]. exact HV.
  - vm_compute. reflexivity.
Qed.

Print Assumptions C101_visits.
Print Assumptions C101_first_page_refuted.
Print Assumptions C101_viewer.
Print Assumptions C101_written_file.
Print Assumptions C101_updated_file.
Print Assumptions C101_modern_file.
Print Assumptions C101_encrypted_file.
