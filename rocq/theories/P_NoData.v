(** C90: streams whose decode parameters cannot be used have no data. *)
From Coq Require Import String.
From Verif Require Import Prelude M_Prog M_Parser M_Filters M_Document M_Objects S_Objects P_Objects P_Pages M_Viewer S_Viewer S_Resources P_Resources
  M_Nav P_Nav M_Codec P_Codec M_CMap P_CMapDecode M_Decoder P_Decoder M_App S_App L_AppText L_App L_App2 L_App3.
Local Open Scope Z_scope.

(** A compressed stream (whose data are sound) with DecodeParms that are no dictionary but an array - as the format allows for
    arrays of filters - or an indirect reference, whatever it refers to. *)
Definition WithParmsArray (inflate : list Z -> option (list Z)) (d : dict) (data : list Z) : Prop :=
  (exists b, inflate data = Some b) /\
  (exists more, dget d (bs "Filter") = Some (OName (bs "FlateDecode")) \/ dget d (bs "Filter") = Some (OArr (OName (bs "FlateDecode") :: more))) /\
  exists v, dget d (bs "DecodeParms") = Some v /\ ((exists x l, v = OArr (x :: l)) \/ exists n g, v = ORef n g).

Section N.
  Variable inflate : list Z -> option (list Z).
  Variable ccitt : list Z -> fparams -> res (list Z).
  (** stream.filtered is None (how the model says it: M_Document.if_none). *)
  Lemma no_filtered d data : WithParmsArray inflate d data -> filtered inflate ccitt d data = Err AttributeErr.
  Proof.
    intros ((b & Hb) & (more & HF) & v & Hv & Hk). unfold filtered, oget. rewrite Hv.
    assert (parms_of v = PArray) as -> by (destruct Hk as [(x & l & ->)|(n & g & ->)]; reflexivity).
    assert (apply_filter inflate ccitt (bs "FlateDecode") data PArray = Err AttributeErr) as HA.
    { change (apply_filter inflate ccitt (bs "FlateDecode") data PArray) with (run_filter inflate ccitt FFlate data PArray). cbn [run_filter]. unfold pget. rewrite Hb. reflexivity. }
    destruct HF as [-> | ->].
    - change (truthy (OName (bs "FlateDecode"))) with true. cbv iota. exact HA.
    - change (truthy (OArr (OName (bs "FlateDecode") :: more))) with true. cbv iota. cbn [apply_objs]. rewrite HA. reflexivity.
  Qed.

  (** As a cross-reference stream: the file cannot be opened by it. *)
  Theorem C90_xref_stream : forall d data first n w1 w2 w3 more, WithParmsArray inflate d data ->
    dget d (bs "Index") = Some (OArr (OInt first :: n :: more)) -> dget d (bs "W") = Some (OArr [OInt w1; OInt w2; OInt w3]) ->
    xref_from_stream inflate ccitt d data = Err TypeErr.
  Proof.
    intros d data first n w1 w2 w3 more H HI HW. unfold xref_from_stream. rewrite HI, HW, (no_filtered d data H). reflexivity.
  Qed.
  (** As an object stream: it is registered itself, none of its objects is, and the lookup that came across it fails. *)
  Theorem C90_object_stream : forall k r num gen d data, WithParmsArray inflate d data -> dget d (bs "Type") = Some (OName (bs "ObjStm")) ->
    rget r num gen = None ->
    register inflate ccitt (S k) false r num gen (OStream d data) = (rset r num gen (OStream d data), Some AttributeErr).
  Proof.
    intros k r num gen d data H HT HR. cbn [register]. unfold is_registered. rewrite HR. cbn [orb negb].
    assert (is_name (oget d (bs "Type")) (bs "ObjStm") = true) as -> by (unfold oget; rewrite HT; reflexivity).
    now rewrite (no_filtered d data H).
  Qed.

  Variable o : Z -> Z -> option obj.
  Variable real_str : bool -> Z -> Z -> list Z.
  Variable python : list Z -> bool.
  Variable python_decode : list Z -> list Z -> res (list Z).
  Variable cid : Z.
  (** As a page's content: the page can be visited, but not rendered: each attempt raises AttributeError and leaves the canvas
      as it was. *)
  Theorem C90_content : forall pd v d data, dget pd (bs "Contents") = Some v -> follow o v = OStream d data -> dget d (bs "Type") = None ->
    WithParmsArray inflate d data ->
    exists nb0, forall nb, (nb0 <= nb)%nat ->
      page_stream inflate ccitt (answer o) nb (page_bv pd) = Ok None /\
      forall n gen ps s g t q rs, Yields gen ps -> 
        let gr := page_resources (answer o) nb n in let gs := page_stream inflate ccitt (answer o) nb in
        let dr := app_draw real_str python python_decode inflate ccitt cid (answer o) nb n in
        Reach gen gr gs dr ps s g t -> page_no ps q = Some (page_bv pd) -> gr (page_bv pd) = Ok rs -> zget (n_cache s) q = None ->
        exists s' s'', navigate gen gr gs q s = (Ok tt, s') /\ n_cur s' = q /\
          render_nav dr s' = (Err AttributeErr, s'') /\ n_cur s'' = q /\ the_canvas s' = empty_canvas /\ the_canvas s'' = empty_canvas.
  Proof.
    intros pd v d data Hc Hf HT HW.
    destruct (ev_build o v _ (mean_stm o v d data [] Hf (untyped_stm _ HT))) as [nb0 HB]. exists nb0. intros nb Hnb. specialize (HB nb Hnb).
    assert (page_stream inflate ccitt (answer o) nb (page_bv pd) = Ok None) as HN.
    { unfold page_stream, attr, page_bv. rewrite aget_rd, Hc. cbn [option_map]. rewrite HB. cbn [rbind]. now rewrite unraw_rd, (no_filtered d data HW). }
    split; [exact HN|]. intros n gen ps s g t q rs HY gr gs dr R Hq Hr Hz.
    destruct (C31_navigate gen gr gs dr ps HY s g t q (page_bv pd) rs None R Hq Hr HN) as (s' & E & Ec & Ep & Ecv & Eg & Er & Es).
    exists s'. unfold render_nav. assert (zget (n_cache s') (n_cur s') = None) as ->.
    { rewrite Ec. destruct (navigate_ok gen gr gs ps HY q s s' (i_pages _ _ _ _ _ _ _ (inv_reach gen gr gs dr ps HY _ _ _ R)) E) as (p' & rs' & st' & pg & _ & _ & _ & _ & _ & ->). exact Hz. }
    rewrite Ep, Es. cbn [dr app_draw]. eexists. split; [exact E|]. split; [exact Ec|]. split; [reflexivity|]. split; [exact Ec|]. split; [exact Ecv|].
    unfold the_canvas at 1. cbn [n_cv n_heap v_cv]. rewrite P_Nav.nth_upd. unfold the_canvas in Ecv. rewrite Ecv. now destruct (_ && _)%bool.
  Qed.
  (** One of several content streams: the page cannot even be visited. *)
  Theorem C90_content_part : forall pd v l1 x l2 d data, dget pd (bs "Contents") = Some v -> follow o v = OArr (l1 ++ x :: l2) ->
    (forall y, In y l1 -> exists b, Data o inflate y b) -> Forall (Sound o) l2 ->
    follow o x = OStream d data -> dget d (bs "Type") = None -> WithParmsArray inflate d data ->
    exists nb0, forall nb, (nb0 <= nb)%nat -> page_stream inflate ccitt (answer o) nb (page_bv pd) = Err TypeErr.
  Proof.
    intros pd v l1 x l2 d data Hc Hf H1 H2 Hx HT HW.
    pose proof (mean_stm o x d data [] Hx (untyped_stm _ HT)) as Mx.
    assert (exists w1, Forall2 (meaning o) l1 w1 /\ forall nb more e, mapM (part inflate ccitt (answer o) nb) more = Err e -> mapM (part inflate ccitt (answer o) nb) (w1 ++ more) = Err e) as (w1 & M1 & P1).
    { clear Hf. induction l1 as [|y l1 IH]; [exists []; split; [constructor|auto]|]. destruct IH as (w1 & M1 & P1); [intros; apply H1; now right|].
      destruct (H1 y (or_introl eq_refl)) as [b Hb]. destruct (data_filtered o inflate ccitt y b Hb) as (sd & sdata & c & HM & HFi).
      exists (VStm (Some c) (rd sd) sdata :: w1). split; [now constructor|]. intros nb more e He. cbn [app mapM part]. rewrite HFi. cbn [if_none rbind].
      now rewrite (P1 nb more e He). }
    assert (exists w2, Forall2 (meaning o) l2 w2) as [w2 M2].
    { clear Hf. induction H2 as [|y l2 [w Hw] _ [w2 IH]]; [exists []; constructor|]. exists (w :: w2). now constructor. }
    assert (Forall2 (meaning o) (l1 ++ x :: l2) (w1 ++ VStm (Some []) (rd d) data :: w2)) as HM by (apply Forall2_app; [exact M1|constructor; assumption]).
    destruct (ev_build o v _ (mean_arr o v _ _ Hf HM)) as [nb0 HB]. exists nb0. intros nb Hnb. specialize (HB nb Hnb).
    unfold page_stream, attr, page_bv. rewrite aget_rd, Hc. cbn [option_map]. rewrite HB. cbn [rbind iter_kids].
    rewrite (P1 nb _ TypeErr); [reflexivity|]. cbn [mapM part]. now rewrite unraw_rd, (no_filtered d data HW).
  Qed.
  (** As a font's ToUnicode map: no text in that font can be decoded, whatever its encoding: ParserException. *)
  Theorem C90_tounicode : forall bld font d data c en s, font_get bld font (bs "ToUnicode") = Ok (VStm c (rd d) data) -> data <> [] -> WithParmsArray inflate d data ->
    font_get bld font (bs "Encoding") = Ok en ->
    show_text python python_decode inflate ccitt bld cid (Some font) s = Err ParserExc.
  Proof.
    intros bld font d data c en s H1 H2 H3 H4.
    apply (C75_tounicode_broken python python_decode inflate ccitt bld cid font (VStm c (rd d) data) en [] ParserExc s H1); auto.
    - destruct data; [contradiction|reflexivity].
    - cbn [filtered_of]. now rewrite unraw_rd, (no_filtered d data H3).
  Qed.
End N.

(** e.g. /Filter [/FlateDecode] /DecodeParms [null], as the format allows, on a page's content *)
Definition ex_inflate (l : list Z) : option (list Z) := Some (bs "(Hi) Tj").
Definition ex_d : dict := [(bs "Filter", OArr [OName (bs "FlateDecode")]); (bs "DecodeParms", OArr [ONull])].
Definition ex_objects (n g : Z) : option obj := if n =? 5 then Some (OStream ex_d [1; 2; 3]) else None.
Definition ex_pd : dict := [(bs "Type", OName (bs "Page")); (bs "Contents", ORef 5 0)].
Example C90_ex : WithParmsArray ex_inflate ex_d [1; 2; 3] /\ dget ex_pd (bs "Contents") = Some (ORef 5 0) /\
  follow ex_objects (ORef 5 0) = OStream ex_d [1; 2; 3] /\ dget ex_d (bs "Type") = None /\
  forall ccitt n, page_resources (answer ex_objects) 9 (S n) (page_bv ex_pd) = Ok [] /\
  exists gen, Yields gen [page_bv ex_pd] /\ fst (M_Nav.open gen (page_resources (answer ex_objects) 9 (S n)) (page_stream ex_inflate ccitt (answer ex_objects) 9)) = Ok tt.
Proof.
  split; [|split; [reflexivity|split; [reflexivity|split; [reflexivity|]]]].
  - split; [now exists (bs "(Hi) Tj")|]. split; [exists []; now right|]. eexists. split; [reflexivity|]. left. now eexists _, _.
  - intros ccitt n. split; [reflexivity|]. exists (fun count => if (count <=? 1)%nat then (firstn count [page_bv ex_pd], Ok false) else ([page_bv ex_pd], Ok true)). split.
    + intros [|[|k]]; split; cbn; intros; try reflexivity; lia.
    + reflexivity.
Qed.

Print Assumptions C90_xref_stream.
Print Assumptions C90_object_stream.
Print Assumptions C90_content.
Print Assumptions C90_content_part.
Print Assumptions C90_tounicode.
