(** C95: the annotations of the page a viewer is on. *)
From Coq Require Import String.
From Verif Require Import Prelude M_Parser M_Objects S_Objects P_Objects M_Viewer M_Nav P_Nav M_App S_App L_App.
Local Open Scope Z_scope.

(** [Annotation o v a]: the element [v] of Annots is the dictionary [a], itself or by reference. *)
Definition Annotation (o : Z -> Z -> option obj) (v : obj) (a : dict) : Prop :=
  follow o v = ODict a /\ dget a (bs "Type") = Some (OName (bs "Annot")).

(** C95.  Wherever navigation and rendering have led, viewer.annotations are the annotations of the page the viewer is on, in
    the order of that page's Annots; None if the page has no Annots. *)
Theorem C95_annotations : forall o gen get_resources get_stream draw ps s g t d,
  Yields gen (map (page_bv) ps) -> Reach gen get_resources get_stream draw (map page_bv ps) s g t ->
  nth_error ps (Z.to_nat (n_cur s) - 1) = Some d ->
  (forall l annots, entry o d "Annots" = OArr l -> Forall2 (Annotation o) l annots ->
     exists n0, forall n, (n0 <= n)%nat ->
       annotations (answer o) n s = Ok (VArr (map (fun a => VDict (Some (bs "Annot")) (rd a)) annots))) /\
  (dget d (bs "Annots") = None -> forall n, annotations (answer o) n s = Ok (VAtom ONull)).
Proof.
  intros o gen gr gs dr ps s g t d HY HR Hd.
  assert (current_page s = Ok (page_bv d)) as Hp.
  { destruct (i_loaded _ _ _ _ _ _ _ (inv_reach _ _ _ _ _ HY _ _ _ HR)) as (p & E1 & E2 & _). unfold current_page. rewrite E2. f_equal.
    unfold page_no in E1. destruct (n_cur s <? 1); [discriminate|]. rewrite nth_error_map, Hd in E1. cbn [option_map] in E1. congruence. }
  split.
  - intros l annots He HF. unfold entry in He. destruct (dget d (bs "Annots")) as [v|] eqn:Ev; [|discriminate].
    assert (Forall2 (meaning o) l (map (fun a => VDict (Some (bs "Annot")) (rd a)) annots)) as HM.
    { clear - HF. induction HF as [|x a l annots [H1 H2] _ IH]; [constructor|]. constructor; [|exact IH].
      apply mean_dict; [exact H1|]. apply typed_class; [exact H2|]. cbn. tauto. }
    eapply ev_imp; [|exact (ev_build o _ _ (mean_arr o v l _ He HM))]. cbv beta. intros n HB.
    unfold annotations. rewrite Hp. cbn [rbind]. unfold attr, page_bv. rewrite aget_rd, Ev. cbn [option_map]. rewrite HB. reflexivity.
  - intros He n. unfold annotations. rewrite Hp. cbn [rbind]. unfold attr, page_bv. rewrite aget_rd, He. reflexivity.
Qed.

Print Assumptions C95_annotations.

(** Two pages; the second has two annotations, one of them by reference.  After next() they are the viewer's. *)
Definition an_note : dict := [(bs "Type", OName (bs "Annot")); (bs "Subtype", OName (bs "Text"))].
Definition an_o (n g : Z) : option obj := if n =? 7 then Some (ODict an_note) else None.
Definition an_ps : list dict :=
  [[(bs "Type", OName (bs "Page"))]; [(bs "Type", OName (bs "Page")); (bs "Annots", OArr [ORef 7 0; ODict [(bs "Type", OName (bs "Annot"))]])]].
Definition an_gen (count : nat) : list bv * res bool :=
  if Nat.leb count 2 then (firstn count (map page_bv an_ps), Ok false) else (map page_bv an_ps, Ok true).
Definition an_rs (p : bv) : res resources := Ok [].
Definition an_st (p : bv) : res (option (list Z)) := Ok (Some []).
Definition an_draw (p : bv) (rs : resources) (st : option (list Z)) (s : vst) : res unit * vst := (Ok tt, s).
Definition an_s : nav := snd (next an_gen an_rs an_st (snd (M_Nav.open an_gen an_rs an_st))).
Example C95_ex : Yields an_gen (map page_bv an_ps) /\ Reach an_gen an_rs an_st an_draw (map page_bv an_ps) an_s [] false /\
  exists d l, nth_error an_ps (Z.to_nat (n_cur an_s) - 1) = Some d /\ entry an_o d "Annots" = OArr l /\
    Forall2 (Annotation an_o) l [an_note; [(bs "Type", OName (bs "Annot"))]].
Proof.
  split; [|split].
  - intros count. unfold an_gen. split; intros H; destruct (Nat.leb_spec count 2); cbn in H; try lia; reflexivity.
  - apply (Re_nav _ _ _ _ _ (snd (M_Nav.open an_gen an_rs an_st)) [] false 2); [apply Re_open|]; vm_compute; reflexivity.
  - eexists _, _. split; [vm_compute; reflexivity|]. split; [vm_compute; reflexivity|].
    constructor; [split; vm_compute; reflexivity|]. constructor; [split; vm_compute; reflexivity|constructor].
Qed.
