(** C85: what the canvases of a document's pages hold - text, images, forms, inline images - from the file's bytes. *)
From Coq Require Import String.
From Verif Require Import Prelude M_Prog M_Parser M_Filters M_Document M_Objects S_Objects P_Objects P_Pages M_Viewer S_Viewer L_Viewer S_Resources P_Resources
  M_Nav P_Nav M_Decoder M_App S_App L_AppText L_App L_App2 L_App3 P_App S_Syntax S_Stream P_GState S_Canvas P_Canvas S_Page L_Page L_PageDraw L_View
  S_Print L_Print S_Xref S_Document S_Open P_Locate P_Open S_Write P_Write
  M_Secure M_Crypto S_Crypto P_Crypto P_Decrypt S_Sealed P_Secure S_Length S_Back P_Back S_ModWrite P_ModWrite P_Content.
Local Open Scope Z_scope.

(** *** Random access: what a user does with a viewer, and what he gets *)
Inductive cmd := Goto (n : Z) | GoNext | GoPrev | Render.
(** navigate(n), next(), prev(), render(): viewer/pdfviewer.py 223-286, simple.py 204-209.  The user catches exceptions. *)
Definition command gen get_resources get_stream draw (c : cmd) (s : nav) : res unit * nav :=
  match c with
  | Goto n => navigate gen get_resources get_stream n s
  | GoNext => next gen get_resources get_stream s
  | GoPrev => prev gen get_resources get_stream s
  | Render => render_nav draw s
  end.
(** after each command he looks at the page number, and after Render at the canvas *)
Fixpoint visits gen get_resources get_stream draw (l : list cmd) (s : nav) : list (res unit * Z * option canvas) * nav :=
  match l with
  | [] => ([], s)
  | c :: r =>
      let '(x, s1) := command gen get_resources get_stream draw c s in
      let '(xs, s2) := visits gen get_resources get_stream draw r s1 in
      ((x, n_cur s1, match c with Render => Some (the_canvas s1) | _ => None end) :: xs, s2)
  end.
(** What he should get, from the canvases of the pages alone, if he is on page [p]: a page outside the document is refused, and
    he stays where he is. *)
Definition target (p : Z) (c : cmd) : Z := match c with Goto n => n | GoNext => p + 1 | GoPrev => p - 1 | Render => p end.
Definition within (cs : list canvas) (q : Z) : bool := (1 <=? q) && (q <=? zlen cs).
Fixpoint answers (cs : list canvas) (p : Z) (l : list cmd) : list (res unit * Z * option canvas) :=
  match l with
  | [] => []
  | c :: r =>
      let q := target p c in
      if within cs q then (Ok tt, q, match c with Render => nth_error cs (Z.to_nat (q - 1)) | _ => None end) :: answers cs q r
      else (Err (if q <? 1 then ValueErr else PageDoesNotExist), p, None) :: answers cs p r
  end.
Fixpoint ends_on (cs : list canvas) (p : Z) (l : list cmd) : Z :=
  match l with [] => p | c :: r => ends_on cs (if within cs (target p c) then target p c else p) r end.

(** A viewer over the lookups [look], which answer for some ids only (no handler of the model catches OutOfFuel), opened on a document with trailer [t]: for all large enough bounds on the recursion of
    build and on the walks along Kids and Parent, it opens; its pages have the canvases [cs], for which [Q] holds; after any
    commands, which answer as they should, iterating over the viewer gives the canvases from the page it is on to the last, and
    ends. *)
Definition viewer_over real_str python python_decode inflate ccitt cid (look : Z -> Z -> option obj) (t : dict) (Q : list canvas -> Prop) : Prop :=
  let H := fun x g => match look x g with Some v => Ok (raw v) | None => Err OutOfFuel end in
  exists root nb0, forall nb, (nb0 <= nb)%nat -> exists n0, forall n, (n0 <= n)%nat -> exists v cs,
    app_open inflate ccitt H nb n t = Ok (root, v) /\ Q cs /\
    forall l more, exists v',
      visits (doc_pages H nb n root) (page_resources H nb n) (page_stream inflate ccitt H nb) (app_draw real_str python python_decode inflate ccitt cid H nb n) l v =
        (answers cs 1 l, v') /\
      let rest := skipn (Z.to_nat (ends_on cs 1 l - 1)) cs in
      fst (app_canvases real_str python python_decode inflate ccitt cid H nb n root (List.length rest + more) v') = map Ok rest ++ repeat (Err StopIter) more.
(** the same with lookups that always answer *)
Definition viewer_gives real_str python python_decode inflate ccitt cid (look : Z -> Z -> obj) (t : dict) (Q : list canvas -> Prop) : Prop :=
  viewer_over real_str python python_decode inflate ccitt cid (fun x g => Some (look x g)) t Q.

Lemma Forall2_length {A B} (P : A -> B -> Prop) l l' : Forall2 P l l' -> List.length l = List.length l'.
Proof. induction 1; cbn; auto. Qed.
Lemma Forall2_nth {A B} (P : A -> B -> Prop) l l' : Forall2 P l l' -> forall k x, nth_error l k = Some x -> exists y, nth_error l' k = Some y /\ P x y.
Proof. induction 1 as [|a b l l' H _ IH]; intros [|k] x Hk; cbn [nth_error] in *; try discriminate; [injection Hk as <-; eauto|exact (IH k x Hk)]. Qed.
Lemma Forall2_skipn {A B} (P : A -> B -> Prop) l l' : Forall2 P l l' -> forall k, Forall2 P (skipn k l) (skipn k l').
Proof. induction 1 as [|a b l l' H HF IH]; intros [|k]; cbn [skipn]; try constructor; auto. Qed.
Section Visits.
  Variable gen : nat -> list bv * res bool.
  Variable get_resources : bv -> res resources.
  Variable get_stream : bv -> res (option (list Z)).
  Variable draw : bv -> resources -> option (list Z) -> vst -> res unit * vst.
  Variable ps : list bv.
  Hypothesis Hgen : Yields gen ps.
  Variable cs : list canvas.
  Hypothesis Hcs : Forall2 (fresh get_resources get_stream draw) ps cs.
  Notation Reach := (Reach gen get_resources get_stream draw ps).
  Lemma nth_fresh q p : page_no ps q = Some p -> exists c, nth_error cs (Z.to_nat (q - 1)) = Some c /\ fresh get_resources get_stream draw p c.
  Proof.
    unfold page_no. destruct (q <? 1) eqn:E; [discriminate|]. replace (Z.to_nat (q - 1)) with (Z.to_nat q - 1)%nat by lia. apply (Forall2_nth _ _ _ Hcs).
  Qed.
  Lemma within_page q : within cs q = true <-> exists p, page_no ps q = Some p.
  Proof.
    rewrite <- (C31_pages_exist get_resources get_stream draw ps q). unfold within, zlen. rewrite <- (Forall2_length _ _ _ Hcs). lia.
  Qed.
  Definition fit (s : nav) (t : bool) : Prop := t = false \/ zget (n_cache s) (n_cur s) <> None.
  Lemma render_fit s g t s' : Reach s g t -> render_nav draw s = (Ok tt, s') -> zget (n_cache s') (n_cur s') <> None.
  Proof.
    intros R H. unfold render_nav in H. destruct (zget (n_cache s) (n_cur s)) as [a|] eqn:Ec.
    - injection H as <-. cbn [n_cache n_cur]. congruence.
    - destruct (current_page s) as [p|]; [|discriminate]. destruct (draw p (n_rs s) (n_stream s) (mkV (n_gss s) (n_br s) (the_canvas s))) as [[[]|e] v]; [|discriminate].
      injection H as <-. cbn [n_cache n_cur]. rewrite zget_cons, Z.eqb_refl. discriminate.
  Qed.
  Lemma goto_ok q s g t : Reach s g t -> within cs q = true -> exists s', navigate gen get_resources get_stream q s = (Ok tt, s') /\ Reach s' g false /\ n_cur s' = q.
  Proof.
    intros R Hw. apply within_page in Hw. destruct Hw as [p Hp]. destruct (nth_fresh q p Hp) as (c & _ & rs & st & v & E1 & E2 & _).
    destruct (C31_navigate gen get_resources get_stream draw ps Hgen s g t q p rs st R Hp E1 E2) as (s' & E & Ec & _). exists s'. split; [exact E|]. split; [|exact Ec].
    exact (Re_nav gen get_resources get_stream draw ps s g t q s' R E).
  Qed.
  Lemma goto_no q s g t : Reach s g t -> within cs q = false -> navigate gen get_resources get_stream q s = (Err (if q <? 1 then ValueErr else PageDoesNotExist), s).
  Proof.
    intros R Hw. apply (C31_no_such_page gen get_resources get_stream draw ps Hgen s g t q R). unfold within, zlen in Hw. rewrite <- (Forall2_length _ _ _ Hcs) in Hw. lia.
  Qed.
  Lemma visits_ok l : forall s g t, Reach s g t -> fit s t -> exists s' t', visits gen get_resources get_stream draw l s = (answers cs (n_cur s) l, s') /\
    Reach s' g t' /\ fit s' t' /\ n_cur s' = ends_on cs (n_cur s) l.
  Proof.
    induction l as [|c l IH]; intros s g t R Hf; [exists s, t; auto|]. cbn [visits answers ends_on].
    assert (forall q, target (n_cur s) c = q -> command gen get_resources get_stream draw c s = navigate gen get_resources get_stream q s -> c <> Render ->
      exists s' t', (let '(x, s1) := command gen get_resources get_stream draw c s in let '(xs, s2) := visits gen get_resources get_stream draw l s1 in
                     ((x, n_cur s1, match c with Render => Some (the_canvas s1) | _ => None end) :: xs, s2)) =
        (if within cs (target (n_cur s) c) then (Ok tt, target (n_cur s) c, match c with Render => nth_error cs (Z.to_nat (target (n_cur s) c - 1)) | _ => None end) :: answers cs (target (n_cur s) c) l
         else (Err (if target (n_cur s) c <? 1 then ValueErr else PageDoesNotExist), n_cur s, None) :: answers cs (n_cur s) l, s') /\
        Reach s' g t' /\ fit s' t' /\ n_cur s' = ends_on cs (if within cs (target (n_cur s) c) then target (n_cur s) c else n_cur s) l) as HN.
    { intros q Eq Ec Hc. rewrite Ec, Eq. destruct (within cs q) eqn:Ew.
      - destruct (goto_ok q s g t R Ew) as (s1 & E1 & R1 & C1). rewrite E1. destruct (IH s1 g false R1 (or_introl eq_refl)) as (s2 & t2 & E2 & H2). rewrite C1 in *. rewrite E2. exists s2, t2. split; [destruct c; congruence|exact H2].
      - rewrite (goto_no q s g t R Ew). destruct (IH s g t R Hf) as (s2 & t2 & E2 & H2). rewrite E2. exists s2, t2. split; [destruct c; congruence|exact H2]. }
    destruct c as [q| | |]; [apply (HN q); auto; discriminate|apply (HN (n_cur s + 1)); auto; discriminate|apply (HN (n_cur s - 1)); auto; discriminate|].
    cbn [command target].
    assert (within cs (n_cur s) = true) as Ew.
    { apply within_page. pose proof (C31_always_on_a_page gen get_resources get_stream draw ps Hgen s g t R) as X. now apply (C31_pages_exist get_resources get_stream draw ps) in X. }
    rewrite Ew. apply within_page in Ew. destruct Ew as [p Hp]. destruct (nth_fresh _ p Hp) as (c & Ec & Hc).
    destruct (render_some gen get_resources get_stream draw ps Hgen s g t c p R Hf Hp Hc) as (s1 & E1 & R1 & C1 & Cu). rewrite E1.
    destruct (IH s1 g true R1 (or_intror (render_fit s g t s1 R E1))) as (s2 & t2 & E2 & H2). rewrite Cu in *. rewrite E2. exists s2, t2. split; [|exact H2]. rewrite Ec, C1. reflexivity.
  Qed.
End Visits.

Section V.
  Variable o : Z -> Z -> option obj.
  Variable inflate : list Z -> option (list Z).
  Variable python : list Z -> bool.
  Variable python_decode : list Z -> list Z -> res (list Z).
  Variable ccitt : list Z -> fparams -> res (list Z).
  Variable cid : Z.
  Variable real_str : bool -> Z -> Z -> list Z.
  Notation Hdoc := (answer o).
  Notation B nb := (bld Hdoc nb).
  Notation app_show nb := (app_show python python_decode inflate ccitt cid Hdoc nb).
  Notation FT := (FontText o inflate python).
  Notation fcon := (app_form_content inflate ccitt).
  Notation fres nb n d := (app_form_resources Hdoc nb n (page_bv d)).
  Notation drawsc := (P_App.draws o inflate python python_decode ccitt cid real_str).
  Notation seen := (seen_form o inflate python python_decode ccitt cid).

  Lemma draw_op_not ls w args x : DrawOp o ls (COp w args) -> In x (map bs ["Do"; "navigate"; "inline_image"]%string) -> eqlZ w x = false.
  Proof.
    intros Hi Hx. assert (forall y, In y (map bs ["Tf"; "q"; "Q"; "BT"; "ET"; "Tj"; "'"; "TJ"; "cm"; "w"; "J"; "j"; "M"; "d"; "ri"; "i"; "DP"; "BDC"; "gs"]%string) -> eqlZ y x = false) as HN.
    { intros y Hy. cbn [In map] in Hx, Hy. destruct Hx as [<-|[<-|[<-|[]]]]; repeat (destruct Hy as [<-|Hy]; [reflexivity|]); contradiction. }
    remember (COp w args) as i eqn:E. destruct Hi as [i Ht|w' t p Hw _ _ _| |k _]; [|inversion E; subst|discriminate|inversion E; subst].
    - destruct Ht as [f size Hs| | |w' Hw|w' v Hw Hv|l Hl|w' a args' Hw Ha Hl|w' args' Hw Ha]; inversion E; subst; try (apply HN; cbn [In map]; tauto).
      + destruct Hw as [-> | ->]; apply HN; cbn [In map]; tauto.
      + destruct Hw as [-> | ->]; apply HN; cbn [In map]; tauto.
      + apply HN. cbn [In map] in *. tauto.
      + apply (unhandled_neq _ _ Hw). cbn [In map] in *. tauto.
    - destruct Hw as [-> | ->]; apply HN; cbn [In map]; tauto.
    - apply HN; cbn [In map]; tauto.
  Qed.
  Lemma page_plain ls its : PageContent o inflate FT ls its -> Forall plain its.
  Proof.
    intros H. apply Forall_forall. intros i Hi. apply in_split in Hi. destruct Hi as (pre & post & E). destruct (H pre i post E) as [Hi|(k & -> & _)].
    - split; intros (args & ->).
      + pose proof (draw_op_not ls _ _ (bs "navigate") Hi ltac:(cbn; tauto)) as X. rewrite eqlZ_refl in X. discriminate.
      + pose proof (draw_op_not ls _ _ (bs "inline_image") Hi ltac:(cbn; tauto)) as X. rewrite eqlZ_refl in X. discriminate.
    - split; intros (args & X); injection X; discriminate.
  Qed.
  Lemma painter ls its rs pre i post k xo : PageContent o inflate FT ls its -> its = pre ++ i :: post -> S_Canvas.draws rs i k xo ->
    i = COp (bs "Do") [OName k] /\ do_fine o inflate FT ls (fst (fonts_after None [] pre)) k.
  Proof.
    intros H E (a & args & Ei & Ha & _). destruct (H pre i post E) as [Hi|(k' & Ek & Hk)].
    - subst i. pose proof (draw_op_not ls _ _ (bs "Do") Hi ltac:(cbn; tauto)) as X. rewrite eqlZ_refl in X. discriminate.
    - rewrite Ek in Ei. injection Ei as <- <-. cbn [operand_name] in Ha. injection Ha as <-. auto.
  Qed.

  Lemma page_drawn2 d its ls ts : PageIs o inflate FT d its ls ts ->
    ev2 (fun nb n => exists c, drawsc nb n d c /\ Drawn o inflate FT its ls ts c).
  Proof.
    intros (lead & ss & HC & Hl & Hi & HL & HO & HP & HT).
    pose proof (page_content o inflate ccitt d _ HC) as E1. pose proof (page_kinds o d [] ls HL HO) as E2.
    pose proof (texts_shown o inflate python python_decode ccitt cid ls None its ts HT) as E3.
    assert (ev2 (fun nb n => forall pre i post, its = pre ++ i :: post -> forall k, i = COp (bs "Do") [OName k] -> seen nb n d ls (fst (fonts_after None [] pre)) k)) as E4.
    { apply (ev2_splits its (fun nb n pre i => forall k, i = COp (bs "Do") [OName k] -> seen nb n d ls (fst (fonts_after None [] pre)) k)).
      intros pre i post E. destruct (HP pre i post E) as [Hd|(k & -> & Hk)].
      - apply ev2_all. intros nb n k ->. pose proof (draw_op_not ls _ _ (bs "Do") Hd ltac:(cbn; tauto)) as X. rewrite eqlZ_refl in X. discriminate.
      - unfold do_fine in Hk. destruct (res_in o "XObject" ls k) as [v|] eqn:Ev.
        + destruct Hk as [HU|[(dd & data & HX)|(dd & data & fits & fts & HX & HF)]].
          * apply ev2_all. intros nb n k' Ek v' d' data' Ev' (A1 & A2 & A3 & A4). injection Ek as <-. assert (v' = v) as -> by congruence.
            exfalso. destruct HU as (d2 & data2 & B1 & [B2|(B2 & _)]); congruence.
          * apply ev2_all. intros nb n k' Ek v' d' data' Ev' (A1 & A2 & A3 & A4). injection Ek as <-. assert (v' = v) as -> by congruence.
            exfalso. destruct HX as (B1 & B2 & B3 & B4). assert (d' = dd) as -> by congruence. rewrite B4 in A4. discriminate.
          * eapply ev2_imp; [|exact (form_fine o inflate python python_decode ccitt cid real_str d ls dd data _ fits fts HL HO HF)]. cbv beta.
            intros nb n HFo k' Ek v' d' data' Ev' HX'. injection Ek as <-. assert (v' = v) as -> by congruence.
            destruct HX as (B1 & _), HX' as (B1' & _). assert (d' = dd /\ data' = data) as [-> ->] by (split; congruence). exists fits, fts. auto.
        + apply ev2_all. intros nb n k' Ek v' d' data' Ev'. injection Ek as <-. congruence. }
    eapply ev2_imp; [|apply ev2_and; [apply ev2_left; exact E1|apply ev2_and; [exact E2|apply ev2_and; [apply ev2_left; exact E3|exact E4]]]].
    cbv beta. intros nb n (S1 & (rs & R1 & R2) & S3 & S4). clear E1 E2 E3 E4. cbn [app] in R2.
    assert (agree o rs ls) as HA by exact R2.
    pose proof (shown_show o inflate python python_decode ccitt cid nb rs ls None its ts HA S3) as HF.
    assert (forall pre i post, its = pre ++ i :: post -> SimpleOp rs i \/ exists k, i = COp (bs "Do") [OName k] /\
              DoOk (app_show nb) fcon (fres nb n d) rs (fst (fonts_after None [] pre)) k) as Hall.
    { intros pre i post E. destruct (HP pre i post E) as [Hd|(k & -> & Hk)]; [left; now apply (simple_of o inflate python python_decode ccitt cid real_str rs ls)|right]. exists k. split; [reflexivity|].
      apply (do_ok o inflate python python_decode ccitt cid rs ls nb n d _ k HA Hk). exact (S4 pre _ post E k eq_refl). }
    set (show := app_show nb) in *. set (fc := fcon) in *. set (fr := fres nb n d) in *.
    (* every prefix runs *)
    assert (forall pre post, its = pre ++ post -> exists g b c t, run real_str show (page_Do real_str show fc fr) KPage rs pre (mkV [] [] empty_canvas) = (Ok tt, mkV g b c) /\
       cv_strings c = t /\ Forall2 (fun p t => show (font_of rs (fst p)) (snd p) = Ok t) (shows None [] pre) t /\ G g (fst (fonts_after None [] pre)) (snd (fonts_after None [] pre))) as Hpre.
    { intros pre post E. rewrite E, shows_app in HF. apply Forall2_app_inv_l in HF. destruct HF as (t1 & t2 & F1 & _ & _).
      destruct (page_run real_str show fc fr rs pre) with (post := pre) (pre := @nil citem) (gss := @nil gstate) (br := @nil (list Z)) (cv := empty_canvas) (ts := t1) as (g & b & c & A1 & A2 & A3).
      - intros p i q E'. apply (Hall p i (q ++ post)). rewrite E, E', <- app_assoc. reflexivity.
      - reflexivity.
      - left. auto.
      - exact F1.
      - exists g, b, c, t1. auto. }
    destruct (Hpre its [] ltac:(now rewrite app_nil_r)) as (g & b & c & t & HR & Ht & HFt & _).
    assert (t = ts) as ->.
    { clear - HF HFt. revert HF HFt. generalize (shows None [] its) as l. intros l H. revert t. induction H as [|p x l ts E _ IH]; intros t H'; inversion H'; subst; [reflexivity|]. f_equal; [congruence|auto]. }
    pose proof (page_plain ls its HP) as HPl.
    exists c. split.
    - exists rs, (Some (lead ++ ss)), (mkV g b c). split; [exact R1|]. split; [exact S1|]. split; [|reflexivity].
      unfold app_draw, render_page, render. rewrite (content_items_ok its ss lead Hi Hl). cbn [fst snd]. unfold vbind. fold show fc fr. rewrite HR. reflexivity.
    - split; [exact Ht|]. split; [exact (C83_inline_images real_str show fc fr rs its (mkV [] [] empty_canvas) _ HPl eq_refl HR)|].
      destruct (C83_images real_str show fc fr rs its (mkV [] [] empty_canvas) _ HPl eq_refl eq_refl HR) as [I1 I2].
      destruct (C83_forms real_str show fc fr rs its (mkV [] [] empty_canvas) _ HPl eq_refl eq_refl HR) as [F1 F2]. cbn [v_cv] in I1, I2, F1, F2.
      assert (forall k xo, aget (rs_dict rs (bs "XObject")) k = Some xo -> exists v, res_in o "XObject" ls k = Some v /\ meaning o v xo) as HX.
      { intros k xo E. specialize (HA "XObject"%string k ltac:(cbn; tauto)). destruct (res_in o "XObject" ls k) as [v|]; [|congruence]. destruct HA as (w & HM & E'). exists v. split; [reflexivity|congruence]. }
      split; [rewrite I2; f_equal; apply (painted_all o inflate python python_decode ccitt cid real_str rs ls "Image" its HA ltac:(auto) HP)|]. split; [|split; [rewrite F2; f_equal; apply (painted_all o inflate python python_decode ccitt cid real_str rs ls "Form" its HA ltac:(auto) HP)|]].
      + intros k w Ek. apply I1 in Ek. destruct Ek as ((d0 & data0 & -> & Hne) & i & Hin & Hdr). apply in_split in Hin. destruct Hin as (pre & post & E).
        destruct (painter ls its rs pre i post k _ HP E Hdr) as (_ & Hk). destruct Hdr as (a & args & _ & _ & Ea). destruct (HX k _ Ea) as (v & Ev & HM).
        unfold do_fine in Hk. rewrite Ev in Hk. exists v. destruct Hk as [HU|[(dd & data & HXO)|(dd & data & fits & fts & HXO & _)]].
        * destruct (unseen_means o v _ HU HM) as (c' & d' & data' & X & [Y|Y]); injection X as <- <- <-; [congruence|discriminate].
        * exists dd, data. split; [exact Ev|]. split; [exact HXO|]. exact (xobject_means o v "Image" dd data _ HXO ltac:(cbn; tauto) HM).
        * pose proof (xobject_means o v "Form" dd data _ HXO ltac:(cbn; tauto) HM) as X. exfalso. injection X. discriminate.
      + intros k cf Ek. apply F1 in Ek. destruct Ek as (xo & pre & i & post & s1 & frs & ct & s2 & E & Hdr & (d0 & data0 & Exo & Hne) & Hno & Hr1 & Hfr & Hfc & Hrend & ->).
        pose proof (painter ls its rs pre i post k _ HP E Hdr) as (Ei & Hk). destruct Hdr as (a & args & _ & _ & Ea). destruct (HX k _ Ea) as (v & Ev & HM).
        unfold do_fine in Hk. rewrite Ev in Hk. subst i. exists pre, post, v. destruct Hk as [HU|[(dd & data & HXO)|(dd & data & fits0 & fts0 & HXO & _)]].
        * rewrite Exo in HM. destruct (unseen_means o v _ HU HM) as (c' & d' & data' & X & [Y|Y]); injection X as <- <- <-; [congruence|discriminate].
        * pose proof (xobject_means o v "Image" dd data _ HXO ltac:(cbn; tauto) HM) as X. exfalso. rewrite Exo in X. injection X. discriminate.
        * pose proof (xobject_means o v "Form" dd data _ HXO ltac:(cbn; tauto) HM) as X. rewrite X in *. clear X.
          destruct (S4 pre _ post E k eq_refl v dd data Ev HXO) as (fits & fts & HFD & HFO).
          destruct (Hpre pre _ E) as (g1 & b1 & c1 & t1 & Hr1' & _ & _ & HG1). rewrite Hr1 in Hr1'. injection Hr1' as ->. cbn [v_gss] in Hrend.
          destruct (form_draws real_str show fc fr _ _ fits fts g1 _ HFO HG1) as (frs' & g2 & b2 & c2 & X1 & X2 & X3 & X4 & X5 & X6 & X7 & _).
          assert (frs' = frs) as -> by (change (Ok frs' = Ok frs :> res resources) in X1 || idtac; congruence). assert (ct = (fits, None)) as -> by congruence.
          rewrite X3 in Hrend. injection Hrend as <-. cbn [v_cv].
          exists dd, data. split; [exact E|]. split.
          { intros Hin. apply (Hno _ (VStm (Some (bs "Form")) (rd dd) data) Hin). exists (OName k), []. auto. }
          split; [exact Ev|]. split; [exact HXO|]. split; [exact X6|]. split; [exact X7|]. intros fits' fts' HFD'.
          destruct (form_draws_fun o inflate python python_decode ccitt cid ls dd data _ fits fts fits' fts' HFD HFD') as [<- <-]. auto.
  Qed.

  Notation gives := (viewer_over real_str python python_decode inflate ccitt cid).
  Lemma viewer_general {P} t ps (pages : list P) (Q : P -> canvas -> Prop) : Document o t ps -> ps <> [] ->
    Forall2 (fun d p => ev2 (fun nb n => exists c, drawsc nb n d c /\ Q p c)) ps pages ->
    gives o t (fun cs => Forall2 Q pages cs).
  Proof.
    intros HD Hne HF. destruct (document_pages o t ps HD) as [root HE].
    assert (ev2 (fun nb n => exists cs, Forall2 (drawsc nb n) ps cs /\ Forall2 Q pages cs)) as HC.
    { clear HD Hne HE. induction HF as [|d p ps pages Hd _ IH].
      - apply ev2_all. intros nb n. exists []. split; constructor.
      - eapply ev2_imp; [|apply ev2_and; [exact Hd|exact IH]]. cbv beta. intros nb n [(c & A1 & A2) (cs & B1 & B2)]. exists (c :: cs). split; constructor; auto. }
    unfold viewer_over. cbv zeta. exists root. change (fun x g => match o x g with Some v => Ok (raw v) | None => Err OutOfFuel end) with Hdoc.
    destruct (ev_and _ _ HE HC) as [nb0 Hnb]. exists nb0. intros nb Hle. destruct (Hnb nb Hle) as [[R1 R2] H2]. clear HE HC Hnb Hle.
    destruct (ev_and _ _ R2 H2) as [n0 Hn]. exists n0. intros n Hle. destruct (Hn n Hle) as [HY (cs & D1 & D2)]. clear R2 H2 Hn Hle.
    set (gen := doc_pages Hdoc nb n root) in *. set (gr := page_resources Hdoc nb n). set (gs := page_stream inflate ccitt Hdoc nb).
    set (dr := app_draw real_str python python_decode inflate ccitt cid Hdoc nb n).
    assert (Forall2 (fresh gr gs dr) (map page_bv ps) cs) as HFr by (clear - D1; induction D1 as [|x y l l' H _ IH]; cbn [map]; constructor; auto).
    destruct ps as [|d ps]; [congruence|]. assert (exists c cs', cs = c :: cs' /\ drawsc nb n d c) as (c & cs' & Ecs & Hd) by (inversion D1; subst; eauto).
    pose proof Hd as (rs & st & v & G1 & G2 & _).
    destruct (navigate_loads gen gr gs (map page_bv (d :: ps)) HY 1 (mkN [] 1 [empty_canvas] 0 [] [] [] [] None) (page_bv d) rs st) as [s Hs]; auto.
    { intros k p Hk. discriminate. }
    assert (M_Nav.open gen gr gs = (Ok tt, s)) as HO by exact Hs.
    exists s, cs. split; [unfold app_open; rewrite R1; cbn [rbind]; fold gen gr gs; now rewrite HO|]. split; [exact D2|].
    assert (n_cur s = 1) as Hcur.
    { destruct (navigate_ok gen gr gs (map page_bv (d :: ps)) HY 1 (mkN [] 1 [empty_canvas] 0 [] [] [] [] None) s ltac:(intros k p Hk; discriminate Hk) Hs) as (p' & rs' & st' & pg & _ & _ & _ & _ & _ & ->). reflexivity. }
    pose proof (Re_open gen gr gs dr (map page_bv (d :: ps)) s HO) as HR.
    intros l more. destruct (visits_ok gen gr gs dr (map page_bv (d :: ps)) HY cs HFr l s [] false HR (or_introl eq_refl)) as (s' & t' & E & R' & F' & C').
    exists s'. rewrite <- Hcur at 1. split; [exact E|]. unfold app_canvases. fold gen gr gs dr. rewrite Hcur in C'.
    pose proof (C31_always_on_a_page gen gr gs dr (map page_bv (d :: ps)) HY s' [] t' R') as Hpos. rewrite <- C'.
    refine (C32_canvases gen gr gs dr (map page_bv (d :: ps)) HY _ s' [] t' (Z.to_nat (n_cur s' - 1)) more R' F' _ _); [lia|].
    now apply Forall2_skipn.
  Qed.

  (** C85.  The viewer over a document's objects: the canvas of each page holds what the page draws. *)
  Theorem C85_viewer : forall t ps pages, Document o t ps -> ps <> [] ->
    Forall2 (fun d p => PageIs o inflate FT d (fst (fst p)) (snd (fst p)) (snd p)) ps pages ->
    gives o t (fun cs => Forall2 (fun p c => Drawn o inflate FT (fst (fst p)) (snd (fst p)) (snd p) c) pages cs).
  Proof.
    intros t ps pages HD Hne HF. apply (viewer_general t ps pages _ HD Hne). eapply Forall2_impl; [|exact HF]. cbv beta. intros d p Hd. exact (page_drawn2 d _ _ _ Hd).
  Qed.
End V.

(** C85 from the bytes of the file: a document written as a file (S_Write.v). *)
Definition drawn_as o inflate python (p : list citem * list dict * list (list Z)) (c : canvas) : Prop :=
  Drawn o inflate (FontText o inflate python) (fst (fst p)) (snd (fst p)) (snd p) c.
Definition page_is o inflate python (d : dict) (p : list citem * list dict * list (list Z)) : Prop :=
  PageIs o inflate (FontText o inflate python) d (fst (fst p)) (snd (fst p)) (snd p).
Theorem C85_written_file : forall real_str python python_decode inflate ccitt cid a b r ps pages,
  is_digit a = true -> is_digit b = true -> rev_ok r -> zlen (file_of a b [r]) < 10 ^ 10 ->
  let o := or_null (find_obj (rv_objs r)) in
  Document o (rv_trailer r) ps -> ps <> [] -> Forall2 (page_is o inflate python) ps pages ->
  forall D m k, (0 < D)%nat -> 4 * zlen (file_of a b [r]) + 8 <= Z.of_nat m -> (1 <= k)%nat ->
  exists s t, arun (file_of a b [r]) (open_document inflate ccitt no_decrypt D m k) (mkA 0 [] rst0) = (Ok ([a; 46; b], 0, t), s) /\
  exists look, (forall k' ids, (2 <= k')%nat ->
     fst (session inflate ccitt no_decrypt D m k' (file_of a b [r]) s ids) = map (fun id => Ok (look (fst id) (snd id))) ids) /\
  viewer_gives real_str python python_decode inflate ccitt cid look t (fun cs => Forall2 (drawn_as o inflate python) pages cs).
Proof.
  intros real_str python python_decode inflate ccitt cid a b r ps pages Ha Hb Hr Hlt o HD Hne HF D m k H1 H2 H3.
  destruct (C76_written_once inflate ccitt a b r Ha Hb Hr Hlt D m k H1 H2 H3) as (s & E & HS). exists s, (rv_trailer r). split; [exact E|]. exists (meant o). split; [exact HS|].
  exact (C85_viewer o inflate python python_decode ccitt cid real_str (rv_trailer r) ps pages HD Hne HF).
Qed.

(** C86.  Random access, for any document: [ps] are its pages, [cs] what a fresh viewer draws for each. *)
Theorem C86_random_access : forall gen get_resources get_stream draw ps cs s,
  Yields gen ps -> Forall2 (fresh get_resources get_stream draw) ps cs -> M_Nav.open gen get_resources get_stream = (Ok tt, s) ->
  forall l more, exists s', visits gen get_resources get_stream draw l s = (answers cs 1 l, s') /\
    let rest := skipn (Z.to_nat (ends_on cs 1 l - 1)) cs in
    fst (iterate (canvas_next gen get_resources get_stream draw) (List.length rest + more) false s') = map Ok rest ++ repeat (Err StopIter) more.
Proof.
  intros gen gr gs dr ps cs s HY HFr HO l more. pose proof (Re_open gen gr gs dr ps s HO) as HR.
  assert (n_cur s = 1) as Hcur.
  { destruct (navigate_ok gen gr gs ps HY 1 (mkN [] 1 [empty_canvas] 0 [] [] [] [] None) s ltac:(intros k p Hk; discriminate Hk) HO) as (p' & rs' & st' & pg & _ & _ & _ & _ & _ & ->). reflexivity. }
  destruct (visits_ok gen gr gs dr ps HY cs HFr l s [] false HR (or_introl eq_refl)) as (s' & t' & E & R' & F' & C').
  exists s'. rewrite <- Hcur at 1. split; [exact E|]. cbv zeta. rewrite Hcur in C'. rewrite <- C'.
  pose proof (C31_always_on_a_page gen gr gs dr ps HY s' [] t' R') as Hpos.
  refine (C32_canvases gen gr gs dr ps HY _ s' [] t' (Z.to_nat (n_cur s' - 1)) more R' F' _ _); [lia|now apply Forall2_skipn].
Qed.

(** C87.  Files with cross-reference streams and object streams (S_ModWrite.v), in any number of revisions. *)
Theorem C87_modern_file : forall real_str python python_decode inflate ccitt cid deflate a b r older ps pages,
  (forall x, inflate (deflate x) = Some x) -> is_digit a = true -> is_digit b = true ->
  let file := modern_file deflate a b (r :: older) in
  Forall mrev_ok (r :: older) -> zlen file < 256 ^ 4 -> NoDup (map fst (file_contents deflate a b (r :: older))) ->
  let o := or_null (find_obj (file_contents deflate a b (r :: older))) in
  let t := trailer_read (snd (mwrite deflate a b older)) (mr_trailer r) in
  Document o t ps -> ps <> [] -> Forall2 (page_is o inflate python) ps pages ->
  forall D m k, (2 <= D)%nat -> 4 * zlen file + 8 <= Z.of_nat m -> (List.length older <= k)%nat ->
  exists s, arun file (open_document inflate ccitt no_decrypt D m k) (mkA 0 [] rst0) = (Ok ([a; 46; b], 0, t), s) /\
  exists look, (forall k' ids, (1 <= k')%nat ->
     fst (session inflate ccitt no_decrypt D m k' file s ids) = map (fun id => Ok (look (fst id) (snd id))) ids) /\
  viewer_gives real_str python python_decode inflate ccitt cid look t (fun cs => Forall2 (drawn_as o inflate python) pages cs).
Proof.
  intros real_str python python_decode inflate ccitt cid deflate a b r older ps pages Hrd Ha Hb file Hr Hlt Hnd o t HD Hne HF D m k H1 H2 H3.
  destruct (C79_written inflate ccitt deflate a b r older Hrd Ha Hb Hr Hlt Hnd D m k H1 H2 H3) as (s & E & HS). exists s. split; [exact E|]. exists (meant o). split; [exact HS|].
  exact (C85_viewer o inflate python python_decode ccitt cid real_str t ps pages HD Hne HF).
Qed.

(** Encrypted files (RC4), opened with the user's or the owner's password: the canvases are those of the document before
    encryption. *)
Theorem C87_encrypted_file : forall real_str python python_decode inflate ccitt cid md5 sha256 rc4_size aes_dec a b r en eg e rn rg V R P len id0 ids0 id opw upw key pw ps pages,
  (forall x, List.length (md5 x) = 16%nat) -> (forall k, 5 <= k <= 16 -> rc4_size k = true) ->
  is_digit a = true -> is_digit b = true -> rev_ok r ->
  Forall (fun e => fst (fst e) <= 4294967295 /\ not_string (snd e)) (rv_objs r) ->
  let file := file_of a b [mkRev (seal_all md5 key (rv_objs r)) (rv_trailer r)] in zlen file < 10 ^ 10 ->
  dget (rv_trailer r) (bs "Encrypt") = Some (ORef en eg) -> find_obj (rv_objs r) en eg = Some (ODict e) ->
  dget (rv_trailer r) (bs "Root") = Some (ORef rn rg) ->
  dget (rv_trailer r) (bs "ID") = Some (OArr (OHex id0 :: ids0)) -> M_CMap.fromhex id0 = Ok id ->
  In V [1; 2; 3] -> In R [2; 3] -> written md5 e V R P len id opw upw key ->
  pw = upw \/ (pw = opw /\ ~ passes md5 e R P len id opw) ->
  let o := or_null (find_obj (rv_objs r)) in
  Document o (rv_trailer r) ps -> ps <> [] -> Forall2 (page_is o inflate python) ps pages ->
  forall D m k, (0 < D)%nat -> 4 * zlen file + 8 <= Z.of_nat m -> (2 <= k)%nat ->
  exists s h v, arun file (open_pdf inflate ccitt D m md5 sha256 rc4_size aes_dec k pw) (mkA 0 [] rst0) = (Ok ([a; 46; b], rv_trailer r, Some h, v), s) /\
  exists look, (forall ids, fst (session inflate ccitt (decrypt_object md5 rc4_size aes_dec (Some h)) D m k file s ids) = map (fun id => Ok (look (fst id) (snd id))) ids) /\
  viewer_gives real_str python python_decode inflate ccitt cid look (rv_trailer r) (fun cs => Forall2 (drawn_as o inflate python) pages cs).
Proof.
  intros real_str python python_decode inflate ccitt cid md5 sha256 rc4_size aes_dec a b r en eg e rn rg V R P len id0 ids0 id opw upw key pw ps pages
    H1 H2 H3 H4 H5 H6 file H7 H8 H9 H10 H11 H12 H13 H14 H15 H16 o HD Hne HF D m k K1 K2 K3.
  destruct (C81_passwords inflate ccitt md5 sha256 rc4_size aes_dec a b r en eg e rn rg V R P len id0 ids0 id opw upw key pw H1 H2 H3 H4 H5 H6 H7 H8 H9 H10 H11 H12 H13 H14 H15 H16 D m k K1 K2 K3) as (s & E & HS).
  exists s, (HBase key). eexists. split; [exact E|]. exists (meant o). split; [exact HS|].
  exact (C85_viewer o inflate python python_decode ccitt cid real_str (rv_trailer r) ps pages HD Hne HF).
Qed.
(** Any method (RC4, AES; [objs] is what the encrypted objects are meant to be read as, S_Sealed.v), with the Encrypt dictionary
    left out of the cross-reference table (C82). *)
Theorem C87_sealed_file : forall real_str python python_decode inflate ccitt cid md5 sha256 rc4_size aes_enc aes_dec a b before after t objs en eg e rn rg pw h ps pages,
  (forall x, List.length (md5 x) = 16%nat) -> (forall k, 5 <= k <= 16 -> rc4_size k = true) -> cipher aes_enc aes_dec ->
  is_digit a = true -> is_digit b = true ->
  let raw := before ++ (en, eg, ODict e) :: after in let f := unlisted_file a b en raw t in
  rev_ok (mkRev raw t) -> zlen f < 10 ^ 10 -> before <> [] -> zlen (header_text en eg) <= 14 ->
  Forall (fun x => ~ has (bs "endobj") (value_text (snd x))) ((en, eg, ODict e) :: after) ->
  sealed_objects md5 aes_enc h raw objs ->
  dget t (bs "Encrypt") = Some (ORef en eg) -> e <> [] -> dget t (bs "Root") = Some (ORef rn rg) ->
  trailer_handler md5 sha256 rc4_size aes_dec (fun _ _ => ODict e) t pw = Ok (Some h) ->
  let o := or_null (find_obj objs) in
  Document o t ps -> ps <> [] -> Forall2 (page_is o inflate python) ps pages ->
  forall D m k, (0 < D)%nat -> 4 * zlen f + 8 <= Z.of_nat m -> (2 <= k)%nat ->
  exists s v, arun f (open_pdf inflate ccitt D m md5 sha256 rc4_size aes_dec k pw) (mkA 0 [] rst0) = (Ok ([a; 46; b], t, Some h, v), s) /\
  exists look, (forall ids, fst (session inflate ccitt (decrypt_object md5 rc4_size aes_dec (Some h)) D m k f s ids) = map (fun id => Ok (look (fst id) (snd id))) ids) /\
  viewer_gives real_str python python_decode inflate ccitt cid look t (fun cs => Forall2 (drawn_as o inflate python) pages cs).
Proof.
  intros real_str python python_decode inflate ccitt cid md5 sha256 rc4_size aes_enc aes_dec a b before after t objs en eg e rn rg pw h ps pages
    H1 H2 H3 H4 H5 raw f H6 H7 H8 H9 H10 H11 H12 H13 H14 H15 o HD Hne HF D m k K1 K2 K3.
  destruct (C82_written inflate ccitt md5 sha256 rc4_size aes_enc aes_dec a b before after t objs en eg e rn rg pw h H1 H2 H3 H4 H5 H6 H7 H8 H9 H10 H11 H12 H13 H14 H15 D m k K1 K2 K3) as (s & E & HS).
  exists s. eexists. split; [exact E|]. exists (meant o). split; [exact HS|].
  exact (C85_viewer o inflate python python_decode ccitt cid real_str t ps pages HD Hne HF).
Qed.

(** ---- A document of two pages.  Object 10 is an image, 11 a form with a font of its own, 12 an image without Type (which the
    viewer does not see); 20 is an Encrypt dictionary, used when the trailer says so. ---- *)
Lemma content_then a b sb : Forall writable_op a -> Content b sb -> Content (a ++ b) (content_text a ++ sb).
Proof.
  intros Ha HB. induction Ha as [|i its Hi _ IH]; [exact HB|]. destruct i as [d data|w args]; [destruct Hi|]. destruct Hi as (Hw & Hs & Ha).
  unfold content_text. cbn [flat_map app]. rewrite <- !app_assoc. apply (Co_op args _ w [10]); [|exact Hw|apply sep_lf|reflexivity|exact IH].
  destruct w as [|c w]; [now destruct Hw|]. apply elems_written; auto.
  - apply Forall_forall. intros v Hv. rewrite Forall_forall in Ha. destruct (Ha v Hv). apply print_ser; auto.
  - intros v Hv. rewrite Forall_forall in Ha. now destruct (Ha v Hv).
  - cbn [app]. destruct Hw as (_ & Hw & _). apply Forall_inv in Hw. cbv beta in Hw. unfold nosep, head_is.
    destruct Hw as [-> H2]. cbn [orb]. destruct (Z.eqb_spec c 37) as [-> |]; [discriminate H2|reflexivity].
Qed.
Definition v_img : citem := CImage [(bs "W", OInt 1)] (bs "aEIb").
Definition v_c1 : list citem := [COp (bs "q") []; COp (bs "Do") [OName (bs "No1")]; COp (bs "gs") [OName (bs "G1")]; COp (bs "Tf") [OName (bs "F1"); OInt 12];
  COp (bs "Tj") [OStr (bs "Hi")]; COp (bs "Do") [OName (bs "Fm1")]; COp (bs "Do") [OName (bs "Im1")]; COp (bs "Do") [OName (bs "Fm1")]].
Definition v_c2 : list citem := [COp (bs "Q") []; COp (bs "Tj") [OStr (bs "end")]].
Definition v_its1 : list citem := v_c1 ++ [v_img] ++ v_c2.
Definition v_text1 : list Z := content_text v_c1 ++ bs "BI /W 1 ID" ++ [10] ++ bs "aEIb EI" ++ [10] ++ content_text v_c2.
Definition v_its2 : list citem := [COp (bs "Do") [OName (bs "Im1")]].
Definition v_itsf : list citem := [COp (bs "BT") []; COp (bs "Tj") [OHex (bs "80")]; COp (bs "Do") [OName (bs "Im1")]; COp (bs "ET") []].
Definition v_stream (d : dict) (data : list Z) : obj := OStream ((bs "Length", OInt (zlen data)) :: d) data.
Definition v_page1 : dict := [(bs "Type", OName (bs "Page")); (bs "Parent", ORef 2 0); (bs "Contents", ORef 5 0); (bs "Resources", ORef 9 0)].
Definition v_page2 : dict := [(bs "Type", OName (bs "Page")); (bs "Parent", ORef 2 0); (bs "Contents", OArr [ORef 6 0])].
Definition v_l1 : dict := [(bs "XObject", ODict [(bs "Fm1", ORef 11 0); (bs "No1", ORef 12 0)]); (bs "ExtGState", ODict [(bs "G1", ODict [(bs "LW", OInt 2)])])].
Definition v_l2 : dict := [(bs "ProcSet", OArr [OName (bs "PDF")]); (bs "Font", ODict [(bs "F1", ORef 7 0)]); (bs "XObject", ODict [(bs "Im1", ORef 10 0)])].
Definition v_lf : dict := [(bs "Font", ODict [(bs "F1", ORef 8 0)])].
Definition v_node : dict := [(bs "Type", OName (bs "Pages")); (bs "Kids", OArr [ORef 3 0; ORef 4 0]); (bs "Count", OInt 2); (bs "Resources", ODict v_l2)].
Definition v_image : dict := [(bs "Length", OInt 3); (bs "Type", OName (bs "XObject")); (bs "Subtype", OName (bs "Image"))].
Definition v_form : dict := [(bs "Length", OInt (zlen (content_text v_itsf))); (bs "Type", OName (bs "XObject")); (bs "Subtype", OName (bs "Form")); (bs "Resources", ODict v_lf)].
Definition v_untyped : dict := [(bs "Length", OInt 3); (bs "Subtype", OName (bs "Image"))].
Definition v_font1 : dict := [(bs "Type", OName (bs "Font")); (bs "Name", OName (bs "F1"))].
Definition v_objs : list (Z * Z * obj) :=
  [(1, 0, ODict [(bs "Type", OName (bs "Catalog")); (bs "Pages", ORef 2 0)]); (2, 0, ODict v_node); (3, 0, ODict v_page1); (4, 0, ODict v_page2);
   (5, 0, v_stream [] v_text1); (6, 0, v_stream [] (content_text v_its2)); (7, 0, ODict v_font1); (8, 0, ODict P_App.ex_font2); (9, 0, ODict v_l1);
   (10, 0, OStream v_image (bs "abc")); (11, 0, OStream v_form (content_text v_itsf)); (12, 0, OStream v_untyped (bs "abc")); (20, 0, ODict P_Crypto.ex_dict)].
Definition v_trailer : dict := [(bs "Root", ORef 1 0)].
Definition v_sealed_trailer : dict := [(bs "Root", ORef 1 0); (bs "Encrypt", ORef 20 0); (bs "ID", OArr [OHex (bs "010203FF"); OHex (bs "010203FF")])].
Notation v_o := (or_null (find_obj v_objs)).
Example v_ok : rev_ok (mkRev v_objs v_trailer).
Proof.
  unfold rev_ok, v_objs, v_trailer, v_stream, v_page1, v_page2, v_node, P_App.ex_font2, v_l1, v_l2, v_image, v_form, v_lf, v_untyped, v_font1, P_Crypto.ex_dict. cbn [rv_objs rv_trailer map fst snd writable printable fold_right].
  wr; first [apply bytes_ok_b; reflexivity | reflexivity | discriminate | (vm_compute; discriminate) | idtac].
Qed.
Example v_sealed_ok : rev_ok (mkRev v_objs v_sealed_trailer).
Proof.
  destruct v_ok as (H1 & H2 & _). unfold rev_ok. cbn [rv_objs rv_trailer] in *. split; [exact H1|]. split; [exact H2|]. unfold v_sealed_trailer. cbn [map fst snd printable fold_right].
  wr; first [apply bytes_ok_b; reflexivity | reflexivity | discriminate | (vm_compute; discriminate) | idtac].
  all: let x := eval vm_compute in (bs "010203FF") in change (bs "010203FF") with x;
    repeat (constructor; [first [exists 0; split; [lia|reflexivity] | exists 1; split; [lia|reflexivity] | exists 2; split; [lia|reflexivity]
      | exists 3; split; [lia|reflexivity] | exists 15; split; [lia|reflexivity]]|]); constructor.
Qed.
Example v_document t : dget t (bs "Root") = Some (ORef 1 0) -> Document v_o t [v_page1; v_page2].
Proof.
  intros Ht. exists 1, 0, [(bs "Type", OName (bs "Catalog")); (bs "Pages", ORef 2 0)], v_node, [ORef 3 0; ORef 4 0].
  split; [exact Ht|]. split; [reflexivity|]. split; [apply typed_class; cbn; auto|]. split; [reflexivity|]. split; [reflexivity|]. split; [reflexivity|].
  apply (Pi_cons _ (ORef 3 0) _ [v_page1] [v_page2]); [apply Pa_page with (d := v_page1); reflexivity|].
  apply (Pi_cons _ (ORef 4 0) _ [v_page2] []); [apply Pa_page with (d := v_page2); reflexivity|constructor].
Qed.
Lemma v_sound_stm v d data c : follow v_o v = OStream d data -> stm_class (rd d) c -> Sound v_o v.
Proof. intros H1 H2. exists (VStm (Some c) (rd d) data). now apply mean_stm. Qed.
Example v_level1 : LevelOk v_o v_l1.
Proof.
  split; [split; reflexivity|]. split; [repeat constructor; cbn; intuition discriminate|]. intros k v [E|[E|[]]]; injection E as <- <-.
  - change (eqlZ (bs "XObject") (bs "ProcSet")) with false. exists [(bs "Fm1", ORef 11 0); (bs "No1", ORef 12 0)]. split; [reflexivity|]. split; [reflexivity|].
    split; [repeat constructor; cbn; intuition discriminate|]. intros k' x [E|[E|[]]]; injection E as _ <-.
    + eapply (v_sound_stm (ORef 11 0) v_form); [reflexivity|apply (xobject_stm v_form (bs "Form")); reflexivity].
    + eapply (v_sound_stm (ORef 12 0) v_untyped); [reflexivity|apply untyped_stm; reflexivity].
  - change (eqlZ (bs "ExtGState") (bs "ProcSet")) with false. exists [(bs "G1", ODict [(bs "LW", OInt 2)])]. split; [reflexivity|]. split; [reflexivity|].
    split; [repeat constructor; cbn; intuition discriminate|]. intros k' x [E|[]]; injection E as _ <-. exists (VDict (Some []) (rd [(bs "LW", OInt 2)])). apply mean_dict; [reflexivity|]. now apply untyped_class.
Qed.
Example v_sound7 : Sound v_o (ORef 7 0) /\ Sound v_o (ORef 8 0).
Proof.
  split; [exists (VDict (Some (bs "Font")) (rd v_font1))|exists (VDict (Some (bs "Font")) (rd P_App.ex_font2))]; (apply mean_dict; [reflexivity|apply typed_class; [reflexivity|cbn; auto 20]]).
Qed.
Example v_level2 : LevelOk v_o v_l2.
Proof.
  split; [split; reflexivity|]. split; [repeat constructor; cbn; intuition discriminate|]. intros k v [E|[E|[E|[]]]]; injection E as <- <-.
  - change (eqlZ (bs "ProcSet") (bs "ProcSet")) with true. exists [bs "PDF"]. reflexivity.
  - change (eqlZ (bs "Font") (bs "ProcSet")) with false. exists [(bs "F1", ORef 7 0)]. split; [reflexivity|]. split; [reflexivity|]. split; [repeat constructor; auto|].
    intros k' x [E|[]]. injection E as _ <-. apply v_sound7.
  - change (eqlZ (bs "XObject") (bs "ProcSet")) with false. exists [(bs "Im1", ORef 10 0)]. split; [reflexivity|]. split; [reflexivity|]. split; [repeat constructor; auto|].
    intros k' x [E|[]]. injection E as _ <-. eapply (v_sound_stm (ORef 10 0) v_image); [reflexivity|apply (xobject_stm v_image (bs "Image")); reflexivity].
Qed.
Example v_levelf : LevelOk v_o v_lf.
Proof.
  split; [split; reflexivity|]. split; [repeat constructor; cbn; intuition discriminate|]. intros k v [E|[]]; injection E as <- <-.
  change (eqlZ (bs "Font") (bs "ProcSet")) with false. exists [(bs "F1", ORef 8 0)]. split; [reflexivity|]. split; [reflexivity|]. split; [repeat constructor; auto|].
  intros k' x [E|[]]. injection E as _ <-. apply v_sound7.
Qed.
Example v_levels : Levels v_o v_page1 [v_l1; v_l2] /\ Levels v_o v_page2 [v_l2].
Proof.
  assert (Levels v_o v_node [v_l2]) as Hn by (apply Le_top; [left; exists v_l2; repeat split; discriminate|reflexivity]).
  split; [apply (Le_up v_o v_page1 [v_l1] v_node [v_l2])|apply (Le_up v_o v_page2 [] v_node [v_l2])]; try reflexivity; try exact Hn.
  - left. exists v_l1. repeat split. discriminate.
  - right. split; [left; reflexivity|reflexivity].
Qed.
Ltac drawop := first [apply Do_text; textop | apply Do_text; apply To_other; [unfold unhandled; cbn; intuition discriminate|repeat constructor]].
Fixpoint each_ok o inflate FT (ls : list dict) (pre its : list citem) : Prop :=
  match its with
  | [] => True
  | i :: r => (DrawOp o ls i \/ exists k, i = COp (bs "Do") [OName k] /\ do_fine o inflate FT ls (fst (fonts_after None [] pre)) k) /\ each_ok o inflate FT ls (pre ++ [i]) r
  end.
Lemma each_page o inflate FT ls its : each_ok o inflate FT ls [] its -> PageContent o inflate FT ls its.
Proof.
  intros H pre. change pre with ([] ++ pre) at 2. revert H. generalize (@nil citem) as p0. revert pre its.
  induction pre as [|x pre IH]; intros its p0 H i post E; subst its; cbn [app each_ok] in H; [rewrite app_nil_r; apply H|]. destruct H as [_ H].
  specialize (IH (pre ++ i :: post) (p0 ++ [x]) H i post eq_refl). now rewrite <- app_assoc in IH.
Qed.
Example v_form_draws inflate python : FormDraws v_o inflate (FontText v_o inflate python) [v_l1; v_l2] v_form (content_text v_itsf) (Some (bs "F1")) v_itsf [[196]].
Proof.
  exists [], (content_text v_itsf), [v_lf]. split; [apply De_plain; left; reflexivity|]. split; [constructor|].
  split. { apply content_written. unfold v_itsf. wops; cbn [printable fold_right]; try (apply bytes_ok_b; reflexivity); try exact I. repeat constructor; [exists 8|exists 0]; split; try lia; reflexivity. }
  split. { unfold v_itsf. repeat (apply (Ba_app [_]); [apply Ba_item; intros (args & X); injection X; discriminate|]). constructor. }
  split. { unfold v_itsf. repeat apply Forall_cons; try apply Forall_nil; [left; drawop|left; drawop|right; eexists; reflexivity|left; drawop]. }
  split; [left; exists v_lf; repeat split; discriminate|]. split; [constructor; [apply v_levelf|constructor]|].
  unfold texts. change (shows (Some (bs "F1")) [] v_itsf) with [(Some (bs "F1"), OHex (bs "80"))]. constructor; [|constructor]. cbn [fst snd].
  change (res_in v_o "Font" ([v_lf] ++ [v_l1; v_l2]) (bs "F1")) with (Some (ORef 8 0)).
  apply (Ft_base v_o inflate python (ORef 8 0) P_App.ex_font2 [(bs "Type", OName (bs "Encoding")); (bs "BaseEncoding", OName (bs "MacRomanEncoding"))] (bs "MacRomanEncoding") (OHex (bs "80")) [128]); try reflexivity; try discriminate; [split; reflexivity|].
  apply ex_bytes; [reflexivity|right; reflexivity].
Qed.
Example v_content1 : Content v_its1 v_text1.
Proof.
  unfold v_its1, v_text1. apply content_then.
  - unfold v_c1. wops; cbn [printable]; try (apply bytes_ok_b; reflexivity); try exact I; repeat split; lia.
  - apply (Co_img [(bs "W", OInt 1)] [32] (bs "/W 1 ") 10 (bs "aEIb") (bs "aEIb EI") [10] v_c2 (content_text v_c2)); [apply sep_sp1|reflexivity| |reflexivity| |apply sep_lf|].
    + apply (SN_cons FInline (bs "W") (bs "W") [32] (OInt 1) (bs "1") [32] [] []).
      * repeat (constructor; try reflexivity; try discriminate).
      * reflexivity.
      * apply sep_sp1.
      * apply Ser_int; [apply (IT_plain (bs "1")); [discriminate|repeat constructor]|reflexivity|discriminate].
      * apply sep_sp1.
      * constructor.
    + apply (C39_ordinary_data (bs "aEIb") 32); reflexivity.
    + apply content_written. unfold v_c2. wops; cbn [printable]; try (apply bytes_ok_b; reflexivity); exact I.
Qed.
Example v_page1_is inflate python : page_is v_o inflate python v_page1 (v_its1, [v_l1; v_l2], [bs "Hi"; bs "end"]).
Proof.
  unfold page_is. cbn [fst snd]. exists [], v_text1. split. { exists (ORef 5 0). split; [reflexivity|left]. exists [(bs "Length", OInt (zlen v_text1))], v_text1. split; [reflexivity|]. split; [left; reflexivity|]. apply De_plain; left; reflexivity. }
  split; [constructor|]. split; [exact v_content1|]. split; [apply v_levels|]. split; [constructor; [apply v_level1|constructor; [apply v_level2|constructor]]|].
  split.
  - apply each_page. unfold v_its1, v_c1, v_c2. cbn [each_ok app].
    assert (XObject v_o (ORef 11 0) "Form" v_form (content_text v_itsf)) as HFo by (repeat split; discriminate).
    assert (XObject v_o (ORef 10 0) "Image" v_image (bs "abc")) as HIm by (repeat split; discriminate).
    assert (forall font, font = Some (bs "F1") -> do_fine v_o inflate (FontText v_o inflate python) [v_l1; v_l2] font (bs "Fm1")) as HF.
    { intros font ->. unfold do_fine. change (res_in v_o "XObject" [v_l1; v_l2] (bs "Fm1")) with (Some (ORef 11 0)). right; right. exists v_form, (content_text v_itsf), v_itsf, [[196]]. split; [exact HFo|apply v_form_draws]. }
    split; [left; drawop|]. split.
    { right. exists (bs "No1"). split; [reflexivity|]. unfold do_fine. change (res_in v_o "XObject" [v_l1; v_l2] (bs "No1")) with (Some (ORef 12 0)). left. exists v_untyped, (bs "abc"). split; [reflexivity|left; reflexivity]. }
    split. { left. apply Do_gs. unfold gs_fine. change (res_in v_o "ExtGState" [v_l1; v_l2] (bs "G1")) with (Some (ODict [(bs "LW", OInt 2)])). exists [(bs "LW", OInt 2)]. repeat split. }
    split; [left; drawop|]. split; [left; drawop|]. split; [right; exists (bs "Fm1"); split; [reflexivity|apply HF; reflexivity]|].
    split. { right. exists (bs "Im1"). split; [reflexivity|]. unfold do_fine. change (res_in v_o "XObject" [v_l1; v_l2] (bs "Im1")) with (Some (ORef 10 0)). right; left. exists v_image, (bs "abc"). exact HIm. }
    split; [right; exists (bs "Fm1"); split; [reflexivity|apply HF; reflexivity]|].
    split. { left. apply Do_image. split; [repeat constructor|]. exists ONull. split; [reflexivity|left; intros s [X|X]; discriminate]. }
    split; [left; drawop|]. split; [left; drawop|exact I].
  - unfold texts. change (shows None [] v_its1) with [(Some (bs "F1"), OStr (bs "Hi")); (@None (list Z), OStr (bs "end"))]. constructor; [|constructor; [|constructor]]; cbn [fst snd].
    + change (res_in v_o "Font" [v_l1; v_l2] (bs "F1")) with (Some (ORef 7 0)). apply (Ft_unknown v_o inflate python (ORef 7 0) v_font1); try reflexivity; [split; reflexivity|]. apply ex_bytes; [reflexivity|auto].
    + apply Ft_none. apply ex_bytes; [reflexivity|auto].
Qed.
Example v_page2_is inflate python : page_is v_o inflate python v_page2 (v_its2, [v_l2], []).
Proof.
  unfold page_is. cbn [fst snd]. exists [], (content_text v_its2). split.
  { exists (OArr [ORef 6 0]). split; [reflexivity|right]. exists [ORef 6 0], [content_text v_its2]. split; [reflexivity|]. split; [|cbn [List.concat]; now rewrite app_nil_r].
    constructor; [|constructor]. exists [(bs "Length", OInt (zlen (content_text v_its2)))], (content_text v_its2). split; [reflexivity|]. split; [left; reflexivity|]. apply De_plain; left; reflexivity. }
  split; [constructor|]. split; [apply content_written; unfold v_its2; wops; cbn [printable]; try (apply bytes_ok_b; reflexivity); exact I|].
  split; [apply v_levels|]. split; [constructor; [apply v_level2|constructor]|]. split; [|constructor].
  apply each_page. unfold v_its2. cbn [each_ok app]. split; [|exact I]. right. exists (bs "Im1"). split; [reflexivity|]. unfold do_fine.
  change (res_in v_o "XObject" [v_l2] (bs "Im1")) with (Some (ORef 10 0)). right; left. exists v_image, (bs "abc"). repeat split; discriminate.
Qed.
(** What [Drawn] says for this document: strings, images, forms and inline images of both canvases. *)
Definition v_canvases (cs : list canvas) : Prop := exists c1 c2 fm, cs = [c1; c2] /\
  cv_strings c1 = [bs "Hi"; bs "end"] /\ cv_inline c1 = [v_img] /\ map fst (cv_images c1) = [bs "Im1"] /\ cv_forms c1 = [(bs "Fm1", fm)] /\ cv_strings fm = [[196]] /\
  cv_strings c2 = [] /\ map fst (cv_images c2) = [bs "Im1"] /\ cv_forms c2 = [] /\
  aget (cv_images c2) (bs "Im1") = aget (cv_images c1) (bs "Im1").
Example v_drawn inflate python cs : Forall2 (drawn_as v_o inflate python) [(v_its1, [v_l1; v_l2], [bs "Hi"; bs "end"]); (v_its2, [v_l2], [])] cs -> v_canvases cs.
Proof.
  intros H. inversion H as [|? c1 ? ? H1 H2]; subst. inversion H2 as [|? c2 ? ? H3 H4]; subst. inversion H4; subst. clear H H2 H4.
  destruct H1 as (A1 & A2 & A3 & A4 & A5 & A6). destruct H3 as (B1 & B2 & B3 & B4 & B5 & B6). cbn [fst snd] in *.
  change (firsts (painted_names v_o [v_l1; v_l2] "Image" v_its1)) with [bs "Im1"] in A3. change (firsts (painted_names v_o [v_l1; v_l2] "Form" v_its1)) with [bs "Fm1"] in A5.
  change (firsts (painted_names v_o [v_l2] "Image" v_its2)) with [bs "Im1"] in B3. change (firsts (painted_names v_o [v_l2] "Form" v_its2)) with (@nil (list Z)) in B5.
  destruct (cv_forms c1) as [|[k fm] [|]] eqn:Ef; cbn [map fst] in A5; try discriminate. injection A5 as A5. change (k = bs "Fm1") in A5. subst k.
  exists c1, c2, fm. split; [reflexivity|]. split; [exact A1|]. split; [exact A2|]. split; [exact A3|]. split; [exact Ef|]. split.
  - destruct (A6 (bs "Fm1") fm) as (pre & post & v & d & data & E & Hno & Ev & HX & _ & _ & HF); [reflexivity|].
    change (res_in v_o "XObject" [v_l1; v_l2] (bs "Fm1")) with (Some (ORef 11 0)) in Ev. injection Ev as <-. destruct HX as (Hf & _). injection Hf as <- <-.
    apply (HF v_itsf [[196]]). replace (fst (fonts_after None [] pre)) with (Some (bs "F1")); [apply v_form_draws|].
    unfold v_its1, v_c1 in E. cbn [app] in E.
    do 5 (destruct pre as [|? pre]; cbn [app] in E; [injection E; discriminate|injection E as <- E]).
    destruct pre as [|? pre]; [reflexivity|]. exfalso. injection E as <- E. apply Hno. cbn [In]. tauto.
  - split; [exact B1|]. split; [exact B3|]. split; [destruct (cv_forms c2); [reflexivity|discriminate]|].
    assert (forall c ls, map fst (cv_images c) = [bs "Im1"] -> (forall k w, aget (cv_images c) k = Some w -> exists v d data, res_in v_o "XObject" ls k = Some v /\ XObject v_o v "Image" d data /\
       w = VStm (Some (bs "Image")) (map (fun p => (fst p, raw (snd p))) d) data) -> res_in v_o "XObject" ls (bs "Im1") = Some (ORef 10 0) -> aget (cv_images c) (bs "Im1") = Some (VStm (Some (bs "Image")) (rd v_image) (bs "abc"))) as HI.
    { intros c ls Hm HA Hr. destruct (cv_images c) as [|[k w] [|]] eqn:Ei; cbn [map fst] in Hm; try discriminate. injection Hm as Hm. change (k = bs "Im1") in Hm. subst k.
      assert (aget [(bs "Im1", w)] (bs "Im1") = Some w) as Ea by reflexivity. rewrite Ea. destruct (HA (bs "Im1") w Ea) as (v & d & data & Ev & (Hf & _) & ->). rewrite Hr in Ev. injection Ev as <-. injection Hf as <- <-. reflexivity. }
    rewrite (HI c2 _ B3 B4 eq_refl), (HI c1 _ A3 A4 eq_refl). reflexivity.
Qed.
Lemma viewer_over_imp real_str python python_decode inflate ccitt cid look t (P Q : list canvas -> Prop) : (forall cs, P cs -> Q cs) ->
  viewer_over real_str python python_decode inflate ccitt cid look t P -> viewer_over real_str python python_decode inflate ccitt cid look t Q.
Proof.
  intros HPQ (root & nb0 & H). exists root, nb0. intros nb Hnb. destruct (H nb Hnb) as [n0 Hn]. exists n0. intros n Hle. destruct (Hn n Hle) as (v & cs & A & B & C). exists v, cs. auto.
Qed.
Lemma viewer_gives_imp real_str python python_decode inflate ccitt cid look t (P Q : list canvas -> Prop) : (forall cs, P cs -> Q cs) ->
  viewer_gives real_str python python_decode inflate ccitt cid look t P -> viewer_gives real_str python python_decode inflate ccitt cid look t Q.
Proof.
  intros HPQ (root & nb0 & H). exists root, nb0. intros nb Hnb. destruct (H nb Hnb) as [n0 Hn]. exists n0. intros n Hle. destruct (Hn n Hle) as (v & cs & A & B & C). exists v, cs. auto.
Qed.
Example C85_ex real_str python python_decode inflate ccitt cid : exists m s t,
  arun (file_of 49 55 [mkRev v_objs v_trailer]) (open_document inflate ccitt no_decrypt 1 m 2) (mkA 0 [] rst0) = (Ok (bs "1.7", 0, t), s) /\
  exists look, (forall ids, fst (session inflate ccitt no_decrypt 1 m 2 (file_of 49 55 [mkRev v_objs v_trailer]) s ids) = map (fun id => Ok (look (fst id) (snd id))) ids) /\
  viewer_gives real_str python python_decode inflate ccitt cid look t v_canvases.
Proof.
  set (f := file_of 49 55 [mkRev v_objs v_trailer]). exists (Z.to_nat (4 * zlen f + 8)).
  destruct (C85_written_file real_str python python_decode inflate ccitt cid 49 55 (mkRev v_objs v_trailer) [v_page1; v_page2]
    [(v_its1, [v_l1; v_l2], [bs "Hi"; bs "end"]); (v_its2, [v_l2], [])] eq_refl eq_refl v_ok ltac:(vm_compute; reflexivity) (v_document v_trailer eq_refl) ltac:(discriminate)
    ltac:(constructor; [apply v_page1_is|constructor; [apply v_page2_is|constructor]]) 1%nat (Z.to_nat (4 * zlen f + 8)) 2%nat ltac:(apply le_n)) as (s & t & E & look & HS & HV).
  - fold f. pose proof (zlen_nonneg f). lia.
  - apply le_S, le_n.
  - exists s, t. split; [exact E|]. exists look. split; [intros ids; apply HS, le_n|]. eapply viewer_gives_imp; [|exact HV]. apply v_drawn.
Qed.
(** The same document encrypted, opened with the user's password. *)
Notation v_sealed := (mkRev (seal_all toy_md5 ex_key v_objs) v_sealed_trailer).
Example C87_ex real_str python python_decode inflate ccitt cid : exists m s h v,
  arun (file_of 49 55 [v_sealed]) (open_pdf inflate ccitt 1 m toy_md5 toy_md5 (fun _ => true) (fun _ b => b) 2 (bs "user")) (mkA 0 [] rst0) = (Ok (bs "1.7", v_sealed_trailer, Some h, v), s) /\
  exists look, (forall ids, fst (session inflate ccitt (decrypt_object toy_md5 (fun _ => true) (fun _ b => b) (Some h)) 1 m 2 (file_of 49 55 [v_sealed]) s ids) = map (fun id => Ok (look (fst id) (snd id))) ids) /\
  viewer_gives real_str python python_decode inflate ccitt cid look v_sealed_trailer v_canvases.
Proof.
  assert (zlen (file_of 49 55 [v_sealed]) < 10 ^ 10) as Hlt by (vm_compute; reflexivity).
  exists (Z.to_nat (4 * zlen (file_of 49 55 [v_sealed]) + 8)).
  destruct (C87_encrypted_file real_str python python_decode inflate ccitt cid toy_md5 toy_md5 (fun _ => true) (fun _ b => b) 49 55 (mkRev v_objs v_sealed_trailer) 20 0 ex_dict 1 0 2 3 (-44) 128
    (bs "010203FF") [OHex (bs "010203FF")] ex_id (bs "owner") (bs "user") ex_key (bs "user") [v_page1; v_page2] [(v_its1, [v_l1; v_l2], [bs "Hi"; bs "end"]); (v_its2, [v_l2], [])]
    toy_md5_len (fun _ _ => eq_refl) eq_refl eq_refl v_sealed_ok) with
    (D := 1%nat) (m := Z.to_nat (4 * zlen (file_of 49 55 [v_sealed]) + 8)) (k := 2%nat) as (s & h & v & E & look & HS & HV); try reflexivity; try exact Hlt.
  all: lazymatch goal with
    | |- Forall _ _ => repeat constructor; cbn; lia
    | |- In _ _ => cbn; auto
    | |- written _ _ _ _ _ _ _ _ _ _ => exact C61_ex_written
    | |- _ \/ _ => left; reflexivity
    | |- (_ < _)%nat => apply le_n
    | |- (_ <= _)%nat => apply le_n
    | |- Document _ _ _ => apply v_document; reflexivity
    | |- _ <> _ => discriminate
    | |- Forall2 _ _ _ => constructor; [apply v_page1_is|constructor; [apply v_page2_is|constructor]]
    | |- _ <= Z.of_nat _ => pose proof (zlen_nonneg (file_of 49 55 [v_sealed])) as H0; rewrite Z2Nat.id; [apply Z.le_refl|clear -H0; lia]
    | |- _ => idtac
    end.
  exists s, h, v. split; [exact E|]. exists look. split; [exact HS|]. eapply viewer_gives_imp; [|exact HV]. apply v_drawn.
Qed.
(** C85, the part that is not so: an image XObject need not have a Type, but without it the viewer does not show it. *)
Definition images_shown o (p : list citem * list dict * list (list Z)) (c : canvas) : Prop := forall k v d data,
  In (COp (bs "Do") [OName k]) (fst (fst p)) -> res_in o "XObject" (snd (fst p)) k = Some v -> follow o v = OStream d data -> data <> [] ->
  dget d (bs "Subtype") = Some (OName (bs "Image")) -> In k (map fst (cv_images c)).
Theorem C85_untyped_image_refuted : forall real_str python python_decode inflate ccitt cid,
  ~ (forall o t ps pages, Document o t ps -> ps <> [] -> Forall2 (page_is o inflate python) ps pages ->
     viewer_over real_str python python_decode inflate ccitt cid o t (fun cs => Forall2 (images_shown o) pages cs)).
Proof.
  intros real_str python python_decode inflate ccitt cid H.
  set (pages := [(v_its1, [v_l1; v_l2], [bs "Hi"; bs "end"]); (v_its2, [v_l2], [])]).
  assert (Forall2 (page_is v_o inflate python) [v_page1; v_page2] pages) as HF by (constructor; [apply v_page1_is|constructor; [apply v_page2_is|constructor]]).
  specialize (H v_o v_trailer _ pages (v_document v_trailer eq_refl) ltac:(discriminate) HF).
  pose proof (C85_viewer v_o inflate python python_decode ccitt cid real_str v_trailer _ pages (v_document v_trailer eq_refl) ltac:(discriminate) HF) as H'.
  apply (viewer_over_imp _ _ _ _ _ _ _ _ _ _ (v_drawn inflate python)) in H'. unfold viewer_over in H, H'. cbv zeta in H, H'.
  destruct H as (root & nb & H), H' as (root' & nb' & H'). set (nm := Nat.max nb nb'). specialize (H nm (Nat.le_max_l nb nb')). specialize (H' nm (Nat.le_max_r nb nb')).
  destruct H as [n H], H' as [n' H']. specialize (H _ (Nat.le_max_l n n')). specialize (H' _ (Nat.le_max_r n n')). set (nn := Nat.max n n') in *. clearbody nm nn.
  destruct H as (v & cs & E & HQ & HR), H' as (v' & cs' & E' & (c1 & c2 & fm & Ecs & _ & _ & HI & _) & HR'). rewrite E in E'. injection E' as <- <-.
  destruct (HR [Render] 0%nat) as (v1 & A1 & _). destruct (HR' [Render] 0%nat) as (v2 & A2 & _). rewrite A1 in A2. injection A2 as A2 _. clear HR HR' A1 E. subst cs'.
  unfold pages in HQ. inversion HQ as [|p c ps1 cs0 H1 H2 Ep Ec]. subst cs. clear HQ. inversion H2 as [|p2 c0 ps2 cs2 H3 H4 Ep2 Ec2]. subst cs0. subst p p2. cbn [answers target] in A2. unfold within in A2.
  change (zlen (c :: c0 :: cs2)) with (zlen ([c; c0] ++ cs2)) in A2. rewrite zlen_app in A2. pose proof (zlen_nonneg cs2). change (zlen [c; c0]) with 2 in A2.
  assert ((1 <=? 1) && (1 <=? 2 + zlen cs2) = true) as Ew by lia. rewrite Ew in A2. cbn in A2. injection A2 as <-.
  specialize (H1 (bs "No1") (ORef 12 0) v_untyped (bs "abc")). rewrite HI in H1. cbn [fst snd] in H1.
  destruct H1 as [X|[]]; [cbn; tauto|reflexivity|reflexivity|discriminate|reflexivity|discriminate X].
Qed.
(** C86 on a document of three pages. *)
Example C86_ex : fst (visits ex_gen (ex_res 0) P_Nav.ex_stream ex_draw [GoNext; Render; Goto 9; GoPrev; GoPrev; Render; Goto 3; Render] (ex_s0 0)) =
  [(Ok tt, 2, None); (Ok tt, 2, Some (ex_canvas 20)); (Err PageDoesNotExist, 2, None); (Ok tt, 1, None); (Err ValueErr, 1, None); (Ok tt, 1, Some (ex_canvas 10)); (Ok tt, 3, None); (Ok tt, 3, Some (ex_canvas 30))].
Proof.
  destruct (C86_random_access ex_gen (ex_res 0) P_Nav.ex_stream ex_draw ex_ps [ex_canvas 10; ex_canvas 20; ex_canvas 30] (ex_s0 0) ex_yields) with
    (l := [GoNext; Render; Goto 9; GoPrev; GoPrev; Render; Goto 3; Render]) (more := 0%nat) as (s' & E & _).
  - repeat constructor; [exists [], (Some [10]), (mkV [] [] (ex_canvas 10))|exists [], (Some [20]), (mkV [] [] (ex_canvas 20))|exists [], (Some [30]), (mkV [] [] (ex_canvas 30))]; vm_compute; repeat split.
  - vm_compute. reflexivity.
  - rewrite E. reflexivity.
Qed.
Print Assumptions C85_viewer.
Print Assumptions C85_written_file.
Print Assumptions C85_untyped_image_refuted.
Print Assumptions C86_random_access.
Print Assumptions C87_modern_file.
Print Assumptions C87_encrypted_file.
Print Assumptions C87_sealed_file.
