(** Drawing pages with text, images, forms and inline images (for C85). *)
From Coq Require Import String.
From Verif Require Import Prelude M_Parser M_Text M_Filters M_Document M_Objects P_Objects M_Viewer S_Viewer L_Viewer S_Objects S_App L_AppText S_Canvas S_Page.
Local Open Scope Z_scope.
Local Open Scope vm_scope.

Lemma fonts_after_cons i r font saved : fonts_after font saved (i :: r) = fonts_after (fst (after i font saved)) (snd (after i font saved)) r.
Proof.
  cbn [fonts_after]. destruct i as [|w args]; [reflexivity|]. unfold after.
  destruct (eqlZ w (bs "Tf")); [destruct args as [|[] ?]; reflexivity|]. destruct (eqlZ w (bs "q")); [reflexivity|].
  destruct (eqlZ w (bs "Q")); [destruct saved; reflexivity|reflexivity].
Qed.
Lemma fonts_after_app a : forall b font saved, fonts_after font saved (a ++ b) = fonts_after (fst (fonts_after font saved a)) (snd (fonts_after font saved a)) b.
Proof.
  induction a as [|i a IH]; intros b font saved; [reflexivity|]. cbn [app]. rewrite !fonts_after_cons. apply IH.
Qed.
(** balanced content leaves the saved fonts alone *)
Lemma balanced_saved l : Balanced l -> forall font saved, snd (fonts_after font saved l) = saved.
Proof.
  induction 1 as [|i H1 H2 H3|a b _ IHa _ IHb|qa l Qa _ IH]; intros font saved.
  - reflexivity.
  - rewrite fonts_after_cons. cbn [fonts_after snd]. destruct i as [|w args]; [reflexivity|]. unfold after.
    destruct (eqlZ w (bs "Tf")); [destruct args as [|[] ?]; reflexivity|].
    destruct (eqlZ w (bs "q")) eqn:Eq; [apply eqlZ_eq in Eq; subst; exfalso; apply H1; eexists; reflexivity|].
    destruct (eqlZ w (bs "Q")) eqn:EQ; [apply eqlZ_eq in EQ; subst; exfalso; apply H2; eexists; reflexivity|]. reflexivity.
  - rewrite fonts_after_app. rewrite IHb. apply IHa.
  - rewrite fonts_after_cons, fonts_after_app. set (st := after (COp (bs "q") qa) font saved).
    assert (st = (font, font :: saved)) as -> by reflexivity. cbn [fst snd]. rewrite IH, fonts_after_cons. reflexivity.
Qed.

Lemma shows_app a : forall b font saved, shows font saved (a ++ b) = shows font saved a ++ shows (fst (fonts_after font saved a)) (snd (fonts_after font saved a)) b.
Proof.
  induction a as [|i a IH]; intros b font saved; [reflexivity|]. cbn [app]. rewrite !shows_cons, fonts_after_cons, IH, app_assoc. reflexivity.
Qed.
Lemma balanced_font l : Balanced l -> forall font saved saved', fst (fonts_after font saved l) = fst (fonts_after font saved' l).
Proof.
  induction 1 as [|i H1 H2 H3|a b Ha IHa _ IHb|qa l Qa Hl IH]; intros font saved saved'.
  - reflexivity.
  - rewrite !fonts_after_cons. cbn [fonts_after fst]. destruct i as [|w args]; [reflexivity|]. unfold after.
    destruct (eqlZ w (bs "Tf")); [destruct args as [|[] ?]; reflexivity|].
    destruct (eqlZ w (bs "q")) eqn:Eq; [apply eqlZ_eq in Eq; subst; exfalso; apply H1; eexists; reflexivity|].
    destruct (eqlZ w (bs "Q")) eqn:EQ; [apply eqlZ_eq in EQ; subst; exfalso; apply H2; eexists; reflexivity|]. reflexivity.
  - rewrite !fonts_after_app, (IHa font saved saved'). apply IHb.
  - rewrite !fonts_after_cons, !fonts_after_app.
    assert (forall sv, after (COp (bs "q") qa) font sv = (font, font :: sv)) as E by reflexivity. rewrite !E. cbn [fst snd]. rewrite !(balanced_saved l Hl), !fonts_after_cons. reflexivity.
Qed.
Lemma shows_one i font saved saved' : ~ named "q" i -> ~ named "Q" i -> shows font saved [i] = shows font saved' [i].
Proof. intros _ _. rewrite !shows_cons. reflexivity. Qed.
Lemma balanced_shows l : Balanced l -> forall font saved saved', shows font saved l = shows font saved' l.
Proof.
  induction 1 as [|i H1 H2 H3|a b Ha IHa Hb IHb|qa l Qa Hl IH]; intros font saved saved'.
  - reflexivity.
  - now apply shows_one.
  - rewrite !shows_app, (IHa font saved saved'), (balanced_font a Ha font saved saved'). f_equal. apply IHb.
  - rewrite !shows_cons, !shows_app. assert (forall sv, after (COp (bs "q") qa) font sv = (font, font :: sv)) as E by reflexivity. rewrite !E. cbn [fst snd].
    f_equal. f_equal; [apply IH|]. rewrite !shows_cons. reflexivity.
Qed.

(** b85 text is ASCII *)
Lemma b85_ascii l : forallb (fun c => c <? 128) (b85encode l) = true.
Proof.
  unfold b85encode. generalize (List.length l) as n. intros n. revert l. induction n as [|n IH]; intros l; [reflexivity|]. cbn [b85_go]. destruct l as [|x l]; [reflexivity|].
  rewrite forallb_app, IH, andb_true_r. apply forallb_forall. intros c Hc.
  assert (exists d, c = b85_digit d) as [d ->].
  { set (w := fold_left (fun a x => 256 * a + x) (firstn 4 ((x :: l) ++ [0; 0; 0])) 0) in *. clearbody w.
    assert (In c (map b85_digit [w / 52200625 mod 85; w / 614125 mod 85; w / 7225 mod 85; w / 85 mod 85; w mod 85])) as Hin.
    { rewrite <- (firstn_skipn (Nat.min 4 (List.length (x :: l)) + 1)). apply in_or_app. now left. }
    apply in_map_iff in Hin. destruct Hin as (d & <- & _). now exists d. }
  unfold b85_digit. assert (forall n, nth n b85_alphabet 0 <? 128 = true) as H; [|apply H]. intros k.
  destruct (Nat.lt_ge_cases k (List.length b85_alphabet)) as [Hk|Hk]; [|now rewrite nth_overflow].
  assert (forallb (fun c => c <? 128) b85_alphabet = true) as HA by reflexivity. rewrite forallb_forall in HA. apply HA. now apply nth_In.
Qed.
Lemma first_filter_list d f : first_filter d f -> exists r, (match image_filter d with OArr l => l | x => [x] end) = f :: r.
Proof.
  unfold first_filter, image_filter, oget. destruct (dget d (bs "Filter")) as [v|] eqn:E.
  - destruct v as [| | | |[|c s]| | |[|x l]| | | | |]; intros H; try contradiction; subst; cbn [truthy]; eexists; reflexivity.
  - cbn [truthy]. destruct (dget d (bs "F")) as [v|]; [destruct v as [| | | | | | |[|x l]| | | | |]; intros H; try contradiction; subst; eexists; reflexivity|]. intros <-. now exists [].
Qed.
Lemma image_fine_str real_str d data : image_fine d data -> exists t, image_str real_str d data = Ok t.
Proof.
  intros (Hs & f & Hf & Ha). unfold image_str.
  assert (exists es, mapM (fun p => rbind (to_str real_str (snd p)) (fun s => Ok (47 :: fst p ++ 32 :: s)))
                (filter (fun p => negb (eqlZ (fst p) (bs "F") || eqlZ (fst p) (bs "Filter"))) d) = Ok es) as [es ->].
  { clear - Hs. induction Hs as [|p d Hp _ [es IH]]; [exists []; reflexivity|]. cbn [filter]. destruct (negb _); [|exists es; exact IH].
    cbn [mapM]. destruct (showable_str real_str (snd p) Hp) as [t ->]. cbn [rbind]. rewrite IH. eexists. reflexivity. }
  cbn [rbind]. cbv zeta. destruct (first_filter_list d f Hf) as [r Er].
  replace (match image_filter d with OArr l => l | f0 => [f0] end) with (f :: r) by (symmetry; exact Er).
  set (asc := match f with OName s | OHex s => existsb (eqlZ s) ascii_filters | _ => false end).
  assert (forallb (fun c => c <? 128) (if asc then data else b85encode data ++ bs "~>") = true) as Hc.
  { destruct asc eqn:Ea; [|rewrite forallb_app, b85_ascii; reflexivity]. destruct Ha as [Ha|Ha].
    - unfold asc in Ea. destruct f; try discriminate Ea; apply existsb_exists in Ea; destruct Ea as (x & Hx & Ex); apply eqlZ_eq in Ex; subst x; exfalso; [exact (Ha _ (or_introl eq_refl) Hx)|exact (Ha _ (or_intror eq_refl) Hx)].
    - apply forallb_forall. intros c Hc. rewrite Forall_forall in Ha. specialize (Ha c Hc). lia. }
  match goal with |- context [if forallb ?g ?x then _ else _] => replace (forallb g x) with true by (symmetry; exact Hc) end.
  eexists. reflexivity.
Qed.

Section Draw.
  Variable real_str : bool -> Z -> Z -> list Z.
  Variable show : option bv -> obj -> res (list Z).

  (** handlers that pages and forms share *)
  Lemma notify_kind d1 d2 rs w args s : eqlZ (alias w) (bs "Do") = false -> eqlZ (alias w) (bs "navigate") = false ->
    notify real_str show d1 KForm rs (COp w args) s = notify real_str show d2 KPage rs (COp w args) s.
  Proof.
    intros H1 H2. unfold notify. cbv zeta.
    assert (on_ show d1 KForm rs (alias w) args = on_ show d2 KPage rs (alias w) args) as ->.
    { unfold on_. cbv zeta. rewrite H1. reflexivity. }
    assert (forall a, after_ real_str KForm (alias w) a = after_ real_str KPage (alias w) a) as Ha.
    { intros a. unfold after_. rewrite H1, H2. reflexivity. }
    unfold vbind. change (before_ KForm (alias w)) with (before_ KPage (alias w)). destruct (before_ KPage (alias w) s) as [[[]|e] s1]; [|reflexivity].
    destruct (on_ show d2 KPage rs (alias w) args s1) as [[a|e] s2]; [|reflexivity]. rewrite Ha. reflexivity.
  Qed.
  Lemma text_not_Do i : TextOp i -> exists w args, i = COp w args /\ eqlZ (alias w) (bs "Do") = false /\ eqlZ (alias w) (bs "navigate") = false.
  Proof.
    intros Hi. destruct Hi as [f size Hs| | |w Hw|w v Hw Hv|l Hl|w a args Hw Ha Hl|w args Hw Ha]; do 2 eexists; (split; [reflexivity|]); try (split; reflexivity).
    - destruct Hw as [-> | ->]; split; reflexivity.
    - destruct Hw as [-> | ->]; split; reflexivity.
    - cbn in Hw. repeat (destruct Hw as [<-|Hw]; [split; reflexivity|]). contradiction.
    - unfold alias. destruct (eqlZ w [39]); [split; reflexivity|]. destruct (eqlZ w [34]); [split; reflexivity|]. destruct (eqlZ w (bs "T*")); [split; reflexivity|].
      split; apply (unhandled_neq w _ Hw); [do 20 right; now left|do 26 right; now left].
  Qed.

  (** operators as the resources give them *)
  Definition gs_simple (rs : resources) (k : list Z) : Prop :=
    match aget (rs_dict rs (bs "ExtGState")) k with
    | None => True
    | Some v => exists c d, v = VDict c d /\ aget d (bs "Font") = None /\ aget d (bs "self") = None /\ aget d (bs "font_name") = None
    end.
  Inductive SimpleOp (rs : resources) : citem -> Prop :=
  | So_text i : TextOp i -> SimpleOp rs i
  | So_mark w t p : w = bs "DP" \/ w = bs "BDC" -> showable t -> showable p ->
      (forall d s, p = ODict d -> dget d (bs "Contents") <> Some (OStr s)) -> SimpleOp rs (COp w [t; p])
  | So_image d data : image_fine d data -> SimpleOp rs (CImage d data)
  | So_gs k : gs_simple rs k -> SimpleOp rs (COp (bs "gs") [OName k]).

  Definition fields (i : list citem) (ts : list (list Z)) (cv cv' : canvas) : Prop :=
    cv_strings cv' = cv_strings cv ++ ts /\ cv_inline cv' = cv_inline cv ++ inline_images i.

  Lemma gs_update_font s d : aget d (bs "Font") = None -> aget (gs_update s d) (bs "Font") = aget s (bs "Font").
  Proof.
    intros H. unfold gs_update. assert (forall l s, (forall f, In f l -> f = bs "Font" \/ eqlZ (bs "Font") f = false) ->
      aget (fold_left (fun s f => match aget d f with None | Some (VAtom ONull) => s | Some v => aset s f v end) l s) (bs "Font") = aget s (bs "Font")) as HL.
    { induction l as [|f l IH]; intros s0 Hl; [reflexivity|]. cbn [fold_left]. rewrite IH by (intros; apply Hl; now right).
      destruct (Hl f ltac:(now left)) as [->|E]; [now rewrite H|]. destruct (aget d f) as [[[]| | | |]|]; try reflexivity; rewrite aget_aset, E; reflexivity. }
    apply HL. intros f Hf. cbn in Hf. repeat (destruct Hf as [<-|Hf]; [first [right; reflexivity|left; reflexivity]|]). contradiction.
  Qed.

  Lemma simple_step rs i : SimpleOp rs i -> forall on_Do k gss br cv font saved ts, G gss font saved ->
    Forall2 (fun v t => show (font_of rs font) v = Ok t) (shown i) ts ->
    exists gss' br' cv', notify real_str show on_Do k rs i (mkV gss br cv) = (Ok tt, mkV gss' br' cv') /\
      fields [i] ts cv cv' /\ cv_images cv' = cv_images cv /\ cv_forms cv' = cv_forms cv /\ G gss' (fst (after i font saved)) (snd (after i font saved)).
  Proof.
    intros Hi on_Do k gss br cv font saved ts HG HF.
    assert (forall w args gss', notify real_str show on_Do KPage rs (COp w args) (mkV gss br cv) = notify real_str show on_Do KForm rs (COp w args) (mkV gss br cv) ->
      (exists txt, notify real_str show on_Do KPage rs (COp w args) (mkV gss br cv) = (Ok tt, mkV gss' br (put cv [] txt))) ->
      inline_images [COp w args] = [] -> ts = [] -> G gss' font saved -> after (COp w args) font saved = (font, saved) ->
      exists gss' br' cv', notify real_str show on_Do k rs (COp w args) (mkV gss br cv) = (Ok tt, mkV gss' br' cv') /\
      fields [COp w args] ts cv cv' /\ cv_images cv' = cv_images cv /\ cv_forms cv' = cv_forms cv /\
      G gss' (fst (after (COp w args) font saved)) (snd (after (COp w args) font saved))) as HK.
    { intros w args gss' E1 [txt E2] Hin -> HG' Ea. exists gss', br, (put cv [] txt). split; [destruct k; [exact E2|now rewrite <- E1]|].
      rewrite Ea. unfold fields. rewrite Hin, !app_nil_r. unfold put. cbn. rewrite app_nil_r. auto. }
    destruct Hi as [i Hi|w t p Hw Ht Hp Hc|d data Hd|n Hn].
    - destruct (text_step real_str show on_Do rs i Hi gss br cv font saved ts HG HF) as (gss' & br' & txt & E & HG').
      exists gss', br', (put cv ts txt). split; [|split; [|split; [reflexivity|split; [reflexivity|exact HG']]]].
      + destruct k; [exact E|]. destruct (text_not_Do i Hi) as (w & args & -> & H1 & H2). rewrite (notify_kind on_Do on_Do rs w args _ H1 H2). exact E.
      + destruct (text_not_Do i Hi) as (w & args & -> & _). split; [reflexivity|]. cbn. now rewrite app_nil_r.
    - assert (shown (COp w [t; p]) = []) as Es by (destruct Hw as [-> | ->]; reflexivity). rewrite Es in HF. inversion HF; subst.
      assert (alias w = w /\ eqlZ (alias w) (bs "Do") = false /\ eqlZ (alias w) (bs "navigate") = false) as (Al & A1 & A2) by (destruct Hw as [-> | ->]; repeat split).
      apply (HK w [t; p] gss); auto.
      + symmetry. now apply notify_kind.
      + apply (keeps real_str show on_Do rs w [t; p] gss gss br br cv (vret tt)); try reflexivity.
        * destruct Hw as [-> | ->]; reflexivity.
        * rewrite Al. assert (on_ show on_Do KPage rs w [t; p] = on_props show rs [t; p]) as -> by (destruct Hw as [-> | ->]; reflexivity).
          unfold on_props. destruct p as [| | | | | | | |d| | | |]; try reflexivity. destruct (dget d (bs "Contents")) as [[]|] eqn:Ed; try reflexivity. contradiction (Hc d s eq_refl).
        * rewrite Al. destruct Hw as [-> | ->]; reflexivity.
        * repeat constructor; auto.
      + destruct Hw as [-> | ->]; reflexivity.
    - inversion HF; subst. destruct (image_fine_str real_str d data Hd) as [txt Et].
      exists gss, br, (mkCv (cv_images cv) (cv_forms cv) (cv_text cv ++ txt) (cv_inline cv ++ [CImage d data]) (cv_strings cv)).
      split; [|unfold fields; cbn; rewrite app_nil_r; auto]. unfold notify, vbind, add_inline, with_cv, vmod, vlift. rewrite Et. reflexivity.
    - inversion HF; subst. unfold gs_simple in Hn.
      set (g1 := match aget (rs_dict rs (bs "ExtGState")) n with
                 | Some (VDict _ ((_ :: _) as d)) => match snd (gss_state gss) with s :: r => gs_update s d :: r | [] => [] end
                 | _ => gss end).
      apply (HK (bs "gs") [OName n] g1); auto.
      + apply (keeps real_str show on_Do rs (bs "gs") [OName n] gss g1 br br cv (on_gs rs [OName n])); try reflexivity; [|repeat constructor].
        unfold on_gs, arg0, vbind, vret, vlift. cbn [raw name_lookup]. unfold g1.
        destruct (aget (rs_dict rs (bs "ExtGState")) n) as [v|]; [|reflexivity]. destruct Hn as (c & d & -> & H1 & H2 & H3). destruct d as [|e d]; [reflexivity|].
        cbn [btruthy]. unfold with_gss, vmod, amem. rewrite H2, H3. cbn [v_gss v_br v_cv]. reflexivity.
      + unfold g1. destruct (aget (rs_dict rs (bs "ExtGState")) n) as [v|]; [|exact HG]. destruct Hn as (c & d & -> & H1 & _). destruct d as [|e d]; [exact HG|].
        apply G_norm in HG. right. inversion HG as [|g f gs fs Hg Hgs E1 E2]. constructor; [|exact Hgs]. unfold has_font in *. rewrite gs_update_font by exact H1. exact Hg.
  Qed.

  (** a form's content *)
  Lemma form_do rs kk gss br cv font saved : G gss font saved ->
    exists gss' cv', notify real_str show no_Do KForm rs (COp (bs "Do") [OName kk]) (mkV gss br cv) = (Ok tt, mkV gss' br cv') /\
      fields [COp (bs "Do") [OName kk]] [] cv cv' /\ cv_images cv' = cv_images cv /\ cv_forms cv' = cv_forms cv /\ G gss' font saved.
  Proof.
    intros HG. exists (snd (gss_state gss)). eexists. split; [|split; [|split; [|split; [|right; now apply G_norm]]]].
    - unfold notify. cbv zeta. change (alias (bs "Do")) with (bs "Do"). unfold vbind, before_, on_, after_, with_gss, vmod, vret, vlift, op_str.
      rewrite !eqlZ_refl. cbn [v_gss v_br v_cv]. change (eqlZ (bs "Do") (bs "q")) with false.
      cbn [mapM to_str rbind]. unfold gss_save. destruct gss; reflexivity.
    - split; cbn; now rewrite app_nil_r.
    - reflexivity.
    - reflexivity.
  Qed.
  Lemma inline_app a b : inline_images (a ++ b) = inline_images a ++ inline_images b. Proof. unfold inline_images. apply filter_app. Qed.
  Lemma fields_cons i l t1 t2 cv cv1 cv2 : fields [i] t1 cv cv1 -> fields l t2 cv1 cv2 -> fields (i :: l) (t1 ++ t2) cv cv2.
  Proof. unfold fields. intros [A1 A2] [B1 B2]. rewrite B1, B2, A1, A2, <- !app_assoc. split; [reflexivity|]. now rewrite <- inline_app. Qed.
  Lemma one_font rs font i ts : Forall2 (fun p t => show (font_of rs (fst p)) (snd p) = Ok t) (map (fun v => (font, v)) (shown i)) ts ->
    Forall2 (fun v t => show (font_of rs font) v = Ok t) (shown i) ts.
  Proof. generalize (shown i) as l. intros l. revert ts. induction l as [|v l IH]; intros ts H; inversion H; subst; constructor; auto. Qed.
  Lemma form_run rs l : Forall (fun i => SimpleOp rs i \/ exists k, i = COp (bs "Do") [OName k]) l -> forall gss br cv font saved ts, G gss font saved ->
    Forall2 (fun p t => show (font_of rs (fst p)) (snd p) = Ok t) (shows font saved l) ts ->
    exists gss' br' cv', run real_str show no_Do KForm rs l (mkV gss br cv) = (Ok tt, mkV gss' br' cv') /\ fields l ts cv cv' /\
      cv_images cv' = cv_images cv /\ cv_forms cv' = cv_forms cv /\ G gss' (fst (fonts_after font saved l)) (snd (fonts_after font saved l)).
  Proof.
    induction 1 as [|i l Hi _ IH]; intros gss br cv font saved ts HG HF.
    { inversion HF. exists gss, br, cv. unfold fields. cbn. rewrite !app_nil_r. repeat split; auto. }
    rewrite shows_cons in HF. apply Forall2_app_inv_l in HF. destruct HF as (t1 & t2 & H1 & H2 & ->). rewrite fonts_after_cons.
    assert (exists g1 b1 c1, notify real_str show no_Do KForm rs i (mkV gss br cv) = (Ok tt, mkV g1 b1 c1) /\ fields [i] t1 cv c1 /\
      cv_images c1 = cv_images cv /\ cv_forms c1 = cv_forms cv /\ G g1 (fst (after i font saved)) (snd (after i font saved))) as (g1 & b1 & c1 & E & F & I1 & I2 & HG1).
    { destruct Hi as [Hi|[k ->]]; [apply (simple_step rs i Hi no_Do KForm gss br cv font saved t1 HG (one_font rs font i t1 H1))|].
      inversion H1; subst. destruct (form_do rs k gss br cv font saved HG) as (g1 & c1 & E & F & I1 & I2 & HG1). exists g1, br, c1. auto. }
    destruct (IH g1 b1 c1 _ _ t2 HG1 H2) as (g2 & b2 & c2 & E' & F' & I1' & I2' & HG2). exists g2, b2, c2. cbn [run]. unfold vbind. rewrite E.
    split; [exact E'|]. split; [now apply (fields_cons i l t1 t2 cv c1 c2)|]. rewrite I1', I2'. auto.
  Qed.

  (** a page's content *)
  Variable fc : bv -> res (list citem * option exn).
  Variable fr : bv -> res resources.
  Variable rs : resources.
  Definition FormOk (xo : bv) (font : option (list Z)) (fits : list citem) (fts : list (list Z)) : Prop :=
    exists frs, fr xo = Ok frs /\ fc xo = Ok (fits, None) /\ Balanced fits /\
      Forall (fun i => SimpleOp frs i \/ exists k, i = COp (bs "Do") [OName k]) fits /\
      Forall2 (fun p t => show (font_of frs (fst p)) (snd p) = Ok t) (shows font [] fits) fts.
  Definition DoOk (font : option (list Z)) (k : list Z) : Prop :=
    match aget (rs_dict rs (bs "XObject")) k with
    | None => True
    | Some xo => btruthy xo = false \/ (is_class xo (bs "Form") = false) \/
                 (is_class xo (bs "Image") = false /\ exists fits fts, FormOk xo font fits fts)
    end.
  Notation pdo := (page_Do real_str show fc fr).
  (** what a form draws, started as Do starts it *)
  Lemma form_draws xo font fits fts gss saved : FormOk xo font fits fts -> G gss font saved ->
    exists frs gss' br' cv', fr xo = Ok frs /\ fc xo = Ok (fits, None) /\
      render real_str show no_Do KForm frs (fits, None) (mkV (gss_save gss) [] empty_canvas) = (Ok tt, mkV gss' br' cv') /\
      cv_strings cv' = fts /\ cv_inline cv' = inline_images fits /\ cv_images cv' = [] /\ cv_forms cv' = [] /\ G (gss_restore gss') font saved.
  Proof.
    intros (frs & H1 & H2 & H3 & H4 & H5) HG. apply G_norm in HG.
    assert (G (gss_save gss) font (font :: saved)) as HG1.
    { right. unfold gss_save. destruct gss as [|g r]; cbn [gss_state snd] in *; inversion HG; subst; constructor; auto. }
    rewrite (balanced_shows fits H3 font [] (font :: saved)) in H5.
    destruct (form_run frs fits H4 (gss_save gss) [] empty_canvas font (font :: saved) fts HG1 H5) as (g2 & b2 & c2 & E & [F1 F2] & I1 & I2 & HG2).
    exists frs, g2, b2, c2. split; [exact H1|]. split; [exact H2|]. split; [unfold render; cbn [fst snd]; unfold vbind; rewrite E; reflexivity|].
    rewrite F1, F2, I1, I2. repeat split; auto. rewrite (balanced_saved fits H3) in HG2.
    destruct HG2 as [(_ & _ & X)|HG2]; [discriminate X|]. inversion HG2 as [|? ? ? ? _ HG3]. cbn [gss_restore]. right. exact HG3.
  Qed.
  Lemma page_do_step k gss br cv font saved : G gss font saved -> DoOk font k ->
    exists gss' cv', notify real_str show pdo KPage rs (COp (bs "Do") [OName k]) (mkV gss br cv) = (Ok tt, mkV gss' br cv') /\
      cv_strings cv' = cv_strings cv /\ G gss' font saved.
  Proof.
    intros HG HD.
    assert (forall v1, G (gss_restore (v_gss v1)) font saved -> v_br v1 = br -> cv_strings (v_cv v1) = cv_strings cv ->
      page_Do real_str show fc fr rs [OName k] (mkV (gss_save gss) br cv) = (Ok tt, v1) ->
      exists gss' cv', notify real_str show pdo KPage rs (COp (bs "Do") [OName k]) (mkV gss br cv) = (Ok tt, mkV gss' br cv') /\
      cv_strings cv' = cv_strings cv /\ G gss' font saved) as HK.
    { intros v1 HG1 Hb Hs E. exists (gss_restore (v_gss v1)). eexists. split; [|split; [|exact HG1]].
      - unfold notify. cbv zeta. change (alias (bs "Do")) with (bs "Do").
        change (before_ KPage (bs "Do")) with (with_gss gss_save). change (on_ show pdo KPage rs (bs "Do") [OName k]) with (page_Do real_str show fc fr rs [OName k] ;;;; vret [OName k]).
        unfold vbind at 1. unfold with_gss at 1, vmod at 1. cbn [v_gss v_br v_cv]. unfold vbind at 1. unfold vbind at 1. rewrite E. unfold vret at 1.
        change (after_ real_str KPage (bs "Do") [OName k]) with (with_gss gss_restore). unfold vbind at 1. unfold with_gss, vmod. unfold vbind, vlift, op_str. cbn [mapM to_str rbind].
        unfold add_text, with_cv, vmod. cbn [v_gss v_br v_cv]. rewrite <- Hb. reflexivity.
      - cbn [v_cv cv_strings]. exact Hs. }
    assert (G (gss_restore (gss_save gss)) font saved) as HR.
    { right. apply G_norm in HG. unfold gss_save. destruct gss as [|g r]; cbn [gss_state snd] in *; exact HG. }
    assert (forall v1, v1 = mkV (gss_save gss) br cv -> page_Do real_str show fc fr rs [OName k] (mkV (gss_save gss) br cv) = (Ok tt, v1) ->
      exists gss' cv', notify real_str show pdo KPage rs (COp (bs "Do") [OName k]) (mkV gss br cv) = (Ok tt, mkV gss' br cv') /\
      cv_strings cv' = cv_strings cv /\ G gss' font saved) as HN by (intros v1 -> E; eapply HK; [| | |exact E]; auto).
    unfold DoOk in HD. 
    assert (page_Do real_str show fc fr rs [OName k] (mkV (gss_save gss) br cv) =
      match aget (rs_dict rs (bs "XObject")) k with
      | None => (Ok tt, mkV (gss_save gss) br cv)
      | Some xo => if btruthy xo then
          if amem (cv_forms cv) k then (Ok tt, mkV (gss_save gss) br cv)
          else if is_class xo (bs "Image") then (Ok tt, mkV (gss_save gss) br (mkCv (aset (cv_images cv) k xo) (cv_forms cv) (cv_text cv) (cv_inline cv) (cv_strings cv)))
          else if is_class xo (bs "Form") then
            (frs <-- vlift (fr xo) ;; ct <-- vlift (fc xo) ;; c <-- in_form real_str show frs ct ;;
               with_cv (fun c0 => mkCv (cv_images c0) (aset (cv_forms c0) k c) (cv_text c0) (cv_inline c0) (cv_strings c0))) (mkV (gss_save gss) br cv)
          else (Ok tt, mkV (gss_save gss) br cv) else (Ok tt, mkV (gss_save gss) br cv) end) as EP.
    { unfold page_Do, arg0, vbind at 1, vret at 1. unfold vbind at 1. cbn [raw name_lookup]. unfold vlift at 1. destruct (aget (rs_dict rs (bs "XObject")) k) as [xo|]; [|reflexivity].
      destruct (btruthy xo); [|reflexivity]. unfold vbind at 1, vget. cbn [v_cv key_of]. destruct (amem (cv_forms cv) k); [reflexivity|].
      destruct (is_class xo (bs "Image")); [reflexivity|]. destruct (is_class xo (bs "Form")); reflexivity. }
    destruct (aget (rs_dict rs (bs "XObject")) k) as [xo|]; [|eapply HN; [reflexivity|exact EP]].
    destruct (btruthy xo); [|eapply HN; [reflexivity|exact EP]]. destruct (amem (cv_forms cv) k); [eapply HN; [reflexivity|exact EP]|].
    destruct (is_class xo (bs "Image")); [eapply HK; [| | |exact EP]; auto|]. destruct (is_class xo (bs "Form")); [|eapply HN; [reflexivity|exact EP]].
    destruct HD as [HD|[HD|(_ & fits & fts & HD)]]; try discriminate.
    destruct (form_draws xo font fits fts gss saved HD HG) as (frs & g2 & b2 & c2 & A1 & A2 & A3 & _ & _ & _ & _ & HG2).
    rewrite A1, A2 in EP. unfold vbind, vlift, in_form in EP. cbn [v_gss v_br v_cv] in EP. rewrite A3 in EP. unfold with_cv, vmod in EP. cbn [v_gss v_br v_cv] in EP.
    eapply HK; [| | |exact EP]; auto.
  Qed.
  Lemma page_run its : (forall pre i post, its = pre ++ i :: post -> SimpleOp rs i \/ exists k, i = COp (bs "Do") [OName k] /\ DoOk (fst (fonts_after None [] pre)) k) ->
    forall post pre gss br cv ts, its = pre ++ post -> G gss (fst (fonts_after None [] pre)) (snd (fonts_after None [] pre)) ->
    Forall2 (fun p t => show (font_of rs (fst p)) (snd p) = Ok t) (shows (fst (fonts_after None [] pre)) (snd (fonts_after None [] pre)) post) ts ->
    exists gss' br' cv', run real_str show pdo KPage rs post (mkV gss br cv) = (Ok tt, mkV gss' br' cv') /\
      cv_strings cv' = cv_strings cv ++ ts /\ G gss' (fst (fonts_after None [] its)) (snd (fonts_after None [] its)).
  Proof.
    intros Hall. induction post as [|i post IH]; intros pre gss br cv ts E HG HF.
    { inversion HF. exists gss, br, cv. rewrite app_nil_r in *. subst pre. split; [reflexivity|]. split; [reflexivity|exact HG]. }
    rewrite shows_cons in HF. apply Forall2_app_inv_l in HF. destruct HF as (t1 & t2 & H1 & H2 & ->).
    set (font := fst (fonts_after None [] pre)) in *. set (saved := snd (fonts_after None [] pre)) in *.
    assert (fonts_after None [] (pre ++ [i]) = after i font saved) as Ea.
    { rewrite fonts_after_app, fonts_after_cons. cbn [fonts_after]. fold font saved. now destruct (after i font saved). }
    assert (exists g1 b1 c1, notify real_str show pdo KPage rs i (mkV gss br cv) = (Ok tt, mkV g1 b1 c1) /\ cv_strings c1 = cv_strings cv ++ t1 /\
      G g1 (fst (after i font saved)) (snd (after i font saved))) as (g1 & b1 & c1 & E1 & F1 & HG1).
    { destruct (Hall pre i post E) as [Hi|(k & -> & Hk)].
      - destruct (simple_step rs i Hi pdo KPage gss br cv font saved t1 HG (one_font rs font i t1 H1)) as (g1 & b1 & c1 & A1 & [A2 _] & _ & _ & A3). exists g1, b1, c1. auto.
      - inversion H1; subst t1. destruct (page_do_step k gss br cv font saved HG Hk) as (g1 & c1 & A1 & A2 & A3). exists g1, br, c1. rewrite app_nil_r. auto. }
    destruct (IH (pre ++ [i]) g1 b1 c1 t2) as (g2 & b2 & c2 & E2 & F2 & HG2).
    - rewrite <- app_assoc. exact E.
    - now rewrite Ea.
    - now rewrite Ea.
    - exists g2, b2, c2. cbn [run]. unfold vbind. rewrite E1. split; [exact E2|]. split; [|exact HG2]. rewrite F2, F1, <- app_assoc. reflexivity.
  Qed.
End Draw.
