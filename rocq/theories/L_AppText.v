(** Drawing text content (for C78). *)
From Coq Require Import String.
From Verif Require Import Prelude M_Parser M_Text M_Objects P_Objects M_Viewer S_Viewer L_Viewer S_Objects S_App.
Local Open Scope Z_scope.
Local Open Scope vm_scope.

Section T.
  Variable real_str : bool -> Z -> Z -> list Z.
  Variable show : option bv -> obj -> res (list Z).
  Variable on_Do : resources -> list obj -> vm unit.
  Variable rs : resources.
  Notation notify := (notify real_str show on_Do KPage rs).

  Definition has_font (g : gstate) (f : option (list Z)) : Prop :=
    match f with
    | None => aget g (bs "Font") = None
    | Some n => exists more, aget g (bs "Font") = Some (VArr (VAtom (OName n) :: more))
    end.
  Definition G (gss : list gstate) (font : option (list Z)) (saved : list (option (list Z))) : Prop :=
    (gss = [] /\ font = None /\ saved = []) \/ Forall2 has_font gss (font :: saved).
  Definition font_of (f : option (list Z)) : option bv := match f with None => None | Some n => aget (rs_dict rs (bs "Font")) n end.

  Lemma G_norm gss font saved : G gss font saved -> Forall2 has_font (snd (gss_state gss)) (font :: saved).
  Proof.
    intros [(-> & -> & ->)|H]; [constructor; [reflexivity|constructor]|]. destruct gss; [inversion H|exact H].
  Qed.
  Lemma norm_G gss font saved : Forall2 has_font gss (font :: saved) -> G gss font saved. Proof. now right. Qed.

  Lemma decode_font gss br cv font saved v t : G gss font saved -> show (font_of font) v = Ok t ->
    decode show rs v (mkV gss br cv) = (Ok t, mkV (snd (gss_state gss)) br cv).
  Proof.
    intros HG Ht. pose proof (G_norm _ _ _ HG) as HN. unfold decode, vbind, vget, with_gss, vmod, vlift. cbn [v_gss v_br v_cv].
    assert (has_font (fst (gss_state gss)) font) as Hf. { destruct gss; inversion HN; subst; auto. }
    destruct font as [f|]; cbn [has_font] in Hf.
    - destruct Hf as [more Hm]. unfold font_name. rewrite Hm. cbn [btruthy name_lookup]. cbn [font_of] in Ht. now rewrite Ht.
    - unfold font_name. rewrite Hf. cbn [font_of] in Ht. now rewrite Ht.
  Qed.

  Fixpoint showable_str (v : obj) : showable v -> exists t, to_str real_str v = Ok t.
  Proof.
    destruct v as [|b|z|n c e|s|s|s|l|d|d s|n g|s|d s]; intros H; cbn [showable] in H; try contradiction; try (eexists; reflexivity).
    - cbn [to_str]. assert (exists ss, (fix go l := match l with [] => Ok [] | x :: r => rbind (to_str real_str x) (fun a => rbind (go r) (fun b => Ok (a :: b))) end) l = Ok ss) as [ss ->]; [|eexists; reflexivity].
      induction l as [|x l IH]; [eexists; reflexivity|]. destruct H as [Hx Hl]. destruct (showable_str x Hx) as [t ->]. cbn [rbind]. destruct (IH Hl) as [ss ->]. eexists; reflexivity.
    - cbn [to_str]. assert (exists ss, (fix go d := match d with [] => Ok [] | (k, v) :: r => rbind (to_str real_str v) (fun a => rbind (go r) (fun b => Ok ((47 :: k ++ 32 :: a) :: b))) end) d = Ok ss) as [ss ->]; [|eexists; reflexivity].
      induction d as [|[k x] d IH]; [eexists; reflexivity|]. destruct H as [Hx Hl]. destruct (showable_str x Hx) as [t ->]. cbn [rbind]. destruct (IH Hl) as [ss ->]. eexists; reflexivity.
  Qed.
  Lemma showables_str l : Forall showable l -> exists ts, mapM (to_str real_str) l = Ok ts.
  Proof.
    induction 1 as [|x l Hx _ [ts IH]]; [eexists; reflexivity|]. cbn [mapM]. destruct (showable_str x Hx) as [t ->]. cbn [rbind]. rewrite IH. eexists; reflexivity.
  Qed.
  Lemma op_str_ok w args : Forall showable args -> exists t, op_str real_str w args = Ok t.
  Proof. intros H. unfold op_str. destruct (showables_str args H) as [ts ->]. eexists; reflexivity. Qed.

  Definition put (cv : canvas) (ts : list (list Z)) (txt : list Z) : canvas :=
    mkCv (cv_images cv) (cv_forms cv) (cv_text cv ++ txt) (cv_inline cv) (cv_strings cv ++ ts).
  Lemma put_nil cv : put cv [] [] = cv. Proof. destruct cv. unfold put. cbn. now rewrite !app_nil_r. Qed.

  (** what an operator does to the fonts *)
  Definition after (i : citem) (font : option (list Z)) (saved : list (option (list Z))) : option (list Z) * list (option (list Z)) :=
    match i with
    | COp w args =>
        if eqlZ w (bs "Tf") then match args with OName f :: _ => (Some f, saved) | _ => (font, saved) end
        else if eqlZ w (bs "q") then (font, font :: saved)
        else if eqlZ w (bs "Q") then match saved with f :: more => (f, more) | [] => (None, []) end
        else (font, saved)
    | CImage _ _ => (font, saved)
    end.
  Lemma shows_cons i r font saved : shows font saved (i :: r) = map (fun v => (font, v)) (shown i) ++ shows (fst (after i font saved)) (snd (after i font saved)) r.
  Proof.
    cbn [shows]. f_equal. destruct i as [|w args]; [reflexivity|]. unfold after.
    destruct (eqlZ w (bs "Tf")); [destruct args as [|[] ?]; reflexivity|]. destruct (eqlZ w (bs "q")); [reflexivity|].
    destruct (eqlZ w (bs "Q")); [destruct saved; reflexivity|reflexivity].
  Qed.

  Lemma set_field gss font saved f v : f <> bs "Font" -> G gss font saved -> G (gss_set gss f v) font saved.
  Proof.
    intros Hf HG. apply G_norm in HG. right. unfold gss_set. destruct gss as [|g r]; cbn [gss_state] in *.
    - inversion HG as [|? ? ? ? H1 H2]; subst. inversion H2; subst. constructor; [|constructor]. destruct font as [n|]; cbn [has_font aget aset] in *.
      + destruct H1 as [m E]. discriminate.
      + destruct (eqlZ (bs "Font") f) eqn:E; [|reflexivity]. apply eqlZ_eq in E. congruence.
    - cbn [snd] in HG. inversion HG as [|? ? ? ? H1 H2]; subst. constructor; [|exact H2].
      assert (aget (aset g f v) (bs "Font") = aget g (bs "Font")) as E.
      { rewrite aget_aset. destruct (eqlZ (bs "Font") f) eqn:E; [apply eqlZ_eq in E; congruence|reflexivity]. }
      destruct font; cbn [has_font] in *; now rewrite E.
  Qed.
  Lemma set_font gss font saved n more : G gss font saved -> G (gss_set gss (bs "Font") (VArr (VAtom (OName n) :: more))) (Some n) saved.
  Proof.
    intros HG. apply G_norm in HG. right. unfold gss_set. destruct gss as [|g r]; cbn [gss_state snd] in *.
    - inversion HG as [|? ? ? ? H1 H2]; subst. inversion H2; subst. constructor; [|constructor]. exists more. reflexivity.
    - inversion HG as [|? ? ? ? H1 H2]; subst. constructor; [|exact H2]. exists more. rewrite aget_aset, eqlZ_refl. reflexivity.
  Qed.

  Lemma show_all_ok l : Forall showable l -> forall gss br cv font saved ts, G gss font saved ->
    Forall2 (fun v t => show (font_of font) v = Ok t) (filter is_string l) ts ->
    exists gss' l' , show_all show rs l (mkV gss br cv) = (Ok l', mkV gss' br (put cv ts [])) /\ G gss' font saved /\ Forall showable l'.
  Proof.
    induction 1 as [|x l Hx Hl IH]; intros gss br cv font saved ts HG HF.
    { inversion HF. exists gss, []. split; [rewrite put_nil; reflexivity|]. split; [exact HG|constructor]. }
    assert (is_string x = true \/ is_string x = false) as [Hs|Hs] by (destruct (is_string x); auto).
    - cbn [filter] in HF. rewrite Hs in HF. inversion HF as [|? t ? ts' Ht HF']; subst.
      pose proof (decode_font gss br cv font saved x t HG Ht) as Ed.
      destruct (IH (snd (gss_state gss)) br (put cv [t] []) font saved ts' (norm_G _ _ _ (G_norm _ _ _ HG)) HF') as (gss' & l' & E & HG' & Hl').
      exists gss', (OTok (40 :: pdf_escape_string t ++ [41]) :: l'). split; [|split; [exact HG'|constructor; [exact I|exact Hl']]].
      assert (show_all show rs (x :: l) (mkV gss br cv) =
        (t <-- decode show rs x ;; add_string t ;;;; r' <-- show_all show rs l ;; vret (OTok (40 :: pdf_escape_string t ++ [41]) :: r')) (mkV gss br cv)) as -> by (destruct x; try discriminate; reflexivity).
      unfold vbind. rewrite Ed. unfold add_string, with_cv, vmod. cbn [v_gss v_br v_cv].
      assert (mkCv (cv_images cv) (cv_forms cv) (cv_text cv) (cv_inline cv) (cv_strings cv ++ [t]) = put cv [t] []) as -> by (unfold put; now rewrite app_nil_r).
      rewrite E. unfold vret. do 2 f_equal. unfold put. cbn [cv_images cv_forms cv_text cv_inline cv_strings]. rewrite !app_nil_r, <- app_assoc. reflexivity.
    - cbn [filter] in HF. rewrite Hs in HF. destruct (IH gss br cv font saved ts HG HF) as (gss' & l' & E & HG' & Hl').
      exists gss', (x :: l'). split; [|split; [exact HG'|constructor; auto]].
      assert (show_all show rs (x :: l) (mkV gss br cv) = (r' <-- show_all show rs l ;; vret (x :: r')) (mkV gss br cv)) as -> by (destruct x; try discriminate; reflexivity).
      unfold vbind. rewrite E. reflexivity.
  Qed.

  Lemma finish w args gss br cv : Forall showable args ->
    exists txt, (t <-- vlift (op_str real_str w args) ;; add_text t) (mkV gss br cv) = (Ok tt, mkV gss br (put cv [] txt)).
  Proof.
    intros H. destruct (op_str_ok w args H) as [t E]. exists t. unfold vbind, vlift. rewrite E. unfold add_text, with_cv, vmod, put. cbn [v_gss v_br v_cv].
    rewrite app_nil_r. reflexivity.
  Qed.
  Lemma put_put cv a x b y : put (put cv a x) b y = put cv (a ++ b) (x ++ y).
  Proof. unfold put. cbn [cv_images cv_forms cv_text cv_inline cv_strings]. now rewrite !app_assoc. Qed.

  (** a handler that keeps its operands *)
  Lemma keeps w args gss gss' br br' cv (m : vm unit) :
    before_ KPage (alias w) = vret tt -> on_ show on_Do KPage rs (alias w) args = (m ;;;; vret args) ->
    after_ real_str KPage (alias w) args = vret tt ->
    m (mkV gss br cv) = (Ok tt, mkV gss' br' cv) -> Forall showable args ->
    exists txt, notify (COp w args) (mkV gss br cv) = (Ok tt, mkV gss' br' (put cv [] txt)).
  Proof.
    intros E1 E2 E3 E4 Ha. destruct (finish w args gss' br' cv Ha) as [txt E]. exists txt. unfold M_Viewer.notify. cbv zeta. rewrite E1, E2.
    unfold vbind at 1. unfold vret at 1. unfold vbind at 1. unfold vbind at 1. rewrite E4. unfold vret at 1. rewrite E3. unfold vbind at 1. unfold vret at 1. exact E.
  Qed.
  Lemma unhandled_neq w x : unhandled w -> In x (map bs ["q"; "Q"; "cm"; "w"; "J"; "j"; "M"; "d"; "ri"; "i"; "gs"; "Tf"; "Tj"; "TJ"; "'"; """"; "DP"; "BDC"; "BT"; "ET"; "Do";
                  "apostrophe"; "quotation"; "inline_image"; "document_load"; "handler"; "navigate"]%string) -> eqlZ w x = false.
  Proof. intros H Hin. destruct (eqlZ w x) eqn:E; [|reflexivity]. apply eqlZ_eq in E. subst. contradiction. Qed.
  Ltac isin := repeat (first [left; reflexivity | right]).

  Lemma text_step i : TextOp i -> forall gss br cv font saved ts, G gss font saved ->
    Forall2 (fun v t => show (font_of font) v = Ok t) (shown i) ts ->
    exists gss' br' txt, notify i (mkV gss br cv) = (Ok tt, mkV gss' br' (put cv ts txt)) /\
      G gss' (fst (after i font saved)) (snd (after i font saved)).
  Proof.
    intros Hi gss br cv font saved ts HG HF. destruct Hi as [f size Hs| | |w Hw|w v Hw Hv|l Hl|w a args Hw Ha Hl|w args Hw Ha].
    - (* Tf *) inversion HF; subst. destruct (keeps (bs "Tf") [OName f; size] gss (gss_set gss (bs "Font") (VArr [VAtom (OName f); raw size])) br br cv (set_args (bs "Font") [OName f; size])) as [txt E]; try reflexivity.
      { constructor; [exact I|]. constructor; [exact Hs|constructor]. }
      do 3 eexists. split; [exact E|]. apply set_font with (font := font). exact HG.
    - (* q *) inversion HF; subst. destruct (keeps (bs "q") [] gss (gss_save gss) br br cv (with_gss gss_save)) as [txt E]; try reflexivity; [constructor|].
      do 3 eexists. split; [exact E|]. cbn. apply G_norm in HG. right. unfold gss_save. destruct gss as [|g r]; cbn [gss_state snd] in *.
      + inversion HG; subst. constructor; auto.
      + inversion HG; subst. constructor; auto.
    - (* Q *) inversion HF; subst. destruct (keeps (bs "Q") [] gss (gss_restore gss) br br cv (with_gss gss_restore)) as [txt E]; try reflexivity; [constructor|].
      do 3 eexists. split; [exact E|]. change (after (COp (bs "Q") []) font saved) with (match saved with f :: more => (f, more) | [] => (None, []) end).
      destruct HG as [(-> & -> & ->)|HG]; [left; auto|]. inversion HG as [|g ? r ? H1 H2]; subst. cbn [gss_restore]. inversion H2; subst; [left; auto|right; constructor; auto].
    - (* BT, ET *) assert (shown (COp w []) = []) as Es by (destruct Hw as [-> | ->]; reflexivity). rewrite Es in HF. inversion HF; subst.
      destruct Hw as [-> | ->].
      + destruct (keeps (bs "BT") [] gss gss br (bs "BT" :: match br with b :: r => if eqlZ b (bs "BT") then r else b :: r | [] => [] end) cv on_BT) as [txt E]; try reflexivity; [constructor|].
        do 3 eexists. split; [exact E|exact HG].
      + destruct (keeps (bs "ET") [] gss gss br (match br with b :: r => if eqlZ b (bs "BT") then r else b :: r | [] => [] end) cv on_ET) as [txt E]; try reflexivity; [constructor|].
        do 3 eexists. split; [exact E|exact HG].
    - (* Tj, ' *) assert (shown (COp w [v]) = [v] /\ after (COp w [v]) font saved = (font, saved)) as [Es Ea] by (destruct Hw as [-> | ->]; split; reflexivity).
      rewrite Es in HF. rewrite Ea. inversion HF as [|? t ? ts' Ht HF']; subst. inversion HF'; subst.
      destruct (finish w [OTok (40 :: pdf_escape_string t ++ [41])] (snd (gss_state gss)) br (put cv [t] [])) as [txt E]; [constructor; [exact I|constructor]|].
      exists (snd (gss_state gss)), br, txt. split; [|right; now apply G_norm].
      pose proof (decode_font gss br cv font saved v t HG Ht) as Ed.
      assert (notify (COp w [v]) (mkV gss br cv) = (args' <-- on_Tj show rs [v] ;; t0 <-- vlift (op_str real_str w args') ;; add_text t0) (mkV gss br cv)) as ->.
      { destruct Hw as [-> | ->]; unfold M_Viewer.notify; cbv zeta.
        - change (alias (bs "Tj")) with (bs "Tj"). change (before_ KPage (bs "Tj")) with (vret tt).
          change (on_ show on_Do KPage rs (bs "Tj") [v]) with (on_Tj show rs [v]). reflexivity.
        - change (alias (bs "'")) with (bs "apostrophe"). change (before_ KPage (bs "apostrophe")) with (vret tt).
          change (on_ show on_Do KPage rs (bs "apostrophe") [v]) with (on_Tj show rs [v]). reflexivity. }
      unfold vbind at 1. unfold on_Tj. unfold arg0. unfold vbind at 1. unfold vret at 1. unfold vbind at 1. rewrite Ed.
      unfold add_string, with_cv, vmod. unfold vbind at 1. cbn [v_gss v_br v_cv]. unfold vret at 1.
      assert (mkCv (cv_images cv) (cv_forms cv) (cv_text cv) (cv_inline cv) (cv_strings cv ++ [t]) = put cv [t] []) as -> by (unfold put; now rewrite app_nil_r).
      rewrite E, put_put. rewrite app_nil_r. reflexivity.
    - (* TJ *) change (shown (COp (bs "TJ") [OArr l])) with (filter is_string l) in HF.
      destruct (show_all_ok l Hl gss br cv font saved ts HG HF) as (gss' & l' & E & HG' & Hl').
      destruct (finish (bs "TJ") [OArr l'] gss' br (put cv ts [])) as [txt E2].
      { constructor; [|constructor]. cbn [showable]. clear - Hl'. induction Hl'; [exact I|split; auto]. }
      exists gss', br, txt. split; [|exact HG'].
      assert (notify (COp (bs "TJ") [OArr l]) (mkV gss br cv) = (args' <-- (l1 <-- show_all show rs l ;; vret [OArr l1]) ;; t0 <-- vlift (op_str real_str (bs "TJ") args') ;; add_text t0) (mkV gss br cv)) as -> by reflexivity.
      unfold vbind at 1. unfold vbind at 1. rewrite E. unfold vret at 1. rewrite E2, put_put, app_nil_r. reflexivity.
    - (* parameters *)
      assert (shown (COp w (a :: args)) = [] /\ after (COp w (a :: args)) font saved = (font, saved)) as [Es Ea].
      { cbn [map In] in Hw. repeat (destruct Hw as [<-|Hw]; [split; reflexivity|]). contradiction. }
      rewrite Es in HF. inversion HF; subst. rewrite Ea.
      assert (exists f v, f <> bs "Font" /\ exists txt, notify (COp w (a :: args)) (mkV gss br cv) = (Ok tt, mkV (gss_set (snd (gss_state gss)) f v) br (put cv [] txt))) as (f & v & Hf & txt & E).
      { assert (forall f v, gss_set gss f v = gss_set (snd (gss_state gss)) f v) as En by (intros; destruct gss; reflexivity).
        cbn [map In] in Hw. repeat (destruct Hw as [<-|Hw]; [|]); [| | | | | | | |contradiction].
        - exists (bs "CTM"), (VArr (map raw (a :: args))). split; [discriminate|]. apply (keeps _ _ _ _ _ _ _ (set_args (bs "CTM") (a :: args))); try reflexivity; [|constructor; auto]. rewrite <- En. reflexivity.
        - exists (bs "LW"), (raw a). split; [discriminate|]. apply (keeps _ _ _ _ _ _ _ (set_arg (bs "LW") (a :: args))); try reflexivity; [|constructor; auto]. rewrite <- En. reflexivity.
        - exists (bs "LC"), (raw a). split; [discriminate|]. apply (keeps _ _ _ _ _ _ _ (set_arg (bs "LC") (a :: args))); try reflexivity; [|constructor; auto]. rewrite <- En. reflexivity.
        - exists (bs "LJ"), (raw a). split; [discriminate|]. apply (keeps _ _ _ _ _ _ _ (set_arg (bs "LJ") (a :: args))); try reflexivity; [|constructor; auto]. rewrite <- En. reflexivity.
        - exists (bs "ML"), (raw a). split; [discriminate|]. apply (keeps _ _ _ _ _ _ _ (set_arg (bs "ML") (a :: args))); try reflexivity; [|constructor; auto]. rewrite <- En. reflexivity.
        - exists (bs "D"), (VArr (map raw (a :: args))). split; [discriminate|]. apply (keeps _ _ _ _ _ _ _ (set_args (bs "D") (a :: args))); try reflexivity; [|constructor; auto]. rewrite <- En. reflexivity.
        - exists (bs "RI"), (raw a). split; [discriminate|]. apply (keeps _ _ _ _ _ _ _ (set_arg (bs "RI") (a :: args))); try reflexivity; [|constructor; auto]. rewrite <- En. reflexivity.
        - exists (bs "FL"), (raw a). split; [discriminate|]. apply (keeps _ _ _ _ _ _ _ (set_arg (bs "FL") (a :: args))); try reflexivity; [|constructor; auto]. rewrite <- En. reflexivity. }
      do 3 eexists. split; [exact E|]. apply set_field; auto. right. now apply G_norm.
    - (* others *)
      assert (Ew := fun x => unhandled_neq w x Hw).
      assert (alias w = w \/ alias w = bs "Tstar") as Hal.
      { unfold alias. change [39] with (bs "'"). change [34] with (bs """"). rewrite (Ew (bs "'")) by isin. rewrite (Ew (bs """")) by isin. destruct (eqlZ w (bs "T*")); auto. }
      assert (shown (COp w args) = [] /\ after (COp w args) font saved = (font, saved)) as [Es Ea].
      { split; unfold shown, after; rewrite ?(Ew (bs "Tj")), ?(Ew (bs "'")), ?(Ew (bs "TJ")), ?(Ew (bs "Tf")), ?(Ew (bs "q")), ?(Ew (bs "Q")) by isin; reflexivity. }
      rewrite Es in HF. inversion HF; subst. rewrite Ea.
      destruct (keeps w args gss gss br br cv (vret tt)) as [txt E]; auto.
      + unfold before_. destruct Hal as [-> | ->]; [rewrite (Ew (bs "Do")) by isin|]; reflexivity.
      + destruct Hal as [-> | ->]; [|reflexivity]. unfold on_. cbv zeta.
        rewrite (Ew (bs "q")), (Ew (bs "Q")), (Ew (bs "cm")), (Ew (bs "w")), (Ew (bs "J")), (Ew (bs "j")), (Ew (bs "M")), (Ew (bs "d")), (Ew (bs "ri")), (Ew (bs "i")),
          (Ew (bs "gs")), (Ew (bs "Tf")), (Ew (bs "Tj")), (Ew (bs "apostrophe")), (Ew (bs "TJ")), (Ew (bs "quotation")), (Ew (bs "DP")), (Ew (bs "BDC")), (Ew (bs "BT")), (Ew (bs "ET")),
          (Ew (bs "inline_image")), (Ew (bs "document_load")), (Ew (bs "Do")) by isin. reflexivity.
      + destruct Hal as [-> | ->]; [|reflexivity]. unfold after_. rewrite (Ew (bs "Do")), (Ew (bs "handler")), (Ew (bs "navigate")) by isin. reflexivity.
      + do 3 eexists. split; [exact E|exact HG].
  Qed.

  Lemma text_run l : Forall TextOp l -> forall gss br cv font saved ts, G gss font saved ->
    Forall2 (fun p t => show (font_of (fst p)) (snd p) = Ok t) (shows font saved l) ts ->
    exists s', run real_str show on_Do KPage rs l (mkV gss br cv) = (Ok tt, s') /\ cv_strings (v_cv s') = cv_strings cv ++ ts.
  Proof.
    induction 1 as [|i l Hi _ IH]; intros gss br cv font saved ts HG HF.
    { inversion HF. eexists. split; [reflexivity|]. cbn. now rewrite app_nil_r. }
    rewrite shows_cons in HF. apply Forall2_app_inv_l in HF. destruct HF as (t1 & t2 & H1 & H2 & ->).
    assert (Forall2 (fun v t => show (font_of font) v = Ok t) (shown i) t1) as H1'.
    { clear - H1. remember (shown i) as l. clear Heql. revert t1 H1. induction l as [|v l IH]; intros t1 H1; inversion H1; subst; constructor; auto. }
    destruct (text_step i Hi gss br cv font saved t1 HG H1') as (gss' & br' & txt & E & HG').
    destruct (IH gss' br' (put cv t1 txt) _ _ t2 HG' H2) as (s' & E' & Es). exists s'. cbn [run]. unfold vbind. rewrite E. split; [exact E'|].
    rewrite Es. unfold put. cbn [cv_strings]. now rewrite <- app_assoc.
  Qed.
End T.
