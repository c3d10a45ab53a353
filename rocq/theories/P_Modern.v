(** Files with cross-reference streams and object streams: C79. *)
From Coq Require Import String.
From Verif Require Import Prelude M_Prog M_Parser S_Syntax L_Buffer L_Prog L_ParserWP L_Syntax L_Syntax2 S_Print L_Print
  S_Stream L_Stream M_Filters M_Document S_Document L_Document L_User L_Registry P_IndObj
  S_Xref L_Xref P_Header P_StartXref P_Xref P_Locate L_Steps S_Open P_Open S_History P_History S_XrefStream P_XrefStream S_Registry P_Registry S_Modern L_Modern.
Local Open Scope Z_scope.
Local Open Scope prog_scope.

Section Opening.
  Variable inflate : list Z -> option (list Z).
  Variable ccitt : list Z -> fparams -> res (list Z).
  Variables (D m : nat).
  Notation decrypt := (fun (_ _ : Z) (v : obj) => Ok v).
  Notation locate := (locate_object inflate ccitt decrypt D m).
  Variable f : list Z.
  Hypothesis HD : (2 <= D)%nat.
  Hypothesis Hm : 4 * zlen f + 8 <= Z.of_nat m.
  Variable loc : Z -> Z -> prog rst obj.
  Notation hook := (length_hook loc).
  Notation iobj := (reg_indirect inflate ccitt decrypt D m hook).

  (** The tables read from the sections. *)
  Definition is_section (sec : section) (x : xref) : Prop := self_keyed x /\ forall n g o, xlists x n g o <-> lists sec n g o.
  Definition learns (objs : list (Z * Z * obj)) (K : contents) : contents :=
    fold_left (fun K e => learn K (fst (fst e)) (snd (fst e)) (snd e)) objs K.
  (** nothing but the registry changes, which learns [objs] *)
  Definition registers (u : rst) (objs : list (Z * Z * obj)) (u' : rst) : Prop :=
    r_xrefs u' = r_xrefs u /\ r_bf u' = r_bf u /\ r_stack u' = r_stack u /\ forall K, agrees u K -> agrees u' (learns objs K).
  Lemma agrees_ext u K K' : agrees u K -> (forall a b, K a b = K' a b) -> agrees u K'.
  Proof. intros H E a b. now rewrite H. Qed.
  Lemma learn_elem_nil K n g v a b : learn_elem K (n, g, v, []) a b = learn K n g v a b.
  Proof.
    rewrite learn_elem_get. unfold learn. cbn [first_of]. destruct (K n g) as [w|] eqn:E.
    - destruct (K a b) eqn:E2; [reflexivity|]. destruct ((a =? n) && (b =? g)) eqn:Eab; [|reflexivity].
      assert (a = n /\ b = g) as [-> ->] by (apply andb_true_iff in Eab; lia). congruence.
    - destruct ((a =? n) && (b =? g)) eqn:Eab.
      + assert (a = n /\ b = g) as [-> ->] by (apply andb_true_iff in Eab; lia). now rewrite E.
      + destruct (K a b); [reflexivity|]. now destruct (b =? 0).
  Qed.

  Lemma u_xref_stream pre num gen d raw text rest sec u : f = pre ++ text ++ rest -> IndObj num gen (OStream d raw) text rest -> XrefStm inflate ccitt d raw sec ->
    exists x u', uruns f (xref_stream_section inflate ccitt iobj) (zlen pre) u (Ok (x, d)) (zlen pre + zlen text) u' /\ is_section sec x /\ registers u [(num, gen, OStream d raw)] u'.
  Proof.
    intros Ef HI (w1 & w2 & w3 & HT & HW & Hw & HIdx & Hf & HR & HF).
    assert (Held inflate ccitt (OStream d raw) []) as HH.
    { constructor. intros d0 raw0 E. injection E as <- <-. rewrite HT. cbn [In]. intros [X|[X|[X|[]]]]; discriminate X. }
    assert (At f (zlen pre) (text ++ rest)) as HA by now apply At_start with (pre := pre).
    destruct (m_iobj inflate ccitt decrypt D m f HD Hm loc (zlen pre) num gen (OStream d raw) (OStream d raw) [] text rest u HI eq_refl HH HA) as (u' & HU & (R1 & R2 & R3 & R4)).
    destruct (C20_xref_stream inflate ccitt d raw w1 w2 w3 (fst sec) (snd sec) HW HIdx Hw Hf HR HF) as (x & Ex & Hx).
    exists x, u'. split; [|split; [split|split; [exact R1|split; [exact R2|split; [exact R3|]]]]].
    - unfold xref_stream_section. eapply uruns_bind; [exact HU|]. cbv beta iota. rewrite HT. cbn [is_name]. rewrite eqlZ_refl, Ex. apply uruns_ret.
    - eapply self_keyed_stream; exact Ex.
    - intros n g o. unfold xlists, lists. rewrite Hx. split.
      + intros (e & E & Eg & Eo). destruct (row_of (fst sec) (snd sec) n) as [[]|]; try discriminate E. injection E as <-. cbn [e_gen e_off] in *. now subst.
      + intros ->. eexists. split; [reflexivity|split; reflexivity].
    - intros K HK. eapply agrees_ext; [exact (R4 K HK)|]. intros a b. apply learn_elem_nil.
  Qed.
  Lemma registers_trans u u1 u2 l1 l2 : registers u l1 u1 -> registers u1 l2 u2 -> registers u (l1 ++ l2) u2.
  Proof.
    intros (A1 & A2 & A3 & A4) (B1 & B2 & B3 & B4). repeat split; try congruence. intros K HK. unfold learns. rewrite fold_left_app. exact (B4 _ (A4 K HK)).
  Qed.
  Lemma u_prev_streams : forall o secs objs d, XChain inflate ccitt f o secs objs d -> forall k acc pos u, (List.length secs <= k)%nat ->
    exists q u' xs, uruns f (prev_streams inflate ccitt iobj k (OInt o) acc) pos u (Ok (acc ++ xs)) q u' /\ Forall2 is_section secs xs /\ registers u objs u'.
  Proof.
    induction 1 as [pre num gen d raw text rest sec Ef HI HX HP|pre num gen d raw text rest sec p secs objs d' Ef HI HX HP Hp HC IH]; intros k acc pos u Hk;
      (destruct k as [|k]; [cbn in Hk; lia|]); destruct (u_xref_stream pre num gen d raw text rest sec u Ef HI HX) as (x & u' & HU & Hx & Hreg);
      pose proof (zlen_nonneg pre); cbn [prev_streams].
    - exists (zlen pre + zlen text), u', [x]. split; [|split; [constructor; [exact Hx|constructor]|exact Hreg]].
      unfold reset_to. cbn [as_range]. apply uruns_reset. unfold reset_pos. rewrite (proj2 (Z.leb_le 0 (zlen pre))) by lia.
      eapply uruns_bind; [exact HU|]. cbv beta iota. unfold oget. rewrite HP. destruct k; cbn [prev_streams]; apply uruns_ret.
    - destruct (IH k (acc ++ [x]) (zlen pre + zlen text) u') as (q & u2 & xs & HU2 & Hxs & Hreg2); [cbn in Hk; lia|].
      exists q, u2, (x :: xs). split; [|split; [constructor; assumption|exact (registers_trans _ _ _ _ _ Hreg Hreg2)]].
      unfold reset_to. cbn [as_range]. apply uruns_reset. unfold reset_pos. rewrite (proj2 (Z.leb_le 0 (zlen pre))) by lia.
      eapply uruns_bind; [exact HU|]. cbv beta iota. unfold oget. rewrite HP. rewrite <- app_assoc in HU2. exact HU2.
  Qed.
  Lemma u_trailer k o secs objs d u pos : offset_of f (Ok o) -> XChain inflate ccitt f o secs objs d -> (List.length secs <= S k)%nat ->
    exists q u' xs, uruns f (pdf_trailer inflate ccitt hook iobj k m) pos u (Ok (xs, stm_trailer d)) q u' /\ Forall2 is_section secs xs /\ registers u objs u'.
  Proof.
    intros Hoff HC Hk.
    assert (exists c, znth f o = Some c /\ is_digit c = true /\ 0 <= o) as (c & Hc & Hdig & Ho).
    { destruct HC as [pre num gen d raw text rest sec Ef HI HX HP|pre num gen d raw text rest sec p secs objs d' Ef HI HX HP Hp HC];
        destruct (ind_digit _ _ _ _ _ HI) as (c & t' & -> & Hc); exists c; (split; [|split; [exact Hc|apply zlen_nonneg]]);
        cbn [app] in Ef; apply At_start in Ef; apply At_cons in Ef; apply Ef. }
    assert (exists q u' xs, uruns f ('(x, d) <- xref_stream_section inflate ccitt iobj ;; xs <- prev_streams inflate ccitt iobj k (oget d (bs "Prev")) [x] ;; pdf_trailer_obj xs (tdict_of d))
       o u (Ok (xs, stm_trailer d)) q u' /\ Forall2 is_section secs xs /\ registers u objs u') as (q & u' & xs & HU & Hxs & Hreg).
    { destruct HC as [pre num gen d raw text rest sec Ef HI HX HP|pre num gen d raw text rest sec p secs objs d' Ef HI HX HP Hp HC];
        destruct (u_xref_stream pre num gen d raw text rest sec u Ef HI HX) as (x & u' & HU & Hx & Hreg).
      - exists (zlen pre + zlen text), u', [x]. split; [|split; [constructor; [exact Hx|constructor]|exact Hreg]].
        eapply uruns_bind; [exact HU|]. cbv beta iota. unfold oget at 1. rewrite HP.
        eapply uruns_bind with (a := [x]); [destruct k; cbn [prev_streams]; apply uruns_ret|]. exact (uruns_ret f _ _ u').
      - destruct (u_prev_streams p secs objs d' HC k [x] (zlen pre + zlen text) u') as (q & u2 & xs & HU2 & Hxs & Hreg2); [cbn in Hk; lia|].
        exists q, u2, (x :: xs). split; [|split; [constructor; assumption|exact (registers_trans _ _ _ _ _ Hreg Hreg2)]].
        eapply uruns_bind; [exact HU|]. cbv beta iota. unfold oget at 1. rewrite HP.
        eapply uruns_bind; [exact HU2|]. exact (uruns_ret f _ _ u2). }
    exists q, u', xs. split; [|auto]. intros st. destruct (Hoff rst st u m pos Hm) as (q1 & ex1 & E1).
    unfold pdf_trailer. rewrite arun_bind, E1. cbn [reset bind arun a_store a_usr a_pos].
    unfold reset_pos. rewrite (proj2 (Z.leb_le 0 o)) by lia. cbn [cur bind arun a_pos reset a_store a_usr]. rewrite Hc.
    assert (is_cur (Some c) 120 = false) as -> by (unfold is_cur; unfold is_digit in Hdig; lia). cbn [bind reset arun a_store a_usr a_pos].
    unfold reset_pos. rewrite (proj2 (Z.leb_le 0 o)) by lia.
    destruct (HU (st ++ ex1)) as [ex2 E2]. exists (ex1 ++ ex2). rewrite app_assoc. exact E2.
  Qed.
End Opening.

Lemma opened_streams inflate ccitt D m f : (2 <= D)%nat -> 4 * zlen f + 8 <= Z.of_nat m -> forall k ver off o secs objs d,
  header_of f (Ok (ver, off)) -> 0 <= off -> offset_of f (Ok o) -> XChain inflate ccitt f o secs objs d -> (List.length secs <= S k)%nat ->
  exists pos st u xs h, arun f (open_document inflate ccitt no_decrypt D m k) (mkA 0 [] rst0) = (Ok (ver, off, stm_trailer d), mkA pos st u) /\
    Forall2 is_section secs xs /\ r_xrefs u = Some xs /\ r_stack u = [] /\ r_bf u = Some h /\ nth_error st h = Some off /\ agrees u (opened_with objs).
Proof.
  intros HD Hm k ver off o secs objs d Hh Ho Hoff HC Hk. destruct (Hh rst [] rst0) as [p0 E0].
  destruct (u_trailer inflate ccitt D m f HD Hm (locate_object inflate ccitt no_decrypt D m k) k o secs objs d rst0 p0 Hoff HC Hk) as (q & u' & xs & HU & Hxs & (R1 & R2 & R3 & R4)).
  destruct (HU []) as [ex E1].
  unfold open_document. rewrite arun_bind, E0. cbv beta iota zeta. rewrite arun_bind.
  match type of E1 with ?A = _ => match goal with |- context [arun f (pdf_trailer inflate ccitt ?X ?Y k m) ?S] => change (arun f (pdf_trailer inflate ccitt X Y k m) S) with A end end.
  rewrite E1.
  cbn [bind getu setu reset save arun a_usr a_pos a_store ret].
  unfold reset_pos. rewrite (proj2 (Z.leb_le 0 off)) by lia.
  do 5 eexists. split; [reflexivity|]. split; [exact Hxs|]. split; [reflexivity|]. split; [reflexivity|]. split; [reflexivity|].
  split; [rewrite nth_error_app2 by lia; now rewrite Nat.sub_diag|]. apply (R4 (fun _ _ => None)). intros n g. reflexivity.
Qed.

(** C79 (a).  Any file with a header, a chain of cross-reference streams and a body of objects and
    startxref sections, where the newest in-use rows lead to objects: opening gives the trailer, and any
    sequence of lookups gives exactly what the specification's memory machine gives.  [decrypt] is what
    the security handler does (opening itself does not use it). *)
Theorem C79_sessions_exactly : forall inflate ccitt decrypt f ver pre body rest o secs objs d listed l0 l,
  f = pre ++ body ++ rest -> header_of f (Ok (ver, zlen pre)) -> offset_of f (Ok o) -> XChain inflate ccitt f o secs objs d ->
  ModBody l0 body rest -> Forall2 (Viewed inflate ccitt decrypt) l0 l ->
  (forall c, hd_error rest = Some c -> is_digit c = false /\ c <> 115 /\ c <> 116) ->
  (forall n g v ms, listed n g = Some (v, ms) -> exists before text after v0,
     newest_row secs n g (zlen before) /\ f = before ++ text ++ after /\ IndObj n g v0 text after /\ Viewed inflate ccitt decrypt (n, g, v0) (n, g, v, ms)) ->
  (forall n g o, newest_row secs n g o -> listed n g <> None) ->
  forall D m k, (2 <= D)%nat -> 4 * zlen f + 8 <= Z.of_nat m -> (List.length secs <= S k)%nat ->
  exists s, arun f (open_document inflate ccitt no_decrypt D m k) (mkA 0 [] rst0) = (Ok (ver, zlen pre, stm_trailer d), s) /\
  forall k' ids, (1 <= k')%nat ->
    fst (session inflate ccitt decrypt D m k' f s ids) = map Ok (mlooks listed (opened_with objs, l) ids).
Proof.
  intros inflate ccitt decrypt f ver pre body rest o secs objs d listed l0 l Ef Hh Hoff HC HB HV Hc HL HN D m k HD Hm Hk.
  pose proof (zlen_nonneg pre) as Hp.
  destruct (opened_streams inflate ccitt D m f HD Hm k ver (zlen pre) o secs objs d Hh Hp Hoff HC Hk) as (pos & st & u & xs & h & E & Hxs & G1 & G2 & G3 & G4 & G5).
  eexists. split; [exact E|]. intros k' ids Hk'. destruct k' as [|k']; [lia|].
  assert (forall n g, (exists newer x older, exists o', xs = newer ++ x :: older /\ newest_row secs n g o' /\ xlists x n g o' /\ Forall (fun x => forall o', ~ xlists x n g o') newer) \/
     Forall (fun x => forall o', ~ xlists x n g o') xs) as HX.
  { clear - Hxs. intros n g. induction Hxs as [|sec x secs xs [H1 H2] Hxs IH]; [right; constructor|].
    destruct (zget (x_inuse x) n) as [e|] eqn:Eu.
    - destruct (e_gen e =? g) eqn:Eg.
      + left. exists [], x, xs, (e_off e). assert (xlists x n g (e_off e)) as HX by (exists e; repeat split; auto; lia).
        split; [reflexivity|]. split; [|split; [exact HX|constructor]]. exists [], sec, secs. split; [reflexivity|]. split; [now apply H2|constructor].
      + assert (forall o', ~ xlists x n g o') as HNx by (intros o' (e' & A & B & _); rewrite Eu in A; injection A as <-; lia).
        destruct IH as [(newer & y & older & o' & E1 & (nw & sc & od & F1 & F2 & F3) & E3 & E4)|IH]; [left|right; constructor; auto].
        exists (x :: newer), y, older, o'. split; [now rewrite E1|]. split; [|split; [exact E3|constructor; auto]].
        exists (sec :: nw), sc, od. split; [now rewrite F1|]. split; [exact F2|]. constructor; [|exact F3]. intros o2 X. apply H2 in X. exact (HNx o2 X).
    - assert (forall o', ~ xlists x n g o') as HNx by (intros o' (e' & A & _); congruence).
      destruct IH as [(newer & y & older & o' & E1 & (nw & sc & od & F1 & F2 & F3) & E3 & E4)|IH]; [left|right; constructor; auto].
      exists (x :: newer), y, older, o'. split; [now rewrite E1|]. split; [|split; [exact E3|constructor; auto]].
      exists (sec :: nw), sc, od. split; [now rewrite F1|]. split; [exact F2|]. constructor; [|exact F3]. intros o2 X. apply H2 in X. exact (HNx o2 X). }
  assert (forall n g o1 o2, newest_row secs n g o1 -> newest_row secs n g o2 -> o1 = o2) as Huniq.
  { clear. intros n g o1 o2 (n1 & s1 & r1 & A1 & A2 & A3) (n2 & s2 & r2 & B1 & B2 & B3). revert n2 A1 B1 B3 A3. revert secs. induction n1 as [|y n1 IH]; intros secs n2 A1 B1 B3 A3.
    - destruct n2 as [|z n2]; cbn [app] in *; subst secs; injection B1 as <- B1.
      + unfold lists in *. congruence.
      + inversion B3 as [|? ? X _]; subst. exfalso. exact (X o1 A2).
    - destruct n2 as [|z n2]; cbn [app] in *; subst secs; injection B1 as <- B1.
      + inversion A3 as [|? ? X _]; subst. exfalso. exact (X o2 B2).
      + inversion A3; inversion B3; subst. eapply IH; eauto. }
  destruct (mlooks_ok inflate ccitt decrypt D m f HD Hm xs rest Hc) with (listed := listed) (k := k') (ids := ids) (l' := l) (st := st) (u := u) (K := opened_with objs) (pos := pos) as (p2 & st2 & u2 & E2 & _ & _).
  - clear - Hxs. induction Hxs as [|sec x secs xs [H1 H2] Hxs IH]; constructor; auto.
  - intros n g v' ms El. destruct (HL n g v' ms El) as (before & text & after' & v0 & Hn & Ef' & HI & (_ & _ & Hd & HH)).
    destruct (HX n g) as [(newer & x & older & o' & E1 & E3 & E4 & E5)|HX0].
    + rewrite (Huniq _ _ _ _ E3 Hn) in E4. exists newer, x, older, before, text, after', v0. auto 10.
    + exfalso. clear - Hxs Hn HX0. destruct Hn as (nw & sc & od & F1 & F2 & F3). subst secs. apply Forall2_app_inv_l in Hxs.
      destruct Hxs as (x1 & x2 & A1 & A2 & ->). inversion A2 as [|? x ? x3 [H1 H2] A3]; subst. apply Forall_app in HX0. destruct HX0 as [_ HX0].
      inversion HX0 as [|? ? X _]; subst. apply (X (zlen before)). now apply H2.
  - intros n g El. destruct (HX n g) as [(newer & x & older & o' & E1 & E3 & E4 & E5)|HX0]; [|exact HX0]. exfalso. exact (HN n g o' E3 El).
  - exact G5.
  - split; [exact G1|]. split; [exact G2|]. exists h, (zlen pre), body, l0. split; [exact G3|]. split; [exact G4|]. split; [exact HB|]. split; [now apply At_start with (pre := pre)|exact HV].
  - rewrite E2. reflexivity.
Qed.
Print Assumptions C79_sessions_exactly.

(** ---- documents in which every id occurs once ---- *)
Section Once.
  Variable listed : Z -> Z -> option (obj * list (Z * obj)).
  Variable K0 : contents.
  Variable l : list elem.
  Hypothesis Honce : NoDup (flat_map ids_of l).
  Hypothesis HL : forall n g v ms, listed n g = Some (v, ms) -> In (n, g, v, ms) l.
  Hypothesis HK0 : forall n g w, K0 n g = Some w -> exists v', In (n, g, v', []) l.
  Definition what (n g : Z) : option obj := match K0 n g with Some v => Some v | None => provided l n g end.
  Definition or_null (x : option obj) : obj := match x with Some v => v | None => ONull end.

  Lemma first_of_in : forall ms a w, first_of ms a = Some w -> In a (map fst ms).
  Proof. induction ms as [|[b v] ms IH]; intros a w; cbn [first_of map fst In]; [discriminate|]. destruct (a =? b) eqn:E; [left; lia|right; eauto]. Qed.
  Lemma first_of_some : forall ms a, In a (map fst ms) -> exists w, first_of ms a = Some w.
  Proof. induction ms as [|[b v] ms IH]; intros a; cbn [first_of map fst In]; [tauto|]. intros [->|H]; [rewrite Z.eqb_refl; eauto|]. destruct (a =? b); eauto. Qed.
  Lemma member_id (n g : Z) (v : obj) ms a : In a (map fst ms) -> In (a, 0) (ids_of (n, g, v, ms)).
  Proof. intros H. cbn [ids_of]. right. apply in_map_iff in H. destruct H as (x & <- & Hx). apply in_map_iff. now exists x. Qed.
  Lemma ids_inv (n g : Z) (v : obj) ms a b : In (a, b) (ids_of (n, g, v, ms)) -> (a = n /\ b = g) \/ (b = 0 /\ In a (map fst ms)).
  Proof.
    cbn [ids_of]. intros [E|H]; [left; injection E; auto|right]. apply in_map_iff in H. destruct H as (x & E & Hx). injection E as <- <-. split; [reflexivity|]. now apply in_map.
  Qed.
  Lemma provided_in : forall r n g v, provided r n g = Some v -> exists e, In e r /\ In (n, g) (ids_of e).
  Proof.
    induction r as [|[[[a b] w] ms] r IH]; intros n g v; cbn [provided]; [discriminate|]. destruct ((n =? a) && (g =? b)) eqn:E.
    - intros _. exists (a, b, w, ms). split; [now left|]. assert (n = a /\ g = b) as [-> ->] by (apply andb_true_iff in E; lia). now left.
    - destruct (if g =? 0 then first_of ms n else None) as [x|] eqn:Ef.
      + intros _. exists (a, b, w, ms). split; [now left|]. destruct (g =? 0) eqn:Eg; [|discriminate]. replace g with 0 by lia. apply member_id. eapply first_of_in; eauto.
      + intros H. destruct (IH n g v H) as (e & He & Hi). exists e. split; [now right|exact Hi].
  Qed.
  Lemma nodup_app_r {A} (x y : list A) : NoDup (x ++ y) -> NoDup y /\ forall a, In a x -> ~ In a y.
  Proof.
    induction x as [|a x IH]; cbn [app]; [intros H; split; [exact H|intros ? []]|]. intros H. inversion H as [|? ? H1 H2]; subst. destruct (IH H2) as [I1 I2].
    split; [exact I1|]. intros b [<-|Hb]; [intros X; apply H1; apply in_or_app; now right|now apply I2].
  Qed.
  Lemma provided_own : forall r, NoDup (flat_map ids_of r) -> forall n g v ms, In (n, g, v, ms) r ->
    provided r n g = Some v /\ forall a w, first_of ms a = Some w -> provided r a 0 = Some w.
  Proof.
    induction r as [|[[[a b] w] ms0] r IH]; intros Hn n g v ms; [intros []|]. change (flat_map ids_of ((a, b, w, ms0) :: r)) with (ids_of (a, b, w, ms0) ++ flat_map ids_of r) in Hn.
    destruct (nodup_app_r _ _ Hn) as [Hn1 Hn2]. intros [E|H].
    - injection E as -> -> -> ->. cbn [provided]. rewrite !Z.eqb_refl. split; [reflexivity|]. intros a' w' Hf. cbn [andb]. destruct ((a' =? n) && (0 =? g)) eqn:E.
      + exfalso. assert (a' = n /\ g = 0) as [-> ->] by (apply andb_true_iff in E; lia). cbn [ids_of app] in Hn. inversion Hn as [|? ? X _]; subst. apply X. apply in_or_app. left.
        apply first_of_in in Hf. apply in_map_iff in Hf. destruct Hf as (x & <- & Hx). apply in_map_iff. now exists x.
      + now rewrite Hf.
    - destruct (IH Hn1 n g v ms H) as [I1 I2].
      assert (forall x y, In (x, y) (ids_of (n, g, v, ms)) -> ~ In (x, y) (ids_of (a, b, w, ms0))) as HX.
      { intros x y Hx Hy. apply (Hn2 (x, y) Hy). apply in_flat_map. now exists (n, g, v, ms). }
      assert (forall x y v', In (x, y) (ids_of (n, g, v, ms)) -> provided r x y = Some v' -> provided ((a, b, w, ms0) :: r) x y = Some v') as HP.
      { intros x y v' Hx Hv. cbn [provided]. specialize (HX x y Hx). destruct ((x =? a) && (y =? b)) eqn:E.
        - exfalso. apply HX. assert (x = a /\ y = b) as [-> ->] by (apply andb_true_iff in E; lia). now left.
        - destruct (y =? 0) eqn:Ey; [|exact Hv]. assert (y = 0) by lia; subst y. destruct (first_of ms0 x) eqn:Ef; [|exact Hv]. exfalso. apply HX. apply member_id. eapply first_of_in; eauto. }
      split; [apply HP; [now left|exact I1]|]. intros a' w' Hf. apply HP; [|now apply I2]. apply member_id. eapply first_of_in; eauto.
  Qed.

  Definition minv (K : contents) (l2 : list elem) : Prop :=
    (forall n g w, K n g = Some w -> w = or_null (what n g)) /\
    (forall n g v ms, In (n, g, v, ms) l -> (K n g = None -> In (n, g, v, ms) l2) /\ (K n g <> None -> forall a, In a (map fst ms) -> K a 0 <> None)) /\
    (forall n g w, K0 n g = Some w -> K n g = Some w) /\ incl l2 l.

  Lemma same_elem e e' x : In e l -> In e' l -> In x (ids_of e) -> In x (ids_of e') -> e = e'.
  Proof.
    clear HL HK0. revert Honce. induction l as [|e0 r IH]; intros Hn; [intros []|]. change (flat_map ids_of (e0 :: r)) with (ids_of e0 ++ flat_map ids_of r) in Hn.
    destruct (nodup_app_r _ _ Hn) as [Hn1 Hn2]. intros [<-|H] [<-|H'] X X'; [reflexivity| | |].
    - exfalso. apply (Hn2 x X). apply in_flat_map. now exists e'.
    - exfalso. apply (Hn2 x X'). apply in_flat_map. now exists e.
    - exact (IH Hn1 H H' X X').
  Qed.
  Lemma minv_learn K l2 l3 n g v ms : minv K l2 -> In (n, g, v, ms) l -> (forall e, In e l2 -> In e l3 \/ e = (n, g, v, ms)) -> incl l3 l -> minv (learn_elem K (n, g, v, ms)) l3.
  Proof.
    intros (I1 & I2 & I3 & I4) He H3 Hincl. destruct (K n g) as [w0|] eqn:Ek.
    - rewrite (learn_elem_known _ _ _ _ _ _ Ek). split; [exact I1|]. split; [|split; [exact I3|exact Hincl]]. intros a b v' ms' Ha. destruct (I2 a b v' ms' Ha) as [J1 J2]. split; [|exact J2].
      intros Hn. destruct (H3 _ (J1 Hn)) as [X|X]; [exact X|]. injection X as -> -> -> ->. congruence.
    - pose proof (provided_own l Honce n g v ms He) as [P1 P2]. split; [|split; [|split; [|exact Hincl]]].
      + intros a b w. rewrite learn_elem_get, Ek. unfold what. destruct ((a =? n) && (b =? g)) eqn:E.
        * assert (a = n /\ b = g) as [-> ->] by (apply andb_true_iff in E; lia). intros X. injection X as <-.
          destruct (K0 n g) as [w1|] eqn:E0; [apply I3 in E0; congruence|]. now rewrite P1.
        * destruct (K a b) as [w1|] eqn:Eab; [intros X; injection X as <-; exact (I1 a b w1 Eab)|]. destruct (b =? 0) eqn:Eb; [|discriminate]. intros X. assert (b = 0) by lia; subst b.
          destruct (K0 a 0) as [w1|] eqn:E0; [apply I3 in E0; congruence|]. now rewrite (P2 a w X).
      + intros a b v' ms' Ha. destruct (I2 a b v' ms' Ha) as [J1 J2]. split.
        * rewrite learn_elem_get, Ek. destruct ((a =? n) && (b =? g)) eqn:E; [discriminate|]. destruct (K a b) eqn:Eab; [discriminate|]. intros _.
          destruct (H3 _ (J1 eq_refl)) as [X|X]; [exact X|]. injection X as -> -> -> ->. rewrite !Z.eqb_refl in E. discriminate.
        * intros Hk c Hc. rewrite learn_elem_get in Hk |- *. rewrite Ek in Hk |- *. destruct ((c =? n) && (0 =? g)); [discriminate|]. destruct (K c 0) eqn:Ec; [discriminate|]. cbn [Z.eqb].
          assert (In (c, 0) (ids_of (a, b, v', ms'))) as Hci by now apply member_id.
          destruct ((a =? n) && (b =? g)) eqn:E.
          -- assert (a = n /\ b = g) as [-> ->] by (apply andb_true_iff in E; lia). assert ((n, g, v', ms') = (n, g, v, ms)) as X by (apply (same_elem _ _ (n, g) Ha He); now left).
             injection X as -> ->. destruct (first_of_some ms c Hc) as [w ->]. discriminate.
          -- destruct (K a b) as [w1|] eqn:Eab; [exfalso; exact (J2 ltac:(discriminate) c Hc Ec)|]. destruct (b =? 0) eqn:Eb; [|congruence]. assert (b = 0) by lia; subst b.
             destruct (first_of ms a) as [w|] eqn:Ef; [|congruence]. exfalso.
             assert ((a, 0, v', ms') = (n, g, v, ms)) as X by (apply (same_elem _ _ (a, 0) Ha He); [now left|apply member_id; eapply first_of_in; eauto]).
             injection X as X1 X2 _ _. rewrite X1, X2, !Z.eqb_refl in E. discriminate.
      + intros a b w Hw. rewrite learn_elem_get, Ek. destruct ((a =? n) && (b =? g)) eqn:E.
        * assert (a = n /\ b = g) as [-> ->] by (apply andb_true_iff in E; lia). apply I3 in Hw. congruence.
        * now rewrite (I3 a b w Hw).
  Qed.
  Lemma minv_scan num gen : listed num gen = None -> forall l2 K, minv K l2 ->
    minv (fst (scan_elems K l2 num gen)) (snd (scan_elems K l2 num gen)) /\ fst (scan_elems K l2 num gen) num gen = Some (or_null (what num gen)).
  Proof.
    intros Hl. induction l2 as [|[[[n g] v] ms] l2 IH]; intros K HI; pose proof HI as (I1 & I2 & I3 & I4); cbn [scan_elems]; destruct (K num gen) as [w|] eqn:Ek.
    - cbn [fst snd]. split; [exact HI|]. rewrite Ek. f_equal. now apply I1.
    - cbn [fst snd].
      assert (what num gen = None) as Hw.
      { unfold what. destruct (K0 num gen) as [w|] eqn:E0; [apply I3 in E0; congruence|]. destruct (provided l num gen) as [w|] eqn:Ep; [exfalso|reflexivity].
        destruct (provided_in _ _ _ _ Ep) as ([[[n g] v] ms] & He & Hi). destruct (I2 n g v ms He) as [J1 J2]. destruct (K n g) as [w1|] eqn:Eng; [|exact (J1 eq_refl)].
        apply ids_inv in Hi. destruct Hi as [[-> ->]|[-> Hi]]; [congruence|]. exact (J2 ltac:(discriminate) num Hi Ek). }
      split; [split; [|split; [|split; [|exact I4]]]|].
      + intros n g w. unfold learn. destruct (K n g) as [w1|] eqn:E; [intros X; injection X as <-; now apply I1|]. destruct ((n =? num) && (g =? gen)) eqn:E2; [|discriminate].
        assert (n = num /\ g = gen) as [-> ->] by (apply andb_true_iff in E2; lia). rewrite Hw. intros X. now injection X as <-.
      + intros n g v ms He. destruct (I2 n g v ms He) as [J1 J2]. destruct (K n g) as [w1|] eqn:Eng; [|destruct (J1 eq_refl)]. unfold learn. rewrite Eng. split; [discriminate|].
        intros _ a Ha. specialize (J2 ltac:(discriminate) a Ha). destruct (K a 0); [discriminate|congruence].
      + intros n g w E. unfold learn. now rewrite (I3 n g w E).
      + rewrite learn_here, Ek, Hw. reflexivity.
    - cbn [fst snd]. split; [exact HI|]. rewrite Ek. f_equal. now apply I1.
    - apply IH. apply (minv_learn K ((n, g, v, ms) :: l2) l2 n g v ms HI); [apply I4; now left|intros e [<-|H]; auto|intros e H; apply I4; now right].
  Qed.
  Lemma mlooks_once : forall ids K l2, minv K l2 -> mlooks listed (K, l2) ids = map (fun id => or_null (what (fst id) (snd id))) ids.
  Proof.
    induction ids as [|[n g] ids IH]; intros K l2 HI; cbn [mlooks map fst snd]; [reflexivity|]. unfold mlook. cbn [fst snd]. destruct (listed n g) as [[v ms]|] eqn:El.
    - assert (minv (learn_elem K (n, g, v, ms)) l2) as HI'.
      { apply (minv_learn K l2 l2); auto; apply HI. }
      cbn [fst snd]. destruct (learn_elem_some K n g v ms) as [w Hw]. rewrite Hw. f_equal; [|now apply IH]. now apply HI'.
    - destruct (minv_scan n g El l2 K HI) as [HI' E]. rewrite E. destruct (scan_elems K l2 n g) as [K' l3]. f_equal. now apply IH.
  Qed.
  Lemma minv0 : minv K0 l.
  Proof.
    split; [|split; [|split; [auto|apply incl_refl]]].
    - intros n g w E. unfold what. now rewrite E.
    - intros n g v ms He. split; [auto|]. intros Hk a Ha. destruct (K0 n g) as [w|] eqn:E; [|congruence]. destruct (HK0 n g w E) as (v' & Hv).
      assert ((n, g, v, ms) = (n, g, v', [])) as X by (apply (same_elem _ _ (n, g) He Hv); now left). injection X as -> ->. destruct Ha.
  Qed.
End Once.

(** C79 (b).  If no id occurs twice in such a file (objects held in object streams included), lookups in
    any order and any number give each id's object, or null: those of the body, those held in object
    streams, and the cross-reference streams. *)
Theorem C79_any_objects : forall inflate ccitt decrypt f ver pre body rest o secs objs d l0 l,
  f = pre ++ body ++ rest -> header_of f (Ok (ver, zlen pre)) -> offset_of f (Ok o) -> XChain inflate ccitt f o secs objs d ->
  ModBody l0 body rest -> Forall2 (Viewed inflate ccitt decrypt) l0 l ->
  (forall c, hd_error rest = Some c -> is_digit c = false /\ c <> 115 /\ c <> 116) ->
  (forall n g o, newest_row secs n g o -> exists before text after v0 v ms,
     o = zlen before /\ f = before ++ text ++ after /\ IndObj n g v0 text after /\ Viewed inflate ccitt decrypt (n, g, v0) (n, g, v, ms) /\ In (n, g, v, ms) l) ->
  (forall n g v, In (n, g, v) objs -> exists v', In (n, g, v', []) l) ->
  NoDup (flat_map ids_of l) ->
  forall D m k, (2 <= D)%nat -> 4 * zlen f + 8 <= Z.of_nat m -> (List.length secs <= S k)%nat ->
  exists s, arun f (open_document inflate ccitt no_decrypt D m k) (mkA 0 [] rst0) = (Ok (ver, zlen pre, stm_trailer d), s) /\
  forall k' ids, (1 <= k')%nat ->
    fst (session inflate ccitt decrypt D m k' f s ids) =
    map (fun id => Ok (match opened_with objs (fst id) (snd id) with
                       | Some v => v
                       | None => match provided l (fst id) (snd id) with Some v => v | None => ONull end
                       end)) ids.
Proof.
  intros inflate ccitt decrypt f ver pre body rest o secs objs d l0 l Ef Hh Hoff HC HB HV Hc HL HO Hnd D m k HD Hm Hk.
  (* the listed elements *)
  set (find := fix find (r : list elem) (n g : Z) : option (obj * list (Z * obj)) :=
    match r with [] => None | (a, b, v, ms) :: r' => if (n =? a) && (g =? b) then Some (v, ms) else find r' n g end).
  assert (forall r n g v ms, find r n g = Some (v, ms) -> In (n, g, v, ms) r) as Hfind.
  { induction r as [|[[[a b] w] ms0] r IH]; intros n g v ms; cbn [find]; [discriminate|]. destruct ((n =? a) && (g =? b)) eqn:E.
    - intros X. injection X as -> ->. left. assert (n = a /\ g = b) as [-> ->] by (apply andb_true_iff in E; lia). reflexivity.
    - intros X. right. now apply IH. }
  assert (forall n g v ms, In (n, g, v, ms) l -> find l n g = Some (v, ms)) as Hfind2.
  { intros n g v ms He. assert (exists x, find l n g = Some x) as [[v' ms'] E].
    { clear - He. induction l as [|[[[a b] w] ms0] r IH]; [destruct He|]. cbn [find]. destruct ((n =? a) && (g =? b)) eqn:E; [eauto|]. destruct He as [X|X]; [injection X as -> -> -> ->; rewrite !Z.eqb_refl in E; discriminate|auto]. }
    assert ((n, g, v, ms) = (n, g, v', ms')) as X by (apply (same_elem l Hnd _ _ (n, g) He (Hfind _ _ _ _ _ E)); now left). injection X as <- <-. exact E. }
  (* is an id listed? *)
  set (row := fun (sec : section) (n g : Z) => match row_of (fst sec) (snd sec) n with Some (RUsed _ g') => g' =? g | _ => false end).
  set (listed := fun n g => if existsb (fun sec => row sec n g) secs then find l n g else None).
  assert (forall sec n g, row sec n g = false -> forall o', ~ lists sec n g o') as Hrow0.
  { intros sec n g E o' X. unfold row in E. unfold lists in X. rewrite X in E. lia. }
  assert (forall sec n g, row sec n g = true -> exists o', lists sec n g o') as Hrow1.
  { intros sec n g E. unfold row in E. unfold lists. destruct (row_of (fst sec) (snd sec) n) as [[? ?|o1 g1|? ?|? ? ?]|]; try discriminate E. assert (g1 = g) as -> by lia. eauto. }
  assert (forall n g, existsb (fun sec => row sec n g) secs = true -> exists o', newest_row secs n g o') as Hex.
  { clear - Hrow0 Hrow1. intros n g. induction secs as [|sec secs IH]; cbn [existsb]; [discriminate|]. destruct (row sec n g) eqn:E.
    - intros _. destruct (Hrow1 _ _ _ E) as [o' Ho']. exists o', [], sec, secs. repeat split; auto.
    - cbn [orb]. intros H. destruct (IH H) as (o' & nw & sc & od & E1 & E2 & E3). exists o', (sec :: nw), sc, od. split; [now rewrite E1|]. split; [exact E2|]. constructor; auto. }
  assert (forall n g o', newest_row secs n g o' -> existsb (fun sec => row sec n g) secs = true) as Hex2.
  { intros n g o' (nw & sc & od & E1 & E2 & E3). apply existsb_exists. exists sc. split; [rewrite E1; apply in_or_app; right; now left|]. unfold row. unfold lists in E2. rewrite E2. apply Z.eqb_refl. }
  destruct (C79_sessions_exactly inflate ccitt decrypt f ver pre body rest o secs objs d listed l0 l Ef Hh Hoff HC HB HV Hc) with (D := D) (m := m) (k := k) as (s & E & HS); auto.
  - intros n g v ms. unfold listed. destruct (existsb (fun sec => row sec n g) secs) eqn:Ee; [|discriminate]. intros Hf. apply Hfind in Hf.
    destruct (Hex n g Ee) as [o' Ho']. destruct (HL n g o' Ho') as (before & text & aft & v0 & v1 & ms1 & -> & E2 & HI & HV1 & Hin).
    assert ((n, g, v, ms) = (n, g, v1, ms1)) as X by (apply (same_elem l Hnd _ _ (n, g) Hf Hin); now left). injection X as -> ->. exists before, text, aft, v0. auto.
  - intros n g o' Ho'. unfold listed. rewrite (Hex2 n g o' Ho'). destruct (HL n g o' Ho') as (before & text & aft & v0 & v1 & ms1 & _ & _ & _ & _ & Hin). rewrite (Hfind2 _ _ _ _ Hin). discriminate.
  - exists s. split; [exact E|]. intros k' ids Hk'. rewrite (HS k' ids Hk').
    assert (forall n g w, opened_with objs n g = Some w -> exists v', In (n, g, v', []) l) as HK0.
    { assert (forall os K n g w, fold_left (fun K e => learn K (fst (fst e)) (snd (fst e)) (snd e)) os K n g = Some w -> (exists v, In (n, g, v) os) \/ K n g = Some w) as HF.
      { induction os as [|[[a b] x] os IH]; intros K n g w; cbn [fold_left fst snd]; [auto|]. intros H. destruct (IH _ _ _ _ H) as [[v Hv]|H1]; [left; exists v; now right|].
        unfold learn in H1. destruct (K n g); [now right|]. destruct ((n =? a) && (g =? b)) eqn:Eab; [|discriminate]. left. exists x. left. assert (n = a /\ g = b) as [-> ->] by (apply andb_true_iff in Eab; lia). reflexivity. }
      intros n g w H. destruct (HF _ _ _ _ _ H) as [[v Hv]|X]; [exact (HO n g v Hv)|discriminate]. }
    rewrite (mlooks_once listed (opened_with objs) l Hnd).
    + rewrite map_map. apply map_ext. intros [n g]. cbn [fst snd]. unfold or_null, what. destruct (opened_with objs n g); reflexivity.
    + intros n g v ms. unfold listed. destruct (existsb _ secs); [apply Hfind|discriminate].
    + exact HK0.
    + apply minv0; auto.
Qed.
Print Assumptions C79_any_objects.
