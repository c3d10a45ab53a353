(** Hybrid-reference files, and any file with cross-reference tables whose objects may be in object
    streams: C96. *)
From Coq Require Import String.
From Verif Require Import Prelude M_Prog M_Parser S_Syntax L_Buffer L_Prog L_ParserWP L_Syntax L_Syntax2 S_Print L_Print
  S_Stream L_Stream M_Filters M_Document S_Document L_Document L_User L_Registry P_IndObj
  S_Xref L_Xref P_Header P_StartXref P_Xref P_Locate L_Steps S_Open P_Open S_History P_History S_XrefStream P_XrefStream S_Registry P_Registry S_Modern L_Modern P_Modern
  S_Write P_Write S_ModWrite L_ModWrite P_ModWrite S_Hybrid.
Local Open Scope Z_scope.
Local Open Scope prog_scope.

Lemma table_lists l n g o : xlists (table_of l) n g o <-> last_listed true n l = Some (g, o).
Proof.
  destruct (is_table_fold l) as (H & _). fold (table_of l) in H. unfold xlists. rewrite (H n). split.
  - intros (e & E & Eg & Eo). destruct (last_listed true n l) as [[g' o']|]; [|discriminate]. injection E as <-. cbn [e_gen e_off] in *. now subst.
  - intros ->. eexists. split; [reflexivity|split; reflexivity].
Qed.
Lemma table_self_keyed l : self_keyed (table_of l).
Proof.
  destruct (is_table_fold l) as (_ & _ & H). fold (table_of l) in H. unfold self_keyed. rewrite H. intros n e X. discriminate X.
Qed.

(** C96 (a).  Any file with a header, a chain of cross-reference tables and a body of objects - some of
    them object streams, or cross-reference streams that XRefStm may lead to - and startxref sections,
    where the newest in-use listings lead to objects: every sequence of lookups gives exactly what the
    specification's memory machine gives.  XRefStm plays no part. *)
Theorem C96_sessions_exactly : forall inflate ccitt decrypt f ver pre body rest o ls t listed l0 l,
  f = pre ++ body ++ rest -> header_of f (Ok (ver, zlen pre)) -> offset_of f (Ok o) -> Chain f o ls t ->
  dget t (bs "xrefs") = None -> dget t (bs "self") = None ->
  ModBody l0 body rest -> Forall2 (Viewed inflate ccitt decrypt) l0 l ->
  (forall c, hd_error rest = Some c -> is_digit c = false /\ c <> 115 /\ c <> 116) ->
  (forall n g v ms, listed n g = Some (v, ms) -> exists before text after v0,
     newest ls n g (zlen before) /\ f = before ++ text ++ after /\ IndObj n g v0 text after /\ Viewed inflate ccitt decrypt (n, g, v0) (n, g, v, ms)) ->
  (forall n g o, newest ls n g o -> listed n g <> None) ->
  forall D m k, (2 <= D)%nat -> 4 * zlen f + 8 <= Z.of_nat m -> (List.length ls <= k)%nat ->
  exists s, arun f (open_document inflate ccitt no_decrypt D m k) (mkA 0 [] rst0) = (Ok (ver, zlen pre, t), s) /\
  forall k' ids, (1 <= k')%nat ->
    fst (session inflate ccitt decrypt D m k' f s ids) = map Ok (mlooks listed (fun _ _ => None, l) ids).
Proof.
  intros inflate ccitt decrypt f ver pre body rest o ls t listed l0 l Ef Hh Hoff HC Hx1 Hx2 HB HV Hc HL HN D m k HD Hm Hk.
  pose proof (zlen_nonneg pre) as Hp.
  destruct (opened inflate ccitt D m f ltac:(lia) Hm k ver (zlen pre) o ls t Hh Hp Hoff HC Hx1 Hx2 Hk) as (pos & st & h & E & Hst).
  eexists. split; [exact E|]. intros k' ids Hk'. destruct k' as [|k']; [lia|].
  destruct (mlooks_ok inflate ccitt decrypt D m f HD Hm (map table_of ls) rest Hc) with (listed := listed) (k := k') (ids := ids) (l' := l) (st := st)
    (u := mkR [] (Some (map table_of ls)) (Some h) []) (K := fun _ _ : Z => @None obj) (pos := pos) as (p2 & st2 & u2 & E2 & _ & _).
  - clear. induction ls as [|x ls IH]; cbn [map]; constructor; [apply table_self_keyed|exact IH].
  - intros n g v' ms El. destruct (HL n g v' ms El) as (before & text & after' & v0 & (newer & lx & older & E1 & E2 & E3) & Ef' & HI & (_ & _ & Hd & HH)).
    exists (map table_of newer), (table_of lx), (map table_of older), before, text, after', v0.
    split; [rewrite E1, map_app; reflexivity|]. split; [now apply table_lists|]. split; [|auto].
    clear - E3. induction E3 as [|y newer Hy _ IH]; cbn [map]; constructor; [|exact IH]. intros o' X. apply table_lists in X. exact (Hy o' X).
  - intros n g El. destruct (newest_or_none ls n g) as [(o' & Ho')|HX]; [exfalso; exact (HN n g o' Ho' El)|].
    clear - HX. induction HX as [|y newer Hy _ IH]; cbn [map]; constructor; [|exact IH]. intros o' X. apply table_lists in X. exact (Hy o' X).
  - intros n g. reflexivity.
  - split; [reflexivity|]. split; [reflexivity|]. exists h, (zlen pre), body, l0. split; [reflexivity|]. split; [exact Hst|]. split; [exact HB|]. split; [now apply At_start with (pre := pre)|exact HV].
  - rewrite E2. reflexivity.
Qed.
Print Assumptions C96_sessions_exactly.

(** C96 (b).  If no id occurs twice in such a file (objects held in object streams included), lookups in
    any order and any number give each id's object - listed in a table or not, in an object stream or
    not - or null. *)
Theorem C96_any_objects : forall inflate ccitt decrypt f ver pre body rest o ls t l0 l,
  f = pre ++ body ++ rest -> header_of f (Ok (ver, zlen pre)) -> offset_of f (Ok o) -> Chain f o ls t ->
  dget t (bs "xrefs") = None -> dget t (bs "self") = None ->
  ModBody l0 body rest -> Forall2 (Viewed inflate ccitt decrypt) l0 l ->
  (forall c, hd_error rest = Some c -> is_digit c = false /\ c <> 115 /\ c <> 116) ->
  (forall n g o, newest ls n g o -> exists before text after v0 v ms,
     o = zlen before /\ f = before ++ text ++ after /\ IndObj n g v0 text after /\ Viewed inflate ccitt decrypt (n, g, v0) (n, g, v, ms) /\ In (n, g, v, ms) l) ->
  NoDup (flat_map ids_of l) ->
  forall D m k, (2 <= D)%nat -> 4 * zlen f + 8 <= Z.of_nat m -> (List.length ls <= k)%nat ->
  exists s, arun f (open_document inflate ccitt no_decrypt D m k) (mkA 0 [] rst0) = (Ok (ver, zlen pre, t), s) /\
  forall k' ids, (1 <= k')%nat ->
    fst (session inflate ccitt decrypt D m k' f s ids) =
    map (fun id => Ok (match provided l (fst id) (snd id) with Some v => v | None => ONull end)) ids.
Proof.
  intros inflate ccitt decrypt f ver pre body rest o ls t l0 l Ef Hh Hoff HC Hx1 Hx2 HB HV Hc HL Hnd D m k HD Hm Hk.
  set (find := fix find (r : list elem) (n g : Z) : option (obj * list (Z * obj)) :=
    match r with [] => None | (a, b, v, ms) :: r' => if (n =? a) && (g =? b) then Some (v, ms) else find r' n g end).
  assert (forall r n g v ms, find r n g = Some (v, ms) -> In (n, g, v, ms) r) as Hfind.
  { induction r as [|[[[a b] w] ms0] r IH]; intros n g v ms; cbn [find]; [discriminate|]. destruct ((n =? a) && (g =? b)) eqn:E.
    - intros X. injection X as -> ->. left. assert (n = a /\ g = b) as [-> ->] by (apply andb_true_iff in E; lia). reflexivity.
    - intros X. right. now apply IH. }
  assert (forall n g v ms, In (n, g, v, ms) l -> find l n g = Some (v, ms)) as Hfind2.
  { intros n g v ms He. assert (exists x, find l n g = Some x) as [[v' ms'] E].
    { clear - He. induction l as [|[[[a b] w] ms0] r IH]; [destruct He|]. cbn [find]. destruct ((n =? a) && (g =? b)) eqn:E; [eauto|]. destruct He as [X|X]; [injection X as -> -> -> ->; rewrite !Z.eqb_refl in E; discriminate|auto]. }
    assert ((n, g, v, ms) = (n, g, v', ms')) as X by (apply (same_elem l Hnd _ _ (n, g) He (Hfind _ _ _ _ _ E)); now left). injection X as <- <-. exact E. }
  set (row := fun (x : list listed) (n g : Z) => match last_listed true n x with Some (g', _) => g' =? g | None => false end).
  set (listed := fun n g => if existsb (fun x => row x n g) ls then find l n g else None).
  assert (forall n g, existsb (fun x => row x n g) ls = true -> exists o', newest ls n g o') as Hex.
  { clear. intros n g H. destruct (newest_or_none ls n g) as [X|X]; [exact X|]. exfalso. apply existsb_exists in H. destruct H as (x & Hx & Hr).
    rewrite Forall_forall in X. specialize (X x Hx). unfold row in Hr. destruct (last_listed true n x) as [[g' o']|] eqn:E; [|discriminate]. apply (X o'). do 2 f_equal. lia. }
  assert (forall n g o', newest ls n g o' -> existsb (fun x => row x n g) ls = true) as Hex2.
  { clear. intros n g o' (nw & sc & od & E1 & E2 & E3). apply existsb_exists. exists sc. split; [rewrite E1; apply in_or_app; right; now left|]. unfold row. rewrite E2. apply Z.eqb_refl. }
  destruct (C96_sessions_exactly inflate ccitt decrypt f ver pre body rest o ls t listed l0 l Ef Hh Hoff HC Hx1 Hx2 HB HV Hc) with (D := D) (m := m) (k := k) as (s & E & HS); auto.
  - intros n g v ms. unfold listed. destruct (existsb (fun x => row x n g) ls) eqn:Ee; [|discriminate]. intros Hf. apply Hfind in Hf.
    destruct (Hex n g Ee) as [o' Ho']. destruct (HL n g o' Ho') as (before & text & aft & v0 & v1 & ms1 & -> & E2 & HI & HV1 & Hin).
    assert ((n, g, v, ms) = (n, g, v1, ms1)) as X by (apply (same_elem l Hnd _ _ (n, g) Hf Hin); now left). injection X as -> ->. exists before, text, aft, v0. auto.
  - intros n g o' Ho'. unfold listed. rewrite (Hex2 n g o' Ho'). destruct (HL n g o' Ho') as (before & text & aft & v0 & v1 & ms1 & _ & _ & _ & _ & Hin). rewrite (Hfind2 _ _ _ _ Hin). discriminate.
  - exists s. split; [exact E|]. intros k' ids Hk'. rewrite (HS k' ids Hk').
    rewrite (mlooks_once listed (fun _ _ => None) l Hnd).
    + rewrite map_map. apply map_ext. intros [n g]. reflexivity.
    + intros n g v ms. unfold listed. destruct (existsb _ ls); [apply Hfind|discriminate].
    + intros n g w X. discriminate X.
    + apply minv0; auto. intros n g w X. discriminate X.
Qed.
Print Assumptions C96_any_objects.

(** ---- written files ---- *)
Lemma last_filter (sel : Z -> bool) n l : last_listed true n (filter (fun x => sel (li_num x)) l) = if sel n then last_listed true n l else None.
Proof.
  induction l as [|x l IH]; cbn [filter last_listed]; [now destruct (sel n)|]. destruct (sel (li_num x)) eqn:Es; cbn [last_listed]; rewrite IH.
  - destruct (sel n) eqn:En; [reflexivity|]. destruct (li_num x =? n) eqn:E; [|reflexivity]. assert (li_num x = n) by lia. congruence.
  - destruct (sel n) eqn:En; [|reflexivity]. destruct (last_listed true n l); [reflexivity|]. destruct (li_num x =? n) eqn:E; [|reflexivity]. assert (li_num x = n) by lia. congruence.
Qed.
Lemma last_free n l : last_listed true n (map (fun x => mkListed x 65535 0 false) l) = None.
Proof. induction l as [|x l IH]; cbn [map last_listed]; [reflexivity|]. rewrite IH. cbn [li_num li_used Bool.eqb]. now rewrite Bool.andb_false_r. Qed.
Lemma objs_fit : forall objs start, 0 <= start -> start + zlen (body_text objs) < 10 ^ 10 ->
  Forall (fun e : Z * Z * obj => 0 <= fst (fst e) /\ 0 <= snd (fst e) < 10 ^ 5) objs -> fits (listings start objs).
Proof.
  induction objs as [|[[n g] v] objs IH]; intros start H0 Hlt HF; [constructor|]. inversion HF as [|? ? (A & B) HF']; subst. cbn [fst snd] in *.
  cbn [listings body_text] in *. rewrite !zlen_app in Hlt. pose proof (zlen_nonneg (object_text n g v)). pose proof (zlen_nonneg (body_text objs)).
  change (zlen [10]) with 1 in Hlt.
  constructor; [cbn [li_num li_gen li_off]; lia|]. apply IH; auto; lia.
Qed.

Section Written.
  Variable inflate : list Z -> option (list Z).
  Variable ccitt : list Z -> fparams -> res (list Z).
  Variable deflate : list Z -> list Z.
  Hypothesis Hround : forall x, inflate (deflate x) = Some x.
  Variables (a b : Z).
  Hypotheses (Ha : is_digit a = true) (Hb : is_digit b = true).
  Variable sel : Z -> bool.
  Variable hidden : list Z.
  Variable r : mrev.
  Hypothesis Hok : mrev_ok r.
  Hypothesis Hhid : Forall (fun n => 0 <= n) hidden.
  Hypothesis Hxkeys : Forall (fun k => dget (mr_trailer r) k = None) [bs "XRefStm"; bs "xrefs"; bs "self"].
  Notation f := (hybrid_file deflate a b sel hidden r).
  Notation objs := (hobjs deflate a b r).
  Notation tbl := (htable deflate a b sel hidden r).
  Notation t := (htrailer deflate a b r).
  Notation elems := (relems deflate (hstart a b) None r).
  Hypothesis Hlt : zlen f < 10 ^ 10.

  Lemma hobjs_text n g v rest : In (n, g, v) objs -> IndObj n g v (object_text n g v) rest.
  Proof.
    unfold hobjs. intros H. apply in_app_or in H. destruct H as [H|[H|[]]].
    - exact (mobjs_text inflate ccitt deflate Hround a b Ha Hb r n g v rest Hok H).
    - injection H as <- <- <-. now apply (x_text inflate ccitt deflate Hround a b Ha Hb).
  Qed.
  Lemma hbody rest : nosep rest -> ModBody objs (version_line a b ++ body_text objs) rest.
  Proof.
    intros Hr. unfold version_line. replace ((bs "%PDF-" ++ [a; 46; b] ++ [10]) ++ body_text objs) with (37 :: (bs "PDF-" ++ [a; 46; b]) ++ [10] ++ body_text objs) by reflexivity.
    apply (body_prefix (fun x => 37 :: (bs "PDF-" ++ [a; 46; b]) ++ [10] ++ x)); [|reflexivity|].
    - intros s Hs. apply sep_line; [|exact Hs]. unfold is_digit in Ha, Hb. repeat constructor; cbn; lia.
    - pose proof hobjs_text as HT. revert HT. generalize objs. clear - Hr. intros os HT. induction os as [|[[n g] v] os IH]; cbn [body_text]; [constructor; [constructor|exact Hr]|].
      apply (MB_obj []); [constructor|apply HT; now left|]. apply (body_prefix (fun x => [10] ++ x)); [intros s; apply sep_lf|reflexivity|].
      apply IH. intros n0 g0 v0 rest0 X. apply HT. now right.
  Qed.
  Lemma htrailer_ok : printable (ODict t) /\ dget t (bs "Prev") = None /\ dget t (bs "xrefs") = None /\ dget t (bs "self") = None.
  Proof.
    destruct Hok as (_ & _ & _ & _ & HP & HK). rewrite Forall_forall in HK. pose proof Hxkeys as HX. rewrite Forall_forall in HX. unfold htrailer.
    assert (dget (mr_trailer r) (bs "XRefStm") = None) as H0 by (apply HX; now left). split.
    - apply printable_app; [exact HP| |].
      + split; [cbn [map fst]; constructor; [intros []|constructor]|]. cbn [fold_right fst snd]. split; [repeat constructor; lia|]. split; exact I.
      + rewrite Forall_forall. intros k Hk. cbn [dget]. destruct (eqlZ k (bs "XRefStm")) eqn:E; [|reflexivity]. exfalso. apply eqlZ_eq in E. subst k. apply dget_none_in in H0. exact (H0 Hk).
    - split; [|split]; rewrite dget_app; try reflexivity; first [apply HK; cbn [In]; tauto|apply HX; cbn [In]; tauto].
  Qed.
  Lemma hchain : Chain f (hstart a b + zlen (body_text objs)) [tbl] t.
  Proof.
    destruct htrailer_ok as (HP & H1 & _). apply Ch_last; [|exact H1].
    exists (version_line a b ++ body_text objs), (section_text tbl t), (end_text (hstart a b + zlen (body_text objs))).
    split; [unfold hybrid_file; now rewrite <- !app_assoc|]. split; [now rewrite zlen_app|].
    apply section_ok; [|exact HP]. unfold htable. apply Forall_app. split.
    - assert (fits (listings (hstart a b) objs)) as HF.
      { apply objs_fit; [apply zlen_nonneg| |].
        - unfold hybrid_file in Hlt. rewrite !zlen_app in Hlt. unfold hstart. pose proof (zlen_nonneg (section_text tbl t)). pose proof (zlen_nonneg (end_text (zlen (version_line a b) + zlen (body_text objs)))). fold (hstart a b) in *. unfold hstart in *. lia.
        - unfold hobjs. apply Forall_app. split.
          + eapply Forall_impl; [|exact (mobjs_gens deflate a b Ha Hb r Hok)]. cbv beta. intros e X. lia.
          + constructor; [|constructor]. cbn [fst snd]. destruct Hok as (_ & _ & X & _). lia. }
      unfold fits in HF. rewrite Forall_forall in HF |- *. intros x Hx. apply filter_In in Hx. exact (HF x (proj1 Hx)).
    - rewrite Forall_forall in Hhid |- *. intros x Hx. apply in_map_iff in Hx. destruct Hx as (n & <- & Hn). cbn [li_num li_gen li_off]. specialize (Hhid n Hn). lia.
  Qed.
  Lemma hlisted n g o : newest [tbl] n g o -> exists before after v, o = zlen before /\ f = before ++ object_text n g v ++ after /\ In (n, g, v) objs.
  Proof.
    intros (newer & l' & older & E1 & E2 & _). destruct newer as [|z newer]; [|destruct newer; discriminate]. injection E1 as <- <-.
    unfold htable in E2. rewrite last_listed_app, last_free, last_filter in E2. destruct (sel n); [|discriminate].
    destruct (listed_any _ _ _ _ _ E2) as (v & before & after & H1 & H2 & ->).
    exists (version_line a b ++ before). eexists. exists v. split; [now rewrite zlen_app|]. split; [|exact H1]. unfold hybrid_file. rewrite H2 at 1. rewrite <- !app_assoc. reflexivity.
  Qed.
  Lemma helem n g v : In (n, g, v) objs -> exists ms, In (n, g, v, ms) elems /\ Held inflate ccitt v ms.
  Proof.
    pose proof (rviewed inflate ccitt deflate Hround (hstart a b) None r Hok) as HV. fold objs. unfold rev_objects in HV. fold (hobjs deflate a b r) in HV.
    induction HV as [|[[n0 g0] v0] [[[n1 g1] v1] ms] l l' (E1 & E2 & E3 & E4) HV IH]; [intros []|].
    intros [X|X]; [|destruct (IH X) as (ms' & H1 & H2); exists ms'; split; [now right|exact H2]]. injection X as -> -> ->. injection E3 as <-. subst. exists ms. split; [now left|exact E4].
  Qed.
  Lemma hspread : flat_map spread elems = hybrid_contents deflate a b r.
  Proof.
    unfold relems, hybrid_contents, rev_contents. rewrite !flat_map_app. f_equal; [|f_equal].
    - induction (mr_objs r) as [|[[n g] v] l IHl]; cbn [map flat_map]; [reflexivity|]. cbn [spread map app]. now rewrite IHl.
    - induction (mr_stms r) as [|[s ms] l IHl]; cbn [map flat_map]; [reflexivity|]. rewrite IHl. reflexivity.
  Qed.
End Written.

(** C96 (c).  A written hybrid-reference file, where the table lists any of the objects that stand in the
    file themselves, and lists any numbers as free (as hidden objects should be): it opens with the
    table's trailer, and every sequence of lookups gives each object written, those hidden in object
    streams included, and null for other ids. *)
Theorem C96_written : forall inflate ccitt deflate a b sel hidden r,
  (forall x, inflate (deflate x) = Some x) -> is_digit a = true -> is_digit b = true ->
  mrev_ok r -> Forall (fun n => 0 <= n) hidden -> Forall (fun k => dget (mr_trailer r) k = None) [bs "XRefStm"; bs "xrefs"; bs "self"] ->
  zlen (hybrid_file deflate a b sel hidden r) < 10 ^ 10 -> NoDup (map fst (hybrid_contents deflate a b r)) ->
  forall D m k, (2 <= D)%nat -> 4 * zlen (hybrid_file deflate a b sel hidden r) + 8 <= Z.of_nat m -> (1 <= k)%nat ->
  exists s, arun (hybrid_file deflate a b sel hidden r) (open_document inflate ccitt no_decrypt D m k) (mkA 0 [] rst0) =
              (Ok ([a; 46; b], 0, htrailer deflate a b r), s) /\
  forall k' ids, (1 <= k')%nat ->
    fst (session inflate ccitt no_decrypt D m k' (hybrid_file deflate a b sel hidden r) s ids) =
    map (fun id => Ok (match find_obj (hybrid_contents deflate a b r) (fst id) (snd id) with Some v => v | None => ONull end)) ids.
Proof.
  intros inflate ccitt deflate a b sel hidden r Hround Ha Hb Hok Hhid Hxk Hlt Hnd D m k HD Hm Hk.
  destruct (htrailer_ok inflate ccitt deflate Hround a b Ha Hb hidden r Hok Hxk) as (HP & HT1 & HT2 & HT3).
  set (f := hybrid_file deflate a b sel hidden r) in *.
  set (sec := section_text (htable deflate a b sel hidden r) (htrailer deflate a b r) ++ end_text (hstart a b + zlen (body_text (hobjs deflate a b r)))).
  assert (f = (version_line a b ++ body_text (hobjs deflate a b r)) ++ sec) as Ef by (unfold f, hybrid_file, sec; now rewrite <- !app_assoc).
  assert (NoDup (flat_map ids_of (relems deflate (hstart a b) None r))) as Hnd2 by (rewrite spread_ids, hspread; exact Hnd).
  destruct (C96_any_objects inflate ccitt no_decrypt f [a; 46; b] [] (version_line a b ++ body_text (hobjs deflate a b r)) sec (hstart a b + zlen (body_text (hobjs deflate a b r))) [htable deflate a b sel hidden r] (htrailer deflate a b r)
     (hobjs deflate a b r) (relems deflate (hstart a b) None r) Ef) with (D := D) (m := m) (k := k) as (s & E & HS); auto.
  - apply (header_written _ _ _ (body_text (hobjs deflate a b r) ++ sec) Ha Hb); [rewrite Ef; now rewrite <- app_assoc|]. rewrite Ef. unfold sec, section_text, end_text. rewrite !zlen_app.
    repeat match goal with |- context [zlen (bs ?x)] => let n := eval vm_compute in (zlen (bs x)) in change (zlen (bs x)) with n end. change (zlen [10]) with 1.
    repeat match goal with |- context [zlen ?x] => lazymatch goal with H : 0 <= zlen x |- _ => fail | _ => pose proof (zlen_nonneg x) end end. lia.
  - rewrite Ef. unfold sec. rewrite !app_assoc. apply offset_written. unfold hstart. pose proof (zlen_nonneg (version_line a b)). pose proof (zlen_nonneg (body_text (hobjs deflate a b r))). lia.
  - exact (hchain inflate ccitt deflate Hround a b Ha Hb sel hidden r Hok Hhid Hxk Hlt).
  - apply (hbody inflate ccitt deflate Hround a b Ha Hb r Hok). reflexivity.
  - apply (rviewed inflate ccitt deflate Hround (hstart a b) None r Hok).
  - intros c X. unfold sec, section_text in X. injection X as <-. repeat split; discriminate.
  - intros n g o' Hn. destruct (hlisted deflate a b sel hidden r n g o' Hn) as (before & after & v & H1 & H2 & H3).
    destruct (helem inflate ccitt deflate Hround a b r Hok n g v H3) as (ms & H5 & H6). exists before, (object_text n g v), after, v, v, ms.
    split; [exact H1|]. split; [exact H2|]. split; [now apply (hobjs_text inflate ccitt deflate Hround a b Ha Hb r Hok)|]. repeat split; auto.
  - exists s. split; [exact E|]. intros k' ids Hk'. rewrite (HS k' ids Hk'). apply map_ext. intros [n g]. cbn [fst snd]. f_equal.
    rewrite provided_find, hspread. reflexivity.
Qed.
Print Assumptions C96_written.

(** The catalog (1) and the object stream (10) are listed; 2 and 3 are hidden; the cross-reference stream
    (11) is not listed. *)
Example C96_ex ccitt : exists s m,
  arun (hybrid_file store_only 49 53 (fun n => n <=? 10) [2; 3] mex_old) (open_document Some ccitt no_decrypt 2 m 1) (mkA 0 [] rst0) =
    (Ok (bs "1.5", 0, [(bs "Root", ORef 1 0); (bs "Size", OInt 12); (bs "XRefStm", OInt 196)]), s) /\
  fst (session Some ccitt no_decrypt 2 m 1 (hybrid_file store_only 49 53 (fun n => n <=? 10) [2; 3] mex_old) s [(3, 0); (9, 0); (1, 0); (2, 0); (3, 0)]) =
    [Ok (OInt 5); Ok ONull; Ok (ODict [(bs "Type", OName (bs "Catalog")); (bs "Pages", ORef 2 0)]); Ok (ODict [(bs "Kids", OArr [ORef 3 0]); (bs "Count", OInt 0)]); Ok (OInt 5)].
Proof.
  destruct (C96_written Some ccitt store_only 49 53 (fun n => n <=? 10) [2; 3] mex_old (fun x => eq_refl) eq_refl eq_refl mex_old_ok)
    with (D := 2%nat) (m := Z.to_nat (4 * zlen (hybrid_file store_only 49 53 (fun n => n <=? 10) [2; 3] mex_old) + 8)) (k := 1%nat)
    as (s & E & HS); [repeat constructor; lia|repeat constructor|vm_compute; reflexivity| |lia|rewrite Z2Nat.id; [lia|pose proof (zlen_nonneg (hybrid_file store_only 49 53 (fun n => n <=? 10) [2; 3] mex_old)); lia]|lia|].
  - assert (map fst (hybrid_contents store_only 49 53 mex_old) = [(1, 0); (10, 0); (2, 0); (3, 0); (11, 0)]) as -> by reflexivity.
    repeat (constructor; [cbn [In]; intros X; repeat (destruct X as [X|X]; [discriminate X|]); exact X|]). constructor.
  - eexists _, _. split; [rewrite E; do 4 f_equal; reflexivity|]. rewrite (HS 1%nat _ ltac:(lia)). reflexivity.
Qed.
