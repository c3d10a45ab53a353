(** C92: free rows of tables are ignored: deleted objects are still there. *)
From Coq Require Import String.
From Verif Require Import Prelude M_Prog L_Prog M_Parser M_Filters M_Document S_Syntax S_Print L_Print S_Document S_Xref S_Open P_Header P_StartXref P_Xref L_User P_Registry P_Locate P_Open S_Write P_Write S_Freed.
Local Open Scope Z_scope.
Local Open Scope prog_scope.

Lemma free_listed l l' n : Forall (fun x => li_used x = false) l -> last_listed true n (l ++ l') = last_listed true n l'.
Proof.
  induction 1 as [|x l Hx _ IH]; [reflexivity|]. cbn [app last_listed]. rewrite IH, Hx. cbn [Bool.eqb]. rewrite Bool.andb_false_r.
  destruct (last_listed true n l'); reflexivity.
Qed.
Lemma upd_free x : upd_ok x -> Forall (fun y => li_used y = false) (up_free x).
Proof. intros [_ H]. eapply Forall_impl; [|exact H]. intros y Y. apply Y. Qed.

Section Files.
  Variables (a b : Z).
  Notation W ups := (fst (write_free a b ups)).
  Fixpoint ftables (ups : list update) : list (list listed) :=
    match ups with [] => [] | x :: older => up_listed (zlen (W older)) x :: ftables older end.
  Lemma wf_cons x older : W (x :: older) = W older ++ up_text (zlen (W older)) (trailer_with (snd (write_free a b older)) (rv_trailer (up_rev x))) x.
  Proof. cbn [write_free]. destruct (write_free a b older). reflexivity. Qed.
  Lemma pf_cons x older : snd (write_free a b (x :: older)) = Some (zlen (W older) + zlen (body_text (rv_objs (up_rev x)))).
  Proof. cbn [write_free]. destruct (write_free a b older). reflexivity. Qed.
  Lemma Wf_pos ups : 0 < zlen (W ups).
  Proof. induction ups as [|x older IH]; [reflexivity|]. rewrite wf_cons, zlen_app. pose proof (zlen_nonneg (up_text (zlen (W older)) (trailer_with (snd (write_free a b older)) (rv_trailer (up_rev x))) x)). lia. Qed.

  Lemma fchain : forall ups, ups <> [] -> Forall upd_ok ups -> zlen (W ups) < 10 ^ 10 ->
    forall post o, snd (write_free a b ups) = Some o -> 0 < o /\ Chain (W ups ++ post) o (ftables ups) (free_trailer a b ups).
  Proof.
    induction ups as [|x older IH]; intros Hne HF Hlt post o Eo; [congruence|]. inversion HF as [|? ? Hr HF']; subst.
    destruct Hr as ((R1 & R2 & R3 & R4 & R5 & R6) & Hfr). rewrite pf_cons in Eo. injection Eo as <-.
    rewrite wf_cons in Hlt |- *. set (t := trailer_with (snd (write_free a b older)) (rv_trailer (up_rev x))) in *.
    pose proof (Wf_pos older) as HW. pose proof (zlen_nonneg (body_text (rv_objs (up_rev x)))) as HB.
    split; [lia|].
    assert (forall p, snd (write_free a b older) = Some p -> 0 < p) as Hp.
    { intros p Ep. destruct older as [|r2 o2]; [discriminate|]. rewrite zlen_app in Hlt.
      apply (IH ltac:(discriminate) HF' ltac:(pose proof (zlen_nonneg (up_text (zlen (W (r2 :: o2))) t x)); lia) [] p Ep). }
    assert (section_at ((W older ++ up_text (zlen (W older)) t x) ++ post) (zlen (W older) + zlen (body_text (rv_objs (up_rev x))))
      (up_listed (zlen (W older)) x) t) as HS.
    { exists (W older ++ body_text (rv_objs (up_rev x))), (section_text (up_listed (zlen (W older)) x) t),
        (end_text (zlen (W older) + zlen (body_text (rv_objs (up_rev x)))) ++ post). unfold up_text. split; [now rewrite <- !app_assoc|].
      split; [now rewrite zlen_app|]. apply section_ok.
      - apply Forall_app. split; [eapply Forall_impl; [|exact Hfr]; intros y (_ & Y); exact Y|].
        apply listings_fit; auto; [lia|]. unfold up_text in Hlt. rewrite !zlen_app in Hlt.
        pose proof (zlen_nonneg (section_text (up_listed (zlen (W older)) x) t)). pose proof (zlen_nonneg (end_text (zlen (W older) + zlen (body_text (rv_objs (up_rev x)))))). lia.
      - apply trailer_printable; auto. intros p Ep. specialize (Hp p Ep). lia. }
    cbn [ftables free_trailer]. fold t.
    destruct (snd (write_free a b older)) as [p|] eqn:Ep.
    - destruct older as [|r2 o2]; [discriminate|].
      eapply Ch_prev with (p := p); [exact HS|unfold t; cbn [trailer_with]; rewrite dget_app by exact R4; reflexivity|apply Hp; reflexivity|].
      rewrite <- app_assoc. apply (IH ltac:(discriminate) HF').
      + rewrite zlen_app in Hlt. pose proof (zlen_nonneg (up_text (zlen (W (r2 :: o2))) t x)). lia.
      + reflexivity.
    - destruct older as [|r2 o2]; [|cbn [write_free] in Ep; destruct (write_free a b o2); discriminate].
      apply Ch_last; [exact HS|exact R4].
  Qed.

  Lemma f_listed content : forall ups, Forall upd_ok ups -> forall post n g v, current (map up_rev ups) n g = Some v ->
    (exists o, newest (ftables ups) n g o /\ stands content (W ups ++ post) o n g v) /\ no_objstm v.
  Proof.
    induction ups as [|x older IH]; intros HF post n g v; cbn [map current]; [discriminate|].
    inversion HF as [|? ? Hx HF']; subst. pose proof (upd_free x Hx) as Hfree. destruct Hx as ((R1 & R2 & _) & _). rewrite wf_cons.
    destruct (find_obj (rv_objs (up_rev x)) n g) as [w|] eqn:E; intros H.
    - injection H as ->. destruct (listed_found _ (zlen (W older)) _ _ _ R2 E) as (o & before & after & L1 & L2 & L3 & L4).
      rewrite Forall_forall in R1. destruct (R1 _ L4) as (A & B & C). cbn [fst snd] in A, B, C.
      split; [exists o; split|apply (object_text_ok n g v [] A ltac:(lia) C)].
      + exists [], (up_listed (zlen (W older)) x), (ftables older). split; [reflexivity|].
        split; [unfold up_listed; rewrite free_listed by exact Hfree; exact L1|constructor].
      + set (t := trailer_with (snd (write_free a b older)) (rv_trailer (up_rev x))).
        exists (W older ++ before), (object_text n g v), (after ++ (section_text (up_listed (zlen (W older)) x) t ++ end_text (zlen (W older) + zlen (body_text (rv_objs (up_rev x))))) ++ post).
        split; [unfold up_text; rewrite L2 at 1; now rewrite <- !app_assoc|]. split; [rewrite zlen_app; lia|].
        apply OT_direct. apply object_text_ok; auto. lia.
    - rewrite <- app_assoc. destruct (IH HF' (up_text (zlen (W older)) (trailer_with (snd (write_free a b older)) (rv_trailer (up_rev x))) x ++ post) n g v H) as [(o & (newer & l & old & E1 & E2 & E3) & HS) HO].
      split; [|exact HO]. exists o. split; [|exact HS]. exists (up_listed (zlen (W older)) x :: newer), l, old. cbn [ftables]. rewrite E1.
      split; [reflexivity|]. split; [exact E2|]. constructor; [|exact E3]. intros o' X. unfold up_listed in X. rewrite free_listed in X by exact Hfree.
      apply listed_find in X. destruct X as [w X]. congruence.
  Qed.
  Lemma Wf_version ups : exists rest, W ups = version_line a b ++ rest.
  Proof.
    induction ups as [|r older [rest IH]]; [exists []; cbn [write_free fst]; now rewrite app_nil_r|]. rewrite wf_cons, IH, <- app_assoc. eexists. reflexivity.
  Qed.
  Lemma up_text_len start t x : 22 <= zlen (up_text start t x).
  Proof.
    unfold up_text, section_text, end_text. rewrite !zlen_app.
    repeat match goal with |- context [zlen (bs ?x)] => let n := eval vm_compute in (zlen (bs x)) in change (zlen (bs x)) with n end.
    change (zlen [10]) with 1.
    pose proof (zlen_nonneg (body_text (rv_objs (up_rev x)))). pose proof (zlen_nonneg (flat_map row_text (up_listed start x))).
    pose proof (zlen_nonneg (entries_text t)). pose proof (zlen_nonneg (dec (start + zlen (body_text (rv_objs (up_rev x)))))). lia.
  Qed.
  Lemma f_keys ups k : Forall upd_ok ups -> k = bs "xrefs" \/ k = bs "self" -> dget (free_trailer a b ups) k = None.
  Proof.
    intros HF Hk. destruct ups as [|x older]; [reflexivity|]. inversion HF as [|? ? ((_ & _ & _ & _ & R5 & R6) & _) _]; subst. cbn [free_trailer].
    destruct (snd (write_free a b older)); cbn [trailer_with].
    - destruct Hk as [-> | ->]; rewrite dget_app by assumption; reflexivity.
    - destruct Hk as [-> | ->]; assumption.
  Qed.
  Lemma ftables_len ups : List.length (ftables ups) = List.length ups.
  Proof. induction ups; cbn [ftables List.length]; auto. Qed.
End Files.

(** C92.  A file whose tables have any free rows, in any revisions, opens with the newest trailer, and every object of every revision
    is found, with the newest value written for its id, whether or not its number is listed as free, in this table or a newer one. *)
Theorem C92_free_rows : forall inflate ccitt a b ups,
  is_digit a = true -> is_digit b = true -> ups <> [] -> Forall upd_ok ups -> zlen (free_file a b ups) < 10 ^ 10 ->
  forall D m k, (0 < D)%nat -> 4 * zlen (free_file a b ups) + 8 <= Z.of_nat m -> (List.length ups <= k)%nat ->
  exists s, arun (free_file a b ups) (open_document inflate ccitt no_decrypt D m k) (mkA 0 [] rst0) =
              (Ok ([a; 46; b], 0, free_trailer a b ups), s) /\
  forall k' ids, (2 <= k')%nat -> Forall (fun id => current (map up_rev ups) (fst id) (snd id) <> None) ids ->
    map Some (fst (session inflate ccitt no_decrypt D m k' (free_file a b ups) s ids)) =
    map (fun id => match current (map up_rev ups) (fst id) (snd id) with Some v => Some (Ok v) | None => None end) ids.
Proof.
  intros inflate ccitt a b ups Ha Hb Hne HF Hlt D m k HD Hm Hk. unfold free_file in *.
  destruct ups as [|x older]; [congruence|]. set (o := zlen (fst (write_free a b older)) + zlen (body_text (rv_objs (up_rev x)))).
  destruct (fchain a b (x :: older) Hne HF Hlt [] o (pf_cons a b x older)) as [Ho HC]. rewrite app_nil_r in HC.
  assert (header_of (fst (write_free a b (x :: older))) (Ok ([a; 46; b], 0))) as Hh.
  { destruct (Wf_version a b (x :: older)) as [rest Er]. apply (header_written a b _ rest); auto.
    rewrite wf_cons, zlen_app. pose proof (up_text_len (zlen (fst (write_free a b older))) (trailer_with (snd (write_free a b older)) (rv_trailer (up_rev x))) x). pose proof (Wf_pos a b older). lia. }
  assert (offset_of (fst (write_free a b (x :: older))) (Ok o)) as Hoff.
  { rewrite wf_cons. unfold up_text. rewrite !app_assoc. apply offset_written. unfold o in Ho. lia. }
  destruct (C76_listed_objects inflate ccitt _ _ _ _ _ _ (current (map up_rev (x :: older))) Hh Hoff HC
    (f_keys a b (x :: older) _ HF (or_introl eq_refl)) (f_keys a b (x :: older) _ HF (or_intror eq_refl))) with (D := D) (m := m) (k := k) as (s & E & HS); auto.
  - intros n g v Hv. destruct (f_listed a b (current (map up_rev (x :: older))) (x :: older) HF [] n g v Hv) as [H _]. now rewrite app_nil_r in H.
  - intros n g v Hv. apply (f_listed a b (current (map up_rev (x :: older))) (x :: older) HF [] n g v Hv).
  - rewrite ftables_len. exact Hk.
  - exists s. split; [exact E|]. intros k' ids Hk' Hids. rewrite (HS k' ids Hk' Hids), map_map. apply map_ext_in.
    intros [n g] Hin. cbn [fst snd]. rewrite Forall_forall in Hids. specialize (Hids _ Hin). cbn [fst snd] in Hids.
    unfold denoted. destruct (current (map up_rev (x :: older)) n g); [reflexivity|congruence].
Qed.

(** That an object deleted by the newest update is null is therefore false, for every document and every object of it: append the
    update that deletes it. *)
Theorem C92_deleted_refuted : forall inflate ccitt a b revs num gen v t,
  is_digit a = true -> is_digit b = true -> Forall rev_ok revs -> rev_ok (mkRev [] t) -> current revs num gen = Some v ->
  0 <= num -> 0 <= gen + 1 < 10 ^ 5 ->
  let del := mkUpd (mkRev [] t) [mkListed num (gen + 1) 0 false] in
  let ups := del :: map (fun r => mkUpd r []) revs in
  zlen (free_file a b ups) < 10 ^ 10 ->
  freed ups num /\
  forall D m k, (0 < D)%nat -> 4 * zlen (free_file a b ups) + 8 <= Z.of_nat m -> (S (List.length revs) <= k)%nat ->
  exists s, arun (free_file a b ups) (open_document inflate ccitt no_decrypt D m k) (mkA 0 [] rst0) = (Ok ([a; 46; b], 0, free_trailer a b ups), s) /\
    fst (session inflate ccitt no_decrypt D m 2 (free_file a b ups) s [(num, gen)]) = [Ok v].
Proof.
  intros inflate ccitt a b revs num gen v t Ha Hb HF Ht Hc Hn Hg del ups Hlt. split; [left; left; reflexivity|].
  intros D m k HD Hm Hk.
  assert (map up_rev ups = mkRev [] t :: revs) as Em.
  { unfold ups. cbn [map up_rev]. f_equal. rewrite map_map. cbn [up_rev]. apply map_id. }
  assert (current (map up_rev ups) num gen = Some v) as Hcur by (rewrite Em; cbn [current rv_objs find_obj]; exact Hc).
  destruct (C92_free_rows inflate ccitt a b ups Ha Hb ltac:(discriminate)) with (D := D) (m := m) (k := k) as (s & E & HS); auto.
  - constructor.
    + split; [exact Ht|]. repeat constructor; cbn [li_num li_gen li_off]; lia.
    + apply Forall_map. eapply Forall_impl; [|exact HF]. intros r Hr. split; [exact Hr|constructor].
  - unfold ups. cbn [List.length]. rewrite map_length. exact Hk.
  - exists s. split; [exact E|]. apply somes_inj. rewrite HS; [|lia|repeat constructor; cbn [fst snd]; congruence].
    cbn [map fst snd]. rewrite Hcur. reflexivity.
Qed.

(** The file a writer makes first: the free row of object 0 (or any free rows) and the objects.  Lookups of any ids, in any order, give the
    object, or null: an id that is only listed as free is null. *)
Theorem C92_written_once : forall inflate ccitt a b x,
  is_digit a = true -> is_digit b = true -> upd_ok x -> zlen (free_file a b [x]) < 10 ^ 10 ->
  forall D m k, (0 < D)%nat -> 4 * zlen (free_file a b [x]) + 8 <= Z.of_nat m -> (1 <= k)%nat ->
  exists s, arun (free_file a b [x]) (open_document inflate ccitt no_decrypt D m k) (mkA 0 [] rst0) =
              (Ok ([a; 46; b], 0, rv_trailer (up_rev x)), s) /\
  forall k' ids, (2 <= k')%nat ->
    fst (session inflate ccitt no_decrypt D m k' (free_file a b [x]) s ids) =
    map (fun id => Ok (match find_obj (rv_objs (up_rev x)) (fst id) (snd id) with Some v => v | None => ONull end)) ids.
Proof.
  intros inflate ccitt a b x Ha Hb Hx Hlt D m k HD Hm Hk. unfold free_file in *.
  assert (Forall upd_ok [x]) as HF by (constructor; [exact Hx|constructor]).
  set (o := zlen (version_line a b) + zlen (body_text (rv_objs (up_rev x)))).
  destruct (fchain a b [x] ltac:(discriminate) HF Hlt [] o eq_refl) as [Ho HC]. rewrite app_nil_r in HC.
  pose proof (upd_free x Hx) as Hfree. pose proof Hx as ((R1 & R2 & _) & _).
  set (r := up_rev x) in *. set (l := up_listed (zlen (version_line a b)) x) in *.
  set (sec := section_text l (rv_trailer r) ++ end_text o).
  assert (fst (write_free a b [x]) = version_line a b ++ body_text (rv_objs r) ++ sec) as Ew.
  { rewrite wf_cons. reflexivity. }
  assert (header_of (fst (write_free a b [x])) (Ok ([a; 46; b], 0))) as Hh.
  { apply (header_written a b _ (body_text (rv_objs r) ++ sec)); auto.
    rewrite wf_cons, zlen_app. change (fst (write_free a b [])) with (version_line a b).
    pose proof (up_text_len (zlen (version_line a b)) (trailer_with (snd (write_free a b [])) (rv_trailer (up_rev x))) x). pose proof (zlen_nonneg (version_line a b)). lia. }
  assert (offset_of (fst (write_free a b [x])) (Ok o)) as Hoff.
  { rewrite Ew. unfold sec. rewrite !app_assoc. apply offset_written. lia. }
  assert (Sep (version_line a b)) as Hsep.
  { unfold version_line. replace (bs "%PDF-" ++ [a; 46; b] ++ [10]) with (37 :: (bs "PDF-" ++ [a; 46; b]) ++ [10] ++ []) by reflexivity.
    apply (Sep_comment (bs "PDF-" ++ [a; 46; b]) [10] []); [|left; reflexivity|constructor].
    unfold is_digit in Ha, Hb. repeat constructor; cbn; lia. }
  assert (exists body, BodyText (current [r]) (rv_objs r) body sec /\ fst (write_free a b [x]) = [] ++ body ++ sec) as (body & HB & Ef).
  { pose proof (body_ok (current [r]) sec eq_refl (rv_objs r) (version_line a b) R1 Hsep) as HB. rewrite Ew.
    destruct (rv_objs r) as [|[[n g] v] rs].
    - exists (version_line a b). split; [exact HB|]. reflexivity.
    - eexists. split; [exact HB|]. cbn [body_text app]. rewrite <- !app_assoc. reflexivity. }
  assert (forall n g, current [r] n g = find_obj (rv_objs r) n g) as Ec by (intros n g; cbn [current]; now destruct (find_obj (rv_objs r) n g)).
  destruct (C76_any_objects inflate ccitt (fst (write_free a b [x])) [a; 46; b] [] body sec o (ftables a b [x]) (free_trailer a b [x]) (current [r]) (rv_objs r) Ef Hh Hoff HC
    (f_keys a b [x] _ HF (or_introl eq_refl)) (f_keys a b [x] _ HF (or_intror eq_refl)) HB) with (D := D) (m := m) (k := k) as (s & E & HS); auto.
  - intros c X. inversion X. repeat split; discriminate.
  - intros n g v. rewrite Ec. now apply find_In.
  - intros n g o' (newer & l' & older & E1 & E2 & E3). change (ftables a b [x]) with [l] in E1. destruct newer as [|y newer]; [|destruct newer; discriminate].
    injection E1 as <- <-. pose proof E2 as E2'. unfold l, up_listed in E2'. rewrite free_listed in E2' by exact Hfree.
    destruct (listed_find _ _ _ _ _ E2') as [v Hv]. exists v. fold r in Hv. split; [now rewrite Ec|].
    assert (current (map up_rev [x]) n g = Some v) as Hv' by (cbn [map]; fold r; now rewrite Ec).
    destruct (f_listed a b (current [r]) [x] HF [] n g v Hv') as [(o2 & (nw & l2 & od & F1 & F2 & F3) & HSt) _]. rewrite app_nil_r in HSt.
    change (ftables a b [x]) with [l] in F1. destruct nw as [|y nw]; [|destruct nw; discriminate]. injection F1 as <- <-. rewrite E2 in F2. injection F2 as <-. exact HSt.
  - intros n g z Hz. destruct (f_listed a b (current [r]) [x] HF [] n g (OInt z) Hz) as [(o2 & HN & _) _]. eauto.
  - intros n g v Hv. apply (f_listed a b (current [r]) [x] HF [] n g v Hv).
  - exists s. split; [exact E|]. intros k' ids Hk'. rewrite (HS k' ids Hk'). apply map_ext. intros [n g]. cbn [fst snd]. unfold denoted. now rewrite Ec.
Qed.

(** Three updates: the first with the row of object 0, the second replaces 1 and deletes 2, the third deletes 3. *)
Definition ex_ups : list update :=
  [mkUpd (mkRev [] [(bs "Root", ORef 1 0); (bs "Size", OInt 5)]) [mkListed 0 65535 3 false; mkListed 3 8 0 false];
   mkUpd ex_new [mkListed 2 1 0 false]; mkUpd ex_old [mkListed 0 65535 0 false]].
Example C92_ex_ok : Forall upd_ok ex_ups /\ freed ex_ups 2 /\ freed ex_ups 3 /\ current (map up_rev ex_ups) 2 0 = find_obj (rv_objs ex_old) 2 0.
Proof.
  split; [|split; [|split]].
  - constructor; [|constructor; [|constructor; [|constructor]]]; (split; [|repeat constructor; cbn; lia]); [|apply ex_new_ok|apply ex_old_ok].
    unfold rev_ok. cbn [rv_objs rv_trailer up_rev map fst snd writable printable fold_right].
    assert (forall s, forallb (fun c => (0 <=? c) && (c <? 256)) s = true -> bytes_ok s) as Hb.
    { intros s H. rewrite forallb_forall in H. apply Forall_forall. intros c Hc. specialize (H c Hc). unfold byte_ok. lia. }
    wr; first [apply Hb; reflexivity | reflexivity | discriminate | (vm_compute; discriminate) | idtac].
  - right. split; [intros []|]. left. left. reflexivity.
  - left. right. left. reflexivity.
  - reflexivity.
Qed.
Example C92_ex : forall inflate ccitt, exists s,
  arun (free_file 49 55 ex_ups) (open_document inflate ccitt no_decrypt 5 (Z.to_nat 8000) 9) (mkA 0 [] rst0) = (Ok (bs "1.7", 0, free_trailer 49 55 ex_ups), s) /\
  fst (session inflate ccitt no_decrypt 5 (Z.to_nat 8000) 2 (free_file 49 55 ex_ups) s [(2, 0); (1, 0)]) =
  [Ok (OStream [(bs "Length", OInt 5); (bs "Kind", OName (bs "A b"))] (bs "hello")); Ok (ODict [(bs "Type", OName (bs "Catalog")); (bs "Pages", ORef 4 0)])].
Proof.
  intros inflate ccitt. assert (zlen (free_file 49 55 ex_ups) < 1900) as Hl by (vm_compute; reflexivity).
  destruct (C92_free_rows inflate ccitt 49 55 ex_ups eq_refl eq_refl ltac:(discriminate) (proj1 C92_ex_ok) ltac:(lia) 5 (Z.to_nat 8000) 9 ltac:(lia) ltac:(lia) ltac:(cbn; lia)) as (s & E & HS).
  exists s. split; [exact E|]. apply somes_inj. rewrite HS; [reflexivity|lia|repeat constructor; cbn; discriminate].
Qed.
Print Assumptions C92_free_rows.
Print Assumptions C92_deleted_refuted.
Print Assumptions C92_written_once.
