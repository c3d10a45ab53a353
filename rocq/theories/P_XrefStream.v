(** Cross-reference streams: C20, C21, C22. *)
From Coq Require Import String.
From Verif Require Import Prelude M_Prog M_Parser L_Buffer M_Filters M_Document S_XrefStream S_Xref L_Xref L_Prog.
Local Open Scope Z_scope.

Lemma be_len w : forall z, List.length (be w z) = w.
Proof. induction w; intros z; cbn [be]; auto. rewrite app_length, IHw. cbn. lia. Qed.
Lemma big_endian_snoc l x : big_endian (l ++ [x]) = big_endian l * 256 + x.
Proof. unfold big_endian. rewrite fold_left_app. reflexivity. Qed.
Lemma be_value w : forall z, 0 <= z < 256 ^ Z.of_nat w -> big_endian (be w z) = z.
Proof.
  induction w as [|w IH]; intros z Hz; cbn [be].
  - change (256 ^ Z.of_nat 0) with 1 in Hz. cbn. lia.
  - rewrite Nat2Z.inj_succ, Z.pow_succ_r in Hz by lia. rewrite big_endian_snoc, IH.
    + pose proof (Z.div_mod z 256 ltac:(lia)). lia.
    + split; [apply Z.div_pos; lia|apply Z.div_lt_upper_bound; lia].
Qed.
Lemma zlen_be w z : zlen (be w z) = Z.of_nat w.
Proof. unfold zlen. now rewrite be_len. Qed.

Lemma slice_mid {A} (a b c : list A) : slice (a ++ b ++ c) (zlen a) (zlen a + zlen b) = b.
Proof.
  unfold slice, zlen. rewrite <- Nat2Z.inj_add. rewrite !Nat2Z.id.
  replace (Z.to_nat (Z.of_nat (List.length a + List.length b) - Z.of_nat (List.length a))) with (List.length b) by lia.
  rewrite skipn_app, Nat.sub_diag, skipn_all. cbn. now rewrite firstn_app, Nat.sub_diag, firstn_all, firstn_O, app_nil_r.
Qed.
Lemma pyslice_mid {A} (a b c : list A) : pyslice (a ++ b ++ c) (zlen a) (zlen a + zlen b) = b.
Proof.
  unfold pyslice, pybound. pose proof (zlen_nonneg a). pose proof (zlen_nonneg b). pose proof (zlen_nonneg c).
  rewrite (proj2 (Z.ltb_ge (zlen a) 0)), (proj2 (Z.ltb_ge (zlen a + zlen b) 0)) by lia.
  rewrite !zlen_app, !Z.min_l by lia. apply slice_mid.
Qed.
Lemma xcol_be (a c : list Z) w z : 0 <= z < 256 ^ Z.of_nat w -> xcol (Z.of_nat w) (zlen a) (a ++ be w z ++ c) = z.
Proof.
  intros Hz. unfold xcol. destruct (Z.of_nat w =? 0) eqn:E.
  - destruct w; [|lia]. change (256 ^ Z.of_nat 0) with 1 in Hz. lia.
  - rewrite <- (zlen_be w z) at 1. rewrite pyslice_mid. now apply be_value.
Qed.
(** The effect of one row: free rows are filed under their first field. *)
Definition apply_row (k : Z) (r : srow) (x : xref) : xref :=
  match r with
  | RFree a b => add_entry x TFree (mkE a b 0)
  | RUsed a b => add_entry x TInUse (mkE k b a)
  | RComp a b => add_entry x TComp (mkE a 0 b)
  | ROther _ _ _ => x
  end.
Lemma xrow_ok w1 w2 w3 k r x : fits w1 w2 w3 r -> 0 <= k ->
  xrow (Z.of_nat w1) (Z.of_nat w2) (Z.of_nat w3) k (row_bytes w1 w2 w3 r) x = Ok (apply_row k r x).
Proof.
  intros Hf Hk. unfold fits in Hf. unfold xrow, row_bytes.
  destruct (fields r) as [[t a] b] eqn:Ef. destruct Hf as (H1 & H2 & H3 & H4).
  pose proof (xcol_be [] (be w2 a ++ be w3 b) w1 t H1) as C1. cbn [app] in C1. change (zlen []) with 0 in C1.
  pose proof (xcol_be (be w1 t) (be w3 b) w2 a H2) as C2. rewrite zlen_be in C2.
  pose proof (xcol_be (be w1 t ++ be w2 a) [] w3 b H3) as C3. rewrite zlen_app, !zlen_be, app_nil_r, <- app_assoc in C3.
  rewrite C1, C2, C3. clear C1 C2 C3. unfold new_entry.
  destruct r; cbn [fields] in Ef; inversion Ef; subst; clear Ef; cbn [Z.eqb].
  - cbn [Z.leb]. rewrite (proj2 (Z.leb_le 0 a)), (proj2 (Z.leb_le 0 b)) by lia. reflexivity.
  - cbn [Pos.eqb]. rewrite (proj2 (Z.leb_le 0 a)), (proj2 (Z.leb_le 0 b)), (proj2 (Z.leb_le 0 k)) by lia. reflexivity.
  - cbn [Pos.eqb]. rewrite (proj2 (Z.leb_le 0 a)), (proj2 (Z.leb_le 0 b)) by lia. reflexivity.
  - rewrite (proj2 (Z.eqb_neq t 0)), (proj2 (Z.eqb_neq t 1)), (proj2 (Z.eqb_neq t 2)) by lia. reflexivity.
Qed.
Fixpoint apply_rows (k : Z) (rows : list srow) (x : xref) : xref :=
  match rows with [] => x | r :: l => apply_rows (k + 1) l (apply_row k r x) end.
Lemma xrows_ok w1 w2 w3 : forall rows k x, Forall (fits w1 w2 w3) rows -> 0 <= k ->
  xrows (Z.of_nat w1) (Z.of_nat w2) (Z.of_nat w3) k (map (row_bytes w1 w2 w3) rows) x = Ok (apply_rows k rows x).
Proof.
  induction rows as [|r rows IH]; intros k x H Hk; cbn [map xrows apply_rows]; auto.
  inversion H; subst. rewrite xrow_ok by auto. cbn [rbind]. apply IH; auto. lia.
Qed.
Lemma row_len w1 w2 w3 r : List.length (row_bytes w1 w2 w3 r) = (w1 + w2 + w3)%nat.
Proof. unfold row_bytes. destruct (fields r) as [[t a] b]. rewrite !app_length, !be_len. lia. Qed.
Lemma rows_ok w1 w2 w3 rows : (0 < w1 + w2 + w3)%nat ->
  rows_of (Z.of_nat (w1 + w2 + w3)) (concat (map (row_bytes w1 w2 w3) rows)) = map (row_bytes w1 w2 w3) rows.
Proof.
  intros Hw. remember (w1 + w2 + w3)%nat as w eqn:Ew.
  assert (forall rs, zlen (concat (map (row_bytes w1 w2 w3) rs)) = zlen rs * Z.of_nat w) as HL.
  { induction rs as [|r rs IH]; cbn [map concat]; [reflexivity|]. rewrite zlen_app, IH, zlen_cons. unfold zlen at 1. rewrite row_len. subst w. lia. }
  unfold rows_of. rewrite HL, Nat2Z.id.
  replace ((zlen rows * Z.of_nat w + Z.of_nat w - 1) / Z.of_nat w) with (zlen rows).
  2:{ apply (Z.div_unique _ _ _ (Z.of_nat w - 1)); lia. }
  unfold zlen at 1. rewrite Nat2Z.id. clear HL.
  induction rows as [|r rows IH]; cbn [List.length cut map concat]; auto.
  assert (List.length (row_bytes w1 w2 w3 r) = w) as HR by (rewrite row_len; lia).
  assert (forall X, firstn w (row_bytes w1 w2 w3 r ++ X) = row_bytes w1 w2 w3 r) as F1.
  { intros X. rewrite <- HR. now rewrite firstn_app, Nat.sub_diag, firstn_all, firstn_O, app_nil_r. }
  assert (forall X, skipn w (row_bytes w1 w2 w3 r ++ X) = X) as F2.
  { intros X. rewrite <- HR. now rewrite skipn_app, Nat.sub_diag, skipn_all. }
  now rewrite F1, F2, IH.
Qed.
Lemma ints3 a b c : ints [OInt a; OInt b; OInt c] = Some [a; b; c].
Proof. reflexivity. Qed.

(** The dictionary says: columns [w1 w2 w3], rows numbered from [first]. *)
Definition columns (d : dict) (w1 w2 w3 : nat) : Prop :=
  dget d (bs "W") = Some (OArr [OInt (Z.of_nat w1); OInt (Z.of_nat w2); OInt (Z.of_nat w3)]).
Definition one_range (d : dict) (first : Z) : Prop :=
  (exists n, dget d (bs "Index") = Some (OArr [OInt first; OInt n])) \/
  (dget d (bs "Index") = None /\ first = 0 /\ exists s, dget d (bs "Size") = Some s).

Lemma from_stream inflate ccitt d raw w1 w2 w3 first rows :
  columns d w1 w2 w3 ->
  ((exists n more, dget d (bs "Index") = Some (OArr (OInt first :: OInt n :: more))) \/
   (dget d (bs "Index") = None /\ first = 0 /\ exists s, dget d (bs "Size") = Some s)) ->
  (0 < w1 + w2 + w3)%nat -> 0 <= first ->
  filtered inflate ccitt d raw = Ok (concat (map (row_bytes w1 w2 w3) rows)) ->
  xref_from_stream inflate ccitt d raw =
    match rows with [] => Ok xref0
    | _ => xrows (Z.of_nat w1) (Z.of_nat w2) (Z.of_nat w3) first (map (row_bytes w1 w2 w3) rows) xref0 end.
Proof.
  intros HW HI Hw Hf HD. unfold xref_from_stream. unfold columns in HW. rewrite HW, HD, ints3. cbn [if_none].
  replace (match dget d (bs "Index") with
           | Some v => if truthy v then
                         match v with
                         | OArr (a :: b :: _) => match as_range a with Some z => Ok z | None => Err TypeErr end
                         | OArr _ => Err ValueErr
                         | _ => Err TypeErr
                         end
                       else match dget d (bs "Size") with Some _ => Ok 0 | None => Err KeyErr end
           | None => match dget d (bs "Size") with Some _ => Ok 0 | None => Err KeyErr end
           end) with (@Ok Z first).
  2:{ destruct HI as [(n & more & ->)|(-> & -> & s & ->)]; reflexivity. }
  cbn [rbind].
  replace (sumZ [Z.of_nat w1; Z.of_nat w2; Z.of_nat w3]) with (Z.of_nat (w1 + w2 + w3)) by (unfold sumZ; cbn [fold_left]; lia).
  rewrite (proj2 (Z.eqb_neq _ 0)), (proj2 (Z.ltb_ge _ 0)) by lia.
  destruct rows as [|r rows]; [reflexivity|].
  destruct (concat (map (row_bytes w1 w2 w3) (r :: rows))) as [|b bs'] eqn:Ec.
  - exfalso. apply (f_equal (@List.length Z)) in Ec. cbn [map concat] in Ec. rewrite app_length, row_len in Ec. cbn in Ec. lia.
  - rewrite <- Ec. now rewrite rows_ok.
Qed.

Lemma apply_rows_used : forall rows first x k,
  zget (x_inuse (apply_rows first rows x)) k =
    match row_of first rows k with
    | Some (RUsed off gen) => Some (mkE k gen off)
    | _ => zget (x_inuse x) k
    end.
Proof.
  induction rows as [|r rows IH]; intros first x k; cbn [apply_rows].
  - unfold row_of. destruct (k <? first); auto. now destruct (Z.to_nat (k - first)).
  - rewrite IH. unfold row_of. destruct (k <? first) eqn:E1; destruct (k <? first + 1) eqn:E2; try lia.
    + destruct r; cbn [apply_row add_entry x_inuse]; auto. rewrite zget_zset. cbn [e_num]. destruct (k =? first) eqn:E; [lia|auto].
    + replace (Z.to_nat (k - first)) with O by lia. assert (k = first) by lia; subst.
      destruct r; cbn [apply_row add_entry x_inuse nth_error]; auto. rewrite zget_zset. cbn [e_num]. now rewrite Z.eqb_refl.
    + replace (Z.to_nat (k - first)) with (S (Z.to_nat (k - (first + 1)))) by lia. cbn [nth_error].
      assert (zget (x_inuse (apply_row first r x)) k = zget (x_inuse x) k) as ->; auto.
      destruct r; cbn [apply_row add_entry x_inuse]; auto. rewrite zget_zset. cbn [e_num]. destruct (k =? first) eqn:E; [lia|auto].
Qed.

(** C20.  A stream with one range: every object listed in use, and no other, is filed in use, under its
    number, with its offset and generation. *)
Theorem C20_xref_stream : forall inflate ccitt d raw w1 w2 w3 first rows,
  columns d w1 w2 w3 -> one_range d first -> (0 < w1)%nat -> 0 <= first ->
  Forall (fits w1 w2 w3) rows ->
  filtered inflate ccitt d raw = Ok (concat (map (row_bytes w1 w2 w3) rows)) ->
  exists x, xref_from_stream inflate ccitt d raw = Ok x /\
  forall k, zget (x_inuse x) k =
    match row_of first rows k with Some (RUsed off gen) => Some (mkE k gen off) | _ => None end.
Proof.
  intros inflate ccitt d raw w1 w2 w3 first rows HW HI Hw Hf HR HD.
  exists (apply_rows first rows xref0). split.
  - rewrite (from_stream inflate ccitt d raw w1 w2 w3 first rows); auto; [|destruct HI as [[n HI]|HI]; [left; now exists n, []|now right]|lia].
    destruct rows; [reflexivity|]. now apply xrows_ok.
  - intros k. rewrite apply_rows_used. cbn [x_inuse xref0 zget]. destruct (row_of first rows k) as [[]|]; reflexivity.
Qed.

(** C21, first half: with a zero-width type column the standard's default type is 1 (in use), but no
    object at all is filed in use. *)
Theorem C21_default_type_refuted : forall inflate ccitt d raw w2 w3 first (rows : list (Z * Z)),
  columns d 0 w2 w3 -> one_range d first -> (0 < w2 + w3)%nat -> 0 <= first ->
  Forall (fun p => 0 <= fst p < 256 ^ Z.of_nat w2 /\ 0 <= snd p < 256 ^ Z.of_nat w3) rows ->
  filtered inflate ccitt d raw = Ok (concat (map (fun p => be w2 (fst p) ++ be w3 (snd p)) rows)) ->
  exists x, xref_from_stream inflate ccitt d raw = Ok x /\ forall k, zget (x_inuse x) k = None.
Proof.
  intros inflate ccitt d raw w2 w3 first rows HW HI Hw Hf HR HD.
  set (rs := map (fun p => RFree (fst p) (snd p)) rows).
  assert (map (fun p => be w2 (fst p) ++ be w3 (snd p)) rows = map (row_bytes 0 w2 w3) rs) as E.
  { unfold rs. rewrite map_map. apply map_ext. intros [a b]. reflexivity. }
  rewrite E in HD.
  exists (apply_rows first rs xref0). split.
  - rewrite (from_stream inflate ccitt d raw 0 w2 w3 first rs); auto; [|destruct HI as [[n HI]|HI]; [left; now exists n, []|now right]].
    assert (Forall (fits 0 w2 w3) rs) as HF.
    { unfold rs. clear - HR. induction HR as [|[a b] l [H1 H2] HR IH]; cbn [map]; constructor; auto. unfold fits. cbn [fields fst snd] in *.
      change (256 ^ Z.of_nat 0) with 1. repeat split; try lia. }
    destruct rs; [reflexivity|]. now apply xrows_ok.
  - intros k. rewrite apply_rows_used. cbn [x_inuse xref0 zget].
    destruct (row_of first rs k) as [r|] eqn:Er; auto. unfold row_of in Er. destruct (k <? first); [discriminate|].
    apply nth_error_In in Er. unfold rs in Er. apply in_map_iff in Er. destruct Er as ([a b] & <- & _). reflexivity.
Qed.

(** C21, second half: only the first pair of Index is used; the rows of the other ranges get the numbers
    that follow the first range. *)
Theorem C21_ranges_refuted : forall inflate ccitt d raw w1 w2 w3 first n more rows,
  columns d w1 w2 w3 -> dget d (bs "Index") = Some (OArr (OInt first :: OInt n :: more)) ->
  (0 < w1)%nat -> 0 <= first -> Forall (fits w1 w2 w3) rows ->
  filtered inflate ccitt d raw = Ok (concat (map (row_bytes w1 w2 w3) rows)) ->
  exists x, xref_from_stream inflate ccitt d raw = Ok x /\
  forall k, zget (x_inuse x) k =
    match row_of first rows k with Some (RUsed off gen) => Some (mkE k gen off) | _ => None end.
Proof.
  intros inflate ccitt d raw w1 w2 w3 first n more rows HW HI Hw Hf HR HD.
  exists (apply_rows first rows xref0). split.
  - rewrite (from_stream inflate ccitt d raw w1 w2 w3 first rows); auto; [|left; eauto|lia].
    destruct rows; [reflexivity|]. now apply xrows_ok.
  - intros k. rewrite apply_rows_used. cbn [x_inuse xref0 zget]. destruct (row_of first rows k) as [[]|]; reflexivity.
Qed.

(** So the objects of a second range are not found (here: any object of the second of two ranges whose
    number lies outside the block of numbers that follows the first). *)
Theorem C21_second_range_refuted : forall inflate ccitt d raw w1 w2 w3 a b rows1 rows2,
  columns d w1 w2 w3 -> dget d (bs "Index") = Some (OArr [OInt a; OInt (zlen rows1); OInt b; OInt (zlen rows2)]) ->
  (0 < w1)%nat -> 0 <= a -> Forall (fits w1 w2 w3) (rows1 ++ rows2) ->
  filtered inflate ccitt d raw = Ok (concat (map (row_bytes w1 w2 w3) (rows1 ++ rows2))) ->
  exists x, xref_from_stream inflate ccitt d raw = Ok x /\
  forall k, b <= k < b + zlen rows2 -> k < a \/ a + zlen rows1 + zlen rows2 <= k -> zget (x_inuse x) k = None.
Proof.
  intros inflate ccitt d raw w1 w2 w3 a b rows1 rows2 HW HI Hw Ha HR HD.
  destruct (C21_ranges_refuted _ _ _ _ _ _ _ _ _ _ _ HW HI Hw Ha HR HD) as (x & Hx & Hg).
  exists x. split; auto. intros k Hk Ho. rewrite Hg. unfold row_of. destruct (k <? a) eqn:E; auto.
  destruct (nth_error (rows1 ++ rows2) (Z.to_nat (k - a))) eqn:En; auto.
  assert (Z.to_nat (k - a) < List.length (rows1 ++ rows2))%nat by (apply nth_error_Some; congruence).
  rewrite app_length in H. unfold zlen in *. lia.
Qed.

(** C22.  Compressed entries are always filed under their own number. *)
Definition self_keyed (x : xref) : Prop := forall k e, zget (x_comp x) k = Some e -> e_num e = k.
Lemma self_keyed_stream inflate ccitt d raw x : xref_from_stream inflate ccitt d raw = Ok x -> self_keyed x.
Proof.
  assert (forall w1 w2 w3 rows k x0 x, self_keyed x0 -> xrows w1 w2 w3 k rows x0 = Ok x -> self_keyed x) as HX.
  { intros w1 w2 w3. induction rows as [|row rows IH]; intros k x0 x1 H0; cbn [xrows].
    - intros E. now inversion E; subst.
    - unfold xrow, new_entry.
      repeat match goal with |- context [if ?b then _ else _] => destruct b end; cbn [rbind]; try discriminate; apply IH; auto.
      intros k' e'. cbn [add_entry x_comp]. rewrite zget_zset. cbn [e_num]. destruct (k' =? _) eqn:E.
      + intros E'. inversion E'; subst. cbn. lia.
      + apply H0. }
  assert (self_keyed xref0) as H0 by (intros k e; discriminate).
  unfold xref_from_stream. match goal with |- rbind ?a _ = _ -> _ => destruct a end; cbn [rbind]; [|discriminate].
  destruct (dget d (bs "W")) as [[| | | | | | |l| | | | |]|]; try discriminate.
  destruct (ints l) as [[|w1 [|w2 more]]|]; try discriminate.
  destruct (filtered inflate ccitt d raw) as [data|e0]; cbn [rbind if_none]; [|destruct e0; discriminate].
  destruct (_ =? 0); [discriminate|]. destruct (_ <? 0); [intros E; now inversion E; subst|].
  destruct data; [intros E; now inversion E; subst|]. destruct more as [|w3 more]; [discriminate|].
  apply HX; auto.
Qed.
Lemma self_keyed_table x : x_comp x = [] -> self_keyed x.
Proof. intros H k e. rewrite H. discriminate. Qed.

(** So a lookup through the cross-reference sections never asks for an object stream: it does not depend
    on the procedure that would locate one ... *)
Theorem C22_object_stream_never_asked_refuted : forall locate locate' iobj xs num gen,
  Forall self_keyed xs -> by_xref locate iobj xs num gen = by_xref locate' iobj xs num gen.
Proof.
  intros locate locate' iobj xs num gen H. induction H as [|x xs Hx H IH]; cbn [by_xref]; auto.
  rewrite IH. destruct (zget (x_comp x) num) as [e|] eqn:E; auto.
  rewrite (Hx _ _ E), Z.eqb_refl. cbn [negb]. now rewrite Bool.andb_false_r.
Qed.
(** ... and an object that the newer sections list as compressed (or not at all), but an older one as in
    use, is taken from the older section: the stale revision. *)
Theorem C22_stale_revision_refuted : forall locate iobj newer older num gen,
  Forall self_keyed newer -> Forall (fun x => zget (x_inuse x) num = None) newer ->
  by_xref locate iobj (newer ++ older) num gen = by_xref locate iobj older num gen.
Proof.
  intros locate iobj newer older num gen HS HN. induction newer as [|x xs IH]; cbn [by_xref app]; auto.
  inversion HS as [|? ? Hx HS']; inversion HN as [|? ? Hn HN']; subst. rewrite Hn, IH by auto.
  destruct (zget (x_comp x) num) as [e|] eqn:E; auto.
  rewrite (Hx _ _ E), Z.eqb_refl. cbn [negb]. now rewrite Bool.andb_false_r.
Qed.

(** A file with two revisions of object 5: (old) as an ordinary object and (new) in object stream 8. *)
Definition ex_two_revisions : list Z :=
  bs "%PDF-1.5" ++ [10] ++ bs "5 0 obj (old) endobj" ++ [10] ++
  bs "6 0 obj <</Type/XRef/W[1 1 1]/Index[5 1]/Size 7/Length 3>>stream" ++ [10] ++ [1; 9; 0] ++ [10] ++ bs "endstream endobj" ++ [10] ++
  bs "8 0 obj <</Type/ObjStm/N 1/First 4/Length 9>>stream" ++ [10] ++ bs "5 0 (new)" ++ [10] ++ bs "endstream endobj" ++ [10] ++
  bs "9 0 obj <</Type/XRef/W[1 1 1]/Index[5 1]/Size 10/Prev 30/Length 3>>stream" ++ [10] ++ [2; 8; 0] ++ [10] ++ bs "endstream endobj" ++ [10] ++
  bs "startxref" ++ [10] ++ bs "195" ++ [10] ++ bs "%%EOF" ++ [10].
Example C22_ex :
  fst (arun ex_two_revisions
    (open_document (fun _ => None) (fun _ _ => Err NotImpl) (fun _ _ v => Ok v) 5 2000 20 ;;;
     locate_object (fun _ => None) (fun _ _ => Err NotImpl) (fun _ _ v => Ok v) 5 2000 20 5 0)%prog
    (mkA 0 [] (mkR [] None None []))) = Ok (OStr (bs "old")).
Proof. vm_compute. reflexivity. Qed.

(** Concrete streams meeting the hypotheses of C20 and C21. *)
Definition ex_rows : list srow := [RFree 0 255; RUsed 600 0; RComp 8 3; ROther 7 1 1; RUsed 17 2].
Definition ex_dict (idx : list Z) (ws : list Z) : dict :=
  [(bs "Index", OArr (map OInt idx)); (bs "W", OArr (map OInt ws))].
Example C20_ex :
  columns (ex_dict [3; 5] [1; 2; 1]) 1 2 1 /\ one_range (ex_dict [3; 5] [1; 2; 1]) 3 /\ Forall (fits 1 2 1) ex_rows /\
  concat (map (row_bytes 1 2 1) ex_rows) = [0;0;0;255; 1;2;88;0; 2;0;8;3; 7;0;1;1; 1;0;17;2] /\
  filtered (fun _ => None) (fun _ _ => Err NotImpl) (ex_dict [3; 5] [1; 2; 1]) (concat (map (row_bytes 1 2 1) ex_rows))
    = Ok (concat (map (row_bytes 1 2 1) ex_rows)) /\
  row_of 3 ex_rows 7 = Some (RUsed 17 2).
Proof.
  split; [reflexivity|]. split; [left; eexists; reflexivity|]. split; [|repeat split].
  repeat constructor; cbn; lia.
Qed.
Example C21_default_ex :
  columns (ex_dict [3; 2] [0; 2; 1]) 0 2 1 /\ one_range (ex_dict [3; 2] [0; 2; 1]) 3 /\
  Forall (fun p => 0 <= fst p < 256 ^ Z.of_nat 2 /\ 0 <= snd p < 256 ^ Z.of_nat 1) [(600, 0); (17, 2)] /\
  filtered (fun _ => None) (fun _ _ => Err NotImpl) (ex_dict [3; 2] [0; 2; 1]) [2; 88; 0; 0; 17; 2] =
    Ok (concat (map (fun p => be 2 (fst p) ++ be 1 (snd p)) [(600, 0); (17, 2)])).
Proof. split; [reflexivity|]. split; [left; eexists; reflexivity|]. split; [|reflexivity]. repeat constructor; cbn; lia. Qed.
Example C21_ranges_ex : exists x,
  xref_from_stream (fun _ => None) (fun _ _ => Err NotImpl) (ex_dict [3; 1; 10; 1] [1; 2; 1]) [1; 2; 88; 0; 1; 0; 17; 2] = Ok x /\
  zget (x_inuse x) 10 = None /\ zget (x_inuse x) 4 = Some (mkE 4 2 17).
Proof. eexists. split; [reflexivity|]. split; reflexivity. Qed.

Print Assumptions C20_xref_stream.
Print Assumptions C21_default_type_refuted.
Print Assumptions C21_ranges_refuted.
Print Assumptions C21_second_range_refuted.
Print Assumptions C22_object_stream_never_asked_refuted.
Print Assumptions C22_stale_revision_refuted.
