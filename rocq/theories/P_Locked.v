(** C97: encrypted documents with cross-reference streams and object streams. *)
From Coq Require Import String.
From Verif Require Import Prelude M_Prog M_Parser M_Text S_Syntax L_Buffer L_Prog L_ParserWP L_Syntax L_Syntax2 S_Print L_Print
  S_Stream L_Stream M_Filters M_Document S_Document L_Document L_User L_Registry P_IndObj
  S_Xref L_Xref P_Header P_StartXref P_Xref P_Locate L_Steps S_Open P_Open S_History P_History S_XrefStream P_XrefStream S_Registry P_Registry
  S_Modern L_Modern P_Modern M_Crypto S_Crypto P_Crypto P_Decrypt M_Secure S_Sealed P_Secure S_Write P_Write S_ModWrite L_ModWrite P_ModWrite S_Locked L_Locked.
Local Open Scope Z_scope.
Local Open Scope prog_scope.

Lemma newest_split secs xs : Forall2 is_section secs xs -> forall n g,
  (exists newer x older, exists o', xs = newer ++ x :: older /\ newest_row secs n g o' /\ xlists x n g o' /\ Forall (fun x => forall o', ~ xlists x n g o') newer) \/
  Forall (fun x => forall o', ~ xlists x n g o') xs.
Proof.
  intros Hxs n g. induction Hxs as [|sec x secs xs [H1 H2] Hxs IH]; [right; constructor|].
  destruct (zget (x_inuse x) n) as [e|] eqn:Eu.
  - destruct (e_gen e =? g) eqn:Eg.
    + left. exists [], x, xs, (e_off e). assert (xlists x n g (e_off e)) as HX by (exists e; repeat split; auto; lia).
      split; [reflexivity|]. split; [|split; [exact HX|constructor]]. exists [], sec, secs. split; [reflexivity|]. split; [now apply H2|constructor].
    + assert (forall o', ~ xlists x n g o') as HNx by (intros o' (e' & A & B & _); rewrite Eu in A; injection A as <-; lia).
      destruct IH as [(newer & y & older & o' & E1 & (nw & sc & od & F1 & F2 & F3) & E3 & E4)|IH]; [left|right; constructor; auto].
      exists (x :: newer), y, older, o'. split; [now rewrite E1|]. split; [|split; [exact E3|constructor; auto]].
      exists (sec :: nw), sc, od. split; [now rewrite F1|]. split; [exact F2|]. constructor; [|exact F3]. intros o2 X. apply H2 in X. exact (HNx o2 X).
  - assert (forall o', ~ xlists x n g o') as HNx by (intros o' (e' & A & _); congruence).
    destruct IH as [(newer & y & older & o' & E1 & (nw & sc & od & F1 & F2 & F3) & E3 & E4)|IH]; [left|right; constructor; auto].
    exists (x :: newer), y, older, o'. split; [now rewrite E1|]. split; [|split; [exact E3|constructor; auto]].
    exists (sec :: nw), sc, od. split; [now rewrite F1|]. split; [exact F2|]. constructor; [|exact F3]. intros o2 X. apply H2 in X. exact (HNx o2 X).
Qed.
Lemma newest_unique secs n g o1 o2 : newest_row secs n g o1 -> newest_row secs n g o2 -> o1 = o2.
Proof.
  intros (n1 & s1 & r1 & A1 & A2 & A3) (n2 & s2 & r2 & B1 & B2 & B3). revert n2 A1 B1 B3 A3. revert secs. induction n1 as [|y n1 IH]; intros secs n2 A1 B1 B3 A3.
  - destruct n2 as [|z n2]; cbn [app] in *; subst secs; injection B1 as <- B1.
    + unfold lists in *. congruence.
    + inversion B3 as [|? ? X _]; subst. exfalso. exact (X o1 A2).
  - destruct n2 as [|z n2]; cbn [app] in *; subst secs; injection B1 as <- B1.
    + inversion A3 as [|? ? X _]; subst. exfalso. exact (X o2 B2).
    + inversion A3; inversion B3; subst. eapply IH; eauto.
Qed.
Lemma newest_found secs xs n g o : Forall2 is_section secs xs -> newest_row secs n g o ->
  exists newer x older, xs = newer ++ x :: older /\ xlists x n g o /\ Forall (fun x => forall o', ~ xlists x n g o') newer.
Proof.
  intros Hxs Hn. destruct (newest_split secs xs Hxs n g) as [(newer & x & older & o' & E1 & E3 & E4 & E5)|HX0].
  - rewrite (newest_unique _ _ _ _ _ E3 Hn) in E4. exists newer, x, older. auto.
  - exfalso. destruct Hn as (nw & sc & od & F1 & F2 & F3). subst secs. apply Forall2_app_inv_l in Hxs.
    destruct Hxs as (x1 & x2 & A1 & A2 & ->). inversion A2 as [|? x ? x3 [H1 H2] A3]; subst. apply Forall_app in HX0. destruct HX0 as [_ HX0].
    inversion HX0 as [|? ? X _]; subst. apply (X o). now apply H2.
Qed.
Lemma sections_keyed secs xs : Forall2 is_section secs xs -> Forall self_keyed xs.
Proof. intros Hxs. induction Hxs as [|sec x secs xs [H1 H2] Hxs IH]; constructor; auto. Qed.

Section Opening.
  Variable inflate : list Z -> option (list Z).
  Variable ccitt : list Z -> fparams -> res (list Z).
  Variables (D m : nat).
  Variable f : list Z.
  Hypothesis HD : (2 <= D)%nat.
  Hypothesis Hm : 4 * zlen f + 8 <= Z.of_nat m.
  Notation nd := (fun (_ _ : Z) (v : obj) => Ok v).

  (** the Encrypt dictionary, found through the sections *)
  Lemma encrypt_listed secs xs k en eg e before text after pos u K : Forall2 is_section secs xs -> r_xrefs u = Some xs -> agrees u K -> K en eg = None -> e <> [] ->
    newest_row secs en eg (zlen before) -> f = before ++ text ++ after -> IndObj en eg (ODict e) text after ->
    exists q u', uruns f (locate_encrypt inflate ccitt D m nd k en eg) pos u (Ok (ODict e)) q u' /\
      r_xrefs u' = r_xrefs u /\ r_bf u' = r_bf u /\ r_stack u' = r_stack u /\ agrees u' (learn K en eg (ODict e)).
  Proof.
    intros Hxs Hx HK HN He Hnr Ef HI. pose proof (zlen_nonneg before) as Hp.
    destruct (newest_found secs xs en eg _ Hxs Hnr) as (newer & x & older & El & (e0 & E1 & E2 & E3) & HF).
    set (lc := locate_object inflate ccitt nd D m k). set (io := reg_indirect inflate ccitt nd D m (length_hook lc)).
    assert (At f (zlen before) (text ++ after)) as HA by now apply At_start with (pre := before).
    assert (S_Modern.Held inflate ccitt (ODict e) []) as HH by (apply H_plain; intros ? ? X; discriminate X).
    destruct (m_iobj inflate ccitt nd D m f HD Hm lc (zlen before) en eg (ODict e) (ODict e) [] text after u HI eq_refl HH HA) as (u' & HR & (R1 & R2 & R3 & R4)).
    specialize (R4 K HK). assert (agrees u' (learn K en eg (ODict e))) as HK' by (intros a b; rewrite R4; apply (learn_elem_nil inflate ccitt D m f HD lc)).
    exists (zlen before + zlen text), u'. split; [|auto].
    assert (known u' en eg = Some (ODict e)) as HKe by (rewrite HK'; rewrite learn_here, HN; reflexivity).
    assert (Forall self_keyed newer) as HSn by (pose proof (sections_keyed _ _ Hxs) as X; rewrite El in X; apply Forall_app in X; apply X).
    assert (uruns f (by_xref lc io xs en eg) pos u (Ok (ODict e)) (zlen before + zlen text) u') as HB.
    { rewrite El. assert (forall c, hd_error (@nil Z) = Some c -> is_digit c = false /\ c <> 115 /\ c <> 116) as Hn by (intros ? X; discriminate X).
      rewrite (by_xref_pass inflate ccitt nd D m HD [] Hn) by assumption. cbn [by_xref]. rewrite E1, E2, Z.eqb_refl, E3.
      eapply uruns_bind with (a := tt) (u1 := u').
      + apply uruns_catch_ok. apply uruns_reset. unfold reset_pos. rewrite (proj2 (Z.leb_le 0 (zlen before))) by lia.
        eapply uruns_bind; [exact HR|apply uruns_ret].
      + unfold registered. intros st0. exists []. cbn [bind getu ret arun a_usr]. unfold is_registered. unfold known in HKe. rewrite HKe. cbn [reg_get bind getu ret arun a_usr]. rewrite ?HKe, app_nil_r. reflexivity. }
    intros st. destruct (HB st) as [ex E]. exists ex. unfold locate_encrypt.
    cbn [reg_get bind getu ret arun a_usr]. fold (known u en eg). rewrite HK, HN. cbn [truthy bind getu arun a_usr]. rewrite Hx.
    fold lc. fold io. rewrite arun_bind, E. destruct e; [congruence|]. reflexivity.
  Qed.
End Opening.

Lemma stm_trailer_get d k : In k [bs "Size"; bs "Prev"; bs "Root"; bs "Encrypt"; bs "Info"; bs "ID"] -> dget (stm_trailer d) k = Some (match dget d k with Some v => v | None => ONull end).
Proof. intros H. cbn [In] in H. repeat (destruct H as [<-|H]; [reflexivity|]). destruct H. Qed.

(** C97 (a).  Any encrypted file with a header, a chain of cross-reference streams and a body of objects and
    startxref sections: opening it, and any sequence of lookups afterwards, give exactly what the memory
    machine of S_Locked gives, whichever objects the security handler can decrypt. *)
Theorem C97_sessions_exactly : forall inflate ccitt md5 sha256 rc4_size aes_dec f ver pre body rest o secs objs d en eg e before text after rn rg pw h listed l0 l,
  let dec := decrypt_object md5 rc4_size aes_dec (Some h) in
  f = pre ++ body ++ rest -> header_of f (Ok (ver, zlen pre)) -> offset_of f (Ok o) -> XChain inflate ccitt f o secs objs d ->
  dget d (bs "Encrypt") = Some (ORef en eg) -> e <> [] -> opened_with objs en eg = None ->
  newest_row secs en eg (zlen before) -> f = before ++ text ++ after -> IndObj en eg (ODict e) text after ->
  trailer_handler md5 sha256 rc4_size aes_dec (fun _ _ => ODict e) (stm_trailer d) pw = Ok (Some h) ->
  dget d (bs "Root") = Some (ORef rn rg) ->
  ModBody l0 body rest -> Forall2 (Met inflate ccitt dec) l0 l ->
  (forall c, hd_error rest = Some c -> is_digit c = false /\ c <> 115 /\ c <> 116) ->
  (forall n g r, listed n g = Some r -> exists before text after v0,
     newest_row secs n g (zlen before) /\ f = before ++ text ++ after /\ IndObj n g v0 text after /\
     Met inflate ccitt dec (n, g, v0) (match r with inl (v, ms) => inl (n, g, v, ms) | inr x => inr x end)) ->
  (forall n g o, newest_row secs n g o -> listed n g <> None) ->
  forall D m k, (2 <= D)%nat -> 4 * zlen f + 8 <= Z.of_nat m -> (1 <= k)%nat -> (List.length secs <= S k)%nat ->
  let '(root, s1) := llook listed (learn (opened_with objs) en eg (ODict e), l) rn rg in
  exists s, arun f (open_pdf inflate ccitt D m md5 sha256 rc4_size aes_dec k pw) (mkA 0 [] rst0) =
              (match root with Ok r => Ok (ver, stm_trailer d, Some h, r) | Err x => Err x end, s) /\
  forall k' ids, (1 <= k')%nat -> fst (session inflate ccitt dec D m k' f s ids) = llooks listed s1 ids.
Proof.
  intros inflate ccitt md5 sha256 rc4_size aes_dec f ver pre body rest o secs objs d en eg e before text after rn rg pw h listed l0 l dec
    Ef Hh Hoff HC HE He HO Hnr Efe HIe Hth HR HB HM Hc HL HN D m k HD Hm Hk Hks.
  pose proof (zlen_nonneg pre) as Hp.
  destruct (opened_streams inflate ccitt D m f HD Hm k ver (zlen pre) o secs objs d Hh Hp Hoff HC Hks) as (pos & st & u & xs & hb & E & Hxs & G1 & G2 & G3 & G4 & G5).
  destruct (encrypt_listed inflate ccitt D m f HD Hm secs xs k en eg e before text after pos u _ Hxs G1 G5 HO He Hnr Efe HIe) as (q & u' & HU & A1 & A2 & A3 & A4).
  destruct (HU st) as [ex EX]. destruct k as [|k]; [lia|].
  assert (lst inflate ccitt dec f xs rest l (st ++ ex) u') as HS.
  { split; [congruence|]. split; [congruence|]. exists hb, (zlen pre), body, l0. split; [congruence|].
    split; [rewrite nth_error_app1; auto; apply nth_error_Some; congruence|]. split; [exact HB|]. split; [now apply At_start with (pre := pre)|exact HM]. }
  assert (forall n g r, listed n g = Some r -> exists newer x older pre text rest v,
    xs = newer ++ x :: older /\ xlists x n g (zlen pre) /\ Forall (fun x => forall o', ~ xlists x n g o') newer /\
    f = pre ++ text ++ rest /\ IndObj n g v text rest /\
    match r with inl (v', ms) => dec n g v = Ok v' /\ S_Modern.Held inflate ccitt v' ms | inr e => dec n g v = Err e /\ fatal e end) as Hcur.
  { intros n g r Hr. destruct (HL n g r Hr) as (bf & tx & af & v0 & B1 & B2 & B3 & B4).
    destruct (newest_found secs xs n g _ Hxs B1) as (newer & x & older & C1 & C2 & C3). exists newer, x, older, bf, tx, af, v0.
    split; [exact C1|]. split; [exact C2|]. split; [exact C3|]. split; [exact B2|]. split; [exact B3|].
    destruct r as [[v' ms]|x0]; cbn [Met] in B4; [destruct B4 as (_ & _ & B4); exact B4|exact B4]. }
  assert (forall n g, listed n g = None -> Forall (fun x => forall o', ~ xlists x n g o') xs) as Hnone.
  { intros n g El. destruct (newest_split secs xs Hxs n g) as [(newer & x & older & o' & E1 & E3 & E4 & E5)|HX0]; [|exact HX0]. exfalso. exact (HN n g o' E3 El). }
  pose proof (sections_keyed _ _ Hxs) as Hself.
  pose proof (llook_ok inflate ccitt dec D m f HD Hm xs rest Hc Hself listed Hcur Hnone k rn rg l (st ++ ex) u' _ q A4 HS) as H1.
  destruct (llook listed (learn (opened_with objs) en eg (ODict e), l) rn rg) as [root [K1 l1]].
  destruct H1 as (p1 & st1 & u1 & E1 & HK1 & HS1). exists (mkA p1 st1 u1). split.
  - unfold open_pdf. rewrite arun_bind.
    match type of E with ?A = _ => match goal with |- context [arun f (open_document inflate ccitt ?N D m ?K) ?Z0] => change (arun f (open_document inflate ccitt N D m K) Z0) with A end end.
    rewrite E. cbv beta iota. rewrite stm_trailer_get by (right; right; right; left; reflexivity). rewrite HE. rewrite arun_bind, EX, Hth.
    rewrite stm_trailer_get by (right; right; left; reflexivity). rewrite HR. rewrite arun_bind. fold dec. rewrite E1.
    destruct root; reflexivity.
  - intros k' ids Hk'. destruct k' as [|k']; [lia|].
    destruct (llooks_ok inflate ccitt dec D m f HD Hm xs rest Hc Hself listed Hcur Hnone k' ids l1 st1 u1 K1 p1 HK1 HS1) as [a' E2]. now rewrite E2.
Qed.
Print Assumptions C97_sessions_exactly.

(** ---- documents in which everything can be decrypted, and every id occurs once ---- *)
Definition all_readable (listed : Z -> Z -> option (obj * list (Z * obj))) (n g : Z) : option ((obj * list (Z * obj)) + exn) :=
  option_map inl (listed n g).
Lemma scan_readable num gen : forall l K, scan_entries K (map inl l) num gen = (fst (scan_elems K l num gen), map inl (snd (scan_elems K l num gen)), None).
Proof. induction l as [|e l IH]; intros K; cbn [map scan_entries scan_elems]; destruct (K num gen); try reflexivity. apply IH. Qed.
Lemma scan_settles num gen : forall l K, exists w, fst (scan_elems K l num gen) num gen = Some w.
Proof.
  induction l as [|e l IH]; intros K; cbn [scan_elems]; destruct (K num gen) as [w|] eqn:E; try (exists w; exact E); [|apply IH].
  exists ONull. cbn [fst]. rewrite learn_here, E. reflexivity.
Qed.
Lemma llook_readable listed K l n g : llook (all_readable listed) (K, map inl l) n g =
  (Ok (fst (mlook listed (K, l) n g)), (fst (snd (mlook listed (K, l) n g)), map inl (snd (snd (mlook listed (K, l) n g))))).
Proof.
  unfold llook, mlook, all_readable. cbn [fst snd]. destruct (K n g) as [w|] eqn:Ew.
  - assert ((match listed n g with Some (v, ms) => (learn_elem K (n, g, v, ms), l) | None => scan_elems K l n g end) = (K, l)) as ->.
    { destruct (listed n g) as [[v ms]|]; [now rewrite (learn_elem_known _ _ _ _ _ _ Ew)|]. destruct l; cbn [scan_elems]; now rewrite Ew. }
    cbn [fst snd]. rewrite Ew. destruct (truthy w), (listed n g); reflexivity.
  - destruct (listed n g) as [[v ms]|]; cbn [option_map].
    + cbn [fst snd]. now rewrite learn_elem_here.
    + rewrite scan_readable. cbn [fst snd]. reflexivity.
Qed.
Lemma llooks_readable listed : forall ids K l, llooks (all_readable listed) (K, map inl l) ids = map Ok (mlooks listed (K, l) ids).
Proof.
  induction ids as [|[n g] ids IH]; intros K l; cbn [llooks mlooks map]; [reflexivity|]. rewrite llook_readable.
  destruct (mlook listed (K, l) n g) as [v [K1 l1]]. cbn [fst snd map]. now rewrite IH.
Qed.

(** C97 (b).  If the handler can decrypt every object that the file holds, and no id occurs twice, the document
    opens, and every lookup at any time gives the decrypted object: that of the body, or that held by a decrypted
    object stream (the Encrypt dictionary and the cross-reference streams are given as they stand). *)
Theorem C97_any_objects : forall inflate ccitt md5 sha256 rc4_size aes_dec f ver pre body rest o secs objs d en eg e before text after rn rg pw h l0 l,
  let dec := decrypt_object md5 rc4_size aes_dec (Some h) in
  f = pre ++ body ++ rest -> header_of f (Ok (ver, zlen pre)) -> offset_of f (Ok o) -> XChain inflate ccitt f o secs objs d ->
  dget d (bs "Encrypt") = Some (ORef en eg) -> e <> [] -> opened_with objs en eg = None ->
  newest_row secs en eg (zlen before) -> f = before ++ text ++ after -> IndObj en eg (ODict e) text after ->
  trailer_handler md5 sha256 rc4_size aes_dec (fun _ _ => ODict e) (stm_trailer d) pw = Ok (Some h) ->
  dget d (bs "Root") = Some (ORef rn rg) ->
  ModBody l0 body rest -> Forall2 (Viewed inflate ccitt dec) l0 l ->
  (forall c, hd_error rest = Some c -> is_digit c = false /\ c <> 115 /\ c <> 116) ->
  (forall n g o, newest_row secs n g o -> exists before text after v0 v ms,
     o = zlen before /\ f = before ++ text ++ after /\ IndObj n g v0 text after /\ Viewed inflate ccitt dec (n, g, v0) (n, g, v, ms) /\ In (n, g, v, ms) l) ->
  (forall n g v, In (n, g, v) objs -> exists v', In (n, g, v', []) l) -> In (en, eg, ODict e, []) l ->
  NoDup (flat_map ids_of l) ->
  forall D m k, (2 <= D)%nat -> 4 * zlen f + 8 <= Z.of_nat m -> (1 <= k)%nat -> (List.length secs <= S k)%nat ->
  let value (id : Z * Z) := match opened_with objs (fst id) (snd id) with
                            | Some v => v
                            | None => match provided l (fst id) (snd id) with Some v => v | None => ONull end
                            end in
  exists s, arun f (open_pdf inflate ccitt D m md5 sha256 rc4_size aes_dec k pw) (mkA 0 [] rst0) = (Ok (ver, stm_trailer d, Some h, value (rn, rg)), s) /\
  forall k' ids, (1 <= k')%nat -> fst (session inflate ccitt dec D m k' f s ids) = map (fun id => Ok (value id)) ids.
Proof.
  intros inflate ccitt md5 sha256 rc4_size aes_dec f ver pre body rest o secs objs d en eg e before text after rn rg pw h l0 l dec
    Ef Hh Hoff HC HE He HO1 Hnr Efe HIe Hth HR HB HV Hc HL HO Henc Hnd D m k HD Hm Hk Hks value.
  set (find := fix find (r : list elem) (n g : Z) : option (obj * list (Z * obj)) :=
    match r with [] => None | (a, b, v, ms) :: r' => if (n =? a) && (g =? b) then Some (v, ms) else find r' n g end).
  assert (forall r n g v ms, find r n g = Some (v, ms) -> In (n, g, v, ms) r) as Hfind.
  { induction r as [|[[[a b] w] ms0] r IH]; intros n g v ms; cbn [find]; [discriminate|]. destruct ((n =? a) && (g =? b)) eqn:E.
    - intros X. injection X as -> ->. left. assert (n = a /\ g = b) as [-> ->] by (apply andb_true_iff in E; lia). reflexivity.
    - intros X. right. now apply IH. }
  assert (forall n g v ms, In (n, g, v, ms) l -> find l n g = Some (v, ms)) as Hfind2.
  { intros n g v ms Hin. assert (exists x, find l n g = Some x) as [[v' ms'] E].
    { clear - Hin. induction l as [|[[[a b] w] ms0] r IH]; [destruct Hin|]. cbn [find]. destruct ((n =? a) && (g =? b)) eqn:E; [eauto|]. destruct Hin as [X|X]; [injection X as -> -> -> ->; rewrite !Z.eqb_refl in E; discriminate|auto]. }
    assert ((n, g, v, ms) = (n, g, v', ms')) as X by (apply (same_elem l Hnd _ _ (n, g) Hin (Hfind _ _ _ _ _ E)); now left). injection X as <- <-. exact E. }
  set (row := fun (sec : section) (n g : Z) => match row_of (fst sec) (snd sec) n with Some (RUsed _ g') => g' =? g | _ => false end).
  set (listed := fun n g => if existsb (fun sec => row sec n g) secs then find l n g else None).
  assert (forall sec n g, row sec n g = false -> forall o', ~ lists sec n g o') as Hrow0.
  { intros sec n g E o' X. unfold row in E. unfold lists in X. rewrite X in E. lia. }
  assert (forall sec n g, row sec n g = true -> exists o', lists sec n g o') as Hrow1.
  { intros sec n g E. unfold row in E. unfold lists. destruct (row_of (fst sec) (snd sec) n) as [[? ?|o1 g1|? ?|? ? ?]|]; try discriminate E. assert (g1 = g) as -> by lia. eauto. }
  assert (forall n g, existsb (fun sec => row sec n g) secs = true -> exists o', newest_row secs n g o') as Hex.
  { clear - Hrow0 Hrow1. intros n g. induction secs as [|sec secs IH]; cbn [existsb]; [discriminate|]. destruct (row sec n g) eqn:E.
    - intros _. destruct (Hrow1 _ _ _ E) as [o' Ho']. exists o', [], sec, secs. repeat split; auto.
    - cbn [orb]. intros H. destruct (IH H) as (o' & nw & sc & od & E1 & E2 & E3). exists o', (sec :: nw), sc, od. split; [now rewrite E1|]. split; [exact E2|]. constructor; auto. }
  assert (forall n g o', newest_row secs n g o' -> existsb (fun sec => row sec n g) secs = true) as Hex2.
  { intros n g o' (nw & sc & od & E1 & E2 & E3). apply existsb_exists. exists sc. split; [rewrite E1; apply in_or_app; right; now left|]. unfold row. unfold lists in E2. rewrite E2. apply Z.eqb_refl. }
  pose proof (C97_sessions_exactly inflate ccitt md5 sha256 rc4_size aes_dec f ver pre body rest o secs objs d en eg e before text after rn rg pw h (all_readable listed) l0 (map inl l)) as HX.
  cbv zeta in HX. fold dec in HX. specialize (HX Ef Hh Hoff HC HE He HO1 Hnr Efe HIe Hth HR HB).
  assert (Forall2 (Met inflate ccitt dec) l0 (map inl l)) as HM by (clear - HV; induction HV; cbn [map]; constructor; auto).
  specialize (HX HM Hc).
  assert (forall n g r, all_readable listed n g = Some r -> exists before text after v0,
     newest_row secs n g (zlen before) /\ f = before ++ text ++ after /\ IndObj n g v0 text after /\
     Met inflate ccitt dec (n, g, v0) (match r with inl (v, ms) => inl (n, g, v, ms) | inr x => inr x end)) as HLr.
  { intros n g r. unfold all_readable, listed. destruct (existsb (fun sec => row sec n g) secs) eqn:Ee; [|discriminate]. destruct (find l n g) as [[v ms]|] eqn:Ef1; [|discriminate].
    intros X. injection X as <-. apply Hfind in Ef1. destruct (Hex n g Ee) as [o' Ho']. destruct (HL n g o' Ho') as (bf & tx & af & v0 & v1 & ms1 & -> & E2 & HI & HV1 & Hin).
    assert ((n, g, v, ms) = (n, g, v1, ms1)) as X by (apply (same_elem l Hnd _ _ (n, g) Ef1 Hin); now left). injection X as -> ->. exists bf, tx, af, v0. auto. }
  specialize (HX HLr).
  assert (forall n g o', newest_row secs n g o' -> all_readable listed n g <> None) as HNr.
  { intros n g o' Ho'. unfold all_readable, listed. rewrite (Hex2 n g o' Ho'). destruct (HL n g o' Ho') as (bf & tx & af & v0 & v1 & ms1 & _ & _ & _ & _ & Hin). rewrite (Hfind2 _ _ _ _ Hin). discriminate. }
  specialize (HX HNr D m k HD Hm Hk Hks).
  set (K0 := learn (opened_with objs) en eg (ODict e)) in *.
  assert (forall n g w, K0 n g = Some w -> exists v', In (n, g, v', []) l) as HK0.
  { assert (forall os K n g w, fold_left (fun K e => learn K (fst (fst e)) (snd (fst e)) (snd e)) os K n g = Some w -> (exists v, In (n, g, v) os) \/ K n g = Some w) as HF.
    { induction os as [|[[a b] x] os IH]; intros K n g w; cbn [fold_left fst snd]; [auto|]. intros H. destruct (IH _ _ _ _ H) as [[v Hv]|H1]; [left; exists v; now right|].
      unfold learn in H1. destruct (K n g); [now right|]. destruct ((n =? a) && (g =? b)) eqn:Eab; [|discriminate]. left. exists x. left. assert (n = a /\ g = b) as [-> ->] by (apply andb_true_iff in Eab; lia). reflexivity. }
    intros n g w H. unfold K0, learn in H. destruct (opened_with objs n g) as [w0|] eqn:E0.
    - destruct (HF _ _ _ _ _ E0) as [[v Hv]|X]; [exact (HO n g v Hv)|discriminate].
    - destruct ((n =? en) && (g =? eg)) eqn:Eab; [|discriminate]. assert (n = en /\ g = eg) as [-> ->] by (apply andb_true_iff in Eab; lia). eauto. }
  assert (forall n g v ms, listed n g = Some (v, ms) -> In (n, g, v, ms) l) as Hlist by (intros n g v ms; unfold listed; destruct (existsb _ secs); [apply Hfind|discriminate]).
  assert (forall ids, mlooks listed (K0, l) ids = map value ids) as Hall.
  { intros ids. rewrite (mlooks_once listed K0 l Hnd Hlist HK0 ids K0 l (minv0 K0 l Hnd HK0)). apply map_ext. intros [n g]. unfold or_null, what, value, K0, learn. cbn [fst snd].
    destruct (opened_with objs n g); [reflexivity|]. destruct ((n =? en) && (g =? eg)) eqn:Eab; [|reflexivity].
    assert (n = en /\ g = eg) as [-> ->] by (apply andb_true_iff in Eab; lia). now rewrite (proj1 (provided_own listed K0 l Hlist HK0 l Hnd en eg _ [] Henc)). }
  rewrite llook_readable in HX. destruct HX as (s & Es & HS). exists s.
  assert (fst (mlook listed (K0, l) rn rg) = value (rn, rg)) as Hroot.
  { pose proof (Hall [(rn, rg)]) as X. cbn [mlooks map] in X. destruct (mlook listed (K0, l) rn rg). injection X as X. exact X. }
  split; [rewrite Es, Hroot; reflexivity|]. intros k' ids Hk'. rewrite (HS k' ids Hk'), llooks_readable.
  pose proof (Hall ((rn, rg) :: ids)) as X. cbn [mlooks map] in X. destruct (mlook listed (K0, l) rn rg) as [v [K1 l1]]. cbn [fst snd]. injection X as _ X. rewrite X. now rewrite map_map.
Qed.
Print Assumptions C97_any_objects.

(** ---- documents in which some object cannot be decrypted ---- *)

(** [holds e n g]: the element is the object with this id, or holds it. *)
Definition holds (e : elem) (n g : Z) : Prop := In (n, g) (ids_of e).
Lemma learn_other_id K e n g : K n g = None -> ~ holds e n g -> learn_elem K e n g = None.
Proof.
  destruct e as [[[a b] v] ms]. unfold holds, ids_of, learn_elem. intros HK Hn. cbn [In] in Hn. destruct (K a b); [exact HK|].
  assert (forall ms K, K n g = None -> ~ In (n, g) (map (fun mv : Z * obj => (fst mv, 0)) ms) -> fold_left (fun K' mv => learn K' (fst mv) 0 (snd mv)) ms K n g = None) as HF.
  { clear. induction ms as [|[c w] ms IH]; intros K HK Hn; cbn [fold_left fst snd]; [exact HK|]. cbn [map fst In] in Hn. apply IH; [|tauto].
    unfold learn. rewrite HK. destruct ((n =? c) && (g =? 0)) eqn:E; [|reflexivity]. exfalso. apply Hn. left. apply andb_true_iff in E. f_equal; lia. }
  apply HF; [|tauto]. unfold learn. rewrite HK. destruct ((n =? a) && (g =? b)) eqn:E; [|reflexivity]. exfalso. apply Hn. left. apply andb_true_iff in E. f_equal; lia.
Qed.
Section Blocked.
  Variable listed : Z -> Z -> option ((obj * list (Z * obj)) + exn).
  Variables (n g : Z) (x : exn).
  Hypothesis Hunl : listed n g = None.
  Hypothesis Hheld : forall a b v ms, listed a b = Some (inl (v, ms)) -> ~ holds (a, b, v, ms) n g.
  Definition blocked (s : contents * list entry) : Prop :=
    fst s n g = None /\ obstacle (snd s) = Some x /\ Forall (fun e => ~ holds e n g) (readable (snd s)).
  Lemma blocked_scan : forall l K a b, blocked (K, l) -> let '(K1, l1, y) := scan_entries K l a b in blocked (K1, l1).
  Proof.
    induction l as [|[e|y] l IH]; intros K a b (B1 & B2 & B3); cbn [fst snd obstacle readable] in *; [discriminate B2| |].
    - cbn [scan_entries]. destruct (K a b); [repeat split; auto|]. inversion B3; subst. apply IH. split; [now apply learn_other_id|]. split; [exact B2|assumption].
    - injection B2 as ->. cbn [scan_entries]. destruct (K a b); split; auto; split; reflexivity || constructor.
  Qed.
  Lemma scan_blocked : forall l K, blocked (K, l) -> exists K1 l1, scan_entries K l n g = (K1, l1, Some x).
  Proof.
    induction l as [|[e|y] l IH]; intros K (B1 & B2 & B3); cbn [fst snd obstacle readable] in *; [discriminate B2| |].
    - cbn [scan_entries]. rewrite B1. inversion B3; subst. apply IH. split; [now apply learn_other_id|]. split; [exact B2|assumption].
    - injection B2 as ->. cbn [scan_entries]. rewrite B1. eauto.
  Qed.
  Lemma blocked_look s : blocked s -> fst (llook listed s n g) = Err x.
  Proof.
    destruct s as [K l]. intros HB. unfold llook. cbn [fst snd]. pose proof (proj1 HB) as HB0. cbn [fst] in HB0. rewrite HB0, Hunl. destruct (scan_blocked l K HB) as (K1 & l1 & ->). reflexivity.
  Qed.
  Lemma blocked_after s a b : blocked s -> blocked (snd (llook listed s a b)).
  Proof.
    destruct s as [K l]. intros HB. unfold llook. cbn [fst snd].
    destruct (K a b) as [w|]; [destruct (truthy w); [exact HB|destruct (listed a b) as [[?|?]|]; exact HB]|].
    destruct (listed a b) as [[[v ms]|y]|] eqn:El.
    - destruct HB as (B1 & B2 & B3). split; [|split; [exact B2|exact B3]]. cbn [fst snd] in *. apply learn_other_id; [exact B1|exact (Hheld _ _ _ _ El)].
    - exact HB.
    - pose proof (blocked_scan l K a b HB) as H. destruct (scan_entries K l a b) as [[K1 l1] [y|]]; exact H.
  Qed.
  Lemma blocked_all : forall ids s, blocked s -> forall i, nth_error ids i = Some (n, g) -> nth_error (llooks listed s ids) i = Some (Err x).
  Proof.
    induction ids as [|[a b] ids IH]; intros s HB [|i] Hi; try discriminate Hi; cbn [llooks nth_error] in *.
    - injection Hi as -> ->. pose proof (blocked_look s HB) as H. destruct (llook listed s n g). cbn [fst nth_error] in *. now rewrite H.
    - pose proof (blocked_after s a b HB) as H. destruct (llook listed s a b) as [v s1]. cbn [snd nth_error] in *. now apply IH.
  Qed.
End Blocked.

(** C97 (c), the defect.  If the body holds an object that cannot be decrypted, then no object standing only
    behind it - not in use in any section, nor held by an object that is, nor standing before - can be looked
    up, whatever is looked up before: the lookup raises the exception of that object.  The same goes for
    objects which the file does not have, which are null otherwise. *)
Theorem C97_blocked_refuted : forall inflate ccitt md5 sha256 rc4_size aes_dec f ver pre body rest o secs objs d en eg e before text after rn rg pw h listed l0 l n g x,
  let dec := decrypt_object md5 rc4_size aes_dec (Some h) in
  f = pre ++ body ++ rest -> header_of f (Ok (ver, zlen pre)) -> offset_of f (Ok o) -> XChain inflate ccitt f o secs objs d ->
  dget d (bs "Encrypt") = Some (ORef en eg) -> e <> [] -> opened_with objs en eg = None ->
  newest_row secs en eg (zlen before) -> f = before ++ text ++ after -> IndObj en eg (ODict e) text after ->
  trailer_handler md5 sha256 rc4_size aes_dec (fun _ _ => ODict e) (stm_trailer d) pw = Ok (Some h) ->
  dget d (bs "Root") = Some (ORef rn rg) ->
  ModBody l0 body rest -> Forall2 (Met inflate ccitt dec) l0 l ->
  (forall c, hd_error rest = Some c -> is_digit c = false /\ c <> 115 /\ c <> 116) ->
  (forall n g r, listed n g = Some r -> exists before text after v0,
     newest_row secs n g (zlen before) /\ f = before ++ text ++ after /\ IndObj n g v0 text after /\
     Met inflate ccitt dec (n, g, v0) (match r with inl (v, ms) => inl (n, g, v, ms) | inr x => inr x end)) ->
  (forall n g o, newest_row secs n g o -> listed n g <> None) ->
  obstacle l = Some x -> Forall (fun e => ~ holds e n g) (readable l) ->
  listed n g = None -> (forall a b v ms, listed a b = Some (inl (v, ms)) -> ~ holds (a, b, v, ms) n g) ->
  opened_with objs n g = None -> (n, g) <> (en, eg) ->
  forall D m k s doc, (2 <= D)%nat -> 4 * zlen f + 8 <= Z.of_nat m -> (1 <= k)%nat -> (List.length secs <= S k)%nat ->
  arun f (open_pdf inflate ccitt D m md5 sha256 rc4_size aes_dec k pw) (mkA 0 [] rst0) = (Ok doc, s) ->
  forall k' ids i, (1 <= k')%nat -> nth_error ids i = Some (n, g) -> nth_error (fst (session inflate ccitt dec D m k' f s ids)) i = Some (Err x).
Proof.
  intros inflate ccitt md5 sha256 rc4_size aes_dec f ver pre body rest o secs objs d en eg e before text after rn rg pw h listed l0 l n g x dec
    Ef Hh Hoff HC HE He HO Hnr Efe HIe Hth HR HB HM Hc HL HN Hob Hread Hunl Hheld Hno Hne D m k s doc HD Hm Hk Hks E k' ids i Hk' Hi.
  pose proof (C97_sessions_exactly inflate ccitt md5 sha256 rc4_size aes_dec f ver pre body rest o secs objs d en eg e before text after rn rg pw h listed l0 l) as HX.
  cbv zeta in HX. specialize (HX Ef Hh Hoff HC HE He HO Hnr Efe HIe Hth HR HB HM Hc HL HN D m k HD Hm Hk Hks).
  assert (blocked n g x (learn (opened_with objs) en eg (ODict e), l)) as HBl.
  { split; [|split; [exact Hob|exact Hread]]. cbn [fst]. unfold learn. rewrite Hno. destruct ((n =? en) && (g =? eg)) eqn:Eab; [|reflexivity]. exfalso. apply Hne. apply andb_true_iff in Eab. f_equal; lia. }
  pose proof (blocked_after listed n g x Hheld _ rn rg HBl) as HB1.
  destruct (llook listed (learn (opened_with objs) en eg (ODict e), l) rn rg) as [root s1]. cbn [snd] in HB1.
  destruct HX as (s2 & E2 & HS). rewrite E2 in E. destruct root as [r|y]; [|discriminate E]. injection E as _ <-.
  fold dec in HS. rewrite (HS k' ids Hk'). now apply (blocked_all listed n g x Hunl Hheld ids s1 HB1).
Qed.
Print Assumptions C97_blocked_refuted.

(** Data that the block cipher cannot take: every stream whose length is not that of an initialization vector and whole blocks. *)
Theorem C97_undecryptable : forall md5 rc4_size aes_dec key meta stm str num gen d data,
  stm = Aes128 \/ stm = Aes256 -> id32 num -> id32 gen ->
  (zlen data < 16 \/ zlen data mod 16 <> 0) -> (meta = true \/ is_metadata d = false) ->
  decrypt_object md5 rc4_size aes_dec (Some (HCrypt key meta stm str)) num gen (OStream d data) = Err ValueErr.
Proof.
  intros md5 rc4_size aes_dec key meta stm str num gen d data Hs Hn Hg Hlen Hmeta. cbn [decrypt_object decrypt_with].
  assert (negb meta && is_metadata d = false) as -> by (destruct Hmeta as [-> | ->]; [reflexivity|apply andb_false_r]).
  assert (forall k, aes_cbc aes_dec k (firstn 16 data) (skipn 16 data) = Err ValueErr) as Ha.
  { intros k. unfold aes_cbc. destruct (negb (memZ (zlen k) [16; 24; 32])); [reflexivity|]. destruct (zlen (firstn 16 data) =? 16) eqn:E1; [|reflexivity]. cbn [negb].
    destruct (zlen (skipn 16 data) mod 16 =? 0) eqn:E2; [|reflexivity]. exfalso.
    unfold zlen in *. rewrite firstn_length in E1. rewrite skipn_length in E2.
    assert (16 <= Z.of_nat (List.length data)) as H16 by lia. destruct Hlen as [H|H]; [lia|]. apply H.
    replace (Z.of_nat (List.length data)) with (Z.of_nat (List.length data - 16) + 1 * 16) by lia. rewrite Z.mod_add by lia. lia. }
  destruct Hs as [-> | ->]; cbn [run_method].
  - unfold decrypt_aes128. rewrite !pack_ok by assumption. cbn [rbind]. rewrite Ha. reflexivity.
  - unfold decrypt_aes256. rewrite Ha. reflexivity.
Qed.
Print Assumptions C97_undecryptable.

(** ---- written files ---- *)
Section Obstacle.
  Variable listed : Z -> Z -> option ((obj * list (Z * obj)) + exn).
  Variable K0 : contents.
  Variable clear : list (Z * Z * obj).
  Variables (x : exn) (more : list entry).
  Definition val (id : Z * Z) : res obj :=
    match K0 (fst id) (snd id) with
    | Some v => Ok v
    | None => match find_obj clear (fst id) (snd id) with Some v => Ok v | None => Err x end
    end.
  Definition alone (e : Z * Z * obj) : entry := inl (e, []).
  Hypothesis Hnd : NoDup (map fst clear).
  Hypothesis Hl1 : forall n g v ms, listed n g = Some (inl (v, ms)) -> ms = [] /\ In (n, g, v) clear.
  Hypothesis Hl2 : forall n g y, listed n g = Some (inr y) -> exists w, K0 n g = Some w /\ truthy w = true.
  Hypothesis HK0 : forall n g v w, K0 n g = Some w -> In (n, g, v) clear -> v = w.
  Definition oinv (K : contents) (l : list entry) : Prop :=
    (forall n g w, K n g = Some w -> val (n, g) = Ok w) /\ (forall n g w, K0 n g = Some w -> K n g = Some w) /\
    exists c1 c2, clear = c1 ++ c2 /\ l = map alone c2 ++ inr x :: more /\ forall n g v, In (n, g, v) c1 -> K n g <> None.
  Lemma find_clear : forall c, NoDup (map fst c) -> forall n g v, In (n, g, v) c -> find_obj c n g = Some v.
  Proof.
    clear. induction c as [|[[a b] w] c IH]; intros Hn n g v []; cbn [find_obj]; cbn [map fst] in Hn; inversion Hn as [|? ? X1 X2]; subst.
    - injection H as -> -> ->. now rewrite !Z.eqb_refl.
    - destruct ((a =? n) && (b =? g)) eqn:E; [|auto]. exfalso. apply X1. assert (a = n /\ b = g) as [-> ->] by (apply andb_true_iff in E; lia). exact (in_map fst _ _ H).
  Qed.
  Lemma clear_val n g v : In (n, g, v) clear -> val (n, g) = Ok v.
  Proof.
    intros H. unfold val. cbn [fst snd]. destruct (K0 n g) as [w|] eqn:E; [now rewrite (HK0 n g v w E H)|]. now rewrite (find_clear clear Hnd n g v H).
  Qed.
  Lemma learn_alone K n g v a b : learn_elem K (n, g, v, []) a b = learn K n g v a b.
  Proof.
    unfold learn_elem. destruct (K n g) as [w|] eqn:E; [|reflexivity]. unfold learn. destruct (K a b) eqn:E2; [reflexivity|].
    destruct ((a =? n) && (b =? g)) eqn:Eab; [|reflexivity]. assert (a = n /\ b = g) as [-> ->] by (apply andb_true_iff in Eab; lia). congruence.
  Qed.
  Lemma learn_keeps K n g v : In (n, g, v) clear -> (forall a b w, K a b = Some w -> val (a, b) = Ok w) ->
    (forall a b w, learn_elem K (n, g, v, []) a b = Some w -> val (a, b) = Ok w) /\ (forall a b w, K a b = Some w -> learn_elem K (n, g, v, []) a b = Some w).
  Proof.
    intros Hin HK. split; intros a b w; rewrite learn_alone; unfold learn.
    - destruct (K a b) as [w0|] eqn:E; [intros X; injection X as <-; auto|]. destruct ((a =? n) && (b =? g)) eqn:Eab; [|discriminate].
      intros X. injection X as <-. assert (a = n /\ b = g) as [-> ->] by (apply andb_true_iff in Eab; lia). now apply clear_val.
    - intros ->. reflexivity.
  Qed.
  Lemma in_find : forall c n g v, find_obj c n g = Some v -> In (n, g, v) c.
  Proof.
    clear. induction c as [|[[a b] w] c IH]; intros n g v; cbn [find_obj]; [discriminate|]. destruct ((a =? n) && (b =? g)) eqn:E.
    - intros X. injection X as <-. left. assert (a = n /\ b = g) as [-> ->] by (apply andb_true_iff in E; lia). reflexivity.
    - intros X. right. auto.
  Qed.
  Lemma oscan n g : forall c2 c1 K, clear = c1 ++ c2 -> (forall a b w, K a b = Some w -> val (a, b) = Ok w) -> (forall a b w, K0 a b = Some w -> K a b = Some w) ->
    (forall a b v, In (a, b, v) c1 -> K a b <> None) -> K n g = None ->
    let '(K1, l1, y) := scan_entries K (map alone c2 ++ inr x :: more) n g in
    oinv K1 l1 /\ match y with Some e => val (n, g) = Err e | None => exists w, K1 n g = Some w end.
  Proof.
    induction c2 as [|[[a b] v] c2 IH]; intros c1 K Ec H1 H2 H3 Hk; cbn [map app scan_entries]; rewrite Hk.
    - split; [split; [exact H1|split; [exact H2|exists c1, []; auto]]|]. unfold val. cbn [fst snd]. destruct (K0 n g) as [w|] eqn:E0; [rewrite (H2 _ _ _ E0) in Hk; discriminate|].
      destruct (find_obj clear n g) as [v|] eqn:Ef; [|reflexivity]. exfalso. apply in_find in Ef. rewrite Ec, app_nil_r in Ef. exact (H3 _ _ _ Ef Hk).
    - assert (In (a, b, v) clear) as Hin by (rewrite Ec; apply in_or_app; right; now left). destruct (learn_keeps K a b v Hin H1) as [L1 L2].
      change (learn_elem K (a, b, v, [])) with (learn_elem K (a, b, v, [])). unfold alone at 1.
      assert (clear = (c1 ++ [(a, b, v)]) ++ c2) as Ec2 by (rewrite <- app_assoc; exact Ec).
      assert (forall p q w, In (p, q, w) (c1 ++ [(a, b, v)]) -> learn_elem K (a, b, v, []) p q <> None) as H3'.
      { intros p q w Hp. apply in_app_or in Hp. destruct Hp as [Hp|[Hp|[]]].
        - destruct (K p q) as [w0|] eqn:E; [rewrite (L2 _ _ _ E); discriminate|exfalso; exact (H3 _ _ _ Hp E)].
        - injection Hp as <- <- <-. destruct (learn_elem_some K a b v []) as [w0 ->]. discriminate. }
      destruct (learn_elem K (a, b, v, []) n g) as [w|] eqn:Ew.
      + rewrite (scan_entries_known _ _ _ _ _ Ew). split; [|exists w; exact Ew]. split; [exact L1|]. split; [intros; apply L2; auto|].
        exists (c1 ++ [(a, b, v)]), c2. auto.
      + apply (IH (c1 ++ [(a, b, v)])); auto.
  Qed.
  Lemma olook K l n g : oinv K l -> fst (llook listed (K, l) n g) = val (n, g) /\ oinv (fst (snd (llook listed (K, l) n g))) (snd (snd (llook listed (K, l) n g))).
  Proof.
    intros HI. pose proof HI as (H1 & H2 & c1 & c2 & Ec & El & H3). unfold llook. cbn [fst snd]. destruct (K n g) as [w|] eqn:Ek.
    - destruct (truthy w) eqn:Et; [cbn [fst snd]; rewrite (H1 _ _ _ Ek); auto|]. destruct (listed n g) as [[r|y]|] eqn:Ey; cbn [fst snd]; try (rewrite (H1 _ _ _ Ek); auto).
      destruct (Hl2 _ _ _ Ey) as (w0 & A & B). rewrite (H2 _ _ _ A) in Ek. injection Ek as ->. congruence.
    - destruct (listed n g) as [[[v ms]|y]|] eqn:Ey; cbn [fst snd].
      + destruct (Hl1 _ _ _ _ Ey) as [-> Hin]. destruct (learn_keeps K n g v Hin H1) as [L1 L2]. split; [now rewrite (clear_val n g v Hin)|].
        split; [exact L1|]. split; [intros; apply L2; auto|]. exists c1, c2. split; [exact Ec|]. split; [exact El|]. intros a b w Hc. destruct (K a b) as [w0|] eqn:E; [rewrite (L2 _ _ _ E); discriminate|exfalso; exact (H3 _ _ _ Hc E)].
      + destruct (Hl2 _ _ _ Ey) as (w0 & A & B). rewrite (H2 _ _ _ A) in Ek. discriminate.
      + pose proof (oscan n g c2 c1 K Ec H1 H2 H3 Ek) as HS. rewrite <- El in HS. destruct (scan_entries K l n g) as [[K1 l1] [e|]]; destruct HS as [HS1 HS2]; cbn [fst snd].
        * split; [now rewrite HS2|exact HS1].
        * destruct HS2 as [w Hw]. split; [|exact HS1]. rewrite Hw. destruct HS1 as (S1 & _). now rewrite (S1 _ _ _ Hw).
  Qed.
  Lemma olooks : forall ids K l, oinv K l -> llooks listed (K, l) ids = map val ids.
  Proof.
    induction ids as [|[n g] ids IH]; intros K l HI; cbn [llooks map]; [reflexivity|]. destruct (olook K l n g HI) as [E1 E2].
    destruct (llook listed (K, l) n g) as [v [K1 l1]]. cbn [fst snd] in *. subst v. now rewrite IH.
  Qed.
  Lemma oinv0 : oinv K0 (map alone clear ++ inr x :: more).
  Proof. split; [|split; [auto|exists [], clear; split; [reflexivity|split; [reflexivity|intros ? ? ? []]]]]. intros n g w E. unfold val. cbn [fst snd]. now rewrite E. Qed.
End Obstacle.

Lemma listed_once : forall objs start n g v, NoDup (map (fun e : Z * Z * obj => fst (fst e)) objs) -> In (n, g, v) objs -> exists o, last_listed true n (listings start objs) = Some (g, o).
Proof.
  induction objs as [|[[a b] w] objs IH]; intros start n g v Hnd Hin; [destruct Hin|]. cbn [map fst] in Hnd. inversion Hnd as [|? ? X1 X2]; subst. cbn [listings last_listed li_num li_used li_gen li_off]. destruct Hin as [X|Hin].
  - injection X as -> -> ->. destruct (last_listed true n (listings (start + zlen (object_text n g v) + 1) objs)) as [y|] eqn:E; [exfalso; apply X1; exact (listed_nums _ _ _ _ E)|].
    rewrite Z.eqb_refl. cbn. eauto.
  - destruct (IH (start + zlen (object_text a b w) + 1) n g v X2 Hin) as [o ->]. eauto.
Qed.
Lemma same_number : forall (l : list (Z * Z * obj)) n g g' v v', NoDup (map (fun e => fst (fst e)) l) -> In (n, g, v) l -> In (n, g', v') l -> g = g' /\ v = v'.
Proof.
  induction l as [|e l IH]; intros n g g' v v' Hnd [] []; cbn [map] in Hnd; inversion Hnd as [|? ? X1 X2]; subst.
  - injection H0 as -> ->. auto.
  - exfalso. apply X1. exact (in_map (fun e : Z * Z * obj => fst (fst e)) _ _ H0).
  - exfalso. apply X1. exact (in_map (fun e : Z * Z * obj => fst (fst e)) _ _ H).
  - eapply IH; eauto.
Qed.

(** C97 (d), the defect in files as written.  A document written with a cross-reference stream, its objects
    encrypted with AES (each decrypts to the object of [clear]); the data of the cross-reference stream, which is
    not encrypted, is not a vector and whole blocks long.  The document opens, its objects are read, but a lookup of any id that it does not
    have raises ValueError, instead of giving null. *)
Theorem C97_written_refuted : forall inflate ccitt deflate md5 sha256 rc4_size aes_dec a b r en eg e rn rg pw key meta stm str clear,
  let dec := decrypt_object md5 rc4_size aes_dec (Some (HCrypt key meta stm str)) in
  let f := modern_file deflate a b [r] in
  let stream := xvalue deflate (zlen (version_line a b)) None r in
  (forall x, inflate (deflate x) = Some x) -> is_digit a = true -> is_digit b = true ->
  mrev_ok r -> mr_stms r = [] -> zlen f < 256 ^ 4 -> mr_num r < 256 ^ 4 ->
  NoDup (map (fun x => fst (fst x)) (mr_objs r) ++ [mr_num r]) ->
  mr_first r <= en < mr_first r + Z.of_nat (mr_count r) -> In (en, eg, ODict e) (mr_objs r) -> e <> [] ->
  dget (mr_trailer r) (bs "Encrypt") = Some (ORef en eg) -> dget (mr_trailer r) (bs "Root") = Some (ORef rn rg) ->
  trailer_handler md5 sha256 rc4_size aes_dec (fun _ _ => ODict e) (trailer_read None (mr_trailer r)) pw = Ok (Some (HCrypt key meta stm str)) ->
  stm = Aes128 \/ stm = Aes256 ->
  Forall2 (fun x c => Viewed inflate ccitt dec x (c, [])) (mr_objs r) clear -> In (rn, rg) (map fst clear) ->
  (forall data, stream = OStream (xdict None r ++ [(bs "Filter", OName (bs "FlateDecode")); (bs "Length", OInt (zlen data))]) data ->
     data <> [] /\ (zlen data < 16 \/ zlen data mod 16 <> 0)) ->
  forall D m k, (2 <= D)%nat -> 4 * zlen f + 8 <= Z.of_nat m -> (1 <= k)%nat ->
  exists s root, arun f (open_pdf inflate ccitt D m md5 sha256 rc4_size aes_dec k pw) (mkA 0 [] rst0) =
              (Ok ([a; 46; b], trailer_read None (mr_trailer r), Some (HCrypt key meta stm str), root), s) /\ find_obj clear rn rg = Some root /\
  forall k' ids, (1 <= k')%nat -> fst (session inflate ccitt dec D m k' f s ids) =
    map (fun id => match find_obj clear (fst id) (snd id) with
                   | Some v => Ok v
                   | None => if (fst id =? mr_num r) && (snd id =? 0) then Ok stream else Err ValueErr
                   end) ids.
Proof.
  intros inflate ccitt deflate md5 sha256 rc4_size aes_dec a b r en eg e rn rg pw key meta stm str clear dec f stream
    Hround Ha Hb Hr Hst Hlt Hnum Hnd Hen Hin He HE HR Hth Hstm HF2 Hroot Hlen D m k HD Hm Hk.
  assert (Forall mrev_ok [r]) as HF by (constructor; [exact Hr|constructor]).
  assert (zlen (fst (mwrite deflate a b [r])) < 256 ^ 4) as Hlt' by exact Hlt.
  destruct (mfacts inflate ccitt deflate Hround a b Ha Hb r [] HF Hlt') as (o & d & Hh & Hoff & HC & HT & HB). change (fst (mwrite deflate a b [r])) with f in *.
  assert (snd (mwrite deflate a b []) = None) as Epv by reflexivity. cbn [mwrite snd] in HT.
  assert (mobjs deflate r = mr_objs r) as Eo by (unfold mobjs; rewrite Hst; cbn [map]; apply app_nil_r).
  assert (file_objects deflate a b [r] = mr_objs r ++ [(mr_num r, 0, stream)]) as Efo by (cbn [file_objects app]; unfold rev_objects; rewrite Eo; reflexivity).
  assert (mxobjs deflate a b [r] = [(mr_num r, 0, stream)]) as Exo by reflexivity.
  assert (NoDup (map (fun x => fst (fst x)) (file_objects deflate a b [r]))) as HndF by (rewrite Efo, map_app; exact Hnd).
  set (secs := msecs deflate a b [r]) in *.
  assert (Hmap : map fst clear = map fst (mr_objs r)) by (clear - HF2; induction HF2 as [|[[n0 g0] v0] [[n1 g1] v1] l0 l1 (E1 & E2 & E3 & E4) HF IH]; [reflexivity|]; cbn [map fst]; rewrite IH; now subst).
  assert (map (fun x => fst (fst x)) clear = map (fun x => fst (fst x)) (mr_objs r)) as Hmap2 by (rewrite <- (map_map fst fst clear), Hmap, map_map; reflexivity).
  assert (NoDup (map (fun x : Z * Z * obj => fst (fst x)) clear)) as HndC2.
  { rewrite Hmap2. apply NoDup_remove_1 with (a := mr_num r) (l' := []) in Hnd. now rewrite app_nil_r in Hnd. }
  assert (NoDup (map fst clear)) as HndC by (rewrite <- (map_map fst fst clear) in HndC2; exact (NoDup_map_inv _ _ HndC2)).
  assert (forall g v, ~ In (mr_num r, g, v) clear) as Hnot.
  { intros g v X. apply (NoDup_remove_2 _ [] _ Hnd). rewrite app_nil_r, <- Hmap2. exact (in_map (fun x : Z * Z * obj => fst (fst x)) _ _ X). }
  (* the Encrypt dictionary *)
  assert (exists oe, newest_row secs en eg oe) as [oe Hnr].
  { assert (NoDup (map (fun x : Z * Z * obj => fst (fst x)) (mobjs deflate r))) as HndM by (rewrite Eo; rewrite <- Hmap2; exact HndC2).
    assert (In (en, eg, ODict e) (mobjs deflate r)) as Hin2 by now rewrite Eo.
    destruct (listed_once (mobjs deflate r) (zlen (version_line a b)) en eg (ODict e) HndM Hin2) as [oe Ho]. exists oe, [], (sec_of deflate (zlen (version_line a b)) r), []. split; [reflexivity|]. split; [|constructor].
    assert (row_of (mr_first r) (mrows deflate (zlen (version_line a b)) r) en = Some (mrow deflate (zlen (version_line a b)) r en)) as Hrow.
    { unfold row_of. replace (en <? mr_first r) with false by lia. unfold mrows. rewrite nth_error_map.
      assert (nth_error (seq 0 (mr_count r)) (Z.to_nat (en - mr_first r)) = Some (Z.to_nat (en - mr_first r))) as ->.
      { rewrite (nth_error_nth' _ O) by (rewrite seq_length; lia). rewrite seq_nth by lia. reflexivity. }
      cbn [option_map]. repeat f_equal. lia. }
    unfold lists, sec_of. cbn [fst snd]. rewrite Hrow. f_equal. unfold mrow.
    assert (forall l1 l2, last_listed true en l2 = None -> last_listed true en (l1 ++ l2) = last_listed true en l1) as Hll.
    { clear. induction l1 as [|y l1 IH]; intros l2 H; cbn [app last_listed]; [exact H|]. now rewrite IH. }
    rewrite Hll, Ho; [reflexivity|]. cbn [last_listed li_num li_used]. destruct (mr_num r =? en) eqn:E; [|reflexivity]. exfalso. apply (NoDup_remove_2 _ [] _ Hnd). rewrite app_nil_r.
    assert (mr_num r = en) as -> by lia. exact (in_map (fun x : Z * Z * obj => fst (fst x)) _ _ Hin). }
  destruct (listed_written inflate ccitt deflate Hround a b Ha Hb [r] HF [] en eg oe Hnr) as (before & text & after & v & -> & Ef & HI & Hv). rewrite app_nil_r in Ef. change (fst (mwrite deflate a b [r])) with f in Ef.
  assert (v = ODict e) as ->.
  { destruct (same_number _ en eg eg v (ODict e) HndF Hv) as [_ X]; [rewrite Efo; apply in_or_app; left; exact Hin|exact X]. }
  (* the cross-reference stream *)
  assert (exists data, stream = OStream (xdict None r ++ [(bs "Filter", OName (bs "FlateDecode")); (bs "Length", OInt (zlen data))]) data) as [data Estm] by (eexists; unfold stream, xvalue, packed; reflexivity).
  assert (0 <= mr_num r) as Hnum0 by apply Hr.
  assert (dec (mr_num r) 0 stream = Err ValueErr) as Hbad.
  { rewrite Estm. unfold dec. apply C97_undecryptable; [exact Hstm|unfold id32; lia|unfold id32; lia|exact (proj2 (Hlen data Estm))|right; reflexivity]. }
  set (l := map alone clear ++ [inr ValueErr]).
  assert (Forall2 (Met inflate ccitt dec) (file_objects deflate a b [r]) l) as HM.
  { rewrite Efo. apply Forall2_app.
    - clear - HF2. induction HF2; cbn [map]; constructor; auto.
    - constructor; [|constructor]. split; [exact Hbad|]. now left. }
  set (find := fix find (r : list (Z * Z * obj)) (n g : Z) : option obj := match r with [] => None | (x, y, v) :: r' => if (x =? n) && (y =? g) then Some v else find r' n g end).
  set (row := fun (sec : section) (n g : Z) => match row_of (fst sec) (snd sec) n with Some (RUsed _ g') => g' =? g | _ => false end).
  set (listed := fun n g => if existsb (fun sec => row sec n g) secs then
     match find_obj clear n g with Some v => Some (inl (v, @nil (Z * obj))) | None => if (n =? mr_num r) && (g =? 0) then Some (inr ValueErr) else None end else None).
  assert (forall n g o', newest_row secs n g o' -> existsb (fun sec => row sec n g) secs = true) as Hex2.
  { intros n g o' (nw & sc & od & E1 & E2 & E3). apply existsb_exists. exists sc. split; [rewrite E1; apply in_or_app; right; now left|]. unfold row. unfold lists in E2. rewrite E2. apply Z.eqb_refl. }
  assert (forall n g, existsb (fun sec => row sec n g) secs = true -> exists o', newest_row secs n g o') as Hex.
  { intros n g. unfold secs. cbn [msecs existsb]. rewrite Bool.orb_false_r. unfold row at 1. set (sec := sec_of deflate (zlen (fst (mwrite deflate a b []))) r).
    destruct (row_of (fst sec) (snd sec) n) as [[? ?|o1 g1|? ?|? ? ?]|] eqn:Er; try discriminate. intros X. assert (g1 = g) as -> by lia.
    exists o1, [], sec, []. split; [reflexivity|]. split; [exact Er|constructor]. }
  assert (forall n g v, find_obj clear n g = Some v -> exists v0, In (n, g, v0) (mr_objs r) /\ Viewed inflate ccitt dec (n, g, v0) (n, g, v, [])) as Hclear.
  { clear - HF2. intros n g v Hf. apply in_find in Hf. induction HF2 as [|[[n0 g0] v0] [[n1 g1] v1] l0 l1 HV HF IH]; [destruct Hf|]. destruct Hf as [X|X].
    - injection X as -> -> ->. pose proof HV as (E1 & E2 & _). subst. exists v0. split; [now left|exact HV].
    - destruct (IH X) as (w & A & B). exists w. split; [now right|exact B]. }
  pose proof (C97_sessions_exactly inflate ccitt md5 sha256 rc4_size aes_dec f [a; 46; b] [] f [] o secs (mxobjs deflate a b [r]) d en eg e before text after rn rg pw
    (HCrypt key meta stm str) listed (file_objects deflate a b [r]) l) as HX. cbv zeta in HX. fold dec in HX.
  assert (dget d (bs "Encrypt") = Some (ORef en eg) /\ dget d (bs "Root") = Some (ORef rn rg)) as [HEd HRd].
  { assert (forall k v, In k [bs "Root"; bs "Encrypt"] -> dget (mr_trailer r) k = Some v -> v <> ONull -> dget d k = Some v) as Hget.
    { intros k0 v Hk0 Hg Hv0. assert (In k0 [bs "Size"; bs "Prev"; bs "Root"; bs "Encrypt"; bs "Info"; bs "ID"]) as Hi by (cbn [In] in *; tauto).
      assert (dget (stm_trailer d) k0 = Some v) as X.
      { rewrite HT. cbn [In] in Hk0. destruct Hk0 as [<-|[<-|[]]]; unfold trailer_read; cbn [map]; cbn [dget]; rewrite Hg; reflexivity. }
      rewrite (stm_trailer_get d k0 Hi) in X. destruct (dget d k0); congruence. }
    split; apply Hget; try assumption; try discriminate; [right; now left|now left]. }
  assert (opened_with (mxobjs deflate a b [r]) = learn (fun _ _ => None) (mr_num r) 0 stream) as Eow by (rewrite Exo; reflexivity).
  assert (In (en, eg, ODict e) clear) as HinC.
  { clear - HF2 Hin. induction HF2 as [|[[n0 g0] v0] [[n1 g1] v1] l0 l1 HV HF IH]; [destruct Hin|]. destruct Hin as [X|X]; [|right; auto].
    injection X as -> -> ->. destruct HV as (-> & -> & X & _). cbn in X. injection X as <-. now left. }
  assert (opened_with (mxobjs deflate a b [r]) en eg = None) as HO1.
  { rewrite Eow. unfold learn. destruct ((en =? mr_num r) && (eg =? 0)) eqn:E; [|reflexivity]. exfalso. assert (en = mr_num r) as X by lia. rewrite X in HinC. exact (Hnot _ _ HinC). }
  specialize (HX ltac:(now rewrite app_nil_r) Hh Hoff HC HEd He HO1 Hnr Ef HI). rewrite HT in HX. specialize (HX Hth HRd HB HM ltac:(intros c X; discriminate X)).
  assert (forall n g q, listed n g = Some q -> exists before text after v0,
     newest_row secs n g (zlen before) /\ f = before ++ text ++ after /\ IndObj n g v0 text after /\
     Met inflate ccitt dec (n, g, v0) (match q with inl (v, ms) => inl (n, g, v, ms) | inr x => inr x end)) as HL.
  { intros n g q. unfold listed. destruct (existsb (fun sec => row sec n g) secs) eqn:Ee; [|discriminate]. destruct (Hex n g Ee) as [o' Ho'].
    destruct (listed_written inflate ccitt deflate Hround a b Ha Hb [r] HF [] n g o' Ho') as (bf & tx & af & v0 & -> & E2 & HI2 & Hv2). rewrite app_nil_r in E2. change (fst (mwrite deflate a b [r])) with f in E2.
    intros Hq. exists bf, tx, af, v0. split; [exact Ho'|]. split; [exact E2|]. split; [exact HI2|].
    destruct (find_obj clear n g) as [v|] eqn:Efc.
    - injection Hq as <-. destruct (Hclear n g v Efc) as (v1 & A & B).
      destruct (same_number _ n g g v0 v1 HndF Hv2) as [_ ->]; [rewrite Efo; apply in_or_app; left; exact A|exact B].
    - destruct ((n =? mr_num r) && (g =? 0)) eqn:E; [|discriminate]. injection Hq as <-. assert (n = mr_num r /\ g = 0) as [-> ->] by (apply andb_true_iff in E; lia).
      destruct (same_number _ (mr_num r) 0 0 v0 stream HndF Hv2) as [_ ->]; [rewrite Efo; apply in_or_app; right; now left|]. split; [exact Hbad|now left]. }
  assert (forall n g o', newest_row secs n g o' -> listed n g <> None) as HN.
  { intros n g o' Ho'. unfold listed. rewrite (Hex2 n g o' Ho'). destruct (find_obj clear n g) as [v|] eqn:Efc; [discriminate|].
    destruct (listed_written inflate ccitt deflate Hround a b Ha Hb [r] HF [] n g o' Ho') as (bf & tx & af & v0 & _ & _ & _ & Hv2). rewrite Efo in Hv2. apply in_app_or in Hv2. destruct Hv2 as [Hv2|[X|[]]].
    - exfalso. apply (in_map fst) in Hv2. cbn [fst] in Hv2. rewrite <- Hmap in Hv2. apply in_map_iff in Hv2. destruct Hv2 as ([[n1 g1] v1] & X & Y). cbn [fst] in X. injection X as -> ->. rewrite (find_clear clear HndC n g v1 Y) in Efc. discriminate.
    - injection X as <- <- <-. rewrite !Z.eqb_refl. discriminate. }
  specialize (HX HL HN D m k HD Hm Hk). assert (List.length secs <= S k)%nat as Hks by (unfold secs; cbn; lia). specialize (HX Hks).
  set (K0 := learn (opened_with (mxobjs deflate a b [r])) en eg (ODict e)) in *.
  assert (forall n g, K0 n g = if (n =? mr_num r) && (g =? 0) then Some stream else if (n =? en) && (g =? eg) then Some (ODict e) else None) as EK0.
  { intros n g. unfold K0. rewrite Eow. unfold learn. destruct ((n =? mr_num r) && (g =? 0)); reflexivity. }
  assert (forall n g v w, K0 n g = Some w -> In (n, g, v) clear -> v = w) as HK0.
  { intros n g v w. rewrite EK0. destruct ((n =? mr_num r) && (g =? 0)) eqn:E1.
    - intros _ X. exfalso. assert (n = mr_num r) as -> by lia. exact (Hnot _ _ X).
    - destruct ((n =? en) && (g =? eg)) eqn:E2; [|discriminate]. intros X Y. injection X as <-. assert (n = en /\ g = eg) as [-> ->] by (apply andb_true_iff in E2; lia).
      destruct (same_number _ _ _ _ _ _ HndC2 Y HinC) as [_ ->]. reflexivity. }
  assert (forall n g v ms, listed n g = Some (inl (v, ms)) -> ms = [] /\ In (n, g, v) clear) as Hl1.
  { intros n g v ms. unfold listed. destruct (existsb _ secs); [|discriminate]. destruct (find_obj clear n g) as [v1|] eqn:Efc; [|destruct ((n =? mr_num r) && (g =? 0)); discriminate].
    intros X. injection X as <- <-. split; [reflexivity|now apply in_find]. }
  assert (forall n g y, listed n g = Some (inr y) -> exists w, K0 n g = Some w /\ truthy w = true) as Hl2.
  { intros n g y. unfold listed. destruct (existsb _ secs); [|discriminate]. destruct (find_obj clear n g); [discriminate|]. destruct ((n =? mr_num r) && (g =? 0)) eqn:E; [|discriminate].
    intros _. exists stream. rewrite EK0, E. split; [reflexivity|]. rewrite Estm. cbn [truthy]. destruct data; [exfalso; exact (proj1 (Hlen [] Estm) eq_refl)|reflexivity]. }
  pose proof (olook listed K0 clear ValueErr [] HndC Hl1 Hl2 HK0 K0 l rn rg (oinv0 K0 clear ValueErr [])) as [E1 E2].
  destruct (llook listed (K0, l) rn rg) as [root0 [K1 l1]]. cbn [fst snd] in E1, E2. destruct HX as (s & Es & HS).
  assert (forall id, val K0 clear ValueErr id = match find_obj clear (fst id) (snd id) with Some v => Ok v | None => if (fst id =? mr_num r) && (snd id =? 0) then Ok stream else Err ValueErr end) as Hval.
  { intros [n g]. cbn [fst snd]. destruct (find_obj clear n g) as [v|] eqn:Efc.
    - apply (clear_val K0 clear ValueErr HndC HK0). now apply in_find.
    - unfold val. cbn [fst snd]. rewrite EK0, Efc. destruct ((n =? mr_num r) && (g =? 0)); [reflexivity|]. destruct ((n =? en) && (g =? eg)) eqn:E; [|reflexivity].
      assert (n = en /\ g = eg) as [-> ->] by (apply andb_true_iff in E; lia). rewrite (find_clear clear HndC en eg _ HinC) in Efc. discriminate. }
  apply in_map_iff in Hroot. destruct Hroot as ([[rn' rg'] rv] & X & Hrv). cbn [fst] in X. injection X as -> ->.
  pose proof (find_clear clear HndC rn rg rv Hrv) as Hfr. rewrite Hval in E1. cbn [fst snd] in E1. rewrite Hfr in E1. subst root0.
  exists s, rv. split; [exact Es|]. split; [exact Hfr|]. intros k' ids Hk'. rewrite (HS k' ids Hk'). rewrite (olooks listed K0 clear ValueErr [] HndC Hl1 Hl2 HK0 ids K1 l1 E2). apply map_ext. exact Hval.
Qed.
Print Assumptions C97_written_refuted.

(** C97 (e).  A document written with a cross-reference stream, its objects encrypted with any method that
    the handler knows, [clear] being what they decrypt to.  If the cross-reference stream, which is not encrypted, happens to be decrypted
    without an exception - always, with RC4 - then every lookup gives the decrypted object, or null. *)
Theorem C97_written : forall inflate ccitt deflate md5 sha256 rc4_size aes_dec a b r en eg e rn rg pw h clear w,
  let dec := decrypt_object md5 rc4_size aes_dec (Some h) in
  let f := modern_file deflate a b [r] in
  let stream := xvalue deflate (zlen (version_line a b)) None r in
  (forall x, inflate (deflate x) = Some x) -> is_digit a = true -> is_digit b = true ->
  mrev_ok r -> mr_stms r = [] -> zlen f < 256 ^ 4 ->
  NoDup (map (fun x => fst (fst x)) (mr_objs r) ++ [mr_num r]) ->
  mr_first r <= en < mr_first r + Z.of_nat (mr_count r) -> In (en, eg, ODict e) (mr_objs r) -> e <> [] ->
  dget (mr_trailer r) (bs "Encrypt") = Some (ORef en eg) -> dget (mr_trailer r) (bs "Root") = Some (ORef rn rg) ->
  trailer_handler md5 sha256 rc4_size aes_dec (fun _ _ => ODict e) (trailer_read None (mr_trailer r)) pw = Ok (Some h) ->
  Forall2 (fun x c => Viewed inflate ccitt dec x (c, [])) (mr_objs r) clear ->
  Viewed inflate ccitt dec (mr_num r, 0, stream) (mr_num r, 0, w, []) ->
  forall D m k, (2 <= D)%nat -> 4 * zlen f + 8 <= Z.of_nat m -> (1 <= k)%nat ->
  let value (id : Z * Z) := match find_obj clear (fst id) (snd id) with
                   | Some v => v
                   | None => if (fst id =? mr_num r) && (snd id =? 0) then stream else ONull
                   end in
  exists s, arun f (open_pdf inflate ccitt D m md5 sha256 rc4_size aes_dec k pw) (mkA 0 [] rst0) =
              (Ok ([a; 46; b], trailer_read None (mr_trailer r), Some h, value (rn, rg)), s) /\
  forall k' ids, (1 <= k')%nat -> fst (session inflate ccitt dec D m k' f s ids) = map (fun id => Ok (value id)) ids.
Proof.
  intros inflate ccitt deflate md5 sha256 rc4_size aes_dec a b r en eg e rn rg pw h clear w dec f stream
    Hround Ha Hb Hr Hst Hlt Hnd Hen Hin He HE HR Hth HF2 HVx D m k HD Hm Hk value.
  assert (Forall mrev_ok [r]) as HF by (constructor; [exact Hr|constructor]).
  assert (zlen (fst (mwrite deflate a b [r])) < 256 ^ 4) as Hlt' by exact Hlt.
  destruct (mfacts inflate ccitt deflate Hround a b Ha Hb r [] HF Hlt') as (o & d & Hh & Hoff & HC & HT & HB). change (fst (mwrite deflate a b [r])) with f in *.
  assert (snd (mwrite deflate a b []) = None) as Epv by reflexivity. cbn [mwrite snd] in HT.
  assert (mobjs deflate r = mr_objs r) as Eo by (unfold mobjs; rewrite Hst; cbn [map]; apply app_nil_r).
  assert (file_objects deflate a b [r] = mr_objs r ++ [(mr_num r, 0, stream)]) as Efo by (cbn [file_objects app]; unfold rev_objects; rewrite Eo; reflexivity).
  assert (mxobjs deflate a b [r] = [(mr_num r, 0, stream)]) as Exo by reflexivity.
  assert (NoDup (map (fun x => fst (fst x)) (file_objects deflate a b [r]))) as HndF by (rewrite Efo, map_app; exact Hnd).
  set (secs := msecs deflate a b [r]) in *.
  assert (Hmap : map fst clear = map fst (mr_objs r)) by (clear - HF2; induction HF2 as [|[[n0 g0] v0] [[n1 g1] v1] l0 l1 (E1 & E2 & E3 & E4) HF IH]; [reflexivity|]; cbn [map fst]; rewrite IH; now subst).
  assert (map (fun x => fst (fst x)) clear = map (fun x => fst (fst x)) (mr_objs r)) as Hmap2 by (rewrite <- (map_map fst fst clear), Hmap, map_map; reflexivity).
  assert (NoDup (map (fun x : Z * Z * obj => fst (fst x)) clear)) as HndC2.
  { rewrite Hmap2. apply NoDup_remove_1 with (a := mr_num r) (l' := []) in Hnd. now rewrite app_nil_r in Hnd. }
  assert (NoDup (map fst clear)) as HndC by (rewrite <- (map_map fst fst clear) in HndC2; exact (NoDup_map_inv _ _ HndC2)).
  assert (forall g v, ~ In (mr_num r, g, v) clear) as Hnot.
  { intros g v X. apply (NoDup_remove_2 _ [] _ Hnd). rewrite app_nil_r, <- Hmap2. exact (in_map (fun x : Z * Z * obj => fst (fst x)) _ _ X). }
  (* the Encrypt dictionary *)
  assert (exists oe, newest_row secs en eg oe) as [oe Hnr].
  { assert (NoDup (map (fun x : Z * Z * obj => fst (fst x)) (mobjs deflate r))) as HndM by (rewrite Eo; rewrite <- Hmap2; exact HndC2).
    assert (In (en, eg, ODict e) (mobjs deflate r)) as Hin2 by now rewrite Eo.
    destruct (listed_once (mobjs deflate r) (zlen (version_line a b)) en eg (ODict e) HndM Hin2) as [oe Ho]. exists oe, [], (sec_of deflate (zlen (version_line a b)) r), []. split; [reflexivity|]. split; [|constructor].
    assert (row_of (mr_first r) (mrows deflate (zlen (version_line a b)) r) en = Some (mrow deflate (zlen (version_line a b)) r en)) as Hrow.
    { unfold row_of. replace (en <? mr_first r) with false by lia. unfold mrows. rewrite nth_error_map.
      assert (nth_error (seq 0 (mr_count r)) (Z.to_nat (en - mr_first r)) = Some (Z.to_nat (en - mr_first r))) as ->.
      { rewrite (nth_error_nth' _ O) by (rewrite seq_length; lia). rewrite seq_nth by lia. reflexivity. }
      cbn [option_map]. repeat f_equal. lia. }
    unfold lists, sec_of. cbn [fst snd]. rewrite Hrow. f_equal. unfold mrow.
    assert (forall l1 l2, last_listed true en l2 = None -> last_listed true en (l1 ++ l2) = last_listed true en l1) as Hll.
    { clear. induction l1 as [|y l1 IH]; intros l2 H; cbn [app last_listed]; [exact H|]. now rewrite IH. }
    rewrite Hll, Ho; [reflexivity|]. cbn [last_listed li_num li_used]. destruct (mr_num r =? en) eqn:E; [|reflexivity]. exfalso. apply (NoDup_remove_2 _ [] _ Hnd). rewrite app_nil_r.
    assert (mr_num r = en) as -> by lia. exact (in_map (fun x : Z * Z * obj => fst (fst x)) _ _ Hin). }
  destruct (listed_written inflate ccitt deflate Hround a b Ha Hb [r] HF [] en eg oe Hnr) as (before & text & after & v & -> & Ef & HI & Hv). rewrite app_nil_r in Ef. change (fst (mwrite deflate a b [r])) with f in Ef.
  assert (v = ODict e) as ->.
  { destruct (same_number _ en eg eg v (ODict e) HndF Hv) as [_ X]; [rewrite Efo; apply in_or_app; left; exact Hin|exact X]. }
  assert (dget d (bs "Encrypt") = Some (ORef en eg) /\ dget d (bs "Root") = Some (ORef rn rg)) as [HEd HRd].
  { assert (forall k v, In k [bs "Root"; bs "Encrypt"] -> dget (mr_trailer r) k = Some v -> v <> ONull -> dget d k = Some v) as Hget.
    { intros k0 v Hk0 Hg Hv0. assert (In k0 [bs "Size"; bs "Prev"; bs "Root"; bs "Encrypt"; bs "Info"; bs "ID"]) as Hi by (cbn [In] in *; tauto).
      assert (dget (stm_trailer d) k0 = Some v) as X.
      { rewrite HT. cbn [In] in Hk0. destruct Hk0 as [<-|[<-|[]]]; unfold trailer_read; cbn [map]; cbn [dget]; rewrite Hg; reflexivity. }
      rewrite (stm_trailer_get d k0 Hi) in X. destruct (dget d k0); congruence. }
    split; apply Hget; try assumption; try discriminate; [right; now left|now left]. }
  assert (opened_with (mxobjs deflate a b [r]) = learn (fun _ _ => None) (mr_num r) 0 stream) as Eow by (rewrite Exo; reflexivity).
  assert (In (en, eg, ODict e) clear) as HinC.
  { clear - HF2 Hin. induction HF2 as [|[[n0 g0] v0] [[n1 g1] v1] l0 l1 HV HF IH]; [destruct Hin|]. destruct Hin as [X|X]; [|right; auto].
    injection X as -> -> ->. destruct HV as (-> & -> & X & _). assert (dec en eg (ODict e) = Ok (ODict e)) as X2 by (unfold dec; destruct h; reflexivity). rewrite X2 in X. injection X as <-. now left. }
  assert (opened_with (mxobjs deflate a b [r]) en eg = None) as HO1.
  { rewrite Eow. unfold learn. destruct ((en =? mr_num r) && (eg =? 0)) eqn:E; [|reflexivity]. exfalso. assert (en = mr_num r) as X by lia. rewrite X in HinC. exact (Hnot _ _ HinC). }
  assert (forall n g v, find_obj clear n g = Some v -> exists v0, In (n, g, v0) (mr_objs r) /\ Viewed inflate ccitt dec (n, g, v0) (n, g, v, [])) as Hclear.
  { clear - HF2. intros n g v Hf. apply in_find in Hf. induction HF2 as [|[[n0 g0] v0] [[n1 g1] v1] l0 l1 HV HF IH]; [destruct Hf|]. destruct Hf as [X|X].
    - injection X as -> -> ->. pose proof HV as (E1 & E2 & _). subst. exists v0. split; [now left|exact HV].
    - destruct (IH X) as (w & A & B). exists w. split; [now right|exact B]. }

  set (l := map (fun c => (c, @nil (Z * obj))) clear ++ [(mr_num r, 0, w, [])]).
  assert (Forall2 (Viewed inflate ccitt dec) (file_objects deflate a b [r]) l) as HV.
  { rewrite Efo. apply Forall2_app; [|constructor; [exact HVx|constructor]]. clear - HF2. induction HF2; cbn [map]; constructor; auto. }
  assert (forall n g v, find_obj clear n g = Some v -> In (n, g, v, []) l) as Hinl.
  { intros n g v0 Hf. apply in_find in Hf. apply in_or_app. left. apply in_map_iff. exists (n, g, v0). auto. }
  assert (NoDup (flat_map ids_of l)) as Hnd4.
  { assert (flat_map ids_of l = map fst clear ++ [(mr_num r, 0)]) as ->.
    { unfold l. rewrite flat_map_app. f_equal. clear. induction clear as [|[[x y] z] c IH]; [reflexivity|]. cbn [map flat_map ids_of app fst]. now rewrite IH. }
    apply (NoDup_map_inv fst). rewrite map_app, map_map, Hmap2. exact Hnd. }
  pose proof (C97_any_objects inflate ccitt md5 sha256 rc4_size aes_dec f [a; 46; b] [] f [] o secs (mxobjs deflate a b [r]) d en eg e before text after rn rg pw
    h (file_objects deflate a b [r]) l) as HX. cbv zeta in HX. fold dec in HX.
  specialize (HX ltac:(now rewrite app_nil_r) Hh Hoff HC HEd He HO1 Hnr Ef HI). rewrite HT in HX. specialize (HX Hth HRd HB HV ltac:(intros c X; discriminate X)).
  assert (forall n g o', newest_row secs n g o' -> exists before text after v0 v ms, o' = zlen before /\ f = before ++ text ++ after /\ IndObj n g v0 text after /\
    Viewed inflate ccitt dec (n, g, v0) (n, g, v, ms) /\ In (n, g, v, ms) l) as HL.
  { intros n g o' Ho'. destruct (listed_written inflate ccitt deflate Hround a b Ha Hb [r] HF [] n g o' Ho') as (bf & tx & af & v0 & -> & E2 & HI2 & Hv2). rewrite app_nil_r in E2. change (fst (mwrite deflate a b [r])) with f in E2.
    assert (exists v ms, Viewed inflate ccitt dec (n, g, v0) (n, g, v, ms) /\ In (n, g, v, ms) l) as (v1 & ms & A & B).
    { clear - HV Hv2. induction HV as [|[[n0 g0] w0] [[[n1 g1] w1] ms] l0 l1 HV1 HF IH]; [destruct Hv2|]. destruct Hv2 as [X|X].
      - injection X as -> -> ->. pose proof HV1 as (E1 & E2 & _). subst. exists w1, ms. split; [exact HV1|now left].
      - destruct (IH X) as (v1 & ms1 & A & B). exists v1, ms1. split; [exact A|now right]. }
    exists bf, tx, af, v0, v1, ms. auto 10. }
  specialize (HX HL).
  assert (forall n g v, In (n, g, v) (mxobjs deflate a b [r]) -> exists v', In (n, g, v', []) l) as HO2.
  { rewrite Exo. intros n g v [X|[]]. injection X as <- <- <-. exists w. apply in_or_app. right. now left. }
  specialize (HX HO2 ltac:(apply Hinl; now apply find_clear) Hnd4 D m k HD Hm Hk).
  assert (List.length secs <= S k)%nat as Hks by (unfold secs; cbn; lia). specialize (HX Hks).
  assert (forall id, (match opened_with (mxobjs deflate a b [r]) (fst id) (snd id) with Some v => v | None => match provided l (fst id) (snd id) with Some v => v | None => ONull end end) = value id) as Hval.
  { intros [n g]. unfold value. cbn [fst snd]. rewrite Eow. unfold learn.
    assert (provided l n g = match find_obj clear n g with Some v => Some v | None => if (n =? mr_num r) && (g =? 0) then Some w else None end) as ->.
    { unfold l. clear. induction clear as [|[[x y] z] c IH]; cbn [map app provided find_obj first_of].
      - destruct ((n =? mr_num r) && (g =? 0)); [reflexivity|]. now destruct (g =? 0).
      - rewrite IH, (Z.eqb_sym n x), (Z.eqb_sym g y). destruct ((x =? n) && (y =? g)); [reflexivity|]. now destruct (g =? 0). }
    destruct ((n =? mr_num r) && (g =? 0)) eqn:E; [|destruct (find_obj clear n g); reflexivity].
    destruct (find_obj clear n g) as [v|] eqn:Efc; [|reflexivity]. exfalso. apply in_find in Efc. assert (n = mr_num r) as -> by lia. exact (Hnot _ _ Efc). }
  destruct HX as (s & Es & HS). exists s. split.
  - rewrite Es. do 2 f_equal. f_equal. exact (Hval (rn, rg)).
  - intros k' ids Hk'. rewrite (HS k' ids Hk'). apply map_ext. intros id. f_equal. apply Hval.
Qed.
Print Assumptions C97_written.

(** A document encrypted with AES-256 (with toy digests), and its cross-reference stream of 42 bytes. *)
Definition toy_sha (l : list Z) : list Z := firstn 32 (l ++ repeat 0 32).
Definition lex_key : list Z := repeat 7 32.
Definition lex_dict : dict :=
  [(bs "Filter", OName (bs "Standard")); (bs "V", OInt 5); (bs "R", OInt 5); (bs "P", OInt (-44));
   (bs "O", OStr (repeat 1 48)); (bs "U", OStr (toy_sha (bs "user" ++ repeat 2 8) ++ repeat 2 8 ++ repeat 3 8));
   (bs "OE", OStr (repeat 7 32)); (bs "UE", OStr (repeat 7 16 ++ repeat 0 16));
   (bs "CF", ODict [(bs "StdCF", ODict [(bs "CFM", OName (bs "AESV3"))])]); (bs "StmF", OName (bs "StdCF")); (bs "StrF", OName (bs "StdCF"))].
Definition lex_rev : mrev :=
  mkMRev [(1, 0, ODict [(bs "Type", OName (bs "Catalog")); (bs "Kids", OArr [OInt 3])]); (2, 0, OStream [(bs "Length", OInt 32)] (repeat 1 16 ++ repeat 4 16)); (4, 0, ODict lex_dict)]
         [] 5 0 6 [(bs "Size", OInt 6); (bs "Root", ORef 1 0); (bs "Encrypt", ORef 4 0); (bs "ID", OArr [OHex (bs "00"); OHex (bs "00")])].
Definition lex_clear : list (Z * Z * obj) :=
  [(1, 0, ODict [(bs "Type", OName (bs "Catalog")); (bs "Kids", OArr [OInt 3])]); (2, 0, OStream [(bs "Length", OInt 16)] (repeat 5 16)); (4, 0, ODict lex_dict)].
Example lex_rev_ok : mrev_ok lex_rev.
Proof.
  assert (forall s, forallb (fun c => (0 <=? c) && (c <? 256)) s = true -> bytes_ok s) as Hb.
  { intros s H. rewrite forallb_forall in H. apply Forall_forall. intros c Hc. specialize (H c Hc). unfold byte_ok. lia. }
  unfold mrev_ok, lex_rev, lex_dict. cbn [mr_objs mr_stms mr_num mr_first mr_count mr_trailer fst snd].
  repeat match goal with
  | |- _ /\ _ => split
  | |- writable _ => progress cbn [writable snd printable fold_right fst map]
  | |- printable _ => progress cbn [snd printable fold_right fst map]
  | |- bytes_ok _ => apply Hb; reflexivity
  | |- Forall _ (_ :: _) => constructor
  | |- Forall _ [] => constructor
  | |- NoDup (_ :: _) => constructor; [cbn; intuition discriminate|]
  | |- NoDup [] => constructor
  | |- True => exact I
  end; cbn [fst snd]; try (first [reflexivity | lia | discriminate]).
  all: let x := eval vm_compute in (bs "00") in change (bs "00") with x; repeat (constructor; [exists 0; split; [lia|reflexivity]|]); constructor.
Qed.
Example lex_handler : trailer_handler toy_md5 toy_sha (fun _ => true) (fun _ b => b) (fun _ _ => ODict lex_dict) (trailer_read None (mr_trailer lex_rev)) (bs "user") = Ok (Some (HCrypt lex_key true Aes256 Aes256)).
Proof. lazy. reflexivity. Qed.

Example C97_ex ccitt : exists s m,
  arun (modern_file store_only 50 48 [lex_rev]) (open_pdf Some ccitt 2 m toy_md5 toy_sha (fun _ => true) (fun _ b => b) 1 (bs "user")) (mkA 0 [] rst0) =
    (Ok (bs "2.0", trailer_read None (mr_trailer lex_rev), Some (HCrypt lex_key true Aes256 Aes256), ODict [(bs "Type", OName (bs "Catalog")); (bs "Kids", OArr [OInt 3])]), s) /\
  fst (session Some ccitt (decrypt_object toy_md5 (fun _ => true) (fun _ b => b) (Some (HCrypt lex_key true Aes256 Aes256))) 2 m 1 (modern_file store_only 50 48 [lex_rev]) s [(2, 0); (3, 0); (1, 0); (9, 9)]) =
    [Ok (OStream [(bs "Length", OInt 16)] (repeat 5 16)); Err ValueErr; Ok (ODict [(bs "Type", OName (bs "Catalog")); (bs "Kids", OArr [OInt 3])]); Err ValueErr].
Proof.
  assert (zlen (modern_file store_only 50 48 [lex_rev]) < 256 ^ 4) as Hlt by (lazy; reflexivity).
  destruct (C97_written_refuted Some ccitt store_only toy_md5 toy_sha (fun _ => true) (fun _ b => b) 50 48 lex_rev 4 0 lex_dict 1 0 (bs "user") lex_key true Aes256 Aes256 lex_clear
    (fun x => eq_refl) eq_refl eq_refl lex_rev_ok eq_refl Hlt) with (D := 2%nat) (m := Z.to_nat (4 * zlen (modern_file store_only 50 48 [lex_rev]) + 8)) (k := 1%nat) as (s & root & E & Er & HS).
  - cbn; lia.
  - cbn [lex_rev mr_objs mr_num map fst app]. repeat (constructor; [cbn [In]; lia|]). constructor.
  - cbn; lia.
  - right. right. now left.
  - discriminate.
  - reflexivity.
  - reflexivity.
  - exact lex_handler.
  - now right.
  - assert (forall v, (forall d raw, v <> OStream d raw) -> S_Modern.Held Some ccitt v []) as HP by (intros v Hv; apply H_plain; intros d raw X; destruct (Hv d raw X)).
    constructor; [|constructor; [|constructor; [|constructor]]].
    + split; [reflexivity|]. split; [reflexivity|]. split; [reflexivity|]. apply HP. discriminate.
    + split; [reflexivity|]. split; [reflexivity|]. split; [lazy; reflexivity|]. apply H_plain. intros d raw X. assert (d = [(bs "Length", OInt 16)]) as -> by congruence. cbn. intros [X1|[X1|[X1|[]]]]; discriminate X1.
    + split; [reflexivity|]. split; [reflexivity|]. split; [reflexivity|]. apply HP. discriminate.
  - now left.
  - assert (exists data, xvalue store_only (zlen (version_line 50 48)) None lex_rev = OStream (xdict None lex_rev ++ [(bs "Filter", OName (bs "FlateDecode")); (bs "Length", OInt (zlen data))]) data /\ data <> [] /\ zlen data = 42) as (data & E1 & E2 & E3).
    { eexists. split; [unfold xvalue, packed; reflexivity|]. split; [lazy; discriminate|lazy; reflexivity]. }
    intros data'. rewrite E1. intros X. injection X as _ X. subst data'. split; [exact E2|]. right. rewrite E3. discriminate.
  - apply le_n.
  - pose proof (zlen_nonneg (modern_file store_only 50 48 [lex_rev])) as H0. rewrite Z2Nat.id; [apply Z.le_refl|clear - H0; lia].
  - apply le_n.
  - eexists s, _. split; [rewrite E; repeat f_equal|].
    + assert (find_obj lex_clear 1 0 = Some (ODict [(bs "Type", OName (bs "Catalog")); (bs "Kids", OArr [OInt 3])])) as X by reflexivity. rewrite X in Er. injection Er as <-. reflexivity.
    + rewrite (HS 1%nat [(2, 0); (3, 0); (1, 0); (9, 9)] (le_n 1)). reflexivity.
Qed.

(** ... with 16 rows the stream is 7 blocks long, and is decrypted to something never used. *)
Definition lex_rev2 : mrev := mkMRev (mr_objs lex_rev) [] 5 0 16 (mr_trailer lex_rev).
Example C97_ex2 ccitt : exists s m,
  fst (arun (modern_file store_only 50 48 [lex_rev2]) (open_pdf Some ccitt 2 m toy_md5 toy_sha (fun _ => true) (fun _ b => b) 1 (bs "user")) (mkA 0 [] rst0)) =
    Ok (bs "2.0", trailer_read None (mr_trailer lex_rev), Some (HCrypt lex_key true Aes256 Aes256), ODict [(bs "Type", OName (bs "Catalog")); (bs "Kids", OArr [OInt 3])]) /\
  fst (session Some ccitt (decrypt_object toy_md5 (fun _ => true) (fun _ b => b) (Some (HCrypt lex_key true Aes256 Aes256))) 2 m 1 (modern_file store_only 50 48 [lex_rev2]) s [(2, 0); (3, 0); (9, 9)]) =
    [Ok (OStream [(bs "Length", OInt 16)] (repeat 5 16)); Ok ONull; Ok ONull].
Proof.
  assert (zlen (modern_file store_only 50 48 [lex_rev2]) < 256 ^ 4) as Hlt by (lazy; reflexivity).
  assert (mrev_ok lex_rev2) as Hok by exact lex_rev_ok.
  assert (exists data, xvalue store_only (zlen (version_line 50 48)) None lex_rev2 = OStream (xdict None lex_rev2 ++ [(bs "Filter", OName (bs "FlateDecode")); (bs "Length", OInt (zlen data))]) data /\ zlen data = 112) as (data & E1 & E3).
  { eexists. split; [unfold xvalue, packed; reflexivity|lazy; reflexivity]. }
  assert (exists w, Viewed Some ccitt (decrypt_object toy_md5 (fun _ => true) (fun _ b => b) (Some (HCrypt lex_key true Aes256 Aes256)))
      (mr_num lex_rev2, 0, xvalue store_only (zlen (version_line 50 48)) None lex_rev2) (mr_num lex_rev2, 0, w, [])) as [w Hw].
  { rewrite E1. eexists. split; [reflexivity|]. split; [reflexivity|]. split.
    - cbn [decrypt_object decrypt_with]. change (negb true && is_metadata (xdict None lex_rev2 ++ [(bs "Filter", OName (bs "FlateDecode")); (bs "Length", OInt (zlen data))])) with false. cbv iota.
      unfold run_method, decrypt_aes256, aes_cbc. change (negb (memZ (zlen lex_key) [16; 24; 32])) with false. cbv iota.
      assert (zlen (firstn 16 data) = 16) as -> by (unfold zlen in *; rewrite firstn_length; lia).
      assert (zlen (skipn 16 data) = 96) as -> by (unfold zlen in *; rewrite skipn_length; lia). cbn [Z.eqb Pos.eqb negb]. change (96 mod 16 =? 0) with true. cbn [negb rbind]. reflexivity.
    - apply H_plain. intros d raw X. match type of X with OStream ?d1 _ = _ => assert (dget d1 (bs "Type") = Some (OName (bs "XRef"))) as Hd by reflexivity; assert (d1 = d) as Ed by congruence; rewrite Ed in Hd end.
      rewrite Hd. cbn [In]. intros [Y|[Y|[Y|[]]]]; discriminate Y. }
  destruct (C97_written Some ccitt store_only toy_md5 toy_sha (fun _ => true) (fun _ b => b) 50 48 lex_rev2 4 0 lex_dict 1 0 (bs "user") (HCrypt lex_key true Aes256 Aes256) lex_clear w
    (fun x => eq_refl) eq_refl eq_refl Hok eq_refl Hlt) with (D := 2%nat) (m := Z.to_nat (4 * zlen (modern_file store_only 50 48 [lex_rev2]) + 8)) (k := 1%nat) as (s & E & HS).
  - cbn [lex_rev2 lex_rev mr_objs mr_num map fst app]. repeat (constructor; [cbn [In]; lia|]). constructor.
  - cbn; lia.
  - right. right. now left.
  - discriminate.
  - reflexivity.
  - reflexivity.
  - exact lex_handler.
  - assert (forall v, (forall d raw, v <> OStream d raw) -> S_Modern.Held Some ccitt v []) as HP by (intros v Hv; apply H_plain; intros d raw X; destruct (Hv d raw X)).
    constructor; [|constructor; [|constructor; [|constructor]]].
    + split; [reflexivity|]. split; [reflexivity|]. split; [reflexivity|]. apply HP. discriminate.
    + split; [reflexivity|]. split; [reflexivity|]. split; [lazy; reflexivity|]. apply H_plain. intros d raw X. assert (d = [(bs "Length", OInt 16)]) as -> by congruence. cbn. intros [X1|[X1|[X1|[]]]]; discriminate X1.
    + split; [reflexivity|]. split; [reflexivity|]. split; [reflexivity|]. apply HP. discriminate.
  - exact Hw.
  - apply le_n.
  - pose proof (zlen_nonneg (modern_file store_only 50 48 [lex_rev2])) as H0. rewrite Z2Nat.id; [apply Z.le_refl|clear - H0; lia].
  - apply le_n.
  - eexists s, _. split; [rewrite E; reflexivity|]. rewrite (HS 1%nat [(2, 0); (3, 0); (9, 9)] (le_n 1)). reflexivity.
Qed.
