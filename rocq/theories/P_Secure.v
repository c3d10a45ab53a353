(** C81: encrypted documents, from the bytes of the file to the objects a user gets. *)
From Coq Require Import String.
From Verif Require Import Prelude M_Prog M_Parser S_Syntax L_Buffer L_Prog L_ParserWP S_Print S_Stream M_Filters M_Document S_Document
  L_User L_Registry S_Xref P_Header P_StartXref P_Xref P_Locate S_Open P_Open S_Write P_Write M_Crypto S_Crypto P_Crypto P_Decrypt
  M_Secure L_Sealed S_Sealed.
Local Open Scope Z_scope.
Local Open Scope prog_scope.

Section Opening.
  Variable inflate : list Z -> option (list Z).
  Variable ccitt : list Z -> fparams -> res (list Z).
  Variables (md5 sha256 : list Z -> list Z) (rc4_size : Z -> bool) (aes_dec : list Z -> list Z -> list Z).
  Variables (D m : nat) (f : list Z).
  Hypothesis HD : (0 < D)%nat.
  Hypothesis Hm : 4 * zlen f + 8 <= Z.of_nat m.
  Notation nd := (fun (_ _ : Z) (v : obj) => Ok v).

  Lemma uruns_reg_get u num gen p w : known u num gen = Some w -> uruns f (reg_get num gen) p u (Ok w) p u.
  Proof. intros H st. exists []. cbn. unfold known in H. rewrite H, app_nil_r. reflexivity. Qed.

  (** the Encrypt dictionary, found through the tables, nothing being registered yet *)
  Lemma encrypt_by_xref raw ls k en eg e o p u : known u en eg = None ->
    newest ls en eg o -> stands raw f o en eg (ODict e) ->
    exists q, uruns f (by_xref (locate_object inflate ccitt nd D m k) (reg_indirect inflate ccitt nd D m (length_hook (locate_object inflate ccitt nd D m k))) (map table_of ls) en eg)
      p u (Ok (ODict e)) q (add_obj u en eg (ODict e)).
  Proof.
    intros HK (newer & l & older & El & Hl & HN) (pre & text & rest & Ef & Eo & HT). pose proof (zlen_nonneg pre) as Hp.
    assert (IndObj en eg (ODict e) text rest) as HT' by (inversion HT; auto).
    assert (no_objstm (ODict e)) as HO by (intros ? ?; discriminate).
    assert (forall num gen v, (fun _ _ : Z => @None obj) num gen = Some v -> no_objstm v) as HNo by (intros ? ? ? X; discriminate X).
    set (lc := locate_object inflate ccitt nd D m k). set (io := reg_indirect inflate ccitt nd D m (length_hook lc)).
    set (u' := add_obj u en eg (ODict e)).
    assert (known u' en eg = Some (ODict e)) as HK'.
    { unfold u', add_obj, is_registered. fold (known u en eg). rewrite HK. unfold known. cbn. rewrite rget_rset, !Z.eqb_refl. reflexivity. }
    assert (uruns f io (zlen pre) u (Ok (en, eg, ODict e)) (zlen pre + zlen text) u') as HU.
    { eapply (i_iobj inflate ccitt nd D m f HD Hm (fun _ _ => None) (fun _ _ => None)); [intros ? ? ? X; discriminate X|reflexivity|reflexivity|exact HT'|reflexivity|exact HO|]. apply (L_Prog.At_start f pre); exact Ef. }
    exists (zlen pre + zlen text).
    rewrite El, map_app. rewrite (by_xref_skip inflate ccitt D m f HD (fun _ _ => None) HNo) by exact HN. cbn [map by_xref].
    destruct (is_table_fold l) as (HT1 & _). fold (table_of l) in HT1. rewrite (HT1 en), Hl. cbn [e_gen e_off]. rewrite Z.eqb_refl.
    eapply uruns_bind with (a := tt) (u1 := u').
    - apply uruns_catch_ok. apply uruns_reset. unfold reset_pos. rewrite (proj2 (Z.leb_le 0 o)) by lia. subst o.
      eapply uruns_bind; [exact HU|apply uruns_ret].
    - unfold registered. intros st0. exists []. cbn [bind getu ret arun a_usr]. unfold is_registered. unfold known in HK'. rewrite HK'. cbn [reg_get bind getu ret arun a_usr]. rewrite ?HK', app_nil_r. reflexivity.
  Qed.
  Lemma locate_encrypt_listed raw ls k en eg e o p u : r_xrefs u = Some (map table_of ls) -> known u en eg = None ->
    e <> [] -> newest ls en eg o -> stands raw f o en eg (ODict e) ->
    exists q, uruns f (locate_encrypt inflate ccitt D m nd (S k) en eg) p u (Ok (ODict e)) q (add_obj u en eg (ODict e)).
  Proof.
    intros HX HK He HN HS. destruct (encrypt_by_xref raw ls (S k) en eg e o p u HK HN HS) as [q HB].
    exists q. intros st. destruct (HB st) as [ex E]. exists ex. unfold locate_encrypt.
    cbn [reg_get bind getu ret arun a_usr]. fold (known u en eg). rewrite HK. cbn [truthy bind getu arun a_usr]. rewrite HX.
    rewrite arun_bind, E. destruct e; [congruence|]. reflexivity.
  Qed.

  (** the state once the document is open and its handler made *)
  (** the Encrypt dictionary is found while nothing is registered *)
  Definition finds_encrypt (ls : list (list listed)) (k : nat) (en eg : Z) (e : dict) : Prop := forall p u, r_xrefs u = Some (map table_of ls) -> known u en eg = None ->
    exists q, uruns f (locate_encrypt inflate ccitt D m nd k en eg) p u (Ok (ODict e)) q (add_obj u en eg (ODict e)).
  Lemma opened_sealed clear k ver off o ls t en eg e pw h : header_of f (Ok (ver, off)) -> 0 <= off ->
    offset_of f (Ok o) -> Chain f o ls t -> dget t (bs "xrefs") = None -> dget t (bs "self") = None -> (List.length ls <= k)%nat ->
    dget t (bs "Encrypt") = Some (ORef en eg) -> finds_encrypt ls k en eg e -> clear en eg = Some (ODict e) ->
    trailer_handler md5 sha256 rc4_size aes_dec (fun _ _ => ODict e) t pw = Ok (Some h) ->
    exists pos st u hb, Inv clear ls u /\ r_stack u = [] /\ r_bf u = Some hb /\ nth_error st hb = Some off /\
      forall rn rg, dget t (bs "Root") = Some (ORef rn rg) ->
      arun f (open_pdf inflate ccitt D m md5 sha256 rc4_size aes_dec k pw) (mkA 0 [] rst0) =
      (let '(v, s) := arun f (locate_object inflate ccitt (decrypt_object md5 rc4_size aes_dec (Some h)) D m k rn rg) (mkA pos st u) in
       (match v with Ok r => Ok (ver, t, Some h, r) | Err x => Err x end, s)).
  Proof.
    intros Hh Ho Hoff HC H1 H2 Hk HE HFE Hcl Hth.
    destruct (opened inflate ccitt D m f HD Hm k ver off o ls t Hh Ho Hoff HC H1 H2 Hk) as (pos & st & hb & E & Hst).
    set (u := mkR [] (Some (map table_of ls)) (Some hb) []) in *.
    destruct (HFE pos u eq_refl eq_refl) as [q HQ]. destruct (HQ st) as [ex EQ].
    exists q, (st ++ ex), (add_obj u en eg (ODict e)), hb.
    assert (add_obj u en eg (ODict e) = with_objs u (rset [] en eg (ODict e))) as EU by reflexivity.
    split; [|split; [reflexivity|split; [reflexivity|split; [rewrite nth_error_app1; auto; apply nth_error_Some; congruence|]]]].
    - split; [reflexivity|]. intros n g w. rewrite EU. unfold known. cbn [r_objs with_objs]. rewrite rget_rset.
      destruct ((n =? en) && (g =? eg)) eqn:Eab; [|discriminate].
      assert (n = en /\ g = eg) as [-> ->] by (apply andb_true_iff in Eab; lia). intros X. injection X as <-. unfold denoted. now rewrite Hcl.
    - intros rn rg HR. unfold open_pdf. rewrite arun_bind.
      match type of E with ?A = _ => match goal with |- context [arun f (open_document inflate ccitt ?N D m k) ?Z0] => change (arun f (open_document inflate ccitt N D m k) Z0) with A end end.
      rewrite E. cbv beta iota. rewrite HE. rewrite arun_bind, EQ, Hth, HR. rewrite arun_bind.
      destruct (arun f (locate_object inflate ccitt (decrypt_object md5 rc4_size aes_dec (Some h)) D m k rn rg) (mkA q (st ++ ex) (add_obj u en eg (ODict e)))) as [[v|x] s]; reflexivity.
  Qed.
End Opening.

(** What the handler makes of the objects in the file. *)
Definition reads_as (md5 : list Z -> list Z) (rc4_size : Z -> bool) (aes_dec : list Z -> list Z -> list Z) (h : handler) (raw clear : contents) : Prop :=
  (forall n g v, raw n g = Some v -> exists w, clear n g = Some w /\ decrypt_object md5 rc4_size aes_dec (Some h) n g v = Ok w /\ no_objstm w) /\
  (forall n g, raw n g = None -> clear n g = None).
Lemma decrypt_int md5 rc4_size aes_dec h n g z : decrypt_object md5 rc4_size aes_dec (Some h) n g (OInt z) = Ok (OInt z).
Proof. now destruct h. Qed.

(** C81 (a).  A document all of whose objects are listed: with a password its handler accepts, every lookup gives the
    decrypted object; so does the Root. *)
Theorem C81_listed_objects : forall inflate ccitt md5 sha256 rc4_size aes_dec f ver off o ls t raw clear en eg e rn rg pw h,
  header_of f (Ok (ver, off)) -> offset_of f (Ok o) -> Chain f o ls t -> dget t (bs "xrefs") = None -> dget t (bs "self") = None ->
  all_listed raw f ls -> dget t (bs "Encrypt") = Some (ORef en eg) -> raw en eg = Some (ODict e) -> e <> [] ->
  dget t (bs "Root") = Some (ORef rn rg) -> raw rn rg <> None ->
  trailer_handler md5 sha256 rc4_size aes_dec (fun _ _ => ODict e) t pw = Ok (Some h) ->
  reads_as md5 rc4_size aes_dec h raw clear ->
  forall D m k, (0 < D)%nat -> 4 * zlen f + 8 <= Z.of_nat m -> (List.length ls <= k)%nat -> (2 <= k)%nat ->
  exists s, arun f (open_pdf inflate ccitt D m md5 sha256 rc4_size aes_dec k pw) (mkA 0 [] rst0) = (Ok (ver, t, Some h, denoted clear rn rg), s) /\
  forall ids, Forall (fun id => raw (fst id) (snd id) <> None) ids ->
    fst (session inflate ccitt (decrypt_object md5 rc4_size aes_dec (Some h)) D m k f s ids) = map (fun id => Ok (denoted clear (fst id) (snd id))) ids.
Proof.
  intros inflate ccitt md5 sha256 rc4_size aes_dec f ver off o ls t raw clear en eg e rn rg pw h
    Hh Hoff HC H1 H2 HA HE Hraw He HR Hrr Hth (Hdec & Hnone) D m k HD Hm Hk Hk2.
  destruct (C16_header_sound f ver off Hh) as (x & _ & Ho & _).
  destruct (HA en eg _ Hraw) as (eo & HN & HS).
  assert (clear en eg = Some (ODict e)) as Hcl.
  { destruct (Hdec en eg _ Hraw) as (w & Hw & Hd & _). rewrite (C62_nested_untouched md5 rc4_size aes_dec (Some h) en eg (ODict e)) in Hd by eauto. congruence. }
  assert (finds_encrypt inflate ccitt D m f ls k en eg e) as HFE.
  { intros p u HX HK. destruct k as [|k]; [lia|]. now apply (locate_encrypt_listed inflate ccitt md5 sha256 rc4_size aes_dec D m f HD Hm raw ls k en eg e eo). }
  destruct (opened_sealed inflate ccitt md5 sha256 rc4_size aes_dec D m f HD Hm clear k ver off o ls t en eg e pw h Hh Ho Hoff HC H1 H2 Hk HE HFE Hcl Hth)
    as (pos & st & u & hb & HI & _ & _ & _ & Hopen).
  rewrite (Hopen rn rg HR). destruct k as [|[|k]]; try lia.
  pose proof (session_listed inflate ccitt (decrypt_object md5 rc4_size aes_dec (Some h)) D m f HD Hm raw clear Hdec Hnone
    (decrypt_int md5 rc4_size aes_dec h) ls (fun a b z X => HA a b (OInt z) X) k HA) as HSess.
  pose proof (fun ids HF => HSess ((rn, rg) :: ids) (mkA pos st u) HI (Forall_cons (rn, rg) Hrr HF)) as HS2.
  clear HSess. cbn [session map fst snd] in HS2.
  destruct (arun f (locate_object inflate ccitt (decrypt_object md5 rc4_size aes_dec (Some h)) D m (S (S k)) rn rg) (mkA pos st u)) as [v s].
  exists s. split.
  - specialize (HS2 [] (Forall_nil _)). cbn [session map fst] in HS2. injection HS2 as ->. reflexivity.
  - intros ids HF. specialize (HS2 ids HF).
    destruct (session inflate ccitt (decrypt_object md5 rc4_size aes_dec (Some h)) D m (S (S k)) f s ids) as [vs s2]. cbn [fst] in *. injection HS2 as _ ->. reflexivity.
Qed.

Lemma any_objects : forall inflate ccitt md5 sha256 rc4_size aes_dec f ver pre body rest o ls t raw clear l en eg e rn rg pw h,
  f = pre ++ body ++ rest -> header_of f (Ok (ver, zlen pre)) -> offset_of f (Ok o) -> Chain f o ls t ->
  dget t (bs "xrefs") = None -> dget t (bs "self") = None ->
  BodyText raw l body rest -> (forall c, hd_error rest = Some c -> is_digit c = false /\ c <> 115 /\ c <> 116) ->
  (forall n g v, In (n, g, v) l <-> raw n g = Some v) ->
  listings_right raw f ls -> (forall a b z, raw a b = Some (OInt z) -> exists o, newest ls a b o) ->
  dget t (bs "Encrypt") = Some (ORef en eg) -> raw en eg = Some (ODict e) ->
  dget t (bs "Root") = Some (ORef rn rg) ->
  trailer_handler md5 sha256 rc4_size aes_dec (fun _ _ => ODict e) t pw = Ok (Some h) ->
  reads_as md5 rc4_size aes_dec h raw clear ->
  forall D m k, (0 < D)%nat -> 4 * zlen f + 8 <= Z.of_nat m -> (List.length ls <= k)%nat -> (2 <= k)%nat ->
  finds_encrypt inflate ccitt D m f ls k en eg e ->
  exists s, arun f (open_pdf inflate ccitt D m md5 sha256 rc4_size aes_dec k pw) (mkA 0 [] rst0) = (Ok (ver, t, Some h, denoted clear rn rg), s) /\
  forall ids, fst (session inflate ccitt (decrypt_object md5 rc4_size aes_dec (Some h)) D m k f s ids) = map (fun id => Ok (denoted clear (fst id) (snd id))) ids.
Proof.
  intros inflate ccitt md5 sha256 rc4_size aes_dec f ver pre body rest o ls t raw clear l en eg e rn rg pw h
    Ef Hh Hoff HC H1 H2 HB Hc Hall HLR Hints HE Hraw HR Hth (Hdec & Hnone) D m k HD Hm Hk Hk2 HFE.
  pose proof (zlen_nonneg pre) as Hp.
  assert (clear en eg = Some (ODict e)) as Hcl.
  { destruct (Hdec en eg _ Hraw) as (w & Hw & Hd & _). rewrite (C62_nested_untouched md5 rc4_size aes_dec (Some h) en eg (ODict e)) in Hd by eauto. congruence. }
  destruct (opened_sealed inflate ccitt md5 sha256 rc4_size aes_dec D m f HD Hm clear k ver (zlen pre) o ls t en eg e pw h Hh Hp Hoff HC H1 H2 Hk HE HFE Hcl Hth)
    as (pos & st & u & hb & HI & HSt & Hbf & Hhb & Hopen).
  rewrite (Hopen rn rg HR). destruct k as [|[|k]]; try lia.
  assert (forall a b z, raw a b = Some (OInt z) -> exists o, newest ls a b o /\ stands raw f o a b (OInt z)) as HLen.
  { intros a b z X. destruct (Hints a b z X) as [o' Ho']. exists o'. split; [exact Ho'|].
    destruct (HLR a b o' Ho') as (v & Hv & HS'). rewrite X in Hv. injection Hv as <-. exact HS'. }
  assert (List.length l + 4 <= m)%nat as Hlm.
  { pose proof (body_length _ _ _ _ HB) as HL. unfold zlen in Hm. rewrite Ef, !app_length in Hm. lia. }
  assert (scan_state f raw rest l st u) as HSc.
  { split; [exact HSt|]. exists hb, (zlen pre). split; [exact Hbf|]. split; [exact Hhb|]. exists body. split; [exact HB|]. apply (L_Prog.At_start f pre). exact Ef. }
  pose proof (session_any inflate ccitt (decrypt_object md5 rc4_size aes_dec (Some h)) D m f HD Hm raw clear Hdec Hnone
    (decrypt_int md5 rc4_size aes_dec h) ls HLen k l rest HLR Hc Hall Hlm) as HSess.
  pose proof (fun ids => HSess ((rn, rg) :: ids) [] l (mkA pos st u) eq_refl (Forall_nil _) HI HSc) as HS2.
  clear HSess. cbn [session map fst snd] in HS2.
  destruct (arun f (locate_object inflate ccitt (decrypt_object md5 rc4_size aes_dec (Some h)) D m (S (S k)) rn rg) (mkA pos st u)) as [v s].
  exists s. split.
  - specialize (HS2 []). cbn [session map fst] in HS2. injection HS2 as ->. reflexivity.
  - intros ids. specialize (HS2 ids).
    destruct (session inflate ccitt (decrypt_object md5 rc4_size aes_dec (Some h)) D m (S (S k)) f s ids) as [vs s2]. cbn [fst] in *. injection HS2 as _ ->. reflexivity.
Qed.

(** C81 (b).  When moreover the body consists of the document's objects: any ids, in any order, give the decrypted object
    or null. *)
Theorem C81_any_objects : forall inflate ccitt md5 sha256 rc4_size aes_dec f ver pre body rest o ls t raw clear l en eg e eo rn rg pw h,
  f = pre ++ body ++ rest -> header_of f (Ok (ver, zlen pre)) -> offset_of f (Ok o) -> Chain f o ls t ->
  dget t (bs "xrefs") = None -> dget t (bs "self") = None ->
  BodyText raw l body rest -> (forall c, hd_error rest = Some c -> is_digit c = false /\ c <> 115 /\ c <> 116) ->
  (forall n g v, In (n, g, v) l <-> raw n g = Some v) ->
  listings_right raw f ls -> (forall a b z, raw a b = Some (OInt z) -> exists o, newest ls a b o) ->
  dget t (bs "Encrypt") = Some (ORef en eg) -> newest ls en eg eo -> raw en eg = Some (ODict e) -> e <> [] ->
  dget t (bs "Root") = Some (ORef rn rg) ->
  trailer_handler md5 sha256 rc4_size aes_dec (fun _ _ => ODict e) t pw = Ok (Some h) ->
  reads_as md5 rc4_size aes_dec h raw clear ->
  forall D m k, (0 < D)%nat -> 4 * zlen f + 8 <= Z.of_nat m -> (List.length ls <= k)%nat -> (2 <= k)%nat ->
  exists s, arun f (open_pdf inflate ccitt D m md5 sha256 rc4_size aes_dec k pw) (mkA 0 [] rst0) = (Ok (ver, t, Some h, denoted clear rn rg), s) /\
  forall ids, fst (session inflate ccitt (decrypt_object md5 rc4_size aes_dec (Some h)) D m k f s ids) = map (fun id => Ok (denoted clear (fst id) (snd id))) ids.
Proof.
  intros inflate ccitt md5 sha256 rc4_size aes_dec f ver pre body rest o ls t raw clear l en eg e eo rn rg pw h
    Ef Hh Hoff HC H1 H2 HB Hc Hall HLR Hints HE HN Hraw He HR Hth HRd D m k HD Hm Hk Hk2.
  assert (stands raw f eo en eg (ODict e)) as HS by (destruct (HLR en eg eo HN) as (v & Hv & HS); congruence).
  assert (finds_encrypt inflate ccitt D m f ls k en eg e) as HFE.
  { intros p u HX HK. destruct k as [|k]; [lia|]. now apply (locate_encrypt_listed inflate ccitt md5 sha256 rc4_size aes_dec D m f HD Hm raw ls k en eg e eo). }
  apply (any_objects inflate ccitt md5 sha256 rc4_size aes_dec f ver pre body rest o ls t raw clear l en eg e rn rg pw h); auto.
Qed.
Print Assumptions C81_listed_objects.
Print Assumptions C81_any_objects.

(** ---- files written with encryption ---- *)
Lemma dset_type d v : dget (dset d (bs "Length") v) (bs "Type") = dget d (bs "Type").
Proof. rewrite P_Syntax.dget_dset. reflexivity. Qed.
Lemma sealed_reads md5 rc4_size aes_enc aes_dec h n g v w : (forall x, List.length (md5 x) = 16%nat) -> (forall k, 5 <= k <= 16 -> rc4_size k = true) ->
  cipher aes_enc aes_dec -> id32 n -> id32 g -> Sealed md5 aes_enc h n g v w -> decrypt_object md5 rc4_size aes_dec (Some h) n g v = Ok w.
Proof.
  intros Hmd Hrc HC Hn Hg HS. destruct HS as [v H1 H2|key d data H|key d data iv blocks H1 H2 H3 H4 H5|key d data iv blocks H1 H2 H3 H4 H5|key stm str d data -> HT].
  - destruct v; cbn in H1; try contradiction; try (exfalso; eapply H2; reflexivity); destruct h; reflexivity.
  - now apply C60_stream.
  - eapply C63_aes128_padding_kept; eauto.
  - eapply C63_aes256_padding_kept; eauto.
  - now apply C60_metadata.
Qed.
Lemma sealed_objstm md5 aes_enc h n g v w : Sealed md5 aes_enc h n g v w -> no_objstm v -> no_objstm w.
Proof.
  intros HS Hv. destruct HS as [v H1 H2|key d data H|key d data iv blocks H1 H2 H3 H4 H5|key d data iv blocks H1 H2 H3 H4 H5|key stm str d data -> HT]; auto;
    intros d0 r0 X; injection X as <- <-; unfold oget; rewrite dset_type; specialize (Hv d _ eq_refl); exact Hv.
Qed.

(** Object by object, the file's revision [r] holds what the document [objs] is encrypted to. *)
Definition sealed_objects (md5 : list Z -> list Z) (aes_enc : list Z -> list Z -> list Z) (h : handler) (raw objs : list (Z * Z * obj)) : Prop :=
  Forall2 (fun x y => fst x = fst y /\ fst (fst x) <= 4294967295 /\ Sealed md5 aes_enc h (fst (fst x)) (snd (fst x)) (snd x) (snd y)) raw objs.
Lemma sealed_find md5 aes_enc h raw objs n g : sealed_objects md5 aes_enc h raw objs ->
  match find_obj raw n g with
  | Some v => exists w, find_obj objs n g = Some w /\ n <= 4294967295 /\ Sealed md5 aes_enc h n g v w
  | None => find_obj objs n g = None
  end.
Proof.
  induction 1 as [|[[n0 g0] v0] [[n1 g1] v1] raw objs (A & B & C) HF IH]; [reflexivity|]. cbn [fst snd] in *. injection A as <- <-. cbn [find_obj].
  destruct ((n0 =? n) && (g0 =? g)) eqn:E; [|exact IH]. assert (n0 = n /\ g0 = g) as [-> ->] by (apply andb_true_iff in E; lia). eauto.
Qed.
Lemma sealed_current md5 aes_enc h raws docs n g : Forall2 (fun r d => sealed_objects md5 aes_enc h (rv_objs r) (rv_objs d)) raws docs ->
  match current raws n g with
  | Some v => exists w, current docs n g = Some w /\ n <= 4294967295 /\ Sealed md5 aes_enc h n g v w
  | None => current docs n g = None
  end.
Proof.
  induction 1 as [|r d raws docs H HF IH]; [reflexivity|]. cbn [current]. pose proof (sealed_find md5 aes_enc h _ _ n g H) as HX.
  destruct (find_obj (rv_objs r) n g); [|rewrite HX; exact IH]. destruct HX as (w & -> & HX). eauto.
Qed.
Lemma current_range : forall revs n g v, Forall rev_ok revs -> current revs n g = Some v -> 0 <= n /\ 0 <= g < 10 ^ 5.
Proof.
  induction revs as [|r revs IH]; intros n g v HF; cbn [current]; [discriminate|]. inversion HF as [|? ? (R1 & _) HF']; subst.
  assert (forall l w, Forall (fun e : Z * Z * obj => 0 <= fst (fst e) /\ 0 <= snd (fst e) < 10 ^ 5 /\ writable (snd e)) l -> find_obj l n g = Some w -> 0 <= n /\ 0 <= g < 10 ^ 5) as G.
  { induction l as [|[[n0 g0] v0] l IHl]; intros w HL; cbn [find_obj]; [discriminate|]. inversion HL as [|? ? (A & B & C) HL']; subst. cbn [fst snd] in *.
    destruct ((n0 =? n) && (g0 =? g)) eqn:E; [|eauto]. assert (n0 = n /\ g0 = g) as [-> ->] by (apply andb_true_iff in E; lia). auto. }
  destruct (find_obj (rv_objs r) n g) eqn:E; [|eauto]. intros _. eapply G; eauto.
Qed.
Lemma sealed_reads_as md5 rc4_size aes_enc aes_dec h raws docs : (forall x, List.length (md5 x) = 16%nat) -> (forall k, 5 <= k <= 16 -> rc4_size k = true) ->
  cipher aes_enc aes_dec -> Forall rev_ok raws -> (forall n g v, current raws n g = Some v -> no_objstm v) ->
  Forall2 (fun r d => sealed_objects md5 aes_enc h (rv_objs r) (rv_objs d)) raws docs ->
  reads_as md5 rc4_size aes_dec h (current raws) (current docs).
Proof.
  intros Hmd Hrc HC HF HO HS. split.
  - intros n g v Hv. pose proof (sealed_current md5 aes_enc h raws docs n g HS) as HX. rewrite Hv in HX. destruct HX as (w & Hw & Hn & HSe).
    destruct (current_range raws n g v HF Hv) as [Hn0 Hg0]. exists w. split; [exact Hw|]. split.
    + apply (sealed_reads md5 rc4_size aes_enc aes_dec); auto; unfold id32; lia.
    + eapply sealed_objstm; eauto.
  - intros n g Hv. pose proof (sealed_current md5 aes_enc h raws docs n g HS) as HX. now rewrite Hv in HX.
Qed.

(** C81 (c).  Files with any number of revisions whose objects were encrypted for the handler: with a password it accepts,
    the Root and every object of the document are read as they were before encryption (with AES, with their padding). *)
Theorem C81_written_documents : forall inflate ccitt md5 sha256 rc4_size aes_enc aes_dec a b raws docs en eg e rn rg pw h,
  (forall x, List.length (md5 x) = 16%nat) -> (forall k, 5 <= k <= 16 -> rc4_size k = true) -> cipher aes_enc aes_dec ->
  is_digit a = true -> is_digit b = true -> raws <> [] -> Forall rev_ok raws -> zlen (file_of a b raws) < 10 ^ 10 ->
  Forall2 (fun r d => sealed_objects md5 aes_enc h (rv_objs r) (rv_objs d)) raws docs ->
  let t := trailer_of_file a b raws in
  dget t (bs "Encrypt") = Some (ORef en eg) -> current raws en eg = Some (ODict e) -> e <> [] ->
  dget t (bs "Root") = Some (ORef rn rg) -> current raws rn rg <> None ->
  trailer_handler md5 sha256 rc4_size aes_dec (fun _ _ => ODict e) t pw = Ok (Some h) ->
  forall D m k, (0 < D)%nat -> 4 * zlen (file_of a b raws) + 8 <= Z.of_nat m -> (List.length raws <= k)%nat -> (2 <= k)%nat ->
  exists s, arun (file_of a b raws) (open_pdf inflate ccitt D m md5 sha256 rc4_size aes_dec k pw) (mkA 0 [] rst0) =
              (Ok ([a; 46; b], t, Some h, denoted (current docs) rn rg), s) /\
  forall ids, Forall (fun id => current docs (fst id) (snd id) <> None) ids ->
    fst (session inflate ccitt (decrypt_object md5 rc4_size aes_dec (Some h)) D m k (file_of a b raws) s ids) =
    map (fun id => Ok (denoted (current docs) (fst id) (snd id))) ids.
Proof.
  intros inflate ccitt md5 sha256 rc4_size aes_enc aes_dec a b raws docs en eg e rn rg pw h Hmd Hrc HCi Ha Hb Hne HF Hlt HSe t HE Hraw He HR Hrr Hth D m k HD Hm Hk Hk2.
  unfold file_of in *. destruct (written_facts a b raws Ha Hb Hne HF Hlt) as (o & Hh & Hoff & HC).
  assert (forall n g v, current raws n g = Some v -> no_objstm v) as HO by (intros n g v Hv; apply (written_listed a b (current raws) raws HF [] n g v Hv)).
  destruct (C81_listed_objects inflate ccitt md5 sha256 rc4_size aes_dec (fst (write a b raws)) [a; 46; b] 0 o (tables a b raws) t (current raws) (current docs) en eg e rn rg pw h
    Hh Hoff HC (trailer_keys a b raws _ HF (or_introl eq_refl)) (trailer_keys a b raws _ HF (or_intror eq_refl))) with (D := D) (m := m) (k := k) as (s & E & HS); auto.
  - intros n g v Hv. destruct (written_listed a b (current raws) raws HF [] n g v Hv) as [H _]. now rewrite app_nil_r in H.
  - now apply (sealed_reads_as md5 rc4_size aes_enc aes_dec).
  - rewrite tables_len. exact Hk.
  - exists s. split; [exact E|]. intros ids Hids. apply HS. eapply Forall_impl; [|exact Hids]. intros [n g] Hid. cbn [fst snd] in *.
    pose proof (sealed_current md5 aes_enc h raws docs n g HSe) as HX. destruct (current raws n g); [discriminate|contradiction].
Qed.
Print Assumptions C81_written_documents.

(** the layout of a file with one revision *)
Lemma once_layout a b r : is_digit a = true -> is_digit b = true -> rev_ok r -> zlen (file_of a b [r]) < 10 ^ 10 ->
  exists body sec o, file_of a b [r] = [] ++ body ++ sec /\ BodyText (current [r]) (rv_objs r) body sec /\
    (forall c, hd_error sec = Some c -> is_digit c = false /\ c <> 115 /\ c <> 116) /\
    header_of (file_of a b [r]) (Ok ([a; 46; b], 0)) /\ offset_of (file_of a b [r]) (Ok o) /\ Chain (file_of a b [r]) o (tables a b [r]) (rv_trailer r) /\
    (forall n g v, In (n, g, v) (rv_objs r) <-> current [r] n g = Some v) /\
    listings_right (current [r]) (file_of a b [r]) (tables a b [r]) /\
    (forall n g v, current [r] n g = Some v -> (exists o, newest (tables a b [r]) n g o) /\ no_objstm v).
Proof.
  intros Ha Hb Hr Hlt. unfold file_of in *.
  assert (Forall rev_ok [r]) as HF by (constructor; [exact Hr|constructor]).
  destruct (written_facts a b [r] Ha Hb ltac:(discriminate) HF Hlt) as (o & Hh & Hoff & HC).
  pose proof Hr as (R1 & R2 & _).
  set (l := listings (zlen (version_line a b)) (rv_objs r)) in *.
  set (sec := section_text l (rv_trailer r) ++ end_text (zlen (version_line a b) + zlen (body_text (rv_objs r)))).
  assert (Sep (version_line a b)) as Hsep.
  { unfold version_line. replace (bs "%PDF-" ++ [a; 46; b] ++ [10]) with (37 :: (bs "PDF-" ++ [a; 46; b]) ++ [10] ++ []) by reflexivity.
    apply (Sep_comment (bs "PDF-" ++ [a; 46; b]) [10] []); [|left; reflexivity|constructor].
    unfold is_digit in Ha, Hb. repeat constructor; cbn; lia. }
  assert (exists body, BodyText (current [r]) (rv_objs r) body sec /\ fst (write a b [r]) = [] ++ body ++ sec) as (body & HB & Ef).
  { pose proof (body_ok (current [r]) sec eq_refl (rv_objs r) (version_line a b) R1 Hsep) as HB. rewrite write_cons.
    change (fst (write a b [])) with (version_line a b). change (trailer_with (snd (write a b [])) (rv_trailer r)) with (rv_trailer r).
    unfold rev_text. destruct (rv_objs r) as [|[[n g] v] rs].
    - exists (version_line a b). split; [exact HB|]. reflexivity.
    - eexists. split; [exact HB|]. cbn [body_text app]. rewrite <- !app_assoc. reflexivity. }
  assert (forall n g, current [r] n g = find_obj (rv_objs r) n g) as Ec by (intros n g; cbn [current]; now destruct (find_obj (rv_objs r) n g)).
  exists body, sec, o. split; [exact Ef|]. split; [exact HB|]. split; [intros c X; inversion X; repeat split; discriminate|].
  split; [exact Hh|]. split; [exact Hoff|]. split; [exact HC|]. split; [intros n g v; rewrite Ec; now apply find_In|]. split.
  - intros n g o' (newer & l' & older & E1 & E2 & E3). change (tables a b [r]) with [l] in E1. destruct newer as [|x newer]; [|destruct newer; discriminate].
    injection E1 as <- <-. destruct (listed_find _ _ _ _ _ E2) as [v Hv]. exists v. split; [now rewrite Ec|].
    assert (current [r] n g = Some v) as Hv' by now rewrite Ec.
    destruct (written_listed a b (current [r]) [r] HF [] n g v Hv') as [(o2 & (nw & l2 & od & F1 & F2 & F3) & HSt) _]. rewrite app_nil_r in HSt.
    change (tables a b [r]) with [l] in F1. destruct nw as [|x nw]; [|destruct nw; discriminate]. injection F1 as <- <-. fold l in E2. rewrite E2 in F2. injection F2 as <-. exact HSt.
  - intros n g v Hv. destruct (written_listed a b (current [r]) [r] HF [] n g v Hv) as [(o2 & HN & _) H2]. eauto.
Qed.
Lemma rev_trailer_keys r : rev_ok r -> dget (rv_trailer r) (bs "xrefs") = None /\ dget (rv_trailer r) (bs "self") = None.
Proof. intros (_ & _ & _ & _ & A & B). auto. Qed.

(** C81 (d).  One revision: any ids, in any order: the object as it was before encryption, or null. *)
Theorem C81_written_once : forall inflate ccitt md5 sha256 rc4_size aes_enc aes_dec a b r objs en eg e rn rg pw h,
  (forall x, List.length (md5 x) = 16%nat) -> (forall k, 5 <= k <= 16 -> rc4_size k = true) -> cipher aes_enc aes_dec ->
  is_digit a = true -> is_digit b = true -> rev_ok r -> zlen (file_of a b [r]) < 10 ^ 10 ->
  sealed_objects md5 aes_enc h (rv_objs r) objs ->
  dget (rv_trailer r) (bs "Encrypt") = Some (ORef en eg) -> find_obj (rv_objs r) en eg = Some (ODict e) -> e <> [] ->
  dget (rv_trailer r) (bs "Root") = Some (ORef rn rg) ->
  trailer_handler md5 sha256 rc4_size aes_dec (fun _ _ => ODict e) (rv_trailer r) pw = Ok (Some h) ->
  forall D m k, (0 < D)%nat -> 4 * zlen (file_of a b [r]) + 8 <= Z.of_nat m -> (2 <= k)%nat ->
  exists s, arun (file_of a b [r]) (open_pdf inflate ccitt D m md5 sha256 rc4_size aes_dec k pw) (mkA 0 [] rst0) =
              (Ok ([a; 46; b], rv_trailer r, Some h, match find_obj objs rn rg with Some v => v | None => ONull end), s) /\
  forall ids, fst (session inflate ccitt (decrypt_object md5 rc4_size aes_dec (Some h)) D m k (file_of a b [r]) s ids) =
    map (fun id => Ok (match find_obj objs (fst id) (snd id) with Some v => v | None => ONull end)) ids.
Proof.
  intros inflate ccitt md5 sha256 rc4_size aes_enc aes_dec a b r objs en eg e rn rg pw h Hmd Hrc HCi Ha Hb Hr Hlt HSe HE Hraw He HR Hth D m k HD Hm Hk.
  destruct (once_layout a b r Ha Hb Hr Hlt) as (body & sec & o & Ef & HB & Hc & Hh & Hoff & HC & Hall & HLR & HN).
  destruct (rev_trailer_keys r Hr) as [K1 K2].
  assert (forall l n g, current [mkRev l []] n g = find_obj l n g) as Ec by (intros l n g; cbn [current rv_objs]; now destruct (find_obj l n g)).
  assert (forall n g, current [r] n g = find_obj (rv_objs r) n g) as Ec1 by (intros n g; cbn [current]; now destruct (find_obj (rv_objs r) n g)).
  assert (current [r] en eg = Some (ODict e)) as Hraw1 by now rewrite Ec1. destruct (HN en eg _ Hraw1) as [[eo HNe] _].
  destruct (C81_any_objects inflate ccitt md5 sha256 rc4_size aes_dec (file_of a b [r]) [a; 46; b] [] body sec o (tables a b [r]) (rv_trailer r)
    (current [r]) (current [mkRev objs []]) (rv_objs r) en eg e eo rn rg pw h Ef Hh Hoff HC K1 K2 HB Hc Hall HLR) with (D := D) (m := m) (k := k) as (s & E & HS); auto.
  - intros n g z Hz. apply (HN n g _ Hz).
  - apply (sealed_reads_as md5 rc4_size aes_enc aes_dec); [exact Hmd|exact Hrc|exact HCi|constructor; [exact Hr|constructor]| |].
    + intros n g v Hv. apply (HN n g v Hv).
    + constructor; [exact HSe|constructor].
  - change (List.length (tables a b [r])) with 1%nat. lia.
  - exists s. split; [rewrite E; unfold denoted; now rewrite Ec|]. intros ids. rewrite HS. apply map_ext. intros [n g]. cbn [fst snd]. unfold denoted. now rewrite Ec.
Qed.
Print Assumptions C81_written_once.

(** ---- RC4 with passwords (versions 1 to 3) ---- *)
Lemma dset_same d k v : dget d k = Some v -> dset d k v = d.
Proof.
  induction d as [|[k' w] d IH]; cbn [dget dset]; [discriminate|]. destruct (eqlZ k k') eqn:E; [intros X; injection X as ->; reflexivity|]. intros X. now rewrite IH.
Qed.
Lemma seal_all_ok md5 aes_enc key objs : Forall (fun e => fst (fst e) <= 4294967295 /\ writable (snd e) /\ not_string (snd e)) objs ->
  sealed_objects md5 aes_enc (HBase key) (seal_all md5 key objs) objs.
Proof.
  induction 1 as [|[[n g] v] objs (A & B & C) HF IH]; [constructor|]. cbn [fst snd] in *. constructor; [|exact IH]. cbn [fst snd].
  split; [reflexivity|]. split; [exact A|]. destruct v; try (apply Sealed_plain; [exact C|intros ? ?; discriminate]).
  destruct B as (_ & HL & _). cbn [seal]. rewrite <- (dset_same _ _ _ HL) at 2. apply (Sealed_rc4 md5 aes_enc (HBase key) n g key). now left.
Qed.
Lemma rc4_zlen key data : zlen (rc4_core key data) = zlen data.
Proof. unfold zlen. now rewrite rc4_len. Qed.
Lemma seal_all_rev md5 key r : rev_ok r -> rev_ok (mkRev (seal_all md5 key (rv_objs r)) (rv_trailer r)).
Proof.
  intros (R1 & R2 & R3). unfold rev_ok. cbn [rv_objs rv_trailer]. split; [|split; [|exact R3]].
  - unfold seal_all. apply Forall_map. eapply Forall_impl; [|exact R1]. intros [[n g] v] (A & B & C). cbn [fst snd] in *. split; [exact A|]. split; [exact B|].
    destruct v; try exact C. cbn [seal writable] in *. now rewrite rc4_zlen.
  - unfold seal_all. rewrite map_map. cbn [fst]. exact R2.
Qed.
Lemma seal_all_find md5 key n g : forall objs, find_obj (seal_all md5 key objs) n g = match find_obj objs n g with Some v => Some (seal md5 key n g v) | None => None end.
Proof.
  induction objs as [|[[n0 g0] v0] objs IH]; [reflexivity|]. cbn [seal_all map find_obj fst snd]. destruct ((n0 =? n) && (g0 =? g)) eqn:E; [|exact IH].
  assert (n0 = n /\ g0 = g) as [-> ->] by (apply andb_true_iff in E; lia). reflexivity.
Qed.

(** C81 (e).  A document encrypted with RC4 and written out - its Encrypt dictionary made from an owner and a user
    password as the standard describes - opens with either password (with the owner's unless it passes the test for the
    user's) and every lookup gives the original object, or null. *)
Theorem C81_passwords : forall inflate ccitt md5 sha256 rc4_size aes_dec a b r en eg e rn rg V R P len id0 ids0 id opw upw key pw,
  (forall x, List.length (md5 x) = 16%nat) -> (forall k, 5 <= k <= 16 -> rc4_size k = true) ->
  is_digit a = true -> is_digit b = true -> rev_ok r ->
  Forall (fun e => fst (fst e) <= 4294967295 /\ not_string (snd e)) (rv_objs r) ->
  let file := file_of a b [mkRev (seal_all md5 key (rv_objs r)) (rv_trailer r)] in zlen file < 10 ^ 10 ->
  dget (rv_trailer r) (bs "Encrypt") = Some (ORef en eg) -> find_obj (rv_objs r) en eg = Some (ODict e) ->
  dget (rv_trailer r) (bs "Root") = Some (ORef rn rg) ->
  dget (rv_trailer r) (bs "ID") = Some (OArr (OHex id0 :: ids0)) -> M_CMap.fromhex id0 = Ok id ->
  In V [1; 2; 3] -> In R [2; 3] -> written md5 e V R P len id opw upw key ->
  pw = upw \/ (pw = opw /\ ~ passes md5 e R P len id opw) ->
  forall D m k, (0 < D)%nat -> 4 * zlen file + 8 <= Z.of_nat m -> (2 <= k)%nat ->
  exists s, arun file (open_pdf inflate ccitt D m md5 sha256 rc4_size aes_dec k pw) (mkA 0 [] rst0) =
              (Ok ([a; 46; b], rv_trailer r, Some (HBase key), match find_obj (rv_objs r) rn rg with Some v => v | None => ONull end), s) /\
  forall ids, fst (session inflate ccitt (decrypt_object md5 rc4_size aes_dec (Some (HBase key))) D m k file s ids) =
    map (fun id => Ok (match find_obj (rv_objs r) (fst id) (snd id) with Some v => v | None => ONull end)) ids.
Proof.
  intros inflate ccitt md5 sha256 rc4_size aes_dec a b r en eg e rn rg V R P len id0 ids0 id opw upw key pw Hmd Hrc Ha Hb Hr HF file Hlt HE He HR HID Hid HV HRev HW Hpw D m k HD Hm Hk.
  set (r1 := mkRev (seal_all md5 key (rv_objs r)) (rv_trailer r)) in *.
  assert (e <> []) as Hne by (destruct HW as (O & U & (X & _) & _); intros ->; discriminate).
  assert (sealed_objects md5 (fun _ b => b) (HBase key) (rv_objs r1) (rv_objs r)) as HSe.
  { apply seal_all_ok. destruct Hr as (R1 & _). rewrite Forall_forall in *. intros x Hx. destruct (HF x Hx) as [A B]. destruct (R1 x Hx) as (_ & _ & C). auto. }
  assert (id_array (OArr (OHex id0 :: ids0)) id) as HIA by (exists id0, ids0; split; [reflexivity|exact Hid]).
  destruct (C61_opens md5 sha256 rc4_size aes_dec (fun _ _ => ODict e) en eg e V R P len (OArr (OHex id0 :: ids0)) id opw upw key Hmd Hrc eq_refl HIA HV HRev HW) as [HU HOw].
  assert (trailer_handler md5 sha256 rc4_size aes_dec (fun _ _ => ODict e) (rv_trailer r1) pw = Ok (Some (HBase key))) as Hth.
  { destruct (C61_trailer md5 sha256 rc4_size aes_dec (fun _ _ => ODict e) (rv_trailer r1) pw) as (_ & HT & _).
    rewrite (HT (ORef en eg) (OHex id0 :: ids0) HE HID) by discriminate.
    destruct Hpw as [-> | (-> & Hnp)]; [exact HU|]. destruct HOw as [HOw|HOw]; [exact HOw|contradiction]. }
  (* the block cipher is not used *)
  assert (reads_as md5 rc4_size aes_dec (HBase key) (current [r1]) (current [r])) as HRd.
  { split.
    - intros n g v Hv. assert (Forall2 (fun r d => sealed_objects md5 (fun _ b => b) (HBase key) (rv_objs r) (rv_objs d)) [r1] [r]) as HF2 by (constructor; [exact HSe|constructor]).
      pose proof (sealed_current md5 (fun _ b => b) (HBase key) [r1] [r] n g HF2) as HX. rewrite Hv in HX. destruct HX as (w & Hw & Hn & HSd).
      assert (Forall rev_ok [r1]) as HR1 by (constructor; [now apply seal_all_rev|constructor]).
      destruct (current_range [r1] n g v HR1 Hv) as [Hn0 Hg0]. exists w. split; [exact Hw|]. split.
      + destruct HSd as [v H1 H2|key' d data H|key' d data iv blocks (meta & str & X & _)|key' d data iv blocks (meta & str & X & _)|key' stm str d data X]; try discriminate X.
        * destruct v; cbn in H1; try contradiction; try (exfalso; eapply H2; reflexivity); reflexivity.
        * apply C60_stream; auto; unfold id32; lia.
      + eapply sealed_objstm; [exact HSd|]. apply (written_listed a b (current [r1]) [r1] HR1 [] n g v Hv).
    - intros n g Hv. assert (Forall2 (fun r d => sealed_objects md5 (fun _ b => b) (HBase key) (rv_objs r) (rv_objs d)) [r1] [r]) as HF2 by (constructor; [exact HSe|constructor]).
      pose proof (sealed_current md5 (fun _ b => b) (HBase key) [r1] [r] n g HF2) as HX. now rewrite Hv in HX. }
  destruct (once_layout a b r1 Ha Hb (seal_all_rev md5 key r Hr) Hlt) as (body & sec & o & Ef & HB & Hc & Hh & Hoff & HC & Hall & HLR & HN).
  destruct (rev_trailer_keys r Hr) as [K1 K2].
  assert (forall x n g, current [x] n g = find_obj (rv_objs x) n g) as Ec by (intros x n g; cbn [current]; now destruct (find_obj (rv_objs x) n g)).
  assert (current [r1] en eg = Some (ODict e)) as Hraw1 by (rewrite Ec; unfold r1; cbn [rv_objs]; rewrite seal_all_find, He; reflexivity). destruct (HN en eg _ Hraw1) as [[eo HNe] _].
  destruct (C81_any_objects inflate ccitt md5 sha256 rc4_size aes_dec (file_of a b [r1]) [a; 46; b] [] body sec o (tables a b [r1]) (rv_trailer r1)
    (current [r1]) (current [r]) (rv_objs r1) en eg e eo rn rg pw (HBase key) Ef Hh Hoff HC K1 K2 HB Hc Hall HLR) with (D := D) (m := m) (k := k) as (s & E & HS); auto.
  - intros n g z Hz. apply (HN n g _ Hz).
  - change (List.length (tables a b [r1])) with 1%nat. lia.
  - exists s. split; [unfold file; rewrite E; unfold denoted; now rewrite Ec|]. intros ids. unfold file. rewrite HS. apply map_ext. intros [n g]. cbn [fst snd]. unfold denoted. now rewrite Ec.
Qed.
Print Assumptions C81_passwords.

(** A document with a stream, encrypted with a 128-bit key; it has the Encrypt dictionary of P_Crypto.v. *)
Definition ex_doc : revision :=
  mkRev [(1, 0, ODict [(bs "Type", OName (bs "Catalog")); (bs "Title", OStr (bs "kept as is"))]);
         (2, 3, OStream [(bs "Length", OInt 5)] (bs "hello"));
         (4, 0, ODict ex_dict)]
        [(bs "Root", ORef 1 0); (bs "Encrypt", ORef 4 0); (bs "ID", OArr [OHex (bs "010203FF"); OHex (bs "010203FF")])].
Example ex_doc_ok : rev_ok ex_doc.
Proof.
  unfold rev_ok, ex_doc, ex_dict. cbn [rv_objs rv_trailer map fst snd writable printable fold_right].
  assert (forall s, forallb (fun c => (0 <=? c) && (c <? 256)) s = true -> bytes_ok s) as Hb.
  { intros s H. rewrite forallb_forall in H. apply Forall_forall. intros c Hc. specialize (H c Hc). unfold byte_ok. lia. }
  wr; first [apply Hb; reflexivity | reflexivity | discriminate | (vm_compute; discriminate) | idtac].
  all: let x := eval vm_compute in (bs "010203FF") in change (bs "010203FF") with x;
    repeat (constructor; [first [exists 0; split; [lia|reflexivity] | exists 1; split; [lia|reflexivity] | exists 2; split; [lia|reflexivity]
      | exists 3; split; [lia|reflexivity] | exists 15; split; [lia|reflexivity]]|]); constructor.
Qed.
Example C81_ex inflate ccitt : exists s m,
  arun (file_of 49 55 [mkRev (seal_all toy_md5 ex_key (rv_objs ex_doc)) (rv_trailer ex_doc)])
    (open_pdf inflate ccitt 1 m toy_md5 toy_md5 (fun _ => true) (fun _ b => b) 2 (bs "user")) (mkA 0 [] rst0) =
    (Ok (bs "1.7", rv_trailer ex_doc, Some (HBase ex_key), ODict [(bs "Type", OName (bs "Catalog")); (bs "Title", OStr (bs "kept as is"))]), s) /\
  fst (session inflate ccitt (decrypt_object toy_md5 (fun _ => true) (fun _ b => b) (Some (HBase ex_key))) 1 m 2
    (file_of 49 55 [mkRev (seal_all toy_md5 ex_key (rv_objs ex_doc)) (rv_trailer ex_doc)]) s [(2, 3); (9, 0); (2, 3)]) =
    [Ok (OStream [(bs "Length", OInt 5)] (bs "hello")); Ok ONull; Ok (OStream [(bs "Length", OInt 5)] (bs "hello"))] /\
  seal toy_md5 ex_key 2 3 (OStream [(bs "Length", OInt 5)] (bs "hello")) <> OStream [(bs "Length", OInt 5)] (bs "hello").
Proof.
  assert (zlen (file_of 49 55 [mkRev (seal_all toy_md5 ex_key (rv_objs ex_doc)) (rv_trailer ex_doc)]) < 10 ^ 10) as Hlt by (vm_compute; reflexivity).
  destruct (C81_passwords inflate ccitt toy_md5 toy_md5 (fun _ => true) (fun _ b => b) 49 55 ex_doc 4 0 ex_dict 1 0 2 3 (-44) 128
    (bs "010203FF") [OHex (bs "010203FF")] ex_id (bs "owner") (bs "user") ex_key (bs "user") toy_md5_len (fun _ _ => eq_refl) eq_refl eq_refl ex_doc_ok) with
    (D := 1%nat) (m := Z.to_nat (4 * zlen (file_of 49 55 [mkRev (seal_all toy_md5 ex_key (rv_objs ex_doc)) (rv_trailer ex_doc)]) + 8)) (k := 2%nat)
    as (s & E & HS); try reflexivity; try exact Hlt.
  all: lazymatch goal with
    | |- Forall _ _ => repeat constructor; cbn; lia
    | |- In _ _ => cbn; auto
    | |- written _ _ _ _ _ _ _ _ _ _ => exact C61_ex_written
    | |- _ \/ _ => left; reflexivity
    | |- (_ < _)%nat => apply le_n
    | |- (_ <= _)%nat => apply le_n
    | |- _ <= Z.of_nat _ => pose proof (zlen_nonneg (file_of 49 55 [mkRev (seal_all toy_md5 ex_key (rv_objs ex_doc)) (rv_trailer ex_doc)])) as H0; rewrite Z2Nat.id; [apply Z.le_refl|clear -H0; lia]
    | |- _ => idtac
    end.
  eexists _, _. split; [exact E|]. split; [exact (HS [(2, 3); (9, 0); (2, 3)])|]. vm_compute. discriminate.
Qed.
