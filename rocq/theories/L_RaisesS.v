(** The exceptions of the CCITT decoder, of the security handlers and of opening a document. *)
From Coq Require Import String.
From Verif Require Import Prelude M_Prog L_Prog M_Parser M_Filters M_Document M_CMap M_CCITT M_Crypto M_Secure L_Raises L_RaisesP L_RaisesD.
Local Open Scope Z_scope.
Local Open Scope prog_scope.

Definition all_raisable : list exn := raisable ++ [InvalidData; StructErr].
Lemma all_incl : incl raisable all_raisable. Proof. unfold all_raisable. apply incl_appl, incl_refl. Qed.
Notation okx := (okr all_raisable).
Lemma okx_err {A} e : In e all_raisable -> @okr all_raisable A (Err e). Proof. auto. Qed.
Ltac mx := cbn; auto 16.
Ltac ee := solve [exact Logic.I | apply okx_err; mx].
Lemma okx_bind {A C} (r : res A) (g : A -> res C) : okx r -> (forall a, okx (g a)) -> okx (rbind r g).
Proof. destruct r; cbn; auto. Qed.

Section Fax.
  Variable width : Z.
  Variables (align rev_ : bool).
  Lemma okx_aget l j : okx (aget l j). Proof. unfold aget. cbv zeta. destruct (_ && _); ee. Qed.
  Lemma okx_aset l j v : okx (aset l j v). Proof. unfold aset. cbv zeta. destruct (_ && _); ee. Qed.
  Lemma okx_fill : forall n l x v, okx (fill n l x v).
  Proof. induction n as [|n IH]; intros l x v; cbn [fill]; [ee|]. apply okx_bind; [apply okx_aset|intros; apply IH]. Qed.
  Lemma okx_b1 : forall n ref c x, okx (find_b1 n ref c x).
  Proof.
    induction n as [|n IH]; intros ref c x; cbn [find_b1]; [ee|].
    destruct (x =? 0); [destruct (c =? 1); [apply okx_bind; [apply okx_aget|intros r; destruct (negb _); [ee|apply IH]]|apply IH]|].
    destruct (x =? zlen ref); [ee|]. apply okx_bind; [apply okx_aget|intros p]. destruct (p =? c); [|apply IH].
    apply okx_bind; [apply okx_aget|intros r; destruct (negb _); [ee|apply IH]].
  Qed.
  Lemma okx_b2 : forall n ref c x, okx (find_b2 n ref c x).
  Proof.
    induction n as [|n IH]; intros ref c x; cbn [find_b2]; [ee|].
    destruct (x =? 0); [destruct (c =? 0); [apply okx_bind; [apply okx_aget|intros r; destruct (_ =? c); [ee|apply IH]]|apply IH]|].
    destruct (x =? zlen ref); [ee|]. apply okx_bind; [apply okx_aget|intros p]. destruct (negb _); [|apply IH].
    apply okx_bind; [apply okx_aget|intros r; destruct (_ =? c); [ee|apply IH]].
  Qed.
  Lemma okx_vertical s dx : okx (do_vertical width s dx).
  Proof.
    unfold do_vertical. apply okx_bind; [apply okx_b1|intros b1]. cbv zeta. apply okx_bind; [|intros; ee].
    destruct (_ <? _); [apply okx_fill|]. destruct (_ <? _); [apply okx_fill|ee].
  Qed.
  Lemma okx_pass s : okx (do_pass width s).
  Proof. unfold do_pass. apply okx_bind; [apply okx_b1|intros b1]. apply okx_bind; [apply okx_b2|intros b2]. apply okx_bind; [apply okx_fill|intros; ee]. Qed.
  Lemma okx_run : forall n l x v, okx (M_CCITT.run n l x v).
  Proof. induction n as [|n IH]; intros l x v; cbn [M_CCITT.run]; [ee|]. destruct (_ <=? _); [ee|]. apply okx_bind; [apply okx_aset|intros; apply IH]. Qed.
  Lemma okx_horizontal s n1 n2 : okx (do_horizontal s n1 n2).
  Proof. unfold do_horizontal. cbv zeta. apply okx_bind; [apply okx_run|intros [l1 x1]]. apply okx_bind; [apply okx_run|intros [l2 x2]; ee]. Qed.

  Definition oko (o : out) : Prop := match o with GFail e => In e all_raisable | _ => True end.
  Lemma oko_flush s t : oko (flush_to width align rev_ s t).
  Proof. unfold flush_to. destruct (flush_line _ _ _ _) as [[] ?]; exact Logic.I. Qed.
  Lemma oko_uncompressed : forall bits s t, oko (do_uncompressed width align rev_ bits s t).
  Proof.
    induction bits as [|c r IH]; intros s t; cbn [do_uncompressed]; [exact Logic.I|]. pose proof (okx_aset (g_cur s) (g_pos s) (c - 48)) as H.
    destruct (aset _ _ _) as [cur|e]; [|exact H]. destruct (flush_line _ _ _ _) as [[] s']; [exact Logic.I|apply IH].
  Qed.
  Ltac oo := solve [exact Logic.I | mx].
  Lemma oko_accept s v : oko (do_accept width align rev_ s v).
  Proof.
    unfold do_accept. destruct (g_acc s).
    - unfold parse_mode. destruct v as [[z|l]|]; [| |oo].
      + pose proof (okx_vertical s z) as H. destruct (do_vertical _ _ _); [apply oko_flush|exact H].
      + destruct (eqlZ _ _); [pose proof (okx_pass s) as H; destruct (do_pass _ _); [apply oko_flush|exact H]|]. repeat (destruct (eqlZ _ _); [oo|]). oo.
    - unfold parse_horiz1. destruct v as [[z|l]|]; oo.
    - unfold parse_horiz2. destruct v as [[z|l]|]; [|oo|oo]. cbv zeta. destruct (z <? 64); [|oo].
      match goal with |- oko (match do_horizontal ?a ?b ?c with _ => _ end) => pose proof (okx_horizontal a b c) as H; destruct (do_horizontal a b c) end; [apply oko_flush|exact H].
    - unfold parse_uncompressed. destruct v as [[z|l]|]; [destruct (z =? 0); oo| |oo]. destruct l as [|c r]; [oo|].
      destruct (c =? 84) eqn:Ec.
      + apply Z.eqb_eq in Ec. subst c. destruct r as [|c r]; [oo|apply oko_uncompressed].
      + assert (forall (A : Type) (a b : A), c <> 84 -> match c with 84 => a | _ => b end = b) as HX.
        { clear. intros A a b H. destruct c as [|p|p]; try reflexivity. repeat (destruct p; try reflexivity). lia. }
        apply Z.eqb_neq in Ec. assert (oko (do_uncompressed width align rev_ (c :: r) s UNCOMPRESSED)) as HU by apply oko_uncompressed.
        revert HU Ec. clear. intros HU Ec. destruct c as [|p|p]; try exact HU. do 7 (destruct p; try exact HU). lia.
  Qed.
  Lemma oko_bit s x : oko (parse_bit width align rev_ s x).
  Proof. unfold parse_bit. destruct (g_state s) as [| |z o]; try oo. destruct (if x then o else z); [apply oko_accept|apply oko_accept|oo]. Qed.
  Definition okf (o : fed) : Prop := match o with FErr e => In e all_raisable | _ => True end.
  Lemma okf_bits : forall bits s, okf (feed_bits width align rev_ bits s).
  Proof.
    induction bits as [|x r IH]; intros s; cbn [feed_bits]; [exact Logic.I|]. pose proof (oko_bit s x) as H. destruct (parse_bit _ _ _ _ _); try exact Logic.I; [apply IH|exact H].
  Qed.
  Lemma okf_bytes : forall data s, okf (feedbytes width align rev_ data s).
  Proof. induction data as [|b r IH]; intros s; cbn [feedbytes]; [exact Logic.I|]. pose proof (okf_bits (byte_bits b) s) as H. destruct (feed_bits _ _ _ _ _); [apply IH|exact Logic.I|exact H]. Qed.
End Fax.
Lemma okx_ccitt d p : okx (ccittfaxdecode d p).
Proof.
  assert (forall k, okx (pget p k)) as HP by (intros; apply okr_pget; apply all_incl).
  unfold ccittfaxdecode. repeat (apply okx_bind; [apply HP|intros]).
  assert (forall w, okx (g4_decode w (truthy_opt a1) (truthy_opt a2) d)) as HG.
  { intros w. unfold g4_decode. match goal with |- context [feedbytes ?a ?b ?c ?e ?g] => pose proof (okf_bytes a b c e g) as H; destruct (feedbytes a b c e g) end; try exact Logic.I. exact H. }
  destruct a as [[|q|q]|]; try ee. destruct q; try ee. destruct a0; [apply HG|ee].
Qed.

Section Crypto.
  Variables (md5 sha256 : list Z -> list Z).
  Variable rc4_size : Z -> bool.
  Variable aes_dec : list Z -> list Z -> list Z.
  Lemma okx_rc4 k d : okx (rc4 rc4_size k d). Proof. unfold rc4. destruct (rc4_size _); ee. Qed.
  Lemma okx_cbc k iv d : okx (aes_cbc aes_dec k iv d).
  Proof. unfold aes_cbc. repeat (destruct (negb _); [ee|]). ee. Qed.
  Lemma okx_rounds k : forall l r, okx (rc4_rounds rc4_size k l r).
  Proof. induction l as [|i l IH]; intros r; cbn [rc4_rounds]; [ee|]. apply okx_bind; [apply okx_rc4|intros; apply IH]. Qed.
  Lemma okx_u q k : okx (compute_u md5 rc4_size q k).
  Proof. unfold compute_u. destruct (_ =? 2); [apply okx_rc4|]. cbv zeta. apply okx_bind; [apply okx_rc4|intros]. apply okx_bind; [apply okx_rounds|intros; ee]. Qed.
  Lemma okx_packl p : okx (pack_l p). Proof. unfold pack_l. destruct (_ && _); ee. Qed.
  Lemma okx_packL p : okx (pack_L p). Proof. unfold pack_L. destruct (_ && _); ee. Qed.
  Lemma okx_key q pw : okx (compute_encryption_key md5 q pw).
  Proof. unfold compute_encryption_key. cbv zeta. apply okx_bind; [apply okx_packl|intros]. destruct (_ >=? 3); ee. Qed.
  Lemma okx_user q pw : okx (authenticate_user_password md5 rc4_size q pw).
  Proof.
    unfold authenticate_user_password. apply okx_bind; [apply okx_key|intros k]. apply okx_bind; [|intros []; ee]. unfold verify_encryption_key.
    apply okx_bind; [apply okx_u|intros]. destruct (_ =? 2); ee.
  Qed.
  Lemma okx_auth q pw : okx (authenticate md5 rc4_size q pw).
  Proof.
    unfold authenticate. apply okx_bind; [apply okx_user|intros [k|]]; [ee|]. unfold authenticate_owner_password. cbv zeta. apply okx_bind; [|intros; apply okx_user].
    destruct (_ =? 2); [apply okx_rc4|apply okx_rounds].
  Qed.
  Lemma okx_auth5 q oe ue pw : okx (authenticate5 sha256 aes_dec q oe ue pw).
  Proof. unfold authenticate5. cbv zeta. destruct (eqlZ _ _); [apply okx_bind; [apply okx_cbc|intros; ee]|]. destruct (eqlZ _ _); [apply okx_bind; [apply okx_cbc|intros; ee]|ee]. Qed.
  Lemma okx_method mt k num gen d : okx (run_method md5 rc4_size aes_dec mt k num gen d).
  Proof.
    destruct mt; cbn [run_method]; [| |apply okx_cbc|ee].
    - unfold decrypt_rc4. apply okx_bind; [apply okx_packL|intros]. apply okx_bind; [apply okx_packL|intros]. cbv zeta. apply okx_rc4.
    - unfold decrypt_aes128. apply okx_bind; [apply okx_packL|intros]. apply okx_bind; [apply okx_packL|intros]. cbv zeta. apply okx_cbc.
  Qed.
  Lemma okx_with stm str sk key num gen v : okx (decrypt_with md5 rc4_size aes_dec stm str sk key num gen v).
  Proof.
    unfold decrypt_with. destruct v; try ee.
    - apply okx_bind; [apply okx_method|intros; ee].
    - apply okx_bind; [|intros; ee]. destruct str; cbn [packs]; try ee; (apply okx_bind; [apply okx_packL|intros]; apply okx_bind; [apply okx_packL|intros; ee]).
    - destruct (_ && _); [ee|]. apply okx_bind; [apply okx_method|intros; ee].
  Qed.
  Lemma okx_decrypt h num gen v : okx (decrypt_object md5 rc4_size aes_dec h num gen v).
  Proof. destruct h as [[key|key meta stm str]|]; cbn [decrypt_object]; [apply okx_with|apply okx_with|ee]. Qed.

  Lemma okx_fromhex : forall s, okx (fromhex s).
  Proof.
    fix IH 1. intros [|a [|b r]]; cbn [fromhex]; [ee|ee|]. destruct (hexval a); [|ee]. destruct (hexval b); [|ee]. apply okx_bind; [apply IH|intros; ee].
  Qed.
  Lemma okx_entry v : okx (entry_bytes v). Proof. unfold entry_bytes. destruct v; try ee; apply okx_fromhex. Qed.
  Lemma okx_need d k : okx (need d k). Proof. unfold need. destruct (dget d k); ee. Qed.
  Lemma okx_need_int v e : In e all_raisable -> okx (need_int v e). Proof. intros H. unfold need_int. destruct v; try exact H. ee. Qed.
  Lemma okx_params id e : okx (init_params id e).
  Proof.
    unfold init_params. apply okx_bind; [apply okx_need|intros r]. apply okx_bind; [apply okx_need|intros p]. apply okx_bind; [apply okx_need|intros o]. apply okx_bind; [apply okx_entry|intros o'].
    apply okx_bind; [apply okx_need|intros u]. apply okx_bind; [apply okx_entry|intros u']. apply okx_bind; [apply okx_need_int; mx|intros r']. apply okx_bind; [apply okx_need_int; mx|intros p'].
    apply okx_bind; [|intros; ee]. destruct (dget e (bs "Length")); [apply okx_need_int; mx|ee].
  Qed.
  Lemma okx_init_key k : okx k -> okx (init_key k).
  Proof. intros H. unfold init_key. apply okx_bind; [exact H|intros [x|]; ee]. Qed.
  Lemma okx_cfms v5 : forall cf acc, okx (cfms v5 cf acc).
  Proof.
    induction cf as [|[k v] r IH]; intros acc; cbn [cfms]; [ee|]. destruct v; try ee. apply okx_bind; [apply okx_need|intros n]. destruct (get_cfm v5 n); [apply IH|ee].
  Qed.
  Lemma okx_cfm_of l k : okx (cfm_of l k).
  Proof. unfold cfm_of. destruct k; try ee. destruct (cfm_get _ _); ee. Qed.
  Lemma okx_docid id : okx (docid_bytes id).
  Proof. unfold docid_bytes. destruct id as [| | | |l|l|l|l| | | | |]; try ee; destruct l as [|x l]; try ee; try apply okx_fromhex. destruct x; try ee; apply okx_fromhex. Qed.
  Lemma okx_handler enc deref id pw : okx (document_handler md5 sha256 rc4_size aes_dec enc deref id pw).
  Proof.
    unfold document_handler. destruct (negb _); [ee|]. destruct enc; try ee. destruct (deref num gen) as [| | | | | | | |e| | | |]; try ee. destruct e as [|p e]; [ee|].
    destruct (dget (p :: e) (bs "Filter")) as [[]|]; try ee. destruct (eqlZ _ _); [|ee]. apply okx_bind; [|intros; ee]. remember (p :: e) as e2. clear Heqe2.
    unfold security_handler_factory. apply okx_bind; [destruct (dget e2 (bs "V")); [apply okx_need_int; mx|ee]|intros v]. destruct (negb _); [ee|].
    apply okx_bind; [apply okx_docid|intros docid].
    assert (forall v5, okx (make_crypt md5 sha256 rc4_size aes_dec v5 docid e2 pw)) as HC.
    { intros v5. unfold make_crypt. apply okx_bind; [apply okx_params|intros q]. apply okx_bind; [apply okx_need|intros stmf]. apply okx_bind; [apply okx_need|intros strf]. cbv zeta.
      apply okx_bind; [destruct (dget e2 (bs "CF")) as [[]|]; try ee; apply okx_cfms|intros l]. apply okx_bind; [apply okx_cfm_of|intros str]. apply okx_bind; [apply okx_cfm_of|intros stm].
      destruct v5.
      - apply okx_bind; [apply okx_need|intros oe]. apply okx_bind; [apply okx_need|intros ue]. destruct (_ =? 5); [|ee]. apply okx_bind; [apply okx_init_key, okx_auth5|intros; ee].
      - destruct (_ =? 4); [|ee]. apply okx_bind; [apply okx_init_key, okx_auth|intros; ee]. }
    destruct (v =? 4); [apply HC|]. destruct (v =? 5); [apply HC|].
    unfold make_base. apply okx_bind; [apply okx_params|intros q]. destruct (memZ _ _); [|ee]. apply okx_bind; [apply okx_init_key, okx_auth|intros; ee].
  Qed.
End Crypto.

Section Open.
  Variable f : list Z.
  Variable inflate : list Z -> option (list Z).
  Variables (D m : nat).
  Notation ccitt := ccittfaxdecode.
  Notation E := all_raisable.
  Notation ok b w p := (bal f E Ib r_stack b w p anyR).
  Notation HE := all_incl.
  Ltac thr := apply bal_throw; mx.
  Ltac rt := apply bal_ret; intros; exact Logic.I.
  Lemma okx_id (a b : Z) (v : obj) : okx (Ok v). Proof. exact Logic.I. Qed.

  Section Dec.
    Variable decrypt : Z -> Z -> obj -> res obj.
    Hypothesis Hdec : forall a b v, okx (decrypt a b v).
    Notation locate k := (locate_object inflate ccitt decrypt D m k).
    Lemma ok_loc k num gen w : ok true w (locate k num gen).
    Proof. apply ok_locate; [exact HE|exact okx_ccitt|exact Hdec]. Qed.
    Lemma ok_hook k d w : ok true w (length_hook (locate k) d).
    Proof. apply (ok_length_hook f E HE inflate ccitt okx_ccitt decrypt Hdec). intros; apply ok_loc. Qed.
    Lemma ok_iobj k w : ok true w (reg_indirect inflate ccitt decrypt D m (length_hook (locate k))).
    Proof. apply ok_reg_indirect; [exact HE|exact okx_ccitt|exact Hdec|]. intros; apply ok_hook. Qed.
  End Dec.

  (** Opening, from the empty state of a new parser. *)
  Lemma open_raises decrypt k : (forall a b v, okx (decrypt a b v)) ->
    forall s, r_stack (a_usr s) = [] -> r_bf (a_usr s) = None -> bw f (open_document inflate ccitt decrypt D m k) s (bpost E Ib r_stack true s anyR).
  Proof.
    intros Hdec s Hs Hb. unfold open_document.
    assert (Ib (a_usr s) (List.length (a_store s))) as Hi by (intros h X; congruence).
    apply bw_bind. eapply bw_conseq; [apply (ok_pdf_header f E HE Ib r_stack true (List.length (a_store s)) s); [auto|exact Hi]|].
    intros [[ver off]|e] s1 [X|(A1 & A2 & A3 & A4)]; [discriminate X| |left; injection X as ->; reflexivity|right; auto].
    cbv zeta. apply bw_bind.
    eapply bw_conseq; [apply (ok_pdf_trailer f E HE Ib Ib_mono r_stack inflate ccitt okx_ccitt _ _ true (ok_hook decrypt Hdec k) (ok_iobj decrypt Hdec k) k m (List.length (a_store s1)) s1); [auto|exact A2]|].
    intros [[xs t]|e] s2 [X|(B1 & B2 & B3 & B4)]; [discriminate X| |left; injection X as ->; reflexivity|].
    - cbn. right. cbn [a_usr a_store r_bf r_stack]. split; [rewrite app_length; lia|]. split; [intros h X; cbn in X; injection X as <-; rewrite app_length; cbn; lia|]. split; [auto|exact Logic.I].
    - right. rewrite A3 in *. split; [lia|]. split; [exact B2|]. split; [exact B3|exact B4].
  Qed.

  Lemma ok_back_loop b st : forall n t w, ok b w (back_loop n st t).
  Proof. induction n as [|n IH]; intros t w; cbn [back_loop]; [thr|]. destruct (eqlZ _ _); [rt|]. eapply bal_bind; [apply ok_prev_byte; exact HE|intros; apply IH]. Qed.
  Lemma ok_skip_backwards b n st w : ok b w (skip_backwards n st).
  Proof.
    unfold skip_backwards. eapply bal_bind; [apply bal_prev|intros _ n1 _ _]. eapply bal_bind; [apply ok_read_back; exact HE|intros t n2 _ _].
    eapply bal_bind; [apply ok_back_loop|intros _ n3 _ _]. eapply bal_bind; [apply bal_next|intros; rt].
  Qed.
  Lemma ok_headers_back b ex : forall n h w, ok b w (headers_back m n ex h).
  Proof.
    induction n as [|n IH]; intros h w; cbn [headers_back]; [thr|]. destruct (eqlZ _ _); [rt|]. eapply bal_bind; [apply ok_skip_backwards|intros _ n1 _ _].
    eapply bal_bind; [apply ok_skip_backwards|intros _ n2 _ _]. eapply bal_bind; [apply ok_read; exact HE|intros _ n3 _ _]. eapply bal_bind; [apply ok_sp; exact HE|intros _ n4 _ _].
    eapply bal_bind; [apply ok_read; exact HE|intros; apply IH].
  Qed.
  Lemma ok_locate_backwards b iobj num gen : (forall w, ok b w iobj) -> forall w, ok b w (locate_backwards inflate ccitt D m iobj num gen).
  Proof.
    intros HI w. unfold locate_backwards. eapply bal_bind; [apply bal_save; exact Ib_mono|]. cbv beta. intros h n1 H1 Hh.
    eapply bal_bind; [apply ok_xref_offset; exact HE|intros off n2 H2 _]. eapply bal_bind; [apply bal_reset|intros _ n3 H3 _]. cbv zeta.
    eapply bal_bind; [apply ok_read; exact HE|intros hdr n4 H4 _].
    eapply bal_bind with (R := anyR).
    { apply bal_catch; [|intros; rt]. eapply bal_bind; [apply ok_headers_back|intros; rt]. }
    intros [] n5 H5 _; [|rt]. eapply bal_bind; [apply ok_read_back; exact HE|intros _ n6 H6 _]. eapply bal_bind; [apply HI|intros [[n g] v] n7 H7 _].
    eapply bal_bind; [apply ok_do_register; [exact HE|exact okx_ccitt]|intros _ n8 H8 _]. eapply bal_bind; [apply bal_restore; lia|intros; rt].
  Qed.
  Lemma ok_locate_encrypt decrypt k num gen w : (forall a b v, okx (decrypt a b v)) -> ok true w (locate_encrypt inflate ccitt D m decrypt k num gen).
  Proof.
    intros Hdec. unfold locate_encrypt. cbv zeta. eapply bal_bind; [apply ok_reg_get|intros v1 n1 H1 _]. destruct (truthy v1); [rt|].
    eapply bal_bind; [apply bal_getu|intros u n2 H2 _]. destruct (r_xrefs u) as [xs|]; [|thr].
    eapply bal_bind; [apply ok_by_xref; [intros; now apply ok_loc|intros; now apply ok_iobj]|intros v2 n3 H3 _]. destruct (truthy v2); [rt|].
    eapply bal_bind; [apply ok_locate_backwards; intros; now apply ok_iobj|intros [v|] n4 H4 _]; [destruct (truthy v); [rt|]|]; now apply ok_loc.
  Qed.
  Lemma open_pdf_raises md5 sha256 rc4_size aes_dec k pw :
    forall s, r_stack (a_usr s) = [] -> r_bf (a_usr s) = None ->
      bw f (open_pdf inflate ccitt D m md5 sha256 rc4_size aes_dec k pw) s (bpost E Ib r_stack true s anyR).
  Proof.
    intros s Hs Hb. unfold open_pdf. apply bw_bind. eapply bw_conseq; [apply (open_raises (fun _ _ v => Ok v) k okx_id s Hs Hb)|].
    intros [[[ver off] t]|e] s1 [X|(A1 & A2 & A3 & A4)]; [discriminate X| |left; injection X as ->; reflexivity|right; auto].
    match goal with |- bw f ?p s1 _ => assert (ok true (List.length (a_store s1)) p) as HP end.
    { eapply bal_bind with (R := anyR).
      { destruct (dget t (bs "Encrypt")) as [[]|]; try rt. now apply ok_locate_encrypt. }
      intros en n1 H1 _. pose proof (okx_handler md5 sha256 rc4_size aes_dec (match dget t (bs "Encrypt") with Some v => v | None => ONull end) (fun _ _ => en) (trailer_id t) pw) as HH.
      unfold trailer_handler. destruct (document_handler _ _ _ _ _ _ _ _) as [h|x]; [|now apply bal_throw].
      eapply bal_bind with (R := anyR); [|intros; rt]. destruct (dget t (bs "Root")) as [[]|]; try thr. apply ok_loc. intros; apply okx_decrypt. }
    eapply bw_conseq; [apply (HP s1); [auto|exact A2]|]. intros r s2 [->|(B1 & B2 & B3 & B4)]; [now left|]. right. rewrite A3 in *. split; [lia|]. split; [exact B2|]. split; [exact B3|exact B4].
  Qed.
End Open.
