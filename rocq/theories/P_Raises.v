(** C93: what leaves the constructor and the lookups of a document, on any bytes. *)
From Coq Require Import String.
From Verif Require Import Prelude M_Prog L_Prog M_Parser M_Filters M_Document M_CCITT M_Crypto M_Secure S_Raises L_Raises L_RaisesP L_RaisesD L_RaisesS P_Open.
Local Open Scope Z_scope.

Lemma expected_of e : In e all_raisable -> e <> OutOfFuel -> In e expected_exceptions.
Proof. intros H N. cbn in H. repeat (destruct H as [<-|H]; [cbn; auto 16; now destruct N|]). destruct H. Qed.

(** Whatever the file contains and whatever the password: the constructor returns a document or raises an expected exception, and leaves no
    lookup on the stack of the scanner. *)
Theorem C93_open : forall inflate md5 sha256 rc4_size aes_dec D m k f pw r s,
  arun f (open_pdf inflate ccittfaxdecode D m md5 sha256 rc4_size aes_dec k pw) (mkA 0 [] rst0) = (r, s) ->
  ~ never_returns r ->
  value_or_expected r /\ r_stack (a_usr s) = [].
Proof.
  intros inflate md5 sha256 rc4_size aes_dec D m k f pw r s Hr Hn.
  pose proof (open_pdf_raises f inflate D m md5 sha256 rc4_size aes_dec k pw (mkA 0 [] rst0) eq_refl eq_refl) as HB. apply bw_arun in HB. rewrite Hr in HB. cbn [fst snd] in HB.
  destruct HB as [X|(A1 & A2 & A3 & A4)]; [now destruct Hn|]. split; [|exact A3]. destruct r as [x|e]; [exact I|].
  cbn [value_or_expected]. destruct A4 as [A4|(_ & _ & X)]; [|now destruct X]. apply expected_of; [exact A4|]. intros ->. now apply Hn.
Qed.

(** So does every lookup made afterwards, whichever lookups were made before and whether they returned or raised. *)
Theorem C93_lookups : forall inflate md5 sha256 rc4_size aes_dec D m k f pw ver t h root s,
  arun f (open_pdf inflate ccittfaxdecode D m md5 sha256 rc4_size aes_dec k pw) (mkA 0 [] rst0) = (Ok (ver, t, h, root), s) ->
  forall outcomes s',
  asked inflate ccittfaxdecode (decrypt_object md5 rc4_size aes_dec h) D m k f s outcomes s' ->
  Forall value_or_expected outcomes /\ r_stack (a_usr s') = [].
Proof.
  intros inflate md5 sha256 rc4_size aes_dec D m k f pw ver t h root s Hr.
  assert (r_stack (a_usr s) = [] /\ Ib (a_usr s) (List.length (a_store s))) as Hs.
  { pose proof (open_pdf_raises f inflate D m md5 sha256 rc4_size aes_dec k pw (mkA 0 [] rst0) eq_refl eq_refl) as HB. apply bw_arun in HB. rewrite Hr in HB. cbn [fst snd] in HB.
    destruct HB as [X|(A1 & A2 & A3 & A4)]; [discriminate X|]. split; [exact A3|exact A2]. }
  clear Hr. intros outcomes s' HA. induction HA as [s|s num gen r s1 rs s2 Hl Hn HA IH]; [destruct Hs; auto|]. destruct Hs as [Hs Hi].
  pose proof (ok_loc f inflate D m (decrypt_object md5 rc4_size aes_dec h) (okx_decrypt md5 rc4_size aes_dec h) k num gen (List.length (a_store s)) s (le_n _) Hi) as HB.
  apply bw_arun in HB. rewrite Hl in HB. cbn [fst snd] in HB. destruct HB as [X|(A1 & A2 & A3 & A4)]; [now destruct Hn|]. rewrite Hs in A3, A4.
  destruct (IH (conj A3 A2)) as [I1 I2]. split; [|exact I2]. constructor; [|exact I1]. destruct r as [x|e]; [exact I|]. cbn [value_or_expected].
  destruct A4 as [A4|(_ & _ & X)]; [|now destruct X]. apply expected_of; [exact A4|]. intros ->. now apply Hn.
Qed.

(** Each of these exceptions leaves the constructor for some file: ParserException is not the only one to be prepared for. *)
Definition bad_head : list Z := bs "%PDF-1.7" ++ [10] ++ bs "%comment-here" ++ [10].
Definition bad_file (body : list Z) : list Z := bad_head ++ body ++ [10] ++ bs "startxref" ++ [10] ++ bs "23" ++ [10] ++ bs "%%EOF".
Definition bad_stream (entries data : list Z) : list Z := bs "1 0 obj<</Type/XRef/Size 1/Length " ++ bs "2" ++ entries ++ bs ">>stream" ++ [10] ++ data ++ [10] ++ bs "endstream endobj".
Definition bad_files : list (list Z * exn) :=
  [ (bs "no header in these twenty-two bytes", ParserExc);
    (bs "too short", TypeErr);
    (bad_file (bs "xref" ++ [10] ++ bs "0 1" ++ [10] ++ bs "12345678901234567890"), ValueErr);
    (bad_file (bs "1 0 obj<<>>stream"), KeyErr);
    (bad_file (bs "1 0 obj<</Length 2 0 R>>stream"), AttributeErr);
    (bad_file (bad_stream (bs "/W[1]") [1; 1]), IndexErr);
    (bad_file (bs "xref" ++ [10] ++ bs "0 1" ++ [10] ++ bs "-000000001 00000 n " ++ [10]), AssertionErr);
    (bad_file (bad_stream (bs "/W[1 1 1]/Filter/Fractal") [1; 1]), NotImpl);
    (bad_file (bad_stream (bs "/W[1 1 1]/Filter/CCITTFaxDecode/DecodeParms<</K -1/Columns 8>>") [0; 0]), InvalidData);
    (bad_file (bs "xref" ++ [10] ++ bs "1 1" ++ [10] ++ bs "0000000140 00000 n " ++ [10] ++ bs "trailer<</Encrypt 1 0 R/ID[<00>]/Root 1 0 R>>" ++ [10]
               ++ repeat 32 (140 - 23 - 75) ++ bs "1 0 obj<</Filter/Standard/V 1/R 2/P 4294967295/O(o)/U(u)>>endobj"), StructErr) ].
Definition opening (f : list Z) : res (list Z * dict * option handler * obj) :=
  fst (arun f (open_pdf (fun _ => None) ccittfaxdecode 1 400 (fun x => x) (fun x => x) (fun _ => true) (fun _ b => b) 2 []) (mkA 0 [] rst0)).
Lemma bad_files_raise : map (fun p => opening (fst p)) bad_files = map (fun p => Err (snd p)) bad_files.
Proof. lazy. reflexivity. Qed.
Lemma bad_files_exceptions : map snd bad_files = expected_exceptions.
Proof. reflexivity. Qed.
Lemma opening_eq f : opening f = fst (arun f (open_pdf (fun _ => None) ccittfaxdecode 1 400 (fun x => x) (fun x => x) (fun _ => true) (fun _ b => b) 2 []) (mkA 0 [] rst0)).
Proof. reflexivity. Qed.
Theorem C93_each_is_raised : forall e, In e expected_exceptions ->
  exists inflate md5 sha256 rc4_size aes_dec D m k f pw, fst (arun f (open_pdf inflate ccittfaxdecode D m md5 sha256 rc4_size aes_dec k pw) (mkA 0 [] rst0)) = Err e.
Proof.
  intros e He. rewrite <- bad_files_exceptions in He. rename He into H. apply in_map_iff in H as ([f e'] & <- & Hin).
  exists (fun _ => None), (fun x => x), (fun x => x), (fun _ => true), (fun _ b => b), 1%nat, 400%nat, 2%nat, f, [].
  rewrite <- opening_eq. pose proof bad_files_raise as H. revert H Hin. generalize bad_files. intros l. induction l as [|[f0 e0] l IH]; cbn [map fst snd In]; [tauto|].
  intros H [X|Hin]; [injection X as -> ->; congruence|]. apply IH; [congruence|exact Hin].
Qed.

(** Cases that meet the hypotheses: a document whose object 1 needs the scanner while it is scanned (its stream's length is an object the
    tables do not list): the lookups of 1, of 2 and of an object that is missing return, and the stack is empty afterwards. *)
Definition scanned_file : list Z := bad_head ++ bs "1 0 obj<</Length 2 0 R>>stream" ++ [10] ++ bs "ab" ++ [10] ++ bs "endstream endobj 2 0 obj 2 endobj" ++ [10]
  ++ bs "xref" ++ [10] ++ bs "0 0" ++ [10] ++ bs "trailer<</Root 1 0 R>>" ++ [10]
  ++ bs "startxref" ++ [10] ++ bs "91" ++ [10] ++ bs "%%EOF".
Notation look k n s := (arun scanned_file (locate_object (fun _ => None) ccittfaxdecode (decrypt_object (fun x => x) (fun _ => true) (fun _ b => b) None) 1 400 k n 0) s).
Definition scanned := arun scanned_file (open_pdf (fun _ => None) ccittfaxdecode 1 400 (fun x => x) (fun x => x) (fun _ => true) (fun _ b => b) 3 []) (mkA 0 [] rst0).
Lemma scanned_values : fst scanned = Ok (bs "1.7", [(bs "Root", ORef 1 0)], None, OStream [(bs "Length", OInt 2)] (bs "ab")) /\
  fst (look 3 2 (snd scanned)) = Ok (OInt 2) /\ fst (look 3 7 (snd (look 3 2 (snd scanned)))) = Ok ONull.
Proof. split; [|split]; lazy; reflexivity. Qed.
Lemma asked_two inflate ccitt dec D m k f n1 n2 r1 r2 s : let l n t := arun f (locate_object inflate ccitt dec D m k n 0) t in
  fst (l n1 s) = Ok r1 -> fst (l n2 (snd (l n1 s))) = Ok r2 -> asked inflate ccitt dec D m k f s [Ok r1; Ok r2] (snd (l n2 (snd (l n1 s)))).
Proof.
  cbv zeta. intros H1 H2. eapply asked_one; [rewrite (surjective_pairing (arun f (locate_object inflate ccitt dec D m k n1 0) s)), H1; reflexivity|discriminate|].
  eapply asked_one; [rewrite (surjective_pairing (arun f (locate_object inflate ccitt dec D m k n2 0) _)), H2; reflexivity|discriminate|]. constructor.
Qed.
Example scanned_asked : exists s s',
  scanned = (Ok (bs "1.7", [(bs "Root", ORef 1 0)], None, OStream [(bs "Length", OInt 2)] (bs "ab")), s) /\
  asked (fun _ => None) ccittfaxdecode (decrypt_object (fun x => x) (fun _ => true) (fun _ b => b) None) 1 400 3 scanned_file s [Ok (OInt 2); Ok ONull] s'.
Proof.
  destruct scanned_values as (H0 & H1 & H2). exists (snd scanned). eexists. split; [rewrite (surjective_pairing scanned) at 1; now rewrite H0|]. apply asked_two; [exact H1|exact H2].
Qed.
Print Assumptions C93_open.
Print Assumptions C93_lookups.
Print Assumptions C93_each_is_raised.
