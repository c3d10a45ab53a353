(** C100: the text_content of every page, from the file's bytes. *)
From Coq Require Import String.
From Verif Require Import Prelude M_Prog M_Parser M_Filters M_Document M_Objects S_Objects P_Objects M_Viewer S_Viewer L_Viewer
  M_Nav P_Nav M_Decoder M_App S_App L_App L_App2 L_App3 P_App S_Syntax S_Stream P_Text P_Echo S_Page L_View P_View
  S_Print L_Print S_Xref S_Document S_Open P_Locate P_Open S_Write P_Write P_Content P_Codec
  S_History P_History P_Updates M_Secure M_Crypto S_Crypto P_Crypto P_Decrypt S_Sealed P_Secure S_Length S_Back P_Back S_ModWrite P_ModWrite.
Local Open Scope Z_scope.

(** text_content of a page that holds [its] and shows the texts [ts] is a content stream again.  Parsed, it gives [its] with
    each string shown replaced by its text: the texts of [ts], in order, as many for each operator as it shows strings. *)
Definition Retold (its : list citem) (ts : list (list Z)) (c : canvas) : Prop :=
  exists texts, Forall2 (fun i t => List.length t = List.length (shown i)) its texts /\ ts = List.concat texts /\
    forall n, 4 * zlen (cv_text c) + 10 <= Z.of_nat n ->
      fst (arun (cv_text c) (content_objects n) (mkA 0 [] tt)) = Ok (map (fun p => echo (fst p) (snd p)) (combine its texts)).

Section V.
  Variable o : Z -> Z -> option obj.
  Variable inflate : list Z -> option (list Z).
  Variable python : list Z -> bool.
  Variable python_decode : list Z -> list Z -> res (list Z).
  Variable ccitt : list Z -> fparams -> res (list Z).
  Variable cid : Z.
  Variable real_str : bool -> Z -> Z -> list Z.
  Notation FT := (FontText o inflate python).
  Notation drawsc := (P_App.draws o inflate python python_decode ccitt cid real_str).
  Notation gives := (viewer_over real_str python python_decode inflate ccitt cid).

  Lemma page_retold d its ls ts : PageIs o inflate FT d its ls ts ->
    ev2 (fun nb n => exists c, drawsc nb n d c /\ (Drawn o inflate FT its ls ts c /\ (Forall ordinary its -> Forall (echoable real_str) its -> Retold its ts c))).
  Proof.
    intros HP. pose proof (page_drawn2 o inflate python python_decode ccitt cid real_str d its ls ts HP) as E1.
    destruct HP as (lead & ss & HC & Hl & Hi & _). pose proof (page_content o inflate ccitt d _ HC) as E2.
    eapply ev2_imp; [|apply ev2_and; [exact E1|apply ev2_left; exact E2]]. cbv beta. intros nb n [(c & HD & HR) HS].
    exists c. split; [exact HD|]. split; [exact HR|]. intros Ho He. destruct HD as (rs & st & v & _ & G2 & G3 & Hc).
    assert (st = Some (lead ++ ss)) as -> by congruence.
    unfold app_draw, render_page, render in G3. rewrite (content_items_ok its ss lead Hi Hl) in G3. cbn [fst snd] in G3. unfold vbind in G3.
    destruct (run _ _ _ _ _ _ _) as [[[]|e] v1] eqn:ER; [|discriminate G3]. injection G3 as ->. subst c.
    destruct HR as (HT & _).
    destruct (run_echo _ _ _ _ rs its Ho He _ _ ER) as (texts & sss & P1 & P2 & P3 & P4).
    exists texts. split; [exact P1|]. split; [rewrite <- HT, P2; reflexivity|]. intros m Hm.
    destruct (C41_text_content_parses_back _ _ _ _ rs its (mkV [] [] empty_canvas) _ m Ho He eq_refl ER Hm) as (texts' & Q1 & Q2 & Q3).
    rewrite Q3. do 2 f_equal. f_equal. rewrite Q2 in P2. apply app_inv_head in P2. clear - P1 Q1 P2.
    revert texts P1 P2. induction Q1 as [|i t' its texts' L' _ IH]; intros texts P1 P2; inversion P1 as [|? t ? tx L HF]; subst; [reflexivity|].
    cbn [List.concat] in P2. assert (t' = t /\ List.concat texts' = List.concat tx) as [-> E].
    { assert (List.length t' = List.length t) as HL by congruence. clear - HL P2. revert t HL P2. induction t' as [|x t' IH]; intros [|y t] HL P2; try discriminate HL; [auto|].
      cbn [app] in P2. injection P2 as -> P2. injection HL as HL. destruct (IH t HL P2) as [-> ->]. auto. }
    f_equal. now apply IH.
  Qed.
End V.

(** C100.  Every page whose content has no inline image and no string operand but those shown: its text_content, parsed, is its
    content with the texts in place of the strings. *)
Definition retold_as o inflate python real_str (p : list citem * list dict * list (list Z)) (c : canvas) : Prop :=
  drawn_as o inflate python p c /\
  (Forall ordinary (fst (fst p)) -> Forall (echoable real_str) (fst (fst p)) -> Retold (fst (fst p)) (snd p) c).
Theorem C100_viewer : forall o inflate python python_decode ccitt cid real_str t ps pages, Document o t ps -> ps <> [] ->
  Forall2 (page_is o inflate python) ps pages ->
  viewer_over real_str python python_decode inflate ccitt cid o t (fun cs => Forall2 (retold_as o inflate python real_str) pages cs).
Proof.
  intros o inflate python python_decode ccitt cid real_str t ps pages HD Hne HF.
  apply (viewer_general o inflate python python_decode ccitt cid real_str t ps pages _ HD Hne). clear HD Hne.
  induction HF as [|d p ps pages Hp _ IH]; constructor; [|exact IH].
  exact (page_retold o inflate python python_decode ccitt cid real_str d _ _ _ Hp).
Qed.
Theorem C100_written_file : forall real_str python python_decode inflate ccitt cid a b r ps pages,
  is_digit a = true -> is_digit b = true -> rev_ok r -> zlen (file_of a b [r]) < 10 ^ 10 ->
  let o := or_null (find_obj (rv_objs r)) in
  Document o (rv_trailer r) ps -> ps <> [] -> Forall2 (page_is o inflate python) ps pages ->
  forall D m k, (0 < D)%nat -> 4 * zlen (file_of a b [r]) + 8 <= Z.of_nat m -> (1 <= k)%nat ->
  exists s t, arun (file_of a b [r]) (open_document inflate ccitt no_decrypt D m k) (mkA 0 [] rst0) = (Ok ([a; 46; b], 0, t), s) /\
  exists look, (forall k' ids, (2 <= k')%nat ->
     fst (session inflate ccitt no_decrypt D m k' (file_of a b [r]) s ids) = map (fun id => Ok (look (fst id) (snd id))) ids) /\
  viewer_gives real_str python python_decode inflate ccitt cid look t (fun cs => Forall2 (retold_as o inflate python real_str) pages cs).
Proof.
  intros real_str python python_decode inflate ccitt cid a b r ps pages Ha Hb Hr Hlt o HD Hne HF D m k H1 H2 H3.
  destruct (C76_written_once inflate ccitt a b r Ha Hb Hr Hlt D m k H1 H2 H3) as (s & E & HS). exists s, (rv_trailer r). split; [exact E|]. exists (meant o). split; [exact HS|].
  exact (C100_viewer o inflate python python_decode ccitt cid real_str (rv_trailer r) ps pages HD Hne HF).
Qed.

(** ... of documents saved by incremental updates, of files with cross-reference and object streams, and of encrypted files. *)
Theorem C100_updated_file : forall real_str python python_decode inflate ccitt cid a b revs ps pages,
  is_digit a = true -> is_digit b = true -> revs <> [] -> Forall rev_ok revs -> zlen (file_of a b revs) < 10 ^ 10 ->
  let o := current revs in let t := trailer_of_file a b revs in
  Document o t ps -> ps <> [] -> Forall2 (page_is o inflate python) ps pages ->
  forall D m k, (0 < D)%nat -> 4 * zlen (file_of a b revs) + 8 <= Z.of_nat m -> (List.length revs <= k)%nat ->
  exists s, arun (file_of a b revs) (open_document inflate ccitt no_decrypt D m k) (mkA 0 [] rst0) = (Ok ([a; 46; b], 0, t), s) /\
  (forall k' ids vs, (2 <= k')%nat -> map (fun id => o (fst id) (snd id)) ids = map Some vs ->
     fst (session inflate ccitt no_decrypt D m k' (file_of a b revs) s ids) = map Ok vs) /\
  viewer_over real_str python python_decode inflate ccitt cid o t (fun cs => Forall2 (retold_as o inflate python real_str) pages cs).
Proof.
  intros real_str python python_decode inflate ccitt cid a b revs ps pages Ha Hb Hr HF Hlt o t HD Hne HP D m k H1 H2 H3.
  destruct (C76_written_documents inflate ccitt a b revs Ha Hb Hr HF Hlt D m k H1 H2 H3) as (s & E & HS). exists s. split; [exact E|]. split.
  - intros k' ids vs Hk Hv. apply somes_inj. rewrite (HS k' ids Hk).
    + clear - Hv. revert vs Hv. induction ids as [|id ids IH]; intros [|v vs] Hv; cbn [map] in *; try discriminate; [reflexivity|]. injection Hv as Hv Hvs. unfold o in Hv. rewrite Hv. f_equal. now apply IH.
    + clear - Hv. revert vs Hv. induction ids as [|id ids IH]; intros [|v vs] Hv; cbn [map] in *; try discriminate; constructor; injection Hv as Hv Hvs; [unfold o in Hv; rewrite Hv; discriminate|eauto].
  - exact (C100_viewer o inflate python python_decode ccitt cid real_str t ps pages HD Hne HP).
Qed.
Theorem C100_modern_file : forall real_str python python_decode inflate ccitt cid deflate a b r older ps pages,
  (forall x, inflate (deflate x) = Some x) -> is_digit a = true -> is_digit b = true ->
  let file := modern_file deflate a b (r :: older) in
  Forall mrev_ok (r :: older) -> zlen file < 256 ^ 4 -> NoDup (map fst (file_contents deflate a b (r :: older))) ->
  let o := or_null (find_obj (file_contents deflate a b (r :: older))) in
  let t := trailer_read (snd (mwrite deflate a b older)) (mr_trailer r) in
  Document o t ps -> ps <> [] -> Forall2 (page_is o inflate python) ps pages ->
  forall D m k, (2 <= D)%nat -> 4 * zlen file + 8 <= Z.of_nat m -> (List.length older <= k)%nat ->
  exists s, arun file (open_document inflate ccitt no_decrypt D m k) (mkA 0 [] rst0) = (Ok ([a; 46; b], 0, t), s) /\
  exists look, (forall k' ids, (1 <= k')%nat ->
     fst (session inflate ccitt no_decrypt D m k' file s ids) = map (fun id => Ok (look (fst id) (snd id))) ids) /\
  viewer_gives real_str python python_decode inflate ccitt cid look t (fun cs => Forall2 (retold_as o inflate python real_str) pages cs).
Proof.
  intros real_str python python_decode inflate ccitt cid deflate a b r older ps pages Hrd Ha Hb file Hr Hlt Hnd o t HD Hne HF D m k H1 H2 H3.
  destruct (C79_written inflate ccitt deflate a b r older Hrd Ha Hb Hr Hlt Hnd D m k H1 H2 H3) as (s & E & HS). exists s. split; [exact E|]. exists (meant o). split; [exact HS|].
  exact (C100_viewer o inflate python python_decode ccitt cid real_str t ps pages HD Hne HF).
Qed.
Theorem C100_encrypted_file : forall real_str python python_decode inflate ccitt cid md5 sha256 rc4_size aes_dec a b r en eg e rn rg V R P len id0 ids0 id opw upw key pw ps pages,
  (forall x, List.length (md5 x) = 16%nat) -> (forall k, 5 <= k <= 16 -> rc4_size k = true) ->
  is_digit a = true -> is_digit b = true -> rev_ok r ->
  Forall (fun e => fst (fst e) <= 4294967295 /\ not_string (snd e)) (rv_objs r) ->
  let file := file_of a b [mkRev (seal_all md5 key (rv_objs r)) (rv_trailer r)] in zlen file < 10 ^ 10 ->
  dget (rv_trailer r) (bs "Encrypt") = Some (ORef en eg) -> find_obj (rv_objs r) en eg = Some (ODict e) ->
  dget (rv_trailer r) (bs "Root") = Some (ORef rn rg) ->
  dget (rv_trailer r) (bs "ID") = Some (OArr (OHex id0 :: ids0)) -> M_CMap.fromhex id0 = Ok id ->
  In V [1; 2; 3] -> In R [2; 3] -> written md5 e V R P len id opw upw key ->
  pw = upw \/ (pw = opw /\ ~ passes md5 e R P len id opw) ->
  let o := or_null (find_obj (rv_objs r)) in
  Document o (rv_trailer r) ps -> ps <> [] -> Forall2 (page_is o inflate python) ps pages ->
  forall D m k, (0 < D)%nat -> 4 * zlen file + 8 <= Z.of_nat m -> (2 <= k)%nat ->
  exists s h v, arun file (open_pdf inflate ccitt D m md5 sha256 rc4_size aes_dec k pw) (mkA 0 [] rst0) = (Ok ([a; 46; b], rv_trailer r, Some h, v), s) /\
  exists look, (forall ids, fst (session inflate ccitt (decrypt_object md5 rc4_size aes_dec (Some h)) D m k file s ids) = map (fun id => Ok (look (fst id) (snd id))) ids) /\
  viewer_gives real_str python python_decode inflate ccitt cid look (rv_trailer r) (fun cs => Forall2 (retold_as o inflate python real_str) pages cs).
Proof.
  intros real_str python python_decode inflate ccitt cid md5 sha256 rc4_size aes_dec a b r en eg e rn rg V R P len id0 ids0 id opw upw key pw ps pages
    H1 H2 H3 H4 H5 H6 file H7 H8 H9 H10 H11 H12 H13 H14 H15 H16 o HD Hne HF D m k K1 K2 K3.
  destruct (C81_passwords inflate ccitt md5 sha256 rc4_size aes_dec a b r en eg e rn rg V R P len id0 ids0 id opw upw key pw H1 H2 H3 H4 H5 H6 H7 H8 H9 H10 H11 H12 H13 H14 H15 H16 D m k K1 K2 K3) as (s & E & HS).
  exists s, (HBase key). eexists. split; [exact E|]. exists (meant o). split; [exact HS|].
  exact (C100_viewer o inflate python python_decode ccitt cid real_str (rv_trailer r) ps pages HD Hne HF).
Qed.

(** A page that shows strings with Tj and TJ, in a font and (after Q) in none. *)
Definition r_its : list citem := [COp (bs "q") []; COp (bs "BT") []; COp (bs "Tf") [OName (bs "F1"); OInt 12];
  COp (bs "TJ") [OArr [OStr (bs "Hi"); OInt (-30); OHex (bs "80")]]; COp (bs "ET") []; COp (bs "Q") []; COp (bs "Tj") [OStr (bs "a(b")]; COp (bs "re") [OInt 1; OInt 2; OInt 3; OInt 4]].
Definition r_page : dict := [(bs "Type", OName (bs "Page")); (bs "Parent", ORef 2 0); (bs "Contents", ORef 5 0); (bs "Resources", ODict v_lf)].
Definition r_objs : list (Z * Z * obj) :=
  [(1, 0, ODict [(bs "Type", OName (bs "Catalog")); (bs "Pages", ORef 2 0)]);
   (2, 0, ODict [(bs "Type", OName (bs "Pages")); (bs "Kids", OArr [ORef 3 0]); (bs "Count", OInt 1)]); (3, 0, ODict r_page);
   (5, 0, v_stream [] (S_App.content_text r_its)); (8, 0, ODict P_App.ex_font2)].
Notation r_o := (or_null (find_obj r_objs)).
Example r_ok : rev_ok (mkRev r_objs v_trailer).
Proof.
  unfold rev_ok, r_objs, v_trailer, v_stream, r_page, P_App.ex_font2, v_lf. cbn [rv_objs rv_trailer map fst snd writable printable fold_right].
  wr; first [apply bytes_ok_b; reflexivity | reflexivity | discriminate | (vm_compute; discriminate) | idtac].
Qed.
Example r_document : Document r_o v_trailer [r_page].
Proof.
  exists 1, 0, [(bs "Type", OName (bs "Catalog")); (bs "Pages", ORef 2 0)], [(bs "Type", OName (bs "Pages")); (bs "Kids", OArr [ORef 3 0]); (bs "Count", OInt 1)], [ORef 3 0].
  split; [reflexivity|]. split; [reflexivity|]. split; [apply typed_class; cbn; auto|]. split; [reflexivity|]. split; [reflexivity|]. split; [reflexivity|].
  apply (Pi_cons _ (ORef 3 0) _ [r_page] []); [apply Pa_page with (d := r_page); reflexivity|constructor].
Qed.
Example r_level : LevelOk r_o v_lf.
Proof.
  split; [split; reflexivity|]. split; [repeat constructor; cbn; intuition discriminate|]. intros k v [E|[]]; injection E as <- <-.
  change (eqlZ (bs "Font") (bs "ProcSet")) with false. exists [(bs "F1", ORef 8 0)]. split; [reflexivity|]. split; [reflexivity|]. split; [repeat constructor; auto|].
  intros k' x [E|[]]. injection E as _ <-. exists (VDict (Some (bs "Font")) (rd P_App.ex_font2)). apply mean_dict; [reflexivity|apply typed_class; [reflexivity|cbn; auto 20]].
Qed.
Example r_page_is inflate python : page_is r_o inflate python r_page (r_its, [v_lf], [bs "Hi"; [196]; bs "a(b"]).
Proof.
  unfold page_is. cbn [fst snd]. exists [], (S_App.content_text r_its). split.
  { exists (ORef 5 0). split; [reflexivity|left]. exists [(bs "Length", OInt (zlen (S_App.content_text r_its)))], (S_App.content_text r_its). split; [reflexivity|]. split; [left; reflexivity|]. apply De_plain; left; reflexivity. }
  split; [constructor|]. split.
  { apply content_written. unfold r_its. wops; cbn [printable fold_right]; try (apply bytes_ok_b; reflexivity); try exact I; repeat split; try (apply bytes_ok_b; reflexivity); try lia.
    repeat constructor; [exists 8|exists 0]; split; try lia; reflexivity. }
  split. { change [v_lf] with ([v_lf] ++ []). apply Le_up with (p := [(bs "Type", OName (bs "Pages")); (bs "Kids", OArr [ORef 3 0]); (bs "Count", OInt 1)]);
    [left; exists v_lf; repeat split; discriminate|reflexivity|reflexivity|]. apply Le_top; [right; split; [left; reflexivity|reflexivity]|reflexivity]. }
  split; [constructor; [apply r_level|constructor]|]. split.
  - apply each_page. unfold r_its. cbn [each_ok app]. repeat (split; [left; drawop|]). exact I.
  - unfold texts. change (shows None [] r_its) with [(Some (bs "F1"), OStr (bs "Hi")); (Some (bs "F1"), OHex (bs "80")); (@None (list Z), OStr (bs "a(b"))].
    assert (forall v s, Bytes v s -> FontText r_o inflate python (res_in r_o "Font" [v_lf] (bs "F1")) v (flat_map (char_of (base_of (Some (bs "MacRomanEncoding")))) s)) as HM.
    { intros v s Hv. change (res_in r_o "Font" [v_lf] (bs "F1")) with (Some (ORef 8 0)).
      apply (Ft_base r_o inflate python (ORef 8 0) P_App.ex_font2 [(bs "Type", OName (bs "Encoding")); (bs "BaseEncoding", OName (bs "MacRomanEncoding"))] (bs "MacRomanEncoding") v s); try reflexivity; try discriminate; [split; reflexivity|exact Hv]. }
    constructor; [|constructor; [|constructor; [|constructor]]]; cbn [fst snd].
    + change (bs "Hi") with (flat_map (char_of (base_of (Some (bs "MacRomanEncoding")))) (bs "Hi")). apply HM. apply ex_bytes; [reflexivity|left; reflexivity].
    + change [196] with (flat_map (char_of (base_of (Some (bs "MacRomanEncoding")))) [128]). apply HM. apply ex_bytes; [reflexivity|right; reflexivity].
    + apply Ft_none. apply ex_bytes; [reflexivity|left; reflexivity].
Qed.
Example r_plain : Forall ordinary r_its /\ Forall (echoable (fun _ _ _ => [])) r_its.
Proof.
  split; [repeat constructor; intros [a H]; discriminate|].
  assert (forall w, OpName w -> w <> bs "handler" -> eqlZ w (bs "Tj") || eqlZ w (bs "'") = true -> forall a, echoable (fun _ _ _ => []) (COp w a)) as HT.
  { intros w A B C a. split; auto. split; auto. now rewrite C. }
  assert (forall w a, OpName w -> w <> bs "handler" -> eqlZ w (bs "Tj") || eqlZ w (bs "'") = false -> eqlZ w (bs "TJ") = false ->
    Forall (P_Echo.writable (fun _ _ _ => [])) a -> is_dict (last a ONull) = false -> echoable (fun _ _ _ => []) (COp w a)) as HP.
  { intros w a A B C D E G. split; auto. split; auto. rewrite C, D. split; [exact E|]. rewrite G. discriminate. }
  unfold r_its. do 3 (constructor; [apply HP; try opname; try discriminate; try reflexivity; repeat constructor; discriminate|]).
  constructor.
  { split; [opname|]. split; [discriminate|]. change (eqlZ (bs "TJ") (bs "Tj") || eqlZ (bs "TJ") (bs "'")) with false. cbv iota.
    change (eqlZ (bs "TJ") (bs "TJ")) with true. cbv iota. exists [OStr (bs "Hi"); OInt (-30); OHex (bs "80")]. split; [reflexivity|].
    constructor; [left; reflexivity|]. constructor; [right; exact I|]. constructor; [left; reflexivity|constructor]. }
  do 2 (constructor; [apply HP; try opname; try discriminate; try reflexivity; repeat constructor; discriminate|]).
  constructor; [apply HT; try opname; try discriminate; reflexivity|].
  constructor; [apply HP; try opname; try discriminate; try reflexivity; repeat constructor; discriminate|constructor].
Qed.
(** Opened and viewed: text_content parses to the page's operators with the texts. *)
Definition r_told : list citem := [COp (bs "q") []; COp (bs "BT") []; COp (bs "Tf") [OName (bs "F1"); OInt 12];
  COp (bs "TJ") [OArr [OStr (bs "Hi"); OInt (-30); OStr [196]]]; COp (bs "ET") []; COp (bs "Q") []; COp (bs "Tj") [OStr (bs "a(b")]; COp (bs "re") [OInt 1; OInt 2; OInt 3; OInt 4]].
Definition r_canvases (cs : list canvas) : Prop := exists c, cs = [c] /\ cv_strings c = [bs "Hi"; [196]; bs "a(b"] /\
  exists n0, forall n, (n0 <= n)%nat -> fst (arun (cv_text c) (content_objects n) (mkA 0 [] tt)) = Ok r_told.
Example r_drawn inflate python cs :
  Forall2 (retold_as r_o inflate python (fun _ _ _ => [])) [(r_its, [v_lf], [bs "Hi"; [196]; bs "a(b"])] cs -> r_canvases cs.
Proof.
  intros H. inversion H as [|p c ? ? [Hd Hr] HN]; subst. inversion HN; subst. clear H HN. cbn [fst snd] in *.
  destruct (Hr (proj1 r_plain) (proj2 r_plain)) as (texts & HF & HC & HR). exists c. split; [reflexivity|]. split; [apply Hd|].
  exists (Z.to_nat (4 * zlen (cv_text c) + 10)). intros n Hn. rewrite HR by (pose proof (zlen_nonneg (cv_text c)); lia). do 2 f_equal. clear HR Hr Hd.
  unfold r_its in HF. repeat match goal with H : Forall2 _ (_ :: _) _ |- _ => inversion H; subst; clear H end. match goal with H : Forall2 _ [] _ |- _ => inversion H; subst; clear H end.
  repeat match goal with H : List.length ?y = List.length (shown ?i) |- _ => let x := eval vm_compute in (List.length (shown i)) in change (List.length (shown i)) with x in H end.
  repeat match goal with H : List.length ?y = _ |- _ => first [apply length_zero_iff_nil in H; subst y | destruct y; [discriminate H|]; cbn [List.length] in H; apply eq_add_S in H] end.
  cbn [List.concat app] in HC.
  pose proof (f_equal (fun l => nth 0 l []) HC) as E0. pose proof (f_equal (fun l => nth 1 l []) HC) as E1. pose proof (f_equal (fun l => nth 2 l []) HC) as E2.
  cbn [nth] in E0, E1, E2. rewrite <- E0, <- E1, <- E2. reflexivity.
Qed.
Example C100_ex python python_decode inflate ccitt cid : exists m s t,
  arun (file_of 49 55 [mkRev r_objs v_trailer]) (open_document inflate ccitt no_decrypt 1 m 2) (mkA 0 [] rst0) = (Ok (bs "1.7", 0, t), s) /\
  exists look, (forall ids, fst (session inflate ccitt no_decrypt 1 m 2 (file_of 49 55 [mkRev r_objs v_trailer]) s ids) = map (fun id => Ok (look (fst id) (snd id))) ids) /\
  viewer_gives (fun _ _ _ => []) python python_decode inflate ccitt cid look t r_canvases.
Proof.
  set (f := file_of 49 55 [mkRev r_objs v_trailer]). exists (Z.to_nat (4 * zlen f + 8)).
  destruct (C100_written_file (fun _ _ _ => []) python python_decode inflate ccitt cid 49 55 (mkRev r_objs v_trailer) [r_page]
    [(r_its, [v_lf], [bs "Hi"; [196]; bs "a(b"])] eq_refl eq_refl r_ok ltac:(vm_compute; reflexivity) r_document ltac:(discriminate)
    ltac:(constructor; [apply r_page_is|constructor]) 1%nat (Z.to_nat (4 * zlen f + 8)) 2%nat ltac:(apply le_n)) as (s & t & E & look & HS & HV).
  - fold f. pose proof (zlen_nonneg f). lia.
  - apply le_S, le_n.
  - exists s, t. split; [exact E|]. exists look. split; [intros ids; apply HS, le_n|]. eapply viewer_gives_imp; [|exact HV]. apply r_drawn.
Qed.

Print Assumptions C100_viewer.
Print Assumptions C100_written_file.
Print Assumptions C100_updated_file.
Print Assumptions C100_modern_file.
Print Assumptions C100_encrypted_file.
