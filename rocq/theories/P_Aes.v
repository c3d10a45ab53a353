(** C102: the pages of documents encrypted with AES. *)
From Coq Require Import String.
From Verif Require Import Prelude M_Prog M_Parser M_Filters S_Filters M_Document M_Objects S_Objects P_Objects M_Viewer S_Viewer L_Viewer
  M_Nav P_Nav M_Decoder M_App S_App L_App L_App2 L_App3 P_App S_Syntax S_Stream P_Text P_Echo S_Page L_View P_View
  S_Print L_Print S_Xref S_Document S_Open P_Locate P_Open S_Write P_Write P_Content P_Codec P_Syntax
  M_Secure M_Crypto S_Crypto P_Crypto P_Decrypt S_Sealed P_Secure P_Retold S_Split P_Split.
Local Open Scope Z_scope.

(** *** What AES does to a stream's data *)
(** Streams are padded to whole blocks before they are encrypted; this reader does not remove the padding (C63).  A stream whose
    data end before the padding, by what its first filter says: bytes after the end are skipped. *)
Definition ends_itself (d : dict) : Prop :=
  exists f, In f [bs "ASCIIHexDecode"; bs "AHx"; bs "RunLengthDecode"; bs "RL"; bs "FlateDecode"; bs "Fl"] /\
    (dget d (bs "Filter") = Some (OName f) \/ exists fs, dget d (bs "Filter") = Some (OArr (OName f :: fs))).
Definition but_length (d d' : dict) : Prop := forall k, k <> bs "Length" -> dget d' k = dget d k.
(** [Keeps v v']: where [v] is written, [v'] is read. *)
Inductive Keeps : obj -> obj -> Prop :=
| K_same v : Keeps v v
| K_stream d d' data pad : data <> [] -> ends_itself d -> but_length d d' -> Keeps (OStream d data) (OStream d' (data ++ pad)).

Section Transport.
  Variables (o o' : Z -> Z -> option obj) (inflate : list Z -> option (list Z)) (python : list Z -> bool).
  Hypothesis HK : forall n g, match o n g with Some v => exists v', o' n g = Some v' /\ Keeps v v' | None => o' n g = None end.
  (** compressed data tell where they end *)
  Hypothesis Hinf : forall x pad b, inflate x = Some b -> inflate (x ++ pad) = Some b.

  Lemma follow_keeps v : Keeps (follow o v) (follow o' v).
  Proof.
    destruct v as [ | | | | | | | | | |n g| | ]; cbn [follow]; try constructor. unfold meant. pose proof (HK n g) as H. destruct (o n g) as [v|].
    - destruct H as (v' & -> & H). exact H.
    - rewrite H. constructor.
  Qed.
  Lemma follow_same v x : follow o v = x -> (forall d data, x <> OStream d data) -> follow o' v = x.
  Proof. intros <- Hx. pose proof (follow_keeps v) as H. remember (follow o v) as w. destruct H as [w|]; [reflexivity|]. exfalso. eapply Hx. reflexivity. Qed.
  Lemma follow_stream v d data : follow o v = OStream d data -> exists d' pad, follow o' v = OStream d' (data ++ pad) /\ but_length d d' /\
    (d' = d /\ pad = [] \/ data <> [] /\ ends_itself d).
  Proof.
    intros E. pose proof (follow_keeps v) as H. rewrite E in H. remember (follow o' v) as w. inversion H; subst.
    - exists d, []. rewrite app_nil_r. repeat split; auto.
    - exists d', pad. repeat split; auto.
  Qed.
  Lemma entry_same d k x : entry o d k = x -> (forall d data, x <> OStream d data) -> entry o' d k = x.
  Proof. unfold entry. destruct (dget d (bs k)); [apply follow_same|auto]. Qed.
  Ltac ns := intros ? ?; discriminate.

  Lemma encoded_ext f b data pad : In f [bs "ASCIIHexDecode"; bs "AHx"; bs "RunLengthDecode"; bs "RL"; bs "FlateDecode"; bs "Fl"] ->
    Encoded inflate f b data -> Encoded inflate f b (data ++ pad).
  Proof.
    intros Hf H. destruct H as [f d ds text junk H1 H2 H3|f d t text H1 H2 H3|f rs junk H1 H2|f d e H1 H2].
    - rewrite <- app_assoc. cbn [app]. eapply Enc_hex; eauto.
    - exfalso. destruct H1 as [<-|[<-|[]]]; cbn in Hf; repeat (destruct Hf as [Hf|Hf]; [discriminate|]); contradiction.
    - rewrite <- app_assoc. cbn [app]. now apply Enc_rl.
    - apply Enc_fl; auto.
  Qed.
  Lemma ends_which d f : ends_itself d -> dget d (bs "Filter") = Some (OName f) -> In f [bs "ASCIIHexDecode"; bs "AHx"; bs "RunLengthDecode"; bs "RL"; bs "FlateDecode"; bs "Fl"].
  Proof. intros (f0 & H & [E|(fs & E)]) E'; rewrite E in E'; [|discriminate]. assert (f0 = f) as <- by congruence. exact H. Qed.
  Lemma decoded_ext d d' data pad b : but_length d d' -> ends_itself d -> Decoded inflate d data b -> Decoded inflate d' (data ++ pad) b.
  Proof.
    intros HB HE H. assert (dget d' (bs "Filter") = dget d (bs "Filter")) as EF by (apply HB; discriminate).
    assert (dget d' (bs "DecodeParms") = dget d (bs "DecodeParms")) as EP by (apply HB; discriminate).
    destruct H as [H|f b H1 H2 H3|fs b H1 H2 H3|f columns rows H1 H2 H3 H4 H5].
    - exfalso. destruct HE as (f & _ & [E|(fs & E)]); rewrite E in H; destruct H; discriminate.
    - apply (De_one inflate d' (data ++ pad) f b); [congruence|unfold unpredicted_parms in *; rewrite EP; exact H2|]. apply encoded_ext; [now apply (ends_which d)|exact H3].
    - apply (De_many inflate d' (data ++ pad) fs b); [congruence|unfold unpredicted_parms in *; rewrite EP; exact H2|].
      destruct H3 as [b|f fs b m e H3 H4].
      + exfalso. destruct HE as (f & _ & [E|(fs & E)]); rewrite E in H1; discriminate.
      + apply EC_cons with (m := m); [|exact H4]. apply encoded_ext; [|exact H3].
        destruct HE as (f0 & Hf & [E|(fs0 & E)]); rewrite E in H1; [discriminate|]. cbn [map] in H1. assert (f0 = f) as <- by congruence. exact Hf.
    - apply (De_rows inflate d' (data ++ pad) f columns rows); [exact H1|rewrite EF; exact H2|unfold png_parms in *; rewrite EP; exact H3|exact H4|now apply Hinf].
  Qed.
  Lemma same_decoded d d' data pad b : but_length d d' -> (d' = d /\ pad = [] \/ data <> [] /\ ends_itself d) -> Decoded inflate d data b -> Decoded inflate d' (data ++ pad) b.
  Proof. intros HB [[-> ->]|[_ HE]] H; [now rewrite app_nil_r|now apply (decoded_ext d)]. Qed.

  Lemma data_keeps v b : Data o inflate v b -> Data o' inflate v b.
  Proof.
    intros (d & data & E & HT & HD). destruct (follow_stream v d data E) as (d' & pad & E' & HB & HX). exists d', (data ++ pad). split; [exact E'|].
    split; [rewrite (HB (bs "Type")) by discriminate; exact HT|]. now apply (same_decoded d).
  Qed.
  Lemma content_keeps d b : ContentOf o inflate d b -> ContentOf o' inflate d b.
  Proof.
    intros (v & Hv & H). exists v. split; [exact Hv|]. destruct H as [H|(l & bs' & E & HF & ->)]; [left; now apply data_keeps|right].
    exists l, bs'. split; [apply follow_same; [exact E|ns]|]. split; [|reflexivity]. eapply Forall2_impl; [apply data_keeps|exact HF].
  Qed.
  Lemma here_keeps d ls : here o d ls -> here o' d ls.
  Proof.
    intros [(r & E & H)|[[E|E] H]]; [left; exists r; split; [apply entry_same; [exact E|ns]|exact H]|right; split; [left|exact H]|right; split; [right|exact H]];
      (apply entry_same; [exact E|ns]).
  Qed.
  Lemma levels_keeps d ls : Levels o d ls -> Levels o' d ls.
  Proof.
    induction 1 as [d ls H E|d ls p up H E T _ IH]; [apply Le_top|apply Le_up with (p := p)]; auto; try now apply here_keeps.
    all: apply entry_same; [exact E|ns].
  Qed.
  Lemma class_raw d d' : but_length d d' -> forall k, k <> bs "Length" -> aget (map (fun p => (fst p, raw (snd p))) d') k = aget (map (fun p => (fst p, raw (snd p))) d) k.
  Proof.
    assert (forall x k, aget (map (fun p => (fst p, raw (snd p))) x) k = option_map raw (dget x k)) as HA.
    { intros x k. induction x as [|[k0 v0] x IH]; [reflexivity|]. cbn [map fst snd aget dget]. rewrite IH. destruct (eqlZ k k0); reflexivity. }
    intros HB k Hk. rewrite !HA. now rewrite HB.
  Qed.
  Lemma stm_class_keeps d d' c : but_length d d' -> stm_class (map (fun p => (fst p, raw (snd p))) d) c -> stm_class (map (fun p => (fst p, raw (snd p))) d') c.
  Proof. intros HB H. unfold stm_class in *. rewrite !(class_raw d d' HB) by discriminate. exact H. Qed.
  Lemma stands_keeps : (forall x w, Stands (answer o) x w -> exists w', Stands (answer o') x w') /\ (forall l l', StandsL (answer o) l l' -> exists l'', StandsL (answer o') l l'').
  Proof.
    apply Stands_both.
    - intros a. eexists. constructor.
    - intros n g x v E Hr Hx [w' IH]. unfold answer in E. pose proof (HK n g) as H. destruct (o n g) as [y|] eqn:Ey; [|discriminate]. injection E as <-.
      destruct H as (y' & E' & H). destruct H as [y|d d' data pad Hd He HB].
      + exists w'. apply St_ref with (o := raw y); [unfold answer; now rewrite E'|exact Hr|exact IH].
      + cbn [raw] in Hx. inversion Hx; subst.
        eexists. apply St_ref with (o := raw (OStream d' (data ++ pad))); [unfold answer; now rewrite E'|intros (? & ? & X); discriminate X|]. cbn [raw].
        apply St_stm. eapply stm_class_keeps; eauto.
    - intros l l' _ [l'' H]. eexists. constructor. exact H.
    - intros d c H. eexists. constructor. exact H.
    - intros d c data H. eexists. constructor. exact H.
    - eexists. constructor.
    - intros x v l l' _ [w H] _ [l'' H']. eexists. constructor; eauto.
  Qed.
  Lemma sound_keeps v : S_App.Sound o v -> S_App.Sound o' v.
  Proof. intros [w H]. destruct (proj1 stands_keeps _ _ H) as [w' H']. exists w'. exact H'. Qed.
  Lemma level_keeps r : LevelOk o r -> LevelOk o' r.
  Proof.
    intros (H1 & H2 & H3). split; [exact H1|]. split; [exact H2|]. intros k v Hv. specialize (H3 k v Hv). destruct (eqlZ k (bs "ProcSet")).
    - destruct H3 as [names E]. exists names. apply follow_same; [exact E|ns].
    - destruct H3 as (d & E & T & N & HS). exists d. split; [apply follow_same; [exact E|ns]|]. repeat split; auto. intros k' x Hx. apply sound_keeps. eauto.
  Qed.
  Lemma levelok_dict r kind : LevelOk o r -> kind <> "ProcSet"%string -> bs kind <> bs "ProcSet" -> entry o' r kind = entry o r kind.
  Proof.
    intros (_ & _ & H) _ Hk. destruct (dget r (bs kind)) as [v|] eqn:E; [|unfold entry; now rewrite E].
    assert (In (bs kind, v) r) as Hin.
    { clear - E. revert E. induction r as [|[k0 v0] r IH]; cbn [dget]; [discriminate|]. destruct (eqlZ (bs kind) k0) eqn:Ek.
      - intros [= ->]. apply eqlZ_eq in Ek. subst. now left.
      - intros E. right. now apply IH. }
    specialize (H _ _ Hin). rewrite (proj2 (eqlZ_neq _ _) Hk) in H. destruct H as (d & Ed & _). unfold entry. rewrite E, Ed. apply follow_same; [exact Ed|ns].
  Qed.
  Lemma res_in_same kind ls f : Forall (LevelOk o) ls -> bs kind <> bs "ProcSet" -> res_in o' kind ls f = res_in o kind ls f.
  Proof.
    intros HF Hk. induction HF as [|r ls Hr _ IH]; [reflexivity|]. cbn [res_in]. rewrite (levelok_dict r kind Hr) by (auto; intros ->; now apply Hk). now rewrite IH.
  Qed.
  Lemma font_text_keeps f v t : FontText o inflate python f v t -> FontText o' inflate python f v t.
  Proof.
    assert (forall f d, FontDict o f d -> FontDict o' f d) as HFD by (intros f0 d [E T]; split; [apply follow_same; [exact E|ns]|exact T]).
    assert (forall d k x, entry o d k = x -> (forall d data, x <> OStream d data) -> entry o' d k = x) as HE by (intros; now apply entry_same).
    intros H. destruct H.
    - now apply Ft_none.
    - eapply Ft_unknown; eauto; (apply entry_same; [eassumption|ns]).
    - eapply Ft_named; eauto; (apply entry_same; [eassumption|ns]).
    - eapply Ft_standard; eauto; (apply entry_same; [eassumption|ns]).
    - eapply Ft_other; eauto; (apply entry_same; [eassumption|ns]).
    - eapply Ft_predefined; eauto; (apply entry_same; [eassumption|ns]).
    - eapply Ft_dict; eauto; try (apply entry_same; [eassumption|ns]).
      + unfold Base in *. destruct base as [b|]; [destruct H3; split; auto|]; (apply entry_same; [eassumption|ns]).
      + unfold Differences in *. destruct H4 as [[X Y]|X]; [left; split; auto|right]; (apply entry_same; [eassumption|ns]).
    - destruct (follow_stream tv sd data H1) as (d' & pad & E' & HB & HX).
      eapply Ft_cmap; eauto.
      + intros X. apply app_eq_nil in X. now destruct X.
      + apply data_keeps; eassumption.
      + intros x Hx. apply sound_keeps. eauto.
  Qed.
  Lemma texts_keeps ls font its ts : Forall (LevelOk o) ls -> texts o (FontText o inflate python) ls font its ts -> texts o' (FontText o' inflate python) ls font its ts.
  Proof.
    intros HL H. unfold texts in *. eapply Forall2_impl; [|exact H]. cbv beta. intros [f v] t HX. cbn [fst snd] in *. apply font_text_keeps.
    destruct f as [f|]; [|exact HX]. rewrite res_in_same by (auto; discriminate). exact HX.
  Qed.
  Lemma drawop_keeps ls i : Forall (LevelOk o) ls -> DrawOp o ls i -> DrawOp o' ls i.
  Proof.
    intros HL H. destruct H as [i H|w t p H1 H2 H3 H4|d data H|k H]; [now apply Do_text|now apply Do_mark|now apply Do_image|].
    apply Do_gs. unfold gs_fine in *. rewrite res_in_same by (auto; discriminate). destruct (res_in o "ExtGState" ls k) as [v|]; [|exact I].
    destruct H as (d & E & H). exists d. split; [apply follow_same; [exact E|ns]|exact H].
  Qed.
  Lemma xobject_keeps v s d data : XObject o v s d data -> exists d' pad, XObject o' v s d' (data ++ pad) /\ but_length d d' /\ (d' = d /\ pad = [] \/ data <> [] /\ ends_itself d).
  Proof.
    intros (E & Hne & T & S). destruct (follow_stream v d data E) as (d' & pad & E' & HB & HX). exists d', pad. split; [|auto].
    split; [exact E'|]. split; [intros X; apply app_eq_nil in X; now destruct X|]. rewrite !HB by discriminate. auto.
  Qed.
  Lemma form_keeps ls d d' data pad font its ts : Forall (LevelOk o) ls -> but_length d d' -> (d' = d /\ pad = [] \/ data <> [] /\ ends_itself d) ->
    FormDraws o inflate (FontText o inflate python) ls d data font its ts -> FormDraws o' inflate (FontText o' inflate python) ls d' (data ++ pad) font its ts.
  Proof.
    intros HL HB HX (lead & ss & fl & H1 & H2 & H3 & H4 & H5 & H6 & H7 & H8). assert (Forall (LevelOk o) (fl ++ ls)) as HLL by (apply Forall_app; auto).
    exists lead, ss, fl. split; [now apply (same_decoded d)|]. split; [exact H2|]. split; [exact H3|]. split; [exact H4|]. split.
    { eapply Forall_impl; [|exact H5]. intros i [A|A]; [left; now apply drawop_keeps|now right]. }
    split. { apply here_keeps in H6. unfold here, entry in *. rewrite (HB (bs "Resources")) by discriminate. exact H6. }
    split; [eapply Forall_impl; [apply level_keeps|exact H7]|]. now apply texts_keeps.
  Qed.
  Lemma unseen_keeps v : Unseen o v -> Unseen o' v.
  Proof.
    intros (d & data & E & H). destruct (follow_stream v d data E) as (d' & pad & E' & HB & HX). exists d', (data ++ pad). split; [exact E'|]. rewrite !HB by discriminate.
    destruct H as [H|(H & T)]; [now left|right]. destruct HX as [[-> ->]|[Hne _]]; [rewrite app_nil_r; auto|contradiction].
  Qed.
  Lemma page_keeps d its ls ts : PageIs o inflate (FontText o inflate python) d its ls ts -> PageIs o' inflate (FontText o' inflate python) d its ls ts.
  Proof.
    intros (lead & ss & H1 & H2 & H3 & H4 & H5 & H6 & H7). exists lead, ss. split; [now apply content_keeps|]. split; [exact H2|]. split; [exact H3|].
    split; [now apply levels_keeps|]. split; [eapply Forall_impl; [apply level_keeps|exact H5]|]. split; [|now apply texts_keeps].
    intros pre i post E. destruct (H6 pre i post E) as [A|(k & -> & A)]; [left; now apply drawop_keeps|right]. exists k. split; [reflexivity|].
    unfold do_fine in *. rewrite res_in_same by (auto; discriminate). destruct (res_in o "XObject" ls k) as [v|]; [|exact I].
    destruct A as [A|[(d0 & data & A)|(d0 & data & fits & fts & A & B)]]; [left; now apply unseen_keeps|right; left|right; right].
    - destruct (xobject_keeps v _ d0 data A) as (d' & pad & X & _). eauto.
    - destruct (xobject_keeps v _ d0 data A) as (d' & pad & X & HB & HX). exists d', (data ++ pad), fits, fts. split; [exact X|]. now apply (form_keeps ls d0).
  Qed.
  Lemma pages_keeps : (forall v ps, PagesAt o v ps -> PagesAt o' v ps) /\ (forall l ps, PagesIn o l ps -> PagesIn o' l ps).
  Proof.
    apply Pages_both.
    - intros v d E T. apply Pa_page; [apply follow_same; [exact E|ns]|exact T].
    - intros v d l ps E T K _ IH. apply Pa_node with (d := d) (l := l); auto; [apply follow_same; [exact E|ns]|apply entry_same; [exact K|ns]].
    - constructor.
    - intros v l ps qs _ IH1 _ IH2. now constructor.
  Qed.
  Lemma document_keeps t ps : Document o t ps -> Document o' t ps.
  Proof.
    intros (n & g & c & d & l & H1 & H2 & H3 & H4 & H5 & H6 & H7). exists n, g, c, d, l. split; [exact H1|].
    split; [apply (follow_same (ORef n g)); [exact H2|ns]|]. split; [exact H3|]. split; [apply entry_same; [exact H4|ns]|]. split; [exact H5|].
    split; [apply entry_same; [exact H6|ns]|]. now apply pages_keeps.
  Qed.
End Transport.

(** *** Files *)
(** What is written to the file for an object [v] of the document: streams are padded, encrypted, and given their new length. *)
Inductive Stored (md5 : list Z -> list Z) (aes_enc : list Z -> list Z -> list Z) (h : handler) (num gen : Z) : obj -> obj -> Prop :=
| So_plain v : not_string v -> (forall d data, v <> OStream d data) -> Stored md5 aes_enc h num gen v v
| So_128 key d d' data iv blocks : aes_streams h key d' Aes128 -> List.length key = 16%nat -> but_length d d' ->
    block iv -> Forall block blocks -> List.concat blocks = data ++ padding5 data ->
    Stored md5 aes_enc h num gen (OStream d data) (OStream d' (iv ++ cbc_enc aes_enc (object_key md5 key num gen (bs "sAlT")) iv blocks))
| So_256 key d d' data iv blocks : aes_streams h key d' Aes256 -> List.length key = 32%nat -> but_length d d' ->
    block iv -> Forall block blocks -> List.concat blocks = data ++ padding5 data ->
    Stored md5 aes_enc h num gen (OStream d data) (OStream d' (iv ++ cbc_enc aes_enc key iv blocks)).
Definition stored_objects md5 aes_enc h (objs raw : list (Z * Z * obj)) : Prop :=
  Forall2 (fun x y => fst x = fst y /\ fst (fst x) <= 4294967295 /\ Stored md5 aes_enc h (fst (fst x)) (snd (fst x)) (snd x) (snd y)) objs raw.
(** every stream tells where its data end *)
Definition streams_end (objs : list (Z * Z * obj)) : Prop := Forall (fun x => forall d data, snd x = OStream d data -> data <> [] /\ ends_itself d) objs.

Lemma but_length_dset d d' v : but_length d d' -> but_length d (dset d' (bs "Length") v).
Proof. intros H k Hk. rewrite P_Syntax.dget_dset, (proj2 (eqlZ_neq _ _) Hk). now apply H. Qed.
Lemma stored_read md5 aes_enc h objs raw : stored_objects md5 aes_enc h objs raw -> streams_end objs ->
  exists read, sealed_objects md5 aes_enc h raw read /\ Forall2 (fun x y => fst x = fst y /\ Keeps (snd x) (snd y)) objs read.
Proof.
  induction 1 as [|[[n g] v] [[n' g'] w] objs raw (A & B & C) _ IH]; intros HE; [exists []; split; constructor|].
  inversion HE as [|x l Hv HE']; subst. destruct (IH HE') as (read & H1 & H2). clear IH HE HE'. cbn [fst snd] in *. injection A as <- <-.
  assert (exists v', Sealed md5 aes_enc h n g w v' /\ Keeps v v') as (v' & HS & HKp).
  { destruct C as [v N1 N2|key d d' data iv blocks C1 C2 C3 C4 C5 C6|key d d' data iv blocks C1 C2 C3 C4 C5 C6].
    - exists v. split; [now apply Sealed_plain|constructor].
    - destruct (Hv d data eq_refl) as [X Y]. eexists. split; [apply (Sealed_aes128 md5 aes_enc h n g key d' data iv blocks C1 C2 C4 C5 C6)|]. apply K_stream; auto. now apply but_length_dset.
    - destruct (Hv d data eq_refl) as [X Y]. eexists. split; [apply (Sealed_aes256 md5 aes_enc h n g key d' data iv blocks C1 C2 C4 C5 C6)|]. apply K_stream; auto. now apply but_length_dset. }
  exists ((n, g, v') :: read). split; constructor; auto.
Qed.
Lemma keeps_find objs read n g : Forall2 (fun x y : Z * Z * obj => fst x = fst y /\ Keeps (snd x) (snd y)) objs read ->
  match find_obj objs n g with Some v => exists v', find_obj read n g = Some v' /\ Keeps v v' | None => find_obj read n g = None end.
Proof.
  induction 1 as [|[[n0 g0] v0] [[n1 g1] v1] objs read (A & C) HF IH]; [reflexivity|]. cbn [fst snd] in *. injection A as <- <-. cbn [find_obj].
  destruct ((n0 =? n) && (g0 =? g)); [eauto|exact IH].
Qed.

(** C102.  A document encrypted with AES whose streams tell where their data end: the viewer shows the pages as the document has
    them; [look] is what lookups give: the document's objects, but streams have their padding after their data. *)
Theorem C102_pages : forall real_str python python_decode inflate ccitt cid md5 sha256 rc4_size aes_enc aes_dec a b r objs en eg e rn rg pw h ps pages,
  (forall x pad y, inflate x = Some y -> inflate (x ++ pad) = Some y) ->
  (forall x, List.length (md5 x) = 16%nat) -> (forall k, 5 <= k <= 16 -> rc4_size k = true) -> cipher aes_enc aes_dec ->
  is_digit a = true -> is_digit b = true -> rev_ok r -> zlen (file_of a b [r]) < 10 ^ 10 ->
  stored_objects md5 aes_enc h objs (rv_objs r) -> streams_end objs ->
  dget (rv_trailer r) (bs "Encrypt") = Some (ORef en eg) -> find_obj objs en eg = Some (ODict e) -> e <> [] ->
  dget (rv_trailer r) (bs "Root") = Some (ORef rn rg) ->
  trailer_handler md5 sha256 rc4_size aes_dec (fun _ _ => ODict e) (rv_trailer r) pw = Ok (Some h) ->
  let o := or_null (find_obj objs) in let t := rv_trailer r in
  Document o t ps -> ps <> [] -> Forall2 (page_is o inflate python) ps pages ->
  forall D m k, (0 < D)%nat -> 4 * zlen (file_of a b [r]) + 8 <= Z.of_nat m -> (2 <= k)%nat ->
  exists s v look, arun (file_of a b [r]) (open_pdf inflate ccitt D m md5 sha256 rc4_size aes_dec k pw) (mkA 0 [] rst0) = (Ok ([a; 46; b], t, Some h, v), s) /\
  (forall ids, fst (session inflate ccitt (decrypt_object md5 rc4_size aes_dec (Some h)) D m k (file_of a b [r]) s ids) = map (fun id => Ok (look (fst id) (snd id))) ids) /\
  (forall n g, Keeps (meant o n g) (look n g)) /\
  let o' := fun n g => Some (look n g) in
  viewer_gives real_str python python_decode inflate ccitt cid look t (fun cs => Forall2 (drawn_as o' inflate python) pages cs) /\
  viewer_gives real_str python python_decode inflate ccitt cid look t (fun cs => Forall2 (retold_as o' inflate python real_str) pages cs).
Proof.
  intros real_str python python_decode inflate ccitt cid md5 sha256 rc4_size aes_enc aes_dec a b r objs en eg e rn rg pw h ps pages
    Hinf H1 H2 H3 H4 H5 H6 H7 HSt HEnd H8 H9 H10 H11 H12 o t HD Hne HF D m k K1 K2 K3.
  destruct (stored_read _ _ _ _ _ HSt HEnd) as (read & HS & HKp).
  assert (find_obj (rv_objs r) en eg = Some (ODict e)) as H9'.
  { clear - HSt H9. revert H9. induction HSt as [|[[n0 g0] v0] [[n1 g1] v1] objs raw (A & B & C) HF IH]; [auto|]. cbn [fst snd] in *. injection A as <- <-. cbn [find_obj].
    destruct ((n0 =? en) && (g0 =? eg)); [|exact IH]. intros [= ->]. inversion C; subst. reflexivity. }
  destruct (C81_written_once inflate ccitt md5 sha256 rc4_size aes_enc aes_dec a b r read en eg e rn rg pw h H1 H2 H3 H4 H5 H6 H7 HS H8 H9' H10 H11 H12 D m k K1 K2 K3) as (s & E & HSe).
  set (o1 := or_null (find_obj read)).
  assert (forall n g, match o n g with Some v => exists v', o1 n g = Some v' /\ Keeps v v' | None => o1 n g = None end) as HK.
  { intros n g. unfold o, o1, or_null. pose proof (keeps_find objs read n g HKp) as H. destruct (find_obj objs n g) as [v|].
    - destruct H as (v' & -> & H). eauto.
    - rewrite H. exists ONull. split; [reflexivity|constructor]. }
  exists s, (match find_obj read rn rg with Some v => v | None => ONull end), (meant o1). split; [exact E|]. split; [exact HSe|].
  split. { intros n g. pose proof (HK n g) as H. unfold meant. destruct (o n g) as [v|]; [destruct H as (v' & -> & H); exact H|rewrite H; constructor]. }
  intros o'. pose proof (document_keeps o o1 HK t ps HD) as HD'.
  assert (Forall2 (page_is o1 inflate python) ps pages) as HF'. { eapply Forall2_impl; [|exact HF]. intros d p Hp. unfold page_is in *. eapply (page_keeps o o1 inflate python HK Hinf). exact Hp. }
  split; [exact (C85_viewer o1 inflate python python_decode ccitt cid real_str t ps pages HD' Hne HF')|exact (C100_viewer o1 inflate python python_decode ccitt cid real_str t ps pages HD' Hne HF')].
Qed.

(** With the password, AES-128 (version 4) and AES-256 (version 5). *)
Theorem C102_passwords : forall md5 sha256 rc4_size aes_enc aes_dec t en eg e P len id0 ids0 id opw upw cf meta str O U,
  (forall x, List.length (md5 x) = 16%nat) -> (forall x, List.length (sha256 x) = 32%nat) -> (forall k, 5 <= k <= 16 -> rc4_size k = true) -> cipher aes_enc aes_dec ->
  dget t (bs "Encrypt") = Some (ORef en eg) -> dget t (bs "ID") = Some (OArr (OHex id0 :: ids0)) -> M_CMap.fromhex id0 = Ok id ->
  length_entry e len -> metadata_flag e meta ->
  (* version 4 *)
  (forall key, standard e 4 4 P O U -> -2147483648 <= P <= 2147483647 -> crypt_filters false e cf -> names_method false e cf (bs "StmF") Aes128 -> names_method false e cf (bs "StrF") str ->
     O = owner_entry md5 4 128 opw upw -> key = file_key md5 4 128 P O id meta upw -> user_entry md5 4 id key U ->
     trailer_handler md5 sha256 rc4_size aes_dec (fun _ _ => ODict e) t upw = Ok (Some (HCrypt key meta Aes128 str))) /\
  (* version 5 *)
  (forall k1 k2 uv uk ov ok, standard e 5 5 P O U -> crypt_filters true e cf -> names_method true e cf (bs "StmF") Aes256 -> names_method true e cf (bs "StrF") str ->
     (List.length upw <= 127)%nat -> (List.length opw <= 127)%nat -> List.length uv = 8%nat -> List.length ov = 8%nat -> block k1 -> block k2 ->
     U = entry5 sha256 upw uv uk [] -> O = entry5 sha256 opw ov ok U ->
     dget e (bs "UE") = Some (OStr (cbc_enc aes_enc (sha256 (upw ++ uk)) (repeat 0 16) [k1; k2])) ->
     dget e (bs "OE") = Some (OStr (cbc_enc aes_enc (sha256 (opw ++ ok ++ U)) (repeat 0 16) [k1; k2])) ->
     trailer_handler md5 sha256 rc4_size aes_dec (fun _ _ => ODict e) t opw = Ok (Some (HCrypt (k1 ++ k2) meta Aes256 str)) /\
     (trailer_handler md5 sha256 rc4_size aes_dec (fun _ _ => ODict e) t upw = Ok (Some (HCrypt (k1 ++ k2) meta Aes256 str)) \/ sha256 (upw ++ ov ++ U) = firstn 32 O)).
Proof.
  intros md5 sha256 rc4_size aes_enc aes_dec t en eg e P len id0 ids0 id opw upw cf meta str O U Hmd Hsh Hrc HC HE HID Hid HL HM.
  assert (id_array (OArr (OHex id0 :: ids0)) id) as HIA by (exists id0, ids0; split; [reflexivity|exact Hid]).
  assert (forall pw, trailer_handler md5 sha256 rc4_size aes_dec (fun _ _ => ODict e) t pw = document_handler md5 sha256 rc4_size aes_dec (ORef en eg) (fun _ _ => ODict e) (OArr (OHex id0 :: ids0)) pw) as HT.
  { intros pw. destruct (C61_trailer md5 sha256 rc4_size aes_dec (fun _ _ => ODict e) t pw) as (_ & HT & _). apply HT; auto. discriminate. }
  split.
  - intros key A1 A2 A3 A4 A5 A6 A7 A8. rewrite HT.
    destruct (C61_opens_v4 md5 sha256 rc4_size aes_dec (fun _ _ => ODict e) en eg e P len (OArr (OHex id0 :: ids0)) id opw upw cf meta Aes128 str O U key); auto.
  - intros k1 k2 uv uk ov ok A1 A2 A3 A4 A5 A6 A7 A8 A9 A10 A11 A12 A13 A14. rewrite !HT.
    eapply (C61_opens_v5 md5 sha256 rc4_size aes_enc aes_dec (fun _ _ => ODict e) en eg e P len (OArr (OHex id0 :: ids0)) id opw upw cf meta Aes256 str O U k1 k2 uv uk ov ok); eauto.
Qed.

(** *** Streams without a filter *)
(** Content without a filter that ends in white space: the padding is white space too, or it reads as one more operator, without operands, that nothing handles. *)
Definition white_or_operator (pad : list Z) : list citem := if head_is is_ws pad then [] else [COp pad []].
Lemma padding_is b : exists n, 1 <= n <= 16 /\ padding5 b = repeat n (Z.to_nat n).
Proof. exists (16 - zlen b mod 16). pose proof (Z.mod_pos_bound (zlen b) 16 ltac:(lia)). split; [lia|reflexivity]. Qed.
Lemma sixteen (P : Z -> Prop) : P 1 -> P 2 -> P 3 -> P 4 -> P 5 -> P 6 -> P 7 -> P 8 -> P 9 -> P 10 -> P 11 -> P 12 -> P 13 -> P 14 -> P 15 -> P 16 ->
  forall n, 1 <= n <= 16 -> P n.
Proof.
  intros. assert (n = 1 \/ n = 2 \/ n = 3 \/ n = 4 \/ n = 5 \/ n = 6 \/ n = 7 \/ n = 8 \/ n = 9 \/ n = 10 \/ n = 11 \/ n = 12 \/ n = 13 \/ n = 14 \/ n = 15 \/ n = 16) as Hn by lia.
  repeat (destruct Hn as [->|Hn]; [assumption|]). now subst.
Qed.
Lemma padding_text b : Text (white_or_operator (padding5 b)) (padding5 b) /\ padding5 b <> [] /\
  (head_is is_ws (padding5 b) = false -> Forall (fun c => is_ws c = false /\ is_delim c = false) (padding5 b)).
Proof.
  destruct (padding_is b) as (n & Hn & ->). revert n Hn. apply sixteen; (split; [|split; [discriminate|intros H; first [discriminate H|vm_compute; repeat constructor]]]).
  all: unfold white_or_operator; match goal with |- context [if ?x then _ else _] => let y := eval vm_compute in x in change x with y end; cbv iota.
  all: match goal with |- Text _ ?x => let y := eval vm_compute in x in change x with y end.
  all: try (exists [1], []; fail).
  all: lazymatch goal with
       | |- Text [] ?l => exists l, []; split; [now rewrite app_nil_r|]; split; [repeat (apply Sep_ws; [reflexivity|]); constructor|constructor]
       | |- Text _ ?l => exists [], l; split; [reflexivity|]; split; [constructor|];
           replace l with ([] ++ l ++ [] ++ []) at 2 by reflexivity; apply Co_op; [constructor| |constructor|reflexivity|constructor];
           split; [discriminate|]; split; [repeat constructor|]; split; [reflexivity|]; repeat split; discriminate
       end.
Qed.
Theorem C102_unfiltered : forall its b, Text its b -> closed b -> forall U st (u : U) n, 4 * zlen (b ++ padding5 b) + 10 <= Z.of_nat n ->
  exists ex, arun (b ++ padding5 b) (content_objects n) (mkA 0 st u) = (Ok (its ++ white_or_operator (padding5 b)), mkA (zlen (b ++ padding5 b)) (st ++ ex) u).
Proof.
  intros its b HT Hc U st u n Hn. destruct (text_app its b _ _ HT Hc (proj1 (padding_text b))) as (lead & ss & E & Hl & HC). rewrite E in *.
  now apply C38_content_operators.
Qed.
(** If the content does not end in white space its last operator is lost: with the padding it is another, which nothing handles. *)
Theorem C102_last_operator_refuted : forall its b op ops so, Text its b -> closed b -> SerElems FContent ops so op -> OpName op ->
  let data := b ++ so ++ op in
  Text (its ++ [COp op ops]) data /\
  (head_is is_ws (padding5 data) = false -> forall U st (u : U) n, 4 * zlen (data ++ padding5 data) + 10 <= Z.of_nat n ->
   exists ex, arun (data ++ padding5 data) (content_objects n) (mkA 0 st u) = (Ok (its ++ [COp (op ++ padding5 data) ops]), mkA (zlen (data ++ padding5 data)) (st ++ ex) u)).
Proof.
  intros its b op ops so HT Hc HS Hop data. split.
  - apply text_app; auto. exists [], (so ++ op). split; [reflexivity|]. split; [constructor|].
    replace (so ++ op) with (so ++ op ++ [] ++ []) by now rewrite !app_nil_r. apply Co_op; [rewrite !app_nil_r; exact HS|exact Hop|constructor|reflexivity|constructor].
  - intros Hw U st u n Hn. destruct (padding_text data) as (_ & Hne & Hreg). specialize (Hreg Hw). remember (padding5 data) as pad.
    assert (OpName (op ++ pad)) as Hop'.
    { destruct Hop as (A & B & C & D & E & F & G). split; [destruct op; [contradiction|discriminate]|]. split; [apply Forall_app; auto|].
      split; [destruct op; [contradiction|exact C]|].
      assert (last (op ++ pad) 0 <= 16) as HL.
      { destruct (padding_is data) as (k & Hk & Ep). rewrite Ep in Heqpad. subst pad. clear - Hk Hne. destruct (Z.to_nat k) as [|j]; [contradiction|].
        replace (repeat k (S j)) with (repeat k j ++ [k]) by (symmetry; apply repeat_cons). rewrite app_assoc, last_last. lia. }
      repeat split; intros X; rewrite X in HL; vm_compute in HL; now apply HL. }
    assert (Text (its ++ [COp (op ++ pad) ops]) (b ++ so ++ op ++ pad)) as HT2.
    { apply text_app; auto. exists [], (so ++ op ++ pad). split; [reflexivity|]. split; [constructor|].
      replace (so ++ op ++ pad) with (so ++ (op ++ pad) ++ [] ++ []) by now rewrite !app_nil_r. apply Co_op; [|exact Hop'|constructor|reflexivity|constructor].
      rewrite !app_nil_r. apply (ser_ext FContent pad eq_refl); [exact HS|]. destruct op as [|c op]; [destruct Hop as (X & _); contradiction|].
      apply solid_cons. rewrite <- (app_nil_r (c :: op)). now apply opname_nosep. }
    destruct HT2 as (lead & ss & E & Hl & HC). subst data. rewrite <- !app_assoc in *. rewrite E in *. now apply C38_content_operators.
Qed.

(** *** A document with a compressed content stream, AES-128 *)
(** a compression whose data tell where they end: their number, then the data *)
Definition a_inflate (x : list Z) : option (list Z) := match x with n :: r => if n <=? zlen r then Some (firstn (Z.to_nat n) r) else None | [] => None end.
Lemma a_inflate_ends x pad y : a_inflate x = Some y -> a_inflate (x ++ pad) = Some y.
Proof.
  destruct x as [|n r]; [discriminate|]. cbn [a_inflate app]. destruct (Z.leb_spec n (zlen r)); [|discriminate]. intros [= <-]. rewrite zlen_app.
  pose proof (zlen_nonneg pad). replace (n <=? zlen r + zlen pad) with true by (symmetry; apply Z.leb_le; lia). f_equal. rewrite firstn_app.
  replace (Z.to_nat n - List.length r)%nat with 0%nat by (unfold zlen in *; lia). cbn [firstn]. apply app_nil_r.
Qed.
Definition a_data : list Z := Eval vm_compute in zlen (S_App.content_text r_its) :: S_App.content_text r_its.
Definition a_O : list Z := Eval vm_compute in owner_entry toy_md5 4 128 (bs "owner") (bs "user").
Definition a_key : list Z := Eval vm_compute in file_key toy_md5 4 128 (-44) a_O ex_id true (bs "user").
Definition a_U : list Z := Eval vm_compute in chain a_key upto19 (toy_md5 (pad_string ++ ex_id)) ++ repeat 0 16.
Definition a_cf : dict := [(bs "StdCF", ODict [(bs "CFM", OName (bs "AESV2"))])].
Definition a_dict : dict := [(bs "Filter", OName (bs "Standard")); (bs "V", OInt 4); (bs "R", OInt 4); (bs "Length", OInt 128); (bs "P", OInt (-44)); (bs "O", OStr a_O); (bs "U", OStr a_U);
  (bs "CF", ODict a_cf); (bs "StmF", OName (bs "StdCF")); (bs "StrF", OName (bs "StdCF"))].
Fixpoint in_blocks (n : nat) (l : list Z) : list (list Z) := match n with O => [] | S n => match l with [] => [] | _ => firstn 16 l :: in_blocks n (skipn 16 l) end end.
Definition a_blocks : list (list Z) := Eval vm_compute in in_blocks 100 (a_data ++ padding5 a_data).
Definition a_cipher : list Z := Eval vm_compute in repeat 7 16 ++ cbc_enc (fun _ b => b) (object_key toy_md5 a_key 5 0 (bs "sAlT")) (repeat 7 16) a_blocks.
Definition a_front : list (Z * Z * obj) :=
  [(1, 0, ODict [(bs "Type", OName (bs "Catalog")); (bs "Pages", ORef 2 0)]);
   (2, 0, ODict [(bs "Type", OName (bs "Pages")); (bs "Kids", OArr [ORef 3 0]); (bs "Count", OInt 1)]); (3, 0, ODict r_page)].
Definition a_back : list (Z * Z * obj) := [(8, 0, ODict P_App.ex_font2); (20, 0, ODict a_dict)].
Definition a_objs : list (Z * Z * obj) := a_front ++ (5, 0, OStream [(bs "Length", OInt (zlen a_data)); (bs "Filter", OName (bs "FlateDecode"))] a_data) :: a_back.
Definition a_raw : list (Z * Z * obj) := a_front ++ (5, 0, OStream [(bs "Length", OInt (zlen a_cipher)); (bs "Filter", OName (bs "FlateDecode"))] a_cipher) :: a_back.
Notation a_o := (or_null (find_obj a_objs)).
Example a_ok : rev_ok (mkRev a_raw v_sealed_trailer).
Proof.
  unfold rev_ok, a_raw, a_front, a_back, v_sealed_trailer, r_page, P_App.ex_font2, v_lf, a_dict, a_cf. cbn [app rv_objs rv_trailer map fst snd writable printable fold_right].
  wr; first [apply bytes_ok_b; reflexivity | reflexivity | discriminate | (vm_compute; discriminate) | idtac].
  all: let x := eval vm_compute in (bs "010203FF") in change (bs "010203FF") with x;
    repeat (constructor; [first [exists 0; split; [lia|reflexivity] | exists 1; split; [lia|reflexivity] | exists 2; split; [lia|reflexivity]
      | exists 3; split; [lia|reflexivity] | exists 15; split; [lia|reflexivity]]|]); constructor.
Qed.
Example a_stored : stored_objects toy_md5 (fun _ b => b) (HCrypt a_key true Aes128 Aes128) a_objs a_raw.
Proof.
  assert (forall (l l' m m' : list (Z * Z * obj)) P, Forall2 P l m -> Forall2 P l' m' -> Forall2 P (l ++ l') (m ++ m')) as HA by (intros; now apply Forall2_app).
  unfold stored_objects, a_objs, a_raw. apply HA; [|apply Forall2_cons].
  - unfold a_front, a_back. repeat (apply Forall2_cons; [cbn [fst snd]; split; [reflexivity|]; split; [lia|apply So_plain; [exact I|discriminate]]|]). apply Forall2_nil.
  - cbn [fst snd]. split; [reflexivity|]. split; [lia|].
    apply (So_128 toy_md5 (fun _ b => b) _ 5 0 a_key _ _ a_data (repeat 7 16) a_blocks).
    + exists true, Aes128. split; [reflexivity|left; reflexivity].
    + reflexivity.
    + intros k Hk. cbn [dget]. now rewrite (proj2 (eqlZ_neq _ _) Hk).
    + split; [reflexivity|]. apply bytes_ok_b. reflexivity.
    + assert (forallb (fun b => (List.length b =? 16)%nat && forallb (fun c => (0 <=? c) && (c <? 256)) b) a_blocks = true) as HB by reflexivity.
      rewrite forallb_forall in HB. apply Forall_forall. intros b Hb. specialize (HB b Hb). apply andb_true_iff in HB. destruct HB as [B1 B2]. split; [now apply Nat.eqb_eq|now apply bytes_ok_b].
    + reflexivity.
  - unfold a_front, a_back. repeat (apply Forall2_cons; [cbn [fst snd]; split; [reflexivity|]; split; [lia|apply So_plain; [exact I|discriminate]]|]). apply Forall2_nil.
Qed.
Example a_document : Document a_o v_sealed_trailer [r_page].
Proof.
  exists 1, 0, [(bs "Type", OName (bs "Catalog")); (bs "Pages", ORef 2 0)], [(bs "Type", OName (bs "Pages")); (bs "Kids", OArr [ORef 3 0]); (bs "Count", OInt 1)], [ORef 3 0].
  split; [reflexivity|]. split; [reflexivity|]. split; [apply typed_class; cbn; auto|]. split; [reflexivity|]. split; [reflexivity|]. split; [reflexivity|].
  apply (Pi_cons _ (ORef 3 0) _ [r_page] []); [apply Pa_page with (d := r_page); reflexivity|constructor].
Qed.
Example a_level : LevelOk a_o v_lf.
Proof.
  split; [split; reflexivity|]. split; [repeat constructor; cbn; intuition discriminate|]. intros k v [E|[]]; injection E as <- <-.
  change (eqlZ (bs "Font") (bs "ProcSet")) with false. exists [(bs "F1", ORef 8 0)]. split; [reflexivity|]. split; [reflexivity|]. split; [repeat constructor; auto|].
  intros k' x [E|[]]. injection E as _ <-. exists (VDict (Some (bs "Font")) (rd P_App.ex_font2)). apply mean_dict; [reflexivity|apply typed_class; [reflexivity|cbn; auto 20]].
Qed.
Example a_page_is python : page_is a_o a_inflate python r_page (r_its, [v_lf], [bs "Hi"; [196]; bs "a(b"]).
Proof.
  unfold page_is. cbn [fst snd]. exists [], (S_App.content_text r_its). split.
  { exists (ORef 5 0). split; [reflexivity|left]. eexists _, a_data. split; [reflexivity|]. split; [left; reflexivity|].
    apply De_one with (f := bs "FlateDecode"); [reflexivity|left; reflexivity|]. apply Enc_fl; [left; reflexivity|vm_compute; reflexivity]. }
  split; [constructor|]. split.
  { apply content_written. unfold r_its. wops; cbn [printable fold_right]; try (apply bytes_ok_b; reflexivity); try exact I; repeat split; try (apply bytes_ok_b; reflexivity); try lia.
    repeat constructor; [exists 8|exists 0]; split; try lia; reflexivity. }
  split. { change [v_lf] with ([v_lf] ++ []). apply Le_up with (p := [(bs "Type", OName (bs "Pages")); (bs "Kids", OArr [ORef 3 0]); (bs "Count", OInt 1)]);
    [left; exists v_lf; repeat split; discriminate|reflexivity|reflexivity|]. apply Le_top; [right; split; [left; reflexivity|reflexivity]|reflexivity]. }
  split; [constructor; [apply a_level|constructor]|]. split.
  - apply each_page. unfold r_its. cbn [each_ok app]. repeat (split; [left; drawop|]). exact I.
  - unfold texts. change (shows None [] r_its) with [(Some (bs "F1"), OStr (bs "Hi")); (Some (bs "F1"), OHex (bs "80")); (@None (list Z), OStr (bs "a(b"))].
    assert (forall v s, Bytes v s -> FontText a_o a_inflate python (res_in a_o "Font" [v_lf] (bs "F1")) v (flat_map (char_of (base_of (Some (bs "MacRomanEncoding")))) s)) as HM.
    { intros v s Hv. change (res_in a_o "Font" [v_lf] (bs "F1")) with (Some (ORef 8 0)).
      apply (Ft_base a_o a_inflate python (ORef 8 0) P_App.ex_font2 [(bs "Type", OName (bs "Encoding")); (bs "BaseEncoding", OName (bs "MacRomanEncoding"))] (bs "MacRomanEncoding") v s); try reflexivity; try discriminate; [split; reflexivity|exact Hv]. }
    constructor; [|constructor; [|constructor; [|constructor]]]; cbn [fst snd].
    + change (bs "Hi") with (flat_map (char_of (base_of (Some (bs "MacRomanEncoding")))) (bs "Hi")). apply HM. apply ex_bytes; [reflexivity|left; reflexivity].
    + change [196] with (flat_map (char_of (base_of (Some (bs "MacRomanEncoding")))) [128]). apply HM. apply ex_bytes; [reflexivity|right; reflexivity].
    + apply Ft_none. apply ex_bytes; [reflexivity|left; reflexivity].
Qed.
Example C102_ex real_str python python_decode ccitt cid :
  let f := file_of 49 55 [mkRev a_raw v_sealed_trailer] in
  exists m s v look, arun f (open_pdf a_inflate ccitt 1 m toy_md5 (fun x => toy_md5 x ++ toy_md5 x) (fun _ => true) (fun _ b => b) 2 (bs "user")) (mkA 0 [] rst0) =
    (Ok (bs "1.7", v_sealed_trailer, Some (HCrypt a_key true Aes128 Aes128), v), s) /\
  (forall n g, Keeps (meant a_o n g) (look n g)) /\ Keeps (OStream [(bs "Length", OInt (zlen a_data)); (bs "Filter", OName (bs "FlateDecode"))] a_data) (look 5 0) /\
  viewer_gives real_str python python_decode a_inflate ccitt cid look v_sealed_trailer (fun cs => exists c, cs = [c] /\ cv_strings c = [bs "Hi"; [196]; bs "a(b"]).
Proof.
  assert (cipher (fun _ b => b) (fun _ b => b)) as HC by (intros k b _ Hb; split; [exact Hb|reflexivity]).
  intros f. set (m := Z.to_nat (4 * zlen f + 8)).
  destruct (C102_passwords toy_md5 (fun x => toy_md5 x ++ toy_md5 x) (fun _ => true) (fun _ b => b) (fun _ b => b) v_sealed_trailer 20 0 a_dict (-44) 128 (bs "010203FF") [OHex (bs "010203FF")] ex_id (bs "owner") (bs "user")
    a_cf true Aes128 a_O a_U) as [H4 _]; auto.
  { apply toy_md5_len. } { intros x. rewrite app_length, toy_md5_len. reflexivity. } { left. reflexivity. } { left. split; reflexivity. }
  assert (names_method false a_dict a_cf (bs "StmF") Aes128 /\ names_method false a_dict a_cf (bs "StrF") Aes128) as [N1 N2].
  { assert (filter_entry false (ODict [(bs "CFM", OName (bs "AESV2"))]) Aes128) as HF by (exists [(bs "CFM", OName (bs "AESV2"))], (bs "AESV2"); repeat split; right; split; reflexivity).
    split; exists (bs "StdCF"); (split; [reflexivity|]); right; (split; [discriminate|]); exists (ODict [(bs "CFM", OName (bs "AESV2"))]); (split; [left; reflexivity|exact HF]). }
  assert (trailer_handler toy_md5 (fun x => toy_md5 x ++ toy_md5 x) (fun _ => true) (fun _ b => b) (fun _ _ => ODict a_dict) v_sealed_trailer (bs "user") = Ok (Some (HCrypt a_key true Aes128 Aes128))) as Hth.
  { apply H4; auto.
    - repeat split; try reflexivity; left; reflexivity.
    - lia.
    - split; [reflexivity|]. split; [repeat constructor; auto|]. intros k v [X|[]]. injection X as <- <-. exists Aes128, [(bs "CFM", OName (bs "AESV2"))], (bs "AESV2"). repeat split. right. split; reflexivity.
    - unfold user_entry. vm_compute. reflexivity. }
  destruct (C102_pages real_str python python_decode a_inflate ccitt cid toy_md5 (fun x => toy_md5 x ++ toy_md5 x) (fun _ => true) (fun _ b => b) (fun _ b => b) 49 55 (mkRev a_raw v_sealed_trailer) a_objs 20 0 a_dict 1 0 (bs "user")
    (HCrypt a_key true Aes128 Aes128) [r_page] [(r_its, [v_lf], [bs "Hi"; [196]; bs "a(b"])]) with (D := 1%nat) (m := m) (k := 2%nat) as (s & v & look & E & HS & HKp & HV & _); auto.
  - apply a_inflate_ends.
  - apply toy_md5_len.
  - apply a_ok.
  - vm_compute. reflexivity.
  - apply a_stored.
  - unfold streams_end, a_objs, a_front, a_back. cbn [app]. repeat (constructor; [intros d data X; cbn [snd] in X; first [discriminate X|injection X as <- <-; split; [discriminate|exists (bs "FlateDecode"); split; [cbn; auto 10|left; reflexivity]]]|]). constructor.
  - discriminate.
  - apply a_document.
  - discriminate.
  - constructor; [apply a_page_is|constructor].
  - subst m. rewrite Z2Nat.id; [apply Z.le_refl|]. pose proof (zlen_nonneg f). clear - H. lia.
  - exists m, s, v, look. split; [exact E|]. split; [exact HKp|]. split; [exact (HKp 5 0)|].
    revert HV. unfold viewer_gives, viewer_over. intros (root & nb0 & HV). exists root, nb0. intros nb Hnb. destruct (HV nb Hnb) as [n0 HV']. exists n0. intros n Hn.
    destruct (HV' n Hn) as (cs & w & H1 & H2 & H3). exists cs, w. split; [exact H1|]. split; [|exact H3]. inversion H2 as [|p c ps' cs' Hd HR]; subst. inversion HR; subst. exists c. split; [reflexivity|]. apply Hd.
Qed.

(** The text of "(Hi!) Tj" is lost, that of "(Hi!) Tj" and a newline is not. *)
Example C102_last_ex : forall st, exists ex ex',
  arun (bs "(Hi!) Tj" ++ padding5 (bs "(Hi!) Tj")) (content_objects 100) (mkA 0 st tt) = (Ok [COp (bs "Tj" ++ repeat 8 8) [OStr (bs "Hi!")]], mkA 16 (st ++ ex) tt) /\
  arun ((bs "(Hi!) Tj" ++ [10]) ++ padding5 (bs "(Hi!) Tj" ++ [10])) (content_objects 100) (mkA 0 st tt) = (Ok [COp (bs "Tj") [OStr (bs "Hi!")]; COp (repeat 7 7) []], mkA 16 (st ++ ex') tt).
Proof.
  intros st.
  assert (forall rest, rest <> [] -> nosep rest -> SerElems FContent [OStr (bs "Hi!")] (bs "(Hi!) ") rest) as HS.
  { intros rest _ _. change (bs "(Hi!) ") with ((40 :: str_text (bs "Hi!") ++ [41]) ++ [32] ++ []). apply SE_cons; [apply Ser_str, str_text_ok|repeat (apply Sep_ws; [reflexivity|]); constructor|constructor]. }
  assert (OpName (bs "Tj")) as HO by opname.
  assert (closed []) as HC by (left; reflexivity). assert (Text [] []) as HT by (exists [], []; repeat split; constructor).
  destruct (C102_last_operator_refuted [] [] (bs "Tj") [OStr (bs "Hi!")] (bs "(Hi!) ") HT HC) as [_ H]; [apply HS; [discriminate|reflexivity]|exact HO|].
  destruct (H eq_refl unit st tt 100%nat) as [ex E]; [vm_compute; discriminate|].
  assert (Text [COp (bs "Tj") [OStr (bs "Hi!")]] (bs "(Hi!) Tj" ++ [10])) as HT2.
  { exists [], (bs "(Hi!) Tj" ++ [10]). split; [reflexivity|]. split; [constructor|]. change (bs "(Hi!) Tj" ++ [10]) with (bs "(Hi!) " ++ bs "Tj" ++ [10] ++ []).
    apply Co_op; [apply HS; [discriminate|reflexivity]|exact HO|apply Sep_ws; [reflexivity|constructor]|reflexivity|constructor]. }
  destruct (C102_unfiltered _ _ HT2 ltac:(right; exists (bs "(Hi!) Tj"), 10; split; reflexivity) unit st tt 100%nat) as [ex' E']; [vm_compute; discriminate|].
  exists ex, ex'. split; [exact E|exact E'].
Qed.

Print Assumptions C102_pages.
Print Assumptions C102_passwords.
Print Assumptions C102_unfiltered.
Print Assumptions C102_last_operator_refuted.
