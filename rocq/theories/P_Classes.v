(** The class an object of the document is given: C104. *)
From Coq Require Import String.
From Verif Require Import Prelude M_Parser M_Objects S_Objects P_Objects.
Local Open Scope Z_scope.

(** *** The specification: what ISO 32000 calls its typed dictionaries, as far as there are classes for them *)
Definition own_class : list (list Z) := map bs
  [ (* document *) "Catalog"; "Pages"; "Page"; "OCG"; "OCMD"; "PageLabel"; "NavNode"; "Trans"; "Outlines"; "Thread";
    (* fonts, graphics *) "Font"; "Encoding"; "CIDFont"; "Halftone";
    (* portable collections *) "Collection"; "CollectionField"; "CollectionSort"; "CollectionSchema";
    (* interaction *) "Annot"; "Border"; "Action"; "Sig"; "SigRef"; "TransformParams"; "Requirement"; "ReqHandler"; "SlideShow";
    (* multimedia *) "Rendition"; "MediaCriteria"; "MinBitDepth"; "MinScreenSize"; "MediaClip"; "MediaPermissions"; "MediaDuration";
    "MediaScreenParams"; "FWParams"; "MediaOffset"; "Timespan"; "MediaPlayers"; "MediaPlayerInfo"; "SoftwareIdentifier"; "Sound";
    (* structure *) "LastModified"; "StructTreeRoot"; "StructElem"; "MCR"; "OBJR" ]%string.
(** names that are nobody's: slips for FontDescriptor, Bead and ObjStm *)
Definition slips : list (list Z) := map bs ["FontDescriptior"; "Bread"]%string.
Definition type_of (d : list (list Z * bv)) (s : list Z) : Prop := aget d (bs "Type") = Some (VAtom (OName s)).
Definition subtype_of (d : list (list Z * bv)) (s : list Z) : Prop := aget d (bs "Subtype") = Some (VAtom (OName s)).
(** [given H x v]: the application gets [v] for the object [x], and for references to it. *)
Definition given (H : Z -> Z -> res bv) (x : bv) (r : res bv) : Prop :=
  (exists n0, forall n, (n0 <= n)%nat -> build H n true [] x = r) /\
  forall num gen, H num gen = Ok x -> exists n0, forall n, (n0 <= n)%nat -> build H n true [] (VRef num gen) = r.
Notation base := (@nil Z).

(** *** Proofs *)
Lemma stands_given H x v : ~ is_ref x -> Stands H x v -> given H x (Ok v).
Proof.
  intros Hx HS. split; [apply C27_build, HS|]. intros num gen HH. apply C27_build. apply St_ref with (o := x); auto.
Qed.
Lemma own_in s : In s dict_classes <-> In s own_class \/ In s slips.
Proof.
  split.
  - intros H. assert (forallb (fun x => existsb (eqlZ x) own_class || existsb (eqlZ x) slips) dict_classes = true) as HA by (vm_compute; reflexivity).
    rewrite forallb_forall in HA. specialize (HA s H). apply orb_true_iff in HA. destruct HA as [HA|HA]; [left|right]; apply existsb_exists in HA; destruct HA as (y & Hy & E); apply eqlZ_eq in E; subst; assumption.
  - intros H. assert (forallb (fun x => existsb (eqlZ x) dict_classes) (own_class ++ slips) = true) as HA by (vm_compute; reflexivity).
    rewrite forallb_forall in HA. specialize (HA s ltac:(apply in_or_app; exact H)). apply existsb_exists in HA; destruct HA as (y & Hy & E); apply eqlZ_eq in E; subst; assumption.
Qed.

(** C104.  A dictionary whose /Type is the name of a known kind of object is given as an object of that class, with
    its entries as they are; any other as one of the base class. *)
Theorem C104_dictionaries : forall H d,
  (forall s, type_of d s -> In s own_class -> given H (VDict None d) (Ok (VDict (Some s) d))) /\
  (forall s, type_of d s -> ~ In s own_class -> ~ In s slips -> given H (VDict None d) (Ok (VDict (Some base) d))) /\
  (aget d (bs "Type") = None -> given H (VDict None d) (Ok (VDict (Some base) d))).
Proof.
  intros H d. assert (forall c, dict_class d c -> given H (VDict None d) (Ok (VDict (Some c) d))) as HG.
  { intros c Hc. apply stands_given; [intros (n & g & X); discriminate X|now apply St_dict]. }
  split; [|split].
  - intros s Ht Hs. apply HG. unfold dict_class, type_of in *. rewrite Ht. left. split; [apply own_in; auto|reflexivity].
  - intros s Ht H1 H2. apply HG. unfold dict_class, type_of in *. rewrite Ht. right. split; [intros X; apply own_in in X; tauto|reflexivity].
  - intros Ht. apply HG. unfold dict_class. now rewrite Ht.
Qed.

(** Streams: images, forms and groups by their /Subtype, other XObjects, character maps and metadata. *)
Theorem C104_streams : forall H d data,
  (forall s, type_of d (bs "XObject") -> subtype_of d s -> In s (map bs ["Image"; "Form"; "Group"]%string) -> given H (VStm None d data) (Ok (VStm (Some s) d data))) /\
  (forall s, type_of d (bs "XObject") -> subtype_of d s -> ~ In s (map bs ["Image"; "Form"; "Group"]%string) -> given H (VStm None d data) (Ok (VStm (Some (bs "XObject")) d data))) /\
  (type_of d (bs "XObject") -> aget d (bs "Subtype") = None -> given H (VStm None d data) (Ok (VStm (Some (bs "XObject")) d data))) /\
  (forall s, type_of d s -> In s (map bs ["CMap"; "Metadata"]%string) -> given H (VStm None d data) (Ok (VStm (Some s) d data))) /\
  (forall s, type_of d s -> ~ In s (map bs ["XObject"; "CMap"; "Metadata"; "ObjectStream"]%string) -> given H (VStm None d data) (Ok (VStm (Some base) d data))) /\
  (aget d (bs "Type") = None -> given H (VStm None d data) (Ok (VStm (Some base) d data))).
Proof.
  intros H d data. assert (forall c, stm_class d c -> given H (VStm None d data) (Ok (VStm (Some c) d data))) as HG.
  { intros c Hc. apply stands_given; [intros (n & g & X); discriminate X|now apply St_stm]. }
  unfold type_of, subtype_of. split; [|split; [|split; [|split; [|split]]]].
  - intros s Ht Hs Hi. apply HG. left. split; [exact Ht|]. rewrite Hs. left. split; [exact Hi|reflexivity].
  - intros s Ht Hs Hi. apply HG. left. split; [exact Ht|]. rewrite Hs. right. split; [exact Hi|reflexivity].
  - intros Ht Hs. apply HG. left. split; [exact Ht|]. now rewrite Hs.
  - intros s Ht Hi. apply HG. right. split.
    + unfold xobject. rewrite Ht. intros X. injection X as ->. destruct Hi as [X|[X|[]]]; discriminate X.
    + rewrite Ht. left. split; [right; right; exact Hi|reflexivity].
  - intros s Ht Hi. apply HG. right. split.
    + unfold xobject. rewrite Ht. intros X. injection X as ->. apply Hi. now left.
    + rewrite Ht. right. split; [|reflexivity]. intros [X|[X|[X|[X|[]]]]]; subst; apply Hi; cbn [map In]; auto 10.
  - intros Ht. apply HG. right. split; [unfold xobject; rewrite Ht; discriminate|now rewrite Ht].
Qed.

(** Font descriptors, beads and object streams have no class: their names are misspelled in the tables. *)
Theorem C104_misspelled_refuted : forall H,
  (forall d s, type_of d s -> In s (map bs ["FontDescriptor"; "Bead"]%string) -> given H (VDict None d) (Ok (VDict (Some base) d))) /\
  (forall d data, type_of d (bs "ObjStm") -> given H (VStm None d data) (Ok (VStm (Some base) d data))) /\
  (forall d s, type_of d s -> In s slips -> given H (VDict None d) (Ok (VDict (Some s) d))).
Proof.
  intros H. split; [|split].
  - intros d s Ht Hs. apply (C104_dictionaries H d) with (s := s); [exact Ht|..];
      destruct Hs as [<-|[<-|[]]]; intros X; revert X; [assert (existsb (eqlZ (bs "FontDescriptor")) own_class = false) as E by reflexivity | assert (existsb (eqlZ (bs "Bead")) own_class = false) as E by reflexivity
        | assert (existsb (eqlZ (bs "FontDescriptor")) slips = false) as E by reflexivity | assert (existsb (eqlZ (bs "Bead")) slips = false) as E by reflexivity];
      intros X; apply not_true_iff_false in E; apply E; apply existsb_exists; eexists; (split; [exact X|apply eqlZ_refl]).
  - intros d data Ht. apply (C104_streams H d data) with (s := bs "ObjStm"); [exact Ht|]. intros [X|[X|[X|[X|[]]]]]; discriminate X.
  - intros d s Ht Hs. apply stands_given; [intros (n & g & X); discriminate X|]. apply St_dict. unfold dict_class. unfold type_of in Ht. rewrite Ht. left. split; [apply own_in; auto|reflexivity].
Qed.

(** A /Type or, of an XObject, a /Subtype that is a reference (or an array, a dictionary) raises TypeError: the reference is not followed. *)
Definition compound (v : bv) : Prop := (exists n g, v = VRef n g) \/ (exists l, v = VArr l) \/ (exists c d, v = VDict c d).
Theorem C104_indirect_type_refuted : forall H d v, compound v ->
  (aget d (bs "Type") = Some v -> given H (VDict None d) (Err TypeErr)) /\
  (forall data, type_of d (bs "XObject") -> aget d (bs "Subtype") = Some v -> given H (VStm None d data) (Err TypeErr)).
Proof.
  intros H d v Hv. assert (forall t dflt, table_get t dflt (Some v) = Err TypeErr) as HT.
  { intros t dflt. destruct Hv as [(n & g & ->)|[(l & ->)|(c & d' & ->)]]; reflexivity. }
  split.
  - intros Ht. assert (forall bld, factory bld (VDict None d) = Err TypeErr) as HF.
    { intros bld. cbn [factory]. unfold dict_entry. rewrite Ht. cbn [rbind]. now rewrite HT. }
    split; [exists 1%nat; intros [|n] Hn; [lia|]; cbn [build]; apply HF|].
    intros num gen HH. exists 1%nat. intros [|n] Hn; [lia|]. cbn [build visited existsb]. rewrite HH. cbn [rbind]. now rewrite HF.
  - intros data Ht Hs. assert (forall bld, factory bld (VStm None d data) = Err TypeErr) as HF.
    { intros bld. cbn [factory]. unfold stm_entry. unfold type_of in Ht. rewrite Ht. cbn [rbind is_xobject]. rewrite eqlZ_refl. cbn [rbind]. rewrite Hs. cbn [rbind]. now rewrite HT. }
    split; [exists 1%nat; intros [|n] Hn; [lia|]; cbn [build]; apply HF|].
    intros num gen HH. exists 1%nat. intros [|n] Hn; [lia|]. cbn [build visited existsb]. rewrite HH. cbn [rbind]. now rewrite HF.
Qed.

Example C104_ex : let d := [(bs "Type", VAtom (OName (bs "NavNode"))); (bs "Next", VRef 3 0)] in
  given (fun n g => if n =? 2 then Ok (VDict None d) else Err KeyErr) (VDict None d) (Ok (VDict (Some (bs "NavNode")) d)) /\
  exists n0, forall n, (n0 <= n)%nat -> build (fun n g => if n =? 2 then Ok (VDict None d) else Err KeyErr) n true [] (VRef 2 0) = Ok (VDict (Some (bs "NavNode")) d).
Proof.
  intros d. assert (given (fun n g => if n =? 2 then Ok (VDict None d) else Err KeyErr) (VDict None d) (Ok (VDict (Some (bs "NavNode")) d))) as HG.
  { apply (C104_dictionaries _ d) with (s := bs "NavNode"); [reflexivity|]. unfold own_class. cbn [map In]. auto 20. }
  split; [exact HG|]. destruct HG as [_ HG]. apply (HG 2 0). reflexivity.
Qed.
Example C104_indirect_ex : let d := [(bs "Type", VRef 5 0)] in
  exists n0, forall n, (n0 <= n)%nat -> build (fun n g => if n =? 2 then Ok (VDict None d) else Ok (VAtom (OName (bs "Page")))) n true [] (VRef 2 0) = Err TypeErr.
Proof.
  intros d. destruct (C104_indirect_type_refuted (fun n g => if n =? 2 then Ok (VDict None d) else Ok (VAtom (OName (bs "Page")))) d (VRef 5 0)) as [H _]; [left; eauto|].
  destruct (H eq_refl) as [_ H2]. apply (H2 2 0). reflexivity.
Qed.
Print Assumptions C104_dictionaries.
Print Assumptions C104_streams.
Print Assumptions C104_misspelled_refuted.
Print Assumptions C104_indirect_type_refuted.
