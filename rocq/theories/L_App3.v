(** Written content parses: the writer of S_App.v produces text that [Content] (S_Stream.v) describes. *)
From Coq Require Import String.
From Verif Require Import Prelude M_Parser S_Syntax L_Syntax L_Syntax2 S_Print L_Print S_Stream P_Content M_Objects S_App S_Viewer.
Local Open Scope Z_scope.
Lemma print_not_s w x t : printable w -> print w = x :: t -> (x =? 115) = false.
Proof.
  intros Hw E.
  destruct w as [|[]|z|a b c|s|s|s|l|d|d data|n g|s|d data]; cbn [print] in E; try (inversion E; reflexivity); try (exfalso; exact Hw).
  * unfold int_text in E. destruct (z <? 0) eqn:Ez; [inversion E; reflexivity|].
    destruct (dec_ok z) as (H1 & H2 & H3); [lia|]. destruct (head_dig _ [] H3 H2) as (d & r & Ed & Hd & _).
    rewrite Ed in E. inversion E; subst. apply is_digit_range in Hd. lia.
  * destruct Hw as (P1 & P2 & P3). pose proof (real_text_ok a b c P1 P2 P3) as HR. rewrite E in HR.
    inversion HR as [sg ip fp Hs Hi Hfp Hne|ip fp Hi Hfp Hne Hc|ip fp Hi Hfp Hne Hc]; subst; try reflexivity.
    destruct Hs as [->| ->]; cbn [app] in *; [|match goal with H : _ :: _ = _ :: _ |- _ => inversion H; reflexivity end].
    destruct Hi as [|d r Hd _]; cbn [app] in *; match goal with H : _ :: _ = _ :: _ |- _ => inversion H; subst; auto end.
    apply is_digit_range in Hd. lia.
  * destruct Hw as [Hn _]. destruct (dec_ok n) as (H1 & H2 & H3); [lia|]. destruct (head_dig _ [] H3 H2) as (d & r & Ed & Hd & _).
    rewrite Ed in E. inversion E; subst. apply is_digit_range in Hd. lia.
Qed.
Lemma elems_written fl l : Forall (okP fl) l -> (forall v, In v l -> printable v) -> refs_allowed fl = false ->
  forall tl, nosep tl -> (l = [] \/ head_is (fun c => c =? 115) tl = false) -> SerElems fl l (flat_map (fun x => print x ++ [32]) l) tl.
Proof.
  intros Hf Hp Hr tl Hs Hd. destruct Hd as [->|Hd]; [constructor|]. induction Hf as [|v l Hv _ IH]; [constructor|]. cbn [flat_map]. rewrite <- app_assoc.
  apply SE_cons; [|apply sep_sp1|apply IH; intros; apply Hp; now right].
  apply Hv; [| |congruence]; destruct l as [|w l]; auto; cbn [flat_map]; (destruct (print_ne w) as (x & t & E & Hx & Hx82); [apply Hp; cbn; auto|]).
  - rewrite <- !app_assoc, E. cbn [app]. now apply start_nosep.
  - rewrite <- !app_assoc, E. cbn [app head_is]. eapply print_not_s; [apply Hp; cbn; auto|exact E].
Qed.
(** An operator that can be written: printable operands without references; operators starting with "s" take none
    (a dictionary before them would be read as the start of a stream). *)
Definition writable_op (i : citem) : Prop :=
  match i with
  | COp w args => OpName w /\ (args = [] \/ head_is (fun c => c =? 115) w = false) /\ Forall (fun v => printable v /\ has_ref v = false) args
  | CImage _ _ => False
  end.
Lemma content_written its : Forall writable_op its -> Content its (content_text its).
Proof.
  induction 1 as [|i its Hi _ IH]; [constructor|]. destruct i as [d data|w args]; [destruct Hi|]. destruct Hi as (Hw & Hs & Ha).
  unfold content_text. cbn [flat_map]. rewrite <- !app_assoc. apply Co_op; [|exact Hw|apply sep_lf|reflexivity|exact IH].
  destruct w as [|c w]; [now destruct Hw|].
  apply elems_written; auto.
  - apply Forall_forall. intros v Hv. rewrite Forall_forall in Ha. destruct (Ha v Hv). apply print_ser; auto.
  - intros v Hv. rewrite Forall_forall in Ha. now destruct (Ha v Hv).
  - cbn [app]. destruct Hw as (_ & Hw & _). apply Forall_inv in Hw. cbv beta in Hw. unfold nosep, head_is.
    destruct Hw as [-> H2]. cbn [orb].
    destruct (Z.eqb_spec c 37) as [-> |]; [discriminate H2|reflexivity].
Qed.
