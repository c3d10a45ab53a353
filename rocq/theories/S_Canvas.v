(** What stands on a canvas, in terms of the page's content and resources; independent of the viewer's interpreter. *)
From Coq Require Import String.
From Verif Require Import Prelude M_Parser M_Objects M_Viewer S_Viewer.
Local Open Scope Z_scope.

(** the XObject name an operand spells *)
Definition operand_name (o : obj) : option (list Z) := match o with OName s | OHex s | OTok s => Some s | _ => None end.
(** [i] paints the XObject [xo], called [k] in the resources *)
Definition draws (rs : resources) (i : citem) (k : list Z) (xo : bv) : Prop :=
  exists a args, i = COp (bs "Do") (a :: args) /\ operand_name a = Some k /\ aget (rs_dict rs (bs "XObject")) k = Some xo.
(** an image or form with data *)
Definition is_image (xo : bv) : Prop := exists d data, xo = VStm (Some (bs "Image")) d data /\ data <> [].
Definition is_form (xo : bv) : Prop := exists d data, xo = VStm (Some (bs "Form")) d data /\ data <> [].
Definition inline_images (l : list citem) : list citem := filter (fun i => match i with CImage _ _ => true | _ => false end) l.

(** the distinct elements of a list, each where it comes first *)
Definition firsts (l : list (list Z)) : list (list Z) := fold_left (fun acc k => if existsb (eqlZ k) acc then acc else acc ++ [k]) l [].
(** the names of class [c] painted by [l], in order *)
Definition painted (rs : resources) (c : list Z) (l : list citem) : list (list Z) :=
  flat_map (fun i => match i with
    | COp name (a :: _) => if eqlZ name (bs "Do") then match operand_name a with
        | Some k => match aget (rs_dict rs (bs "XObject")) k with Some (VStm (Some c') _ (_ :: _)) => if eqlZ c' c then [k] else [] | _ => [] end
        | None => [] end else []
    | _ => [] end) l.

(** nothing on a canvas is lost: text, strings and inline images are extended at the end, images and forms stay *)
Definition grows (c c' : canvas) : Prop :=
  (exists t, cv_text c' = cv_text c ++ t) /\ (exists ss, cv_strings c' = cv_strings c ++ ss) /\ (exists l, cv_inline c' = cv_inline c ++ l) /\
  (exists ks, map fst (cv_images c') = map fst (cv_images c) ++ ks) /\ (exists fs, cv_forms c' = cv_forms c ++ fs).
