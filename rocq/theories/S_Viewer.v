(** Specification vocabulary for rendered content, independent of the viewer. *)
From Coq Require Import String.
From Verif Require Import Prelude M_Parser.
Local Open Scope Z_scope.

Definition named (w : string) (i : citem) : Prop := exists args, i = COp (bs w) args.

(** Content in which every q is closed by a Q.  (An operator called "navigate", which no PDF has but which the
    viewer takes for its own navigation event, is left out.) *)
Inductive Balanced : list citem -> Prop :=
| Ba_nil : Balanced []
| Ba_item i : ~ named "q" i -> ~ named "Q" i -> ~ named "navigate" i -> Balanced [i]
| Ba_app a b : Balanced a -> Balanced b -> Balanced (a ++ b)
| Ba_q qa l Qa : Balanced l -> Balanced (COp (bs "q") qa :: l ++ [COp (bs "Q") Qa]).

(** Content that, outside q ... Q, does not select a font (Tf, or gs of an ExtGState with a font). *)
Inductive KeepsFont : list citem -> Prop :=
| Kf_nil : KeepsFont []
| Kf_item i : ~ named "q" i -> ~ named "Q" i -> ~ named "navigate" i -> ~ named "Tf" i -> ~ named "gs" i -> KeepsFont [i]
| Kf_app a b : KeepsFont a -> KeepsFont b -> KeepsFont (a ++ b)
| Kf_q qa l Qa : Balanced l -> KeepsFont (COp (bs "q") qa :: l ++ [COp (bs "Q") Qa]).

(** The string operands a text showing operator shows. *)
Definition is_string (o : obj) : bool := match o with OStr _ | OHex _ => true | _ => false end.
Definition shown (i : citem) : list obj :=
  match i with
  | COp name args =>
      if eqlZ name (bs "Tj") || eqlZ name (bs "'") then match args with a :: _ => [a] | [] => [] end
      else if eqlZ name (bs "TJ") then match args with OArr l :: _ => filter is_string l | _ => [] end
      else []
  | CImage _ _ => []
  end.

(** The bracket (BT or ET) that came last. *)
Fixpoint last_bracket (l : list citem) : option bool :=
  match l with
  | [] => None
  | i :: r => match last_bracket r with
              | Some b => Some b
              | None => match i with
                        | COp name _ => if eqlZ name (bs "BT") then Some true else if eqlZ name (bs "ET") then Some false else None
                        | _ => None
                        end
              end
  end.

(** The operator as it stands in text_content: shown strings replaced by their decoded text. *)
Fixpoint replace (l : list obj) (ts : list (list Z)) : list obj :=
  match l with
  | [] => []
  | x :: r => if is_string x
              then match ts with t :: ts' => OStr t :: replace r ts' | [] => x :: replace r [] end
              else x :: replace r ts
  end.
Definition echo (i : citem) (ts : list (list Z)) : citem :=
  match i with
  | COp name args =>
      if eqlZ name (bs "Tj") || eqlZ name (bs "'") then COp name (map OStr ts)
      else if eqlZ name (bs "TJ") then match args with OArr l :: r => COp name (OArr (replace l ts) :: r) | _ => i end
      else i
  | _ => i
  end.

(** Operators that set a graphics state parameter (PDF 32000 tables 57, 105): operator, parameter as the viewer
    names it, and whether the parameter is the list of all operands (or the first operand). *)
Definition gs_operators : list (list Z * (list Z * bool)) :=
  [ (bs "cm", (bs "CTM", true)); (bs "w", (bs "LW", false)); (bs "J", (bs "LC", false)); (bs "j", (bs "LJ", false));
    (bs "M", (bs "ML", false)); (bs "d", (bs "D", true)); (bs "ri", (bs "RI", false)); (bs "i", (bs "FL", false));
    (bs "Tf", (bs "Font", true)) ].
Definition gs_operator (name : list Z) : Prop := exists f all, In (name, (f, all)) gs_operators.
