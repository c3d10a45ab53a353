(** Model of InlineImage (types/content.py 13-73): the properties that read the dictionary, and filtered. *)
From Coq Require Import String.
From Verif Require Import Prelude M_Parser M_Filters M_Document.
Local Open Scope Z_scope.

Section Inline.
  Variable inflate : list Z -> option (list Z).
  Variable ccitt : list Z -> fparams -> res (list Z).
  (** types/content.py 30-68: Filter, Width, Height, ColorSpace, BitsPerComponent, Decode, DecodeParms, Interpolate, ImageMask, each
      self.dictionary.get(long) or self.dictionary.get(short); what [get] answers for no entry, None, is [ONull] here *)
  Definition entry_or (d : dict) (long short : list Z) : obj := if truthy (oget d long) then oget d long else oget d short.
  (** types/content.py 70-73: apply_filter_multi (types/native.py 41-62, here through [filtered], which reads the two entries of
      the dictionary it is given).  The class has no __getattr__: an AttributeError leaves the property. *)
  Definition inline_filtered (d : dict) (data : list Z) : res (list Z) :=
    filtered inflate ccitt [(bs "Filter", entry_or d (bs "Filter") (bs "F")); (bs "DecodeParms", entry_or d (bs "DecodeParms") (bs "DP"))] data.
  (** types/content.py 29-68: the properties by name.  Intent (line 57-59) has no abbreviation. *)
  Definition attr_keys : list (list Z * list Z) :=
    [(bs "Filter", bs "F"); (bs "Width", bs "W"); (bs "Height", bs "H"); (bs "ColorSpace", bs "CS"); (bs "BitsPerComponent", bs "BPC");
     (bs "Decode", bs "D"); (bs "DecodeParms", bs "DP"); (bs "Interpolate", bs "I"); (bs "ImageMask", bs "IM")].
  Fixpoint attr_in (t : list (list Z * list Z)) (d : dict) (name : list Z) : option obj :=
    match t with
    | [] => None
    | (long, short) :: r => if eqlZ name long then Some (entry_or d long short) else attr_in r d name
    end.
  (** None: AttributeError *)
  Definition inline_attr (d : dict) (name : list Z) : option obj :=
    if eqlZ name (bs "Intent") then Some (oget d (bs "Intent")) else attr_in attr_keys d name.
End Inline.
