(** Model of PDFDocument.__init__ for documents with an Encrypt dictionary: pdfreader/document.py 26-43, 51-62, 115-126
    (constructor, encrypt, locate_encrypt_by_ref) and pdfreader/parsers/document.py 427-439, 551-580, 592-597
    (set_security_handler, locate_backwards_from_trailer, skip_backwards_until). *)
From Coq Require Import String.
From Verif Require Import Prelude M_Prog M_Parser M_Text M_Filters M_Document M_Crypto.
Local Open Scope Z_scope.
Local Open Scope prog_scope.

(** parsers/document.py 592-597 skip_backwards_until: one step back, then a window that slides towards the start of the
    file; the cursor ends at the first byte of [s].  prev() + .. is a TypeError before the start of the file. *)
Fixpoint back_loop {U} (n : nat) (s tok : list Z) : prog U unit :=
  match n with
  | O => throw OutOfFuel
  | S n' => if eqlZ tok s then ret tt else x <- prev_byte ;; back_loop n' s (x :: removelast tok)
  end.
Definition skip_backwards {U} (n : nat) (s : list Z) : prog U unit :=
  prev ;;; tok <- read_back (List.length s) [] ;; back_loop n s tok ;;; next ;;; ret tt.

(** str() of a non-negative integer (those of references are) *)
Fixpoint str_digits (n : nat) (z : Z) (acc : list Z) : list Z :=
  match n with
  | O => acc
  | S n' => if z <? 10 then (48 + z) :: acc else str_digits n' (z / 10) ((48 + z mod 10) :: acc)
  end.
Definition py_str (z : Z) : list Z := str_digits (S (Z.to_nat (Z.log2 z))) z [].
(** 558: "{} {} obj".format(num, gen).encode() *)
Definition obj_header (num gen : Z) : list Z := py_str num ++ [32] ++ py_str gen ++ bs " obj".

(** 563-573: the loop inside try; read() of fewer bytes than asked for is a TypeError, so 570-571 never happen *)
Fixpoint headers_back {U} (m n : nat) (expected hdr : list Z) : prog U unit :=
  match n with
  | O => throw OutOfFuel
  | S n' =>
      if eqlZ hdr expected then ret tt
      else
        skip_backwards m (bs "endobj") ;;;
        skip_backwards m (bs "endobj") ;;;
        read 6 ;;;
        sp m ;;;
        h <- read (List.length expected) ;;
        headers_back m n' expected h
  end.
Definition is_type_err (e : exn) : bool := exn_eqb e TypeErr.

Section Secure.
  Variable inflate : list Z -> option (list Z).
  Variable ccitt : list Z -> fparams -> res (list Z).
  Variables (D m : nat).

  (** 551-580 locate_backwards_from_trailer; the state saved at 554 is restored only when the object was found *)
  Definition locate_backwards (iobj : prog rst (Z * Z * obj)) (num gen : Z) : prog rst (option obj) :=
    h <- save ;;
    off <- xref_offset m ;;
    reset off ;;;
    let expected := obj_header num gen in
    hdr <- read (List.length expected) ;;
    found <- catch (headers_back m m expected hdr ;;; ret true) is_type_err (fun _ => ret false) ;;
    if found : bool then
      read_back (List.length expected) [] ;;;
      '(n, g, v) <- iobj ;;
      do_register inflate ccitt D n g v ;;;
      restore h ;;;
      ret (Some v)
    else ret None.

  (** document.py 115-126 locate_encrypt_by_ref: the registry, the tables, backwards from the trailer, any lookup.
      Python's `or` passes falsy values over. *)
  Definition locate_encrypt (decrypt : Z -> Z -> obj -> res obj) (k : nat) (num gen : Z) : prog rst obj :=
    let locate := locate_object inflate ccitt decrypt D m k in
    let iobj := reg_indirect inflate ccitt decrypt D m (length_hook locate) in
    v1 <- reg_get num gen ;;
    if truthy v1 then ret v1
    else
      u <- getu ;;
      match r_xrefs u with
      | None => throw AttributeErr
      | Some xs =>
          v2 <- by_xref locate iobj xs num gen ;;
          if truthy v2 then ret v2
          else
            v3 <- locate_backwards iobj num gen ;;
            match v3 with
            | Some v => if truthy v then ret v else locate num gen
            | None => locate num gen
            end
      end.

  Variable md5 sha256 : list Z -> list Z.
  Variable rc4_size : Z -> bool.
  Variable aes_dec : list Z -> list Z -> list Z.

  (** document.py 26-43: header and trailer are read without a handler, then the Encrypt dictionary; its handler decrypts
      everything parsed from then on, the Root object first.  Simplified: the values are not wrapped (obj_factory). *)
  Definition open_pdf (k : nat) (password : list Z) : prog rst (list Z * dict * option handler * obj) :=
    '(ver, off, t) <- open_document inflate ccitt (fun _ _ v => Ok v) D m k ;;
    e <- match dget t (bs "Encrypt") with
         | Some (ORef n g) => locate_encrypt (fun _ _ v => Ok v) k n g
         | _ => ret ONull
         end ;;
    match trailer_handler md5 sha256 rc4_size aes_dec (fun _ _ => e) t password with
    | Err x => throw x
    | Ok h =>
        root <- match dget t (bs "Root") with
                | Some (ORef n g) => locate_object inflate ccitt (decrypt_object md5 rc4_size aes_dec h) D m k n g
                | Some _ => throw AttributeErr
                | None => throw KeyErr
                end ;;
        ret (ver, t, h, root)
    end.
End Secure.
