(** PDF encryption as ISO 32000-1 7.6 (and Adobe's extension level 3 for version 5) describe it from the writer's
    side.  Independent of the code in /repo.  The hash functions and block cipher are parameters. *)
From Coq Require Import String.
From Verif Require Import Prelude M_Parser M_CMap M_Crypto.
Local Open Scope Z_scope.

(** [Nat.iter]-like repetition *)
Fixpoint times {A} (k : nat) (f : A -> A) (x : A) : A := match k with O => x | S k' => times k' f (f x) end.

(** ISO 32000-1 7.6.3.3: the 32 bytes 28 BF 4E 5E 4E 75 8A 41 64 00 4E 56 FF FA 01 08 2E 2E 00 B6 D0 68 3E 80 2F 0C A9 FE 64 53 69 7A *)
Definition pad_string : list Z :=
  match fromhex (bs "28BF4E5E4E758A4164004E56FFFA01082E2E00B6D0683E802F0CA9FE6453697A") with Ok l => l | Err _ => [] end.
(** a password cut or padded to 32 bytes *)
Definition padded (pw : list Z) : list Z := firstn 32 (pw ++ pad_string).
Definition low3 (n : Z) : list Z := [n mod 256; n / 256 mod 256; n / 65536 mod 256].
Definition low2 (n : Z) : list Z := [n mod 256; n / 256 mod 256].
Definition low4 (n : Z) : list Z := low3 n ++ [n / 16777216 mod 256].

(** RC4 repeatedly, with the key xored with each number of [l] in turn *)
Fixpoint chain (key : list Z) (l : list Z) (x : list Z) : list Z :=
  match l with [] => x | i :: r => chain key r (rc4_core (map (fun c => Z.lxor c i) key) x) end.
Definition upto19 : list Z := [0;1;2;3;4;5;6;7;8;9;10;11;12;13;14;15;16;17;18;19].

Section Spec.
  Variables (md5 sha256 : list Z -> list Z).
  Variables (aes_enc : list Z -> list Z -> list Z).

  (** Algorithm 1: the key for an object *)
  Definition object_key (filekey : list Z) (num gen : Z) (salt : list Z) : list Z :=
    firstn (Nat.min (List.length filekey + 5) 16) (md5 (filekey ++ low3 num ++ low2 gen ++ salt)).

  (** key length in bytes *)
  Definition klen (r len : Z) : nat := if r =? 2 then 5%nat else Z.to_nat (len / 8).
  (** Algorithm 2: the file key from a user password (given padded) *)
  Definition file_key (r len P : Z) (O id : list Z) (meta : bool) (pw : list Z) : list Z :=
    let h := md5 (padded pw ++ O ++ low4 P ++ id ++ (if (4 <=? r) && negb meta then [255; 255; 255; 255] else [])) in
    firstn (klen r len) (if r =? 2 then h else times 50 (fun x => md5 (firstn (klen r len) x)) h).
  (** Algorithm 3: the key made from the owner password and the O entry *)
  Definition owner_key (r len : Z) (opw : list Z) : list Z :=
    let h := md5 (padded opw) in firstn (klen r len) (if r =? 2 then h else times 50 md5 h).
  Definition owner_entry (r len : Z) (opw upw : list Z) : list Z :=
    chain (owner_key r len opw) (if r =? 2 then [0] else upto19) (padded upw).
  (** Algorithms 4 and 5: the U entry of a file key; from revision 3 on, 16 bytes followed by arbitrary ones *)
  Definition user_entry (r : Z) (id key U : list Z) : Prop :=
    if r =? 2 then U = rc4_core key pad_string
    else firstn 16 U = chain key upto19 (md5 (pad_string ++ id)).

  (** CBC mode *)
  Fixpoint cbc_enc (key prev : list Z) (blocks : list (list Z)) : list Z :=
    match blocks with
    | [] => []
    | b :: r => let c := aes_enc key (xor_bytes b prev) in c ++ cbc_enc key c r
    end.
  (** PKCS#5: 1 to 16 bytes saying how many they are, up to a multiple of 16 *)
  Definition padding5 (data : list Z) : list Z := let n := 16 - zlen data mod 16 in repeat n (Z.to_nat n).
End Spec.

(** The entries of an Encrypt dictionary.  Strings may be literal or hexadecimal. *)
Definition has_bytes (e : dict) (k : list Z) (b : list Z) : Prop :=
  dget e k = Some (OStr b) \/ exists h, dget e k = Some (OHex h) /\ fromhex h = Ok b.
Definition standard (e : dict) (V R P : Z) (O U : list Z) : Prop :=
  dget e (bs "Filter") = Some (OName (bs "Standard")) /\ dget e (bs "V") = Some (OInt V) /\ dget e (bs "R") = Some (OInt R) /\
  dget e (bs "P") = Some (OInt P) /\ has_bytes e (bs "O") O /\ has_bytes e (bs "U") U.
Definition length_entry (e : dict) (len : Z) : Prop :=
  dget e (bs "Length") = Some (OInt len) \/ (dget e (bs "Length") = None /\ len = 40).
(** the trailer's ID array *)
Definition id_array (idv : obj) (id : list Z) : Prop := exists h r, idv = OArr (OHex h :: r) /\ fromhex h = Ok id.
