(** Encrypted files from the writer's side: what is done to the objects of a document before they are written (ISO
    32000-1 7.6.2: streams are encrypted, with a key of their own; other objects than streams and strings are not).
    Independent of the code in /repo. *)
From Coq Require Import String.
From Verif Require Import Prelude M_Parser M_Crypto S_Crypto P_Crypto P_Decrypt.
Local Open Scope Z_scope.

Section Seal.
  Variables (md5 : list Z -> list Z) (aes_enc : list Z -> list Z -> list Z).
  (** RC4, versions 1 to 3: the object as it stands in the file *)
  Definition seal (key : list Z) (num gen : Z) (v : obj) : obj :=
    match v with
    | OStream d data => OStream d (rc4_core (object_key md5 key num gen []) data)
    | _ => v
    end.
  Definition seal_all (key : list Z) (objs : list (Z * Z * obj)) : list (Z * Z * obj) :=
    map (fun e => (fst (fst e), snd (fst e), seal key (fst (fst e)) (snd (fst e)) (snd e))) objs.
  (** no string is an object of its own (reading one raises, see C62) *)
  Definition not_string (v : obj) : Prop := match v with OStr _ | OHex _ => False | _ => True end.

  (** All methods: [Sealed h num gen v w]: under the settings [h] the object written as [v] is meant to be read as [w].
      With AES the padding is part of what is read (C63). *)
  Inductive Sealed (h : handler) (num gen : Z) : obj -> obj -> Prop :=
  | Sealed_plain v : not_string v -> (forall d data, v <> OStream d data) -> Sealed h num gen v v
  | Sealed_rc4 key d data : rc4_streams h key d ->
      Sealed h num gen (OStream d (rc4_core (object_key md5 key num gen []) data)) (OStream (dset d (bs "Length") (OInt (zlen data))) data)
  | Sealed_aes128 key d data iv blocks : aes_streams h key d Aes128 -> List.length key = 16%nat ->
      block iv -> Forall block blocks -> List.concat blocks = data ++ padding5 data ->
      Sealed h num gen (OStream d (iv ++ cbc_enc aes_enc (object_key md5 key num gen (bs "sAlT")) iv blocks))
                       (OStream (dset d (bs "Length") (OInt (zlen (data ++ padding5 data)))) (data ++ padding5 data))
  | Sealed_aes256 key d data iv blocks : aes_streams h key d Aes256 -> List.length key = 32%nat ->
      block iv -> Forall block blocks -> List.concat blocks = data ++ padding5 data ->
      Sealed h num gen (OStream d (iv ++ cbc_enc aes_enc key iv blocks))
                       (OStream (dset d (bs "Length") (OInt (zlen (data ++ padding5 data)))) (data ++ padding5 data))
  | Sealed_metadata key stm str d data : h = HCrypt key false stm str -> dget d (bs "Type") = Some (OName (bs "Metadata")) ->
      Sealed h num gen (OStream d data) (OStream d data).
End Seal.
