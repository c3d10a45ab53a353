(** Encryption: pdfreader/securityhandler.py, and its use in document.py 26-41 and
    parsers/document.py 444-449.
    hashlib.md5, Crypto.Hash.SHA256 and the AES block cipher are parameters (functions on byte strings); RC4 and
    the CBC mode are written out.  The Encrypt dictionary is taken with its references already resolved (it is a
    DictBasedObject, C26); R, V, P and Length are integers (a real equal to a supported revision would be accepted too);
    O and U of other types than strings raise TypeError here at once, in the code on their first use. *)
From Coq Require Import String.
From Verif Require Import Prelude M_Parser M_CMap M_Document.
Local Open Scope Z_scope.

(** b[:n] of Python, n possibly negative *)
Definition pre (n : Z) (l : list Z) : list Z := firstn (Z.to_nat (if n <? 0 then zlen l + n else n)) l.
(** struct.pack('<l', p) and struct.pack('<L', n): four bytes, least significant first *)
Definition le4 (n : Z) : list Z := [n mod 256; n / 256 mod 256; n / 65536 mod 256; n / 16777216 mod 256].
Definition pack_l (p : Z) : res (list Z) :=
  if (-2147483648 <=? p) && (p <=? 2147483647) then Ok (le4 p) else Err StructErr.
Definition pack_L (n : Z) : res (list Z) :=
  if (0 <=? n) && (n <=? 4294967295) then Ok (le4 n) else Err StructErr.

(** RC4 (Crypto.Cipher.ARC4).  Environment, not part of /repo. *)
Definition at_ (l : list Z) (i : Z) : Z := nth (Z.to_nat i) l 0.
Definition put (l : list Z) (i v : Z) : list Z := firstn (Z.to_nat i) l ++ v :: skipn (S (Z.to_nat i)) l.
Definition swap (l : list Z) (i j : Z) : list Z := put (put l i (at_ l j)) j (at_ l i).
Definition zseq (n : nat) : list Z := map Z.of_nat (seq 0 n).
Definition ksa (key : list Z) : list Z :=
  fst (fold_left (fun '(s, j) i => let j' := (j + at_ s i + at_ key (i mod zlen key)) mod 256 in (swap s i j', j'))
                 (zseq 256) (zseq 256, 0)).
Fixpoint prga (s : list Z) (i j : Z) (data : list Z) : list Z :=
  match data with
  | [] => []
  | c :: r =>
      let i' := (i + 1) mod 256 in
      let j' := (j + at_ s i') mod 256 in
      let s' := swap s i' j' in
      Z.lxor c (at_ s' ((at_ s' i' + at_ s' j') mod 256)) :: prga s' i' j' r
  end.
Definition rc4_core (key data : list Z) : list Z := prga (ksa key) 0 0 data.

Definition xor_bytes (a b : list Z) : list Z := map (fun '(x, y) => Z.lxor x y) (combine a b).

(** PASSWORD_PADDING (36) *)
Definition PADDING : list Z :=
  [40; 191; 78; 94; 78; 117; 138; 65; 100; 0; 78; 86; 255; 250; 1; 8; 46; 46; 0; 182; 208; 104; 62; 128; 47; 12; 169; 254; 100; 83; 105; 122].

(** init_params (53-65), the fields of the handler *)
Record params := mkPar { q_docid : list Z; q_r : Z; q_p : Z; q_o : list Z; q_u : list Z; q_len : Z; q_meta : bool }.

Section Lib.
  Variables (md5 sha256 : list Z -> list Z).
  (** the key sizes ARC4.new accepts: 5..256 bytes in pycryptodome 3.19, 1..256 in later ones *)
  Variable rc4_size : Z -> bool.
  (** AES: key and block to block *)
  Variable aes_dec : list Z -> list Z -> list Z.

  (** ARC4.new(key).encrypt(data), decrypt is the same *)
  Definition rc4 (key data : list Z) : res (list Z) := if rc4_size (zlen key) then Ok (rc4_core key data) else Err ValueErr.

  (** AES.new(key, mode=MODE_CBC, IV=iv).decrypt(data) of pycryptodome.  Environment, not part of /repo. *)
  Fixpoint cbc_dec (n : nat) (key prev data : list Z) : list Z :=
    match n, data with
    | S n', _ :: _ => xor_bytes (aes_dec key (firstn 16 data)) prev ++ cbc_dec n' key (firstn 16 data) (skipn 16 data)
    | _, _ => []
    end.
  Definition aes_cbc (key iv data : list Z) : res (list Z) :=
    if negb (memZ (zlen key) [16; 24; 32]) then Err ValueErr
    else if negb (zlen iv =? 16) then Err ValueErr
    else if negb (zlen data mod 16 =? 0) then Err ValueErr
    else Ok (cbc_dec (List.length data) key iv data).

  (** for i in l: k = bytes((c ^ i) for c in key); result = ARC4.new(k).encrypt(result)  (92-94, 150-152) *)
  Fixpoint rc4_rounds (key : list Z) (l : list Z) (result : list Z) : res (list Z) :=
    match l with
    | [] => Ok result
    | i :: r => rbind (rc4 (map (fun c => Z.lxor c i) key) result) (rc4_rounds key r)
    end.
  (** range(1, 20) and range(19, -1, -1) *)
  Definition range_1_20 : list Z := map (fun n => Z.of_nat n) (seq 1 19).
  Definition range_19_0 : list Z := rev (map (fun n => Z.of_nat n) (seq 0 20)).

  (** 82-96 compute_u *)
  Definition compute_u (q : params) (key : list Z) : res (list Z) :=
    if q_r q =? 2 then rc4 key PADDING
    else
      let hash := md5 (PADDING ++ q_docid q) in
      rbind (rc4 key hash) (fun result =>
      rbind (rc4_rounds key range_1_20 result) (fun result =>
      Ok (result ++ repeat 0 16))).

  (** 98-115 compute_encryption_key *)
  Fixpoint md5_rounds (k : nat) (n : Z) (result : list Z) : list Z :=
    match k with O => result | S k' => md5_rounds k' n (md5 (pre n result)) end.
  Definition compute_encryption_key (q : params) (password : list Z) : res (list Z) :=
    let password := firstn 32 (password ++ PADDING) in
    rbind (pack_l (q_p q)) (fun p4 =>
    let result := md5 (password ++ q_o q ++ p4 ++ q_docid q ++
                       (if (q_r q >=? 4) && negb (q_meta q) then [255; 255; 255; 255] else [])) in
    if q_r q >=? 3 then let n := q_len q / 8 in Ok (pre n (md5_rounds 50 n result))
    else Ok (pre 5 result)).

  (** 128-133 verify_encryption_key *)
  Definition verify_encryption_key (q : params) (key : list Z) : res bool :=
    rbind (compute_u q key) (fun u =>
    if q_r q =? 2 then Ok (eqlZ u (q_u q)) else Ok (eqlZ (firstn 16 u) (firstn 16 (q_u q)))).
  (** 123-126 authenticate_user_password *)
  Definition authenticate_user_password (q : params) (password : list Z) : res (option (list Z)) :=
    rbind (compute_encryption_key q password) (fun key =>
    rbind (verify_encryption_key q key) (fun b => Ok (if b : bool then Some key else None))).
  (** 135-153 authenticate_owner_password *)
  Fixpoint md5_again (k : nat) (digest : list Z) : list Z :=
    match k with O => digest | S k' => md5_again k' (md5 digest) end.
  Definition authenticate_owner_password (q : params) (password : list Z) : res (option (list Z)) :=
    let password := firstn 32 (password ++ PADDING) in
    let hash := md5 password in
    let hash := if q_r q >=? 3 then md5_again 50 hash else hash in
    let n := if q_r q >=? 3 then q_len q / 8 else 5 in
    let key := pre n hash in
    rbind (if q_r q =? 2 then rc4 key (q_o q) else rc4_rounds key range_19_0 (q_o q)) (fun user_password =>
    authenticate_user_password q user_password).
  (** 117-121 authenticate *)
  Definition authenticate (q : params) (password : list Z) : res (option (list Z)) :=
    rbind (authenticate_user_password q password) (fun key =>
    match key with None => authenticate_owner_password q password | Some k => Ok (Some k) end).

  (** 296-311 authenticate of version 5; [oe], [ue]: the OE and UE entries *)
  Definition authenticate5 (q : params) (oe ue password : list Z) : res (option (list Z)) :=
    let password := firstn 127 password in
    let o_hash := firstn 32 (q_o q) in
    let o_validation_salt := firstn 8 (skipn 32 (q_o q)) in
    let o_key_salt := skipn 40 (q_o q) in
    let u_hash := firstn 32 (q_u q) in
    let u_validation_salt := firstn 8 (skipn 32 (q_u q)) in
    let u_key_salt := skipn 40 (q_u q) in
    if eqlZ (sha256 (password ++ o_validation_salt ++ q_u q)) o_hash then
      rbind (aes_cbc (sha256 (password ++ o_key_salt ++ q_u q)) (repeat 0 16) oe) (fun k => Ok (Some k))
    else if eqlZ (sha256 (password ++ u_validation_salt)) u_hash then
      rbind (aes_cbc (sha256 (password ++ u_key_salt)) (repeat 0 16) ue) (fun k => Ok (Some k))
    else Ok None.

  (** 176-181, 256-260, 323-324, 253-254: the decryption methods *)
  Definition decrypt_rc4 (hkey : list Z) (num gen : Z) (data : list Z) : res (list Z) :=
    rbind (pack_L num) (fun n4 => rbind (pack_L gen) (fun g4 =>
    let key := hkey ++ firstn 3 n4 ++ firstn 2 g4 in
    let key := firstn (Nat.min (List.length key) 16) (md5 key) in
    rc4 key data)).
  Definition decrypt_aes128 (hkey : list Z) (num gen : Z) (data : list Z) : res (list Z) :=
    rbind (pack_L num) (fun n4 => rbind (pack_L gen) (fun g4 =>
    let key := hkey ++ firstn 3 n4 ++ firstn 2 g4 ++ bs "sAlT" in
    let key := firstn (Nat.min (List.length key) 16) (md5 key) in
    aes_cbc key (firstn 16 data) (skipn 16 data))).
  Definition decrypt_aes256 (hkey : list Z) (data : list Z) : res (list Z) := aes_cbc hkey (firstn 16 data) (skipn 16 data).

  Inductive method := Rc4 | Aes128 | Aes256 | Identity.
  Definition run_method (m : method) (hkey : list Z) (num gen : Z) (data : list Z) : res (list Z) :=
    match m with
    | Rc4 => decrypt_rc4 hkey num gen data
    | Aes128 => decrypt_aes128 hkey num gen data
    | Aes256 => decrypt_aes256 hkey data
    | Identity => Ok data
    end.

  (** The handlers: StandardSecurityHandler (21), StandardSecurityHandlerV4 (184), StandardSecurityHandlerV5 (263) *)
  Inductive handler :=
  | HBase (key : list Z)
  | HCrypt (key : list Z) (encrypt_metadata : bool) (stmf strf : method).

  (** obj.val.Type != 'Metadata' (237) *)
  Definition is_metadata (d : dict) : bool := match dget d (bs "Type") with Some (OName n) => eqlZ n (bs "Metadata") | _ => false end.

  (** parsers/document.py 444-449 with 155-174 and 228-251.  For strings decrypt returns a String where an
      IndirectObject is expected: the caller's next step, on_parsed_indirect_object, takes its num attribute and raises
      AttributeError.  For hexadecimal strings the bound method to_bytes is passed as data: TypeError (struct.error
      first, for object numbers over 32 bits, when a key is made). *)
  Definition packs (m : method) (num gen : Z) : res unit :=
    match m with
    | Rc4 | Aes128 => rbind (pack_L num) (fun _ => rbind (pack_L gen) (fun _ => Ok tt))
    | _ => Ok tt
    end.
  Definition decrypt_with (stm str : method) (skip_meta : bool) (key : list Z) (num gen : Z) (v : obj) : res obj :=
    match v with
    | OStream d data =>
        if skip_meta && is_metadata d then Ok v
        else rbind (run_method stm key num gen data) (fun s => Ok (OStream (dset d (bs "Length") (OInt (zlen s))) s))
    | OStr s => rbind (run_method str key num gen s) (fun _ => Err AttributeErr)
    | OHex _ => rbind (packs str num gen) (fun _ => Err TypeErr)
    | _ => Ok v
    end.
  Definition decrypt_object (h : option handler) (num gen : Z) (v : obj) : res obj :=
    match h with
    | None => Ok v
    | Some (HBase key) => decrypt_with Rc4 Rc4 false key num gen v
    | Some (HCrypt key meta stm str) => decrypt_with stm str (negb meta) key num gen v
    end.

  (** bytes(bytearray.fromhex(x)) if isinstance(x, str) (58-62) *)
  Definition entry_bytes (v : obj) : res (list Z) :=
    match v with OStr s => Ok s | OHex h | OName h => fromhex h | _ => Err TypeErr end.
  Definition need (d : dict) (k : list Z) : res obj := match dget d k with Some v => Ok v | None => Err KeyErr end.
  Definition need_int (v : obj) (e : exn) : res Z := match v with OInt z => Ok z | _ => Err e end.

  (** 40: docid[0], given as text *)
  Definition docid_bytes (id : obj) : res (list Z) :=
    match id with
    | OArr (x :: _) => match x with OHex h | OName h => fromhex h | _ => Err TypeErr end
    | OArr [] => Err IndexErr
    | OHex (c :: _) | OName (c :: _) => fromhex [c]
    | OHex [] | OName [] => Err IndexErr
    | ODict _ | OStream _ _ => Err KeyErr
    | _ => Err TypeErr
    end.
  (** 53-65 *)
  Definition init_params (docid : list Z) (e : dict) : res params :=
    rbind (need e (bs "R")) (fun r => rbind (need e (bs "P")) (fun p =>
    rbind (need e (bs "O")) (fun o => rbind (entry_bytes o) (fun o =>
    rbind (need e (bs "U")) (fun u => rbind (entry_bytes u) (fun u =>
    rbind (need_int r ValueErr) (fun r => rbind (need_int p StructErr) (fun p =>
    rbind (match dget e (bs "Length") with None => Ok 40 | Some l => need_int l TypeErr end) (fun l =>
    Ok (mkPar docid r p o u l true)))))))))).
  (** 67-71 *)
  Definition init_key (k : res (option (list Z))) : res (list Z) :=
    rbind k (fun k => match k with None => Err ValueErr | Some k => Ok k end).
  (** 39-51 *)
  Definition make_base (docid : list Z) (e : dict) (password : list Z) : res handler :=
    rbind (init_params docid e) (fun q =>
    if memZ (q_r q) [2; 3] then rbind (init_key (authenticate q password)) (fun k => Ok (HBase k)) else Err ValueErr).
  (** 220-226, 292-294 *)
  Definition get_cfm (v5 : bool) (n : obj) : option method :=
    match n with
    | OName s => if v5 then if eqlZ s (bs "AESV3") then Some Aes256 else None
                 else if eqlZ s (bs "V2") then Some Rc4 else if eqlZ s (bs "AESV2") then Some Aes128 else None
    | _ => None
    end.
  (** 209-213: self.cfm, newest entry last *)
  Fixpoint cfms (v5 : bool) (cf : dict) (acc : list (list Z * method)) : res (list (list Z * method)) :=
    match cf with
    | [] => Ok acc
    | (k, v) :: r =>
        match v with
        | ODict d => rbind (need d (bs "CFM")) (fun n =>
                     match get_cfm v5 n with None => Err ValueErr | Some f => cfms v5 r (acc ++ [(k, f)]) end)
        | _ => Err TypeErr
        end
    end.
  Fixpoint cfm_get (l : list (list Z * method)) (k : list Z) : option method :=
    match l with [] => None | (k', m) :: r => match cfm_get r k with Some x => Some x | None => if eqlZ k k' then Some m else None end end.
  Definition cfm_of (l : list (list Z * method)) (k : obj) : res method :=
    match k with
    | OName s => match cfm_get (l ++ [(bs "Identity", Identity)]) s with Some m => Ok m | None => Err ValueErr end
    | _ => Err ValueErr
    end.
  Definition otruthy (v : obj) : bool :=
    match v with
    | ONull | OBool false | OInt 0 | OStr [] | OHex [] | OName [] | OArr [] | ODict [] => false
    | OReal _ c _ => negb (c =? 0)
    | _ => true
    end.
  (** 201-218, 280-290 *)
  Definition make_crypt (v5 : bool) (docid : list Z) (e : dict) (password : list Z) : res handler :=
    rbind (init_params docid e) (fun q =>
    rbind (need e (bs "StmF")) (fun stmf => rbind (need e (bs "StrF")) (fun strf =>
    let meta := match dget e (bs "EncryptMetadata") with None => true | Some v => otruthy v end in
    rbind (match dget e (bs "CF") with Some (ODict cf) => cfms v5 cf [] | _ => Err AttributeErr end) (fun l =>
    rbind (cfm_of l strf) (fun str => rbind (cfm_of l stmf) (fun stm =>
    let q := mkPar (q_docid q) (q_r q) (q_p q) (q_o q) (q_u q) (if v5 then 256 else 128) meta in
    if v5 then
      rbind (need e (bs "OE")) (fun oe => rbind (need e (bs "UE")) (fun ue =>
      if q_r q =? 5 then
        let bytes v := match v with OStr s => s | _ => [] end in   (* other types: TypeError in AES.decrypt if reached *)
        rbind (init_key (authenticate5 q (bytes oe) (bytes ue) password)) (fun k => Ok (HCrypt k meta stm str))
      else Err ValueErr))
    else if q_r q =? 4 then rbind (init_key (authenticate q password)) (fun k => Ok (HCrypt k meta stm str))
    else Err ValueErr)))))).

  (** 14-18 security_handler_factory *)
  Definition security_handler_factory (id : obj) (e : dict) (password : list Z) : res handler :=
    rbind (match dget e (bs "V") with None => Err ValueErr | Some v => need_int v ValueErr end) (fun v =>
    if negb (memZ v [1; 2; 3; 4; 5]) then Err ValueErr
    else rbind (docid_bytes id) (fun docid =>
    if v =? 4 then make_crypt false docid e password
    else if v =? 5 then make_crypt true docid e password
    else make_base docid e password)).

  (** document.py 36-41, 52-63.  [enc]: the trailer's Encrypt entry; [deref]: what the lookups of
      locate_encrypt_by_ref find for a reference. [id]: PDFTrailer.id.
      A dictionary written directly in the trailer is a plain dict: its attribute Filter does not exist. *)
  Definition document_handler (enc : obj) (deref : Z -> Z -> obj) (id : obj) (password : list Z) : res (option handler) :=
    if negb (otruthy enc) then Ok None
    else match enc with
    | ORef n g =>
        match deref n g with
        | ODict e =>
            match e with
            | [] => Ok None
            | _ =>
                match dget e (bs "Filter") with
                | Some (OName f) => if eqlZ f (bs "Standard") then rbind (security_handler_factory id e password) (fun h => Ok (Some h)) else Err ValueErr
                | _ => Err ValueErr
                end
            end
        | ONull => Ok None
        | _ => Err AttributeErr
        end
    | _ => Err AttributeErr
    end.
End Lib.

(** types/filestructure.py 43-46 PDFTrailer.id *)
Definition trailer_id (d : dict) : obj :=
  let g k := match dget d k with Some v => v | None => ONull end in
  if otruthy (g (bs "ID")) then g (bs "ID") else g (bs "Id").

(** document.py 36-41, 60: the handler for a document with trailer [t]; filestructure.py 33-36 encrypt *)
Definition trailer_handler (md5 sha256 : list Z -> list Z) (rc4_size : Z -> bool) (aes_dec : list Z -> list Z -> list Z)
  (deref : Z -> Z -> obj) (t : dict) (password : list Z) : res (option handler) :=
  document_handler md5 sha256 rc4_size aes_dec (match dget t (bs "Encrypt") with Some v => v | None => ONull end) deref (trailer_id t) password.

(** 73-80: is_printable, is_modifiable, is_extractable *)
Definition is_printable (p : Z) : bool := negb (Z.land p 4 =? 0).
Definition is_modifiable (p : Z) : bool := negb (Z.land p 8 =? 0).
Definition is_extractable (p : Z) : bool := negb (Z.land p 16 =? 0).
