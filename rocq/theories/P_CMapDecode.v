(** C54: decoding text with a CMap. *)
From Coq Require Import String.
From Verif Require Import Prelude M_Parser M_Objects M_Codec P_Codec M_CMap S_CMap L_CMap P_CMap.
Local Open Scope Z_scope.

(** The two hexadecimal digits of a byte. *)
Definition hex2 (b : Z) : list Z := [hexdig (b / 16); hexdig (b mod 16)].
(** Specification of the decoding of a byte string: at each point a mapped one-byte code is taken first, then a
    mapped two-byte code; a byte that starts neither is decoded alone by the font's encoding, but is dropped
    when it is zero and not the last byte. *)
Inductive Greedy (bf enc : list Z -> res (list Z)) : list Z -> list Z -> Prop :=
| G_nil : Greedy bf enc [] []
| G_one x r t u : bf (hex2 x) = Ok t -> Greedy bf enc r u -> Greedy bf enc (x :: r) (t ++ u)
| G_two x y r t u : bf (hex2 x) = Err KeyErr -> bf (hex2 x ++ hex2 y) = Ok t -> Greedy bf enc r u -> Greedy bf enc (x :: y :: r) (t ++ u)
| G_single x y r t u : bf (hex2 x) = Err KeyErr -> bf (hex2 x ++ hex2 y) = Err KeyErr -> x <> 0 -> enc [x] = Ok t ->
    Greedy bf enc (y :: r) u -> Greedy bf enc (x :: y :: r) (t ++ u)
| G_zero y r u : bf (hex2 0) = Err KeyErr -> bf (hex2 0 ++ hex2 y) = Err KeyErr -> Greedy bf enc (y :: r) u -> Greedy bf enc (0 :: y :: r) u
| G_last x t : bf (hex2 x) = Err KeyErr -> enc [x] = Ok t -> Greedy bf enc [x] t.

(** Mappings answer with a text or KeyError; the encoding decodes every byte. *)
Definition table_like (bf : list Z -> res (list Z)) : Prop := forall c, UpperCode c -> (exists t, bf c = Ok t) \/ bf c = Err KeyErr.
Definition decodes_bytes (enc : list Z -> res (list Z)) : Prop := forall x, 0 <= x < 256 -> exists t, enc [x] = Ok t.

Lemma hex2_from x : 0 <= x < 256 -> fromhex (hex2 x) = Ok [x].
Proof.
  intros H. unfold hex2. cbn [fromhex]. assert (0 <= x / 16 < 16) by (split; [apply Z.div_pos; lia|apply Z.div_lt_upper_bound; lia]). pose proof (Z.mod_pos_bound x 16).
  rewrite !hexval_hexdig by lia. cbn [rbind]. f_equal. f_equal. pose proof (Z.div_mod x 16). lia.
Qed.
Lemma hex2_up x : 0 <= x < 256 -> UpperCode (hex2 x).
Proof.
  intros H. assert (0 <= x / 16 < 16) by (split; [apply Z.div_pos; lia|apply Z.div_lt_upper_bound; lia]). pose proof (Z.mod_pos_bound x 16).
  split; [discriminate|]. constructor; [apply dval_dig; lia|]. constructor; [apply dval_dig; lia|constructor].
Qed.
Lemma hex2_00 x : 0 <= x < 256 -> eqlZ (hex2 x) (bs "00") = (x =? 0).
Proof.
  intros H. destruct (Z.eqb_spec x 0) as [->|Hx]; [reflexivity|]. destruct (eqlZ (hex2 x) (bs "00")) eqn:E; [|reflexivity]. apply eqlZ_true in E. exfalso.
  assert (fromhex (hex2 x) = fromhex (bs "00")) as E2 by now rewrite E. rewrite hex2_from in E2 by exact H. cbn in E2. inversion E2. lia.
Qed.
Lemma pairs_bytes s : pairs_of (bytes_hex s) = map hex2 s.
Proof. induction s as [|x s IH]; [reflexivity|]. unfold bytes_hex in *. cbn [flat_map app pairs_of map]. now rewrite IH. Qed.

Section G.
  Variables bf enc : list Z -> res (list Z).
  Lemma greedy_loop s t : Greedy bf enc s t -> Forall (fun x => 0 <= x < 256) s -> forall n acc, (2 * List.length s <= n)%nat ->
    cm_loop bf enc n (map hex2 s) [] acc = Ok (acc ++ t).
  Proof.
    induction 1 as [|x r t u H1 _ IH|x y r t u H1 H2 _ IH|x y r t u H1 H2 Hx He _ IH|y r u H1 H2 _ IH|x t H1 He]; intros HF n acc Hn.
    - destruct n; cbn [map cm_loop]; now rewrite app_nil_r.
    - inversion HF; subst. cbn [List.length] in Hn. destruct n as [|n]; [lia|]. cbn [map cm_loop]. cbv zeta. cbn [app]. rewrite H1. rewrite IH by (auto; lia). now rewrite app_assoc.
    - inversion HF as [|? ? Hx HF1]; subst. inversion HF1 as [|? ? Hy HF2]; subst. cbn [List.length] in Hn. destruct n as [|[|n]]; [lia|lia|].
      cbn [map cm_loop]. cbv zeta. cbn [app]. change (hexdig (x / 16) :: [hexdig (x mod 16)]) with (hex2 x). rewrite H1. change (zlen (hex2 x) <? 4) with true. cbv iota.
      rewrite H2. rewrite IH by (auto; lia). now rewrite app_assoc.
    - inversion HF as [|? ? Hx0 HF1]; subst. inversion HF1 as [|? ? Hy HF2]; subst. cbn [List.length] in Hn. destruct n as [|[|n]]; [lia|lia|].
      cbn [map cm_loop]. cbv zeta. cbn [app]. change (hexdig (x / 16) :: [hexdig (x mod 16)]) with (hex2 x). rewrite H1. change (zlen (hex2 x) <? 4) with true. cbv iota.
      rewrite H2. change (zlen (hex2 x ++ hex2 y) <? 4) with false. cbv iota. change (firstn 2 (hex2 x ++ hex2 y)) with (hex2 x). change (skipn 2 (hex2 x ++ hex2 y)) with (hex2 y).
      rewrite hex2_00 by exact Hx0. assert (x =? 0 = false) as -> by lia. unfold enc_hex. rewrite hex2_from by exact Hx0. cbn [rbind]. rewrite He. cbn [rbind].
      change (hex2 y :: map hex2 r) with (map hex2 (y :: r)). rewrite IH by (auto; cbn [List.length]; lia). now rewrite app_assoc.
    - inversion HF as [|? ? Hx0 HF1]; subst. inversion HF1 as [|? ? Hy HF2]; subst. cbn [List.length] in Hn. destruct n as [|[|n]]; [lia|lia|].
      cbn [map cm_loop]. cbv zeta. cbn [app]. change (hexdig (0 / 16) :: [hexdig (0 mod 16)]) with (hex2 0). rewrite H1. change (zlen (hex2 0) <? 4) with true. cbv iota.
      rewrite H2. change (zlen (hex2 0 ++ hex2 y) <? 4) with false. cbv iota. change (firstn 2 (hex2 0 ++ hex2 y)) with (hex2 0). change (skipn 2 (hex2 0 ++ hex2 y)) with (hex2 y).
      rewrite hex2_00 by exact Hx0. cbn [Z.eqb]. change (hex2 y :: map hex2 r) with (map hex2 (y :: r)). rewrite IH by (auto; cbn [List.length]; lia). reflexivity.
    - inversion HF as [|? ? Hx _]; subst. cbn [List.length] in Hn. destruct n as [|[|n]]; [lia|lia|].
      cbn [map cm_loop]. cbv zeta. cbn [app]. change (hexdig (x / 16) :: [hexdig (x mod 16)]) with (hex2 x). rewrite H1. change (zlen (hex2 x) <? 4) with true. cbv iota.
      change (match hex2 x with [] => Ok acc | _ :: _ => rbind (enc_hex enc (hex2 x)) (fun t0 => Ok (acc ++ t0)) end) with (rbind (enc_hex enc (hex2 x)) (fun t0 => Ok (acc ++ t0))).
      unfold enc_hex. rewrite hex2_from by exact Hx. cbn [rbind]. rewrite He. reflexivity.
  Qed.
  Lemma greedy_total : table_like bf -> decodes_bytes enc -> forall s, Forall (fun x => 0 <= x < 256) s -> exists t, Greedy bf enc s t.
  Proof.
    intros HT HE. assert (forall n s, (List.length s < n)%nat -> Forall (fun x => 0 <= x < 256) s -> exists t, Greedy bf enc s t) as H; [|intros s; apply (H (S (List.length s))); lia].
    induction n as [|n IH]; intros s Hn HF; [lia|]. destruct s as [|x [|y r]].
    - exists []. constructor.
    - inversion HF as [|? ? Hx _]; subst. destruct (HT (hex2 x) (hex2_up x Hx)) as [[t E]|E].
      + exists (t ++ []). apply G_one; [exact E|constructor].
      + destruct (HE x Hx) as [t Et]. exists t. now apply G_last.
    - inversion HF as [|? ? Hx HF1]; subst. inversion HF1 as [|? ? Hy HF2]; subst. cbn [List.length] in Hn.
      destruct (IH (y :: r)) as [u Hu]; [cbn [List.length]; lia|exact HF1|].
      destruct (HT (hex2 x) (hex2_up x Hx)) as [[t E]|E]; [exists (t ++ u); now apply G_one|].
      assert (UpperCode (hex2 x ++ hex2 y)) as Hxy. { split; [discriminate|]. apply Forall_app. split; [apply (hex2_up x Hx)|apply (hex2_up y Hy)]. }
      destruct (HT _ Hxy) as [[t E2]|E2].
      + destruct (IH r) as [u2 Hu2]; [lia|exact HF2|]. exists (t ++ u2). now apply G_two.
      + destruct (Z.eq_dec x 0) as [->|Hx0]; [exists u; now apply G_zero|]. destruct (HE x Hx) as [t Et]. exists (t ++ u). now apply G_single.
  Qed.
End G.

(** *** Every byte string decodes, and to exactly the text of the specification. *)
Theorem C54_decode_string : forall bf enc s, table_like bf -> decodes_bytes enc -> Forall (fun x => 0 <= x < 256) s ->
  exists t, cm_decode_string bf enc s = Ok t /\ Greedy bf enc s t.
Proof.
  intros bf enc s HT HE HF. destruct (greedy_total bf enc HT HE s HF) as [t Ht]. exists t. split; [|exact Ht].
  unfold cm_decode_string, cm_decode_hex. rewrite pairs_bytes. rewrite (greedy_loop bf enc s t Ht HF); [reflexivity|].
  unfold bytes_hex. assert (forall s, List.length (flat_map (fun b => [hexdig (b / 16); hexdig (b mod 16)]) s) = (2 * List.length s)%nat) as HL.
  { clear. induction s as [|x s IH]; [reflexivity|]. cbn [flat_map app List.length]. rewrite IH. lia. }
  rewrite HL. lia.
Qed.
(** Mapping tables are such tables. *)
Theorem C54_tables : forall es ms, Forall entry_ok es -> Forall2 built es ms -> table_like (lookup ms).
Proof.
  intros es ms Ho H2 c Hc. destruct (C51_lookup es ms c Ho H2 Hc) as [(? & ? & ? & t & _ & _ & _ & _ & E)|[_ E]]; eauto.
Qed.
(** latin-1 and the built-in encodings decode every byte. *)
Theorem C54_encodings : forall python pd id,
  decodes_bytes (cm_enc python pd id None) /\
  (forall n, python n = false -> decodes_bytes (cm_enc python pd id (Some (EName n)))) /\
  (forall base, decodes_bytes (cm_enc python pd id (Some (EDict base [])))).
Proof.
  intros python pd id. repeat split.
  - intros x _. now exists [x].
  - intros n H x _. unfold cm_enc. rewrite C70_named_encoding_is_winansi by exact H.
    pose proof (C56_bytewise (fun _ => true) winansi [x] [] (names_table_only _ _ _ _) (L_none _) eq_refl) as H56. unfold decode in H56.
    destruct (decode_loop winansi [x] [] []) as [[t|e] c]; cbn [fst] in *; [eauto|discriminate].
  - intros base x _. unfold cm_enc. rewrite (C70_dictionary_base python pd id base [x] [] (fun _ => true)) by (auto using L_none). eauto.
Qed.

(** *** When all codes are mapped, the texts are concatenated. *)
Inductive Mapped (bf : list Z -> res (list Z)) : list Z -> list Z -> Prop :=
| M_nil : Mapped bf [] []
| M_one x r t u : bf (hex2 x) = Ok t -> Mapped bf r u -> Mapped bf (x :: r) (t ++ u)
| M_two x y r t u : bf (hex2 x) = Err KeyErr -> bf (hex2 x ++ hex2 y) = Ok t -> Mapped bf r u -> Mapped bf (x :: y :: r) (t ++ u).
Theorem C54_mapped : forall bf enc s t, Mapped bf s t -> Forall (fun x => 0 <= x < 256) s -> cm_decode_string bf enc s = Ok t.
Proof.
  intros bf enc s t H HF. assert (Greedy bf enc s t) as HG by (clear HF; induction H; [constructor|now apply G_one|now apply G_two]).
  unfold cm_decode_string, cm_decode_hex. rewrite pairs_bytes. rewrite (greedy_loop bf enc s t HG HF); [reflexivity|].
  clear. unfold bytes_hex. induction s as [|x s IH]; [cbn; lia|]. cbn [flat_map app List.length] in *. lia.
Qed.
(** *** With one-byte codes only, decoding is byte-wise. *)
Fixpoint bytewise (bf enc : list Z -> res (list Z)) (s : list Z) : list Z :=
  match s with
  | [] => []
  | x :: r => (match bf (hex2 x) with
               | Ok t => t
               | Err _ => if (x =? 0) && negb (match r with [] => true | _ => false end) then []
                          else match enc [x] with Ok t => t | Err _ => [] end
               end) ++ bytewise bf enc r
  end.
Theorem C54_single_byte : forall bf enc s, table_like bf -> decodes_bytes enc -> (forall c, zlen c = 4 -> bf c = Err KeyErr) ->
  Forall (fun x => 0 <= x < 256) s -> cm_decode_string bf enc s = Ok (bytewise bf enc s).
Proof.
  intros bf enc s HT HE H4 HF. destruct (C54_decode_string bf enc s HT HE HF) as (t & -> & HG). f_equal. clear HF HT HE.
  induction HG as [|x r t u H1 _ IH|x y r t u H1 H2 _ IH|x y r t u H1 H2 Hx He _ IH|y r u H1 H2 _ IH|x t H1 He].
  - reflexivity.
  - cbn [bytewise]. now rewrite H1, IH.
  - rewrite H4 in H2 by reflexivity. discriminate.
  - cbn [bytewise] in *. rewrite H1, He, IH. assert (x =? 0 = false) as -> by lia. reflexivity.
  - cbn [bytewise] in *. rewrite H1, IH. reflexivity.
  - cbn [bytewise]. rewrite H1, He. rewrite andb_false_r, app_nil_r. reflexivity.
Qed.

(** *** Codes longer than two bytes are never used. *)
Theorem C54_long_codes_ignored : forall bf bf' enc s, (forall c, zlen c <= 4 -> bf c = bf' c) ->
  Forall (fun x => 0 <= x < 256) s -> forall t, Greedy bf enc s t -> cm_decode_string bf enc s = Ok t /\ cm_decode_string bf' enc s = Ok t.
Proof.
  intros bf bf' enc s He HF t HG.
  assert (Greedy bf' enc s t) as HG'.
  { clear HF. induction HG; try rewrite He in * by (cbn; lia); [constructor|eapply G_one|eapply G_two|eapply G_single|eapply G_zero|eapply G_last]; eauto; rewrite <- He; auto; cbn; lia. }
  assert (List.length (bytes_hex s) = (2 * List.length s)%nat) as HL.
  { clear. unfold bytes_hex. induction s as [|x s IH]; [reflexivity|]. cbn [flat_map app List.length]. rewrite IH. lia. }
  unfold cm_decode_string, cm_decode_hex. rewrite pairs_bytes, HL.
  rewrite (greedy_loop bf enc s t HG HF), (greedy_loop bf' enc s t HG' HF) by lia. split; reflexivity.
Qed.

(** *** An unmapped code can disturb the codes after it. *)
Definition shift_map : list mapping := [mk_bf (bs "0042") (bs "0042"); mk_bf (bs "4241") (bs "0058")].
Theorem C54_realignment_refuted :
  cm_decode_string (lookup shift_map) (cm_enc (fun _ => false) (fun _ _ => Err ValueErr) 0 None) [66; 65] = Ok (bs "X") /\
  cm_decode_string (lookup shift_map) (cm_enc (fun _ => false) (fun _ _ => Err ValueErr) 0 None) [1; 0; 66; 65] = Ok (1 :: bs "BA").
Proof. split; vm_compute; reflexivity. Qed.

(** *** Hexadecimal text of any length: decoding always ends. *)
Lemma cm_loop_fuel bf enc : (forall c, bf c <> Err OutOfFuel) -> (forall c, enc c <> Err OutOfFuel) ->
  forall n codes code acc, (2 * List.length codes + (match code with [] => 0 | _ => 1 end) <= n)%nat ->
  (zlen code = 0 \/ zlen code = 2 \/ codes = []) -> (forall a b c, codes = a ++ b :: c -> zlen b <= 2 /\ (c <> [] -> zlen b = 2)) ->
  cm_loop bf enc n codes code acc <> Err OutOfFuel.
Proof.
  intros Hbf Henc. assert (forall h, enc_hex enc h <> Err OutOfFuel) as Hh.
  { intros h. unfold enc_hex. destruct (fromhex h) as [t|e] eqn:E; cbn [rbind]; [apply Henc|]. intros X. inversion X; subst. clear - E.
    assert (forall k h, (List.length h < k)%nat -> fromhex h <> Err OutOfFuel) as HH; [|now apply (HH (S (List.length h)) h) in E; [|lia]].
    induction k as [|k IH]; intros g Hg; [lia|]. destruct g as [|a [|b r]]; cbn [fromhex]; try discriminate.
    destruct (hexval a), (hexval b); try discriminate. cbn [List.length] in Hg. specialize (IH r ltac:(lia)). destruct (fromhex r); cbn [rbind]; congruence. }
  induction n as [|n IH]; intros codes code acc Hn Hc Hs.
  - destruct codes; cbn [List.length] in Hn; [|lia]. destruct code; [|lia]. cbn [cm_loop]. discriminate.
  - destruct codes as [|c cs]; cbn [cm_loop].
    + destruct code; [discriminate|]. specialize (Hh (z :: code)). destruct (enc_hex enc (z :: code)); cbn [rbind]; congruence.
    + cbv zeta. cbn [List.length] in Hn. specialize (Hbf (code ++ c)). destruct (bf (code ++ c)) as [t|e] eqn:E.
      * apply IH; [lia|now left|]. intros a b d X. apply (Hs (c :: a) b d). cbn. now rewrite X.
      * assert (zlen c <= 2 /\ (cs <> [] -> zlen c = 2)) as [Hc2 Hc3] by (apply (Hs [] c cs); reflexivity).
        destruct e; try discriminate; try congruence.
        pose proof (zlen_nonneg c) as Hzc. pose proof (zlen_app code c) as Hza.
        assert (zlen code = 0 \/ zlen code = 2) as Hcl by (destruct Hc as [?|[?|?]]; auto; discriminate).
        destruct (zlen (code ++ c) <? 4) eqn:E4.
        -- apply IH.
           ++ destruct (code ++ c); destruct code; lia.
           ++ destruct cs as [|d cs]; [right; now right|]. rewrite Hc3 in * by discriminate. lia.
           ++ intros a b d X. apply (Hs (c :: a) b d). cbn. now rewrite X.
        -- assert (zlen code = 2 /\ zlen c = 2) as [Hk1 Hk2] by lia. destruct code as [|k1 [|k2 [|k3 k]]]; try (unfold zlen in Hk1; cbn [List.length] in Hk1; lia).
           change (skipn 2 ([k1; k2] ++ c)) with c. change (firstn 2 ([k1; k2] ++ c)) with [k1; k2].
           assert (forall acc', cm_loop bf enc n (c :: cs) [] acc' <> Err OutOfFuel) as HX.
           { intros acc'. apply IH; [cbn [List.length]; lia|now left|exact Hs]. }
           destruct (eqlZ [k1; k2] (bs "00")); [apply HX|]. specialize (Hh [k1; k2]). destruct (enc_hex enc [k1; k2]); cbn [rbind]; [apply HX|congruence].
Qed.
Theorem C54_terminates : forall bf enc s, (forall c, bf c <> Err OutOfFuel) -> (forall c, enc c <> Err OutOfFuel) -> cm_decode_hex bf enc s <> Err OutOfFuel.
Proof.
  intros bf enc s H1 H2. unfold cm_decode_hex. apply cm_loop_fuel; auto.
  - assert (forall k s, (List.length s < k)%nat -> (List.length (pairs_of s) <= List.length s)%nat) as HL; [|specialize (HL (S (List.length s)) s ltac:(lia)); lia].
    induction k as [|k IH]; intros l Hl; [lia|]. destruct l as [|a [|b r]]; cbn [pairs_of List.length] in *; [lia|lia|]. specialize (IH r ltac:(lia)). lia.
  - assert (forall k s, (List.length s < k)%nat -> forall a b c, pairs_of s = a ++ b :: c -> zlen b <= 2 /\ (c <> [] -> zlen b = 2)) as HL; [|apply (HL (S (List.length s)) s); lia].
    clear. induction k as [|k IH]; intros l Hl a b c E; [lia|]. destruct l as [|x [|y r]]; cbn [pairs_of List.length] in *.
    + destruct a; discriminate.
    + destruct a as [|a0 a]; [|destruct a; discriminate]. inversion E; subst. split; [cbn; lia|congruence].
    + destruct a as [|a0 a]; inversion E; subst; [split; [cbn; lia|reflexivity]|]. apply (IH r ltac:(lia) a b c). assumption.
Qed.
Example C54_ex : Mapped (lookup ex_maps) [4; 12; 0] ([9] ++ bs "fi" ++ [5] ++ []) /\ Forall (fun x => 0 <= x < 256) [4; 12; 0] /\
  cm_decode_string (lookup ex_maps) (cm_enc (fun _ => false) (fun _ _ => Err ValueErr) 0 None) [12; 200; 0; 65; 66] = Ok (bs "fi" ++ [200; 5] ++ bs "AB").
Proof.
  split; [|split].
  - apply M_one; [vm_compute; reflexivity|]. apply M_one; [vm_compute; reflexivity|]. apply M_one; [vm_compute; reflexivity|]. constructor.
  - repeat constructor; lia.
  - vm_compute. reflexivity.
Qed.

Print Assumptions C54_decode_string.
Print Assumptions C54_tables.
Print Assumptions C54_encodings.
Print Assumptions C54_mapped.
Print Assumptions C54_single_byte.
Print Assumptions C54_long_codes_ignored.
Print Assumptions C54_realignment_refuted.
Print Assumptions C54_terminates.
