(** Properties of signature texts and addresses (C51, C52, C58). *)
From Coq Require Import ZArith NArith List String Ascii Lia.
From stdpp Require Import base tactics gmap list strings.
From Verif Require Import GoBase Bytes HexModel CryptoModel CryptoProofs.
Open Scope string_scope.
Open Scope list_scope.
Open Scope Z_scope.

(** ** C51 *)

(** The order of the group, as SEC 2 writes it. *)
Definition secp256k1_order : Z := 0xFFFFFFFFFFFFFFFFFFFFFFFFFFFFFFFEBAAEDCE6AF48A03BBFD25E8CD0364141.
Lemma order_n : secp256k1_order = curve_n.
Proof. reflexivity. Qed.

(** Whatever DER text the signer produced for (r, s), the text form made from it is
    read back as (r, s) exactly if the byte lengths fit. [byte_len z] is the number
    of bytes of [z] ([byte_len_iff]). *)
Theorem C51_text_form der r s :
  parse_sig true der = Some (r, s) ->
  exists text, der_to_str der = Ok text /\
    (parse_sig false (str_to_der text) = Some (r, s) <->
     byte_len s = byte_len r \/ byte_len s = S (byte_len r)).
Proof.
  intros Hp. destruct (parse_sig_range _ _ _ _ Hp) as [Hr Hs]. pose proof curve_n_256.
  unfold der_to_str. rewrite Hp. eexists. split; [done|].
  destruct (int_bytes_spec r) as [Lr Vr]; [lia|]. destruct (int_bytes_spec s) as [Ls Vs]; [lia|].
  pose proof (byte_len_32 r ltac:(lia)). pose proof (byte_len_32 s ltac:(lia)).
  rewrite parse_str_to_der by (rewrite app_length; lia).
  pose proof (middle_split r s ltac:(lia) ltac:(lia)) as M. cbv zeta in M |- *.
  rewrite <- M. clear M. generalize (length (int_bytes r ++ int_bytes s) / 2)%nat. intros h. split.
  - destruct (_ && _); [|done]. by intros [= -> ->].
  - intros [E1 E2]. rewrite E1, E2.
    replace (0 <? r) with true by lia. replace (0 <? s) with true by lia.
    replace (r <? curve_n) with true by lia. replace (s <? curve_n) with true by lia. done.
Qed.
Print Assumptions C51_text_form.

(** Every pair in range has a DER form, so the theorem above covers them all. *)
Theorem C51_der_form r s :
  0 < r < secp256k1_order -> 0 < s < secp256k1_order -> parse_sig true (der_of r s) = Some (r, s).
Proof. rewrite order_n. apply der_of_parse. Qed.
Print Assumptions C51_der_form.

(** The fixed-width form, 32 bytes each, is always read back correctly. *)
Theorem C51_fixed_width r s :
  0 < r < secp256k1_order -> 0 < s < secp256k1_order ->
  parse_sig false (str_to_der (be_bytes 32 r ++ be_bytes 32 s)) = Some (r, s).
Proof.
  rewrite order_n. intros Hr Hs. pose proof curve_n_256.
  assert (length (be_bytes 32 r ++ be_bytes 32 s) = 64%nat) as L
    by (rewrite app_length, !be_bytes_length; done).
  rewrite parse_str_to_der by (rewrite L; lia). rewrite L. change (64 / 2)%nat with 32%nat. cbv zeta.
  rewrite (take_app_length (be_bytes 32 r)) by (by rewrite be_bytes_length).
  rewrite (drop_app_length (be_bytes 32 r)) by (by rewrite be_bytes_length).
  rewrite !be_val_bytes. change (256 ^ Z.of_nat 32) with (2 ^ 256). rewrite !Z.mod_small by lia.
  replace (0 <? r) with true by lia. replace (0 <? s) with true by lia.
  replace (r <? curve_n) with true by lia. replace (s <? curve_n) with true by lia. done.
Qed.
Print Assumptions C51_fixed_width.

(** So not every signature survives: here the text is read as a different pair. *)
Theorem C51_survives_refuted :
  exists r s text r' s',
    0 < r < secp256k1_order /\ 0 < s < secp256k1_order /\
    der_to_str (der_of r s) = Ok text /\
    parse_sig false (str_to_der text) = Some (r', s') /\ (r', s') <> (r, s).
Proof.
  exists (2 ^ 250 + 7), (2 ^ 233 + 5). eexists _, _, _.
  split; [split; reflexivity|]. split; [split; reflexivity|].
  split; [vm_compute; reflexivity|]. split; [vm_compute; reflexivity|]. vm_compute. done.
Qed.
Print Assumptions C51_survives_refuted.

Example C51_example :
  exists der, parse_sig true der = Some (2 ^ 255 + 3, 2 ^ 254 + 9) /\
    byte_len (2 ^ 255 + 3) = 32%nat /\ byte_len (2 ^ 254 + 9) = 32%nat.
Proof.
  exists (der_of (2 ^ 255 + 3) (2 ^ 254 + 9)).
  split; [apply C51_der_form; split; reflexivity|]. vm_compute. done.
Qed.

(** ** C52 *)

Definition is_upper (c : byte) : bool := (65 <=? b2z c) && (b2z c <=? 90).
Definition is_letter (c : byte) : bool :=
  is_upper c || ((97 <=? b2z c) && (b2z c <=? 122)).

Theorem C52_checksum keccak address :
  length address = 20%nat -> length (keccak (hex_encode address)) = 32%nat ->
  let out := checksum_address keccak address in
  length out = 42%nat /\ take 2 out = bytes_of "0x" /\
  map lower (drop 2 out) = hex_encode address /\
  forall i c d v, drop 2 out !! i = Some c ->
    hex_encode (keccak (hex_encode address)) !! i = Some d -> hex_value d = Some v ->
    (is_upper c = true <-> is_letter c = true /\ 8 <= v).
Proof.
  intros La Lk. cbv zeta. unfold checksum_address. cbn [take drop].
  split; [cbn [length]; by rewrite imap_length, hex_encode_length, La|].
  split; [reflexivity|].
  split. { pose proof (checksum_address_lower keccak address) as H. by injection H. }
  intros i c d v Hc Hd Hv. rewrite drop_0, list_lookup_imap in Hc.
  destruct (hex_encode address !! i) as [x|] eqn:Ex; [|done]. cbn in Hc. injection Hc as <-.
  assert (exists w, 0 <= w < 16 /\ x = hex_digit w) as (w & Hw & ->).
  { apply (hex_encode_digits address). by eapply elem_of_list_In, elem_of_list_lookup_2. }
  apply hex_encode_lookup in Hd as (b & Hb & ->).
  destruct (byte_split b) as (_ & Hb1 & Hb2).
  rewrite hex_value_digit in Hv by (destruct (Nat.even i); lia). injection Hv as <-.
  unfold checksum_char. rewrite (nth_lookup_Some _ _ (z2b 0) _ Hb).
  set (n := if Nat.even i then _ else _). clearbody n.
  destruct (7 <? n) eqn:En.
  - assert (8 <= n) as Hn by lia. clear - Hw Hn. revert w Hw. apply z16; cbn; split; intros; (done || tauto).
  - assert (~ 8 <= n) as Hn by lia. clear - Hw Hn. revert w Hw. apply z16; cbn; split; intros; (done || tauto).
Qed.
Print Assumptions C52_checksum.

(** Different addresses have different texts. *)
Theorem C52_injective keccak a b :
  checksum_address keccak a = checksum_address keccak b -> a = b.
Proof. apply checksum_address_inj. Qed.
Print Assumptions C52_injective.

Example C52_example :
  let keccak := fun _ : bytes => replicate 32 (z2b 137) in
  let a := replicate 20 (z2b 171) in
  length a = 20%nat /\ length (keccak (hex_encode a)) = 32%nat /\
  string_of (checksum_address keccak a) = "0xABABABABABABABABABABABABABABABABABABABAB" /\
  string_of (checksum_address (fun _ => replicate 32 (z2b 129)) a)
    = "0xAbAbAbAbAbAbAbAbAbAbAbAbAbAbAbAbAbAbAbAb".
Proof. vm_compute. done. Qed.

(** ** C58 *)

(** The digests have their standard lengths. *)
Definition digests_ok (P : prims) : Prop :=
  (forall x, length (p_ripemd160 P x) = 20%nat) /\ (forall x, length (p_keccak256 P x) = 32%nat).

Lemma Ok_inj {A} (a b : A) : Ok a = Ok b -> a = b.
Proof. by intros [= ->]. Qed.

Lemma agent_address_cases P ledger key a :
  agent_address P ledger key = Ok a ->
  (exists b, ledger = "fetchai" /\ hex_decode (bytes_of key) = Some b /\
     bytes_of a = bech32_encode (bytes_of "fetch")
       (groups5 (concat (map byte_bits (p_ripemd160 P (p_sha256 P b)))))) \/
  (exists b, ledger = "cosmos" /\ hex_decode (bytes_of key) = Some b /\
     bytes_of a = bech32_encode (bytes_of "cosmos")
       (groups5 (concat (map byte_bits (p_ripemd160 P (p_sha256 P b)))))) \/
  (exists b, ledger = "ethereum" /\ (2 <= String.length key)%nat /\
     hex_decode (drop 2 (bytes_of key)) = Some b /\
     bytes_of a = checksum_address (p_keccak256 P) (drop 12 (p_keccak256 P b))).
Proof.
  unfold agent_address, cosmos_address, ethereum_address.
  destruct (String.eqb_spec ledger "fetchai") as [->|].
  { destruct (hex_decode _) as [b|] eqn:E; [|done]. intros <-%Ok_inj. left. exists b.
    by rewrite string_bytes. }
  destruct (String.eqb_spec ledger "cosmos") as [->|].
  { destruct (hex_decode _) as [b|] eqn:E; [|done]. intros <-%Ok_inj. right; left. exists b.
    by rewrite string_bytes. }
  destruct (String.eqb_spec ledger "ethereum") as [->|]; [|done].
  destruct (Nat.ltb_spec (String.length key) 2); [done|].
  destruct (hex_decode _) as [b|] eqn:E; [|done]. intros <-%Ok_inj. right; right. exists b.
  by rewrite string_bytes.
Qed.

Lemma fetch_head d : hd (z2b 0) (bech32_encode (bytes_of "fetch") d) = "f"%char.
Proof. reflexivity. Qed.
Lemma cosmos_head d : hd (z2b 0) (bech32_encode (bytes_of "cosmos") d) = "c"%char.
Proof. reflexivity. Qed.
Lemma eth_head k d : hd (z2b 0) (checksum_address k d) = "0"%char.
Proof. reflexivity. Qed.
Lemma fetch_prefix d : String.prefix "fetch1" (string_of (bech32_encode (bytes_of "fetch") d)) = true.
Proof. unfold bech32_encode. generalize (map bech32_char (d ++ bech32_checksum (bytes_of "fetch") d)). by destruct l. Qed.
Lemma cosmos_prefix d : String.prefix "cosmos1" (string_of (bech32_encode (bytes_of "cosmos") d)) = true.
Proof. unfold bech32_encode. generalize (map bech32_char (d ++ bech32_checksum (bytes_of "cosmos") d)). by destruct l. Qed.
Lemma eth_prefix k d : String.prefix "0x" (string_of (checksum_address k d)) = true.
Proof. unfold checksum_address. generalize (imap (checksum_char (k (hex_encode d))) (hex_encode d)). by destruct l. Qed.

Theorem C58_ledgers_disjoint P l1 l2 k1 k2 a :
  agent_address P l1 k1 = Ok a -> agent_address P l2 k2 = Ok a -> l1 = l2.
Proof.
  intros H1 H2. apply agent_address_cases in H1, H2.
  destruct H1 as [(b1 & -> & _ & E1)|[(b1 & -> & _ & E1)|(b1 & -> & _ & _ & E1)]];
    destruct H2 as [(b2 & -> & _ & E2)|[(b2 & -> & _ & E2)|(b2 & -> & _ & _ & E2)]]; try done;
    exfalso; rewrite E1 in E2; apply (f_equal (hd (z2b 0))) in E2;
    rewrite ?fetch_head, ?cosmos_head, ?eth_head in E2; discriminate E2.
Qed.
Print Assumptions C58_ledgers_disjoint.

(** Two keys of a ledger have the same address only if their digests collide. *)
Theorem C58_same_address P ledger k1 k2 a :
  digests_ok P ->
  agent_address P ledger k1 = Ok a -> agent_address P ledger k2 = Ok a ->
  exists b1 b2,
    (ledger <> "ethereum" /\
     map lower (bytes_of k1) = hex_encode b1 /\ map lower (bytes_of k2) = hex_encode b2 /\
     p_ripemd160 P (p_sha256 P b1) = p_ripemd160 P (p_sha256 P b2)) \/
    (ledger = "ethereum" /\
     map lower (drop 2 (bytes_of k1)) = hex_encode b1 /\ map lower (drop 2 (bytes_of k2)) = hex_encode b2 /\
     drop 12 (p_keccak256 P b1) = drop 12 (p_keccak256 P b2)).
Proof.
  intros [HR HK] H1 H2. apply agent_address_cases in H1, H2.
  destruct H1 as [(b1 & -> & D1 & E1)|[(b1 & -> & D1 & E1)|(b1 & -> & _ & D1 & E1)]];
    destruct H2 as [(b2 & L & D2 & E2)|[(b2 & L & D2 & E2)|(b2 & L & _ & D2 & E2)]]; try done;
    apply hex_decode_iff in D1, D2; exists b1, b2; rewrite E1 in E2.
  - left. split; [done|]. split; [done|]. split; [done|].
    eapply bech32_hash_inj; [apply HR|apply HR|done].
  - left. split; [done|]. split; [done|]. split; [done|].
    eapply bech32_hash_inj; [apply HR|apply HR|done].
  - right. split; [done|]. split; [done|]. split; [done|].
    by apply checksum_address_inj in E2.
Qed.
Print Assumptions C58_same_address.

(** The shape of an address tells the ledger. *)
Theorem C58_shape P ledger key a :
  digests_ok P -> agent_address P ledger key = Ok a ->
  (ledger = "fetchai" /\ String.length a = 44%nat /\ String.prefix "fetch1" a = true) \/
  (ledger = "cosmos" /\ String.length a = 45%nat /\ String.prefix "cosmos1" a = true) \/
  (ledger = "ethereum" /\ String.length a = 42%nat /\ String.prefix "0x" a = true).
Proof.
  intros [HR HK] H. apply agent_address_cases in H.
  assert (forall s, String.length s = length (bytes_of s)) as HL.
  { clear. induction s as [|c s IH]; [done|]. cbn. by rewrite IH. }
  assert (forall n h, length h = 20%nat -> length (bech32_encode n (groups5 (concat (map byte_bits h))))
            = (length n + 39)%nat) as HB.
  { clear. intros n h Hh. unfold bech32_encode. rewrite !app_length, map_length, app_length.
    rewrite (groups5_length 32) by (rewrite concat_bits_length, Hh; done). cbn. lia. }
  rewrite HL. rewrite <- (bytes_string a) at 2 4 6.
  destruct H as [(b & -> & _ & ->)|[(b & -> & _ & ->)|(b & -> & _ & _ & ->)]].
  - left. split; [done|]. split; [by rewrite HB by apply HR|]. apply fetch_prefix.
  - right; left. split; [done|]. split; [by rewrite HB by apply HR|]. apply cosmos_prefix.
  - right; right. split; [done|]. split; [|apply eth_prefix]. unfold checksum_address. cbn [length].
    rewrite imap_length, hex_encode_length, drop_length, HK. done.
Qed.
Print Assumptions C58_shape.

(** A stand-in for the libraries, for examples only. *)
Definition toy : prims := {|
  p_sha256 := fun x => x;
  p_ripemd160 := fun x => take 20 (x ++ replicate 20 (z2b 7));
  p_keccak256 := fun x => take 32 (x ++ replicate 32 (z2b 9));
  p_base64 := fun s => Some (bytes_of s);
  p_key_ok := fun k => Nat.eqb (length k) 4;
  p_verify := fun k r s h => (r =? be_val 0 k) && (s =? be_val 0 (take 4 h));
  p_recover := fun h s => Some (take 32 s);
|}.

Example C58_example :
  digests_ok toy /\
  agent_address toy "fetchai" "0A0b0c0D" = Ok "fetch1pg9scrg8qurswpc8qurswpc8qurswpc80ay04q" /\
  agent_address toy "cosmos" "0A0b0c0D" = Ok "cosmos1pg9scrg8qurswpc8qurswpc8qurswpc8uqdthh" /\
  agent_address toy "ethereum" "0x0A0b0c0D" = Ok "0x0909090909090909090909090909090909090909".
Proof.
  split; [|vm_compute; done].
  split; intros x; unfold p_ripemd160, p_keccak256, toy; rewrite take_length, app_length, replicate_length; lia.
Qed.

(** Test vectors of BIP 173. *)
Example bech32_vectors :
  string_of (bech32_encode (bytes_of "a") []) = "a12uel5l" /\
  string_of (bech32_encode (bytes_of "abcdef") (map Z.of_nat (seq 0 32)))
    = "abcdef1qpzry9x8gf2tvdw0s3jn54khce6mua7lmqqqxw".
Proof. vm_compute. done. Qed.
