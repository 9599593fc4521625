(** Properties of the proof of representation check (C29, C30). *)
From Coq Require Import ZArith NArith List String Ascii Lia.
From stdpp Require Import base tactics gmap list strings pretty.
From Verif Require Import GoBase Bytes WireModel ProtoModel HexModel CryptoModel CryptoProofs CryptoProps PorModel.
Open Scope string_scope.
Open Scope list_scope.
Open Scope Z_scope.

(** What a valid proof is, ledger by ledger. [hex_text t b]: [t] is the hexadecimal
    text of [b], in upper or lower case. *)
Definition hex_text (t b : bytes) : Prop := map lower t = hex_encode b.

(** fetchai and cosmos: the address is the bech32 form of the digest of the key, and
    the signature, read as a pair of numbers, verifies under the key. *)
Definition cosmos_proof (P : prims) (prefix : string) (r : record) : Prop :=
  exists key sig x y,
    hex_text (bytes_of (r_public_key r)) key /\
    bytes_of (r_address r) =
      bech32_encode (bytes_of prefix)
        (groups5 (concat (map byte_bits (p_ripemd160 P (p_sha256 P key))))) /\
    p_key_ok P key = true /\
    p_base64 P (r_signature r) = Some sig /\
    parse_sig false (str_to_der sig) = Some (x, y) /\
    p_verify P key x y (p_sha256 P (bytes_of (r_peer_key r))) = true.

(** ethereum: the key text has two leading characters that are ignored; the
    signature is 0x with at least 65 bytes, the last recovery byte 27 or 28, and
    recovery from the signed-message digest of the peer key gives a key with the
    record's address. *)
Definition ethereum_proof (P : prims) (r : record) : Prop :=
  exists key sig v recovered c0 c1 t,
    bytes_of (r_public_key r) = c0 :: c1 :: t /\ hex_text t key /\
    bytes_of (r_address r) = checksum_address (p_keccak256 P) (drop 12 (p_keccak256 P key)) /\
    hexutil_decode (bytes_of (r_signature r)) = Some sig /\
    sig !! 64%nat = Some v /\ (b2z v = 27 \/ b2z v = 28) /\
    p_recover P
      (p_keccak256 P
         (bytes_of (String (z2b 25) "Ethereum Signed Message:") ++ [z2b 10] ++
          bytes_of (pretty (N.of_nat (String.length (r_peer_key r)))) ++ bytes_of (r_peer_key r)))
      (<[64%nat := z2b (b2z v - 27)]> sig) = Some recovered /\
    drop 12 (p_keccak256 P recovered) = drop 12 (p_keccak256 P key).

Definition represents (P : prims) (r : record) (agent_addr peer_key : string) : Prop :=
  r_address r = agent_addr /\ r_peer_key r = peer_key /\
  (r_ledger r = "fetchai" /\ cosmos_proof P "fetch" r \/
   r_ledger r = "cosmos" /\ cosmos_proof P "cosmos" r \/
   r_ledger r = "ethereum" /\ ethereum_proof P r).

Lemma string_length s : String.length s = length (bytes_of s).
Proof. induction s as [|c s IH]; [done|]. cbn. by rewrite IH. Qed.

Lemma bytes_eq s l : bytes_of s = l <-> s = string_of l.
Proof. split; [intros <-; by rewrite bytes_string|intros ->; apply string_bytes]. Qed.

(** One ledger of the cosmos kind. *)
Lemma cosmos_iff P prefix r :
  cosmos_proof P prefix r <->
  cosmos_address P prefix (r_public_key r) = Ok (r_address r) /\
  verify_fetchai P (bytes_of (r_peer_key r)) (r_signature r) (r_public_key r) = Ok true.
Proof.
  unfold cosmos_proof, cosmos_address, verify_fetchai, parse_fetchai_signature, hex_text. split.
  - intros (key & sig & x & y & H1 & H2 & H3 & H4 & H5 & H6).
    apply hex_decode_iff in H1. apply bytes_eq in H2. rewrite H1, H3, H4, H5. cbn [rbind negb fst snd].
    by rewrite H6, <- H2.
  - destruct (hex_decode _) as [key|] eqn:Ek; [|by intros [? _]]. intros [E1 E2].
    apply Ok_inj in E1. destruct (p_key_ok P key) eqn:Eok; [|done]. cbn [negb] in E2.
    destruct (p_base64 P _) as [sig|] eqn:Eb; [|done].
    destruct (parse_sig _ _) as [[x y]|] eqn:Ep; [|done]. cbn [rbind fst snd] in E2.
    apply Ok_inj in E2. exists key, sig, x, y.
    split; [by apply hex_decode_iff|]. split; [by rewrite <- E1, string_bytes|]. done.
Qed.

Lemma replace_64 (sig : bytes) v w :
  sig !! 64%nat = Some v -> take 64 sig ++ w :: drop 65 sig = <[64%nat := w]> sig.
Proof.
  intros H. rewrite insert_take_drop; [done|]. by eapply lookup_lt_Some.
Qed.

Lemma eth_message_eq k :
  eth_message (bytes_of k) =
  bytes_of (String (z2b 25) "Ethereum Signed Message:") ++ [z2b 10] ++
  bytes_of (pretty (N.of_nat (String.length k))) ++ bytes_of k.
Proof. unfold eth_message. by rewrite string_length. Qed.

Lemma ethereum_iff P r :
  ethereum_proof P r <->
  ethereum_address P (r_public_key r) = Ok (r_address r) /\
  verify_ethereum P (bytes_of (r_peer_key r)) (r_signature r) (r_public_key r) = Ok true.
Proof.
  unfold ethereum_proof, verify_ethereum, recover_address, ethereum_address, hex_text.
  rewrite eth_message_eq. split.
  - intros (key & sig & v & rec & c0 & c1 & t & H0 & H1 & H2 & H3 & H4 & H5 & H6 & H7).
    apply hex_decode_iff in H1. apply bytes_eq in H2. rewrite string_length, H0. cbn [length].
    destruct (Nat.ltb_spec (S (S (length t))) 2); [lia|].
    change (drop 2 (c0 :: c1 :: t)) with t. rewrite H1. cbn [rbind]. rewrite H3.
    rewrite nth_error_is_lookup, H4. cbn [rbind].
    rewrite (replace_64 sig v) by done. rewrite H6, H7. cbn [rbind].
    destruct H5 as [-> | ->]; cbn [negb andb Z.eqb Pos.eqb rbind]; by rewrite String.eqb_refl, <- H2.
  - rewrite string_length.
    destruct (bytes_of (r_public_key r)) as [|c0 [|c1 t]] eqn:Ek; cbn [length]; [by intros [? _]..|].
    destruct (Nat.ltb_spec (S (S (length t))) 2); [lia|]. change (drop 2 (c0 :: c1 :: t)) with t.
    destruct (hex_decode t) as [key|] eqn:Eh; [|by intros [? _]]. intros [E1 E2].
    apply Ok_inj in E1. cbn [rbind] in E2.
    destruct (hexutil_decode _) as [sig|] eqn:Es; [|done].
    rewrite nth_error_is_lookup in E2. destruct (sig !! 64%nat) as [v|] eqn:Ev; [|done].
    destruct (negb (b2z v =? 27) && negb (b2z v =? 28)) eqn:E27; [done|].
    rewrite (replace_64 sig v) in E2 by done.
    destruct (p_recover P _ _) as [rec|] eqn:Er; [|done]. cbn [rbind] in E2.
    destruct (String.eqb_spec
      (string_of (checksum_address (p_keccak256 P) (drop 12 (p_keccak256 P rec))))
      (string_of (checksum_address (p_keccak256 P) (drop 12 (p_keccak256 P key))))) as [E|]; [|done].
    exists key, sig, v, rec, c0, c1, t. split; [done|]. split; [by apply hex_decode_iff|].
    split; [by rewrite <- E1, string_bytes|]. split; [done|]. split; [done|].
    split; [lia|]. split; [done|].
    apply (f_equal list_ascii_of_string) in E. rewrite !string_bytes in E.
    by apply checksum_address_inj in E.
Qed.

Lemma represents_iff P r agent_addr peer_key :
  represents P r agent_addr peer_key <->
  r_address r = agent_addr /\ In (r_ledger r) ["fetchai"; "cosmos"; "ethereum"] /\
  r_peer_key r = peer_key /\
  agent_address P (r_ledger r) (r_public_key r) = Ok (r_address r) /\
  verify_ledger P (r_ledger r) (bytes_of (r_peer_key r)) (r_signature r) (r_public_key r) = Ok true.
Proof.
  unfold represents. rewrite !cosmos_iff, ethereum_iff. unfold agent_address, verify_ledger.
  split.
  - intros (H1 & H2 & [[-> H3]|[[-> H3]|[-> H3]]]); cbn; tauto.
  - intros (H1 & H2 & H3 & H4 & H5). split; [done|]. split; [done|].
    destruct H2 as [E|[E|[E|[]]]]; rewrite <- E in *; cbn in H4, H5; tauto.
Qed.

Lemma supported_iff l : existsb (String.eqb l) supported_ledgers = true <-> In l ["fetchai"; "cosmos"; "ethereum"].
Proof.
  unfold supported_ledgers. rewrite existsb_exists. split.
  - intros (x & Hx & E). apply String.eqb_eq in E. by subst.
  - intros H. exists l. by rewrite String.eqb_refl.
Qed.

(** ** C29 *)

(** Accepted exactly if it is a proof. *)
Theorem C29_accepted P r agent_addr peer_key :
  is_valid_por P r agent_addr peer_key = Ok (0, false) <-> represents P r agent_addr peer_key.
Proof.
  rewrite represents_iff. unfold is_valid_por, SUCCESS, ERROR_INVALID_PROOF.
  destruct (String.eqb_spec (r_address r) agent_addr) as [->|]; cbn [negb]; [|by split; [|tauto]].
  destruct (existsb (String.eqb (r_ledger r)) supported_ledgers) eqn:El; cbn [negb].
  2:{ split; [done|]. intros (_ & H & _). apply supported_iff in H. congruence. }
  apply supported_iff in El.
  destruct (String.eqb_spec (r_peer_key r) peer_key) as [->|]; cbn [negb]; [|by split; [|tauto]].
  destruct (agent_address P _ _) as [a|e|p]; [|by split; [|naive_solver]..].
  destruct (String.eqb_spec a agent_addr) as [->|]; cbn [negb]; [|by split; [|naive_solver]].
  destruct (verify_ledger P _ _ _ _) as [[]|e|p]; naive_solver.
Qed.
Print Assumptions C29_accepted.

(** Every other outcome that is not a crash is an error, with the code of the first
    failing condition in the order address, ledger, peer key, key and address,
    signature. *)
Theorem C29_refused P r agent_addr peer_key code err :
  is_valid_por P r agent_addr peer_key = Ok (code, err) ->
  ~ represents P r agent_addr peer_key ->
  err = true /\
  (code = 10 /\ r_address r <> agent_addr \/
   r_address r = agent_addr /\
   (code = 13 /\ ~ In (r_ledger r) ["fetchai"; "cosmos"; "ethereum"] \/
    In (r_ledger r) ["fetchai"; "cosmos"; "ethereum"] /\
    (code = 11 /\ r_peer_key r <> peer_key \/
     r_peer_key r = peer_key /\
     (code = 10 /\ agent_address P (r_ledger r) (r_public_key r) <> Ok (r_address r) \/
      code = 12 /\ agent_address P (r_ledger r) (r_public_key r) = Ok (r_address r))))).
Proof.
  intros H Hn.
  assert ((code, err) <> (0, false)) as Hne.
  { intros E. apply Hn, C29_accepted. by rewrite H, E. }
  revert H Hne. unfold is_valid_por, SUCCESS, ERROR_INVALID_PROOF, ERROR_WRONG_AGENT_ADDRESS,
    ERROR_WRONG_PUBLIC_KEY, ERROR_UNSUPPORTED_LEDGER.
  destruct (String.eqb_spec (r_address r) agent_addr) as [->|]; cbn [negb]; [|naive_solver].
  destruct (existsb (String.eqb (r_ledger r)) supported_ledgers) eqn:El; cbn [negb].
  2:{ intros [= <- <-] _. split; [done|]. right. split; [done|]. left. split; [done|].
      intros Hs. apply supported_iff in Hs. congruence. }
  apply supported_iff in El.
  destruct (String.eqb_spec (r_peer_key r) peer_key) as [->|]; cbn [negb]; [|naive_solver].
  destruct (agent_address P _ _) as [a|e|p]; [|naive_solver..].
  destruct (String.eqb_spec a agent_addr) as [->|]; cbn [negb]; [|naive_solver].
  destruct (verify_ledger P _ _ _ _) as [[]|e|p]; naive_solver.
Qed.
Print Assumptions C29_refused.

Example C29_example :
  let r := Record_ "s" "fetchai" "fetch1pg9scrg8qurswpc8qurswpc8qurswpc80ay04q" "0A0b0c0D"
             "peer" (string_of [z2b 10; z2b 11; z2b 12; z2b 13; "p"%char; "e"%char; "e"%char; "r"%char]) "" "" in
  is_valid_por toy r "fetch1pg9scrg8qurswpc8qurswpc8qurswpc80ay04q" "peer" = Ok (0, false) /\
  is_valid_por toy r "fetch1other" "peer" = Ok (10, true) /\
  is_valid_por toy r "fetch1pg9scrg8qurswpc8qurswpc8qurswpc80ay04q" "other" = Ok (11, true) /\
  is_valid_por toy (Record_ "s" "bitcoin" "a" "0A" "peer" "" "" "") "a" "peer" = Ok (13, true) /\
  is_valid_por toy (Record_ "s" "fetchai" "a" "0A" "peer" "" "" "") "a" "peer" = Ok (10, true) /\
  is_valid_por toy (Record_ "s" "fetchai" (r_address r) "0A0b0c0D" "peer" "12345678" "" "")
    (r_address r) "peer" = Ok (12, true).
Proof. vm_compute. done. Qed.

(** An ethereum proof: the stand-in recovers the key from the first 32 bytes. *)
Example C29_ethereum_example :
  let r := Record_ "s" "ethereum" "0x0909090909090909090909090909090909090909" "0x0A0b0c0D" "peer"
    (String.concat "" ("0X" :: replicate 64 "09" ++ ["1b"])) "" "" in
  is_valid_por toy r (r_address r) "peer" = Ok (0, false).
Proof. vm_compute. done. Qed.

(** ** C30 *)

Theorem C30_crash P r agent_addr peer_key :
  is_panic (por_check P (Some r) agent_addr peer_key) = true <->
  r_ledger r = "ethereum" /\ r_address r = agent_addr /\ r_peer_key r = peer_key /\
  ((String.length (r_public_key r) < 2)%nat \/
   agent_address P "ethereum" (r_public_key r) = Ok agent_addr /\
   exists sig, hexutil_decode (bytes_of (r_signature r)) = Some sig /\ (length sig < 65)%nat).
Proof.
  unfold por_check, is_valid_por.
  destruct (String.eqb_spec (r_address r) agent_addr) as [->|]; cbn [negb]; [|by split; [|tauto]].
  destruct (existsb (String.eqb (r_ledger r)) supported_ledgers) eqn:El; cbn [negb].
  2:{ split; [done|]. intros (H & _). rewrite H in El. done. }
  destruct (String.eqb_spec (r_peer_key r) peer_key) as [->|]; cbn [negb]; [|by split; [|tauto]].
  apply supported_iff in El.
  destruct (String.eqb_spec (r_ledger r) "ethereum") as [E|Hne].
  - rewrite E. unfold agent_address, verify_ledger. cbn [String.eqb Ascii.eqb Bool.eqb].
    unfold verify_ethereum, recover_address.
    destruct (ethereum_address P (r_public_key r)) as [a|e|p] eqn:Ea.
    + assert (~ (String.length (r_public_key r) < 2)%nat) as Hl.
      { unfold ethereum_address in Ea. destruct (Nat.ltb_spec (String.length (r_public_key r)) 2); [done|lia]. }
      destruct (String.eqb_spec a agent_addr) as [->|]; cbn [negb].
      2:{ split; [done|]. intros (_ & _ & _ & [?|[[= ?] _]]); done. }
      cbn [rbind]. destruct (hexutil_decode _) as [sig|] eqn:Es.
      2:{ cbn. split; [done|]. intros (_ & _ & _ & [?|[_ (? & ? & _)]]); done. }
      rewrite nth_error_is_lookup. destruct (sig !! 64%nat) as [v|] eqn:Ev.
      * apply lookup_lt_Some in Ev. split.
        -- intros H. exfalso. revert H. destruct (negb _ && _); [done|].
           destruct (p_recover P _ _); [|done]. cbn [rbind]. by destruct (String.eqb _ _).
        -- intros (_ & _ & _ & [?|[_ (x & [= <-] & ?)]]); [done|lia].
      * apply lookup_ge_None in Ev. cbn. split; [|done]. intros _. repeat split; try done.
        right. split; [done|]. exists sig. split; [done|lia].
    + split; [done|]. intros (_ & _ & _ & [Hl|[? _]]); [|done].
      unfold ethereum_address in Ea. by destruct (Nat.ltb_spec (String.length (r_public_key r)) 2); [|lia].
    + split; [|done]. intros _. repeat split; try done. left. unfold ethereum_address in Ea.
      destruct (Nat.ltb_spec (String.length (r_public_key r)) 2); [done|].
      by destruct (hex_decode _).
  - split; [|tauto]. intros H. exfalso. revert H.
    assert (forall prefix, is_panic (cosmos_address P prefix (r_public_key r)) = false) as H1.
    { intros. unfold cosmos_address. by destruct (hex_decode _). }
    assert (forall m, is_panic (verify_fetchai P m (r_signature r) (r_public_key r)) = false) as H2.
    { intros. unfold verify_fetchai, parse_fetchai_signature. destruct (hex_decode _); [|done].
      destruct (negb _); [done|]. destruct (p_base64 _ _); [|done]. by destruct (parse_sig _ _). }
    unfold agent_address, verify_ledger. specialize (H2 (bytes_of peer_key)).
    destruct El as [El|[El|[El|[]]]]; [| |congruence]; rewrite <- El; cbn [String.eqb Ascii.eqb Bool.eqb];
      [specialize (H1 "fetch")|specialize (H1 "cosmos")]; revert H1 H2;
      (destruct (cosmos_address P _ _); [|done|done]); (destruct (negb _); [done|]);
      destruct (verify_fetchai _ _ _ _) as [[]| |]; intros; (done || discriminate).
Qed.
Print Assumptions C30_crash.

(** A missing record always crashes the check. *)
Theorem C30_no_record P agent_addr peer_key :
  is_panic (por_check P None agent_addr peer_key) = true.
Proof. done. Qed.
Print Assumptions C30_no_record.

(** Both ways are open to anybody who knows the peer's public key: for the first no
    key pair is needed, for the second any key pair will do. *)
Theorem C30_crash_reachable P peer_key key b :
  (2 <= String.length key)%nat -> hex_decode (drop 2 (bytes_of key)) = Some b ->
  is_panic (por_check P (Some (Record_ "" "ethereum" "a" "" peer_key "" "" "")) "a" peer_key) = true /\
  exists a,
    is_panic (por_check P (Some (Record_ "" "ethereum" a key peer_key "0x" "" "")) a peer_key) = true.
Proof.
  intros Hk Hb. split.
  - apply C30_crash. cbn. repeat split; try done. left. lia.
  - exists (string_of (checksum_address (p_keccak256 P) (drop 12 (p_keccak256 P b)))).
    apply C30_crash. cbn [r_ledger r_address r_peer_key r_public_key r_signature].
    repeat split; try done. right. split.
    + unfold agent_address. cbn [String.eqb Ascii.eqb Bool.eqb]. unfold ethereum_address.
      destruct (Nat.ltb_spec (String.length key) 2); [lia|]. by rewrite Hb.
    + exists []. split; [done|]. cbn. lia.
Qed.
Print Assumptions C30_crash_reachable.

Example C30_example :
  is_panic (por_check toy (Some (Record_ "" "ethereum" "a" "0" "peer" "" "" "")) "a" "peer") = true /\
  is_panic (por_check toy (Some (Record_ "" "ethereum" "0x0909090909090909090909090909090909090909"
     "0x0A0b0c0D" "peer" "0x00" "" "")) "0x0909090909090909090909090909090909090909" "peer") = true /\
  is_panic (por_check toy (Some (Record_ "" "fetchai" "a" "0" "peer" "" "" "")) "a" "peer") = false.
Proof. vm_compute. done. Qed.
