(** Model of key, address and signature handling:
    /repo/libs/go/libp2p_node/utils/utils.go:66-77, 268-548 and
    /repo/libs/go/aealite/wallet/utils.go:40-382 (the same functions; where the two
    differ the difference is stated at the definition).

    Hash functions, curve operations and base64 are library code and enter as the
    record [prims]; theorems quantify over it. *)
From Coq Require Import ZArith NArith List String Ascii.
From stdpp Require Import base list strings pretty.
From Verif Require Import GoBase Bytes HexModel.
Open Scope string_scope.
Open Scope list_scope.
Open Scope Z_scope.

(** Library calls. [p_key_ok]: btcec.ParsePubKey accepts the bytes. [p_verify]: btcec's
    Signature.Verify of a key (given by the parsed bytes), [r], [s] and a digest.
    [p_recover]: ethCrypto.SigToPub, the 64 bytes of the public key that
    ethCrypto.PubkeyToAddress hashes, or an error. [p_base64]:
    base64.StdEncoding.DecodeString. (utils/utils.go:53-60 (imports).) *)
Record prims := Prims {
  p_sha256 : bytes -> bytes;
  p_ripemd160 : bytes -> bytes;
  p_keccak256 : bytes -> bytes;
  p_base64 : string -> option bytes;
  p_key_ok : bytes -> bool;
  p_verify : bytes -> Z -> Z -> bytes -> bool;
  p_recover : bytes -> bytes -> option bytes;
}.

(** * EIP-55 *)

(** utils.go:537-546: one round of the loop, at position [i] with character [c].
    [hash[i/2]] cannot be out of range for the 32-byte digest and 40 characters;
    a missing byte reads as zero here. *)
Definition checksum_char (hash : bytes) (i : nat) (c : byte) : byte :=
  let h := b2z (nth (i / 2) hash (z2b 0)) in
  let nibble := if Nat.even i then h / 16 else h mod 16 in
  if (57 <? b2z c) && (7 <? nibble) then z2b (b2z c - 32) else c.

(** utils.go:528-548 encodeChecksumEIP55; wallet/utils.go:360-382. *)
Definition checksum_address (keccak : bytes -> bytes) (address : bytes) : bytes :=
  let plain := hex_encode address in
  let hash := keccak plain in
  z2b 48 :: z2b 120 :: imap (checksum_char hash) plain.

(** * Bech32 (github.com/btcsuite/btcutil/bech32, BIP 173), called at utils.go:497-501 *)

(** The bits of a byte, most significant first. (utils/utils.go:497: inside
    bech32.ConvertBits.) *)
Definition byte_bits (b : byte) : list bool :=
  map (fun i => Z.testbit (b2z b) i) [7; 6; 5; 4; 3; 2; 1; 0].

(** utils/utils.go:497: inside bech32.ConvertBits; the number written in binary. *)
Definition bits_val (l : list bool) : Z :=
  fold_left (fun acc (b : bool) => 2 * acc + (if b then 1 else 0)) l 0.

(** bech32.ConvertBits(data, 8, 5, true) at utils.go:497: groups of five bits, the
    last filled with zeros. *)
Fixpoint groups5 (l : list bool) : list Z :=
  match l with
  | [] => []
  | a :: b :: c :: d :: e :: l' => bits_val [a; b; c; d; e] :: groups5 l'
  | _ => [bits_val (take 5 (l ++ [false; false; false; false]))]
  end.

(** utils/utils.go:501: inside bech32.Encode. *)
Definition bech32_charset : bytes := bytes_of "qpzry9x8gf2tvdw0s3jn54khce6mua7l".

(** utils/utils.go:501: inside bech32.Encode. *)
Definition bech32_char (v : Z) : byte := nth (Z.to_nat v) bech32_charset (z2b 0).

(** The BCH checksum of BIP 173. (utils/utils.go:501: inside bech32.Encode.) *)
Definition polymod_step (chk v : Z) : Z :=
  let b := Z.shiftr chk 25 in
  let c := Z.lxor (Z.shiftl (Z.land chk 33554431) 5) v in
  fold_left
    (fun acc '(i, g) => if Z.testbit b i then Z.lxor acc g else acc)
    [(0, 996825010); (1, 642813549); (2, 513874426); (3, 1027748829); (4, 705979059)] c.

(** utils/utils.go:501: inside bech32.Encode. *)
Definition polymod (l : list Z) : Z := fold_left polymod_step l 1.

(** utils/utils.go:501: inside bech32.Encode. *)
Definition hrp_expand (hrp : bytes) : list Z :=
  map (fun c => b2z c / 32) hrp ++ [0] ++ map (fun c => b2z c mod 32) hrp.

(** utils/utils.go:501: inside bech32.Encode. *)
Definition bech32_checksum (hrp : bytes) (data : list Z) : list Z :=
  let m := Z.lxor (polymod (hrp_expand hrp ++ data ++ [0; 0; 0; 0; 0; 0])) 1 in
  map (fun i => Z.land (Z.shiftr m (5 * (5 - i))) 31) [0; 1; 2; 3; 4; 5].

(** bech32.Encode at utils.go:501. Its only error, a value above 31, cannot occur
    after ConvertBits. *)
Definition bech32_encode (hrp : bytes) (data : list Z) : bytes :=
  hrp ++ [z2b 49] ++ map bech32_char (data ++ bech32_checksum hrp data).

(** * Addresses *)

(** utils.go:478-503 cosmosAddressFromPublicKeyWithPrefix. *)
Definition cosmos_address (P : prims) (prefix : string) (public_key : string) : res string :=
  match hex_decode (bytes_of public_key) with
  | None => Err "encoding/hex"
  | Some b =>
      let hash := p_ripemd160 P (p_sha256 P b) in
      Ok (string_of (bech32_encode (bytes_of prefix) (groups5 (concat (map byte_bits hash)))))
  end.

(** utils.go:509-523 EthereumAddressFromPublicKey. [publicKey[2:]] panics on a
    shorter text; [[12:]] is in range of the 32-byte digest. *)
Definition ethereum_address (P : prims) (public_key : string) : res string :=
  if (String.length public_key <? 2)%nat then Panic "slice bounds out of range"
  else
    match hex_decode (drop 2 (bytes_of public_key)) with
    | None => Err "encoding/hex"
    | Some b => Ok (string_of (checksum_address (p_keccak256 P) (drop 12 (p_keccak256 P b))))
    end.

(** utils.go:66-70, 459-464 AgentAddressFromPublicKey (467-475 for the two
    prefixes). *)
Definition agent_address (P : prims) (ledger public_key : string) : res string :=
  if String.eqb ledger "fetchai" then cosmos_address P "fetch" public_key
  else if String.eqb ledger "cosmos" then cosmos_address P "cosmos" public_key
  else if String.eqb ledger "ethereum" then ethereum_address P public_key
  else Err "Unsupported ledger".

(** * Signatures of fetchai and cosmos *)

(** utils.go:273-289 ConvertStrEncodedSignatureToDER; wallet/utils.go:107-124, which
    refuses a nil slice (base64 decoding never gives one). The length bytes are
    reduced to eight bits. *)
Definition str_to_der (sig : bytes) : bytes :=
  let n := (length sig / 2)%nat in
  let rb := take n sig in
  let sb := drop n sig in
  [z2b 48; z2b (6 + Z.of_nat (length rb) + Z.of_nat (length sb) - 2);
   z2b 2; z2b (Z.of_nat (length rb))] ++ rb ++
  [z2b 2; z2b (Z.of_nat (length sb))] ++ sb.

(** Order of the secp256k1 group (btcec.S256().N). (utils/utils.go:294, 311.) *)
Definition curve_n : Z :=
  115792089237316195423570985008687907852837564279074904382605163141518161494337.

(** canonicalPadding of btcec: a DER integer is not negative and has no superfluous zero
    byte. (utils/utils.go:294, 311: inside btcec.ParseDERSignature and ParseSignature.)
    *)
Definition canonical (b : bytes) : bool :=
  match b with
  | [] => true
  | x :: l =>
      negb (128 <=? b2z x) &&
      negb ((b2z x =? 0) && match l with y :: _ => b2z y <? 128 | [] => false end)
  end.

(** parseSig of github.com/btcsuite/btcd/btcec, with [der] for ParseDERSignature
    (called at utils.go:294) and without for ParseSignature (called at
    utils.go:311). All comparisons as there, [siglen + 2] in eight bits. *)
Definition parse_sig (der : bool) (s : bytes) : option (Z * Z) :=
  match s with
  | t :: sl :: _ =>
      let n := (b2z sl + 2) mod 256 in
      if (length s <? 8)%nat then None
      else if negb (b2z t =? 48) then None
      else if (Z.of_nat (length s) <? n) || (n <? 8) then None
      else
        let s := take (Z.to_nat n) s in
        match drop 2 s with
        | m1 :: rl :: rest =>
            let rlen := Z.to_nat (b2z rl) in
            if negb (b2z m1 =? 2) then None
            else if (rlen =? 0)%nat || (length rest <? rlen + 3)%nat then None
            else
              let rb := take rlen rest in
              if der && negb (canonical rb) then None
              else
                match drop rlen rest with
                | m2 :: sl2 :: rest2 =>
                    let slen := Z.to_nat (b2z sl2) in
                    if negb (b2z m2 =? 2) then None
                    else if (slen =? 0)%nat || (length rest2 <? slen)%nat then None
                    else
                      let sb := take slen rest2 in
                      if der && negb (canonical sb) then None
                      else if negb (length rest2 =? slen)%nat then None
                      else
                        let r := be_val 0 rb in
                        let v := be_val 0 sb in
                        if (0 <? r) && (0 <? v) && (r <? curve_n) && (v <? curve_n)
                        then Some (r, v) else None
                | _ => None
                end
        | _ => None
        end
  | _ => None
  end.

(** big.Int.Bytes of a non-negative number: big-endian without leading zeros.
    (utils/utils.go:298.) *)
Fixpoint int_bytes_n (fuel : nat) (z : Z) : bytes :=
  match fuel with
  | O => []
  | S fuel' => if z <=? 0 then [] else int_bytes_n fuel' (z / 256) ++ [z2b z]
  end.
(** utils/utils.go:298: big.Int.Bytes, with enough rounds for the number. *)
Definition int_bytes (z : Z) : bytes := int_bytes_n (Z.to_nat (Z.log2 z / 8) + 1) z.

(** utils.go:293-299 ConvertDEREncodedSignatureToStr; wallet/utils.go:130-136. *)
Definition der_to_str (sig : bytes) : res bytes :=
  match parse_sig true sig with
  | None => Err "malformed signature"
  | Some (r, s) => Ok (int_bytes r ++ int_bytes s)
  end.

(** utils.go:302-313 ParseFetchAISignature; wallet/utils.go:139-153. *)
Definition parse_fetchai_signature (P : prims) (signature : string) : res (Z * Z) :=
  match p_base64 P signature with
  | None => Err "illegal base64 data"
  | Some b =>
      match parse_sig false (str_to_der b) with
      | None => Err "malformed signature"
      | Some v => Ok v
      end
  end.

(** utils.go:330-351 VerifyFetchAISignatureBTC with 254-261
    BTCPubKeyFromFetchAIPublicKey. *)
Definition verify_fetchai (P : prims) (message : bytes) (signature public_key : string) : res bool :=
  match hex_decode (bytes_of public_key) with
  | None => Err "encoding/hex"
  | Some k =>
      if negb (p_key_ok P k) then Err "pubkey"
      else
        let* v := parse_fetchai_signature P signature in
        Ok (p_verify P k v.1 v.2 (p_sha256 P message))
  end.

(** * Signatures of ethereum *)

(** utils.go:390-393 signHashETH. *)
Definition eth_message (data : bytes) : bytes :=
  z2b 25 :: bytes_of "Ethereum Signed Message:" ++ [z2b 10] ++
  bytes_of (pretty (N.of_nat (length data))) ++ data.

(** utils.go:399-418 RecoverAddressFromEthereumSignature. [sigBytes[64]] panics on
    fewer than 65 bytes. *)
Definition recover_address (P : prims) (message : bytes) (signature : string) : res string :=
  match hexutil_decode (bytes_of signature) with
  | None => Err "hex"
  | Some sig =>
      match nth_error sig 64 with
      | None => Panic "index out of range"
      | Some v =>
          if negb (b2z v =? 27) && negb (b2z v =? 28) then Err "invalid Ethereum signature"
          else
            match p_recover P (p_keccak256 P (eth_message message))
                            (take 64 sig ++ z2b (b2z v - 27) :: drop 65 sig) with
            | None => Err "recovery failed"
            | Some key =>
                Ok (string_of (checksum_address (p_keccak256 P) (drop 12 (p_keccak256 P key))))
            end
      end
  end.

(** utils.go:421-439 VerifyEthereumSignatureETH. *)
Definition verify_ethereum (P : prims) (message : bytes) (signature public_key : string) : res bool :=
  let* expected := ethereum_address P public_key in
  let* recovered := recover_address P message signature in
  if String.eqb recovered expected then Ok true
  else Err "Recovered and expected addresses don't match".

(** utils.go:71-75, 316-327 VerifyLedgerSignature. *)
Definition verify_ledger (P : prims) (ledger : string) (message : bytes)
    (signature public_key : string) : res bool :=
  if String.eqb ledger "fetchai" then verify_fetchai P message signature public_key
  else if String.eqb ledger "cosmos" then verify_fetchai P message signature public_key
  else if String.eqb ledger "ethereum" then verify_ethereum P message signature public_key
  else Err "unsupported ledger".
