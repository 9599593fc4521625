(** Model of the conversions between key texts, keys and peer ids, and of signing:
    /repo/libs/go/libp2p_node/utils/utils.go:239-266, 354-388, 441-455, 551-608;
    /repo/libs/go/aealite/wallet/utils.go:73-100, 193-231, 282-297, 384-406 (the same
    functions). *)
From Coq Require Import ZArith NArith List String Ascii.
From stdpp Require Import base list strings.
From Verif Require Import GoBase Bytes HexModel CryptoModel.
Open Scope string_scope.
Open Scope list_scope.
Open Scope Z_scope.

(** What hex.DecodeString returns beside its error, when the error is thrown away
    (utils/utils.go:240, wallet/utils.go:74): the bytes of the pairs of digits before
    the first character that is not one. *)
Fixpoint hex_prefix (s : bytes) : bytes :=
  match s with
  | h :: l :: s' =>
      match hex_value h, hex_value l with
      | Some x, Some y => z2b (16 * x + y) :: hex_prefix s'
      | _, _ => []
      end
  | _ => []
  end.

Section Key.
  (** Points of the curve with the calls made of btcec and libp2p: ParsePubKey (utils/
      utils.go:259, 557, 581; wallet/utils.go:93, 394; UnmarshalSecp256k1PublicKey at 241
      and 75 is the same), SerializeCompressed (606; PubKey.Raw at 246 is the same), the
      public key of PrivKeyFromBytes (447, 605), Signature.Verify, PrivKey.Sign (378: DER
      form, or an error), base64 encoding (386), peer.IDFromPublicKey (562, 591; it does
      not fail for such a key). *)
  Context (pt : Type) (P : prims).
  Context (parse : bytes -> option pt) (compress : pt -> bytes) (pub_of : bytes -> pt).
  Context (check : pt -> Z -> Z -> bytes -> bool) (sign : bytes -> bytes -> option bytes).
  Context (b64 : bytes -> string) (peer_id : pt -> string).

  (** utils/utils.go:259, 557, 581: ParsePubKey with its error. *)
  Definition parsed (b : bytes) : res pt :=
    match parse b with Some p => Ok p | None => Err "pubkey" end.

  (** utils/utils.go:239-242, wallet/utils.go:73-76 PubKeyFromFetchAIPublicKey. *)
  Definition lenient_key (text : string) : res pt := parsed (hex_prefix (bytes_of text)).

  (** utils/utils.go:254-261, wallet/utils.go:88-95 BTCPubKeyFromFetchAIPublicKey. *)
  Definition strict_key (text : string) : res pt :=
    match hex_decode (bytes_of text) with
    | None => Err "encoding/hex"
    | Some b => parsed b
    end.

  (** utils/utils.go:245-251, wallet/utils.go:79-85 FetchAIPublicKeyFromPubKey. *)
  Definition key_text (p : pt) : string := string_of (hex_encode (compress p)).

  (** utils/utils.go:570-582, wallet/utils.go:384-396 BTCPubKeyFromUncompressedHex. *)
  Definition uncompressed_key (text : string) : res pt :=
    match hex_decode (bytes_of text) with
    | None => Err "encoding/hex"
    | Some b => parsed (z2b 4 :: b)
    end.

  (** utils/utils.go:265-267, wallet/utils.go:99-101 BTCPubKeyFromEthereumPublicKey. *)
  Definition ethereum_key (text : string) : res pt :=
    if (String.length text <? 2)%nat then Panic "slice bounds out of range"
    else uncompressed_key (string_of (drop 2 (bytes_of text))).

  (** utils/utils.go:551-567 IDFromFetchAIPublicKey. *)
  Definition id_of_text (text : string) : res string :=
    let* p := strict_key text in Ok (peer_id p).

  (** utils/utils.go:585-597 IDFromFetchAIPublicKeyUncompressed. *)
  Definition id_of_uncompressed (text : string) : res string :=
    let* p := uncompressed_key text in Ok (peer_id p).

  (** utils/utils.go:441-455, wallet/utils.go:282-295 KeyPairFromFetchAIKey: the private
      key, by its bytes, and the public key. *)
  Definition key_pair (key : string) : res (bytes * pt) :=
    match hex_decode (bytes_of key) with
    | None => Err "encoding/hex"
    | Some b => Ok (b, pub_of b)
    end.

  (** utils/utils.go:600-608, wallet/utils.go:398-406
      FetchAIPublicKeyFromFetchAIPrivateKey. *)
  Definition text_of_private (key : string) : res string :=
    match hex_decode (bytes_of key) with
    | None => Err "encoding/hex"
    | Some b => Ok (string_of (hex_encode (compress (pub_of b))))
    end.

  (** utils/utils.go:373-388, wallet/utils.go:214-229 SignFetchAI. *)
  Definition sign_fetchai (message : bytes) (key : string) : res string :=
    let* kp := key_pair key in
    match sign kp.1 message with
    | None => Err "sign"
    | Some der => let* text := der_to_str der in Ok (b64 text)
    end.

  (** Verify of a libp2p secp256k1 key (utils/utils.go:370, tcpsocket.go:73): the
      signature must be strict DER; the digest is SHA-256. *)
  Definition libp2p_verify (p : pt) (data sig : bytes) : res bool :=
    match parse_sig true sig with
    | None => Err "malformed signature"
    | Some (r, s) => Ok (check p r s (p_sha256 P data))
    end.

  (** utils/utils.go:354-371, wallet/utils.go:193-212 VerifyFetchAISignatureLibp2p. *)
  Definition verify_libp2p (message : bytes) (signature public_key : string) : res bool :=
    let* p := lenient_key public_key in
    match p_base64 P signature with
    | None => Err "illegal base64 data"
    | Some b => libp2p_verify p message (str_to_der b)
    end.
End Key.
