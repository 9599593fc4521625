(** Hexadecimal text (Go's encoding/hex and go-ethereum's common/hexutil) as used by
    /repo/libs/go/libp2p_node/utils/utils.go and /repo/libs/go/aealite/wallet/utils.go. *)
From Coq Require Import ZArith NArith List String Ascii.
From stdpp Require Import base list strings.
From Verif Require Import GoBase Bytes.
Open Scope string_scope.
Open Scope list_scope.
Open Scope Z_scope.

(** Digit of a value below 16 in hex.EncodeToString (called at utils.go:250, 529). *)
Definition hex_digit (v : Z) : byte := if v <? 10 then z2b (48 + v) else z2b (87 + v).

(** hex.EncodeToString, called at utils/utils.go:250, 529 and wallet/utils.go:84, 361. *)
Fixpoint hex_encode (b : bytes) : bytes :=
  match b with
  | [] => []
  | x :: b' => hex_digit (b2z x / 16) :: hex_digit (b2z x mod 16) :: hex_encode b'
  end.

(** Value of a hex digit, both cases (encoding/hex fromHexChar). (utils/utils.go:481,
    512, 552, 572, 601.) *)
Definition hex_value (c : byte) : option Z :=
  let z := b2z c in
  if (48 <=? z) && (z <=? 57) then Some (z - 48)
  else if (97 <=? z) && (z <=? 102) then Some (z - 87)
  else if (65 <=? z) && (z <=? 70) then Some (z - 55)
  else None.

(** hex.DecodeString, called at utils/utils.go:255, 481, 512 and wallet/utils.go:89,
    313, 344: pairs of digits; a bad digit or an odd number of digits is an error. *)
Fixpoint hex_decode (s : bytes) : option bytes :=
  match s with
  | [] => Some []
  | [_] => None
  | h :: l :: s' =>
      match hex_value h, hex_value l, hex_decode s' with
      | Some x, Some y, Some b => Some (z2b (16 * x + y) :: b)
      | _, _, _ => None
      end
  end.

(** hexutil.Decode, called at utils/utils.go:401 and wallet/utils.go:242: "0x" or
    "0X", then hex digits. *)
Definition hexutil_decode (s : bytes) : option bytes :=
  match s with
  | z :: x :: s' =>
      if (b2z z =? 48) && ((b2z x =? 120) || (b2z x =? 88)) then hex_decode s' else None
  | _ => None
  end.
