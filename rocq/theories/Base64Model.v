(** Base64 text (Go's encoding/base64, StdEncoding) as used for signatures by
    /repo/libs/go/libp2p_node/utils/utils.go and /repo/libs/go/aealite/wallet/utils.go. *)
From Coq Require Import ZArith NArith List String Ascii.
From stdpp Require Import base list strings.
From Verif Require Import GoBase Bytes.
Open Scope string_scope.
Open Scope list_scope.
Open Scope Z_scope.

(** The 64 characters of base64.StdEncoding, by value. (utils/utils.go:304, 362, 386.) *)
Definition b64_alphabet : string :=
  "ABCDEFGHIJKLMNOPQRSTUVWXYZabcdefghijklmnopqrstuvwxyz0123456789+/".

(** Character of a value below 64 in EncodeToString (called at utils/utils.go:386,
    wallet/utils.go:227). *)
Definition b64_digit (v : Z) : byte := nth (Z.to_nat v) (bytes_of b64_alphabet) (z2b 0).

(** The padding character "=". (utils/utils.go:304, 362, 386.) *)
Definition b64_pad : byte := z2b 61.

(** base64.StdEncoding.EncodeToString, called at utils/utils.go:386, wallet/utils.go:227:
    three bytes as four characters; one or two last bytes are filled with zero bits and
    the text with padding. *)
Fixpoint b64_write (b : bytes) : bytes :=
  match b with
  | [] => []
  | [x] => [b64_digit (b2z x / 4); b64_digit (b2z x mod 4 * 16); b64_pad; b64_pad]
  | [x; y] =>
      [b64_digit (b2z x / 4); b64_digit (b2z x mod 4 * 16 + b2z y / 16);
       b64_digit (b2z y mod 16 * 4); b64_pad]
  | x :: y :: z :: b' =>
      b64_digit (b2z x / 4) :: b64_digit (b2z x mod 4 * 16 + b2z y / 16) ::
      b64_digit (b2z y mod 16 * 4 + b2z z / 64) :: b64_digit (b2z z mod 64) :: b64_write b'
  end.

(** As above, from bytes to a string. (utils/utils.go:386, wallet/utils.go:227.) *)
Definition base64_encode (b : bytes) : string := string_of (b64_write b).

(** decodeMap of the encoding: the value of a character, nothing for any other byte.
    (utils/utils.go:304, 362: inside DecodeString.) *)
Definition b64_value (c : byte) : option Z :=
  let z := b2z c in
  if (65 <=? z) && (z <=? 90) then Some (z - 65)
  else if (97 <=? z) && (z <=? 122) then Some (z - 71)
  else if (48 <=? z) && (z <=? 57) then Some (z + 4)
  else if z =? 43 then Some 62
  else if z =? 47 then Some 63
  else None.

(** The three bytes of four values, as decodeQuantum computes them by shifts and
    truncation. (utils/utils.go:304, 362: inside DecodeString.) *)
Definition b64_bytes (x y z w : Z) : bytes :=
  let v := 262144 * x + 4096 * y + 64 * z + w in [z2b (v / 65536); z2b (v / 256); z2b v].

(** decodeQuantum over and over: four characters each, the last with one or two padding
    characters after which nothing may follow. The encoding is not strict: the bits that
    do not make up a byte are not looked at. Input that is not of this form is an error;
    the bytes decoded before the error are dropped by all callers.
    (utils/utils.go:304, 362: inside DecodeString.) *)
Fixpoint b64_read (s : bytes) : option bytes :=
  match s with
  | [] => Some []
  | a :: b :: c :: d :: s' =>
      match b64_value a, b64_value b with
      | Some x, Some y =>
          match b64_value c with
          | Some z =>
              match b64_value d with
              | Some w =>
                  match b64_read s' with
                  | Some l => Some (b64_bytes x y z w ++ l)
                  | None => None
                  end
              | None =>
                  if (b2z d =? 61) && Nat.eqb (length s') 0
                  then Some (take 2 (b64_bytes x y z 0)) else None
              end
          | None =>
              if (b2z c =? 61) && (b2z d =? 61) && Nat.eqb (length s') 0
              then Some (take 1 (b64_bytes x y 0 0)) else None
          end
      | _, _ => None
      end
  | _ => None
  end.

(** The bytes decodeQuantum skips wherever they stand: line feed and carriage return.
    (utils/utils.go:304, 362: inside DecodeString.) *)
Definition b64_newline (c : byte) : bool := (b2z c =? 10) || (b2z c =? 13).

(** base64.StdEncoding.DecodeString, called at utils/utils.go:304, 362,
    wallet/utils.go:141, 201. decodeQuantum skips the newlines while it reads, between
    any two characters and also around the padding; here they are removed first. The
    decoding of eight or four characters at once is a faster way to the same result. *)
Definition base64_decode (s : string) : option bytes :=
  b64_read (List.filter (fun c => negb (b64_newline c)) (bytes_of s)).
