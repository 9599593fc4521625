(** The protobuf wire format, as google.golang.org/protobuf v1.25.0 (the version
    pinned in /repo/libs/go/libp2p_node/go.mod:27 and /repo/libs/go/aealite/go.mod:15)
    reads and writes it. The library is not part of /repo; this is its behaviour
    on the message types of /repo. *)
From Coq Require Import ZArith NArith List String Ascii Lia.
From stdpp Require Import base list strings.
From Verif Require Import GoBase Bytes Utf8.
Open Scope string_scope.
Open Scope list_scope.
Open Scope Z_scope.

(** * Varints *)

(** protowire.AppendVarint for a 64-bit number: at most ten bytes.
    (libp2p_node/go.mod:27: inside the protobuf library.) *)
Fixpoint put_varint_n (n : nat) (z : Z) : bytes :=
  match n with
  | O => []
  | S n' => if z <? 128 then [z2b z] else z2b (128 + z mod 128) :: put_varint_n n' (z / 128)
  end.
(** libp2p_node/go.mod:27: inside the protobuf library. *)
Definition put_varint (z : Z) : bytes := put_varint_n 10 z.

(** protowire.ConsumeVarint: the number and what is left; [None] when the input ends
    inside the number or the number does not fit in 64 bits. (libp2p_node/go.mod:27:
    inside the protobuf library.) *)
Fixpoint get_varint_n (n : nat) (l : bytes) : option (Z * bytes) :=
  match n, l with
  | O, _ => None
  | _, [] => None
  | S n', b :: r =>
      if b2z b <? 128 then
        match n' with
        | O => if b2z b <=? 1 then Some (b2z b, r) else None
        | _ => Some (b2z b, r)
        end
      else match get_varint_n n' r with
           | Some (v, rest) => Some ((b2z b - 128) + 128 * v, rest)
           | None => None
           end
  end.
(** libp2p_node/go.mod:27: inside the protobuf library. *)
Definition get_varint (l : bytes) : option (Z * bytes) := get_varint_n 10 l.

(** * Fields *)

(** A field's value on the wire. The content of fixed-size fields and groups is dropped:
    no message type of /repo has such a field, so they are only skipped.
    (libp2p_node/go.mod:27: inside the protobuf library.) *)
Inductive wval :=
| WVarint (z : Z)
| WFixed64
| WBytes (b : bytes)
| WGroup
| WFixed32.

(** libp2p_node/go.mod:27: inside the protobuf library. *)
Definition drop_exactly (n : nat) (l : bytes) : option bytes :=
  if (length l <? n)%nat then None else Some (drop n l).

(** protowire.ConsumeBytes. (libp2p_node/go.mod:27: inside the protobuf library.) *)
Definition get_bytes (l : bytes) : option (bytes * bytes) :=
  match get_varint l with
  | None => None
  | Some (n, r) =>
      if Z.of_nat (length r) <? n then None
      else Some (take (Z.to_nat n) r, drop (Z.to_nat n) r)
  end.

(** protowire.ConsumeFieldValue for all types but groups. (libp2p_node/go.mod:27: inside
    the protobuf library.) *)
Definition get_flat (typ : Z) (l : bytes) : option (wval * bytes) :=
  if typ =? 0 then match get_varint l with Some (v, r) => Some (WVarint v, r) | None => None end
  else if typ =? 1 then match drop_exactly 8 l with Some r => Some (WFixed64, r) | None => None end
  else if typ =? 2 then match get_bytes l with Some (b, r) => Some (WBytes b, r) | None => None end
  else if typ =? 5 then match drop_exactly 4 l with Some r => Some (WFixed32, r) | None => None end
  else None.

(** protowire.ConsumeTag inside a group: numbers up to 2^31-1. (libp2p_node/go.mod:27:
    inside the protobuf library.) *)
Definition get_tag (limit : Z) (l : bytes) : option (Z * Z * bytes) :=
  match get_varint l with
  | None => None
  | Some (v, r) =>
      let num := v / 8 in
      if (num <? 1) || (limit <? num) then None else Some (num, v mod 8, r)
  end.

(** protowire.ConsumeGroup: skips up to the matching end tag. Each round uses up input,
    so fuel = length of the input is enough. (libp2p_node/go.mod:27: inside the protobuf
    library.) *)
Fixpoint skip_group (fuel : nat) (num : Z) (l : bytes) : option bytes :=
  match fuel with
  | O => None
  | S fuel' =>
      match get_tag (2 ^ 31 - 1) l with
      | None => None
      | Some (n2, typ, r) =>
          if typ =? 4 then (if n2 =? num then Some r else None)
          else
            match (if typ =? 3 then skip_group fuel' n2 r
                   else match get_flat typ r with Some (_, r') => Some r' | None => None end) with
            | None => None
            | Some r' => skip_group fuel' num r'
            end
      end
  end.

(** libp2p_node/go.mod:27: inside the protobuf library. *)
Definition get_value (num typ : Z) (l : bytes) : option (wval * bytes) :=
  if typ =? 3 then
    match skip_group (length l) num l with Some r => Some (WGroup, r) | None => None end
  else get_flat typ l.

(** impl.MessageInfo.unmarshalPointer, splitting the input into fields: field numbers 1
    to 2^29-1, no end-group tag. (libp2p_node/go.mod:27: inside the protobuf library.)
    *)
Fixpoint get_fields_n (fuel : nat) (l : bytes) : option (list (Z * wval)) :=
  match l with
  | [] => Some []
  | _ =>
      match fuel with
      | O => None
      | S fuel' =>
          match get_tag (2 ^ 29 - 1) l with
          | None => None
          | Some (num, typ, r) =>
              match get_value num typ r with
              | None => None
              | Some (v, r') =>
                  match get_fields_n fuel' r' with
                  | Some fs => Some ((num, v) :: fs)
                  | None => None
                  end
              end
          end
      end
  end.
(** libp2p_node/go.mod:27: inside the protobuf library. *)
Definition get_fields (l : bytes) : option (list (Z * wval)) := get_fields_n (length l) l.

(** Writing a field; only varints and byte strings are ever written.
    (libp2p_node/go.mod:27: inside the protobuf library.) *)
Definition put_field (f : Z * wval) : bytes :=
  match f.2 with
  | WVarint z => put_varint (8 * f.1) ++ put_varint z
  | WBytes b => put_varint (8 * f.1 + 2) ++ put_varint (Z.of_nat (length b)) ++ b
  | _ => []
  end.
(** libp2p_node/go.mod:27: inside the protobuf library. *)
Definition put_fields (fs : list (Z * wval)) : bytes := concat (map put_field fs).

(** * Typed fields *)

(** Reading a message is a fold over its fields: later fields overwrite or merge, fields
    of unknown number or unexpected type are skipped. The library keeps the skipped
    fields as opaque bytes; they are not visible in the message's fields and are dropped
    here. [None] is a decoding error. (libp2p_node/go.mod:27: inside the protobuf
    library.) *)
Fixpoint fold_fields {A} (f : A -> Z -> wval -> option A) (a : A) (fs : list (Z * wval)) : option A :=
  match fs with
  | [] => Some a
  | (n, v) :: fs' => match f a n v with Some a' => fold_fields f a' fs' | None => None end
  end.

(** libp2p_node/go.mod:27: inside the protobuf library. *)
Definition decode_into {A} (f : A -> Z -> wval -> option A) (a : A) (l : bytes) : option A :=
  match get_fields l with Some fs => fold_fields f a fs | None => None end.

(** A [string] field: must be valid UTF-8. (libp2p_node/go.mod:27: inside the protobuf
    library.) *)
Definition text_of (b : bytes) : option string :=
  if utf8_valid b then Some (string_of b) else None.

(** Fields written for a value; proto3 leaves out zero values. [None]: the value cannot
    be written (invalid UTF-8). (libp2p_node/go.mod:27: inside the protobuf library.) *)
Definition w_string (num : Z) (s : string) : option (list (Z * wval)) :=
  if String.eqb s "" then Some []
  else if valid_text s then Some [(num, WBytes (bytes_of s))] else None.

(** libp2p_node/go.mod:27: inside the protobuf library. *)
Definition w_bytes (num : Z) (b : bytes) : option (list (Z * wval)) :=
  match b with [] => Some [] | _ => Some [(num, WBytes b)] end.

(** [int32] and enum fields are sign-extended to 64 bits. (libp2p_node/go.mod:27: inside
    the protobuf library.) *)
Definition w_int32 (num : Z) (z : Z) : option (list (Z * wval)) :=
  if z =? 0 then Some [] else Some [(num, WVarint (z mod 2 ^ 64))].

(** [repeated string]. (libp2p_node/go.mod:27: inside the protobuf library.) *)
Fixpoint w_strings (num : Z) (ss : list string) : option (list (Z * wval)) :=
  match ss with
  | [] => Some []
  | s :: ss' =>
      if valid_text s then
        match w_strings num ss' with
        | Some fs => Some ((num, WBytes (bytes_of s)) :: fs)
        | None => None
        end
      else None
  end.

(** A sub-message field, present ([Some]) or nil ([None]). (libp2p_node/go.mod:27:
    inside the protobuf library.) *)
Definition w_message {A} (num : Z) (enc : A -> option bytes) (m : option A) : option (list (Z * wval)) :=
  match m with
  | None => Some []
  | Some a => match enc a with Some b => Some [(num, WBytes b)] | None => None end
  end.

(** libp2p_node/go.mod:27: inside the protobuf library. *)
Fixpoint w_all (parts : list (option (list (Z * wval)))) : option (list (Z * wval)) :=
  match parts with
  | [] => Some []
  | None :: _ => None
  | Some fs :: parts' =>
      match w_all parts' with Some gs => Some (fs ++ gs) | None => None end
  end.

(** libp2p_node/go.mod:27: inside the protobuf library. *)
Definition encode_parts (parts : list (option (list (Z * wval)))) : option bytes :=
  match w_all parts with Some fs => Some (put_fields fs) | None => None end.
