(** Model of the text forms of dialogue labels:
    /repo/libs/go/aealite/protocols/dialogue_label.go:87-137. *)
From Coq Require Import ZArith NArith List String Ascii.
From stdpp Require Import base gmap list strings.
From Verif Require Import GoBase Bytes Utf8 DialogueModel.
Open Scope string_scope.
Open Scope list_scope.
Open Scope Z_scope.

(** * String form *)

(** dialogue.go:39 DialogueLabelStringSeparator. *)
Definition separator : ascii := "_"%char.

(** strings.Join with the separator. (protocols/dialogue_label.go:121.) *)
Fixpoint join (parts : list string) : string :=
  match parts with
  | [] => ""
  | [p] => p
  | p :: rest => (p ++ String separator (join rest))%string
  end.

(** strings.Split at the separator (one character): the parts between the separators, at
    least one. (protocols/dialogue_label.go:129.) *)
Fixpoint split (s : string) : list string :=
  match s with
  | "" => [""]
  | String c s' =>
      if Ascii.eqb c separator then "" :: split s'
      else match split s' with
           | [] => [String c ""]
           | p :: ps => String c p :: ps
           end
  end.

(** dialogue_label.go:120-125 String. *)
Definition label_string (l : dlabel) : string :=
  join [starter_ref (lb_ref l); responder_ref (lb_ref l); lb_opponent l; lb_starter l].

(** dialogue_label.go:128-137 FromString; on an error the label is left as it
    was, so only the success value is returned. *)
Definition label_from_string (s : string) : res dlabel :=
  match split s with
  | [a; b; c; d] => Ok (DLabel (DRef a b) c d)
  | _ => Err "expected exactly 4 parts"
  end.

(** * JSON form *)

(** protocols/dialogue_label.go:88-101. *)
Definition quote : byte := ascii_of_N 34.
(** protocols/dialogue_label.go:88-101. *)
Definition backslash : byte := ascii_of_N 92.

(** dialogue_label.go:89-94: the four members. *)
Definition label_members (l : dlabel) : list (string * string) :=
  [("dialogue_starter_reference", starter_ref (lb_ref l));
   ("dialogue_responder_reference", responder_ref (lb_ref l));
   ("dialogue_opponent_addr", lb_opponent l);
   ("dialogue_starter_addr", lb_starter l)].

(** dialogue_label.go:97: one member, with a comma behind. The value is written
    as it is, without escaping. *)
Definition member_text (kv : string * string) : bytes :=
  [quote] ++ bytes_of kv.1 ++ [quote] ++ bytes_of ": " ++
  [quote] ++ bytes_of kv.2 ++ [quote] ++ bytes_of ",".

(** dialogue_label.go:88-102 MarshalJSON. Go iterates over the map in an
    unspecified order: [members] is the order of this run, a permutation of
    [label_members l]. The last comma is cut off. *)
Definition marshal_members (members : list (string * string)) : bytes :=
  let text := bytes_of "{" ++ concat (map member_text members) in
  take (length text - 1) text ++ bytes_of "}".

(** Decoding, encoding/json.Unmarshal into a map[string]string. The standard
    library's documented behaviour; the text is accepted iff it is [null] or an
    object whose values are strings or [null] (a [null] member becomes the empty
    string). Every other JSON value is a type error, every other text a syntax
    error, so that all of them are [Err] here. *)

(** protocols/dialogue_label.go:107: inside json.Unmarshal. *)
Definition is_space (b : byte) : bool :=
  (b2z b =? 32) || (b2z b =? 9) || (b2z b =? 13) || (b2z b =? 10).

(** protocols/dialogue_label.go:107: inside json.Unmarshal. *)
Fixpoint skip_space (l : bytes) : bytes :=
  match l with
  | b :: r => if is_space b then skip_space r else l
  | [] => []
  end.

(** A string literal is a sequence of raw bytes and \u escapes.
    (protocols/dialogue_label.go:107: inside json.Unmarshal.) *)
Inductive unit_ := Raw (b : byte) | Uni (code : Z).

(** protocols/dialogue_label.go:107: inside json.Unmarshal. *)
Definition hex_digit (b : byte) : option Z :=
  let z := b2z b in
  if (48 <=? z) && (z <=? 57) then Some (z - 48)
  else if (97 <=? z) && (z <=? 102) then Some (z - 87)
  else if (65 <=? z) && (z <=? 70) then Some (z - 55)
  else None.

(** protocols/dialogue_label.go:107: inside json.Unmarshal. *)
Definition hex4 (a b c d : byte) : option Z :=
  match hex_digit a, hex_digit b, hex_digit c, hex_digit d with
  | Some x, Some y, Some z, Some w => Some (((x * 16 + y) * 16 + z) * 16 + w)
  | _, _, _, _ => None
  end.

(** protocols/dialogue_label.go:107: inside json.Unmarshal. *)
Definition simple_escape (b : byte) : option byte :=
  let z := b2z b in
  if (z =? 34) || (z =? 92) || (z =? 47) then Some b
  else if z =? 98 then Some (z2b 8)
  else if z =? 102 then Some (z2b 12)
  else if z =? 110 then Some (z2b 10)
  else if z =? 114 then Some (z2b 13)
  else if z =? 116 then Some (z2b 9)
  else None.

(** The body of a string literal, after the opening quote: its units and the text behind
    the closing quote. (protocols/dialogue_label.go:107: inside json.Unmarshal.) *)
Fixpoint scan_string (l : bytes) : option (list unit_ * bytes) :=
  match l with
  | [] => None
  | c :: r =>
      if Ascii.eqb c quote then Some ([], r)
      else if Ascii.eqb c backslash then
        match r with
        | [] => None
        | e :: r1 =>
            if b2z e =? 117 then
              match r1 with
              | h1 :: h2 :: h3 :: h4 :: r2 =>
                  match hex4 h1 h2 h3 h4, scan_string r2 with
                  | Some n, Some (us, rest) => Some (Uni n :: us, rest)
                  | _, _ => None
                  end
              | _ => None
              end
            else
              match simple_escape e, scan_string r1 with
              | Some b, Some (us, rest) => Some (Raw b :: us, rest)
              | _, _ => None
              end
        end
      else if b2z c <? 32 then None
      else
        match scan_string r with
        | Some (us, rest) => Some (Raw c :: us, rest)
        | None => None
        end
  end.

(** utf8.EncodeRune for a code point that is not a surrogate.
    (protocols/dialogue_label.go:107: inside json.Unmarshal.) *)
Definition encode_rune (n : Z) : bytes :=
  if n <? 128 then [z2b n]
  else if n <? 2048 then [z2b (192 + n / 64); z2b (128 + n mod 64)]
  else if n <? 65536 then
    [z2b (224 + n / 4096); z2b (128 + (n / 64) mod 64); z2b (128 + n mod 64)]
  else [z2b (240 + n / 262144); z2b (128 + (n / 4096) mod 64);
        z2b (128 + (n / 64) mod 64); z2b (128 + n mod 64)].

(** U+FFFD, written for everything that is not text. (protocols/dialogue_label.go:107:
    inside json.Unmarshal.) *)
Definition replacement : bytes := encode_rune 65533.

(** protocols/dialogue_label.go:107: inside json.Unmarshal. *)
Definition high_surrogate (n : Z) : bool := (55296 <=? n) && (n <=? 56319).
(** protocols/dialogue_label.go:107: inside json.Unmarshal. *)
Definition low_surrogate (n : Z) : bool := (56320 <=? n) && (n <=? 57343).

(** The bytes of the literal (json: unquote). (protocols/dialogue_label.go:107: inside
    json.Unmarshal.) *)
Fixpoint unquote (us : list unit_) : bytes :=
  match us with
  | [] => []
  | Uni n :: us1 =>
      if high_surrogate n then
        match us1 with
        | Uni m :: us2 =>
            if low_surrogate m
            then encode_rune (65536 + (n - 55296) * 1024 + (m - 56320)) ++ unquote us2
            else replacement ++ unquote us1
        | _ => replacement ++ unquote us1
        end
      else if low_surrogate n then replacement ++ unquote us1
      else encode_rune n ++ unquote us1
  | Raw b0 :: us1 =>
      if rune1 b0 then b0 :: unquote us1
      else match us1 with
      | Raw b1 :: us2 =>
          if rune2 b0 b1 then b0 :: b1 :: unquote us2
          else match us2 with
          | Raw b2 :: us3 =>
              if rune3 b0 b1 b2 then b0 :: b1 :: b2 :: unquote us3
              else match us3 with
              | Raw b3 :: us4 =>
                  if rune4 b0 b1 b2 b3 then b0 :: b1 :: b2 :: b3 :: unquote us4
                  else replacement ++ unquote us1
              | _ => replacement ++ unquote us1
              end
          | _ => replacement ++ unquote us1
          end
      | _ => replacement ++ unquote us1
      end
  end.

(** A string literal including its opening quote. (protocols/dialogue_label.go:107:
    inside json.Unmarshal.) *)
Definition parse_string (l : bytes) : option (string * bytes) :=
  match l with
  | c :: r =>
      if Ascii.eqb c quote then
        match scan_string r with
        | Some (us, rest) => Some (string_of (unquote us), rest)
        | None => None
        end
      else None
  | [] => None
  end.

(** protocols/dialogue_label.go:107: inside json.Unmarshal. *)
Definition expect (b : Z) (l : bytes) : option bytes :=
  match l with
  | c :: r => if b2z c =? b then Some r else None
  | [] => None
  end.

(** A member's value: a string or [null]. (protocols/dialogue_label.go:107: inside
    json.Unmarshal.) *)
Definition parse_value (l : bytes) : option (string * bytes) :=
  match l with
  | n :: u :: l1 :: l2 :: r =>
      if (b2z n =? 110) && (b2z u =? 117) && (b2z l1 =? 108) && (b2z l2 =? 108)
      then Some ("", r) else parse_string l
  | _ => parse_string l
  end.

(** The members behind an opening brace, at least one. [fuel] bounds their number.
    (protocols/dialogue_label.go:107: inside json.Unmarshal.) *)
Fixpoint parse_members (fuel : nat) (m : gmap string string) (l : bytes)
    : option (gmap string string * bytes) :=
  match fuel with
  | O => None
  | S fuel' =>
      match parse_string (skip_space l) with
      | None => None
      | Some (k, l1) =>
          match expect 58 (skip_space l1) with
          | None => None
          | Some l2 =>
              match parse_value (skip_space l2) with
              | None => None
              | Some (v, l3) =>
                  let m' := <[k := v]> m in
                  let l4 := skip_space l3 in
                  match expect 44 l4 with
                  | Some l5 => parse_members fuel' m' l5
                  | None =>
                      match expect 125 l4 with
                      | Some l5 => Some (m', l5)
                      | None => None
                      end
                  end
              end
          end
      end
  end.

(** protocols/dialogue_label.go:107: inside json.Unmarshal. *)
Definition json_unmarshal (l : bytes) : res (gmap string string) :=
  let l0 := skip_space l in
  match expect 123 l0 with
  | Some l1 =>
      match expect 125 (skip_space l1) with
      | Some rest => match skip_space rest with [] => Ok ∅ | _ => Err "invalid character" end
      | None =>
          match parse_members (length l) ∅ l1 with
          | Some (m, rest) => match skip_space rest with [] => Ok m | _ => Err "invalid character" end
          | None => Err "invalid character"
          end
      end
  | None =>
      match l0 with
      | [n; u; l1; l2] =>
          if (b2z n =? 110) && (b2z u =? 117) && (b2z l1 =? 108) && (b2z l2 =? 108)
          then Ok ∅ else Err "invalid character"
      | n :: u :: l1 :: l2 :: r =>
          if (b2z n =? 110) && (b2z u =? 117) && (b2z l1 =? 108) && (b2z l2 =? 108) &&
             match skip_space r with [] => true | _ => false end
          then Ok ∅ else Err "invalid character"
      | _ => Err "invalid character"
      end
  end.

(** A missing key reads as the empty string. (protocols/dialogue_label.go:111-117.) *)
Definition member (m : gmap string string) (k : string) : string :=
  match m !! k with Some v => v | None => "" end.

(** dialogue_label.go:105-117 UnmarshalJSON. *)
Definition unmarshal_label (l : bytes) : res dlabel :=
  let* m := json_unmarshal l in
  Ok (DLabel (DRef (member m "dialogue_starter_reference")
                   (member m "dialogue_responder_reference"))
             (member m "dialogue_opponent_addr") (member m "dialogue_starter_addr")).
