(** The protobuf messages of /repo and their binary form. *)
From Coq Require Import ZArith NArith List String Ascii.
From stdpp Require Import base list strings.
From Verif Require Import GoBase Bytes Utf8 WireModel.
Open Scope string_scope.
Open Scope list_scope.
Open Scope Z_scope.

(** * Envelope *)

(** /repo/libs/go/libp2p_node/aea/envelope.proto:6-12 and
    /repo/libs/go/aealite/protocols/base.proto:25-31 (the same fields). *)
Record envelope := Envelope {
  e_to : string;
  e_sender : string;
  e_protocol : string;
  e_message : bytes;
  e_uri : string;
}.
(** aea/envelope.proto:6-12: all fields zero. *)
Definition envelope0 := Envelope "" "" "" [] "".

(** proto.Marshal on an Envelope. (aea/envelope.proto:6-12.) *)
Definition encode_envelope (e : envelope) : option bytes :=
  encode_parts [w_string 1 (e_to e); w_string 2 (e_sender e); w_string 3 (e_protocol e);
                w_bytes 4 (e_message e); w_string 5 (e_uri e)].

(** aea/envelope.proto:6-12. *)
Definition envelope_field (e : envelope) (num : Z) (v : wval) : option envelope :=
  match v with
  | WBytes b =>
      match num with
      | 1 => match text_of b with Some s => Some (Envelope s (e_sender e) (e_protocol e) (e_message e) (e_uri e)) | None => None end
      | 2 => match text_of b with Some s => Some (Envelope (e_to e) s (e_protocol e) (e_message e) (e_uri e)) | None => None end
      | 3 => match text_of b with Some s => Some (Envelope (e_to e) (e_sender e) s (e_message e) (e_uri e)) | None => None end
      | 4 => Some (Envelope (e_to e) (e_sender e) (e_protocol e) b (e_uri e))
      | 5 => match text_of b with Some s => Some (Envelope (e_to e) (e_sender e) (e_protocol e) (e_message e) s) | None => None end
      | _ => Some e
      end
  | _ => Some e
  end.

(** proto.Unmarshal into an Envelope. (aea/envelope.proto:6-12.) *)
Definition decode_envelope (l : bytes) : option envelope := decode_into envelope_field envelope0 l.

(** * Agent record *)

(** /repo/libs/go/libp2p_node/protocols/acn/v1_0_0/acn.proto:10-19. *)
Record record := Record_ {
  r_service : string;
  r_ledger : string;
  r_address : string;
  r_public_key : string;
  r_peer_key : string;
  r_signature : string;
  r_not_before : string;
  r_not_after : string;
}.
(** acn.proto:10-19: all fields zero. *)
Definition record0 := Record_ "" "" "" "" "" "" "" "".

(** acn.proto:10-19, proto.Marshal. *)
Definition encode_record (r : record) : option bytes :=
  encode_parts [w_string 1 (r_service r); w_string 2 (r_ledger r); w_string 3 (r_address r);
                w_string 4 (r_public_key r); w_string 5 (r_peer_key r); w_string 6 (r_signature r);
                w_string 7 (r_not_before r); w_string 8 (r_not_after r)].

(** acn.proto:10-19. *)
Definition record_field (r : record) (num : Z) (v : wval) : option record :=
  match v with
  | WBytes b =>
      let set (f : string -> record) := match text_of b with Some s => Some (f s) | None => None end in
      let '(Record_ a1 a2 a3 a4 a5 a6 a7 a8) := r in
      match num with
      | 1 => set (fun s => Record_ s a2 a3 a4 a5 a6 a7 a8)
      | 2 => set (fun s => Record_ a1 s a3 a4 a5 a6 a7 a8)
      | 3 => set (fun s => Record_ a1 a2 s a4 a5 a6 a7 a8)
      | 4 => set (fun s => Record_ a1 a2 a3 s a5 a6 a7 a8)
      | 5 => set (fun s => Record_ a1 a2 a3 a4 s a6 a7 a8)
      | 6 => set (fun s => Record_ a1 a2 a3 a4 a5 s a7 a8)
      | 7 => set (fun s => Record_ a1 a2 a3 a4 a5 a6 s a8)
      | 8 => set (fun s => Record_ a1 a2 a3 a4 a5 a6 a7 s)
      | _ => Some r
      end
  | _ => Some r
  end.

(** acn.proto:10-19, proto.Unmarshal. *)
Definition decode_record (l : bytes) : option record := decode_into record_field record0 l.

(** * ACN messages *)

(** acn.proto:21-40 StatusBody; the enum is open, so the code is any [int32]. *)
Record status_body := StatusBody { sb_code : Z; sb_msgs : list string }.
(** acn.proto:21-40: all fields zero. *)
Definition status_body0 := StatusBody 0 [].

(** acn.proto:44-72: the performatives. A nil pointer is [None]. *)
Inductive acn_perf :=
| PEnvelope (env : bytes) (rec : option record)
| PLookupRequest (addr : string)
| PLookupResponse (rec : option record)
| PRegister (rec : option record)
| PStatus (body : option status_body).

(** acn.proto:5 AcnMessage: the oneof, [None] when it is not set. *)
Definition acn := option acn_perf.

(** acn.proto:21-40, proto.Marshal. *)
Definition encode_status_body (s : status_body) : option bytes :=
  encode_parts [w_int32 1 (sb_code s); w_strings 2 (sb_msgs s)].

(** acn.proto:44-73. *)
Definition encode_performative (p : acn_perf) : option (Z * bytes) :=
  let at_ num o := match o with Some b => Some (num, b) | None => None end in
  match p with
  | PEnvelope env rec => at_ 5 (encode_parts [w_bytes 1 env; w_message 2 encode_record rec])
  | PLookupRequest a => at_ 6 (encode_parts [w_string 1 a])
  | PLookupResponse rec => at_ 7 (encode_parts [w_message 1 encode_record rec])
  | PRegister rec => at_ 8 (encode_parts [w_message 1 encode_record rec])
  | PStatus body => at_ 9 (encode_parts [w_message 1 encode_status_body body])
  end.

(** proto.Marshal on an AcnMessage. (acn.proto:7-73.) *)
Definition encode_acn (m : acn) : option bytes :=
  match m with
  | None => Some []
  | Some p =>
      match encode_performative p with
      | Some (num, b) => Some (put_fields [(num, WBytes b)])
      | None => None
      end
  end.

(** acn.proto:21-40. *)
Definition status_field (s : status_body) (num : Z) (v : wval) : option status_body :=
  match num, v with
  | 1, WVarint z => Some (StatusBody (wrap32 z) (sb_msgs s))
  | 2, WBytes b =>
      match text_of b with Some t => Some (StatusBody (sb_code s) (sb_msgs s ++ [t])) | None => None end
  | _, _ => Some s
  end.

(** No counterpart in /repo. *)
Definition or_else {A} (d : A) (o : option A) : A := match o with Some a => a | None => d end.

(** A field holding an optional sub-message: read into the present value. (acn.proto:45,
    53, 58, 62.) *)
Definition merge_message {A} (f : A -> Z -> wval -> option A) (zero : A)
    (cur : option A) (b : bytes) : option (option A) :=
  match decode_into f (or_else zero cur) b with Some a => Some (Some a) | None => None end.

(** One optional record at field [at_]. (acn.proto:45, 53.) *)
Definition opt_record_field (at_ : Z) (r : option record) (num : Z) (v : wval) : option (option record) :=
  match v with
  | WBytes b => if num =? at_ then merge_message record_field record0 r b else Some r
  | _ => Some r
  end.

(** acn.proto:56-59. *)
Definition aea_envelope_field (x : bytes * option record) (num : Z) (v : wval)
    : option (bytes * option record) :=
  match num, v with
  | 1, WBytes b => Some (b, x.2)
  | 2, WBytes b =>
      match merge_message record_field record0 x.2 b with Some r => Some (x.1, r) | None => None end
  | _, _ => Some x
  end.

(** acn.proto:48-50. *)
Definition lookup_request_field (a : string) (num : Z) (v : wval) : option string :=
  match num, v with
  | 1, WBytes b => text_of b
  | _, _ => Some a
  end.

(** acn.proto:61-63. *)
Definition status_performative_field (s : option status_body) (num : Z) (v : wval)
    : option (option status_body) :=
  match num, v with
  | 1, WBytes b => merge_message status_field status_body0 s b
  | _, _ => Some s
  end.

(** The oneof: a field of the performative already held is merged into it, any other
    replaces it. (acn.proto:66-72.) *)
Definition acn_field (m : acn) (num : Z) (v : wval) : option acn :=
  match num, v with
  | 5, WBytes b =>
      let cur := match m with Some (PEnvelope e r) => (e, r) | _ => ([], None) end in
      match decode_into aea_envelope_field cur b with
      | Some (e, r) => Some (Some (PEnvelope e r)) | None => None end
  | 6, WBytes b =>
      let cur := match m with Some (PLookupRequest a) => a | _ => "" end in
      match decode_into lookup_request_field cur b with
      | Some a => Some (Some (PLookupRequest a)) | None => None end
  | 7, WBytes b =>
      let cur := match m with Some (PLookupResponse r) => r | _ => None end in
      match decode_into (opt_record_field 1) cur b with
      | Some r => Some (Some (PLookupResponse r)) | None => None end
  | 8, WBytes b =>
      let cur := match m with Some (PRegister r) => r | _ => None end in
      match decode_into (opt_record_field 1) cur b with
      | Some r => Some (Some (PRegister r)) | None => None end
  | 9, WBytes b =>
      let cur := match m with Some (PStatus s) => s | _ => None end in
      match decode_into status_performative_field cur b with
      | Some s => Some (Some (PStatus s)) | None => None end
  | _, _ => Some m
  end.

(** proto.Unmarshal into an AcnMessage. (acn.proto:7-73.) *)
Definition decode_acn (l : bytes) : option acn := decode_into acn_field None l.

(** * Dialogue messages *)

(** /repo/libs/go/aealite/protocols/base.proto:10-16. *)
Record dmsg := DMsg {
  dm_id : Z;
  dm_starter : string;
  dm_responder : string;
  dm_target : Z;
  dm_content : bytes;
}.
(** aealite/protocols/base.proto:10-16: all fields zero. *)
Definition dmsg0 := DMsg 0 "" "" 0 [].

(** aealite/protocols/base.proto:10-16, proto.Marshal. *)
Definition encode_dmsg (m : dmsg) : option bytes :=
  encode_parts [w_int32 1 (dm_id m); w_string 2 (dm_starter m); w_string 3 (dm_responder m);
                w_int32 4 (dm_target m); w_bytes 5 (dm_content m)].

(** aealite/protocols/base.proto:10-16. *)
Definition dmsg_field (m : dmsg) (num : Z) (v : wval) : option dmsg :=
  let '(DMsg i s r t c) := m in
  match num, v with
  | 1, WVarint z => Some (DMsg (wrap32 z) s r t c)
  | 2, WBytes b => match text_of b with Some x => Some (DMsg i x r t c) | None => None end
  | 3, WBytes b => match text_of b with Some x => Some (DMsg i s x t c) | None => None end
  | 4, WVarint z => Some (DMsg i s r (wrap32 z) c)
  | 5, WBytes b => Some (DMsg i s r t b)
  | _, _ => Some m
  end.

(** base.proto:18-23 Message, seen through GetDialogueMessage: the dialogue
    message, or nil when the oneof is not set or holds a [body]. *)
Definition encode_message (m : dmsg) : option bytes :=
  match encode_dmsg m with Some b => Some (put_fields [(2, WBytes b)]) | None => None end.

Section MessageDecoding.
  (** Whether bytes are a valid google.protobuf.Struct (first argument: what was
      read into it before); the library's, not modelled. *)
  Context (struct_ok : bytes -> bytes -> bool).

  (** State: the body read so far (as bytes), or the dialogue message.
      (aealite/protocols/base.proto:18-23.) *)
  Inductive msg_state := MNone | MBody (b : bytes) | MDialogue (m : dmsg).

  (** aealite/protocols/base.proto:18-23. *)
  Definition message_field (s : msg_state) (num : Z) (v : wval) : option msg_state :=
    match num, v with
    | 1, WBytes b =>
        let cur := match s with MBody c => c | _ => [] end in
        if struct_ok cur b then Some (MBody (cur ++ b)) else None
    | 2, WBytes b =>
        let cur := match s with MDialogue m => m | _ => dmsg0 end in
        match decode_into dmsg_field cur b with Some m => Some (MDialogue m) | None => None end
    | _, _ => Some s
    end.

  (** aealite/protocols/base.proto:18-23, proto.Unmarshal. *)
  Definition decode_message (l : bytes) : option (option dmsg) :=
    match decode_into message_field MNone l with
    | Some (MDialogue m) => Some (Some m)
    | Some _ => Some None
    | None => None
    end.
End MessageDecoding.
