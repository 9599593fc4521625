(** Model of ACN message handling on a pipe:
    /repo/libs/go/libp2p_node/acn/utils.go:88-452 and
    /repo/libs/go/libp2p_node/aea/utils.go:31-98; the same functions are in
    /repo/libs/go/aealite/connections/acn/acn.go:57-414 and
    /repo/libs/go/aealite/connections/p2pclient.go:419-482.

    Reading a frame from the pipe gives [Ok bytes] or an error (FrameModel); here the
    outcome of the read is an argument. What is written is returned as the list of
    messages. Texts in status messages are an argument [why] (they are built from
    library error texts and always valid UTF-8, so encoding them cannot fail).
    Whether the transport accepts a write is an argument where the code looks at it. *)
From Coq Require Import ZArith NArith List String Ascii.
From stdpp Require Import base list strings.
From Verif Require Import GoBase Bytes Utf8 WireModel ProtoModel PorModel.
Open Scope string_scope.
Open Scope list_scope.
Open Scope Z_scope.

(** acn/utils.go:127-144 SendAcnSuccess: the message written. *)
Definition acn_success : acn_perf := PStatus (Some (StatusBody SUCCESS [])).

(** acn/utils.go:146-169 SendAcnError: the message written. *)
Definition acn_error (code : Z) (why : string) : acn_perf := PStatus (Some (StatusBody code [why])).

(** Result of DecodeAcnMessage: the kind of message, or an error code.
    (acn/utils.go:88-113.) *)
Inductive decoded :=
| DEnvelope (env : bytes) (rec : option record)
| DStatus (body : option status_body)
| DError (code : Z).

(** acn/utils.go:88-114 DecodeAcnMessage. *)
Definition decode_acn_message (buf : bytes) : decoded :=
  match decode_acn buf with
  | None => DError ERROR_DECODE
  | Some (Some (PEnvelope env rec)) => DEnvelope env rec
  | Some (Some (PStatus body)) => DStatus body
  | Some _ => DError ERROR_UNEXPECTED_PAYLOAD
  end.

(** What HandleAcnMessageFromPipe returns: an envelope; nothing (a status was queued);
    an error. A pipe error is distinguished by its callers. (aea/utils.go:32-98.) *)
Inductive handled :=
| HEnvelope (e : envelope)
| HStatus (s : status_body)
| HPipeError
| HError.

(** aea/utils.go:31-98 HandleAcnMessageFromPipe; p2pclient.go:419-482. The messages
    written, and the result; [status.Code] on a nil body panics (line 84, 468).
    [write_ok]: the write of the acknowledgement succeeds (line 78, 462). *)
Definition handle_acn (why : string) (write_ok : bool) (read : res bytes) : list acn_perf * res handled :=
  match read with
  | Panic p => ([], Panic p)
  | Err _ => ([], Ok HPipeError)
  | Ok data =>
      match decode_acn_message data with
      | DError code => ([acn_error code why], Ok HError)
      | DEnvelope b _ =>
          match decode_envelope b with
          | None => ([acn_error ERROR_DECODE why], Ok HError)
          | Some e => ([acn_success], Ok (if write_ok then HEnvelope e else HError))
          end
      | DStatus None => ([], Panic "nil pointer dereference")
      | DStatus (Some s) => ([], Ok (HStatus s))
      end
  end.

(** acn/utils.go:203-231 ReadAgentRegistrationMessage: the record pointer of the
    register message. *)
Definition read_registration (why : string) (read : res bytes) : list acn_perf * res (option record) :=
  match read with
  | Panic p => ([], Panic p)
  | Err e => ([], Err e)
  | Ok buf =>
      match decode_acn buf with
      | None => ([acn_error ERROR_DECODE why], Err "decode")
      | Some (Some (PRegister rec)) => ([], Ok rec)
      | Some _ => ([acn_error ERROR_UNEXPECTED_PAYLOAD why], Err "Unexpected payload")
      end
  end.

(** acn/utils.go:264-298 ReadLookupRequest. *)
Definition read_lookup_request (why : string) (read : res bytes) : list acn_perf * res string :=
  match read with
  | Panic p => ([], Panic p)
  | Err e => ([], Err e)
  | Ok buf =>
      match decode_acn buf with
      | None => ([acn_error ERROR_DECODE why], Err "decode")
      | Some (Some (PLookupRequest a)) => ([], Ok a)
      | Some _ => ([acn_error ERROR_UNEXPECTED_PAYLOAD why], Err "Unexpected payload")
      end
  end.

(** acn/utils.go:313-346 ReadLookupResponse: the record pointer. A status without
    body panics (line 338). *)
Definition read_lookup_response (read : res bytes) : res (option record) :=
  match read with
  | Panic p => Panic p
  | Err e => Err e
  | Ok buf =>
      match decode_acn buf with
      | None => Err "decode"
      | Some (Some (PLookupResponse rec)) => Ok rec
      | Some (Some (PStatus None)) => Panic "nil pointer dereference"
      | Some (Some (PStatus (Some _))) => Err "Failed agent lookup response"
      | Some _ => Err "Unexpected Acn Message"
      end
  end.

(** acn/utils.go:401-430 ReadAcnStatus: the body pointer. *)
Definition read_status (read : res bytes) : res (option status_body) :=
  match read with
  | Panic p => Panic p
  | Err e => Err e
  | Ok buf =>
      match decode_acn buf with
      | None => Err "decode"
      | Some (Some (PStatus body)) => Ok body
      | Some _ => Err "Unexpected Acn Message"
      end
  end.

(** acn/utils.go:376-399 SendAgentRegisterMessage, after the write: the outcome of
    the registration. [status.Code] on a nil body panics (line 395). *)
Definition register_outcome (read : res bytes) : res unit :=
  let* body := read_status read in
  match body with
  | None => Panic "nil pointer dereference"
  | Some s => if sb_code s =? SUCCESS then Ok tt else Err "Registration failed"
  end.

(** acn/utils.go:432-452 ReadEnvelopeMessage: a status message is an error without
    an answer. *)
Definition read_envelope_message (why : string) (read : res bytes)
    : list acn_perf * res (bytes * option record) :=
  match read with
  | Panic p => ([], Panic p)
  | Err e => ([], Err e)
  | Ok buf =>
      match decode_acn_message buf with
      | DError code => ([acn_error code why], Err "acn error")
      | DEnvelope env rec => ([], Ok (env, rec))
      | DStatus _ => ([], Err "unexpected payload for acn message")
      end
  end.
