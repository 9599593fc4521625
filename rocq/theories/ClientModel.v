(** Model of a client node (a node that reaches the network through a relay peer):
    /repo/libs/go/libp2p_node/dht/dhtclient/dhtclient.go:95-133, 298-365, 429-722.

    Timers, library calls and the relay's and peers' answers are arguments. Logging is
    left out. *)
From Coq Require Import ZArith NArith List String Ascii.
From stdpp Require Import base list strings.
From Verif Require Import GoBase Bytes Utf8 WireModel ProtoModel CryptoModel PorModel AcnModel RouteModel.
Open Scope string_scope.
Open Scope list_scope.
Open Scope Z_scope.

(** The configuration (dhtclient.go:146-156); New (187-202) refuses a nil record. *)
Record client := Client { c_addr : string; c_record : record; c_handler : bool }.

(** One round of a retry loop: whether the context is done when [select] looks, and
    whether the attempt made otherwise succeeds. (dhtclient.go:304-328 and 342-360.) *)
Record attempt := Attempt { at_expired : bool; at_ok : bool }.

(** dhtclient.go:310-327 and 343-356: the loop after a failed first attempt. Once the
    context is done the loop sets the error and goes on. When the rounds given run
    out, the call has not returned yet. *)
Fixpoint retry_rounds (rounds : list attempt) : ret unit :=
  match rounds with
  | [] => Hangs
  | a :: rounds' => if at_expired a then retry_rounds rounds' else if at_ok a then Returns (Ok tt) else retry_rounds rounds'
  end.

(** dhtclient.go:299-329 bootstrapLoopUntilTimeout; [first]: the first attempt (303)
    succeeds. *)
Definition bootstrap_loop (first : bool) (rounds : list attempt) : ret unit :=
  if first then Returns (Ok tt) else retry_rounds rounds.

(** dhtclient.go:97-133 Disconnected, for the relay peer: a round finds the client
    closing, or tries to connect. The result tells whether it connected. *)
Fixpoint reconnect (rounds : list attempt) : ret bool :=
  match rounds with
  | [] => Hangs
  | a :: rounds' => if at_expired a then Returns (Ok false) else if at_ok a then Returns (Ok true) else reconnect rounds'
  end.

(** What a call does to the outside, in order. (dhtclient.go:429-626.) *)
Inductive ceffect :=
| CAgent (e : envelope)                 (** the own agent's handler is called *)
| CRegister (buf : bytes)               (** frame on a new register stream to the relay peer *)
| CLookup (buf : bytes)                 (** frame on a new address stream to the relay peer *)
| CPeer (peer : string) (buf : bytes).  (** frame on a new envelope stream to a peer *)

(** dhtclient.go:684-722 registerAgentAddress with acn/utils.go:376-399. A nil status
    body panics (395). *)
Definition client_register (c : client) (o : stream_outcome) : list ceffect * res unit :=
  if negb (so_open o) then ([], Err "couldn't open stream to relay peer")
  else match encode_acn (Some (PRegister (Some (c_record c)))) with
  | None => ([], Err "marshal")
  | Some b =>
      if negb (so_write o) then ([], Err "write")
      else ([CRegister b],
            match read_status (so_reply o) with
            | Panic p => Panic p
            | Err x => Err x
            | Ok None => Panic "nil pointer dereference"
            | Ok (Some s) => if sb_code s =? SUCCESS then Ok tt else Err "Registration failed"
            end)
  end.

(** The outcome of newStreamLoopUntilTimeout: its attempts, and the registration after
    it (362). (dhtclient.go:332-366.) *)
Record loop_outcome := LoopOutcome { lo_first : bool; lo_rounds : list attempt; lo_register : stream_outcome }.

(** dhtclient.go:332-365 newStreamLoopUntilTimeout. *)
Definition new_stream_loop (c : client) (o : loop_outcome) : list ceffect * ret unit :=
  if lo_first o then ([], Returns (Ok tt))
  else match retry_rounds (lo_rounds o) with
  | Hangs => ([], Hangs)
  | Returns _ => let (fs, r) := client_register c (lo_register o) in (fs, Returns r)
  end.

(** The outcomes of the calls of RouteEnvelope. (dhtclient.go:429-626.) *)
Record client_outcome := ClientOutcome {
  co_ready : bool;               (** myAgentReady becomes true, 448 *)
  co_agent : res unit;           (** processEnvelope, 456 *)
  co_relay : loop_outcome;       (** 470 *)
  co_ask : bool;                 (** the lookup request is written, acn/utils.go:306 *)
  co_found : res bytes;          (** the frame read back *)
  co_multiaddr : bool;           (** 528 *)
  co_connect : bool;             (** 546 *)
  co_peer : loop_outcome;        (** 559 *)
  co_write : bool;               (** 580 *)
  co_reply : res bytes;          (** 594 *)
}.

Section Client.
  (** The libraries; utils.IDFromFetchAIPublicKey. *)
  Context (P : prims) (id_of_key : string -> option string).

  (** dhtclient.go:469-516: the relay peer is asked for the record of the target; the
      peer id of its peer key. [record.PeerPublicKey] on a nil record panics (492). *)
  Definition client_lookup (c : client) (target : string) (o : client_outcome) : list ceffect * ret string :=
    match new_stream_loop c (co_relay o) with
    | (fs, Hangs) => (fs, Hangs)
    | (fs, Returns (Panic p)) => (fs, Returns (Panic p))
    | (fs, Returns (Err x)) => (fs, Returns (Err x))
    | (fs, Returns (Ok _)) =>
        match encode_acn (Some (PLookupRequest target)) with
        | None => (fs, Returns (Err "marshal"))
        | Some b =>
            if negb (co_ask o) then (fs, Returns (Err "write"))
            else (fs ++ [CLookup b],
              Returns match read_lookup_response (co_found o) with
              | Panic p => Panic p
              | Err x => Err x
              | Ok None => Panic "nil pointer dereference"
              | Ok (Some r) =>
                  match is_valid_por P r target (r_peer_key r) with
                  | Panic p => Panic p
                  | Err x => Err x
                  | Ok (code, err) =>
                      if err || negb (code =? SUCCESS) then Err "invalid agent record"
                      else match id_of_key (r_peer_key r) with
                      | None => Err "CRITICAL route - couldn't get peer ID from record"
                      | Some peer => Ok peer
                      end
                  end
              end)
        end
    end.

  (** dhtclient.go:524-622: the connection and the stream to the peer, and the exchange
      on it. [status.Code] on a nil body panics (607). *)
  Definition client_send (c : client) (e : envelope) (peer : string) (o : client_outcome) : list ceffect * ret unit :=
    if negb (co_multiaddr o) then ([], Returns (Err "while creating relay multiaddress"))
    else if negb (co_connect o) then ([], Returns (Err "couldn't connect to target"))
    else match new_stream_loop c (co_peer o) with
    | (fs, Hangs) => (fs, Hangs)
    | (fs, Returns (Panic p)) => (fs, Returns (Panic p))
    | (fs, Returns (Err x)) => (fs, Returns (Err x))
    | (fs, Returns (Ok _)) =>
        match envelope_frame e (Some (c_record c)) with
        | None => (fs, Returns (Err "couldn't serialize envelope"))
        | Some frame =>
            if negb (co_write o) then (fs, Returns (Err "couldn't send envelope"))
            else (fs ++ [CPeer peer frame],
              Returns match read_status (co_reply o) with
              | Panic p => Panic p
              | Err x => Err x
              | Ok None => Panic "nil pointer dereference"
              | Ok (Some s) => if sb_code s =? SUCCESS then Ok tt else Err "failed to deliver envelope"
              end)
        end
    end.

  (** dhtclient.go:469-622: the part of RouteEnvelope for the network. *)
  Definition client_network (c : client) (e : envelope) (o : client_outcome) : list ceffect * ret unit :=
    match client_lookup c (e_to e) o with
    | (fs, Hangs) => (fs, Hangs)
    | (fs, Returns (Panic p)) => (fs, Returns (Panic p))
    | (fs, Returns (Err x)) => (fs, Returns (Err x))
    | (fs, Returns (Ok peer)) => let (fs', r) := client_send c e peer o in (fs ++ fs', r)
    end.

  (** dhtclient.go:429-623 RouteEnvelope. *)
  Definition client_route (c : client) (e : envelope) (o : client_outcome) : list ceffect * ret unit :=
    if negb (String.eqb (e_sender e) (c_addr c)) then ([], Returns (Err "Sender must match registered address"))
    else if String.eqb (e_to e) (c_addr c) then
      if negb (co_ready o) then ([], Hangs)
      else if c_handler c then
        match co_agent o with
        | Panic p => ([CAgent e], Returns (Panic p))
        | Err x => ([CAgent e], Returns (Err x))
        | Ok _ => let (fs, r) := client_network c e o in (CAgent e :: fs, r)
        end
      else ([], Returns (Ok tt))
    else client_network c e o.
End Client.

(** dhtclient.go:634-651 HandleAeaEnvelope: effects, and the error code if any. *)
Definition client_handle (c : client) (e : envelope) (agent : res unit) : list effect * res (option Z) :=
  if String.eqb (e_to e) (c_addr c) && c_handler c then
    ([ToAgent e],
     match agent with
     | Ok _ => Ok None
     | Err _ => Ok (Some ERROR_AGENT_NOT_READY)
     | Panic p => Panic p
     end)
  else ([], Ok (Some ERROR_UNKNOWN_AGENT_ADDRESS)).

(** dhtclient.go:660-681 HandleAeaAddressRequest. *)
Definition client_address (c : client) (address : string) : ret (option record) :=
  if String.eqb address (c_addr c) then Returns (Ok (Some (c_record c))) else Returns (Ok None).
