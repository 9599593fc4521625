(** Model of how a peer node routes envelopes, answers lookups and looks addresses
    up: /repo/libs/go/libp2p_node/dht/dhtpeer/dhtpeer.go:1034-1613 and
    /repo/libs/go/libp2p_node/dht/common/handlers.go:56-176.

    These functions change none of the tables of the node; they read each at most
    once, under its lock. The answers of these reads are arguments ([view]), so that
    everything other goroutines do in between is covered. So are the outcomes of
    calls of the libraries ([outcome]). Logging and the latency histograms are left
    out. *)
From Coq Require Import ZArith NArith List String Ascii.
From stdpp Require Import base list strings.
From Verif Require Import GoBase Bytes Utf8 WireModel ProtoModel CryptoModel PorModel AcnModel.
Open Scope string_scope.
Open Scope list_scope.
Open Scope Z_scope.

(** What a call reads. The mailbox service may be off (dhtpeer.go:1045, 1090); asking
    it whether an address is registered and for the record are two critical sections
    (mailbox.go:325-339). *)
Record view := View {
  v_my_addr : string;                   (** myAgentAddress *)
  v_my_record : option record;          (** myAgentRecord, nil if not configured *)
  v_has_handler : bool;                 (** processEnvelope is set *)
  v_mailbox : bool;                     (** mailboxServer is not nil *)
  v_box_sender : bool;                  (** IsAddrRegistered(sender) *)
  v_box_record : option record;         (** GetAgentRecord(sender), or of the requested address *)
  v_box_target : bool;                  (** the mailbox service takes the envelope *)
  v_record : option record;             (** agentRecords, of sender or requested address *)
  v_delegate : option nat;              (** tcpAddresses, of target or requested address *)
  v_relay : option string;              (** dhtAddresses, of target or requested address *)
}.

(** What a call does to the outside, in order. (dhtpeer.go:1055-1322.) *)
Inductive effect :=
| GaugeInc | GaugeDec                   (** gauge op_route_count *)
| CountAll | CountSuccess               (** counters op_route_count_all, op_route_count_success *)
| ToMailbox (e : envelope)              (** the mailbox service took it *)
| ToAgent (e : envelope)                (** processEnvelope was called *)
| ToDelegate (c : nat) (buf : bytes)    (** frame written to a delegate connection *)
| ToPeer (peer : string) (buf : bytes)  (** frame written to a new stream to a peer *)
| ToSlowQueue (e : envelope).

(** A call returns, or waits for ever. (No counterpart in /repo: a convention of the
    models.) *)
Inductive ret (A : Type) := Returns (r : res A) | Hangs.
Arguments Returns {A}. Arguments Hangs {A}.

(** The outcome of opening a stream and of the exchange on it. (dhtpeer.go:1235-1322.)
    *)
Record stream_outcome := StreamOutcome {
  so_open : bool;                       (** NewStream succeeds *)
  so_write : bool;                      (** the frame is written *)
  so_reply : res bytes;                 (** the frame read back *)
}.

(** acn/utils.go:171-187 EncodeAcnEnvelope, api.go:439-445: the frame carrying an
    envelope. *)
Definition envelope_frame (e : envelope) (rec : option record) : option bytes :=
  match encode_envelope e with
  | None => None
  | Some b => encode_acn (Some (PEnvelope b rec))
  end.

(** dhtpeer.go:1034-1053 getEnvelopeAcnRecord. *)
Definition envelope_record (v : view) (e : envelope) : res (option record) :=
  if String.eqb (e_sender e) (v_my_addr v) then Ok (v_my_record v)
  else if v_mailbox v && v_box_sender v then Ok (v_box_record v)
  else match v_record v with
  | Some r => Ok (Some r)
  | None => Err "Envelope sender is not registered locally"
  end.

(** dhtpeer.go:1235-1321 _routeEnvelopeWithNewStream. [statusBody.Code] on a nil body
    panics (1304). *)
Definition route_new_stream (e : envelope) (peer : string) (rec : option record) (o : stream_outcome)
    : list effect * res unit :=
  if negb (so_open o) then ([GaugeDec], Err "couldn't open stream")
  else match encode_envelope e with
  | None => ([GaugeDec], Err "couldn't serialize envelope")
  | Some b =>
      match encode_acn (Some (PEnvelope b rec)) with
      | None => ([GaugeDec], Err "couldn't send envelope")
      | Some frame =>
          if negb (so_write o) then ([GaugeDec], Err "couldn't send envelope")
          else match read_status (so_reply o) with
          | Panic p => ([ToPeer peer frame], Panic p)
          | Err x => ([ToPeer peer frame; GaugeDec], Err x)
          | Ok None => ([ToPeer peer frame], Panic "nil pointer dereference")
          | Ok (Some s) =>
              ([ToPeer peer frame; GaugeDec],
               if sb_code s =? SUCCESS then Ok tt else Err "failed to deliver envelope")
          end
      end
  end.

(** * Looking an address up *)

(** A provider of an address as found by the DHT: its peer id, whether a stream to it
    opens, and the frame it answers to the lookup request (an error also if the
    request could not be written, acn/utils.go:454-460). *)
Record provider := Provider { pv_id : string; pv_open : bool; pv_reply : res bytes }.

(** One call of FindProvidersAsync (1350): what it yields before its channel is closed;
    and whether the deadline has passed when the loop looks (1425).
    (dhtpeer.go:1350-1417.) *)
Record round := Round { rd_providers : list provider; rd_deadline : bool }.

Section Lookup.
  (** The libraries; utils.IDFromFetchAIPublicKey. *)
  Context (P : prims) (id_of_key : string -> option string).

  (** What the loop over providers (1352-1417) comes to: a return from the function, or
      its end with the value of [provider.ID] and of the outer [err].
      (dhtpeer.go:1352-1417.) *)
  Inductive loop_end :=
  | LReturn (r : res (string * option record))
  | LEnd (id : string) (open_failed : bool).

  (** dhtpeer.go:1352-1417. A failed stream sets the outer [err] (1370), a successful
      one resets it; the errors of the lookup and of the check are in variables of the
      loop body (1389, 1401, 1410). [record.PeerPublicKey] on a nil record panics
      (1404). *)
  Fixpoint try_providers (address : string) (id : string) (open_failed : bool) (ps : list provider)
      : loop_end :=
    match ps with
    | [] => LEnd id open_failed
    | p :: ps' =>
        if negb (pv_open p) then try_providers address (pv_id p) true ps'
        else match read_lookup_response (pv_reply p) with
        | Panic x => LReturn (Panic x)
        | Err _ => try_providers address (pv_id p) false ps'
        | Ok None => LReturn (Panic "nil pointer dereference")
        | Ok (Some r) =>
            match is_valid_por P r address (r_peer_key r) with
            | Panic x => LReturn (Panic x)
            | Err _ => try_providers address (pv_id p) false ps'
            | Ok (code, err) =>
                if err || negb (code =? SUCCESS) then try_providers address (pv_id p) false ps'
                else match id_of_key (r_peer_key r) with
                | None => LReturn (Err "couldn't get peer ID from message")
                | Some peer => LReturn (Ok (peer, Some r))
                end
            end
        end
    end.

  (** dhtpeer.go:1324-1445 lookupAddressDHT. [id] and [open_failed] are the values
      left by the previous round. When the rounds given run out, the call has not
      returned yet. *)
  Fixpoint lookup_rounds (address : string) (id : string) (open_failed : bool) (rs : list round)
      : ret (string * option record) :=
    match rs with
    | [] => Hangs
    | r :: rs' =>
        match try_providers address id open_failed (rd_providers r) with
        | LReturn x => Returns x
        | LEnd id' failed' =>
            if String.eqb id' "" then
              if rd_deadline r then Returns (Err "didn't find any provider for address")
              else lookup_rounds address id' failed' rs'
            else if failed' then Returns (Err "couldn't open stream")
            else Returns (Ok ("", None))
        end
    end.

  (** [cid_ok]: utils.ComputeCID succeeds (1334). (dhtpeer.go:1324-1448
      lookupAddressDHT.) *)
  Definition lookup_dht (cid_ok : bool) (address : string) (rs : list round) : ret (string * option record) :=
    if cid_ok then lookup_rounds address "" false rs else Returns (Err "cid").

  (** * Routing *)

  (** dhtpeer.go:1210-1233 _routeEnvelopeDHTLookup; [found] is the outcome of the
      lookup. *)
  Definition route_dht (v : view) (e : envelope) (found : ret (string * option record)) (o : stream_outcome)
      : list effect * ret unit :=
    match envelope_record v e with
    | Panic p => ([], Returns (Panic p))
    | Err x => ([], Returns (Err x))
    | Ok rec =>
        match found with
        | Hangs => ([], Hangs)
        | Returns (Panic p) => ([], Returns (Panic p))
        | Returns (Err x) => ([], Returns (Err x))
        | Returns (Ok (peer, _)) =>
            let (fs, r) := route_new_stream e peer rec o in (fs, Returns r)
        end
    end.

  (** The outcomes of the calls made by RouteEnvelope: whether the agent ever becomes
      ready (1102), whether it takes the envelope (1110), whether the frame is written
      to the delegate connection (1137) and what AwaitAcnStatus reports (1143, see
      AckModel), the peer id read from its text (1159), the lookup and the stream, and
      isClosing (1171). The second look-up of the sender's record (1217) may differ from
      the first: [oc_view2]. (dhtpeer.go:1055-1183.) *)
  Record outcome := Outcome {
    oc_ready : bool;
    oc_agent : res unit;
    oc_write : bool;
    oc_ack : res unit;
    oc_peer : option string;
    oc_view2 : view;
    oc_found : ret (string * option record);
    oc_stream : stream_outcome;
    oc_closing : bool;
  }.

  (** dhtpeer.go:1055-1185 RouteEnvelope. Sending on the slow queue (1174) waits while
      it is full. *)
  Definition route (v : view) (e : envelope) (o : outcome) : list effect * ret unit :=
    let start := [GaugeInc; CountAll] in
    match envelope_record v e with
    | Panic p => (start, Returns (Panic p))
    | Err x => (start, Returns (Err x))
    | Ok rec =>
        if v_mailbox v && v_box_target v then (start ++ [ToMailbox e], Returns (Ok tt))
        else if String.eqb (e_to e) (v_my_addr v) then
          if negb (oc_ready o) then (start, Hangs)
          else if negb (v_has_handler v) then (start, Returns (Err "Agent not ready"))
          else match oc_agent o with
          | Ok _ => (start ++ [ToAgent e; GaugeDec; CountSuccess], Returns (Ok tt))
          | Err x => (start ++ [ToAgent e; GaugeDec], Returns (Err x))
          | Panic p => (start ++ [ToAgent e], Returns (Panic p))
          end
        else match v_delegate v with
        | Some c =>
            let start := start ++ [GaugeDec; CountSuccess] in
            match envelope_frame e None with
            | None => (start, Returns (Err "while serializing envelope"))
            | Some frame =>
                if negb (oc_write o) then (start, Returns (Err "while writing envelope"))
                else (start ++ [ToDelegate c frame], Returns (oc_ack o))
            end
        | None =>
            match v_relay v with
            | Some _ =>
                match oc_peer o with
                | None => (start ++ [GaugeDec], Returns (Err "couldn't parse peer id from relay client id"))
                | Some peer =>
                    let (fs, r) := route_new_stream e peer rec (oc_stream o) in (start ++ fs, Returns r)
                end
            | None =>
                match route_dht (oc_view2 o) e (oc_found o) (oc_stream o) with
                | (fs, Returns (Err _)) =>
                    (start ++ fs ++ [GaugeDec] ++ (if oc_closing o then [] else [ToSlowQueue e]),
                     Returns (Ok tt))
                | (fs, r) => (start ++ fs, r)
                end
            end
        end
    end.

  (** dhtpeer.go:1186-1208 slowEnvelopeSendLoop, one envelope taken from the queue; an
      error is only logged. *)
  Definition slow_send (v : view) (e : envelope) (found : ret (string * option record)) (o : stream_outcome)
      : list effect * ret unit :=
    match route_dht v e found o with
    | (fs, Returns (Err _)) => (fs, Returns (Ok tt))
    | x => x
    end.

  (** * Envelopes from other peers *)

  (** dhtpeer.go:1456-1526 HandleAeaEnvelope: effects, and the code of the error if
      there is one. [agent], [write] and [ack] as in [outcome]; an error of the own
      agent is ignored (1517). *)
  Definition handle_envelope (v : view) (e : envelope) (agent : res unit) (write : bool) (ack : res unit)
      : list effect * res (option Z) :=
    if v_mailbox v && v_box_target v then ([ToMailbox e], Ok None)
    else match v_delegate v with
    | Some c =>
        match envelope_frame e None with
        | None => ([], Ok (Some ERROR_DECODE))
        | Some frame =>
            if negb write then ([], Ok (Some ERROR_AGENT_NOT_READY))
            else ([ToDelegate c frame],
                  match ack with
                  | Ok _ => Ok None
                  | Err _ => Ok (Some ERROR_AGENT_NOT_READY)
                  | Panic p => Panic p
                  end)
        end
    | None =>
        if String.eqb (e_to e) (v_my_addr v) then
          if negb (v_has_handler v) then ([], Ok (Some ERROR_AGENT_NOT_READY))
          else ([ToAgent e], match agent with Panic p => Panic p | _ => Ok None end)
        else ([], Ok (Some ERROR_UNKNOWN_AGENT_ADDRESS))
    end.

  (** handlers.go:56-94 receiveEnvelopeFromPeer: the messages written back, and the
      envelope. [remote_key] is the text form of the key of the peer at the other end
      of the stream, empty if it has none (80-81). [aeaEnvelope.Record.Address] on a
      nil record panics (84). *)
  Definition receive_envelope (why remote_key : string) (read : res bytes) : list acn_perf * res envelope :=
    match read_envelope_message why read with
    | (sent, Panic p) => (sent, Panic p)
    | (sent, Err x) => (sent, Err x)
    | (sent, Ok (b, rec)) =>
        match decode_envelope b with
        | None => (sent ++ [acn_error ERROR_DECODE why], Err "while deserializing acn aea envelope message")
        | Some e =>
            match rec with
            | None => (sent, Panic "nil pointer dereference")
            | Some r =>
                match is_valid_por P r (r_address r) remote_key with
                | Panic p => (sent, Panic p)
                | Err x => (sent, Err x)
                | Ok (code, err) =>
                    if err || negb (code =? SUCCESS)
                    then (sent ++ [acn_error code why], Err "incoming envelope PoR is not valid")
                    else (sent, Ok e)
                end
            end
        end
    end.

  (** handlers.go:97-126 HandleAeaEnvelopeStream, for a node whose HandleAeaEnvelope
      does [handle]: the effects and the messages written back. *)
  Definition envelope_stream (why remote_key : string) (handle : envelope -> list effect * res (option Z))
      (read : res bytes) : list effect * res (list acn_perf) :=
    match receive_envelope why remote_key read with
    | (_, Panic p) => ([], Panic p)
    | (sent, Err _) => ([], Ok sent)
    | (sent, Ok e) =>
        match handle e with
        | (fs, Panic p) => (fs, Panic p)
        | (fs, Err x) => (fs, Err x)
        | (fs, Ok (Some code)) => (fs, Ok (sent ++ [acn_error code why]))
        | (fs, Ok None) => (fs, Ok (sent ++ [acn_success]))
        end
    end.

  (** * Lookup requests *)

  (** dhtpeer.go:1533-1613 HandleAeaAddressRequest: the record, or an error code.
      [pub_ok]: peer.IDFromPublicKey of the own key succeeds (1551, 1573). *)
  Definition address_request (v : view) (address : string) (pub_ok : bool) (found : ret (string * option record))
      : ret (option record) :=
    if String.eqb address (v_my_addr v) then Returns (Ok (if pub_ok then v_my_record v else None))
    else match v_relay v with
    | Some _ => Returns (Ok (v_record v))
    | None =>
        if v_mailbox v && v_box_sender v then Returns (Ok (v_box_record v))
        else match v_delegate v with
        | Some _ => Returns (Ok (if pub_ok then v_record v else None))
        | None =>
            match found with
            | Hangs => Hangs
            | Returns (Panic p) => Returns (Panic p)
            | Returns (Err _) => Returns (Ok None)
            | Returns (Ok (_, rec)) => Returns (Ok rec)
            end
        end
    end.

  (** handlers.go:129-176 HandleAeaAddressStream: the messages written back.
      [request] gives the record or [None], which is answered with
      UNKNOWN_AGENT_ADDRESS (dhtpeer.go:1595-1606). *)
  Definition address_stream (why : string) (request : string -> ret (option record)) (read : res bytes)
      : ret (list acn_perf) :=
    match read_lookup_request why read with
    | (_, Panic p) => Returns (Panic p)
    | (sent, Err _) => Returns (Ok sent)
    | (sent, Ok a) =>
        match request a with
        | Hangs => Hangs
        | Returns (Panic p) => Returns (Panic p)
        | Returns (Err x) => Returns (Err x)
        | Returns (Ok None) => Returns (Ok (sent ++ [acn_error ERROR_UNKNOWN_AGENT_ADDRESS why]))
        | Returns (Ok (Some r)) => Returns (Ok (sent ++ [PLookupResponse (Some r)]))
        end
    end.
End Lookup.
