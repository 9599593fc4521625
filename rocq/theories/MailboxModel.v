(** Model of the mailbox service of a peer node:
    /repo/libs/go/libp2p_node/dht/dhtpeer/mailbox.go.

    Requests are served by goroutines of their own; a step of the model is what a
    request does up to the end of its (next) critical section under
    [mailboxServer.lock]. Only unregistering has two. A panic in a handler is
    recovered by net/http, which closes the connection ([Aborted]). The TLS listener,
    the signature endpoint (124-135) and logging are left out. *)
From Coq Require Import ZArith NArith List String Ascii.
From stdpp Require Import base gmap list strings.
From Verif Require Import GoBase Bytes Utf8 WireModel ProtoModel CryptoModel PorModel.
Open Scope string_scope.
Open Scope list_scope.
Open Scope Z_scope.

(** What a handler sees of a request: the method, the first value of the Session-Id
    header if there is one, and the result of reading the body.
    (dhtpeer/mailbox.go:18-251.) *)
Record request := Request { q_method : string; q_session : option string; q_body : res bytes }.

(** The answer: status code and body; texts of error answers are left out.
    (dhtpeer/mailbox.go:18-251.) *)
Inductive response := Response (code : Z) (body : bytes) | Aborted | Waiting | Accepted (b : bool).

(** What happened, in order. (dhtpeer/mailbox.go:18-340.) *)
Inductive entry :=
| LRegister (sid : string) (r : record)
| LUnregister (sid : string) (a : string)
| LPut (a : string) (e : envelope)
| LGot (sid a : string) (e : envelope)
| LRoute (sid : string) (e : envelope).

(** mailbox.go:240-251, and 256-258 for the initial state; [mb_leaving] are requests to
    unregister between their two critical sections, with session and address. *)
Record mbox := Mbox {
  mb_sessions : gmap string string;
  mb_records : gmap string record;
  mb_boxes : gmap string (list envelope);
  mb_leaving : gmap nat (string * string);
  mb_log : list entry;
}.
(** dhtpeer/mailbox.go:253-265: the tables at the start. *)
Definition mbox0 : mbox := Mbox ∅ ∅ ∅ ∅ [].

(** mailbox.go:260. *)
Definition box_limit : nat := Z.to_nat 1000.

(** No counterpart in /repo: records what happened. *)
Definition log (m : mbox) (x : entry) : mbox :=
  Mbox (mb_sessions m) (mb_records m) (mb_boxes m) (mb_leaving m) (mb_log m ++ [x]).

(** mailbox.go:100-107, 146-153, 205-212: the address of the session in the header. *)
Definition session_addr (m : mbox) (q : request) : option (string * string) :=
  match q_session q with
  | Some sid => match mb_sessions m !! sid with Some a => Some (sid, a) | None => None end
  | None => None
  end.

(** dhtpeer/mailbox.go:22-28 and the like: the answer 400. *)
Definition refuse (m : mbox) : mbox * response := (m, Response 400 []).

Section Handlers.
  (** The libraries and this node's public key. *)
  Context (P : prims) (my_key : string).

  (** mailbox.go:18-85; [sid] is the new random session id, [announce_ok] whether
      announcing the address succeeded (or is not enabled). *)
  Definition api_register (m : mbox) (q : request) (sid : string) (announce_ok : bool) : mbox * response :=
    if negb (String.eqb (q_method q) "POST") then refuse m
    else match q_body q with
    | Panic _ | Err _ => refuse m
    | Ok [] => refuse m
    | Ok body =>
        match decode_record body with
        | None => refuse m
        | Some r =>
            match is_valid_por P r (r_address r) my_key with
            | Panic _ => (m, Aborted)
            | Err _ => refuse m
            | Ok (code, err) =>
                if err || negb (code =? SUCCESS) then refuse m
                else if negb announce_ok then refuse m
                else (log (Mbox (<[sid := r_address r]> (mb_sessions m)) (<[r_address r := r]> (mb_records m))
                                (<[r_address r := []]> (mb_boxes m)) (mb_leaving m) (mb_log m))
                          (LRegister sid r),
                      Response 200 (bytes_of sid))
            end
        end
    end.

  (** mailbox.go:87-114, the first half of unregistering; [id] names the request. *)
  Definition api_unregister_begin (m : mbox) (q : request) (id : nat) : mbox * response :=
    if negb (String.eqb (q_method q) "GET") then refuse m
    else match session_addr m q with
    | None => refuse m
    | Some (sid, a) =>
        (Mbox (mb_sessions m) (mb_records m) (mb_boxes m) (<[id := (sid, a)]> (mb_leaving m)) (mb_log m), Waiting)
    end.

  (** mailbox.go:116-122, the second half. *)
  Definition api_unregister_end (m : mbox) (id : nat) : option (mbox * response) :=
    match mb_leaving m !! id with
    | None => None
    | Some (sid, a) =>
        Some (log (Mbox (delete sid (mb_sessions m)) (delete a (mb_records m)) (delete a (mb_boxes m))
                        (delete id (mb_leaving m)) (mb_log m)) (LUnregister sid a),
              Response 200 [])
    end.

  (** mailbox.go:137-190; [route_ok] is whether RouteEnvelope succeeded. *)
  Definition api_send (m : mbox) (q : request) (route_ok : bool) : mbox * response :=
    if negb (String.eqb (q_method q) "POST") then refuse m
    else match session_addr m q with
    | None => refuse m
    | Some (sid, _) =>
        match q_body q with
        | Panic _ | Err _ => refuse m
        | Ok [] => refuse m
        | Ok body =>
            match decode_envelope body with
            | None => refuse m
            | Some e => (log m (LRoute sid e), Response (if route_ok then 200 else 400) [])
            end
        end
    end.

  (** mailbox.go:192-238; [write_ok] is whether writing the answer succeeded. *)
  Definition api_get (m : mbox) (q : request) (write_ok : bool) : mbox * response :=
    if negb (String.eqb (q_method q) "GET") then refuse m
    else match session_addr m q with
    | None => refuse m
    | Some (sid, a) =>
        match default [] (mb_boxes m !! a) with
        | [] => (m, Response 200 [])
        | e :: rest =>
            match encode_envelope e with
            | None => (m, Response 200 [])
            | Some buf =>
                if write_ok then
                  (log (Mbox (mb_sessions m) (mb_records m) (<[a := rest]> (mb_boxes m)) (mb_leaving m) (mb_log m))
                       (LGot sid a e), Response 200 buf)
                else (m, Response 200 buf)
            end
        end
    end.

  (** mailbox.go:299-323. *)
  Definition mailbox_route (m : mbox) (e : envelope) : mbox * response :=
    match mb_boxes m !! e_to e with
    | None => (m, Accepted false)
    | Some l =>
        if (box_limit <=? length l)%nat then (m, Accepted false)
        else (log (Mbox (mb_sessions m) (mb_records m) (<[e_to e := l ++ [e]]> (mb_boxes m))
                        (mb_leaving m) (mb_log m)) (LPut (e_to e) e), Accepted true)
    end.

  (** mailbox.go:325-339. *)
  Definition is_addr_registered (m : mbox) (a : string) : bool :=
    match mb_boxes m !! a with Some _ => true | None => false end.
  (** dhtpeer/mailbox.go:332-340 GetAgentRecord. *)
  Definition get_agent_record (m : mbox) (a : string) : option record :=
    if is_addr_registered m a then mb_records m !! a else None.

  (** The critical sections of the requests. (dhtpeer/mailbox.go:18-340.) *)
  Inductive mevent :=
  | MRegister (q : request) (sid : string) (announce_ok : bool)
  | MUnregisterBegin (q : request) (id : nat)
  | MUnregisterEnd (id : nat)
  | MSend (q : request) (route_ok : bool)
  | MGet (q : request) (write_ok : bool)
  | MPut (e : envelope).

  (** dhtpeer/mailbox.go:18-340: one critical section. *)
  Definition mstep (m : mbox) (ev : mevent) : option (mbox * response) :=
    match ev with
    | MRegister q sid ok => Some (api_register m q sid ok)
    | MUnregisterBegin q id => Some (api_unregister_begin m q id)
    | MUnregisterEnd id => api_unregister_end m id
    | MSend q ok => Some (api_send m q ok)
    | MGet q ok => Some (api_get m q ok)
    | MPut e => Some (mailbox_route m e)
    end.

  (** A schedule, with the answers. (No counterpart in /repo: the interleaving of the
      requests.) *)
  Fixpoint mrun (m : mbox) (evs : list mevent) : option (mbox * list response) :=
    match evs with
    | [] => Some (m, [])
    | ev :: evs' =>
        match mstep m ev with
        | None => None
        | Some (m1, r) => match mrun m1 evs' with None => None | Some (m2, rs) => Some (m2, r :: rs) end
        end
    end.
End Handlers.
