(** Model of a question for the address of an agent that is passed on from node to node:
    /repo/libs/go/libp2p_node/dht/dhtpeer/dhtpeer.go:1324-1448 (lookupAddressDHT) asks providers, each of which
    handles the question (dht/common/handlers.go:129-176, dhtpeer.go:1533-1613) and, if it does not know the
    address, calls lookupAddressDHT itself. The functions of RouteModel.v are put together: a provider
    answers what [address_stream] says, and what a node has seen of its providers decides through
    [try_providers] and [lookup_dht]. All nodes run this program. There is no time limit on opening a stream, on the exchange or on
    the handler (dhtpeer.go:1369-1374, 1389; acn/utils.go:454-460; no deadline is set in /repo), so a call waits as long as
    the one it waits for. Requests and answers are written and arrive whole. *)
From Coq Require Import ZArith NArith List String Ascii.
From stdpp Require Import base list strings.
From Verif Require Import GoBase Bytes Utf8 WireModel ProtoModel CryptoModel PorModel FrameModel AcnModel RouteModel.
Open Scope string_scope.
Open Scope list_scope.

(** A call of lookupAddressDHT in progress: the node, what the handler it is called from (dhtpeer.go:1583) has read,
    [None] for the first; the providers dealt with so far (dhtpeer.go:1352-1417). *)
Record frame := Frame { f_node : string; f_for : option view; f_seen : list provider }.

(** The question: the calls that wait for each other, the innermost first; the first call has returned; a node crashed. (dhtpeer.go:1324-1448.) *)
Inductive state :=
| Asking (fs : list frame)
| Done (x : res (string * option record))
| Down (node : string).

(** What happens next to the innermost call (dhtpeer.go:1352-1384, 1419-1440): the DHT yields a provider; the stream to it opens or not; its
    handler reads its tables. Or the DHT yields no more, with or without the deadline passed. *)
Inductive event :=
| EProvider (p : string) (opens : bool) (v : view)
| EEnd (deadline : bool).

Section Ask.
  (** The libraries; utils.IDFromFetchAIPublicKey; the address asked for. *)
  Context (P : prims) (id_of_key : string -> option string) (a : string).

  (** The frame the asking node reads back from a handler (acn/utils.go:454-460, handlers.go:129-176) whose own
      lookup, if it makes one, comes to [found]. A request that cannot be encoded is not sent (acn/utils.go:455). The text of
      the error is that of dhtpeer.go:1595, 1604. *)
  Definition handled (v : view) (found : ret (string * option record)) : ret bytes :=
    match encode_acn (Some (PLookupRequest a)) with
    | None => Returns (Err "couldn't encode")
    | Some q =>
        match address_stream "unknown agent address" (fun x => address_request v x true found) (Ok q) with
        | Hangs => Hangs
        | Returns (Ok [m]) => match encode_acn (Some m) with Some b => Returns (Ok b) | None => Returns (Err "closed") end
        | Returns (Panic x) => Returns (Panic x)
        | Returns _ => Returns (Err "closed")
        end
    end.

  (** Provider [p] has answered the innermost of the calls [fs]; if that returns (dhtpeer.go:1389-1416), its handler
      answers the next one (dhtpeer.go:1583-1612). *)
  Fixpoint back (fs : list frame) (p : string) (reply : res bytes) : state :=
    match fs with
    | [] => Done (Err "no call")
    | f :: below =>
        let seen := f_seen f ++ [Provider p true reply] in
        match try_providers P id_of_key a "" false seen with
        | LEnd _ _ => Asking (Frame (f_node f) (f_for f) seen :: below)
        | LReturn (Panic _) => Down (f_node f)
        | LReturn x =>
            match f_for f with
            | None => Done x
            | Some v =>
                match handled v (Returns x) with
                | Returns reply' => back below (f_node f) reply'
                | Hangs => Asking fs
                end
            end
        end
    end.

  (** The innermost call returns [x] because there are no more providers (dhtpeer.go:1419-1443). *)
  Definition returns (f : frame) (below : list frame) (x : res (string * option record)) : state :=
    match x, f_for f with
    | Panic _, _ => Down (f_node f)
    | _, None => Done x
    | _, Some v =>
        match handled v (Returns x) with
        | Returns reply => back below (f_node f) reply
        | Hangs => Asking (f :: below)
        end
    end.

  (** One event (dhtpeer.go:1350-1443). *)
  Definition step (s : state) (e : event) : option state :=
    match s, e with
    | Asking (f :: below), EProvider p false _ =>
        Some (Asking (Frame (f_node f) (f_for f) (f_seen f ++ [Provider p false (Err "")]) :: below))
    | Asking (f :: below), EProvider p true v =>
        match handled v Hangs with
        | Hangs => Some (Asking (Frame p (Some v) [] :: f :: below))
        | Returns reply => Some (back (f :: below) p reply)
        end
    | Asking (f :: below), EEnd d =>
        match lookup_dht P id_of_key true a [Round (f_seen f) d] with
        | Hangs => Some s
        | Returns x => Some (returns f below x)
        end
    | _, _ => None
    end.

  (** Node [w] begins to look for the address (dhtpeer.go:1324). *)
  Definition ask (w : string) : state := Asking [Frame w None []].

  (** A sequence of events (No counterpart in /repo). *)
  Fixpoint run (s : state) (es : list event) : option state :=
    match es with
    | [] => Some s
    | e :: es' => match step s e with Some s' => run s' es' | None => None end
    end.
End Ask.
