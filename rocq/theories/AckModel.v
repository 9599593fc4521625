(** Model of the queue of delivery statuses of one connection:
    /repo/libs/go/libp2p_node/dht/dhtpeer/dhtpeer.go:1843-1870 (one per delegate
    client), /repo/libs/go/libp2p_node/aea/api.go:330, 480-483 (own agent) and
    /repo/libs/go/aealite/connections/p2pclient.go:173-186, 467-471 (agent side). *)
From Coq Require Import ZArith NArith List String Ascii.
From stdpp Require Import base list strings.
From Verif Require Import GoBase Bytes ProtoModel PorModel.
Open Scope string_scope.
Open Scope list_scope.
Open Scope Z_scope.

(** A buffered Go channel of statuses: its content and whether it was closed
    (p2pclient.go:184; the node never closes its queues). *)
Record ackq := AckQ { q_items : list status_body; q_closed : bool }.

(** What happens on the connection, in the order in which it happens: a status arrives;
    a waiting sender gets a status; a waiting sender gives up; the queue is closed. The
    send preceding each wait leaves the queue alone. (dhtpeer.go:1843-1849 (arrival),
    acn/utils.go:116-125 (wait, time-out), p2pclient.go:184 (close).) *)
Inductive ack_event :=
| Arrive (s : status_body)
| Take
| Timeout
| CloseQueue.

(** acn/utils.go:244-260 (SendEnvelopeMessageAndWaitForStatus) and
    dhtpeer.go:1858-1869 (AwaitAcnStatus): what a sender reports. *)
Definition ack_outcome (s : status_body) : res unit :=
  if sb_code s =? SUCCESS then Ok tt else Err "bad status".

(** One event; [None] when it cannot happen in this state (the goroutine blocks).
    The second component is the report of the sender whose wait ended, or the crash
    of the process. Sending on a closed channel panics; receiving from a closed empty
    channel gives nil, whose [Code] panics (acn/utils.go:251, acn/acn.go:213).
    acn/utils.go:116-125 WaitForStatus: when a status is there and the time is over,
    either may happen. [cap]: 1000 at dhtpeer.go:75 and api.go:330, 10 at
    p2pclient.go:201. *)
Definition ack_step (cap : nat) (q : ackq) (ev : ack_event) : option (ackq * list (res unit)) :=
  match ev with
  | Arrive s =>
      if q_closed q then Some (q, [Panic "send on closed channel"])
      else if (length (q_items q) <? cap)%nat then Some (AckQ (q_items q ++ [s]) false, [])
      else None
  | Take =>
      match q_items q with
      | s :: l => Some (AckQ l (q_closed q), [ack_outcome s])
      | [] => if q_closed q then Some (q, [Panic "nil pointer dereference"]) else None
      end
  | Timeout => Some (q, [Err "ACN send acknowledge timeout"])
  | CloseQueue => if q_closed q then Some (q, [Panic "close of closed channel"]) else Some (AckQ (q_items q) true, [])
  end.

(** A history from a state. (No counterpart in /repo: the interleaving of the
    goroutines.) *)
Fixpoint ack_run (cap : nat) (q : ackq) (evs : list ack_event) : option (ackq * list (res unit)) :=
  match evs with
  | [] => Some (q, [])
  | ev :: evs' =>
      match ack_step cap q ev with
      | None => None
      | Some (q', o) =>
          match ack_run cap q' evs' with
          | None => None
          | Some (q'', os) => Some (q'', o ++ os)
          end
      end
  end.
