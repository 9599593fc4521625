(** Model of the node's connection to its own agent:
    /repo/libs/go/libp2p_node/aea/api.go:136-169, 334-435, 450-478 and
    /repo/libs/go/libp2p_node/libp2p_node.go:146-161. Logging is left out; the status
    queue is in AckModel.v, the handling of a frame in AcnModel.v. *)
From Coq Require Import ZArith NArith List String Ascii.
From stdpp Require Import base list strings.
From Verif Require Import GoBase Bytes Utf8 WireModel ProtoModel AcnModel.
Open Scope string_scope.
Open Scope list_scope.
Open Scope Z_scope.

(** Where the listener (api.go:362-402) is: about to read; about to put an envelope on
    the queue (397); in Stop (163-169) about to put nil on the send queue (164), to set
    closing and close the pipe (165, 166), to close the queue of received envelopes
    (167), to close the send queue (168); ended. *)
Inductive listener := LRead | LPut (e : envelope) | LStopNil | LStopPipe | LStopOut | LStopSend | LEnd.

(** Where the send loop (api.go:404-427) is: waiting for an envelope (408); sending one
    (413); ended. *)
Inductive sender := SWait | SBusy (e : envelope) | SEnd.

(** The API after Connect (api.go:334-360). [na_record]: the address of the agent's
    record, if there is one. A nil on the send queue is [None]. [na_routed]: the
    envelopes given to routing (libp2p_node.go:147-155); [na_put]: those Put has taken
    (136-144); [na_sent]: those sent to the agent with what came of it, which is only
    logged (413-418). *)
Record napi := Napi {
  na_standalone : bool;
  na_record : option string;
  na_listener : listener;
  na_out : list envelope;
  na_out_closed : bool;
  na_sender : sender;
  na_send : list (option envelope);
  na_send_closed : bool;
  na_closing : bool;
  na_routed : list envelope;
  na_put : list envelope;
  na_sent : list (envelope * bool);
}.

(** api.go:334-360 Connect. In standalone mode nothing is started and the queues are
    nil: they give nothing. *)
Definition napi0 (standalone : bool) (record : option string) : napi :=
  Napi standalone record (if standalone then LEnd else LRead) [] false (if standalone then SEnd else SWait) [] false false [] [] [].

(** The listener reads (365); it makes its next step otherwise; routing takes an
    envelope (libp2p_node.go:148); Put is called (136); the send loop takes from its
    queue (408); it is done with an envelope (413). *)
Inductive napi_event :=
| NRead (h : res handled)
| NListen
| NTake
| NPut (e : envelope)
| NNext
| NSent (ok : bool).

(** api.go:362-402 listenForEnvelopes after a read. Of the record only the address is
    used (388); a nil record panics. *)
Definition after_read (record : option string) (h : handled) : res listener :=
  match h with
  | HPipeError => Ok LStopNil
  | HError => Ok LRead
  | HStatus _ => Ok LRead
  | HEnvelope e =>
      match record with
      | None => Panic "nil pointer dereference"
      | Some a => Ok (if String.eqb (e_sender e) a then LPut e else LRead)
      end
  end.

(** api.go:41, 42: both queues. *)
Definition queue_size : nat := 100.

(** api.go:136-169, 362-427: one event; [None] when it cannot happen. *)
Definition napi_step (s : napi) (ev : napi_event) : option (res napi) :=
  let (standalone, record, listener, out, out_closed, sender, send, send_closed, closing, routed, put, sent) := s in
  match ev with
  | NRead h =>
      match listener with
      | LRead =>
          match h with
          | Panic p => Some (Panic p)
          | Err _ => None
          | Ok h' =>
              match after_read record h' with
              | Panic p => Some (Panic p)
              | Err x => None
              | Ok l => Some (Ok (Napi standalone record l out out_closed sender send send_closed closing routed put sent))
              end
          end
      | _ => None
      end
  | NListen =>
      match listener with
      | LRead | LEnd => None
      | LPut e =>
          if out_closed then Some (Panic "send on closed channel")
          else if (length out <? queue_size)%nat then
            Some (Ok (Napi standalone record (if closing then LEnd else LRead) (out ++ [e]) out_closed sender send send_closed closing routed put sent))
          else None
      | LStopNil =>
          if send_closed then Some (Panic "send on closed channel")
          else if (length send <? queue_size)%nat then
            Some (Ok (Napi standalone record LStopPipe out out_closed sender (send ++ [None]) send_closed closing routed put sent))
          else None
      | LStopPipe => Some (Ok (Napi standalone record LStopOut out out_closed sender send send_closed true routed put sent))
      | LStopOut =>
          if out_closed then Some (Panic "close of closed channel")
          else Some (Ok (Napi standalone record LStopSend out true sender send send_closed closing routed put sent))
      | LStopSend =>
          if send_closed then Some (Panic "close of closed channel")
          else Some (Ok (Napi standalone record LEnd out out_closed sender send true closing routed put sent))
      end
  | NTake =>
      match out with
      | [] => None
      | e :: l => Some (Ok (Napi standalone record listener l out_closed sender send send_closed closing (routed ++ [e]) put sent))
      end
  | NPut e =>
      if standalone then Some (Ok s)
      else if send_closed then Some (Panic "send on closed channel")
      else if (length send <? queue_size)%nat then
        Some (Ok (Napi standalone record listener out out_closed sender (send ++ [Some e]) send_closed closing routed (put ++ [e]) sent))
      else None
  | NNext =>
      match sender with
      | SWait =>
          match send with
          | Some e :: l => Some (Ok (Napi standalone record listener out out_closed (SBusy e) l send_closed closing routed put sent))
          | None :: l => Some (Ok (Napi standalone record listener out out_closed SEnd l send_closed closing routed put sent))
          | [] => if send_closed then Some (Ok (Napi standalone record listener out out_closed SEnd [] send_closed closing routed put sent)) else None
          end
      | _ => None
      end
  | NSent ok =>
      match sender with
      | SBusy e =>
          Some (Ok (Napi standalone record listener out out_closed (if closing then SEnd else SWait) send send_closed closing routed put (sent ++ [(e, ok)])))
      | _ => None
      end
  end.

(** A history of api.go:136-169, 362-427; it ends at a crash. *)
Fixpoint napi_run (s : napi) (evs : list napi_event) : option (res napi) :=
  match evs with
  | [] => Some (Ok s)
  | ev :: evs' =>
      match napi_step s ev with
      | Some (Ok s') => napi_run s' evs'
      | r => r
      end
  end.
