(** Model of stopping a peer node: Close (/repo/libs/go/libp2p_node/dht/dhtpeer/dhtpeer.go:616-668)
    beside the goroutines that use the channels it closes, the delegate connections and
    their pair queues (923-1005), RouteEnvelope up to the slow queue (1055, 1165-1181) and
    the slow queue's loop (1186-1208). *)
From Coq Require Import ZArith NArith List String Ascii Lia.
From stdpp Require Import base tactics gmap list strings.
From Verif Require Import GoBase Bytes ProtoModel DelegateModel.
Open Scope string_scope.
Open Scope list_scope.
Open Scope Z_scope.

(** dhtpeer.go:616-668: where a call of Close is: before 625, 626, 636, 647, 660, 666,
    and after. *)
Inductive close_stage := KSignal | KFlag | KConns | KServices | KPairs | KSlow | KDone.

(** A goroutine (lines of dhtpeer.go). The handler of a delegate connection: reading (923), holding an envelope
    before 960, before 964, before 987. The goroutine of a pair: before 973, waiting at
    977, in RouteEnvelope. A call of RouteEnvelope that found nobody: before 1170, before
    1174; [k] is the queue to which the pair's goroutine returns, [None] for the calls
    made for the own agent and the mailbox. Close. *)
Inductive thread :=
| TRead (a : string)
| TLook (a : string) (e : envelope)
| TMake (a : string) (e : envelope)
| TSend (a : string) (e : envelope)
| TStart (key : string)
| TRange (ch : nat)
| TRoute (k : option nat) (e : envelope)
| TCheck (k : option nat) (e : envelope)
| TPut (k : option nat) (e : envelope)
| TClose (s : close_stage)
| TEnd.

(** The slow queue's loop (dhtpeer.go:1186-1208): at 1190; sending (1200); it has returned. *)
Inductive loop_stage := LWait | LSending | LEnd.

(** What happened to envelopes (lines of dhtpeer.go), in order: the queue [ch] took one (988), refused one
    (989-991); the pair's goroutine routed one (978); the slow queue took one (1174), its
    loop sent one (1200) or threw one away (1191-1194). *)
Inductive entry :=
| Took (ch : nat) (e : envelope)
| Full (e : envelope)
| Routed (ch : nat) (e : envelope)
| SlowIn (e : envelope)
| SlowOut (e : envelope)
| SlowLost (e : envelope).

(** The part of the node (dhtpeer.go:121-184) that matters here. [p_closing]: the channel
    is closed; [p_flag]: isClosing; [p_table]: tcpAddresses, connections named by their
    goroutine; [p_shut]: connections closed by Close; [p_pairs]: syncMessages; [p_chans]:
    the channels made at 965 with their content and whether they are closed. *)
Record peer := Peer {
  p_threads : gmap nat thread;
  p_closing : bool;
  p_flag : bool;
  p_table : gmap string nat;
  p_shut : list nat;
  p_pairs : gmap string nat;
  p_chans : gmap nat (list envelope * bool);
  p_slow : list envelope;
  p_slow_closed : bool;
  p_loop : loop_stage;
  p_log : list entry;
  p_next : nat;
}.

(** dhtpeer.go:187-428 New: nothing is going on yet but the slow queue's loop (427). *)
Definition peer0 : peer := Peer ∅ false false ∅ [] ∅ ∅ [] false LWait [] 0.

(** dhtpeer.go:76. *)
Definition slow_cap : nat := Z.to_nat 100.

(** Updates of single components (no counterpart in /repo). *)
Definition set_thread (p : peer) (t : nat) (x : thread) : peer :=
  Peer (<[t := x]> (p_threads p)) (p_closing p) (p_flag p) (p_table p) (p_shut p) (p_pairs p) (p_chans p)
       (p_slow p) (p_slow_closed p) (p_loop p) (p_log p) (p_next p).
(** No counterpart in /repo: a component is replaced. *)
Definition set_table (p : peer) (m : gmap string nat) : peer :=
  Peer (p_threads p) (p_closing p) (p_flag p) m (p_shut p) (p_pairs p) (p_chans p)
       (p_slow p) (p_slow_closed p) (p_loop p) (p_log p) (p_next p).
(** No counterpart in /repo: a channel is replaced, and what happened is recorded. *)
Definition set_chan (p : peer) (ch : nat) (q : list envelope * bool) (l : list entry) : peer :=
  Peer (p_threads p) (p_closing p) (p_flag p) (p_table p) (p_shut p) (p_pairs p) (<[ch := q]> (p_chans p))
       (p_slow p) (p_slow_closed p) (p_loop p) (p_log p ++ l) (p_next p).
(** No counterpart in /repo: the slow queue and its loop are replaced, and what happened
    is recorded. *)
Definition set_slow (p : peer) (q : list envelope) (s : loop_stage) (l : list entry) : peer :=
  Peer (p_threads p) (p_closing p) (p_flag p) (p_table p) (p_shut p) (p_pairs p) (p_chans p)
       q (p_slow_closed p) s (p_log p ++ l) (p_next p).

(** A step: a delegate client registers (893-920, as one step); RouteEnvelope is called
    (libp2p_node.go:154, mailbox.go:186); Close is called; the goroutine [t] does its next
    step, [read] being what it reads (an envelope under the registered address, which the
    handler has answered; [None]: an error, which ends the handler) and [sent] whether
    RouteEnvelope gets by without the slow queue; the slow queue's loop does its next
    step. *)
Inductive event :=
| EConn (t : nat) (a : string)
| ECall (t : nat) (e : envelope)
| EClose (t : nat)
| EStep (t : nat) (read : option envelope) (sent : bool)
| ELoop.

(** Close, one step (dhtpeer.go:616-668). Simplifications: the services closed in between
    (646-657) do not touch what is modelled; without a delegate service there are no
    connections. *)
Definition close_step (p : peer) (t : nat) (s : close_stage) : res peer :=
  match s with
  | KSignal =>   (** 625 *)
      if p_closing p then Panic "close of closed channel"
      else Ok (Peer (<[t := TClose KFlag]> (p_threads p)) true (p_flag p) (p_table p) (p_shut p) (p_pairs p)
                    (p_chans p) (p_slow p) (p_slow_closed p) (p_loop p) (p_log p) (p_next p))
  | KFlag =>   (** 626 *)
      Ok (Peer (<[t := TClose KConns]> (p_threads p)) (p_closing p) true (p_table p) (p_shut p) (p_pairs p)
               (p_chans p) (p_slow p) (p_slow_closed p) (p_loop p) (p_log p) (p_next p))
  | KConns =>   (** 636-644 *)
      Ok (Peer (<[t := TClose KServices]> (p_threads p)) (p_closing p) (p_flag p) (p_table p)
               ((map_to_list (p_table p)).*2 ++ p_shut p) (p_pairs p)
               (p_chans p) (p_slow p) (p_slow_closed p) (p_loop p) (p_log p) (p_next p))
  | KServices => Ok (set_thread p t (TClose KPairs))   (** 646-657 *)
  | KPairs =>   (** 661-665: every channel in the table is closed *)
      if existsb (fun ch => match p_chans p !! ch with Some (_, c) => c | None => true end) (map_to_list (p_pairs p)).*2
      then Panic "close of closed channel"
      else Ok (Peer (<[t := TClose KSlow]> (p_threads p)) (p_closing p) (p_flag p) (p_table p) (p_shut p)
                    (p_pairs p)
                    (map_imap (fun ch q => Some (q.1, q.2 || bool_decide (ch ∈ (map_to_list (p_pairs p)).*2))) (p_chans p))
                    (p_slow p) (p_slow_closed p) (p_loop p) (p_log p) (p_next p))
  | KSlow =>   (** 666 *)
      if p_slow_closed p then Panic "close of closed channel"
      else Ok (Peer (<[t := TClose KDone]> (p_threads p)) (p_closing p) (p_flag p) (p_table p) (p_shut p)
                    (p_pairs p) (p_chans p) (p_slow p) true (p_loop p) (p_log p) (p_next p))
  | KDone => Err "not enabled"
  end.

(** Where a call of RouteEnvelope returns to (dhtpeer.go:977-984). *)
Definition back (k : option nat) : thread := match k with Some ch => TRange ch | None => TEnd end.

(** One step of a goroutine; [Err] when it is not enabled (dhtpeer.go:616-668, 923-1005,
    1165-1181). Making the queue and starting the pair's goroutine is one step. *)
Definition thread_step (p : peer) (t : nat) (read : option envelope) (sent : bool) : res peer :=
  match p_threads p !! t with
  | Some (TRead a) =>
      match read with
      | Some e =>
          if bool_decide (t ∈ p_shut p) then Err "not enabled"
          else if String.eqb (e_sender e) a then Ok (set_thread p t (TLook a e)) else Err "not enabled"
      | None => Ok (set_table (set_thread p t TEnd) (delete a (p_table p)))   (** 997-999 *)
      end
  | Some (TLook a e) =>   (** 960-962 *)
      Ok (set_thread p t (match p_pairs p !! pair_key e with Some _ => TSend a e | None => TMake a e end))
  | Some (TMake a e) =>   (** 964-984 *)
      Ok (Peer (<[S (p_next p) := TStart (pair_key e)]> (<[t := TSend a e]> (p_threads p)))
               (p_closing p) (p_flag p) (p_table p) (p_shut p)
               (<[pair_key e := p_next p]> (p_pairs p)) (<[p_next p := ([], false)]> (p_chans p))
               (p_slow p) (p_slow_closed p) (p_loop p) (p_log p) (S (S (p_next p))))
  | Some (TSend a e) =>   (** 987-993 *)
      match p_pairs p !! pair_key e with
      | None => Err "not enabled"
      | Some ch =>
          match p_chans p !! ch with
          | None => Err "not enabled"
          | Some (q, true) => Panic "send on closed channel"
          | Some (q, false) =>
              Ok (set_thread (if (length q <? pair_cap)%nat then set_chan p ch (q ++ [e], false) [Took ch e]
                              else set_chan p ch (q, false) [Full e]) t (TRead a))
          end
      end
  | Some (TStart key) =>   (** 973-975 *)
      match p_pairs p !! key with Some ch => Ok (set_thread p t (TRange ch)) | None => Err "not enabled" end
  | Some (TRange ch) =>   (** 977 *)
      match p_chans p !! ch with
      | Some (e :: q, c) => Ok (set_thread (set_chan p ch (q, c) [Routed ch e]) t (TRoute (Some ch) e))
      | Some ([], true) => Ok (set_thread p t TEnd)
      | _ => Err "not enabled"
      end
  | Some (TRoute k e) => Ok (set_thread p t (if sent then back k else TCheck k e))   (** 1055-1167 *)
  | Some (TCheck k e) => Ok (set_thread p t (if p_flag p then back k else TPut k e))   (** 1170 *)
  | Some (TPut k e) =>   (** 1174 *)
      if p_slow_closed p then Panic "send on closed channel"
      else if (length (p_slow p) <? slow_cap)%nat
      then Ok (set_thread (set_slow p (p_slow p ++ [e]) (p_loop p) [SlowIn e]) t (back k))
      else Err "not enabled"
  | Some (TClose s) => close_step p t s
  | Some TEnd | None => Err "not enabled"
  end.

(** One step of the slow queue's loop (dhtpeer.go:1186-1208). *)
Definition loop_step (p : peer) : res peer :=
  match p_loop p with
  | LWait =>
      match p_slow p with
      | e :: q =>
          if p_flag p then Ok (set_slow p q LEnd [SlowLost e]) else Ok (set_slow p q LSending [SlowOut e])
      | [] => if p_slow_closed p then Ok (set_slow p [] LEnd []) else Err "not enabled"
      end
  | LSending => Ok (set_slow p (p_slow p) LWait [])
  | LEnd => Err "not enabled"
  end.

(** A goroutine starts with a name not used yet (no counterpart in /repo). *)
Definition spawn (p : peer) (t : nat) (x : thread) : res peer :=
  if (t <? p_next p)%nat then Err "not enabled"
  else Ok (Peer (<[t := x]> (p_threads p)) (p_closing p) (p_flag p) (p_table p) (p_shut p) (p_pairs p)
                (p_chans p) (p_slow p) (p_slow_closed p) (p_loop p) (p_log p) (S t)).

(** One step; see [event] (dhtpeer.go:616-668, 893-1005, 1055-1208). *)
Definition down_step (p : peer) (ev : event) : res peer :=
  match ev with
  | EConn t a => let* q := spawn p t (TRead a) in Ok (set_table q (<[a := t]> (p_table q)))
  | ECall t e => spawn p t (TRoute None e)
  | EClose t => spawn p t (TClose KSignal)
  | EStep t read sent => thread_step p t read sent
  | ELoop => loop_step p
  end.

(** No counterpart in /repo: an interleaving of the goroutines. *)
Fixpoint down_run (p : peer) (evs : list event) : res peer :=
  match evs with
  | [] => Ok p
  | ev :: evs' => let* q := down_step p ev in down_run q evs'
  end.
