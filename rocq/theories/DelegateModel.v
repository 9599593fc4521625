(** Model of the delegate service of a peer node:
    /repo/libs/go/libp2p_node/dht/dhtpeer/dhtpeer.go:825-1010.

    Every connection is served by a goroutine of its own, and so is every pair of
    recipient and sender ("worker"). The model interleaves them at the granularity of
    the locks: a step of a goroutine is everything it does up to and including its
    next access to a map or channel shared with others. Metrics, logging, the delay
    before registration and transport errors other than those named are left out. *)
From Coq Require Import ZArith NArith List String Ascii.
From stdpp Require Import base gmap list strings.
From Verif Require Import GoBase Bytes Utf8 WireModel ProtoModel CryptoModel PorModel AcnModel.
Open Scope string_scope.
Open Scope list_scope.
Open Scope Z_scope.

(** Where the goroutine of a connection is (dhtpeer.go:837-1010). *)
Inductive phase :=
| New                                     (** before the registration is read, 860 *)
| Storing (r : record) (k : nat)          (** accepted; [k] of the three maps 893-903 are written *)
| Looping (a : string)                    (** about to read a frame, 925 *)
| Delivering (a : string) (s : status_body)  (** a status was read, 1843 *)
| Putting (a : string) (q : nat) (s : status_body)  (** about to send it on the queue, 1848 *)
| Stuck                                   (** blocked for ever, sending on a nil channel *)
| Checking (a : string) (e : envelope)    (** an envelope was read, 960 *)
| Creating (a : string) (e : envelope)    (** no queue was found for its pair, 964 *)
| Enqueuing (a : string) (e : envelope)   (** 988 *)
| Closing (a : string) (k : nat)          (** left the loop; [k] of two entries deleted, 1001 *)
| Abandoned (a : string)                  (** left after a failed announcement, 908-912 *)
| Done.

(** A worker (dhtpeer.go:970-984): its pair, and its channel once it has looked it
    up (973). *)
Record worker := Worker { w_pair : string; w_chan : option nat }.

(** The shared state. Channels have identities, because a map entry can be replaced
    while a goroutine still holds the old channel. [n_sent], [n_accepted], [n_decided]
    and [n_routed] record what happened, with the connection it concerns: messages
    written to a client; envelopes passed on to the pair queues; whether the queue took
    them; calls of RouteEnvelope (977). (dhtpeer.go:121-184.) *)
Record node := Node {
  n_conns : gmap nat phase;
  n_records : gmap string record;
  n_tcp : gmap string nat;
  n_stat : gmap string nat;
  n_queues : gmap nat (list status_body);
  n_pairs : gmap string nat;
  n_chans : gmap nat (list (nat * envelope));
  n_next : nat;
  n_workers : list worker;
  n_sent : list (nat * acn_perf);
  n_accepted : list (nat * envelope);
  n_decided : list (nat * envelope * bool);
  n_routed : list (nat * envelope);
}.

(** New (dhtpeer.go:187-428): everything empty. *)
Definition node0 : node := Node ∅ ∅ ∅ ∅ ∅ ∅ ∅ O [] [] [] [] [].

(** No counterpart in /repo: where the goroutine of a connection is. *)
Definition phase_of (n : node) (c : nat) : phase := default New (n_conns n !! c).

(** Updates of single components (no counterpart in /repo). *)
Definition set_phase (n : node) (c : nat) (p : phase) : node :=
  Node (<[c := p]> (n_conns n)) (n_records n) (n_tcp n) (n_stat n) (n_queues n) (n_pairs n) (n_chans n)
       (n_next n) (n_workers n) (n_sent n) (n_accepted n) (n_decided n) (n_routed n).
(** No counterpart in /repo: records what was written. *)
Definition add_sent (n : node) (c : nat) (ms : list acn_perf) : node :=
  Node (n_conns n) (n_records n) (n_tcp n) (n_stat n) (n_queues n) (n_pairs n) (n_chans n) (n_next n)
       (n_workers n) (n_sent n ++ map (pair c) ms) (n_accepted n) (n_decided n) (n_routed n).

(** dhtpeer.go:959: the key of the queue of a recipient and a sender. *)
Definition pair_key (e : envelope) : string := (e_to e ++ e_sender e)%string.

(** Capacities: dhtpeer.go:75 and 965. *)
Definition status_cap : nat := Z.to_nat 1000.
(** dhtpeer.go:965. *)
Definition pair_cap : nat := Z.to_nat 1000.

(** dhtpeer.go:791-1010: what can happen next at a node. *)
Inductive event :=
| ERead (c : nat) (read : res bytes) (write_ok : bool)
| EGo (c : nat) (announce_ok : bool)
| EStart (w : nat)
| ETake (w : nat).

Section Steps.
  (** The libraries, this node's public key (text form) and the text in error
      messages. *)
  Context (P : prims) (my_key why : string).

  (** dhtpeer.go:860-890: a frame on a new connection. [addr := record.Address] on a
      nil record panics (870); CheckPOR is 826-832. [err.Error()] (879) would panic if
      the check ever failed without an error. *)
  Definition read_new (n : node) (c : nat) (read : res bytes) (write_ok : bool) : res node :=
    match read_registration why read with
    | (_, Panic p) => Panic p
    | (sent, Err _) => Ok (set_phase (add_sent n c sent) c Done)
    | (_, Ok None) => Panic "nil pointer dereference"
    | (sent, Ok (Some r)) =>
        match is_valid_por P r (r_address r) my_key with
        | Panic p => Panic p
        | Err _ => Err "impossible"
        | Ok (code, err) =>
            if negb err && negb (code =? SUCCESS) then Panic "nil pointer dereference"
            else if err
            then Ok (set_phase (add_sent n c (sent ++ [acn_error code why])) c Done)
            else Ok (set_phase (add_sent n c (sent ++ [acn_success])) c
                       (if write_ok then Storing r 0 else Done))
        end
    end.

  (** dhtpeer.go:923-957: a frame on a registered connection. *)
  Definition read_loop (n : node) (c : nat) (a : string) (read : res bytes) (write_ok : bool) : res node :=
    match handle_acn why write_ok read with
    | (_, Panic p) => Panic p
    | (_, Err _) => Err "impossible"
    | (sent, Ok HPipeError) | (sent, Ok HError) => Ok (set_phase (add_sent n c sent) c (Closing a 0))
    | (sent, Ok (HStatus s)) => Ok (set_phase (add_sent n c sent) c (Delivering a s))
    | (sent, Ok (HEnvelope e)) =>
        let n1 := add_sent n c sent in
        if String.eqb (e_sender e) a
        then Ok (set_phase
               (Node (n_conns n1) (n_records n1) (n_tcp n1) (n_stat n1) (n_queues n1) (n_pairs n1)
                     (n_chans n1) (n_next n1) (n_workers n1) (n_sent n1)
                     (n_accepted n1 ++ [(c, e)]) (n_decided n1) (n_routed n1)) c (Checking a e))
        else Ok n1
    end.

  (** The next step of the goroutine of connection [c] when it is not reading.
      (dhtpeer.go:837-1010.) *)
  Definition go (n : node) (c : nat) (announce_ok : bool) : res node :=
    match phase_of n c with
    | Storing r 0 =>   (** 893-895 *)
        Ok (set_phase
          (Node (n_conns n) (<[r_address r := r]> (n_records n)) (n_tcp n) (n_stat n) (n_queues n)
                (n_pairs n) (n_chans n) (n_next n) (n_workers n) (n_sent n) (n_accepted n)
                (n_decided n) (n_routed n)) c (Storing r 1))
    | Storing r 1 =>   (** 897-899 *)
        Ok (set_phase
          (Node (n_conns n) (n_records n) (<[r_address r := c]> (n_tcp n)) (n_stat n) (n_queues n)
                (n_pairs n) (n_chans n) (n_next n) (n_workers n) (n_sent n) (n_accepted n)
                (n_decided n) (n_routed n)) c (Storing r 2))
    | Storing r 2 =>   (** 901-903; the new queue is named after the connection *)
        Ok (set_phase
          (Node (n_conns n) (n_records n) (n_tcp n) (<[r_address r := c]> (n_stat n))
                (<[c := []]> (n_queues n)) (n_pairs n) (n_chans n) (n_next n) (n_workers n) (n_sent n)
                (n_accepted n) (n_decided n) (n_routed n)) c (Storing r 3))
    | Storing r _ =>   (** 907-913 *)
        Ok (set_phase n c (if announce_ok then Looping (r_address r) else Abandoned (r_address r)))
    | Delivering a s =>   (** 1844-1846 *)
        Ok (set_phase n c (match n_stat n !! a with Some q => Putting a q s | None => Stuck end))
    | Putting a q s =>   (** 1848: blocks while the queue is full *)
        let l := default [] (n_queues n !! q) in
        if (length l <? status_cap)%nat then
          Ok (set_phase
            (Node (n_conns n) (n_records n) (n_tcp n) (n_stat n) (<[q := l ++ [s]]> (n_queues n))
                  (n_pairs n) (n_chans n) (n_next n) (n_workers n) (n_sent n) (n_accepted n)
                  (n_decided n) (n_routed n)) c (Looping a))
        else Err "blocked"
    | Checking a e =>   (** 960-963 *)
        Ok (set_phase n c (match n_pairs n !! pair_key e with
                           | Some _ => Enqueuing a e | None => Creating a e end))
    | Creating a e =>   (** 964-984 *)
        Ok (set_phase
          (Node (n_conns n) (n_records n) (n_tcp n) (n_stat n) (n_queues n)
                (<[pair_key e := n_next n]> (n_pairs n)) (<[n_next n := []]> (n_chans n))
                (S (n_next n)) (n_workers n ++ [Worker (pair_key e) None]) (n_sent n)
                (n_accepted n) (n_decided n) (n_routed n)) c (Enqueuing a e))
    | Enqueuing a e =>   (** 987-995 *)
        let ch := default O (n_pairs n !! pair_key e) in
        let l := default [] (n_chans n !! ch) in
        if (length l <? pair_cap)%nat then
          Ok (set_phase
            (Node (n_conns n) (n_records n) (n_tcp n) (n_stat n) (n_queues n) (n_pairs n)
                  (<[ch := l ++ [(c, e)]]> (n_chans n)) (n_next n) (n_workers n) (n_sent n)
                  (n_accepted n) (n_decided n ++ [(c, e, true)]) (n_routed n)) c (Looping a))
        else
          Ok (set_phase
            (Node (n_conns n) (n_records n) (n_tcp n) (n_stat n) (n_queues n) (n_pairs n)
                  (n_chans n) (n_next n) (n_workers n) (n_sent n)
                  (n_accepted n) (n_decided n ++ [(c, e, false)]) (n_routed n)) c (Looping a))
    | Closing a 0 =>   (** 1001-1003 *)
        Ok (set_phase
          (Node (n_conns n) (n_records n) (delete a (n_tcp n)) (n_stat n) (n_queues n) (n_pairs n)
                (n_chans n) (n_next n) (n_workers n) (n_sent n) (n_accepted n) (n_decided n)
                (n_routed n)) c (Closing a 1))
    | Closing a _ =>   (** 1006-1008 *)
        Ok (set_phase
          (Node (n_conns n) (n_records n) (n_tcp n) (delete a (n_stat n)) (n_queues n) (n_pairs n)
                (n_chans n) (n_next n) (n_workers n) (n_sent n) (n_accepted n) (n_decided n)
                (n_routed n)) c Done)
    | New | Looping _ | Stuck | Abandoned _ | Done => Err "not enabled"
    end.

  (** dhtpeer.go:972-974: a worker looks up its channel. *)
  Definition start (n : node) (w : nat) : res node :=
    match n_workers n !! w with
    | Some (Worker p None) =>
        Ok (Node (n_conns n) (n_records n) (n_tcp n) (n_stat n) (n_queues n) (n_pairs n) (n_chans n)
                 (n_next n) (<[w := Worker p (n_pairs n !! p)]> (n_workers n)) (n_sent n)
                 (n_accepted n) (n_decided n) (n_routed n))
    | _ => Err "not enabled"
    end.

  (** dhtpeer.go:976-977: a worker takes the next envelope and routes it. *)
  Definition take_ (n : node) (w : nat) : res node :=
    match n_workers n !! w with
    | Some (Worker p (Some ch)) =>
        match n_chans n !! ch with
        | Some (x :: l) =>
            Ok (Node (n_conns n) (n_records n) (n_tcp n) (n_stat n) (n_queues n) (n_pairs n)
                     (<[ch := l]> (n_chans n)) (n_next n) (n_workers n) (n_sent n)
                     (n_accepted n) (n_decided n) (n_routed n ++ [x]))
        | _ => Err "not enabled"
        end
    | _ => Err "not enabled"
    end.

  (** One step; [Err] when it is not enabled, [Panic] when it ends the process.
      (dhtpeer.go:791-1010, 1843-1878.) *)
  Definition step (n : node) (ev : event) : res node :=
    match ev with
    | ERead c read write_ok =>
        match phase_of n c with
        | New => read_new n c read write_ok
        | Looping a => read_loop n c a read write_ok
        | _ => Err "not enabled"
        end
    | EGo c announce_ok => go n c announce_ok
    | EStart w => start n w
    | ETake w => take_ n w
    end.

  (** A schedule. (No counterpart in /repo: an interleaving of the goroutines.) *)
  Fixpoint run (n : node) (evs : list event) : res node :=
    match evs with
    | [] => Ok n
    | ev :: evs' => let* n' := step n ev in run n' evs'
    end.
End Steps.
