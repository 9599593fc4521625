(** Model of the numbers of clients that a peer node reports:
    /repo/libs/go/libp2p_node/dht/dhtpeer/dhtpeer.go:567-579, 844-845, 863-938, 1706-1752.
    The goroutines of the delegate connections are those of DelegateModel.v; here each step also changes the metrics. Gauge and counters are changed under a lock
    of their own (monitoring/file.go:30-87; the Prometheus ones are atomic), so that every change is one step. Simplifications: numbers are integers and not
    float64; the histograms are left out; what a relay client's registration does to the tables is in RegistryModel.v. *)
From Coq Require Import ZArith List String.
From stdpp Require Import base gmap list strings.
From Verif Require Import GoBase Bytes ProtoModel CryptoModel PorModel AcnModel DelegateModel RegistryModel.
Open Scope string_scope.
Open Scope list_scope.
Open Scope Z_scope.

(** The four metrics about clients: service_delegate_clients_count and ..._all, service_relay_clients_count and ..._all (dhtpeer.go:105-108, 567-579). *)
Record stats := Stats { st_delegates : Z; st_delegates_all : Z; st_relays : Z; st_relays_all : Z }.

(** addMonitoringMetrics (dhtpeer.go:567-579): all zero. *)
Definition stats0 : stats := Stats 0 0 0 0.

(** nbrConns.Dec() (dhtpeer.go:863, 881, 888, 938). *)
Definition dec_delegates (s : stats) : stats := Stats (st_delegates s - 1) (st_delegates_all s) (st_relays s) (st_relays_all s).
(** nbrConns.Inc(), nbrClients.Inc() (dhtpeer.go:918-919). *)
Definition inc_delegates (s : stats) : stats := Stats (st_delegates s + 1) (st_delegates_all s + 1) (st_relays s) (st_relays_all s).
(** nbrClients.Inc() (dhtpeer.go:1752). *)
Definition inc_relays (s : stats) : stats := Stats (st_delegates s) (st_delegates_all s) (st_relays s) (st_relays_all s + 1).

(** What a step of the goroutine of a connection that takes it from one place to another does to the metrics: refused (dhtpeer.go:861-890) and left the loop
    (925-940), lowered; announced (907-919), raised; nothing if the announcement failed (908-912) and everywhere else. *)
Definition counted (before after : phase) (s : stats) : stats :=
  match before, after with
  | New, Done => dec_delegates s
  | Storing _ _, Looping _ => inc_delegates s
  | Looping _, Closing _ _ => dec_delegates s
  | _, _ => s
  end.

(** What can happen: a step of the delegate service (dhtpeer.go:791-1010); a relay client opens a stream to register (1700-1793). *)
Inductive event := Delegate (ev : DelegateModel.event) | Relay (key id : string) (read : res bytes) (write_ok : bool).

Section Stats.
  (** The libraries, this node's public key (text form) and the text in error messages. *)
  Context (P : prims) (my_key why : string).

  (** One step (dhtpeer.go:837-1010, 1700-1752). *)
  Definition step (x : node * stats) (e : event) : res (node * stats) :=
    let (n, s) := x in
    match e with
    | Delegate ev =>
        let* n' := DelegateModel.step P my_key why n ev in
        Ok (n', match ev with
                | ERead c _ _ | EGo c _ => counted (phase_of n c) (phase_of n' c) s
                | EStart _ | ETake _ => s
                end)
    | Relay key id read write_ok =>
        let* ops := snd (relay_register P why key id read write_ok) in
        Ok (n, match ops with [] => s | _ => inc_relays s end)
    end.

  (** Steps one after the other. (No counterpart in /repo: an interleaving of the goroutines.) *)
  Fixpoint run (x : node * stats) (es : list event) : res (node * stats) :=
    match es with
    | [] => Ok x
    | e :: es' => let* y := step x e in run y es'
    end.
End Stats.
