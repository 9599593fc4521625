(** Model of the metrics of the peers of one process:
    /repo/libs/go/libp2p_node/dht/monitoring/prometheus.go and the part of
    /repo/libs/go/libp2p_node/dht/dhtpeer/dhtpeer.go (517-581) that makes and starts them.
    The metrics kept without a monitoring port are in MonitorModel.v; here only which
    metrics there are. Times are left out. *)
From Coq Require Import ZArith NArith List String Ascii.
From stdpp Require Import base gmap list strings.
From Verif Require Import GoBase.
Open Scope string_scope.
Open Scope list_scope.
Open Scope Z_scope.

(** The three dictionaries of a monitor (prometheus.go:40-42). *)
Inductive kind := KCounter | KGauge | KHistogram.
(** Equality of kinds can be decided (No counterpart in /repo). *)
#[global] Instance kind_eq : EqDecision kind. Proof. solve_decision. Defined.
(** Likewise (No counterpart in /repo). *)
#[global] Instance kind_countable : Countable kind.
Proof.
  refine (inj_countable' (fun k => match k with KCounter => 0%nat | KGauge => 1%nat | KHistogram => 2%nat end)
            (fun n => match n with 0%nat => KCounter | 1%nat => KGauge | _ => KHistogram end) _).
  by intros [].
Defined.

(** The HTTP server of a monitor (prometheus.go:39): the zero value, made (122), listening
    and serving (126), closed (130). *)
Inductive server := SZero | SMade | SServing | SClosed.

(** A monitor (prometheus.go:34-45, file.go:108-119): its kind, namespace, metrics by kind
    and name, whether it was started, its server, how many calls of Start are
    before 126. A metric is a number; no two metrics have the same. *)
Record monitor := Monitor {
  mo_file : bool;
  mo_namespace : string;
  mo_dict : gmap (kind * string) nat;
  mo_running : bool;
  mo_server : server;
  mo_waiting : nat;
}.

(** What the peers of a process share: the full names in Prometheus' default registry
    (promauto, prometheus.go:66, 82, 102), whether "/metrics" has a handler in the
    default mux (123), the number of metrics made; and the monitors. *)
Record process := Process {
  pr_registry : gset string;
  pr_page : bool;
  pr_made : nat;
  pr_monitors : gmap nat monitor;
}.

(** prometheus.BuildFQName as used for prometheus.go:66-70. *)
Definition full_name (namespace name : string) : string :=
  if String.eqb name "" then "" else if String.eqb namespace "" then name else (namespace ++ "_" ++ name)%string.

(** The letters of metric names (prometheus.go:68; the library's IsValidMetricName). *)
Definition name_letter (c : ascii) : bool :=
  let n := N_of_ascii c in
  ((97 <=? n) && (n <=? 122) || (65 <=? n) && (n <=? 90) || (n =? 95) || (n =? 58))%N.

(** Likewise, letters and digits (prometheus.go:68). *)
Definition name_char (c : ascii) : bool :=
  let n := N_of_ascii c in (name_letter c || (48 <=? n) && (n <=? 57))%N.

(** All characters (No counterpart in /repo). *)
Fixpoint all_chars (f : ascii -> bool) (s : string) : bool :=
  match s with EmptyString => true | String c s' => f c && all_chars f s' end.

(** Names that can be registered (prometheus.go:66-70; the library's IsValidMetricName). *)
Definition name_ok (s : string) : bool :=
  match s with EmptyString => false | String c s' => name_letter c && all_chars name_char s' end.

(** Strictly increasing, as newHistogram demands (prometheus.go:102-107). *)
Fixpoint increasing (l : list Z) : bool :=
  match l with
  | a :: ((b :: _) as l') => (a <? b) && increasing l'
  | _ => true
  end.

(** prometheus.go:65-111 NewCounter, NewGauge, NewHistogram (file.go:142-179 for a file
    monitor) of monitor [i]: a new metric under the name. promauto panics if the metric
    cannot be registered. [buckets] is empty for counters and gauges. *)
Definition new_metric (p : process) (i : nat) (k : kind) (name : string) (buckets : list Z) : res process :=
  match pr_monitors p !! i with
  | None => Err "no such monitor"
  | Some m =>
      let m' := Monitor (mo_file m) (mo_namespace m) (<[(k, name) := pr_made p]> (mo_dict m)) (mo_running m)
                  (mo_server m) (mo_waiting m) in
      if mo_file m then Ok (Process (pr_registry p) (pr_page p) (S (pr_made p)) (<[i := m']> (pr_monitors p)))
      else
        let full := full_name (mo_namespace m) name in
        if negb (name_ok full) then Panic "is not a valid metric name"
        else if negb (increasing buckets) then Panic "histogram buckets must be in increasing order"
        else if decide (full ∈ pr_registry p) then Panic "duplicate metrics collector registration attempted"
        else Ok (Process ({[full]} ∪ pr_registry p) (pr_page p) (S (pr_made p)) (<[i := m']> (pr_monitors p)))
  end.

(** Several of them, in order (dhtpeer.go:541-580). *)
Fixpoint new_metrics (p : process) (i : nat) (l : list (kind * string * list Z)) : res process :=
  match l with
  | [] => Ok p
  | (k, name, b) :: l' => let* p' := new_metric p i k name b in new_metrics p' i l'
  end.

(** dhtpeer.go:114. *)
Definition latency_buckets : list Z := [100; 500; 1000; 10000; 100000; 500000; 1000000].

(** dhtpeer.go:537-581 addMonitoringMetrics with the names of 98-108. *)
Definition peer_metrics : list (kind * string * list Z) :=
  [(KHistogram, "dht_op_latency_store", latency_buckets);
   (KHistogram, "dht_op_latency_lookup", latency_buckets);
   (KHistogram, "op_latency_register", latency_buckets);
   (KHistogram, "op_latency_route", latency_buckets);
   (KGauge, "op_route_count", []);
   (KCounter, "op_route_count_all", []);
   (KCounter, "op_route_count_success", []);
   (KGauge, "service_delegate_clients_count", []);
   (KCounter, "service_delegate_clients_count_all", []);
   (KGauge, "service_relay_clients_count", []);
   (KCounter, "service_relay_clients_count_all", [])].

(** dhtpeer.go:517-528 setupMonitoring for a new peer, with 97 and prometheus.go:47-63. *)
Definition setup (p : process) (i : nat) (port : Z) : res process :=
  new_metrics
    (Process (pr_registry p) (pr_page p) (pr_made p)
       (<[i := Monitor (port =? 0) "acn" ∅ false SZero 0]> (pr_monitors p)))
    i peer_metrics.

(** prometheus.go:76-79, 92-95, 113-116 GetCounter, GetGauge, GetHistogram. *)
Definition find_metric (p : process) (i : nat) (k : kind) (name : string) : option nat :=
  match pr_monitors p !! i with None => None | Some m => mo_dict m !! (k, name) end.

(** Put a monitor in its place (No counterpart in /repo). *)
Definition put_monitor (p : process) (i : nat) (m : monitor) : process :=
  Process (pr_registry p) (pr_page p) (pr_made p) (<[i := m]> (pr_monitors p)).

(** prometheus.go:118-127 Start up to 126 (as one step), file.go:186-189 with write false
    (dhtpeer.go:524): nothing happens. *)
Definition start_monitor (p : process) (i : nat) (m : monitor) : res process :=
  if mo_file m || mo_running m then Ok p
  else if pr_page p then Panic "http: multiple registrations for /metrics"
  else Ok (Process (pr_registry p) true (pr_made p)
             (<[i := Monitor false (mo_namespace m) (mo_dict m) true SMade (S (mo_waiting m))]> (pr_monitors p))).

(** prometheus.go:126 ListenAndServe: it fails at once on a closed server and if the port
    cannot be listened on; the error is ignored. *)
Definition listen_monitor (p : process) (i : nat) (m : monitor) (ok : bool) : option process :=
  match mo_waiting m with
  | O => None
  | S n =>
      Some (put_monitor p i (Monitor (mo_file m) (mo_namespace m) (mo_dict m) (mo_running m)
              (match mo_server m with SMade => if ok then SServing else SMade | s => s end) n))
  end.

(** prometheus.go:129-131 Stop, file.go:210-212 (the channel is nil: 187-190). Closing the
    zero server has no effect on the server that Start makes later. *)
Definition stop_monitor (p : process) (i : nat) (m : monitor) : res process :=
  if mo_file m then Panic "close of nil channel"
  else Ok (put_monitor p i (Monitor (mo_file m) (mo_namespace m) (mo_dict m) (mo_running m)
             (match mo_server m with SZero => SZero | _ => SClosed end) (mo_waiting m))).

(** What happens: peer [i] is made with a monitoring port, 0 for none, and comes to
    setupMonitoring (dhtpeer.go:324); Start is called on its monitor (533); a call of
    Start listens; Stop is called; the peer is closed (616-668). *)
Inductive event :=
| ESetup (i : nat) (port : Z) | EStart (i : nat) | EListen (i : nat) (ok : bool) | EStop (i : nat) | EClose (i : nat).

(** One event; [None]: it cannot happen. Close of a peer does not touch its monitor
    (dhtpeer.go:616-668). *)
Definition step (p : process) (e : event) : option (res process) :=
  match e with
  | ESetup i port => match pr_monitors p !! i with Some _ => None | None => Some (setup p i port) end
  | EStart i => match pr_monitors p !! i with None => None | Some m => Some (start_monitor p i m) end
  | EListen i ok =>
      match pr_monitors p !! i with
      | None => None
      | Some m => match listen_monitor p i m ok with None => None | Some p' => Some (Ok p') end
      end
  | EStop i => match pr_monitors p !! i with None => None | Some m => Some (stop_monitor p i m) end
  | EClose i => match pr_monitors p !! i with None => None | Some _ => Some (Ok p) end
  end.

(** A history; it ends at a crash (No counterpart in /repo). *)
Fixpoint run (p : process) (l : list event) : option (res process) :=
  match l with
  | [] => Some (Ok p)
  | e :: l' =>
      match step p e with
      | Some (Ok p') => run p' l'
      | x => x
      end
  end.
