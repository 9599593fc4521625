(** Model of the metrics of a peer:
    /repo/libs/go/libp2p_node/dht/monitoring/file.go and
    /repo/libs/go/libp2p_node/dht/monitoring/service.go. *)
From Coq Require Import ZArith NArith List String Ascii Floats.SpecFloat.
From stdpp Require Import base gmap list strings.
From Verif Require Import GoBase.
Open Scope string_scope.
Open Scope list_scope.
Open Scope Z_scope.

(** Go's uint64 (file.go:91). *)
Definition count64 (z : Z) : Z := z mod 2 ^ 64.

(** file.go:89-93 FileHistogram. A float64 is a [spec_float]; that it is in the range
    and of the precision of a double is not needed. *)
Record histogram := Histogram { h_buckets : list spec_float; h_counts : list Z }.

(** file.go:167-180 NewHistogram: one count per bucket and one more. *)
Definition new_histogram (buckets : list spec_float) : histogram :=
  Histogram buckets (repeat 0 (length buckets + 1)).

(** file.go:97-104: the loop and the count after it. *)
Fixpoint observe_counts (value : spec_float) (buckets : list spec_float) (counts : list Z) : res (list Z) :=
  match buckets, counts with
  | _, [] => Panic "index out of range"
  | [], c :: cs => Ok (count64 (c + 1) :: cs)
  | b :: bs, c :: cs =>
      let* r := observe_counts value bs cs in
      Ok ((if SFleb value b then count64 (c + 1) else c) :: r)
  end.

(** file.go:95-106 Observe; the lock makes it one step. *)
Definition observe (h : histogram) (value : spec_float) : res histogram :=
  let* counts := observe_counts value (h_buckets h) (h_counts h) in
  Ok (Histogram (h_buckets h) counts).

(** A history of file.go:95-106. *)
Fixpoint observe_all (h : histogram) (values : list spec_float) : res histogram :=
  match values with
  | [] => Ok h
  | v :: vs => let* h' := observe h v in observe_all h' vs
  end.

(** Gauges or counters (file.go:30-87, 110-111): the values behind all handles made, and
    which handle a name stands for. Simplification: float64 values are integers, which
    is exact up to 2^53 as the node only adds and subtracts 1. *)
Record metrics := Metrics { ms_values : list Z; ms_names : gmap string nat }.

(** file.go:126-128: none at first. *)
Definition metrics0 : metrics := Metrics [] ∅.

(** file.go:142-148, 155-160 NewCounter, NewGauge: a new value, under the name. The
    handle is given back. *)
Definition new_metric (m : metrics) (name : string) : metrics * nat :=
  (Metrics (ms_values m ++ [0]) (<[name := length (ms_values m)]> (ms_names m)), length (ms_values m)).

(** file.go:150-153, 162-165 GetCounter, GetGauge. *)
Definition get_metric (m : metrics) (name : string) : option nat := ms_names m !! name.

(** file.go:52-66, 77-82 Add, Sub of a handle. *)
Definition add_metric (m : metrics) (handle : nat) (n : Z) : metrics :=
  Metrics (alter (fun v => v + n) handle (ms_values m)) (ms_names m).

(** file.go:214-226 getStats: the values reported, by name. Simplification: the text they
    are put in is left out. *)
Definition stat (m : metrics) (name : string) : option Z :=
  match get_metric m name with None => None | Some h => ms_values m !! h end.

(** The channel [closing] of file.go:118: nil, open, closed. *)
Inductive closing_chan := CNil | COpen | CClosed.
(** The reporting of file.go:186-212: whether it may write (117), [closing], how many
    loops are writing (193-207), how often Start had an effect. *)
Record reporting := Reporting { rp_write : bool; rp_closing : closing_chan; rp_loops : nat; rp_starts : nat }.

(** file.go:121-140 NewFileMonitoring. *)
Definition reporting0 (write : bool) : reporting := Reporting write CNil 0 0.

(** file.go: Start (186), Stop (210), a turn of the writing loop (194).
    (monitoring/file.go:186-212.) *)
Inductive report_event := RStart | RStop | RTurn.

(** file.go:186-212; [None]: it cannot happen. A turn with the channel open writes the
    values. Simplification: the test and the assignment of [closing] (187-190) are one
    step, as a peer calls Start once. *)
Definition report_step (r : reporting) (ev : report_event) : option (res reporting) :=
  match ev with
  | RStart =>
      match rp_closing r with
      | CNil => if rp_write r then Some (Ok (Reporting true COpen (S (rp_loops r)) (S (rp_starts r)))) else Some (Ok r)
      | _ => Some (Ok r)
      end
  | RStop =>
      match rp_closing r with
      | CNil => Some (Panic "close of nil channel")
      | CClosed => Some (Panic "close of closed channel")
      | COpen => Some (Ok (Reporting (rp_write r) CClosed (rp_loops r) (rp_starts r)))
      end
  | RTurn =>
      match rp_loops r with
      | O => None
      | S n => Some (Ok (match rp_closing r with CClosed => Reporting (rp_write r) CClosed n (rp_starts r) | _ => r end))
      end
  end.

(** A history of file.go:186-212; it ends at a crash. *)
Fixpoint report_run (r : reporting) (evs : list report_event) : option (res reporting) :=
  match evs with
  | [] => Some (Ok r)
  | ev :: evs' =>
      match report_step r ev with
      | Some (Ok r') => report_run r' evs'
      | x => x
      end
  end.

(** service.go:51-54 Timer: the start of each named timer, in nanoseconds; the calls of
    GetTimerNamed that have read a start and not yet deleted the timer (79-82), with
    the result they will give; the results given, [None] for an error. *)
Record timers := Timers {
  tm_list : gmap string Z;
  tm_reading : list (nat * (string * Z));
  tm_results : list (nat * string * option Z);
}.

(** file.go:130-133: none at first. *)
Definition timers0 : timers := Timers ∅ [] [].

(** Go's time.Time.Sub (service.go:62, 83): saturating int64 nanoseconds. Simplification:
    all times are readings of the same monotonic clock. *)
Definition time_sub (a b : Z) : Z := Z.max (- 2 ^ 63) (Z.min (2 ^ 63 - 1) (a - b)).

(** NewTimerNamed at a time (65); call number [c] of GetTimerNamed reads (72-79); it
    deletes and returns (80-83). (monitoring/service.go:65-84.) *)
Inductive timer_event := TNew (name : string) (now : Z) | TGet (c : nat) (name : string) (now : Z) | TDelete (c : nat).

(** service.go:65-84; [None]: it cannot happen. *)
Definition timer_step (t : timers) (ev : timer_event) : option timers :=
  match ev with
  | TNew name now => Some (Timers (<[name := now]> (tm_list t)) (tm_reading t) (tm_results t))
  | TGet c name now =>
      match tm_list t !! name with
      | None => Some (Timers (tm_list t) (tm_reading t) (tm_results t ++ [(c, name, None)]))
      | Some start => Some (Timers (tm_list t) ((c, (name, time_sub now start)) :: tm_reading t) (tm_results t))
      end
  | TDelete c =>
      match List.find (fun x => Nat.eqb (fst x) c) (tm_reading t) with
      | None => None
      | Some (_, (name, d)) =>
          Some (Timers (delete name (tm_list t)) (List.filter (fun x => negb (Nat.eqb (fst x) c)) (tm_reading t))
                  (tm_results t ++ [(c, name, Some d)]))
      end
  end.

(** A history of service.go:65-84. *)
Fixpoint timer_run (t : timers) (evs : list timer_event) : option timers :=
  match evs with
  | [] => Some t
  | ev :: evs' => match timer_step t ev with Some t' => timer_run t' evs' | None => None end
  end.
