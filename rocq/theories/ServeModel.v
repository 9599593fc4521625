(** Model of starting and stopping the mailbox service of a peer beside its users:
    /repo/libs/go/libp2p_node/dht/dhtpeer/mailbox.go:240-300 and
    /repo/libs/go/libp2p_node/dht/dhtpeer/dhtpeer.go:645-647, 769-780. What the requests do is
    in MailboxModel.v. The certificate is there (dhtpeer.go:752-766 fails New otherwise). *)
From Coq Require Import ZArith NArith List String.
From stdpp Require Import base gmap list strings.
From Verif Require Import GoBase.
Open Scope string_scope.
Open Scope list_scope.

(** Where the goroutine of mailbox.go:253-285 is: before 256, after 261 (the tables and the lock are
    new), after 276 (there is a server), after 280 with or without a listener, inside
    Serve (281), at the end. *)
Inductive stage := Begin | Fresh | Made | Bound (ok : bool) | Serving | Over.
(** Equality of stages can be decided (No counterpart in /repo). *)
#[global] Instance stage_eq : EqDecision stage. Proof. solve_decision. Defined.

(** A mailbox server once launched (dhtpeer.go:774): its goroutine, whether its lock is taken, who
    is between Lock and Unlock (mailbox.go:76-80, 104-106, 116-120, 150-152, 207-237,
    304-322, 326-330, 336-339), whether Shutdown was called, whether Serve was. *)
Record service := Service {
  se_stage : stage;
  se_taken : bool;
  se_inside : gset nat;
  se_stopped : bool;
  se_served : bool;
}.

(** dhtpeer.go:774-777: all fields zero. *)
Definition launched : service := Service Begin false ∅ false false.

(** What happens: the steps of the goroutine (mailbox.go:256-261, 270-276, 277-280,
    281); visitor [v] locks, a request ([web]) or the node itself (RouteEnvelope, IsAddrRegistered,
    GetAgentRecord from dhtpeer.go:1043, 1087, 1463, 1566); it unlocks; stop is called
    (dhtpeer.go:646). *)
Inductive event := VReset | VMake | VListen (ok : bool) | VServe | VEnter (v : nat) (web : bool) | VLeave (v : nat) | VStop.

(** mailbox.go:253-300, one event; [None]: it cannot happen now. Locking is one step, done when the lock is free; what
    becomes of visitors that wait for the lock when it is replaced is left out. Unlocking a
    lock that is not taken ends the process, also in a request. Serve closes the
    listener when it returns (net/http), which crashes if there is none; so does
    accepting. Shutdown of a nil server crashes. *)
Definition step (s : service) (e : event) : option (res service) :=
  match e with
  | VReset =>
      match se_stage s with
      | Begin => Some (Ok (Service Fresh false (se_inside s) (se_stopped s) (se_served s)))
      | _ => None
      end
  | VMake =>
      match se_stage s with
      | Fresh => Some (Ok (Service Made (se_taken s) (se_inside s) (se_stopped s) (se_served s)))
      | _ => None
      end
  | VListen ok =>
      match se_stage s with
      | Made => Some (Ok (Service (Bound ok) (se_taken s) (se_inside s) (se_stopped s) (se_served s)))
      | _ => None
      end
  | VServe =>
      match se_stage s with
      | Bound true =>
          Some (Ok (Service (if se_stopped s then Over else Serving) (se_taken s) (se_inside s) (se_stopped s)
                      (negb (se_stopped s))))
      | Bound false => Some (Panic "invalid memory address or nil pointer dereference")
      | _ => None
      end
  | VEnter v web =>
      if se_taken s || bool_decide (v ∈ se_inside s) || (web && negb (se_served s)) then None
      else Some (Ok (Service (se_stage s) true ({[v]} ∪ se_inside s) (se_stopped s) (se_served s)))
  | VLeave v =>
      if bool_decide (v ∈ se_inside s) then
        if se_taken s then Some (Ok (Service (se_stage s) false (se_inside s ∖ {[v]}) (se_stopped s) (se_served s)))
        else Some (Panic "sync: Unlock of unlocked RWMutex")
      else None
  | VStop =>
      match se_stage s with
      | Begin | Fresh => Some (Panic "invalid memory address or nil pointer dereference")
      | Serving => Some (Ok (Service Over (se_taken s) (se_inside s) true (se_served s)))
      | x => Some (Ok (Service x (se_taken s) (se_inside s) true (se_served s)))
      end
  end.

(** Whether the address of the mailbox is listened on (mailbox.go:277-281). *)
Definition listening (s : service) : bool :=
  match se_stage s with Bound ok => ok | Serving => true | _ => false end.

(** A history; it ends at a crash (No counterpart in /repo). *)
Fixpoint run (s : service) (l : list event) : option (res service) :=
  match l with
  | [] => Some (Ok s)
  | e :: l' =>
      match step s e with
      | Some (Ok s') => run s' l'
      | x => x
      end
  end.
