(** Model of the wait group by which registrations wait for the announcements that are made for new
    peers: /repo/libs/go/libp2p_node/dht/dhtpeer/dhtpeer.go:152, 1633-1634, 1685-1699. Written after the
    text of Go's sync.WaitGroup (which is not in /repo): one word holds a counter and a number
    of waiters, a semaphore wakes them, and each access to these is one step. The counters do not
    overflow (that takes 2^31 goroutines). What a notification announces is in StartModel.v, the locks
    in LockModel.v. *)
From Coq Require Import List String Arith.
From stdpp Require Import base list.
From Verif Require Import GoBase.
Open Scope string_scope.
Open Scope list_scope.
Open Scope nat_scope.

(** A notification of a new peer (dhtpeer.go:1634-1687): inside; inside with the flag
    set; Done has taken the counter to 0 and found waiters, before checking that the word did not
    change; before clearing the word; with wake-ups still to be given (0: at its end). *)
Inductive notif := NIn | NSet | NCheck (w : nat) | NClear (w : nat) | NRelease (k : nat).

(** A registration in IsAddressAnnouncementEnabled (dhtpeer.go:1691-1699): waits for
    a wake-up; woken, before checking that the word is 0; back from Wait; has read the flag; ended by a recovered
    crash. *)
Inductive reg := WWaiting | WWoken | WBack | WRead (b : bool) | WFailed.

(** The goroutines: notifications, and registrations with whether they are requests to the mailbox (mailbox.go:66: a crash
    there ends only the request, net/http recovers) or not (dhtpeer.go:907, 1777: a crash there ends the
    process). *)
Inductive goroutine := Notif (n : notif) | Reg (http : bool) (r : reg).

(** The wait group and the flag (dhtpeer.go:150-152): counter, waiters, wake-ups given and not taken,
    enableAddressAnnouncement, the goroutines so far. *)
Record state := State { st_v : nat; st_w : nat; st_sema : nat; st_flag : bool; st_go : list goroutine }.

(** No notification yet (dhtpeer.go:150-152, 202). A node with entry peers enables announcements when it starts (380);
    that this is after the start of its services is left out here (StartModel.v). *)
Definition init (entry : bool) : state := State 0 0 0 entry [].

(** The steps, of dhtpeer.go:1633-1699: a notification arrives and adds 1 (1634); it sets the flag (1685-1687); it ends, or returns before that, and takes
    off 1 (1633); it checks the word, clears it and gives a wake-up (all in Done); a registration
    calls Wait (1693), takes a wake-up and checks the word (in Wait), and reads the flag (1694-1696). *)
Inductive event :=
| EAdd | ESet (i : nat) | EDone (i : nat) | ECheck (i : nat) | EClear (i : nat) | ERelease (i : nat)
| EWait (http : bool) | EAcquire (j : nat) | EVerify (j : nat) | EFlag (j : nat).

(** Goroutine [i] goes on as [g] (No counterpart in /repo). *)
Definition put (s : state) (i : nat) (g : goroutine) : list goroutine := <[i := g]> (st_go s).

(** dhtpeer.go:1633-1634, 1685-1699, one step with sync.WaitGroup's Add, Done and Wait; [None]: not possible now. Wait's loop
    around a failed exchange of the word has no effect and is left out. *)
Definition step (s : state) (e : event) : option (res state) :=
  let 'State v w sema flag gs := s in
  match e with
  | EAdd =>
      if negb (Nat.eqb w 0) && Nat.eqb v 0 then Some (Panic "sync: WaitGroup misuse: Add called concurrently with Wait")
      else Some (Ok (State (S v) w sema flag (gs ++ [Notif NIn])))
  | ESet i =>
      match gs !! i with
      | Some (Notif NIn) => Some (Ok (State v w sema true (put s i (Notif NSet))))
      | _ => None
      end
  | EDone i =>
      match gs !! i with
      | Some (Notif NIn) | Some (Notif NSet) =>
          match v with
          | O => Some (Panic "sync: negative WaitGroup counter")
          | S v' =>
              if negb (Nat.eqb v' 0) || Nat.eqb w 0 then Some (Ok (State v' w sema flag (put s i (Notif (NRelease 0)))))
              else Some (Ok (State v' w sema flag (put s i (Notif (NCheck w)))))
          end
      | _ => None
      end
  | ECheck i =>
      match gs !! i with
      | Some (Notif (NCheck w0)) =>
          if Nat.eqb v 0 && Nat.eqb w w0 then Some (Ok (State v w sema flag (put s i (Notif (NClear w0)))))
          else Some (Panic "sync: WaitGroup misuse: Add called concurrently with Wait")
      | _ => None
      end
  | EClear i =>
      match gs !! i with
      | Some (Notif (NClear w0)) => Some (Ok (State 0 0 sema flag (put s i (Notif (NRelease w0)))))
      | _ => None
      end
  | ERelease i =>
      match gs !! i with
      | Some (Notif (NRelease (S k))) => Some (Ok (State v w (S sema) flag (put s i (Notif (NRelease k)))))
      | _ => None
      end
  | EWait http =>
      if Nat.eqb v 0 then Some (Ok (State v w sema flag (gs ++ [Reg http WBack])))
      else Some (Ok (State v (S w) sema flag (gs ++ [Reg http WWaiting])))
  | EAcquire j =>
      match gs !! j, sema with
      | Some (Reg http WWaiting), S k => Some (Ok (State v w k flag (put s j (Reg http WWoken))))
      | _, _ => None
      end
  | EVerify j =>
      match gs !! j with
      | Some (Reg http WWoken) =>
          if Nat.eqb v 0 && Nat.eqb w 0 then Some (Ok (State v w sema flag (put s j (Reg http WBack))))
          else if http then Some (Ok (State v w sema flag (put s j (Reg http WFailed))))
          else Some (Panic "sync: WaitGroup is reused before previous Wait has returned")
      | _ => None
      end
  | EFlag j =>
      match gs !! j with
      | Some (Reg http WBack) => Some (Ok (State v w sema flag (put s j (Reg http (WRead flag)))))
      | _ => None
      end
  end.

(** A history; it ends at a crash (No counterpart in /repo). *)
Fixpoint run (s : state) (l : list event) : option (res state) :=
  match l with
  | [] => Some (Ok s)
  | e :: l' =>
      match step s e with
      | Some (Ok s') => run s' l'
      | Some r => match l' with [] => Some r | _ => None end
      | None => None
      end
  end.
