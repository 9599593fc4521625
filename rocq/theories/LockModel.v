(** Model of the locks of a peer node: /repo/libs/go/libp2p_node/dht/dhtpeer/dhtpeer.go,
    mailbox.go and dht/monitoring/file.go. Every stretch of code between taking a lock and
    having released all is a section; a goroutine is any sequence of sections (which
    covers all branches and loops of the code), any number of goroutines run, in any
    order. What the code does under the locks to the tables is in the other models. The lock of the
    mailbox is not replaced any more (ServeModel.v); waiting for the wait group is one step
    (its crashes are in WaitModel.v); the locks of timers are not used by the node;
    log lines do not block. *)
From Coq Require Import ZArith List String.
From stdpp Require Import base list.
From Verif Require Import GoBase.
Open Scope string_scope.
Open Scope list_scope.

(** dhtpeer.go:147-181 (agentRecordsLock, tcpAddressesLock, acnStatusesLock, dhtAddressesLock,
    syncMessagesLock, enableAddressAnnouncementLock, addressAnnouncedMapLock), mailbox.go:247,
    file.go:32, 71, 91 (one for each metric) and the wait group dhtpeer.go:152. *)
Inductive lock :=
| LRecords | LTcp | LStatuses | LDht | LSync | LEnable | LAnnounced | LMail | LMetric (n : nat) | LGroup.
(** Equality of locks can be decided (No counterpart in /repo). *)
#[global] Instance lock_eq : EqDecision lock. Proof. solve_decision. Defined.

(** sync.RWMutex (dhtpeer.go:147-181): a writer has announced itself and waits for the readers to
    leave, a writer, a reader. *)
Inductive mode := Pending | Write | Read.
(** Equality of modes can be decided (No counterpart in /repo). *)
#[global] Instance mode_eq : EqDecision mode. Proof. solve_decision. Defined.

(** What others have to do before the code goes on: take an answer of the mailbox (mailbox.go:215, 223, 231,
    233), end an announcement in the DHT (dhtpeer.go:1821, at the latest after its time), write or close
    the record file (442, 512), close connections (639), show a peer in the routing
    table (1636, at the latest after its time), anything else (reading and
    writing streams, other channels). *)
Inductive world := XAnswer | XProvide | XDisk | XClose | XTable | XOther.
(** Equality can be decided (No counterpart in /repo). *)
#[global] Instance world_eq : EqDecision world. Proof. solve_decision. Defined.

(** The steps of a goroutine: Lock in its two parts, RLock, Unlock or RUnlock; Add(1), Done and Wait
    of the wait group; something that others have to end. (dhtpeer.go:893-895, 1036-1038, 1633-1634, 1693; mailbox.go:207-238; file.go:36-38.) *)
Inductive instr :=
| IAnnounce (l : lock) | IAcquire (l : lock) | IRlock (l : lock) | IRelease (l : lock) (m : mode)
| IAdd | IDone | IWait | IWorld (x : world).

(** Lock ... Unlock (dhtpeer.go:893-895 and all others). *)
Definition locked (l : lock) (body : list instr) : list instr :=
  IAnnounce l :: IAcquire l :: body ++ [IRelease l Write].

(** RLock ... RUnlock (dhtpeer.go:1036-1038 and all others). *)
Definition rlocked (l : lock) (body : list instr) : list instr :=
  IRlock l :: body ++ [IRelease l Read].

(** An announcement that comes to its end: the address was announced before, or the metric is
    updated or not (dhtpeer.go:1798, 1822). *)
Inductive reg := Already | Provided | TimedOut.

(** dhtpeer.go:1795-1828 RegisterAgentAddress with 1830-1841; the metric number 0 is dhtStoreLatency. *)
Definition register (r : reg) : list instr :=
  locked LAnnounced [] ++
  match r with
  | Already => []
  | Provided => locked LAnnounced [] ++ IWorld XProvide :: locked (LMetric 0) []
  | TimedOut => locked LAnnounced [] ++ [IWorld XProvide]
  end.

(** dhtpeer.go:1615-1689 handleAeaNotifStream after 1622: whether the peer was found, the
    announcement of the own address if needed and whether it failed, those of
    relay clients if the relay is enabled, those of delegate clients if there is a port. The
    metric number 1 is opLatencyRegister. Add is before Done (1633-1634). *)
Definition notify (found : bool) (own : option reg) (fails : bool) (relay delegate : option (list reg)) : list instr :=
  IAdd :: IWorld XTable ::
  (if found then
     locked LAnnounced [] ++ from_option register [] own ++
     (if fails then []
      else from_option (fun l => rlocked LDht (concat (map register l))) [] relay ++
           from_option (fun l => rlocked LTcp (concat (map register l))) [] delegate ++
           locked (LMetric 1) [] ++ locked LEnable [])
   else []) ++ [IDone].

(** The sections, with their lines (dhtpeer.go:511-1861, mailbox.go:66-340, file.go:36-105). *)
Inductive section :=
| SCloseFile                      (** dhtpeer.go:511-513 *)
| SRecord                         (** dhtpeer.go:893-895, 1759-1761 *)
| SReadRecord                     (** dhtpeer.go:1036-1038, 1548-1550 *)
| SCloseConns (n : nat)           (** dhtpeer.go:637-642, [n] connections *)
| STcp                            (** dhtpeer.go:897-899, 1001-1003 *)
| SReadTcp                        (** dhtpeer.go:1083-1085, 1459-1461, 1545-1547 *)
| SStatuses                       (** dhtpeer.go:901-903, 1006-1008, 1844-1846, 1854-1856 *)
| SReadDht                        (** dhtpeer.go:1149-1151, 1542-1544 *)
| SSaveDht                        (** dhtpeer.go:1763-1771 with 442 *)
| SSync                           (** dhtpeer.go:659-663, 960-962, 964-966, 972-974, 987-995 *)
| SEnabled                        (** dhtpeer.go:1691-1699 *)
| SAnnounced                      (** dhtpeer.go:1831-1833 *)
| SRegister (r : reg)             (** dhtpeer.go:1795-1828, called at 368, 387, 908, 1781 and mailbox.go:67 *)
| SNotify (found : bool) (own : option reg) (fails : bool) (relay delegate : option (list reg))
                                  (** dhtpeer.go:1615-1689 *)
| SMail                           (** mailbox.go:76-80, 104-106, 116-120, 150-152, 304-322, 326-330, 336-339 *)
| SGet (n : nat)                  (** mailbox.go:207-238, [n] writes of the answer: at most 2 *)
| SMetric (n : nat)               (** file.go:36-38, 56-58, 63-65, 80-82, 96-105 *)
| SWorld (x : world).             (** whatever is waited for without a lock *)

(** Their steps (dhtpeer.go:511-1861, mailbox.go:66-340, file.go:36-105; the lines of each are at the constructors of [section]). *)
Definition code (s : section) : list instr :=
  match s with
  | SCloseFile => locked LRecords [IWorld XDisk]
  | SRecord => locked LRecords []
  | SReadRecord => rlocked LRecords []
  | SCloseConns n => locked LTcp (replicate n (IWorld XClose))
  | STcp => locked LTcp []
  | SReadTcp => rlocked LTcp []
  | SStatuses => locked LStatuses []
  | SReadDht => rlocked LDht []
  | SSaveDht => locked LDht [IWorld XDisk]
  | SSync => locked LSync []
  | SEnabled => IWait :: locked LEnable []
  | SAnnounced => locked LAnnounced []
  | SRegister r => register r
  | SNotify found own fails relay delegate => notify found own fails relay delegate
  | SMail => locked LMail []
  | SGet n => locked LMail (replicate n (IWorld XAnswer))
  | SMetric n => locked (LMetric n) []
  | SWorld x => [IWorld x]
  end.

(** A goroutine: what it holds, last taken first, and what it has still to do (No
    counterpart in /repo: the state of the Go runtime). *)
Record thread := Thread { th_held : list (lock * mode); th_rest : list instr }.

(** Whether someone holds the lock in one of the modes (sync.RWMutex, as used in dhtpeer.go:147-181). *)
Definition taken (ts : list thread) (l : lock) (ms : list mode) : bool :=
  existsb (fun t => existsb (fun m => bool_decide ((l, m) ∈ th_held t)) ms) ts.

(** Remove the first occurrence (No counterpart in /repo). *)
Fixpoint drop_one (x : lock * mode) (h : list (lock * mode)) : option (list (lock * mode)) :=
  match h with
  | [] => None
  | y :: h' => if decide (x = y) then Some h' else match drop_one x h' with Some h'' => Some (y :: h'') | None => None end
  end.

(** What happens: a goroutine is started (dhtpeer.go:412, 424, 426, 779, 818, 970, the handlers of streams and requests);
    a goroutine does its next step by itself; what a goroutine waits for happens. *)
Inductive event := EStart (l : list section) | EMove (i : nat) | EWorld (i : nat).

(** The next step of goroutine [t] by itself; [None]: it has to wait (sync.RWMutex and sync.WaitGroup as used
    in dhtpeer.go:147-181, 893-895, 1036-1038). Lock waits for other writers, announces itself, which keeps new
    readers out, and waits for the readers; unlocking what is not locked ends the process. *)
Definition move (ts : list thread) (t : thread) : option (res thread) :=
  match th_rest t with
  | [] => None
  | i :: k =>
      match i with
      | IAnnounce l => if taken ts l [Pending; Write] then None else Some (Ok (Thread ((l, Pending) :: th_held t) k))
      | IAcquire l =>
          if taken ts l [Read] then None
          else match drop_one (l, Pending) (th_held t) with
               | Some h => Some (Ok (Thread ((l, Write) :: h) k))
               | None => Some (Panic "not announced")
               end
      | IRlock l => if taken ts l [Pending; Write] then None else Some (Ok (Thread ((l, Read) :: th_held t) k))
      | IRelease l m =>
          match drop_one (l, m) (th_held t) with
          | Some h => Some (Ok (Thread h k))
          | None => Some (Panic "sync: Unlock of unlocked RWMutex")
          end
      | IAdd => Some (Ok (Thread ((LGroup, Read) :: th_held t) k))
      | IDone =>
          match drop_one (LGroup, Read) (th_held t) with
          | Some h => Some (Ok (Thread h k))
          | None => Some (Panic "sync: negative WaitGroup counter")
          end
      | IWait => if taken ts LGroup [Read] then None else Some (Ok (Thread (th_held t) k))
      | IWorld _ => None
      end
  end.

(** One event; [None]: it cannot happen now (No counterpart in /repo: the scheduler). *)
Definition step (ts : list thread) (e : event) : option (res (list thread)) :=
  match e with
  | EStart l => Some (Ok (ts ++ [Thread [] (concat (map code l))]))
  | EMove i =>
      match ts !! i with
      | None => None
      | Some t =>
          match move ts t with
          | None => None
          | Some (Ok t') => Some (Ok (<[i := t']> ts))
          | Some (Err w) => Some (Err w)
          | Some (Panic w) => Some (Panic w)
          end
      end
  | EWorld i =>
      match ts !! i with
      | Some (Thread h (IWorld _ :: k)) => Some (Ok (<[i := Thread h k]> ts))
      | _ => None
      end
  end.

(** A history; it ends at a crash (No counterpart in /repo). *)
Fixpoint run (ts : list thread) (l : list event) : option (res (list thread)) :=
  match l with
  | [] => Some (Ok ts)
  | e :: l' =>
      match step ts e with
      | Some (Ok ts') => run ts' l'
      | x => x
      end
  end.
