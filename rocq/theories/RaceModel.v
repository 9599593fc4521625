(** Model of the accesses to the tables of a peer node: /repo/libs/go/libp2p_node/dht/dhtpeer/dhtpeer.go, mailbox.go
    and dht/monitoring/file.go. A Go map is not made for use by several goroutines at once: the run-time system marks a map while it
    is written, and ends the process if it is written, read or ranged over by another goroutine then. Every stretch of code between
    two accesses is a step; what is stored is in the other models. Any number of goroutines run in any order.
    Simplifications: RWMutex only excludes (who has to wait for whom is in LockModel.v); the three dictionaries of metrics are one table; ranging
    over an empty map checks the mark too, and the message for a range is that for a read; the mailbox is there from the start and its lock is not replaced (ServeModel.v). *)
From Coq Require Import ZArith List String.
From stdpp Require Import base list.
From Verif Require Import GoBase.
Open Scope string_scope.
Open Scope list_scope.

(** The maps: dhtpeer.go:147 (addressAnnouncedMap), 158-161 (dhtAddresses, acnStatuses, tcpAddresses, agentRecords), 181
    (syncMessages), mailbox.go:244-246 (sessions, agentRecords, envelopes), file.go:110-112 and prometheus.go:40-42 (metrics). *)
Inductive table := TAnnounced | TDht | TStatuses | TTcp | TRecords | TSync | TSessions | TMailRecords | TBoxes | TMetrics.
(** Equality of tables can be decided (No counterpart in /repo). *)
#[global] Instance table_eq : EqDecision table. Proof. solve_decision. Defined.

(** The locks: dhtpeer.go:148, 162-165, 180; mailbox.go:247. *)
Inductive lock := LAnnounced | LDht | LStatuses | LTcp | LRecords | LSync | LMail.
(** Equality of locks can be decided (No counterpart in /repo). *)
#[global] Instance lock_eq : EqDecision lock. Proof. solve_decision. Defined.

(** The steps: Lock, RLock and the unlocking of the one taken last; begin and end of a write (assignment or delete); a read or
    one step of a range; the handlers of all streams and the services are set up (dhtpeer.go:396-426). *)
Inductive instr := ILock (l : lock) | IRLock (l : lock) | IUnlock | IWrite (t : table) | IWritten (t : table) | IRead (t : table) | IOpen.

(** Lock ... Unlock (dhtpeer.go:893-895 and all others). *)
Definition locked (l : lock) (body : list instr) : list instr := ILock l :: body ++ [IUnlock].
(** RLock ... RUnlock (dhtpeer.go:1036-1038 and all others). *)
Definition rlocked (l : lock) (body : list instr) : list instr := IRLock l :: body ++ [IUnlock].
(** An assignment to a map or a delete (dhtpeer.go:894). *)
Definition write (t : table) : list instr := [IWrite t; IWritten t].

(** dhtpeer.go:1795-1828 RegisterAgentAddress with 1830-1841; [new]: the address was not announced before. *)
Definition announce (new : bool) : list instr :=
  locked LAnnounced [IRead TAnnounced] ++
  if new then locked LAnnounced (write TAnnounced) ++ [IRead TMetrics] else [].

(** The range over a map that announces each address (dhtpeer.go:367-373, 1658-1665, 1670-1677). *)
Definition announce_all (t : table) (l : list bool) : list instr :=
  IRead t :: concat (map (fun new => announce new ++ [IRead t]) l).

(** The stretches of code with accesses, with their lines (dhtpeer.go:637-1861, mailbox.go:76-339). *)
Inductive section :=
| SRecord                       (** dhtpeer.go:893-895, 1759-1761 *)
| SReadRecord                   (** dhtpeer.go:1036-1038, 1548-1550 *)
| STcp                          (** dhtpeer.go:897-899, 1001-1003 *)
| SReadTcp                      (** dhtpeer.go:1083-1085, 1459-1461, 1545-1547 *)
| SCloseTcp (n : nat)           (** dhtpeer.go:637-642, [n] connections *)
| SStatus                       (** dhtpeer.go:901-903, 1006-1008 *)
| SReadStatus                   (** dhtpeer.go:1844-1846, 1854-1856 *)
| SDht                          (** dhtpeer.go:1763-1771 *)
| SReadDht                      (** dhtpeer.go:1149-1151, 1542-1544 *)
| SSync                         (** dhtpeer.go:964-966 *)
| SReadSync                     (** dhtpeer.go:960-962, 972-974, 987-995 *)
| SCloseSync (n : nat)          (** dhtpeer.go:659-663, [n] queues *)
| SAnnounced                    (** dhtpeer.go:1831-1833, called at 1645, 1777 *)
| SAnnounce (new : bool)        (** dhtpeer.go:1795-1841, called at 908, 1646, 1781 and mailbox.go:67 *)
| SNotifyDht (l : list bool)    (** dhtpeer.go:1657-1666 *)
| SNotifyTcp (l : list bool)    (** dhtpeer.go:1669-1678 *)
| SMailRegister                 (** mailbox.go:76-80 *)
| SMailSession                  (** mailbox.go:104-106, 150-152 *)
| SMailLeave                    (** mailbox.go:116-120 *)
| SMailGet (known full : bool)  (** mailbox.go:207-238 *)
| SMailPut (known fits : bool)  (** mailbox.go:304-322 *)
| SMailAvailable                (** mailbox.go:326-330 *)
| SMailRecord                   (** mailbox.go:336-339 *)
| SMetric.                      (** dhtpeer.go:844-846, 1058-1061, 1247-1248, 1331, 1620, 1706-1708, 1805; file.go:216-223 *)

(** Their steps (dhtpeer.go:637-1861, mailbox.go:76-339; the lines of each are at the constructors of [section]). *)
Definition code (s : section) : list instr :=
  match s with
  | SRecord => locked LRecords (write TRecords)
  | SReadRecord => rlocked LRecords [IRead TRecords]
  | STcp => locked LTcp (write TTcp)
  | SReadTcp => rlocked LTcp [IRead TTcp]
  | SCloseTcp n => locked LTcp (replicate (S n) (IRead TTcp))
  | SStatus => locked LStatuses (write TStatuses)
  | SReadStatus => locked LStatuses [IRead TStatuses]
  | SDht => locked LDht (write TDht)
  | SReadDht => rlocked LDht [IRead TDht]
  | SSync => locked LSync (write TSync)
  | SReadSync => locked LSync [IRead TSync]
  | SCloseSync n => locked LSync (replicate (S n) (IRead TSync))
  | SAnnounced => locked LAnnounced [IRead TAnnounced]
  | SAnnounce new => announce new
  | SNotifyDht l => rlocked LDht (announce_all TDht l)
  | SNotifyTcp l => rlocked LTcp (announce_all TTcp l)
  | SMailRegister => locked LMail (write TMailRecords ++ write TSessions ++ write TBoxes)
  | SMailSession => locked LMail [IRead TSessions]
  | SMailLeave => locked LMail (write TMailRecords ++ write TSessions ++ write TBoxes)
  | SMailGet known full =>
      locked LMail (IRead TSessions :: if known then IRead TBoxes :: if full then IRead TBoxes :: write TBoxes else [] else [])
  | SMailPut known fits => locked LMail (IRead TBoxes :: if known then IRead TBoxes :: if fits then write TBoxes else [] else [])
  | SMailAvailable => locked LMail [IRead TBoxes]
  | SMailRecord => locked LMail [IRead TMailRecords]
  | SMetric => [IRead TMetrics]
  end.

(** How loading the record file ends (dhtpeer.go:475-507): at the end of the file; with an error, before or after the
    record was stored (498). *)
Inductive load := Loaded | Unreadable | NoPeer.

(** New from the place where the first handlers are set (dhtpeer.go:326-426): [n] records of the file are stored (498, 503); if
    there are entry peers, [stored]: the addresses stored are announced (367), then the own one (376-395), if any; if that fails, [false], the node is
    closed (387, 659-663) and New returns. *)
Definition new_code (n : nat) (ends : load) (stored : option (list bool)) (own : option (bool * bool)) : list instr :=
  concat (replicate n (write TRecords ++ write TDht)) ++
  match ends with
  | Unreadable => []
  | NoPeer => write TRecords
  | Loaded =>
      match stored with
      | Some l =>
          announce_all TDht l ++
          match own with
          | Some (new, ok) =>
              locked LAnnounced [IRead TAnnounced] ++ IRead TMetrics :: announce new ++
              if ok then [IOpen] else locked LSync [IRead TSync]
          | None => [IOpen]
          end
      | None => [IOpen]
      end
  end.

(** What handlers can run before all are set (dhtpeer.go:327-336): registrations of relay clients if the node is a relay, and notifications of new
    peers, which go through the relay clients if it is one (1656). *)
Definition early (relay : bool) (s : section) : bool :=
  match s with
  | SRecord | SDht | SNotifyDht _ => relay
  | SAnnounced | SAnnounce _ | SNotifyTcp _ | SMetric => true
  | _ => false
  end.

(** A goroutine: the locks it holds, last taken first, [true] for Lock, and what it has still to do (No counterpart in /repo: the state of the Go runtime). *)
Record thread := Thread { th_held : list (lock * bool); th_rest : list instr }.

(** The goroutines, the first is New; the maps that are marked as being written; whether all handlers are set (dhtpeer.go:396-426). *)
Record state := State { st_threads : list thread; st_writing : list table; st_open : bool }.

(** Another goroutine holds the lock, or holds it for writing (sync.RWMutex as used in dhtpeer.go:893-895, 1036-1038). *)
Definition held (ts : list thread) (l : lock) (any : bool) : bool :=
  existsb (fun t => existsb (fun h => bool_decide (h.1 = l) && (any || h.2)) (th_held t)) ts.

(** A handler or a service starts (dhtpeer.go:327-336, 396-426); a goroutine does its next step. *)
Inductive event := EStart (l : list section) | EMove (i : nat).

(** The next step of goroutine [t] beside the rest (the locks and maps of dhtpeer.go:147-181 and mailbox.go:244-247; the marks are those of the run-time system of
    Go). [None]: it waits or is done. *)
Definition move (ts : list thread) (w : list table) (o : bool) (t : thread) : option (res (thread * list table * bool)) :=
  match th_rest t with
  | [] => None
  | ILock l :: k => if held ts l true then None else Some (Ok (Thread ((l, true) :: th_held t) k, w, o))
  | IRLock l :: k => if held ts l false then None else Some (Ok (Thread ((l, false) :: th_held t) k, w, o))
  | IUnlock :: k =>
      match th_held t with
      | _ :: h => Some (Ok (Thread h k, w, o))
      | [] => Some (Panic "sync: unlock of unlocked mutex")
      end
  | IWrite x :: k =>
      if bool_decide (x ∈ w) then Some (Panic "concurrent map writes") else Some (Ok (Thread (th_held t) k, x :: w, o))
  | IWritten x :: k =>
      if bool_decide (x ∈ w) then Some (Ok (Thread (th_held t) k, filter (fun y => y <> x) w, o)) else Some (Panic "concurrent map writes")
  | IRead x :: k =>
      if bool_decide (x ∈ w) then Some (Panic "concurrent map read and map write") else Some (Ok (Thread (th_held t) k, w, o))
  | IOpen :: k => Some (Ok (Thread (th_held t) k, w, true))
  end.

(** One event (No counterpart in /repo: the scheduler of Go and the network). *)
Definition step (relay : bool) (s : state) (e : event) : option (res state) :=
  match e with
  | EStart l =>
      if st_open s || forallb (early relay) l
      then Some (Ok (State (st_threads s ++ [Thread [] (concat (map code l))]) (st_writing s) (st_open s)))
      else None
  | EMove i =>
      match st_threads s !! i with
      | None => None
      | Some t =>
          match move (st_threads s) (st_writing s) (st_open s) t with
          | Some (Ok (t', w, o)) => Some (Ok (State (<[i := t']> (st_threads s)) w o))
          | Some (Panic why) => Some (Panic why)
          | _ => None
          end
      end
  end.

(** New at the place where the first handlers are set (dhtpeer.go:326). *)
Definition init (n : nat) (ends : load) (stored : option (list bool)) (own : option (bool * bool)) : state :=
  State [Thread [] (new_code n ends stored own)] [] false.

(** A history; a crash ends it (No counterpart in /repo). *)
Fixpoint run (relay : bool) (s : state) (l : list event) : option (res state) :=
  match l with
  | [] => Some (Ok s)
  | e :: l' =>
      match step relay s e with
      | Some (Ok s') => run relay s' l'
      | Some r => match l' with [] => Some r | _ => None end
      | None => None
      end
  end.
