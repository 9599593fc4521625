(** Model of the tables of a peer node that registrations fill and announcements read:
    /repo/libs/go/libp2p_node/dht/dhtpeer/dhtpeer.go:187-428, 837-915, 1000-1003,
    1615-1841 and mailbox.go:34-125.

    The handlers run in goroutines of their own. The model interleaves them at the
    granularity of the locks: one step is one critical section, or one call of the
    network library. Locks that a handler holds while it calls others (1656-1664,
    1668-1676, 1763-1770) are not modelled, so the model has every behaviour of the
    code and some more. A registration that arrives before [New] has loaded the record
    file, which is an unsynchronised access in the code, is left out; so are metrics
    and logging. *)
From Coq Require Import ZArith NArith List String Ascii.
From stdpp Require Import base gmap list strings.
From Verif Require Import GoBase Bytes Utf8 WireModel ProtoModel CryptoModel PorModel AcnModel RecordFileModel.
Open Scope string_scope.
Open Scope list_scope.
Open Scope Z_scope.

(** The options of [New] that matter here (dhtpeer.go:143-185, options.go): the own
    agent's address or "", whether there are bootstrap peers, whether the relay and
    the delegate service are on. *)
Record config := Config {
  cf_my_addr : string; cf_bootstrap : bool; cf_relay : bool; cf_delegate : bool;
}.

(** Where a call of RegisterAgentAddress is (dhtpeer.go:1795-1828): before the check
    1798, before 1803, before 1816. *)
Inductive stage := SCheck | SMark | SProvide.

(** The steps of the handlers. [skip] is the number of steps left out when the condition
    does not hold or the call fails. (dhtpeer.go:350-375, 1615-1828.) *)
Inductive op :=
| OStoreRecord (r : record)              (** dhtpeer.go:893-895, 1759-1761 *)
| OStoreRelay (r : record) (id : string) (** 1763-1770, with the record file *)
| OStoreTcp (a : string)                 (** 897-899 *)
| OStoreBox (r : record)                 (** mailbox.go:76-80 *)
| OFind (skip : nat)                     (** the wait for the routing table, 1636-1645 *)
| OWait                                  (** 1693 *)
| OIfEnabled (skip : nat)                (** 1694-1697 *)
| OIfNew (a : string) (skip : nat)       (** IsAddressAnnounced, 1647, 1777, 380 *)
| OAnnounce (a : string) (s : stage) (skip : nat)  (** RegisterAgentAddress, 1795-1828 *)
| OLoopRelay                             (** the loops 367-373 and 1657-1664 *)
| OLoopTcp                               (** the loop 1669-1676 *)
| OEnable                                (** 378, 1684-1686 *)
| ODone.                                 (** the deferred 1633 *)

(** The tables. [g_file] is the list of the records in the record file; [g_provided] the
    calls of [dht.Provide] (1816) and whether they succeeded; [g_pending] the wait group
    of 1633-1634; [g_jobs] what is left to do for each goroutine. (dhtpeer.go:121-184.)
    *)
Record registry := Registry {
  g_records : gmap string record;
  g_relay : gmap string string;
  g_tcp : gset string;
  g_box : gmap string record;
  g_file : list record;
  g_announced : gset string;
  g_enabled : bool;
  g_pending : nat;
  g_provided : list (string * bool);
  g_jobs : list (list op);
}.

(** The outcome of the call at dhtpeer.go:1808-1826: ComputeCID failed; Provide
    returned nil, DeadlineExceeded, another error. *)
Inductive provide := NoCid | Provided | Deadline | Failed.

(** What the world answers to a step: nothing; whether the peer was found in time
    (1636); the outcome of an announcement; the order in which a loop over a map goes
    through its keys. (dhtpeer.go:350-375, 1615-1828.) *)
Inductive answer := ANone | AFound (b : bool) | AProvide (p : provide) | AOrder (l : list string).

(** What can happen: a registration stream of a relay client with the given key and
    peer id (dhtpeer.go:1700); a delegate client's registration (837); a request to
    the mailbox service to register (mailbox.go:37) or unregister (90); a delegate
    client is gone (1000-1003); a notification (1615); a step of a goroutine. *)
Inductive revent :=
| VRelay (key id : string) (read : res bytes) (write_ok : bool)
| VDelegate (read : res bytes) (write_ok : bool)
| VBox (body : bytes)
| VUnregister (a : string)
| VGone (a : string)
| VNotif
| VStep (j : nat) (w : answer).

Section Registry.
  (** The libraries, the options, this node's public key and the text in error
      messages. *)
  Context (P : prims) (cf : config) (my_key why : string).

  (** dhtpeer.go:1700-1793 handleAeaRegisterStream up to 1750: what is written back,
      and the rest of the work. [record.Address] on a nil record panics (1720). *)
  Definition relay_register (key id : string) (read : res bytes) (write_ok : bool)
      : list acn_perf * res (list op) :=
    match read_registration why read with
    | (sent, Panic p) => (sent, Panic p)
    | (sent, Err _) => (sent, Ok [])
    | (sent, Ok None) => (sent, Panic "nil pointer dereference")
    | (sent, Ok (Some r)) =>
        match is_valid_por P r (r_address r) key with
        | Panic p => (sent, Panic p)
        | Err x => (sent, Err x)
        | Ok (code, err) =>
            if err || negb (code =? SUCCESS) then (sent ++ [acn_error code why], Ok [])
            else if write_ok
            then (sent ++ [acn_success],
                  Ok [OStoreRecord r; OStoreRelay r id; OWait; OIfEnabled 2; OIfNew (r_address r) 1;
                      OAnnounce (r_address r) SCheck 0])
            else (sent ++ [acn_success], Ok [])
        end
    end.

  (** dhtpeer.go:837-915 handleNewDelegationConnection up to the announcement; the rest
      is in DelegateModel.v. *)
  Definition delegate_register (read : res bytes) (write_ok : bool) : list acn_perf * res (list op) :=
    match read_registration why read with
    | (sent, Panic p) => (sent, Panic p)
    | (sent, Err _) => (sent, Ok [])
    | (sent, Ok None) => (sent, Panic "nil pointer dereference")
    | (sent, Ok (Some r)) =>
        match is_valid_por P r (r_address r) my_key with
        | Panic p => (sent, Panic p)
        | Err x => (sent, Err x)
        | Ok (code, err) =>
            if err || negb (code =? SUCCESS) then (sent ++ [acn_error code why], Ok [])
            else if write_ok
            then (sent ++ [acn_success],
                  Ok [OStoreRecord r; OStoreTcp (r_address r); OWait; OIfEnabled 1;
                      OAnnounce (r_address r) SCheck 0])
            else (sent ++ [acn_success], Ok [])
        end
    end.

  (** mailbox.go:37-85 apiRegister for a body that was read; a failed announcement
      ends the request. The answers are in MailboxModel.v. *)
  Definition box_register (body : bytes) : res (list op) :=
    if Nat.eqb (length body) 0 then Ok []
    else match decode_record body with
    | None => Ok []
    | Some r =>
        match is_valid_por P r (r_address r) my_key with
        | Panic p => Panic p
        | Err x => Err x
        | Ok (code, err) =>
            if err || negb (code =? SUCCESS) then Ok []
            else Ok [OWait; OIfEnabled 1; OAnnounce (r_address r) SCheck 1; OStoreBox r]
        end
    end.

  (** dhtpeer.go:1615-1688 handleAeaNotifStream after 1634. A failed announcement of
      the own address ends it (1649-1654), others do not. *)
  Definition notif : list op :=
    let loops := (if cf_relay cf then [OLoopRelay] else []) ++ (if cf_delegate cf then [OLoopTcp] else []) ++ [OEnable] in
    let own := if String.eqb (cf_my_addr cf) "" then []
               else [OIfNew (cf_my_addr cf) 1; OAnnounce (cf_my_addr cf) SCheck (length loops)] in
    OFind (length (own ++ loops)) :: own ++ loops ++ [ODone].

  (** dhtpeer.go:366-392: the rest of [New] after the record file is loaded. When the
      own address cannot be announced, [New] fails and the node is closed (388). *)
  Definition joining : list op :=
    if cf_bootstrap cf then
      OLoopRelay :: OEnable ::
      (if String.eqb (cf_my_addr cf) "" then []
       else [OIfNew (cf_my_addr cf) 1; OAnnounce (cf_my_addr cf) SCheck 0])
    else [].

  (** dhtpeer.go:187-392: the state after [rs] was loaded from the record file. *)
  Definition started (l : loaded) (rs : list record) : registry :=
    Registry (l_records l) (l_addresses l) ∅ ∅ rs ∅ false 0 [] [joining].

  (** Starts a goroutine (No counterpart in /repo). *)
  Definition spawn (g : registry) (ops : list op) : registry :=
    Registry (g_records g) (g_relay g) (g_tcp g) (g_box g) (g_file g) (g_announced g) (g_enabled g)
             (g_pending g) (g_provided g) (g_jobs g ++ [ops]).
  (** Sets what is left of a goroutine (No counterpart in /repo). *)
  Definition left_ (g : registry) (j : nat) (ops : list op) : registry :=
    Registry (g_records g) (g_relay g) (g_tcp g) (g_box g) (g_file g) (g_announced g) (g_enabled g)
             (g_pending g) (g_provided g) (<[j := ops]> (g_jobs g)).

  (** One iteration per key: a failed announcement is logged only (369-372, 1659-1663,
      1671-1675). (dhtpeer.go:366-373, 1657-1676.) *)
  Definition loop (order : list string) : list op := map (fun a => OAnnounce a SCheck 0) order.

  (** One step of a goroutine with steps [o :: k] left; [Err] when it cannot take it.
      The lines are those given at [op]. (dhtpeer.go:350-375, 1615-1828.) *)
  Definition step_op (g : registry) (j : nat) (o : op) (k : list op) (w : answer) : res registry :=
    match o, w with
    | OStoreRecord r, ANone =>
        Ok (left_ (Registry (<[r_address r := r]> (g_records g)) (g_relay g) (g_tcp g) (g_box g) (g_file g)
                     (g_announced g) (g_enabled g) (g_pending g) (g_provided g) (g_jobs g)) j k)
    | OStoreRelay r id, ANone =>
        Ok (left_ (Registry (g_records g) (<[r_address r := id]> (g_relay g)) (g_tcp g) (g_box g)
                     (if is_ok (save_line r) then g_file g ++ [r] else g_file g)
                     (g_announced g) (g_enabled g) (g_pending g) (g_provided g) (g_jobs g)) j k)
    | OStoreTcp a, ANone =>
        Ok (left_ (Registry (g_records g) (g_relay g) ({[a]} ∪ g_tcp g) (g_box g) (g_file g)
                     (g_announced g) (g_enabled g) (g_pending g) (g_provided g) (g_jobs g)) j k)
    | OStoreBox r, ANone =>
        Ok (left_ (Registry (g_records g) (g_relay g) (g_tcp g) (<[r_address r := r]> (g_box g)) (g_file g)
                     (g_announced g) (g_enabled g) (g_pending g) (g_provided g) (g_jobs g)) j k)
    | OFind n, AFound b => Ok (left_ g j (if b then k else drop n k))
    | OWait, ANone => if Nat.eqb (g_pending g) 0 then Ok (left_ g j k) else Err "waiting"
    | OIfEnabled n, ANone => Ok (left_ g j (if g_enabled g then k else drop n k))
    | OIfNew a n, ANone => Ok (left_ g j (if decide (a ∈ g_announced g) then drop n k else k))
    | OAnnounce a SCheck n, ANone =>
        Ok (left_ g j (if decide (a ∈ g_announced g) then k else OAnnounce a SMark n :: k))
    | OAnnounce a SMark n, ANone =>
        Ok (left_ (Registry (g_records g) (g_relay g) (g_tcp g) (g_box g) (g_file g)
                     ({[a]} ∪ g_announced g) (g_enabled g) (g_pending g) (g_provided g) (g_jobs g))
              j (OAnnounce a SProvide n :: k))
    | OAnnounce a SProvide n, AProvide NoCid => Ok (left_ g j (drop n k))
    | OAnnounce a SProvide n, AProvide p =>
        Ok (left_ (Registry (g_records g) (g_relay g) (g_tcp g) (g_box g) (g_file g) (g_announced g)
                     (g_enabled g) (g_pending g)
                     (g_provided g ++ [(a, match p with Provided => true | _ => false end)]) (g_jobs g))
              j (match p with Failed => drop n k | _ => k end))
    | OLoopRelay, AOrder l =>
        if decide (l ≡ₚ (map_to_list (g_relay g)).*1) then Ok (left_ g j (loop l ++ k)) else Err "order"
    | OLoopTcp, AOrder l =>
        if decide (l ≡ₚ elements (g_tcp g)) then Ok (left_ g j (loop l ++ k)) else Err "order"
    | OEnable, ANone =>
        Ok (left_ (Registry (g_records g) (g_relay g) (g_tcp g) (g_box g) (g_file g) (g_announced g)
                     true (g_pending g) (g_provided g) (g_jobs g)) j k)
    | ODone, ANone =>
        Ok (left_ (Registry (g_records g) (g_relay g) (g_tcp g) (g_box g) (g_file g) (g_announced g)
                     (g_enabled g) (pred (g_pending g)) (g_provided g) (g_jobs g)) j k)
    | _, _ => Err "no such answer"
    end.

  (** One step; see [revent]. (dhtpeer.go:350-375, 1615-1828.) *)
  Definition rstep (g : registry) (v : revent) : res registry :=
    match v with
    | VRelay key id read write_ok =>
        if cf_relay cf then
          match snd (relay_register key id read write_ok) with
          | Ok ops => Ok (spawn g ops) | Err x => Err x | Panic p => Panic p end
        else Err "no relay service"
    | VDelegate read write_ok =>
        if cf_delegate cf then
          match snd (delegate_register read write_ok) with
          | Ok ops => Ok (spawn g ops) | Err x => Err x | Panic p => Panic p end
        else Err "no delegate service"
    | VBox body =>
        match box_register body with Ok ops => Ok (spawn g ops) | Err x => Err x | Panic p => Panic p end
    | VUnregister a =>
        Ok (Registry (g_records g) (g_relay g) (g_tcp g) (delete a (g_box g)) (g_file g) (g_announced g)
                     (g_enabled g) (g_pending g) (g_provided g) (g_jobs g))
    | VGone a =>
        Ok (Registry (g_records g) (g_relay g) (g_tcp g ∖ {[a]}) (g_box g) (g_file g) (g_announced g)
                     (g_enabled g) (g_pending g) (g_provided g) (g_jobs g))
    | VNotif =>
        Ok (spawn (Registry (g_records g) (g_relay g) (g_tcp g) (g_box g) (g_file g) (g_announced g)
                     (g_enabled g) (S (g_pending g)) (g_provided g) (g_jobs g)) notif)
    | VStep j w =>
        match g_jobs g !! j with
        | Some (o :: k) => step_op g j o k w
        | _ => Err "nothing left to do"
        end
    end.

  (** A sequence of steps. (No counterpart in /repo: an interleaving of the goroutines.)
      *)
  Fixpoint rrun (g : registry) (vs : list revent) : res registry :=
    match vs with
    | [] => Ok g
    | v :: vs' => match rstep g v with Ok g' => rrun g' vs' | Err x => Err x | Panic p => Panic p end
    end.
End Registry.
