(** Model of starting a peer node: New and its options,
    /repo/libs/go/libp2p_node/dht/dhtpeer/dhtpeer.go:187-428 and options.go:34-164, beside
    the registrations of relay clients (dhtpeer.go:1700-1793), which are served from the
    moment their stream handler is set.

    Unsynchronised accesses to the maps by New and a registration (495-501, 367-373 beside
    1759-1763) are taken to happen one after the other. Loading the record file is one
    step. Announcements by notifications and registrations are in RegistryModel.v. *)
From Coq Require Import ZArith NArith List String Ascii.
From stdpp Require Import base gmap list strings.
From Verif Require Import GoBase Bytes Utf8 WireModel ProtoModel HexModel CryptoModel PorModel RecordFileModel
  RegistryModel ConfigModel.
Open Scope string_scope.
Open Scope list_scope.
Open Scope Z_scope.

(** The options of New (options.go:34-164). LoggingLevel is left out. The entries of
    BootstrapFrom are given with what becomes of them, see [entry]. *)
Inductive opt :=
| OptKey (key : string)
| OptAgent (r : record)
| OptEntries (l : list entry)
| OptLocal (host : string) (port : Z)
| OptPublic (host : string) (port : Z)
| OptDelegate (port : Z)
| OptMailbox (uri : string)
| OptRelay
| OptMonitoring (port : Z)
| OptDelay (ns : Z)
| OptStore (path : string).

(** The fields the options set (dhtpeer.go:118-165). [st_key] is the text of the public
    key of the node's key pair. *)
Record settings := Settings {
  st_key : option string;
  st_record : option record;
  st_addr : string;
  st_peers : list (bool * bool * bool);
  st_local : option (string * Z);
  st_public : option (string * Z);
  st_delegate : Z;
  st_mailbox : string;
  st_relay : bool;
  st_monitoring : Z;
  st_delay : Z;
  st_path : string;
}.

(** The defaults (dhtpeer.go:91-92, 96, 112, 189-206). *)
Definition settings0 : settings :=
  Settings None None "" [] None None 0 "" false 0 0 "./agent_records_store".

(** What the world does: libp2p.New (269), kaddht.New (275), the certificate and its
    signature (280), dht.Bootstrap (308) succeed or not; the record file as it is found,
    or none if it cannot be opened (467-474); the peer id of a public key text (497); what
    becomes of announcing an address (1808-1826); whether the port of the delegate
    service can be listened on (675). (dhtpeer.go:254-428.) *)
Record world := World {
  w_host : bool; w_dht : bool; w_cert : bool; w_boot : bool;
  w_file : option bytes;
  w_id : string -> option string;
  w_provide : string -> provide;
  w_listen : bool;
}.

(** What New and the registrations do, in order: the host is up; a stream handler is set;
    the record file is open and loaded; an address is announced; the delegate service
    listens, the mailbox service is started, the monitoring service and the loop of the
    slow queue are; a relay client has registered; Close was called.
    (dhtpeer.go:269-428, 616-668, 1759-1770.) *)
Inductive action :=
| AHost | AHandler (protocol : string) | ALoaded | AAnnounced (a : string) (p : provide)
| AListen (port : Z) | AMailbox (uri : string) | AMonitor | ASlow
| ARegistered (r : record) (id : string) | AClosed.

(** Equality of actions can be decided (No counterpart in /repo). *)
#[global] Instance record_eq : EqDecision record. Proof. solve_decision. Defined.
(** Likewise (No counterpart in /repo). *)
#[global] Instance provide_eq : EqDecision provide. Proof. solve_decision. Defined.
(** Likewise (No counterpart in /repo). *)
#[global] Instance action_eq : EqDecision action. Proof. solve_decision. Defined.

(** Where New is (dhtpeer.go): before 269, 275, 280, 298, 308, 328, 335, 339, 357, inside
    the loop 367, before 376, 396, 400, 404, 416, 421; it has returned or crashed. *)
Inductive stage :=
| KHost | KDht | KCert | KJoin | KBoot | KRelay | KNotif | KNotify | KLoad | KStored | KLoop (left : list string)
| KOwn | KLookup | KEnvelope | KDelegate | KMailbox | KServices | KDone (r : res unit).

(** The node while it is started (dhtpeer.go:118-184): the tables of records and relay
    clients, what was appended to the record file, the announced addresses, the flag of
    378. *)
Record start := Start {
  x_stage : stage;
  x_log : list action;
  x_records : gmap string record;
  x_relay : gmap string string;
  x_saved : list record;
  x_announced : gset string;
  x_enabled : bool;
}.

(** dhtpeer.go:187-206. *)
Definition start0 : start := Start KHost [] ∅ ∅ [] ∅ false.

Section Start.
  (** The libraries; the compressed public key of a private key (btcec.PrivKeyFromBytes,
      utils.go:447); whether multiaddr.NewMultiaddr accepts the host as /ip4 and as /dns4
      (options.go:81-82, 96-97). *)
  Context (P : prims) (derive : bytes -> bytes) (ip4 dns4 : string -> bool).

  (** options.go:34-164, utils.go:441-455 KeyPairFromFetchAIKey. RegisterAgentAddress
      copies six of the eight fields of the record (52-58). *)
  Definition apply_opt (s : settings) (o : opt) : res settings :=
    let '(Settings k r a ps l p d m y mo de pa) := s in
    match o with
    | OptKey key =>
        match hex_decode (bytes_of key) with
        | None => Err "encoding/hex"
        | Some b => Ok (Settings (Some (string_of (hex_encode (derive b)))) r a ps l p d m y mo de pa)
        end
    | OptAgent x =>
        Ok (Settings k (Some (Record_ (r_service x) (r_ledger x) (r_address x) (r_public_key x) (r_peer_key x)
                                (r_signature x) "" "")) (r_address x) ps l p d m y mo de pa)
    | OptEntries es => let* ps' := entry_infos es in Ok (Settings k r a ps' l p d m y mo de pa)
    | OptLocal h n => if ip4 h then Ok (Settings k r a ps (Some (h, n)) p d m y mo de pa) else Err "multiaddr"
    | OptPublic h n => if dns4 h then Ok (Settings k r a ps l (Some (h, n)) d m y mo de pa) else Err "multiaddr"
    | OptDelegate n => Ok (Settings k r a ps l p n m y mo de pa)
    | OptMailbox u => Ok (Settings k r a ps l p d u y mo de pa)
    | OptRelay => Ok (Settings k r a ps l p d m true mo de pa)
    | OptMonitoring n => Ok (Settings k r a ps l p d m y n de pa)
    | OptDelay n => Ok (Settings k r a ps l p d m y mo n pa)
    | OptStore f => Ok (Settings k r a ps l p d m y mo de f)
    end.

  (** dhtpeer.go:210-214. *)
  Fixpoint apply_opts (s : settings) (l : list opt) : res settings :=
    match l with
    | [] => Ok s
    | o :: l' => let* s' := apply_opt s o in apply_opts s' l'
    end.

  (** dhtpeer.go:218-252. *)
  Definition check_settings (s : settings) : res unit :=
    match st_key s, st_local s, st_public s with
    | None, _, _ => Err "private key must be provided"
    | _, None, _ => Err "local host and port must be set"
    | _, _, None => Err "public host and port must be set"
    | Some key, Some _, Some _ =>
        match st_record s with
        | None => Ok tt
        | Some r =>
            let* v := is_valid_por P r (r_address r) key in
            if snd v || negb (fst v =? SUCCESS) then Err "Invalid AgentRecord" else Ok tt
        end
    end.

  (** dhtpeer.go:187-252: the part of New before the host is created. *)
  Definition prepare (opts : list opt) : res settings :=
    let* s := apply_opts settings0 opts in
    let* _ := check_settings s in Ok s.

  Section Steps.
    Context (w : world) (s : settings).

    (** Next stage with something done (No counterpart in /repo). *)
    Definition go (x : start) (k : stage) (l : list action) : start :=
      Start k (x_log x ++ l) (x_records x) (x_relay x) (x_saved x) (x_announced x) (x_enabled x).

    (** New gives an error after calling Close (dhtpeer.go:302-303, 310-311, 344-345,
        350-351, 388-389); Close does not fail here: there is no listener yet, and the
        storage may be nil (662). *)
    Definition closed (x : start) (e : string) : start := go x (KDone (Err e)) [AClosed].

    (** dhtpeer.go:1795-1828 RegisterAgentAddress as one step: the outcome and whether it
        gives an error. *)
    Definition announce (x : start) (a : string) (k : stage) : start * bool :=
      if decide (a ∈ x_announced x) then (go x k [], true)
      else
        (Start k (x_log x ++ [AAnnounced a (w_provide w a)]) (x_records x) (x_relay x) (x_saved x)
           ({[a]} ∪ x_announced x) (x_enabled x),
         match w_provide w a with Provided | Deadline => true | _ => false end).

    (** dhtpeer.go:269-428: the next step of New; [order] is the order in which the loop
        367 goes through the map. Nothing after the return. *)
    Definition new_step (x : start) (order : list string) : option start :=
      match x_stage x with
      | KHost => Some (if w_host w then go x KDht [AHost] else go x (KDone (Err "libp2p.New")) [])
      | KDht => Some (if w_dht w then go x KCert [] else go x (KDone (Err "kaddht.New")) [])
      | KCert => Some (if w_cert w then go x KJoin [] else go x (KDone (Err "certificate")) [])
      | KJoin =>
          match st_peers s with
          | [] => Some (go x KBoot [])
          | ps => match bootstrap_connect ps with Ok _ => Some (go x KBoot []) | _ => Some (closed x "bootstrap") end
          end
      | KBoot => Some (if w_boot w then go x KRelay [] else closed x "dht.Bootstrap")
      | KRelay => Some (go x KNotif (if st_relay s then [AHandler "/aea-register/0.1.0"] else []))
      | KNotif => Some (go x KNotify [AHandler "/aea-notif/0.1.0"])
      | KNotify => match notify_all (st_peers s) with Ok _ => Some (go x KLoad []) | _ => Some (closed x "notify") end
      | KLoad =>
          match w_file w with
          | None => Some (go x (KDone (Err "while initializing agent record storage")) [])
          | Some file =>
              match load_n (w_id w) (length file) (Loaded 0 (x_records x) (x_relay x)) file with
              | Ok l => Some (Start KStored (x_log x ++ [ALoaded]) (l_records l) (l_addresses l) (x_saved x)
                                (x_announced x) (x_enabled x))
              | _ => Some (go x (KDone (Err "while initializing agent record storage")) [])
              end
          end
      | KStored =>
          match st_peers s with
          | [] => Some (go x KOwn [])
          | _ => if decide (order ≡ₚ (map_to_list (x_relay x)).*1) then Some (go x (KLoop order) []) else None
          end
      | KLoop [] => Some (go x KOwn [])
      | KLoop (a :: l) => Some (fst (announce x a (KLoop l)))
      | KOwn =>
          match st_peers s with
          | [] => Some (go x KLookup [])
          | _ =>
              let x' := Start KLookup (x_log x) (x_records x) (x_relay x) (x_saved x) (x_announced x) true in
              if String.eqb (st_addr s) "" then Some x'
              else let '(y, ok) := announce x' (st_addr s) KLookup in
                   Some (if ok then y else closed y "announce")
          end
      | KLookup => Some (go x KEnvelope [AHandler "/aea-address/0.1.0"])
      | KEnvelope => Some (go x KDelegate [AHandler "/aea/0.1.0"])
      | KDelegate =>
          if st_delegate s =? 0 then Some (go x KMailbox [])
          else if w_listen w then Some (go x KMailbox [AListen (st_delegate s)])
          else Some (go x (KDone (Panic "listen")) [])
      | KMailbox => Some (go x KServices (match st_mailbox s with "" => [] | u => [AMailbox u] end))
      | KServices => Some (go x (KDone (Ok tt)) [AMonitor; ASlow])
      | KDone _ => None
      end.

    (** The process has crashed (dhtpeer.go:677-680). *)
    Definition is_crashed (k : stage) : bool := match k with KDone (Panic _) => true | _ => false end.

    (** dhtpeer.go:1753-1770: a relay client with a valid proof, already answered with
        SUCCESS, gets into the tables and, if the record file is open, into the file:
        writing to a nil file is an error that is only logged (1765-1769). Needs the
        handler (331), a host that was not closed and a process that has not crashed. *)
    Definition relay_client (x : start) (r : record) (id : string) : option start :=
      if is_crashed (x_stage x) then None
      else if decide (AHandler "/aea-register/0.1.0" ∈ x_log x /\ AClosed ∉ x_log x) then
        Some (Start (x_stage x) (x_log x ++ [ARegistered r id])
                (<[r_address r := r]> (x_records x)) (<[r_address r := id]> (x_relay x))
                (if decide (ALoaded ∈ x_log x) then if is_ok (save_line r) then x_saved x ++ [r] else x_saved x
                 else x_saved x)
                (x_announced x) (x_enabled x))
      else None.
  End Steps.

  (** What happens while New runs: New takes a step, a relay client registers.
      (dhtpeer.go:269-428, 1700-1793.) *)
  Inductive moment := MNew (order : list string) | MRegister (r : record) (id : string).

  (** One moment. (dhtpeer.go:269-428, 1700-1793.) *)
  Definition start_step (w : world) (s : settings) (x : start) (m : moment) : option start :=
    match m with MNew order => new_step w s x order | MRegister r id => relay_client x r id end.

  (** A run (No counterpart in /repo). *)
  Fixpoint start_run (w : world) (s : settings) (x : start) (l : list moment) : option start :=
    match l with
    | [] => Some x
    | m :: l' => match start_step w s x m with Some x' => start_run w s x' l' | None => None end
    end.

  (** dhtpeer.go:187-428 New with what happens meanwhile: the node and the result, once
      there is one. *)
  Definition new_peer (w : world) (opts : list opt) (l : list moment) : option (start * res unit) :=
    match prepare opts with
    | Panic p => Some (start0, Panic p)
    | Err e => Some (start0, Err e)
    | Ok s =>
        match start_run w s start0 l with
        | Some x => match x_stage x with KDone r => Some (x, r) | _ => None end
        | None => None
        end
    end.
End Start.
