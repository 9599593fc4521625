(** Model of how a peer node holds one agent that attaches to it in different ways one after the other, as client of its relay, as delegate
    client and as client of its mailbox: /repo/libs/go/libp2p_node/dht/dhtpeer/dhtpeer.go:475-510, 890-903, 1000-1003, 1700-1771 and mailbox.go:34-125.
    The agent is not the one of the node itself. What becomes of envelopes and questions is in RouteModel.v; the tables of other agents do not
    matter. Simplification: one registration is one step, so the agent does not register twice at the same time (RegistryModel.v interleaves
    the parts). *)
From Coq Require Import ZArith List String.
From stdpp Require Import base list strings.
From Verif Require Import GoBase Bytes Utf8 WireModel ProtoModel CryptoModel PorModel AcnModel RecordFileModel RouteModel.
Open Scope string_scope.
Open Scope list_scope.
Open Scope nat_scope.

(** The entries for the agent: agentRecords, dhtAddresses and tcpAddresses (dhtpeer.go:158-161), record and number of envelopes waiting in the mailbox
    (mailbox.go:245-246), and its records in the record file, oldest first (dhtpeer.go:430-446). *)
Record entry := Entry {
  en_record : option record;
  en_relay : option string;
  en_tcp : option nat;
  en_box : option (record * nat);
  en_file : list record;
}.

(** What happens: the agent registers through the relay client with key [key] and peer id [id], its record reaching the file or not
    (dhtpeer.go:1700-1771); connects and registers as delegate client (837-903); its delegate connection is gone (1000-1003); registers
    with the mailbox (mailbox.go:34-85); leaves it (87-121); an envelope is put in its mailbox (304-322) or taken (195-238); the node is started again with its
    record file, or without (dhtpeer.go:475-510). *)
Inductive event :=
| MRelay (key id : string) (r : record) (saved : bool)
| MConnect (c : nat) (r : record)
| MGone
| MBox (r : record)
| MUnbox
| MPut
| MGet
| MRestart (kept : bool).

Section Move.
  (** The libraries; utils.IDFromFetchAIPublicKey; the key of this node; the agent. *)
  Context (P : prims) (id_of_key : string -> option string) (my_key agent : string).

  (** The check of a record at registration (dhtpeer.go:862-880, 1720-1742, mailbox.go:56-64), for a record of this agent. *)
  Definition accepted (r : record) (key : string) : bool :=
    String.eqb (r_address r) agent &&
    match is_valid_por P r (r_address r) key with
    | Ok (code, err) => negb err && (code =? SUCCESS)%Z
    | _ => false
    end.

  (** The record file is loaded: a later record of the agent replaces an earlier one (dhtpeer.go:498, 503). *)
  Definition loaded_entry (file : list record) : entry :=
    match last file with
    | Some r => Entry (Some r) (id_of_key (r_peer_key r)) None None file
    | None => Entry None None None None []
    end.

  (** One event; [None] if it cannot happen or a registration is refused. The peer id of a relay client is that of its key, and is not that of this
      node (libp2p); an envelope fits while fewer than 1000 wait (mailbox.go:315). The lines are those given at [event] (dhtpeer.go:475-1771). *)
  Definition step (m : entry) (e : event) : option entry :=
    match e with
    | MRelay key id r saved =>
        if accepted r key && bool_decide (id_of_key key = Some id) && negb (String.eqb key my_key)
        then Some (Entry (Some r) (Some id) (en_tcp m) (en_box m) (if saved then en_file m ++ [r] else en_file m))
        else None
    | MConnect c r =>
        if accepted r my_key then Some (Entry (Some r) (en_relay m) (Some c) (en_box m) (en_file m)) else None
    | MGone =>
        match en_tcp m with
        | Some _ => Some (Entry (en_record m) (en_relay m) None (en_box m) (en_file m))
        | None => None
        end
    | MBox r =>
        if accepted r my_key then Some (Entry (en_record m) (en_relay m) (en_tcp m) (Some (r, 0)) (en_file m)) else None
    | MUnbox =>
        match en_box m with
        | Some _ => Some (Entry (en_record m) (en_relay m) (en_tcp m) None (en_file m))
        | None => None
        end
    | MPut =>
        match en_box m with
        | Some (r, n) =>
            if n <? 1000 then Some (Entry (en_record m) (en_relay m) (en_tcp m) (Some (r, S n)) (en_file m)) else None
        | None => None
        end
    | MGet =>
        match en_box m with
        | Some (r, S n) => Some (Entry (en_record m) (en_relay m) (en_tcp m) (Some (r, n)) (en_file m))
        | _ => None
        end
    | MRestart kept => Some (loaded_entry (if kept then en_file m else []))
    end.

  (** A history (No counterpart in /repo). *)
  Fixpoint run (m : entry) (l : list event) : option entry :=
    match l with
    | [] => Some m
    | e :: l' => match step m e with Some m' => run m' l' | None => None end
    end.

  (** What a call that handles an envelope to the agent reads of it (dhtpeer.go:1083-1096, 1149-1151, 1459-1468, mailbox.go:304-322); the rest is [v]. *)
  Definition target_view (v : view) (m : entry) : view :=
    View (v_my_addr v) (v_my_record v) (v_has_handler v) true (v_box_sender v) (v_box_record v)
         (match en_box m with Some (_, n) => n <? 1000 | None => false end) (v_record v) (en_tcp m) (en_relay m).

  (** What a call that handles a question for the agent, or an envelope from it, reads of it (dhtpeer.go:1036-1046, 1542-1550, 1563-1566, mailbox.go:325-339);
      the rest is [v]. *)
  Definition subject_view (v : view) (m : entry) : view :=
    View (v_my_addr v) (v_my_record v) (v_has_handler v) true (match en_box m with Some _ => true | None => false end)
         (match en_box m with Some (r, _) => Some r | None => None end) (v_box_target v) (en_record m) (en_tcp m) (en_relay m).
End Move.

(** Before the agent came (dhtpeer.go:191-194). *)
Definition nowhere : entry := Entry None None None None [].
