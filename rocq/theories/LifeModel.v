(** Model of starting and closing a client node, and of its life beside the relay peer it is
    registered at: /repo/libs/go/libp2p_node/dht/dhtclient/dhtclient.go:163-296, 298-366,
    394-417 and options.go:31-72; /repo/libs/go/libp2p_node/dht/dhtpeer/dhtpeer.go:430-515,
    1700-1770 for the relay peer. *)
From Coq Require Import ZArith NArith List String Ascii.
From stdpp Require Import base gmap list strings.
From Verif Require Import GoBase Bytes Utf8 WireModel ProtoModel HexModel CryptoModel PorModel AcnModel RouteModel
  RecordFileModel RegistryModel ConfigModel StartModel ClientModel.
Open Scope string_scope.
Open Scope list_scope.
Open Scope Z_scope.

(** What the world does while New runs: rand.Intn (217), libp2p.New (240), kaddht.New (246),
    the attempts of the bootstrap loop (256), dht.Bootstrap (263), the exchange with the
    relay peer (270). (dhtclient.go:215-274.) *)
Record cworld := CWorld {
  cw_pick : nat;
  cw_host : bool;
  cw_dht : bool;
  cw_first : bool;
  cw_rounds : list attempt;
  cw_boot : bool;
  cw_register : stream_outcome;
}.

(** What New did, in order: host (240) and table (246) made, entry peers connected (256),
    table bootstrapped (263), the registration written (270), notifications on (276), the
    handlers of lookups (287) and envelopes (292) set, Close called (258, 265, 272).
    (dhtclient.go:240-295.) *)
Inductive cact :=
| AHost | ATable | AJoined | ABooted | AWrote (buf : bytes) | ANotify | AAddress | AEnvelope | AClosed.

(** No counterpart in /repo: the frames among the effects of a registration. *)
Definition wrote (fs : list ceffect) : list cact :=
  omap (fun f => match f with CRegister b => Some (AWrote b) | _ => None end) fs.

Section Life.
  (** The libraries; the compressed public key of a private key (options.go:35,
      utils.go:447). *)
  Context (P : prims) (derive : bytes -> bytes).

  (** options.go:31-72 and dhtclient.go:164-212. The options are those of a peer with the
      same names (StartModel.v, the functions are the same); a client has no others. *)
  Definition client_settings (opts : list opt) : res (string * record * nat) :=
    let* s := apply_opts derive (fun _ => true) (fun _ => true) settings0 opts in
    match st_key s with
    | None => Err "private key must be provided"
    | Some key =>
        if String.eqb (st_addr s) "" then Err "missing agent address"
        else match st_record s with
        | None => Err "missing agent record"
        | Some r =>
            match is_valid_por P r (r_address r) key with
            | Panic p => Panic p
            | Err x => Err x
            | Ok (code, err) =>
                if err || negb (code =? SUCCESS) then Err "Invalid AgentRecord"
                else match st_peers s with
                | [] => Err "at least one boostrap peer should be provided"
                | ps => Ok (key, r, length ps)
                end
            end
        end
    end.

  (** dhtclient.go:163-296 New: what it did, and the client with the number of its relay
      peer among the entry peers. *)
  Definition client_new (w : cworld) (opts : list opt) : list cact * ret (client * nat) :=
    match client_settings opts with
    | Panic p => ([], Returns (Panic p))
    | Err x => ([], Returns (Err x))
    | Ok (key, r, n) =>
        let c := Client (r_address r) r false in
        if negb (cw_host w) then ([], Returns (Err "host"))
        else if negb (cw_dht w) then ([AHost], Returns (Err "dht"))
        else match bootstrap_loop (cw_first w) (cw_rounds w) with
        | Hangs => ([AHost; ATable], Hangs)
        | Returns (Panic p) => ([AHost; ATable], Returns (Panic p))
        | Returns (Err x) => ([AHost; ATable; AClosed], Returns (Err x))
        | Returns (Ok _) =>
            if negb (cw_boot w) then ([AHost; ATable; AJoined; AClosed], Returns (Err "bootstrap"))
            else
              let (fs, reg) := client_register c (cw_register w) in
              let acts := [AHost; ATable; AJoined; ABooted] ++ wrote fs in
              match reg with
              | Panic p => (acts, Returns (Panic p))
              | Err x => (acts ++ [AClosed], Returns (Err x))
              | Ok _ => (acts ++ [ANotify; AAddress; AEnvelope], Returns (Ok (c, (cw_pick w mod n)%nat)))
              end
        end
    end.

  (** dhtclient.go:394-417 Close: the channel is closed (403, a second time panics), then the
      table and the host, each whatever became of the other; the errors. *)
  Definition client_close (closed : bool) (table host : res unit) : res (list string) :=
    if closed then Panic "close of closed channel"
    else match table, host with
    | Panic p, _ | _, Panic p => Panic p
    | _, _ => Ok (match table with Err x => [x] | _ => [] end ++ match host with Err x => [x] | _ => [] end)
    end.

  (** * Beside the relay peer *)

  (** The tables and the record file of the relay peer (dhtpeer.go:151-165). *)
  Record site := Site {
    si_records : gmap string record;
    si_relay : gmap string string;
    si_file : bytes;
  }.

  (** utils.IDFromFetchAIPublicKey followed by Pretty (dhtpeer.go:497); the text in error
      messages. *)
  Context (peer_id : string -> option string) (why : string).

  (** dhtpeer.go:1700-1770 handleAeaRegisterStream for a frame of a node with public key
      [key] and peer id [id]; [answered]: the answer could be written. What the tables
      become, and the answer. The steps of the handler are taken at once, and all of the
      line reaches the file. Announcing (1777) is in RegistryModel.v. *)
  Definition serve (s : site) (key id : string) (frame : bytes) (answered : bool) : res (site * list acn_perf) :=
    match relay_register P why key id (Ok frame) answered with
    | (_, Panic p) => Panic p
    | (_, Err x) => Err x
    | (sent, Ok (OStoreRecord r :: _)) =>
        Ok (Site (<[r_address r := r]> (si_records s)) (<[r_address r := id]> (si_relay s))
              (match save_line r with Ok line => append (si_file s) line (length line) | _ => si_file s end), sent)
    | (sent, Ok _) => Ok (s, sent)
    end.

  (** The outcome of one exchange with the relay peer: the stream opens, the frame is
      written, the relay peer can write its answer, the answer arrives.
      (dhtclient.go:684-722, dhtpeer.go:1743.) *)
  Record meeting := Meeting { mt_open : bool; mt_write : bool; mt_answered : bool; mt_arrives : bool }.

  (** dhtclient.go:684-722 registerAgentAddress against dhtpeer.go:1700-1770. The client [c]
      has public key [key] and peer id [id]. What becomes of the relay peer, what the client
      wrote, and the client's result. *)
  Definition client_meets (c : client) (key id : string) (s : site) (m : meeting)
      : res (site * list ceffect * res unit) :=
    match encode_acn (Some (PRegister (Some (c_record c)))) with
    | Some b =>
        if mt_open m && mt_write m then
          let* out := serve s key id b (mt_answered m) in
          let reply :=
            if mt_answered m && mt_arrives m then
              match last (snd out) with
              | Some p => match encode_acn (Some p) with Some a => Ok a | None => Err "marshal" end
              | None => Err "EOF"
              end
            else Err "EOF" in
          let '(fs, r) := client_register c (StreamOutcome true true reply) in
          Ok (fst out, fs, r)
        else
          let '(fs, r) := client_register c (StreamOutcome (mt_open m) (mt_write m) (Err "EOF")) in
          Ok (s, fs, r)
    | None =>
        let '(fs, r) := client_register c (StreamOutcome (mt_open m) (mt_write m) (Err "EOF")) in
        Ok (s, fs, r)
    end.

  (** What happens in the life of a client. The client opens a stream with
      newStreamLoopUntilTimeout (dhtclient.go:332-366): its first attempt, the rounds, the
      exchange after it. The connection to the relay peer is lost and Disconnected runs
      (97-133). Another node registers at the relay peer. The relay peer restarts, with its
      record file or without it (dhtpeer.go:356-363, 462-515). *)
  Inductive lifevent :=
  | LStream (first : bool) (rounds : list attempt) (m : meeting)
  | LLost (rounds : list attempt)
  | LOther (key id : string) (frame : bytes) (answered : bool)
  | LRestart (kept : bool).

  (** The relay peer, what the client wrote, and what its calls returned. (dhtclient.go:
      97-133, 332-366; dhtpeer.go:151-165.) *)
  Record life := Life { lf_site : site; lf_wrote : list ceffect; lf_results : list (ret unit) }.

  (** One event (dhtclient.go:97-133, 332-366; dhtpeer.go:356-363, 462-515, 1700-1770). [Panic]: the relay peer crashes; [Err]: it does not
      start again. *)
  Definition life_step (c : client) (key id : string) (f : life) (v : lifevent) : res life :=
    match v with
    | LStream true _ _ => Ok (Life (lf_site f) (lf_wrote f) (lf_results f ++ [Returns (Ok tt)]))
    | LStream false rounds m =>
        match retry_rounds rounds with
        | Hangs => Ok (Life (lf_site f) (lf_wrote f) (lf_results f ++ [Hangs]))
        | Returns _ =>
            let* x := client_meets c key id (lf_site f) m in
            let '(s, fs, r) := x in
            Ok (Life s (lf_wrote f ++ fs) (lf_results f ++ [Returns r]))
        end
    | LLost rounds =>
        Ok (Life (lf_site f) (lf_wrote f)
              (lf_results f ++ [match reconnect rounds with Hangs => Hangs | Returns _ => Returns (Ok tt) end]))
    | LOther k i frame answered =>
        let* x := serve (lf_site f) k i frame answered in
        Ok (Life (fst x) (lf_wrote f) (lf_results f))
    | LRestart kept =>
        let file := if kept then si_file (lf_site f) else [] in
        let* l := load peer_id file in
        Ok (Life (Site (l_records l) (l_addresses l) file) (lf_wrote f) (lf_results f))
    end.

  (** No counterpart in /repo: a sequence of events. *)
  Fixpoint life_run (c : client) (key id : string) (f : life) (vs : list lifevent) : res life :=
    match vs with
    | [] => Ok f
    | v :: vs' => let* f' := life_step c key id f v in life_run c key id f' vs'
    end.
End Life.
