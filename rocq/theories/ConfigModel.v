(** Model of the configuration of a node and of an agent:
    /repo/libs/go/libp2p_node/aea/api.go:171-332, aea/pipe.go:85-88,
    libp2p_node.go:55-137 (node), /repo/libs/go/aealite/wallet/wallet.go:47-82,
    agent.go:40-54, connections/p2pclient.go:88-133 (agent), and of how a node joins:
    /repo/libs/go/libp2p_node/utils/utils.go:130-199, 221-232,
    dht/dhtpeer/dhtpeer.go:298-318, 338-354. Logging is left out.

    The environment is a function giving "" for what is not set, as os.Getenv does;
    it is the one after the file was loaded. *)
From Coq Require Import ZArith NArith List String Ascii Floats.SpecFloat.
From stdpp Require Import base list strings.
From Verif Require Import GoBase Bytes HexModel CryptoModel Utf8 WireModel ProtoModel.
Open Scope string_scope.
Open Scope list_scope.
Open Scope Z_scope.

(** The error of strconv.ParseUint, called at api.go:246, 269, 285, 301, pipe.go:86,
    p2pclient.go:124. *)
Inductive parse_error := PNone | PSyntax | PRange.

(** strconv.ParseUint with base 10 and 16 bits (same calls): its loop, with the value so
    far. The first character that is no digit ends it with 0, the first excess over
    65535 with 65535. (aea/api.go:246, 269, 285, 301.) *)
Fixpoint parse_digits (n : Z) (s : string) : Z * parse_error :=
  match s with
  | "" => (n, PNone)
  | String c s' =>
      let d := b2z c - 48 in
      if (d <? 0) || (9 <? d) then (0, PSyntax)
      else if 65535 <? n * 10 + d then (65535, PRange)
      else parse_digits (n * 10 + d) s'
  end.

(** strconv.ParseUint with base 10 and 16 bits (same calls). (aea/api.go:246, 269, 285,
    301.) *)
Definition parse_uint16 (s : string) : Z * parse_error :=
  match s with "" => (0, PSyntax) | _ => parse_digits 0 s end.

(** strings.SplitN(s, sep, -1) for a separator of one character (api.go:239, 262, 278,
    294, 310). *)
Fixpoint split_on (sep : ascii) (s : string) : list string :=
  match s with
  | "" => [""]
  | String c s' =>
      if Ascii.eqb c sep then "" :: split_on sep s'
      else match split_on sep s' with
           | [] => [String c ""]
           | p :: ps => String c p :: ps
           end
  end.

(** ":" (api.go:239) and "," (310). *)
Definition colon : ascii := ":"%char.
(** aea/api.go:310: the separator of the entry peers. *)
Definition comma : ascii := ","%char.

(** api.go:239-247: host and port of a uri; the error of ParseUint is ignored. *)
Definition parse_uri (uri : string) : res (string * Z) :=
  match split_on colon uri with
  | host :: port :: _ => Ok (host, fst (parse_uint16 port))
  | _ => Err "malformed Uri"
  end.

(** api.go:261-275, 277-291, 293-307: an optional uri. *)
Definition parse_optional_uri (uri : string) : res (string * Z) :=
  match uri with "" => Ok ("", 0) | _ => parse_uri uri end.

(** What Init sets (api.go:60-92). [nc_pipe_port]: the port of the pipe, if one is set up
    (326-328). *)
Record node_config := NodeConfig {
  nc_agent : string;
  nc_record : option record;
  nc_key : string;
  nc_entries : list string;
  nc_local : string * Z;
  nc_public : string * Z;
  nc_delegate : string * Z;
  nc_monitoring : string * Z;
  nc_mailbox : string;
  nc_delay : spec_float;
  nc_storage : string;
  nc_standalone : bool;
  nc_pipe_port : option Z;
}.

(** api.go:201-210: the record of the agent. *)
Definition por_record (env : string -> string) : option record :=
  match env "AEA_P2P_POR_ADDRESS" with
  | "" => None
  | a => Some (Record_ (env "AEA_P2P_POR_SERVICE_ID") (env "AEA_P2P_POR_LEDGER_ID") a
                 (env "AEA_P2P_POR_PUBKEY") (env "AEA_P2P_POR_PEER_PUBKEY")
                 (env "AEA_P2P_POR_SIGNATURE") "" "")
  end.

(** api.go:230-237: whether the node has no agent. *)
Definition is_standalone (env : string -> string) : res bool :=
  let a := String.eqb (env "AEA_TO_NODE") "" in
  let b := String.eqb (env "NODE_TO_AEA") "" in
  let c := String.eqb (env "AEA_AGENT_ADDR") "" in
  if a && b && c then Ok true
  else if a || b || c then Err "pipes paths are required when agent address is provided"
  else Ok false.

(** api.go:171-332 Init of a new api that is not in sandbox mode, after the file was
    loaded. [free]: net.ResolveTCPAddr and net.ListenTCP accept the uri (249-257);
    [parse_float]: strconv.ParseFloat(_, 32) (317). *)
Definition node_init (free : string -> bool) (parse_float : string -> option spec_float)
    (env : string -> string) : res node_config :=
  let uri := env "AEA_P2P_URI" in
  if String.eqb (env "AEA_P2P_ID") "" || String.eqb uri "" then Err "key and uri are required"
  else
    let* standalone := is_standalone env in
    let* local := parse_uri uri in
    if negb (free uri) then Err "Uri already taken"
    else
      let* public := parse_optional_uri (env "AEA_P2P_URI_PUBLIC") in
      let* delegate := parse_optional_uri (env "AEA_P2P_DELEGATE_URI") in
      let* monitoring := parse_optional_uri (env "AEA_P2P_URI_MONITORING") in
      let entries := match env "AEA_P2P_ENTRY_URIS" with "" => [] | l => split_on comma l end in
      let* delay := match env "AEA_P2P_CFG_REGISTRATION_DELAY" with
                    | "" => Ok (S754_zero false)
                    | d => match parse_float d with None => Err "malformed RegistrationDelay value" | Some f => Ok f end
                    end in
      Ok (NodeConfig (env "AEA_AGENT_ADDR") (por_record env) (env "AEA_P2P_ID") entries local public delegate
            monitoring (env "AEA_P2P_MAILBOX_URI") delay (env "AEA_P2P_CFG_STORAGE_PATH") standalone
            (if standalone then None else Some (fst (parse_uint16 (env "AEA_TO_NODE"))))).

(** The options main gives to New: those of a client (libp2p_node.go:100-108) and those
    of a peer (110-135). A delay is in nanoseconds. *)
Inductive node_plan :=
| PlanClient (key : string) (entries : list string) (rec : option record)
| PlanPeer (local public : string * Z) (key : string) (delegate_port : Z) (entries : list string) (rec : option record)
    (monitoring_port : option Z) (delay : option Z) (storage : option string) (mailbox : option string).

(** time.Duration(f) of a float64 (libp2p_node.go:126): truncation; [other] is what the
    processor gives for what does not fit, which Go leaves open. *)
Definition duration_of_float (other : Z) (f : spec_float) : Z :=
  match f with
  | S754_zero _ => 0
  | S754_finite s m e =>
      let a := if 0 <=? e then Z.pos m * 2 ^ e else Z.pos m / 2 ^ (- e) in
      let v := if s then - a else a in
      if (- 2 ^ 63 <=? v) && (v <? 2 ^ 63) then v else other
  | _ => other
  end.

(** libp2p_node.go:124, [registrationDelay != 0]. *)
Definition float_nonzero (f : spec_float) : bool := match f with S754_zero _ => false | _ => true end.

(** libp2p_node.go:98-136. *)
Definition plan (other : Z) (c : node_config) : node_plan :=
  if snd (nc_public c) =? 0 then PlanClient (nc_key c) (nc_entries c) (nc_record c)
  else
    PlanPeer (nc_local c) (nc_public c) (nc_key c) (snd (nc_delegate c)) (nc_entries c) (nc_record c)
      (if snd (nc_monitoring c) =? 0 then None else Some (snd (nc_monitoring c)))
      (if float_nonzero (nc_delay c)
       then Some (wrap64 (wrap64 (duration_of_float other (nc_delay c) * 1000000) * 1000)) else None)
      (match nc_storage c with "" => None | s => Some s end)
      (match nc_mailbox c with "" => None | s => Some s end).

(** * Agent *)

(** wallet.go:40-45. *)
Record wallet := Wallet { w_ledger : string; w_address : string; w_public_key : string; w_private_key : string }.

(** wallet/utils.go:48-50, 65-70, 398-406 PublicKeyFromPrivateKey; [derive]: the
    compressed key btcec.PrivKeyFromBytes gives. *)
Definition public_key_of (derive : bytes -> bytes) (ledger private_key : string) : res string :=
  if String.eqb ledger "fetchai" then
    match hex_decode (bytes_of private_key) with
    | None => Err "encoding/hex"
    | Some b => Ok (string_of (hex_encode (derive b)))
    end
  else Err "Unsupported ledger".

(** wallet.go:47-82 InitFromEnv; [loaded]: godotenv.Overload succeeded. log.Fatal, which
    ends the process, is [Panic]. *)
Definition wallet_init (P : prims) (derive : bytes -> bytes) (loaded : bool) (env : string -> string) : res wallet :=
  if negb loaded then Err "Error loading env file"
  else if String.eqb (env "AEA_LEDGER_ID") "" then Panic "No AEA_LEDGER_ID provided in env file."
  else if String.eqb (env "AEA_PRIVATE_KEY") "" then Panic "No AEA_PRIVATE_KEY provided in env file."
  else
    match public_key_of derive (env "AEA_LEDGER_ID") (env "AEA_PRIVATE_KEY") with
    | Panic p => Panic p
    | Err _ => Panic "Could not derive public key."
    | Ok public_key =>
        let given := env "AEA_PUBLIC_KEY" in
        if negb (String.eqb given "") && negb (String.eqb public_key given)
        then Panic "Derived and provided public_key don't match."
        else
          match agent_address P (env "AEA_LEDGER_ID") public_key with
          | Panic p => Panic p
          | Err _ => Panic "Could not derive address."
          | Ok address =>
              let given := env "AEA_ADDRESS" in
              if negb (String.eqb given "") && negb (String.eqb address given)
              then Panic "Derived and provided address don't match."
              else Ok (Wallet (env "AEA_LEDGER_ID") address public_key (env "AEA_PRIVATE_KEY"))
          end
    end.

(** What p2pclient.go:73-86 is after InitFromEnv: record, host and port. *)
Record client_config := ClientConfig { cc_record : record; cc_host : string; cc_port : Z }.

(** p2pclient.go:88-133 InitFromEnv of a client not yet connected. The address and the
    public key are those of the environment, not those of the wallet. *)
Definition connection_init (P : prims) (loaded : bool) (env : string -> string) : res client_config :=
  if negb loaded then Panic "Error loading env file"
  else
    let r := Record_ (env "AEA_P2P_POR_SERVICE_ID") (env "AEA_P2P_POR_LEDGER_ID") (env "AEA_ADDRESS")
               (env "AEA_PUBLIC_KEY") (env "AEA_P2P_POR_PEER_PUBKEY") (env "AEA_P2P_POR_SIGNATURE") "" "" in
    match verify_ledger P (r_ledger r) (bytes_of (r_peer_key r)) (r_signature r) (r_public_key r) with
    | Panic p => Panic p
    | Err _ => Panic "Could not verify signature."
    | Ok false => Panic "Invalid signature."
    | Ok true =>
        match parse_uint16 (env "AEA_P2P_DELEGATE_PORT") with
        | (port, PNone) => Ok (ClientConfig r (env "AEA_P2P_DELEGATE_HOST") port)
        | _ => Panic "strconv.ParseUint"
        end
    end.

(** agent.go:40-54 InitFromEnv with a connection set. [loaded]: what the two loads of the
    file give; simplification: both see the same file. *)
Definition agent_init (P : prims) (derive : bytes -> bytes) (loaded : bool) (env : string -> string) : res (wallet * client_config) :=
  match wallet_init P derive loaded env with
  | Panic p => Panic p
  | Err _ => Panic "Error initialising identity."
  | Ok w =>
      match connection_init P loaded env with
      | Panic p => Panic p
      | Err _ => Panic "Error initialising connection."
      | Ok c => Ok (w, c)
      end
  end.

(** * Joining *)

(** What becomes of an entry peer given as text: multiaddr.StringCast panics (utils.go:224);
    peer.AddrInfoFromP2pAddr gives an error (225-228); the connection is made or not
    (156), the peer appears in the routing table within five seconds or not (185-196), a
    notification can be sent to it or not (dhtpeer.go:340-352). *)
Inductive entry := EMalformed | ENoPeer | EPeer (connects in_table notified : bool).

(** utils.go:221-232 GetPeersAddrInfo. *)
Fixpoint entry_infos (l : list entry) : res (list (bool * bool * bool)) :=
  match l with
  | [] => Ok []
  | EMalformed :: _ => Panic "multiaddr"
  | ENoPeer :: _ => Err "no peer in multiaddr"
  | EPeer a b c :: l' => let* r := entry_infos l' in Ok ((a, b, c) :: r)
  end.

(** utils.go:185-196: the wait for each peer to appear in the routing table. *)
Fixpoint await_table (peers : list (bool * bool * bool)) : res unit :=
  match peers with
  | [] => Ok tt
  | (_, b, _) :: peers' => if b then await_table peers' else Err "timeout: entry peer haven't been added to DHT routing table"
  end.

(** utils.go:130-199 BootstrapConnect. *)
Definition bootstrap_connect (peers : list (bool * bool * bool)) : res unit :=
  match peers with
  | [] => Err "not enough bootstrap peers"
  | _ =>
      let count := length (List.filter (fun x => negb x.1.1) peers) in
      if Nat.eqb count (length peers) then Err "failed to bootstrap"
      else await_table peers
  end.

(** dhtpeer.go:338-354: the notifications. *)
Fixpoint notify_all (peers : list (bool * bool * bool)) : res unit :=
  match peers with
  | [] => Ok tt
  | (_, _, c) :: peers' => if c then notify_all peers' else Err "failed to notify bootstrap peer"
  end.

(** The part of New (dhtpeer.go) that depends on the entry peers: options.go:67-76,
    dhtpeer.go:298-305, 338-354. *)
Definition peer_join (entries : list entry) : res unit :=
  let* peers := entry_infos entries in
  let* _ := match peers with [] => Ok tt | _ => bootstrap_connect peers end in
  notify_all peers.
