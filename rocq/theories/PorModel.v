(** Model of the proof of representation check:
    /repo/libs/go/libp2p_node/dht/dhtnode/utils.go:38-111. *)
From Coq Require Import ZArith NArith List String Ascii.
From stdpp Require Import base list strings.
From Verif Require Import GoBase Bytes WireModel ProtoModel CryptoModel.
Open Scope string_scope.
Open Scope list_scope.
Open Scope Z_scope.

(** Status codes of acn.proto, aliased in
    /repo/libs/go/libp2p_node/acn/utils.go:41-58. *)
Definition SUCCESS : Z := 0.
(** acn.proto:25. *)
Definition ERROR_UNSUPPORTED_VERSION : Z := 1.
(** acn.proto:26. *)
Definition ERROR_UNEXPECTED_PAYLOAD : Z := 2.
(** acn.proto:27. *)
Definition ERROR_GENERIC : Z := 3.
(** acn.proto:28. *)
Definition ERROR_DECODE : Z := 4.
(** acn.proto:30. *)
Definition ERROR_WRONG_AGENT_ADDRESS : Z := 10.
(** acn.proto:31. *)
Definition ERROR_WRONG_PUBLIC_KEY : Z := 11.
(** acn.proto:32. *)
Definition ERROR_INVALID_PROOF : Z := 12.
(** acn.proto:33. *)
Definition ERROR_UNSUPPORTED_LEDGER : Z := 13.
(** acn.proto:35. *)
Definition ERROR_UNKNOWN_AGENT_ADDRESS : Z := 20.
(** acn.proto:36. *)
Definition ERROR_AGENT_NOT_READY : Z := 21.

(** utils.go:38. *)
Definition supported_ledgers : list string := ["fetchai"; "cosmos"; "ethereum"].

(** utils.go:40-111 IsValidProofOfRepresentation: the code of the status body and
    whether an error is returned. The texts are left out. The record is not nil
    here; see [por_check]. *)
Definition is_valid_por (P : prims) (r : record) (agent_addr peer_key : string) : res (Z * bool) :=
  if negb (String.eqb (r_address r) agent_addr) then Ok (ERROR_WRONG_AGENT_ADDRESS, true)
  else if negb (existsb (String.eqb (r_ledger r)) supported_ledgers)
  then Ok (ERROR_UNSUPPORTED_LEDGER, true)
  else if negb (String.eqb (r_peer_key r) peer_key) then Ok (ERROR_WRONG_PUBLIC_KEY, true)
  else
    match agent_address P (r_ledger r) (r_public_key r) with
    | Panic p => Panic p
    | Err _ => Ok (ERROR_WRONG_AGENT_ADDRESS, true)
    | Ok a =>
        if negb (String.eqb a (r_address r)) then Ok (ERROR_WRONG_AGENT_ADDRESS, true)
        else
          match verify_ledger P (r_ledger r) (bytes_of (r_peer_key r)) (r_signature r)
                              (r_public_key r) with
          | Panic p => Panic p
          | Ok true => Ok (SUCCESS, false)
          | _ => Ok (ERROR_INVALID_PROOF, true)
          end
    end.

(** The same for a record pointer: [record.Address] on a nil record panics
    (utils.go:46). *)
Definition por_check (P : prims) (r : option record) (agent_addr peer_key : string) : res (Z * bool) :=
  match r with
  | None => Panic "nil pointer dereference"
  | Some r => is_valid_por P r agent_addr peer_key
  end.
