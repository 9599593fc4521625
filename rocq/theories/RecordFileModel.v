(** Model of the agent record file of a peer node:
    /repo/libs/go/libp2p_node/dht/dhtpeer/dhtpeer.go:430-508. *)
From Coq Require Import ZArith NArith List String Ascii.
From stdpp Require Import base gmap list strings.
From Verif Require Import GoBase Bytes Utf8 WireModel ProtoModel.
Open Scope string_scope.
Open Scope list_scope.
Open Scope Z_scope.

(** dhtpeer.go:456-460 formatPersistentStorageLine and 431-441: the bytes appended
    for a record; an error when the record has an empty binary form. The error of
    proto.Marshal is ignored (458), which then returns what it wrote so far; this happens
    for texts that are not UTF-8 only, which no record read from a message has (1765 is
    the only call), and is taken as an error here. The length is converted to [uint32]. *)
Definition save_line (r : record) : res bytes :=
  match encode_record r with
  | Some (b :: l) =>
      let msg := b :: l in
      Ok (be_bytes 4 (Z.of_nat (length msg) mod 2 ^ 32) ++ msg)
  | _ => Err "while formating record"
  end.

(** dhtpeer.go:442: one append-only write. [written] is how many bytes reached the
    file: all of them, or fewer when the write failed or the process stopped. *)
Definition append (file : bytes) (line : bytes) (written : nat) : bytes :=
  file ++ take written line.

(** The maps filled at start: records and peer ids by agent address.
    (dhtpeer.go:462-508.) *)
Record loaded := Loaded {
  l_count : Z;
  l_records : gmap string record;
  l_addresses : gmap string string;
}.

Section Load.
  (** utils.IDFromFetchAIPublicKey followed by [Pretty]; [None] is an error. *)
  Context (peer_id : string -> option string).

  (** dhtpeer.go:474-505, the loop of initAgentRecordPersistentStorage. [io.ReadFull]
      gives EOF only when nothing at all is left; every round uses up at least four
      bytes of the file, so fuel = length of the file is enough. *)
  Fixpoint load_n (fuel : nat) (st : loaded) (file : bytes) : res loaded :=
    match file with
    | [] => Ok st
    | _ =>
        match fuel with
        | O => Err "out of fuel"
        | S fuel' =>
            if (length file <? 4)%nat then Err "while loading agent records"
            else
              let size := Z.to_nat (be_val 0 (take 4 file)) in
              let rest := drop 4 file in
              if (length rest <? size)%nat then Err "while loading agent records"
              else
                match decode_record (take size rest) with
                | None => Err "while loading agent records"
                | Some r =>
                    match peer_id (r_peer_key r) with
                    | None => Err "While loading agent records"
                    | Some id =>
                        load_n fuel'
                          (Loaded (l_count st + 1) (<[r_address r := r]> (l_records st))
                                  (<[r_address r := id]> (l_addresses st)))
                          (drop size rest)
                    end
                end
        end
    end.

  (** dhtpeer.go:462-508 with empty maps before, as in New. *)
  Definition load (file : bytes) : res loaded := load_n (length file) (Loaded 0 ∅ ∅) file.
End Load.
