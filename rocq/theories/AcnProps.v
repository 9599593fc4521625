(** Properties of ACN message handling (C31, C32). *)
From Coq Require Import ZArith NArith List String Ascii Lia.
From stdpp Require Import base tactics gmap list strings.
From Verif Require Import GoBase Bytes Utf8 WireModel ProtoModel WireProofs ProtoProofs CryptoModel PorModel PorProps AcnModel.
Open Scope string_scope.
Open Scope list_scope.
Open Scope Z_scope.

(** ** C31 *)

(** A frame crashes an established connection (delegate client at the node, or node
    at the agent) exactly if it decodes to a status without body. *)
Theorem C31_crash why write_ok frame :
  is_panic (handle_acn why write_ok (Ok frame)).2 = true <->
  decode_acn frame = Some (Some (PStatus None)).
Proof.
  unfold handle_acn, decode_acn_message. split.
  - intros H. destruct (decode_acn frame) as [[[]|]|]; cbn in H; try done.
    + by destruct (decode_envelope env).
    + by destruct body.
  - by intros ->.
Qed.
Print Assumptions C31_crash.

(** Two bytes are enough. *)
Theorem C31_two_bytes : decode_acn [z2b 74; z2b 0] = Some (Some (PStatus None)).
Proof. vm_compute. done. Qed.
Print Assumptions C31_two_bytes.

(** All other frames are answered with one status, or are a status and taken as such
    without an answer. *)
Theorem C31_answered why write_ok frame :
  decode_acn frame <> Some (Some (PStatus None)) ->
  (exists s, decode_acn frame = Some (Some (PStatus (Some s))) /\
     handle_acn why write_ok (Ok frame) = ([], Ok (HStatus s))) \/
  (exists e b rec, decode_acn frame = Some (Some (PEnvelope b rec)) /\ decode_envelope b = Some e /\
     handle_acn why write_ok (Ok frame) =
       ([PStatus (Some (StatusBody 0 []))], Ok (if write_ok then HEnvelope e else HError))) \/
  (exists code,
     handle_acn why write_ok (Ok frame) = ([PStatus (Some (StatusBody code [why]))], Ok HError) /\
     (code = 4 /\ (decode_acn frame = None \/
                   exists b rec, decode_acn frame = Some (Some (PEnvelope b rec)) /\ decode_envelope b = None) \/
      code = 2 /\ exists m, decode_acn frame = Some m /\
        (forall b rec, m <> Some (PEnvelope b rec)) /\ (forall s, m <> Some (PStatus s)))).
Proof.
  intros Hn. unfold handle_acn, decode_acn_message.
  destruct (decode_acn frame) as [[[b rec|a|rec|rec|[s|]]|]|] eqn:E.
  - destruct (decode_envelope b) as [e|] eqn:Ee.
    + right; left. by exists e, b, rec.
    + right; right. exists 4. split; [done|]. left. split; [done|]. right. by exists b, rec.
  - right; right. exists 2. split; [done|]. right. split; [done|]. eexists. by split; [done|].
  - right; right. exists 2. split; [done|]. right. split; [done|]. eexists. by split; [done|].
  - right; right. exists 2. split; [done|]. right. split; [done|]. eexists. by split; [done|].
  - left. by exists s.
  - done.
  - right; right. exists 2. split; [done|]. right. split; [done|]. eexists. by split; [done|].
  - right; right. exists 4. split; [done|]. left. split; [done|]. by left.
Qed.
Print Assumptions C31_answered.

(** The other readers: a lookup answer or registration answer without status body
    crashes the asking side; nothing else does. *)
Theorem C31_other_readers why frame :
  (is_panic (read_lookup_response (Ok frame)) = true <-> decode_acn frame = Some (Some (PStatus None))) /\
  (is_panic (register_outcome (Ok frame)) = true <-> decode_acn frame = Some (Some (PStatus None))) /\
  is_panic (read_registration why (Ok frame)).2 = false /\
  is_panic (read_lookup_request why (Ok frame)).2 = false /\
  is_panic (read_envelope_message why (Ok frame)).2 = false.
Proof.
  unfold read_lookup_response, register_outcome, read_status, read_registration,
    read_lookup_request, read_envelope_message, decode_acn_message, rbind.
  destruct (decode_acn frame) as [[[b rec|a|rec|rec|[s|]]|]|]; cbn; repeat split; try done;
    by destruct (sb_code s =? SUCCESS).
Qed.
Print Assumptions C31_other_readers.

Example C31_example :
  (handle_acn "w" true (Ok [z2b 74; z2b 0])).2 = Panic "nil pointer dereference" /\
  (handle_acn "w" true (Ok [z2b 74; z2b 2; z2b 10; z2b 0])) = ([], Ok (HStatus (StatusBody 0 []))) /\
  (handle_acn "w" true (Ok [z2b 255])).1 = [PStatus (Some (StatusBody 4 ["w"]))] /\
  (handle_acn "w" true (Ok [])).1 = [PStatus (Some (StatusBody 2 ["w"]))].
Proof. vm_compute. done. Qed.

(** ** C32 *)

(** A frame read where a message of one kind is expected: no answer if it is one;
    otherwise one error status with code 4 for bytes that are no ACN message and 2
    for an ACN message of another kind. *)
Theorem C32_registration why frame :
  match decode_acn frame with
  | Some (Some (PRegister rec)) => read_registration why (Ok frame) = ([], Ok rec)
  | Some _ => read_registration why (Ok frame) =
      ([PStatus (Some (StatusBody 2 [why]))], Err "Unexpected payload")
  | None => (read_registration why (Ok frame)).1 = [PStatus (Some (StatusBody 4 [why]))] /\
      is_err (read_registration why (Ok frame)).2 = true
  end.
Proof. unfold read_registration. by destruct (decode_acn frame) as [[[]|]|]. Qed.
Print Assumptions C32_registration.

Theorem C32_lookup why frame :
  match decode_acn frame with
  | Some (Some (PLookupRequest a)) => read_lookup_request why (Ok frame) = ([], Ok a)
  | Some _ => read_lookup_request why (Ok frame) =
      ([PStatus (Some (StatusBody 2 [why]))], Err "Unexpected payload")
  | None => (read_lookup_request why (Ok frame)).1 = [PStatus (Some (StatusBody 4 [why]))] /\
      is_err (read_lookup_request why (Ok frame)).2 = true
  end.
Proof. unfold read_lookup_request. by destruct (decode_acn frame) as [[[]|]|]. Qed.
Print Assumptions C32_lookup.

(** Where an envelope is expected, a status message is the exception: it is refused
    without an answer. *)
Theorem C32_envelope why frame :
  match decode_acn frame with
  | Some (Some (PEnvelope b rec)) => read_envelope_message why (Ok frame) = ([], Ok (b, rec))
  | Some (Some (PStatus _)) =>
      (read_envelope_message why (Ok frame)).1 = [] /\ is_err (read_envelope_message why (Ok frame)).2 = true
  | Some _ => (read_envelope_message why (Ok frame)).1 = [PStatus (Some (StatusBody 2 [why]))] /\
      is_err (read_envelope_message why (Ok frame)).2 = true
  | None => (read_envelope_message why (Ok frame)).1 = [PStatus (Some (StatusBody 4 [why]))] /\
      is_err (read_envelope_message why (Ok frame)).2 = true
  end.
Proof.
  unfold read_envelope_message, decode_acn_message. by destruct (decode_acn frame) as [[[]|]|].
Qed.
Print Assumptions C32_envelope.

(** The two sides fit together: what one side writes the other side reads. The
    answer is read as success exactly if it was the success message, and a message
    written for one purpose is accepted for that purpose with its content. *)
Theorem C32_fits m buf why :
  encode_acn (Some m) = Some buf -> acn_code_ok (Some m) -> Z.of_nat (length buf) < 2 ^ 63 ->
  match m with
  | PEnvelope b rec => read_envelope_message why (Ok buf) = ([], Ok (b, rec))
  | PLookupRequest a => read_lookup_request why (Ok buf) = ([], Ok a)
  | PLookupResponse rec => read_lookup_response (Ok buf) = Ok rec
  | PRegister rec => read_registration why (Ok buf) = ([], Ok rec)
  | PStatus (Some s) => register_outcome (Ok buf) = Ok tt <-> sb_code s = 0
  | PStatus None => is_panic (register_outcome (Ok buf)) = true
  end.
Proof.
  intros He Hc Hl. pose proof (acn_roundtrip (Some m) buf He Hl Hc) as Hd.
  unfold read_envelope_message, decode_acn_message, read_lookup_request, read_lookup_response,
    read_registration, register_outcome, read_status, SUCCESS. rewrite Hd.
  destruct m as [| | | |[s|]]; cbn [rbind]; try done.
  destruct (Z.eqb_spec (sb_code s) 0); split; try done.
Qed.
Print Assumptions C32_fits.

Example C32_example :
  exists buf, encode_acn (Some (PLookupRequest "abc")) = Some buf /\
    read_lookup_request "w" (Ok buf) = ([], Ok "abc") /\
    read_registration "w" (Ok buf) = ([PStatus (Some (StatusBody 2 ["w"]))], Err "Unexpected payload") /\
    (read_envelope_message "w" (Ok [z2b 74; z2b 0])).1 = [].
Proof. eexists. split; [vm_compute; reflexivity|]. vm_compute. done. Qed.
