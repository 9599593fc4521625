(** Model of the example agent of the end-to-end test, a seller that speaks the FIPA
    protocol: /repo/libs/go/aea_end2end/main.go and protocols/fipa.proto. *)
From Coq Require Import ZArith NArith List String Ascii.
From stdpp Require Import base gmap list strings.
From Verif Require Import GoBase Bytes Utf8 WireModel ProtoModel DialogueModel StoreModel
  MessageModel.
Open Scope string_scope.
Open Scope list_scope.
Open Scope Z_scope.

(** * FIPA messages *)

(** fipa.proto:53-63 (and fipa.pb.go:153-185): the JSON name of each field of the
    oneof, by field number; [None] for a number that is not in the oneof. The
    generated JSON names are in lower camel case. *)
Definition fipa_name (num : Z) : option string :=
  match num with
  | 5 => Some "accept"
  | 6 => Some "acceptWInform"
  | 7 => Some "cfp"
  | 8 => Some "decline"
  | 9 => Some "end"
  | 10 => Some "inform"
  | 11 => Some "matchAccept"
  | 12 => Some "matchAcceptWInform"
  | 13 => Some "propose"
  | _ => None
  end.

(** fipa.proto:40-50 (accept, decline, match_accept, end): messages without fields; every
    field read is skipped. *)
Definition no_field (_ : unit) (_ : Z) (_ : wval) : option unit := Some tt.

(** fipa.proto:10-16 Description and Query: one bytes field, any content. (The content
    is not looked at by the seller and is dropped.) *)
Definition blob_field (_ : unit) (_ : Z) (_ : wval) : option unit := Some tt.

(** fipa.proto:20-26 Cfp_Performative and Propose_Performative: one sub-message. *)
Definition one_blob_field (_ : unit) (num : Z) (v : wval) : option unit :=
  match num, v with
  | 1, WBytes b => decode_into blob_field tt b
  | _, _ => Some tt
  end.

(** An entry of a map<string, string>: key and value are strings (fipa.proto:28-38). *)
Definition map_entry_field (_ : unit) (num : Z) (v : wval) : option unit :=
  match num, v with
  | 1, WBytes b | 2, WBytes b => match text_of b with Some _ => Some tt | None => None end
  | _, _ => Some tt
  end.

(** fipa.proto:28-38 the three performatives with an info map. *)
Definition info_field (_ : unit) (num : Z) (v : wval) : option unit :=
  match num, v with
  | 1, WBytes b => decode_into map_entry_field tt b
  | _, _ => Some tt
  end.

(** Whether the content of a field of the oneof can be read (fipa.proto:20-63). *)
Definition fipa_content (num : Z) (b : bytes) : option unit :=
  match num with
  | 7 | 13 => decode_into one_blob_field tt b
  | 6 | 10 | 12 => decode_into info_field tt b
  | _ => decode_into no_field tt b
  end.

(** The oneof of a FipaMessage: the field set last (fipa.proto:53-63). What the
    performatives contain is checked and dropped: the seller does not look at it. *)
Definition fipa_field (m : option string) (num : Z) (v : wval) : option (option string) :=
  match fipa_name num, v with
  | Some n, WBytes b =>
      match fipa_content num b with Some _ => Some (Some n) | None => None end
  | _, _ => Some m
  end.

(** proto.Unmarshal into a FipaMessage (fipa.proto:7-64). *)
Definition decode_fipa (l : bytes) : option (option string) := decode_into fipa_field None l.

(** The field name that aealite/protocols/message.go:144-156 GetPerformative finds in a
    FipaMessage. *)
Definition fipa_field_name (m : option string) : string := or_else "" m.

(** * The seller *)

(** main.go:39-76 makeSellerDialogues with 35-37 getRole. *)
Definition seller_config (self : address) : config :=
  Config self (fun _ _ => "some") false ["cfp"] ["decline"; "end"]
    (list_to_map
       [("cfp", ["propose"; "decline"]);
        ("propose", ["accept"; "accept_w_inform"; "decline"; "propose"]);
        ("accept", ["decline"; "match_accept"; "match_accept_w_inform"]);
        ("accept_w_inform", ["decline"; "match_accept"; "match_accept_w_inform"]);
        ("decline", []);
        ("match_accept", ["inform"; "end"]);
        ("match_accept_w_inform", ["inform"; "end"]);
        ("inform", ["inform"; "end"]);
        ("end", [])]).

(** main.go:83. *)
Definition fipa_protocol : string := "fetchai/fipa:1.0.0".

(** main.go:111-133: the proposal, a Description with the bytes of a
    Query.Instance whose model is named "string" (aealite/protocols/search.proto:21-25,
    43-46). *)
Definition propose_content : bytes :=
  let model := put_fields [(1, WBytes (bytes_of "string")); (3, WBytes (bytes_of "desc"))] in
  let instance := put_fields [(1, WBytes model)] in
  let description := put_fields [(1, WBytes instance)] in
  put_fields [(13, WBytes (put_fields [(1, WBytes description)]))].

(** main.go:152-160: a match_accept whose message pointer is nil, which is written as an
    empty message. *)
Definition match_accept_content : bytes := put_fields [(11, WBytes [])].

(** What handling an envelope does that can be seen from outside: nothing but a line in
    the log, an envelope handed to agent.Put, or the report that the interaction is
    complete (main.go:86-189). *)
Inductive sact :=
| Nothing
| Puts (e : envelope)
| Complete.

Section Seller.
  (** google.protobuf.Struct validity, see ProtoModel. *)
  Context (struct_ok : bytes -> bytes -> bool).
  (** The seller's own address, main.go:236. *)
  Context (self : address).

  (** aealite message.go:162-205 as called in main.go:91-95. *)
  Definition seller_read (e : envelope) : res (message * option string) :=
    read_envelope struct_ok decode_fipa fipa_field_name e.

  (** main.go:105-149 and 150-176: reply in the dialogue and put the reply. A nil
      dialogue is dereferenced by Reply (aealite/protocols/dialogue.go:297, 207). What
      agent.Put answers is only logged. *)
  Definition seller_reply (s : store) (d : option ptr) (m : message) (perf : performative)
      (content : bytes) : store * res sact :=
    match d with
    | None => (s, Panic "nil pointer dereference")
    | Some p =>
        match api_reply (seller_config self) s p perf (Some m) None with
        | (s1, Ok (Some r, _)) =>
            match make_response_envelope r fipa_protocol content with
            | Ok e => (s1, Ok (Puts e))
            | Err _ => (s1, Ok Nothing)
            | Panic e => (s1, Panic e)
            end
        | (s1, Ok (None, _)) => (s1, Ok Nothing)
        | (s1, Err _) => (s1, Ok Nothing)
        | (s1, Panic e) => (s1, Panic e)
        end
    end.

  (** main.go:78-190 handleEnvelope. [None] is the nil envelope that agent.Get returns
      once the connection is closed; the protocol id of a nil envelope is empty. *)
  Definition seller_handle (s : store) (nonce : string) (oe : option envelope)
      : store * res sact :=
    match oe with
    | None => (s, Ok Nothing)
    | Some e =>
        if negb (String.eqb (e_protocol e) fipa_protocol) then (s, Ok Nothing)
        else
          match seller_read e with
          | Err _ => (s, Ok Nothing)
          | Panic w => (s, Panic w)
          | Ok (m, _) =>
              match api_update (seller_config self) s nonce m with
              | (s1, Err _) => (s1, Ok Nothing)
              | (s1, Panic w) => (s1, Panic w)
              | (s1, Ok (_, d)) =>
                  if String.eqb (m_perf m) "cfp" then
                    seller_reply s1 d m "propose" propose_content
                  else if String.eqb (m_perf m) "accept" then
                    seller_reply s1 d m "match_accept" match_accept_content
                  else if String.eqb (m_perf m) "end" then (s1, Ok Complete)
                  else (s1, Ok Nothing)
              end
          end
    end.

  (** main.go:192-201 getEnvelopeAndProcess, for a list of envelopes received (with the
      nonces drawn): the actions taken, and whether a crash ended the loop. *)
  Fixpoint seller_run (s : store) (es : list (string * option envelope))
      : store * res (list sact) :=
    match es with
    | [] => (s, Ok [])
    | (nonce, e) :: es' =>
        match seller_handle s nonce e with
        | (s1, Ok a) =>
            match seller_run s1 es' with
            | (s2, Ok acts) => (s2, Ok (a :: acts))
            | (s2, r) => (s2, r)
            end
        | (s1, Err w) => (s1, Err w)
        | (s1, Panic w) => (s1, Panic w)
        end
    end.
End Seller.
