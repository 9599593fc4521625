(** Model of /repo/libs/go/aealite/protocols/message.go: dialogue messages in
    envelopes. *)
From Coq Require Import ZArith NArith List String Ascii.
From stdpp Require Import base list strings.
From Verif Require Import GoBase Bytes Utf8 WireModel ProtoModel DialogueModel.
Open Scope string_scope.
Open Scope list_scope.
Open Scope Z_scope.

(** message.go:207-239 MakeResponseEnvelope. [MessageId] is a Go [int]; the
    conversions to [int32] keep the low 32 bits. *)
Definition make_response_envelope (m : message) (protocol_id : string) (content : bytes) : res envelope :=
  match encode_message (DMsg (wrap32 (m_id m)) (starter_ref (m_ref m)) (responder_ref (m_ref m))
                             (wrap32 (m_target m)) content) with
  | None => Err "string field contains invalid UTF-8"
  | Some out => Ok (Envelope (m_to m) (m_sender m) protocol_id out "")
  end.

Section Reading.
  (** google.protobuf.Struct validity, see ProtoModel. *)
  Context (struct_ok : bytes -> bytes -> bool).
  (** The content message type of the caller: its decoder and the JSON name of the
      first populated field ([""] when there is none), which message.go:144-156
      GetPerformative obtains by reflection. *)
  Context {C : Type} (decode_content : bytes -> option C) (field_name : C -> string).

  (** message.go:144-156 GetPerformative. *)
  Definition get_performative (c : C) : res string :=
    if String.eqb (field_name c) "" then Err "can not determine performative"
    else Ok (field_name c).

  (** message.go:69-82 InitFromProtobufAndPerfofrmative on a fresh wrapper: the
      fields of the dialogue message are read through a pointer that may be nil. *)
  Definition init_from_protobuf (dm : option dmsg) (perf : string) : res message :=
    match dm with
    | None => Panic "nil pointer dereference"
    | Some d => Ok (Msg "" "" (DRef (dm_starter d) (dm_responder d)) (dm_id d) (dm_target d) perf)
    end.

  (** message.go:88-94 SetSender and 100-106 SetTo. *)
  Definition set_sender (m : message) (a : string) : res message :=
    if negb (String.eqb (m_sender m) "") then Err "'sender' field already set"
    else Ok (Msg (m_to m) a (m_ref m) (m_id m) (m_target m) (m_perf m)).
  (** protocols/message.go:100 SetTo. *)
  Definition set_to (m : message) (a : string) : res message :=
    if negb (String.eqb (m_to m) "") then Err "'to' field already set"
    else Ok (Msg a (m_sender m) (m_ref m) (m_id m) (m_target m) (m_perf m)).

  (** message.go:162-205 GetDialogueMessageWrappedAndSetContentFromEnvelope: the
      wrapper and the content message. [GetContent] of a nil message is empty. *)
  Definition read_envelope (e : envelope) : res (message * C) :=
    match decode_message struct_ok (e_message e) with
    | None => Err "can not unmarshal message"
    | Some dm =>
        match decode_content (match dm with Some d => dm_content d | None => [] end) with
        | None => Err "err on decode message content"
        | Some c =>
            let* perf := get_performative c in
            let* m := init_from_protobuf dm perf in
            let* m := set_sender m (e_sender e) in
            let* m := set_to m (e_to e) in
            Ok (m, c)
        end
    end.
End Reading.
