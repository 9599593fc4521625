(** Model of a single dialogue of the agent library:
    /repo/libs/go/aealite/protocols/dialogue.go, dialogue_label.go (types) and
    message.go (the message wrapper's accessors). *)
From Coq Require Import ZArith List String.
From stdpp Require Import base gmap list strings.
From Verif Require Import GoBase SetModel.
Open Scope string_scope.
Open Scope list_scope.
Open Scope Z_scope.

(** message.go:32-33. [Address] and [Performative] are Go strings. *)
Definition address := string.
(** protocols/message.go:33. *)
Definition performative := string.

(** dialogue_label.go:30-33 DialogueReference. *)
Record dref := DRef {
  starter_ref : string;
  responder_ref : string }.

(** dialogue_label.go:42-46 DialogueLabel. *)
Record dlabel := DLabel {
  lb_ref : dref;
  lb_opponent : address;
  lb_starter : address }.

(** Go compares both structs with [==] and uses labels as map keys; these
    instances give the model the same equality. *)
Global Instance dref_eq_dec : EqDecision dref.
Proof. solve_decision. Defined.
Global Instance dlabel_eq_dec : EqDecision dlabel.
Proof. solve_decision. Defined.
Global Instance dref_countable : Countable dref.
Proof.
  refine (inj_countable' (fun r => (starter_ref r, responder_ref r))
            (fun p => DRef p.1 p.2) _).
  by intros [].
Defined.
Global Instance dlabel_countable : Countable dlabel.
Proof.
  refine (inj_countable' (fun l => (lb_ref l, lb_opponent l, lb_starter l))
            (fun p => DLabel p.1.1 p.1.2 p.2) _).
  by intros [].
Defined.

(** dialogue.go:36-38: StartingMessageId, StartingTarget,
    UnassignedDialogueReference. *)
Definition starting_message_id : Z := 1.
(** protocols/dialogue.go:37. *)
Definition starting_target : Z := 0.
(** protocols/dialogue.go:38. *)
Definition unassigned : string := "".

(** dialogue_label.go:79-85 IncompleteVersion. *)
Definition incomplete_version (l : dlabel) : dlabel :=
  DLabel (DRef (starter_ref (lb_ref l)) unassigned) (lb_opponent l) (lb_starter l).

(** message.go:51-60 DialogueMessageWrapper. The [body] map is omitted: no
    modelled function reads it. Messages are values; the library stores
    pointers, but [SetSender]/[SetTo] refuse to change a field that is set. *)
Record message := Msg {
  m_to : address;
  m_sender : address;
  m_ref : dref;
  m_id : Z;
  m_target : Z;
  m_perf : performative }.

Global Instance message_eq_dec : EqDecision message.
Proof. solve_decision. Defined.

(** message.go:128-130 HasSender. *)
Definition has_sender (m : message) : bool := bool_decide (m_sender m <> "").

(** message.go:132-134 HasTo; the code tests the sender field. *)
Definition has_to (m : message) : bool := bool_decide (m_sender m <> "").

(** message.go:88-94 SetSender: error when already set. *)
Definition set_sender (m : message) (a : address) : res message :=
  if bool_decide (m_sender m <> "") then Err "'sender' field already set"
  else Ok (Msg (m_to m) a (m_ref m) (m_id m) (m_target m) (m_perf m)).

(** message.go:100-106 SetTo: error when already set. *)
Definition set_to (m : message) (a : address) : res message :=
  if bool_decide (m_to m <> "") then Err "'to' field already set"
  else Ok (Msg a (m_sender m) (m_ref m) (m_id m) (m_target m) (m_perf m)).

(** dialogue.go:44-52 max: panics on the empty slice ([list[0]]). *)
Definition max_ids (l : list Z) : res Z :=
  match l with
  | [] => Panic "index out of range"
  | x :: xs => Ok (fold_left (fun mx y => if mx <? y then y else mx) xs x)
  end.

(** The least Go [int]. (protocols/dialogue.go:55-60: the argument on which abs
    overflows.) *)
Definition min_int : Z := - 2 ^ 63.

(** dialogue.go:54-59 abs, for a caller-supplied Go [int]: the negation of the
    least integer is that integer again, every other value gets its absolute
    value. (Values outside the range of [int] do not exist in Go.) *)
Definition abs_id (id : Z) : Z := if id =? min_int then min_int else Z.abs id.

(** dialogue.go:54-59 abs, for the id of an accepted message. Such ids are
    bounded by the number of accepted messages (plus one), so the wrap-around of
    [abs_id] would need 2^63 messages and is left out here. *)
Definition abs_stored (id : Z) : Z := Z.abs id.

(** dialogue.go:63-67 Rules. *)
Record rules := Rules {
  r_initial : hset performative;
  r_terminal : hset performative;
  r_replies : gmap performative (hset performative) }.

(** dialogue.go:69-95 NewRules. *)
Definition new_rules (initial terminal : list performative)
    (replies : gmap performative (list performative)) : rules :=
  Rules (fold_left hs_add initial hs_new)
        (fold_left hs_add terminal hs_new)
        ((fun l => fold_left hs_add l hs_new) <$> replies).

(** dialogue.go:140-150 Dialogue. [d_callbacks] counts how often the store's
    terminal-state callback has been registered (the only callback /repo
    registers); user-supplied callbacks are not modelled. *)
Record dialogue := Dialogue {
  d_label : dlabel;
  d_role : string;
  d_self : address;
  d_out : list message;
  d_in : list message;
  d_last_id : Z;
  d_ordered : list Z;
  d_rules : rules;
  d_callbacks : nat }.

(** dialogue.go:537-555 NewDialogue. *)
Definition new_dialogue (l : dlabel) (self : address) (role : string)
    (initial terminal : list performative)
    (replies : gmap performative (list performative)) : dialogue :=
  Dialogue l role self [] [] 0 [] (new_rules initial terminal replies) 0.

(** dialogue.go:187-189 IsSelfInitiated. *)
Definition is_self_initiated (d : dialogue) : bool :=
  bool_decide (lb_starter (d_label d) <> lb_opponent (d_label d)).

(** dialogue.go:191-196 LastIncomingMessage. *)
Definition last_incoming (d : dialogue) : option message := last (d_in d).

(** dialogue.go:198-203 LastOutgoingMessage. *)
Definition last_outgoing (d : dialogue) : option message := last (d_out d).

(** dialogue.go:205-215 LastMessage. *)
Definition last_message (d : dialogue) : option message :=
  if d_last_id d =? 0 then None
  else match last_incoming d with
       | Some m => if m_id m =? d_last_id d then Some m else last_outgoing d
       | None => last_outgoing d
       end.

(** dialogue.go:217-219 isEmpty. *)
Definition is_empty (d : dialogue) : bool :=
  match d_out d, d_in d with [], [] => true | _, _ => false end.

(** dialogue.go:228-230 isMessageBySelf. *)
Definition is_by_self (d : dialogue) (m : message) : bool :=
  bool_decide (m_sender m = d_self d).

(** dialogue.go:221-226 counterPartyFromMessage. *)
Definition counterparty_from_message (d : dialogue) (m : message) : address :=
  if is_by_self d m then m_to m else m_sender m.

(** dialogue.go:354-356 checkLabelBelongsToDialogue. *)
Definition check_label_belongs (d : dialogue) (l : dlabel) : bool :=
  bool_decide (l = d_label d) || bool_decide (l = incomplete_version (d_label d)).

(** dialogue.go:269-290 isBelongingToDialogue. *)
Definition is_belonging (d : dialogue) (m : message) : bool :=
  let opponent := counterparty_from_message d m in
  let label :=
    if is_self_initiated d
    then DLabel (DRef (starter_ref (m_ref m)) unassigned) opponent (d_self d)
    else DLabel (m_ref m) opponent opponent in
  check_label_belongs d label.

(** dialogue.go:481-504 getMessageById; [None] is Go's nil. *)
Definition get_message_by_id (d : dialogue) (id : Z) : res (option message) :=
  if is_empty d then Ok None
  else if id =? 0 then Ok None
  else
    let l := if Bool.eqb (0 <? id) (is_self_initiated d) then d_out d else d_in d in
    match last l with
    | None => Ok None
    | Some lm =>
        let absolute := abs_id id in
        if abs_stored (m_id lm) <? absolute then Ok None
        else let* m := index l (absolute - 1) in Ok (Some m)
    end.

(** dialogue.go:232-235 hasMessageId. *)
Definition has_message_id (d : dialogue) (id : Z) : res bool :=
  let* m := get_message_by_id d id in
  Ok (match m with Some _ => true | None => false end).

(** dialogue.go:506-515 getOutgoingNextMessageId. The increment is not reduced
    modulo 2^64: that would need 2^63 messages. *)
Definition outgoing_next_id (d : dialogue) : Z :=
  let next := match last_outgoing d with
              | Some m => abs_stored (m_id m) + 1
              | None => starting_message_id
              end in
  if is_self_initiated d then next else 0 - next.

(** dialogue.go:517-526 getIncomingNextMessageId; same remark. *)
Definition incoming_next_id (d : dialogue) : Z :=
  let next := match last_incoming d with
              | Some _ => abs_stored (d_last_id d) + 1
              | None => starting_message_id
              end in
  if is_self_initiated d then 0 - next else next.

(** dialogue.go:466-479 validateMessageId. *)
Definition validate_message_id (d : dialogue) (m : message) : res unit :=
  let is_outgoing := bool_decide (m_to m <> d_self d) in
  let next := if is_outgoing then outgoing_next_id d else incoming_next_id d in
  if m_id m =? next then Ok tt else Err "invalid message id".

(** Members of a set read from a Go map: a missing key gives the zero [Set],
    which contains nothing (dialogue.go:459). *)
Definition replies_for (r : rules) (p : performative) : hset performative :=
  match r_replies r !! p with
  | Some s => s
  | None => hs_new
  end.

(** dialogue.go:422-464 validateMessageTarget. *)
Definition validate_message_target (d : dialogue) (m : message) : res unit :=
  let target := m_target m in
  if m_id m =? starting_message_id then
    if target =? starting_target then Ok tt else Err "invalid target: expected 0"
  else if target =? starting_target then Err "invalid target: expected a non-zero integer"
  else
    let latest :=
      (match last_incoming d with Some lm => [abs_stored (m_id lm)] | None => [] end) ++
      (match last_outgoing d with Some lm => [abs_stored (m_id lm)] | None => [] end) in
    let* mx := max_ids latest in
    if mx <? abs_id target then Err "invalid target: too large"
    else
      let* tm := get_message_by_id d target in
      match tm with
      | None => Err "invalid target: target message can not be found"
      | Some t =>
          if hs_contains (replies_for (d_rules d) (m_perf t)) (m_perf m) then Ok tt
          else Err "invalid performative: not a valid reply"
      end.

(** dialogue.go:365-395 basicValidationInitialMessage. *)
Definition basic_validation_initial (d : dialogue) (m : message) : res unit :=
  if negb (bool_decide (starter_ref (lb_ref (d_label d)) = starter_ref (m_ref m)))
  then Err "invalid dialogue starter reference"
  else if negb (m_id m =? starting_message_id) then Err "invalid message id"
  else
    let* _ := validate_message_target d m in
    if hs_contains (r_initial (d_rules d)) (m_perf m) then Ok tt
    else Err "invalid initial performative".

(** dialogue.go:397-420 basicValidationNonInitialMessage. *)
Definition basic_validation_non_initial (d : dialogue) (m : message) : res unit :=
  if negb (bool_decide (starter_ref (lb_ref (d_label d)) = starter_ref (m_ref m)))
  then Err "invalid dialogue starter reference"
  else
    let* _ := validate_message_id d m in
    validate_message_target d m.

(** dialogue.go:344-352 validateNextMessage and 358-363 basicValidation. *)
Definition validate_next_message (d : dialogue) (m : message) : res unit :=
  if is_empty d then basic_validation_initial d m
  else basic_validation_non_initial d m.

(** dialogue.go:237-241: the sender of a message without sender becomes the
    agent itself. *)
Definition fill_sender (d : dialogue) (m : message) : message :=
  if has_sender m then m
  else match set_sender m (d_self d) with Ok m' => m' | _ => m end.

(** dialogue.go:250-258: append the message to its list and record its id. *)
Definition append_message (d : dialogue) (m : message) : dialogue :=
  let by_self := is_by_self d m in
  Dialogue (d_label d) (d_role d) (d_self d)
    (if by_self then d_out d ++ [m] else d_out d)
    (if by_self then d_in d else d_in d ++ [m])
    (m_id m) (d_ordered d ++ [m_id m]) (d_rules d) (d_callbacks d).

(** dialogue.go:237-267 update. Returns the dialogue, the message as stored and
    whether the terminal-state callbacks run; the callbacks themselves act on
    the store and are applied by the caller (StoreModel.v). *)
Definition dialogue_update (d : dialogue) (m0 : message)
    : res (dialogue * message * bool) :=
  let m := fill_sender d m0 in
  if negb (is_belonging d m) then Err "message does not belong to this dialogue"
  else
    let* _ := validate_next_message d m in
    Ok (append_message d m, m, hs_contains (r_terminal (d_rules d)) (m_perf m)).

(** dialogue.go:301-322: choice of the target of a reply. [None] for a missing
    target message (nil interface). *)
Definition reply_target (d : dialogue) (last : message)
    (target_message : option message) (target_ptr : option Z)
    : res (option message * Z) :=
  match target_message, target_ptr with
  | None, Some t =>
      let* tm := get_message_by_id d t in Ok (tm, t)
  | None, None => Ok (Some last, m_id last)
  | Some tm, None => Ok (Some tm, m_id tm)
  | Some tm, Some t =>
      if t =? m_id tm then Ok (Some tm, t)
      else Err "the provided target and target_message do not match"
  end.

(** dialogue.go:292-342 Reply. *)
Definition dialogue_reply (d : dialogue) (p : performative)
    (target_message : option message) (target_ptr : option Z)
    : res (dialogue * message * bool) :=
  match last_message d with
  | None => Err "cannot reply in an empty dialogue"
  | Some lm =>
      let* choice := reply_target d lm target_message target_ptr in
      let target := choice.2 in
      match choice.1 with
      | None => Err "no target message found"
      | Some _ =>
          let* found := has_message_id d target in
          if negb found then Err "the target message does not exist in this dialogue"
          else
            dialogue_update d
              (Msg (lb_opponent (d_label d)) (d_self d) (lb_ref (d_label d))
                   (outgoing_next_id d) target p)
      end
  end.

(** dialogue.go:528-535 updateDialogueLabel. *)
Definition update_dialogue_label (d : dialogue) (final : dlabel) : res dialogue :=
  if bool_decide (responder_ref (lb_ref (d_label d)) = unassigned) &&
     bool_decide (responder_ref (lb_ref final) = unassigned)
  then Err "dialogue label cannot be updated"
  else Ok (Dialogue final (d_role d) (d_self d) (d_out d) (d_in d)
                    (d_last_id d) (d_ordered d) (d_rules d) (d_callbacks d)).
