(** Model of the dialogue store and the dialogues manager of the agent library:
    /repo/libs/go/aealite/protocols/storage.go and dialogues.go. *)
From Coq Require Import ZArith List String.
From stdpp Require Import base gmap list strings.
From Verif Require Import GoBase SetModel DialogueModel.
Open Scope string_scope.
Open Scope list_scope.
Open Scope Z_scope.

(** A dialogue pointer ([*Dialogue]): index into the heap of dialogues.
    (protocols/storage.go:46-52: the pointers held there.) *)
Definition ptr := nat.

(** dialogues.go:55-67 Dialogues: the immutable part. [c_role] is the
    user-supplied roleFromFirstMessage. *)
Record config := Config {
  c_self : address;
  c_role : message -> address -> string;
  c_keep : bool;
  c_initial : list performative;
  c_terminal : list performative;
  c_replies : gmap performative (list performative) }.

(** storage.go:46-52 SimpleDialogueStorage, plus the heap of all dialogues ever
    allocated ([s_heap], next free pointer [s_next]) that Go's pointers refer to.
    Nothing is ever removed from the heap: a caller may keep a pointer. *)
Record store := Store {
  s_heap : gmap ptr dialogue;
  s_next : ptr;
  s_by_label : gmap dlabel ptr;
  s_by_addr : gmap address (list ptr);
  s_incomplete : gmap dlabel dlabel;
  s_terminal : hset dlabel }.

(** dialogues.go:386-416 NewDialogues and storage.go:166-175
    NewSimpleDialogueStorage. *)
Definition empty_store : store := Store ∅ 0%nat ∅ ∅ ∅ hs_new.

(** Writing through a dialogue pointer. (protocols/dialogue.go:292-365: assignments to
    fields of a dialogue.) *)
Definition set_dialogue (s : store) (p : ptr) (d : dialogue) : store :=
  Store (<[p := d]> (s_heap s)) (s_next s) (s_by_label s) (s_by_addr s)
        (s_incomplete s) (s_terminal s).

(** storage.go:113-115 GetDialogue. *)
Definition st_get (s : store) (l : dlabel) : option ptr := s_by_label s !! l.

(** storage.go:135-138 IsDialoguePresent. *)
Definition st_is_present (s : store) (l : dlabel) : bool :=
  match s_by_label s !! l with Some _ => true | None => false end.

(** storage.go:124-127 IsInIncomplete. *)
Definition st_is_in_incomplete (s : store) (l : dlabel) : bool :=
  match s_incomplete s !! l with Some _ => true | None => false end.

(** storage.go:129-134 SetIncompleteDialogue. *)
Definition st_set_incomplete (s : store) (l final : dlabel) : store :=
  Store (s_heap s) (s_next s) (s_by_label s) (s_by_addr s)
        (<[l := final]> (s_incomplete s)) (s_terminal s).

(** storage.go:140-148 GetLatestLabel. *)
Definition st_latest_label (s : store) (l : dlabel) : dlabel :=
  match s_incomplete s !! l with Some r => r | None => l end.

(** storage.go:117-123 GetDialoguesWithCounterparty (a missing key is the empty
    slice). *)
Definition st_with_counterparty (s : store) (a : address) : list ptr :=
  match s_by_addr s !! a with Some ps => ps | None => [] end.

(** storage.go:87-98 AddDialogue; also dialogue.go:182-184
    AddTerminalStateCallback. *)
Definition st_add (s : store) (p : ptr) (d : dialogue) : store :=
  let d' := Dialogue (d_label d) (d_role d) (d_self d) (d_out d) (d_in d)
              (d_last_id d) (d_ordered d) (d_rules d) (S (d_callbacks d)) in
  let opponent := lb_opponent (d_label d) in
  Store (<[p := d']> (s_heap s)) (s_next s)
        (<[d_label d := p]> (s_by_label s))
        (<[opponent := st_with_counterparty s opponent ++ [p]]> (s_by_addr s))
        (s_incomplete s) (s_terminal s).

(** storage.go:152-159, the loop: the index of the first dialogue with the label,
    or the last index of the array (0 for the empty array). [i] is the index of
    the head of [ps]. *)
Fixpoint find_index (heap : gmap ptr dialogue) (ps : list ptr) (l : dlabel) (i : nat)
    : nat :=
  match ps with
  | [] => Nat.pred i
  | p :: rest =>
      match heap !! p with
      | Some d => if bool_decide (d_label d = l) then i else find_index heap rest l (S i)
      | None => find_index heap rest l (S i)
      end
  end.

(** storage.go:152-162 removeDialogueFromArray: [append(array[:index],
    array[index+1:]...)] panics on the empty array and otherwise removes one
    element. *)
Definition remove_from_array (heap : gmap ptr dialogue) (ps : list ptr) (l : dlabel)
    : res (list ptr) :=
  let i := find_index heap ps l 0 in
  if (i <? length ps)%nat then Ok (take i ps ++ drop (S i) ps)
  else Panic "slice bounds out of range".

(** storage.go:99-112 RemoveDialogue. *)
Definition st_remove (s : store) (l : dlabel) : res store :=
  let s1 := Store (s_heap s) (s_next s) (delete l (s_by_label s)) (s_by_addr s)
                  (delete l (s_incomplete s)) (hs_remove (s_terminal s) l) in
  match s_by_label s !! l with
  | None => Ok s1
  | Some _ =>
      let* ps := remove_from_array (s_heap s) (st_with_counterparty s (lb_opponent l)) l in
      Ok (Store (s_heap s1) (s_next s1) (s_by_label s1)
                (<[lb_opponent l := ps]> (s_by_addr s1))
                (s_incomplete s1) (s_terminal s1))
  end.

(** storage.go:80-86 DialogueTerminalStateCallback. *)
Definition st_terminal_callback (keep : bool) (s : store) (l : dlabel) : res store :=
  if keep
  then Ok (Store (s_heap s) (s_next s) (s_by_label s) (s_by_addr s)
                 (s_incomplete s) (hs_add (s_terminal s) l))
  else st_remove s l.

(** dialogue.go:262-264: run the registered callbacks in turn. *)
Fixpoint run_callbacks (n : nat) (keep : bool) (s : store) (l : dlabel) : res store :=
  match n with
  | O => Ok s
  | S n' => let* s' := st_terminal_callback keep s l in run_callbacks n' keep s' l
  end.

(** storage.go:56-66 GetDialoguesInTerminalState (order unspecified in Go). *)
Definition st_terminal_dialogues (s : store) : list ptr :=
  omap (fun l => s_by_label s !! l) (hs_to_array (s_terminal s)).

(** storage.go:68-76 GetDialoguesInActiveState (order unspecified in Go). *)
Definition st_active_dialogues (s : store) : list ptr :=
  (filter (fun kv => hs_contains (s_terminal s) kv.1 = false)
          (map_to_list (s_by_label s))).*2.

(** A state-changing call returns the store and a Go outcome; after [Err] the store may
    have changed. (No counterpart in /repo: a convention of the model.) *)
Definition upd (A : Type) : Type := store * res A.

(** dialogue.go:237-267 update, applied through the pointer [p], including the
    callbacks on the store. *)
Definition store_update (c : config) (s : store) (p : ptr)
    (r : res (dialogue * message * bool)) : upd message :=
  match r with
  | Err e => (s, Err e)
  | Panic e => (s, Panic e)
  | Ok (d', m, terminal) =>
      let s1 := set_dialogue s p d' in
      if terminal then
        match run_callbacks (d_callbacks d') (c_keep c) s1 (d_label d') with
        | Ok s2 => (s2, Ok m)
        | Err e => (s1, Err e)
        | Panic e => (s1, Panic e)
        end
      else (s1, Ok m)
  end.

(** dialogues.go:355-384 create. *)
Definition create (c : config) (s : store) (incomplete : dlabel) (role : string)
    (complete : option dlabel) : upd ptr :=
  if st_is_in_incomplete s incomplete
  then (s, Err "incomplete dialogue label already present")
  else
    let s1 := match complete with
              | None => s
              | Some l => st_set_incomplete s incomplete l
              end in
    let label := match complete with None => incomplete | Some l => l end in
    if st_is_present s1 label
    then (s1, Err "dialogue label already present in dialogues")
    else
      let p := s_next s1 in
      let s2 := Store (s_heap s1) (S p) (s_by_label s1) (s_by_addr s1)
                      (s_incomplete s1) (s_terminal s1) in
      (st_add s2 p (new_dialogue label (c_self c) role
                      (c_initial c) (c_terminal c) (c_replies c)), Ok p).

(** dialogues.go:299-321 createSelfInitiated. *)
Definition create_self_initiated (c : config) (s : store) (opponent : address)
    (r : dref) (role : string) : upd ptr :=
  if negb (bool_decide (starter_ref r <> unassigned) &&
           bool_decide (responder_ref r = unassigned))
  then (s, Err "cannot initiate dialogue with preassigned dialogue_responder_reference")
  else create c s (DLabel r opponent (c_self c)) role None.

(** dialogues.go:323-353 createOpponentInitiated. [nonce] is the result of
    generateDialogueNonce (dialogues.go:38-49): any string, the empty one when
    the random source fails. *)
Definition create_opponent_initiated (c : config) (s : store) (nonce : string)
    (opponent : address) (r : dref) (role : string) : upd ptr :=
  if negb (bool_decide (starter_ref r <> unassigned) &&
           bool_decide (responder_ref r = unassigned))
  then (s, Err "cannot initiate dialogue with preassigned dialogue_responder_reference")
  else create c s (DLabel r opponent opponent) role
         (Some (DLabel (DRef (starter_ref r) nonce) opponent opponent)).

(** dialogues.go:137-153 createDialogue: an error of the first update is
    swallowed and no dialogue is returned. *)
Definition create_dialogue (c : config) (s : store) (counterparty : address)
    (m : message) : upd (option ptr) :=
  match create_self_initiated c s counterparty (m_ref m) (c_role c m (c_self c)) with
  | (s1, Err e) => (s1, Err e)
  | (s1, Panic e) => (s1, Panic e)
  | (s1, Ok p) =>
      match s_heap s1 !! p with
      | None => (s1, Panic "nil dereference")
      | Some d =>
          match store_update c s1 p (dialogue_update d m) with
          | (s2, Ok _) => (s2, Ok (Some p))
          | (s2, Err _) => (s2, Ok None)
          | (s2, Panic e) => (s2, Panic e)
          end
      end
  end.

(** What an API call returns: a message and a dialogue pointer, either possibly nil.
    (protocols/dialogues.go:99-160.) *)
Definition out : Type := option message * option ptr.

(** dialogues.go:99-120 Create (51-53 newSelfInitiatedDialogueReference). The
    [body] argument is unused by the code. *)
Definition api_create (c : config) (s : store) (nonce : string)
    (counterparty : address) (p : performative) : upd out :=
  let m := Msg counterparty (c_self c) (DRef nonce unassigned)
               starting_message_id starting_target p in
  match create_dialogue c s counterparty m with
  | (s1, Ok d) => (s1, Ok (Some m, d))
  | (s1, Err e) => (s1, Err e)
  | (s1, Panic e) => (s1, Panic e)
  end.

(** dialogues.go:122-135 CreateWithMessage. *)
Definition api_create_with (c : config) (s : store) (counterparty : address)
    (m : message) : upd out :=
  match set_sender m (c_self c) with
  | Ok m1 =>
      match set_to m1 counterparty with
      | Ok m2 =>
          match create_dialogue c s counterparty m2 with
          | (s1, Ok d) => (s1, Ok (None, d))
          | (s1, Err e) => (s1, Err e)
          | (s1, Panic e) => (s1, Panic e)
          end
      | Err e => (s, Err e)
      | Panic e => (s, Panic e)
      end
  | Err e => (s, Err e)
  | Panic e => (s, Panic e)
  end.

(** dialogues.go:84-97 isMessageBySelf, isMessageByOther,
    counterpartyFromMessage. *)
Definition ds_is_by_self (c : config) (m : message) : bool :=
  bool_decide (m_sender m = c_self c).
(** protocols/dialogues.go:92-97. *)
Definition ds_counterparty (c : config) (m : message) : address :=
  if ds_is_by_self c m then m_to m else m_sender m.

(** dialogues.go:264-289 GetDialogue (with 291-297 getLatestLabel and
    GetDialogueFromLabel). *)
Definition get_dialogue (c : config) (s : store) (m : message) : option ptr :=
  let cp := ds_counterparty c m in
  let self_label := st_latest_label s (DLabel (m_ref m) cp (c_self c)) in
  let other_label := st_latest_label s (DLabel (m_ref m) cp cp) in
  match st_get s self_label with
  | Some p => Some p
  | None => st_get s other_label
  end.

(** dialogues.go:223-262 completeDialogueReference. *)
Definition complete_dialogue_reference (c : config) (s : store) (m : message)
    : upd unit :=
  let r := m_ref m in
  if negb (bool_decide (starter_ref r <> unassigned) &&
           bool_decide (responder_ref r <> unassigned))
  then (s, Err "only complete dialogue references allowed")
  else
    let incomplete := DLabel (DRef (starter_ref r) unassigned) (m_sender m) (c_self c) in
    if st_is_present s incomplete && negb (st_is_in_incomplete s incomplete) then
      match st_get s incomplete with
      | None => (s, Err "dialogue not found")
      | Some p =>
          match s_heap s !! p with
          | None => (s, Panic "nil dereference")
          | Some d =>
              match st_remove s incomplete with
              | Err e => (s, Err e)
              | Panic e => (s, Panic e)
              | Ok s1 =>
                  let final := DLabel r (lb_opponent incomplete) (lb_starter incomplete) in
                  match update_dialogue_label d final with
                  | Err e => (s1, Err e)
                  | Panic e => (s1, Panic e)
                  | Ok d' => (st_set_incomplete (st_add s1 p d') incomplete final, Ok tt)
                  end
              end
          end
      end
    else (s, Ok tt).

(** dialogues.go:204-219: apply the message to the dialogue found; a new dialogue
    whose opening is rejected is removed again. *)
Definition update_found (c : config) (s : store) (m : message) (is_new : bool)
    (found : option ptr) : upd out :=
  match found with
  | None => (s, Ok (None, None))
  | Some p =>
      match s_heap s !! p with
      | None => (s, Panic "nil dereference")
      | Some d =>
          match store_update c s p (dialogue_update d m) with
          | (s1, Ok _) => (s1, Ok (None, Some p))
          | (s1, Panic e) => (s1, Panic e)
          | (s1, Err e) =>
              if is_new then
                match st_remove s1 (d_label d) with
                | Ok s2 => (s2, Err e)
                | Err e' => (s1, Err e')
                | Panic e' => (s1, Panic e')
                end
              else (s1, Err e)
          end
      end
  end.

(** dialogues.go:155-221 Update. *)
Definition api_update (c : config) (s : store) (nonce : string) (m : message)
    : upd out :=
  if negb (has_sender m && negb (ds_is_by_self c m))
  then (s, Err "invalid update: only messages by another agent")
  else if negb (has_to m) then (s, Err "the message's 'to' field is not set")
  else if negb (bool_decide (m_to m = c_self c))
  then (s, Err "message 'to' and dialogue 'self address' do not match")
  else
    let starter_assigned := bool_decide (starter_ref (m_ref m) <> unassigned) in
    let responder_assigned := bool_decide (responder_ref (m_ref m) <> unassigned) in
    let is_starting_id := m_id m =? starting_message_id in
    let is_starting_target := m_id m =? starting_target in
    let is_invalid_label := negb starter_assigned && responder_assigned in
    let is_new := starter_assigned && negb responder_assigned && is_starting_id in
    let is_incomplete_not_initial :=
      starter_assigned && negb responder_assigned && negb is_starting_id &&
      negb is_starting_target in
    if is_invalid_label then update_found c s m is_new None
    else if is_new then
      match create_opponent_initiated c s nonce (m_sender m) (m_ref m)
              (c_role c m (c_self c)) with
      | (s1, Ok p) => update_found c s1 m is_new (Some p)
      | (s1, Err e) => (s1, Err e)
      | (s1, Panic e) => (s1, Panic e)
      end
    else if is_incomplete_not_initial then
      update_found c s m is_new (get_dialogue c s m)
    else
      match complete_dialogue_reference c s m with
      | (s1, Ok _) => update_found c s1 m is_new (get_dialogue c s1 m)
      | (s1, Err e) => (s1, Err e)
      | (s1, Panic e) => (s1, Panic e)
      end.

(** dialogue.go:292-342 Reply called on a dialogue pointer the caller holds. A
    pointer that was never handed out is not expressible in Go; the model
    answers it with [Err]. *)
Definition api_reply (c : config) (s : store) (p : ptr) (perf : performative)
    (target_message : option message) (target_ptr : option Z) : upd out :=
  match s_heap s !! p with
  | None => (s, Err "no such dialogue")
  | Some d =>
      match store_update c s p (dialogue_reply d perf target_message target_ptr) with
      | (s1, Ok m) => (s1, Ok (Some m, Some p))
      | (s1, Err e) => (s1, Err e)
      | (s1, Panic e) => (s1, Panic e)
      end
  end.

(** The state-changing calls a user can make, with the nonce the call would draw.
    (protocols/dialogues.go:99-222 and protocols/dialogue.go:292-365.) *)
Inductive op :=
| OpCreate (nonce : string) (counterparty : address) (p : performative)
| OpCreateWith (counterparty : address) (m : message)
| OpUpdate (nonce : string) (m : message)
| OpReply (d : ptr) (p : performative) (target_message : option message)
          (target_ptr : option Z).

(** No counterpart in /repo: dispatches to the calls. *)
Definition step (c : config) (s : store) (o : op) : upd out :=
  match o with
  | OpCreate nonce cp p => api_create c s nonce cp p
  | OpCreateWith cp m => api_create_with c s cp m
  | OpUpdate nonce m => api_update c s nonce m
  | OpReply d p tm tp => api_reply c s d p tm tp
  end.
