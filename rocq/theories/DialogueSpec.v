(** Vocabulary for the dialogue properties, independent of how dialogues are
    stored: a conversation is the list of its messages in the order in which
    they were accepted, each with the party that sent it. *)
From Coq Require Import ZArith List String.
From stdpp Require Import base gmap list strings.
From Verif Require Import GoBase DialogueModel StoreModel.
Open Scope Z_scope.

Inductive party := Me | Peer.
Global Instance party_eq_dec : EqDecision party.
Proof. solve_decision. Defined.

Record entry := Entry { e_from : party; e_msg : message }.
Definition history := list entry.

(** The messages of one party, oldest first. *)
Definition messages_of (p : party) (h : history) : list message :=
  map e_msg (List.filter (fun e => bool_decide (e_from e = p)) h).

(** The id of the most recent message; 0 for the empty conversation. *)
Definition last_id (h : history) : Z :=
  match last h with Some e => m_id (e_msg e) | None => 0 end.

(** A stored dialogue holds exactly the conversation [h]. *)
Record represents (d : dialogue) (h : history) : Prop := {
  rep_out : d_out d = messages_of Me h;
  rep_in : d_in d = messages_of Peer h;
  rep_last : d_last_id d = last_id h;
  rep_ordered : d_ordered d = map (fun e => m_id (e_msg e)) h }.

Section Conversation.
  (** The agent, its protocol rules and the label of the dialogue. *)
  Context (c : config) (l : dlabel).

  Definition other : address := lb_opponent l.
  Definition started_by_me : Prop := lb_starter l = c_self c.
  Global Instance started_by_me_dec : Decision started_by_me.
  Proof. unfold started_by_me. apply _. Defined.

  (** Who sends positive ids: the party that started the dialogue. *)
  Definition id_sign (p : party) : Z :=
    match p with
    | Me => if decide started_by_me then 1 else -1
    | Peer => if decide started_by_me then -1 else 1
    end.

  (** The protocol numbering: the next message of a party that has already sent
      [n] messages has absolute id [n + 1]. *)
  Definition protocol_id (p : party) (h : history) : Z :=
    id_sign p * (Z.of_nat (length (messages_of p h)) + 1).

  (** The id the code demands of the next message of a party. *)
  Definition demanded_id (p : party) (h : history) : Z :=
    match p with
    | Me => protocol_id Me h
    | Peer => id_sign Peer *
              (match messages_of Peer h with [] => 1 | _ => Z.abs (last_id h) + 1 end)
    end.

  (** The party whose messages a target refers to, by the sign of the target. *)
  Definition target_party (t : Z) : party :=
    if decide (0 < t * id_sign Me) then Me else Peer.

  (** The message a target [t] designates: the |t|-th message of its party. *)
  Definition designates (h : history) (t : Z) (tm : message) : Prop :=
    t <> 0 /\
    nth_error (messages_of (target_party t) h) (Z.to_nat (Z.abs t - 1)) = Some tm.

  (** [p] may be answered by [q] according to the protocol's reply table. *)
  Definition may_answer (p q : performative) : Prop :=
    exists qs, c_replies c !! p = Some qs /\ In q qs.

  (** Sender and recipient of a message of each party. *)
  Definition addressed (e : entry) : Prop :=
    match e_from e with
    | Me => m_sender (e_msg e) = c_self c /\ m_to (e_msg e) = other
    | Peer => m_sender (e_msg e) = other /\ m_to (e_msg e) = c_self c /\
              other <> c_self c
    end.

  (** A legal opening. *)
  Definition legal_opening (m : message) : Prop :=
    m_id m = 1 /\ m_target m = 0 /\ In (m_perf m) (c_initial c) /\
    starter_ref (m_ref m) = starter_ref (lb_ref l).

  (** A legal continuation of [h]: it answers a designated earlier message. *)
  Definition legal_answer (h : history) (m : message) : Prop :=
    exists tm, designates h (m_target m) tm /\ may_answer (m_perf tm) (m_perf m).

End Conversation.

(** States of the store that the API can reach from the empty store without a
    crash: by arbitrary calls ([reachable_any]), or by calls in which [Reply] is
    used only on dialogues that are still in the store ([reachable]). *)
Definition in_store (s : store) (p : ptr) : Prop :=
  exists l, s_by_label s !! l = Some p.

Definition reply_in_store (s : store) (o : op) : Prop :=
  match o with
  | OpReply p _ _ _ => in_store s p
  | _ => True
  end.

Inductive reachable_any (c : config) : store -> Prop :=
| ra_init : reachable_any c empty_store
| ra_step s o s' r :
    reachable_any c s -> step c s o = (s', r) -> is_panic r = false ->
    reachable_any c s'.

Inductive reachable (c : config) : store -> Prop :=
| r_init : reachable c empty_store
| r_step s o s' r :
    reachable c s -> reply_in_store s o ->
    step c s o = (s', r) -> is_panic r = false ->
    reachable c s'.

(** The other agent a call is about: the one a dialogue is created with, the
    sender of an incoming message, the opponent of the dialogue replied in. *)
Definition call_counterparty (s : store) (o : op) : address :=
  match o with
  | OpCreate _ cp _ => cp
  | OpCreateWith cp _ => cp
  | OpUpdate _ m => m_sender m
  | OpReply p _ _ _ => match s_heap s !! p with
                       | Some d => lb_opponent (d_label d)
                       | None => ""
                       end
  end.

(** * Executions and transcripts *)

(** An execution: the calls made so far with their results, oldest first, and
    the store they lead to. A crash ends the execution. *)
Inductive exec (c : config) : list (op * res out) -> store -> Prop :=
| exec_init : exec c [] empty_store
| exec_call tr s o s' r :
    exec c tr s -> step c s o = (s', r) -> is_panic r = false ->
    exec c (tr ++ [(o, r)]) s'.

(** Executions in which [Reply] is used on stored dialogues only. *)
Inductive exec_clean (c : config) : list (op * res out) -> store -> Prop :=
| ec_init : exec_clean c [] empty_store
| ec_call tr s o s' r :
    exec_clean c tr s -> reply_in_store s o -> step c s o = (s', r) -> is_panic r = false ->
    exec_clean c (tr ++ [(o, r)]) s'.

(** What a call added to which conversation, as the caller sees it: a call that
    reports success and hands back a dialogue has put one message into it. The
    entry is read off the arguments and the result of the call only. *)
Definition said (c : config) (o : op) (r : res out) : option (ptr * entry) :=
  match o, r with
  | OpCreate _ _ _, Ok (Some m, Some p) => Some (p, Entry Me m)
  | OpCreateWith cp m, Ok (_, Some p) =>
      Some (p, Entry Me (Msg cp (c_self c) (m_ref m) (m_id m) (m_target m) (m_perf m)))
  | OpUpdate _ m, Ok (_, Some p) => Some (p, Entry Peer m)
  | OpReply _ _ _ _, Ok (Some m, Some p) => Some (p, Entry Me m)
  | _, _ => None
  end.

(** The conversation of dialogue [p] according to the calls and their results. *)
Fixpoint transcript (c : config) (p : ptr) (tr : list (op * res out)) : history :=
  match tr with
  | [] => []
  | (o, r) :: tr' =>
      match said c o r with
      | Some (q, e) => if decide (p = q) then e :: transcript c p tr' else transcript c p tr'
      | None => transcript c p tr'
      end
  end.

(** Stores reached later by calls in which [Reply] is used on stored dialogues. *)
Inductive later (c : config) (s : store) : store -> Prop :=
| later_refl : later c s s
| later_call s1 o s2 r :
    later c s s1 -> reply_in_store s1 o -> step c s1 o = (s2, r) -> is_panic r = false ->
    later c s s2.

(** * Vocabulary of single properties *)

(** A reference that may appear in a message of dialogue [l]. *)
Definition ref_fits (c : config) (l : dlabel) (r : dref) : Prop :=
  starter_ref r = starter_ref (lb_ref l) /\
  (started_by_me c l \/ responder_ref r = "" \/ responder_ref r = responder_ref (lb_ref l)).

(** Acceptance test on targets, for a message that is not numbered 1. *)
Definition target_ok (c : config) (l : dlabel) (h : history) (m : message) : Prop :=
  m_target m <> min_int /\
  exists tm lm,
    designates c l h (m_target m) tm /\
    last (messages_of (target_party c l (m_target m)) h) = Some lm /\
    Z.abs (m_target m) <= Z.abs (m_id lm) /\
    may_answer c (m_perf tm) (m_perf m).

(** The incoming messages are not numbered beyond their count. *)
Definition no_gap (d : dialogue) : Prop :=
  forall lm, last (d_in d) = Some lm -> Z.abs (m_id lm) <= Z.of_nat (length (d_in d)).

(** Dialogues with gap-free incoming ids, with fewer than 2^63 messages. *)
Definition gap_free (d : dialogue) : Prop :=
  no_gap d /\ Z.of_nat (length (d_out d)) + Z.of_nat (length (d_in d)) < 2 ^ 63.

(** No argument of the call is the least machine integer (whose negation
    overflows). *)
Definition call_in_range (o : op) : Prop :=
  match o with
  | OpCreate _ _ _ => True
  | OpCreateWith _ m => m_target m <> min_int
  | OpUpdate _ m => m_target m <> min_int
  | OpReply _ _ tm tp => (forall t, tp = Some t -> t <> min_int) /\
                         (forall x, tm = Some x -> m_id x <> min_int)
  end.

(** Labels with the same starter reference, opponent and starter. *)
Definition same_core (l l' : dlabel) : Prop :=
  starter_ref (lb_ref l) = starter_ref (lb_ref l') /\
  lb_opponent l = lb_opponent l' /\ lb_starter l = lb_starter l'.

(** A label may only be completed: nothing changes, or the unassigned responder
    reference becomes assigned. *)
Definition label_evolves (l l' : dlabel) : Prop :=
  l' = l \/ (same_core l l' /\ responder_ref (lb_ref l) = "" /\
             responder_ref (lb_ref l') <> "").
