(** A concrete agent and runs of it, for the examples beside the theorems. *)
From Coq Require Import ZArith List String Lia.
From stdpp Require Import base tactics gmap strings list.
From Verif Require Import GoBase SetModel DialogueModel StoreModel DialogueSpec.
Open Scope string_scope.
Open Scope list_scope.
Open Scope Z_scope.

(** An agent named [self] with a small protocol: a dialogue is opened with
    "open", continued with "say" and ended with "end". *)
Definition demo (self : string) (keep : bool) : config :=
  Config self (fun m a => if bool_decide (m_sender m = a) then "starter" else "responder")
    keep ["open"; "ping"] ["end"; "ping"]
    (list_to_map [("open", ["say"; "end"]); ("say", ["say"; "end"]); ("ping", ["say"])]).

(** Runs a list of calls; stops before a call that crashes or replies in a
    dialogue that is not stored. *)
Definition stored_ptr (s : store) (p : ptr) : bool :=
  existsb (fun kv => Nat.eqb kv.2 p) (map_to_list (s_by_label s)).
Definition clean_op (s : store) (o : op) : bool :=
  match o with OpReply p _ _ _ => stored_ptr s p | _ => true end.

Fixpoint run_from (c : config) (clean : bool) (tr : list (op * res out)) (s : store)
    (ops : list op) : option (list (op * res out) * store) :=
  match ops with
  | [] => Some (tr, s)
  | o :: ops' =>
      let sr := step c s o in
      if is_panic sr.2 || (clean && negb (clean_op s o)) then None
      else run_from c clean (tr ++ [(o, sr.2)]) sr.1 ops'
  end.
Definition run (c : config) (clean : bool) (ops : list op) := run_from c clean [] empty_store ops.

Lemma run_from_exec c clean tr s ops tr' s' :
  exec c tr s -> run_from c clean tr s ops = Some (tr', s') -> exec c tr' s'.
Proof.
  revert tr s. induction ops as [|o ops IH]; intros tr s He; simpl; [by intros [= <- <-]|].
  destruct (step c s o) as [s1 r] eqn:Es. simpl.
  destruct (is_panic r) eqn:Ep; [done|]. simpl. destruct (_ && _); [done|].
  apply IH. by econstructor.
Qed.

Lemma stored_ptr_in s p : stored_ptr s p = true -> in_store s p.
Proof.
  unfold stored_ptr. rewrite existsb_exists. intros ([l q] & Hin & He).
  apply Nat.eqb_eq in He. simpl in He. subst q. exists l.
  apply elem_of_map_to_list. by apply elem_of_list_In.
Qed.

Lemma run_from_clean c tr s ops tr' s' :
  exec_clean c tr s -> run_from c true tr s ops = Some (tr', s') -> exec_clean c tr' s'.
Proof.
  revert tr s. induction ops as [|o ops IH]; intros tr s He; simpl; [by intros [= <- <-]|].
  destruct (step c s o) as [s1 r] eqn:Es. simpl.
  destruct (is_panic r) eqn:Ep; [done|]. simpl.
  destruct (clean_op s o) eqn:Ec; [|done]. simpl.
  apply IH. econstructor; [done| |done|done].
  destruct o; simpl in *; try done. by apply stored_ptr_in.
Qed.

Lemma run_exec c clean ops tr s : run c clean ops = Some (tr, s) -> exec c tr s.
Proof. apply run_from_exec. constructor. Qed.

Lemma run_clean c ops tr s : run c true ops = Some (tr, s) -> exec_clean c tr s.
Proof. apply run_from_clean. constructor. Qed.

(** Shorthands for messages from "b" to "a". *)
Definition ab := DRef "x" "".
Definition abc := DRef "x" "y".
Definition from_b (r : dref) (id target : Z) (p : performative) : message :=
  Msg "a" "b" r id target p.

(** The agent "a" starts a dialogue with "b", gets an answer and answers it. *)
Definition ops_self : list op :=
  [OpCreate "x" "b" "open";
   OpUpdate "n" (from_b abc (-1) 1 "say");
   OpReply 0%nat "say" None None].

(** "b" starts a dialogue with "a", who answers; "b" goes on. *)
Definition ops_peer : list op :=
  [OpUpdate "y" (from_b ab 1 0 "open");
   OpReply 0%nat "say" None None;
   OpUpdate "n" (from_b abc 2 (-1) "say")].

Definition trace_of (c : config) (ops : list op) : list (op * res out) :=
  match run c true ops with Some (t, _) => t | None => [] end.
Definition store_of (c : config) (ops : list op) : store :=
  match run c true ops with Some (_, s) => s | None => empty_store end.

Lemma demo_clean c ops :
  match run c true ops with Some _ => true | None => false end = true ->
  exec_clean c (trace_of c ops) (store_of c ops).
Proof.
  unfold trace_of, store_of. destruct (run c true ops) as [[tr s]|] eqn:E; [|done].
  intros _. by eapply run_clean.
Qed.

(** The dialogue behind pointer [p]. *)
Definition dialogue_at (s : store) (p : ptr) : dialogue :=
  match s_heap s !! p with
  | Some d => d
  | None => new_dialogue (DLabel (DRef "" "") "" "") "" "" [] [] ∅
  end.
