(** Model of envelopes that several callers route through one peer node, one envelope after the other each, and of the queue for those that could not be sent at once:
    /repo/libs/go/libp2p_node/dht/dhtpeer/dhtpeer.go:1055-1208. The callers are the loop over the envelopes of the agent (libp2p_node.go:155-164), the goroutine of each
    pair of addresses of a delegate client (dhtpeer.go:970-985) and each client of the mailbox that sends its envelopes one at a time (mailbox.go:182). One call is
    [route] and one turn of the loop is [slow_send] of RouteModel.v, in three steps each: it begins, it does what it does to the outside, it goes
    on. Simplification: the node is not closed meanwhile (ShutdownModel.v has that). *)
From Coq Require Import List Arith.
From stdpp Require Import base list strings.
From Verif Require Import GoBase Bytes ProtoModel RouteModel.
Open Scope list_scope.
Open Scope nat_scope.

(** How a call goes on after what it did to the outside: it returns; it puts the envelope in the queue (dhtpeer.go:1174); it never goes on. *)
Inductive after := Back (r : res unit) | Queues | Never.

(** Where a caller is: before its next envelope; in the call (dhtpeer.go:1055); past what the call did to the outside; at the queue (1174). *)
Inductive stage := Free | Routing | Acted (n : after) | Putting.

(** A caller: the number of its next or present envelope, and where it is (libp2p_node.go:156-163, dhtpeer.go:977-984). *)
Record caller := Caller { ca_at : nat; ca_stage : stage }.

(** Where the loop of the queue is: at 1190; in the call at 1200; past what that did to the outside (dhtpeer.go:1186-1208). *)
Inductive loop_at := LFree | LSending (x : nat * nat) | LActed (x : nat * nat) (n : after).

(** What happened: a call, of a caller or of the loop, did this to the outside; an envelope was put in the queue. An envelope is named by caller and number.
    (No counterpart in /repo: for the statements.) *)
Inductive mark := Act (slow : bool) (x : nat * nat) (fs : list effect) | Queued (x : nat * nat).

(** The callers, the queue (dhtpeer.go:183), its loop, what happened so far. *)
Record node := Node { s_callers : nat -> caller; s_queue : list (nat * nat); s_loop : loop_at; s_log : list mark }.

(** The next step of a caller, with what it reads and what the calls it makes come to; or of the loop (dhtpeer.go:1055-1208). *)
Inductive event :=
| ETake (c : nat) | EAct (c : nat) (v : view) (o : outcome) | EBack (c : nat) | EPut (c : nat)
| LTake | LAct (v : view) (found : ret (string * option record)) (o : stream_outcome) | LBack.

(** const SlowQueueSize (dhtpeer.go:76). *)
Definition queue_size : nat := 100.

(** Whether a call of RouteEnvelope goes on to the queue: it has its envelope for it among its effects, which is left out of what it did (dhtpeer.go:1170-1175). *)
Definition to_queue (f : effect) : bool := match f with ToSlowQueue _ => true | _ => false end.

(** One caller goes on (No counterpart in /repo: replaces the entry of the caller). *)
Definition set_caller (s : nat -> caller) (c : nat) (k : caller) : nat -> caller := fun c' => if c' =? c then k else s c'.

Section Slow.
  (** The envelope with this number of this caller. *)
  Context (letter : nat -> nat -> envelope).

  (** One step; an error if it is not its turn (dhtpeer.go:1055-1208). *)
  Definition step (s : node) (e : event) : res node :=
    match e with
    | ETake c =>
        match s_callers s c with
        | Caller i Free => Ok (Node (set_caller (s_callers s) c (Caller i Routing)) (s_queue s) (s_loop s) (s_log s))
        | _ => Err "not enabled"
        end
    | EAct c v o =>
        match s_callers s c with
        | Caller i Routing =>
            if oc_closing o then Err "not enabled" else
            let go fs n := Ok (Node (set_caller (s_callers s) c (Caller i (Acted n))) (s_queue s) (s_loop s)
                                    (s_log s ++ [Act false (c, i) (List.filter (fun f => negb (to_queue f)) fs)])) in
            match route v (letter c i) o with
            | (_, Returns (Panic p)) => Panic p
            | (fs, Hangs) => go fs Never
            | (fs, Returns r) => go fs (if existsb to_queue fs then Queues else Back r)
            end
        | _ => Err "not enabled"
        end
    | EBack c =>
        match s_callers s c with
        | Caller i (Acted (Back _)) => Ok (Node (set_caller (s_callers s) c (Caller (S i) Free)) (s_queue s) (s_loop s) (s_log s))
        | Caller i (Acted Queues) => Ok (Node (set_caller (s_callers s) c (Caller i Putting)) (s_queue s) (s_loop s) (s_log s))
        | _ => Err "not enabled"
        end
    | EPut c =>
        match s_callers s c with
        | Caller i Putting =>
            if length (s_queue s) <? queue_size
            then Ok (Node (set_caller (s_callers s) c (Caller (S i) Free)) (s_queue s ++ [(c, i)]) (s_loop s) (s_log s ++ [Queued (c, i)]))
            else Err "not enabled"
        | _ => Err "not enabled"
        end
    | LTake =>
        match s_loop s, s_queue s with
        | LFree, x :: q => Ok (Node (s_callers s) q (LSending x) (s_log s))
        | _, _ => Err "not enabled"
        end
    | LAct v found o =>
        match s_loop s with
        | LSending x =>
            let go fs n := Ok (Node (s_callers s) (s_queue s) (LActed x n) (s_log s ++ [Act true x fs])) in
            match slow_send v (letter (fst x) (snd x)) found o with
            | (_, Returns (Panic p)) => Panic p
            | (fs, Hangs) => go fs Never
            | (fs, Returns r) => go fs (Back r)
            end
        | _ => Err "not enabled"
        end
    | LBack =>
        match s_loop s with
        | LActed _ (Back _) => Ok (Node (s_callers s) (s_queue s) LFree (s_log s))
        | _ => Err "not enabled"
        end
    end.

  (** A run (No counterpart in /repo). *)
  Fixpoint run (s : node) (l : list event) : res node :=
    match l with
    | [] => Ok s
    | e :: l' => match step s e with Ok s' => run s' l' | x => x end
    end.
End Slow.

(** The node as started (dhtpeer.go:206, 426). *)
Definition fresh : node := Node (fun _ => Caller 0 Free) [] LFree [].
