(** Model of the calls an agent program can make, in any order and as often as it likes:
    /repo/libs/go/aealite/agent.go:39-78 over /repo/libs/go/aealite/connections/p2pclient.go:89-302 and
    tcpsocket.go:34-113, together with the listeners that Connect leaves behind. The program calls from one
    goroutine; the listeners are goroutines of their own. A frame is read in one step (FrameModel.v has the parts). What Disconnect closes
    is closed in one step, the queues are not bounded (AgentModel.v, AckModel.v have the details of one
    connection). What is in the environment is ConfigModel.v. *)
From Coq Require Import List String Arith.
From stdpp Require Import base list.
From Verif Require Import GoBase.
Open Scope string_scope.
Open Scope list_scope.
Open Scope nat_scope.

(** The connection of a socket (tcpsocket.go:37): none (nil), open, cut by the other side, closed by us. *)
Inductive conn := CNone | COpen | CCut | CClosed.

(** A frame from the node: the signature for the certificate and whether it is right (tcpsocket.go:63), a status and whether it
    is a success (p2pclient.go:466), an envelope for the agent, one for another address (p2pclient.go:282), anything
    else (p2pclient.go:434, 444, 474). *)
Inductive frame := FSig (ok : bool) | FStatus (ok : bool) | FEnv (n : nat) | FOther | FBad.

(** What the program is doing: nothing; in Start waiting for the signature (tcpsocket.go:63) or for the answer to one of
    the [S n] registrations left (p2pclient.go:226); in Put waiting for a status (acn/acn.go:85-94); blocked for
    ever in Get. *)
Inductive call := Idle | InSig | InReg (n : nat) | InPut | Stuck.

(** P2PClientApi (p2pclient.go:74-87): the socket (nil at first), frames sent by the node and not read, flags
    closing, connected and initialised, the two channels (nil at first) with whether they are closed, envelopes and
    statuses in them; the number of listeners; what the program is doing; what Get returned; the errors Start and Put
    returned (newest last, [true] for nil). *)
Record api := Api {
  ap_socket : option conn; ap_wire : list frame;
  ap_closing : bool; ap_connected : bool; ap_initialised : bool;
  ap_chans : option bool; ap_queue : list nat; ap_statuses : list bool;
  ap_listeners : nat; ap_call : call; ap_got : list (option nat); ap_said : list bool
}.

(** A new agent with its connection set (aealite_agent_example/main.go:44-47). *)
Definition api0 : api := Api None [] false false false None [] [] 0 Idle [] [].

(** How tls.Dial and the certificate turn out (tcpsocket.go:47-61): an error, no certificate or one with a key of another kind, well. *)
Inductive dial := DialFails | NoKey | DialWell.

(** What happens: the program calls InitFromEnv (whether the wallet and the rest of the environment are
    good), Start, Put (whether the write succeeds if the connection is not closed), Get or Stop (whether closing succeeds
    if it is not closed); the call goes on after something arrived; the wait for a status times out; a frame
    arrives; the other side cuts the connection; a listener goes round its loop. (agent.go:39-78, p2pclient.go:262-293.) *)
Inductive event :=
| EInit (wallet conn : bool) | EStart (d : dial) | EPut (w : bool) | EGet | EStop (ok : bool)
| EGo | ETimeout | EArrive (f : frame) | ECut | EListen.

(** One Read of a connection (tcpsocket.go:84-95): [None] while nothing is there; an error. *)
Definition read_conn (c : conn) (w : list frame) : option (option frame * list frame) :=
  match c, w with
  | CClosed, _ => Some (None, w)
  | _, f :: w' => Some (Some f, w')
  | CCut, [] => Some (None, [])
  | _, [] => None
  end.

(** p2pclient.go:176-206 Connect ends with an error or well. *)
Definition start_ends (a : api) (c : conn) (w : list frame) (ok : bool) : api :=
  if ok then
    Api (Some c) w false true (ap_initialised a) (Some false) [] [] (S (ap_listeners a)) Idle (ap_got a) (ap_said a ++ [true])
  else
    Api (Some c) w (ap_closing a) (ap_connected a) (ap_initialised a) (ap_chans a) (ap_queue a) (ap_statuses a) (ap_listeners a) Idle (ap_got a) (ap_said a ++ [false]).

(** Connect goes on (p2pclient.go:176-206) with the socket as given and the rest as it was. *)
Definition start_on (a : api) (c : conn) (w : list frame) (k : call) : api :=
  Api (Some c) w (ap_closing a) (ap_connected a) (ap_initialised a) (ap_chans a) (ap_queue a) (ap_statuses a) (ap_listeners a) k (ap_got a) (ap_said a).

(** Put or Get ends or goes on (p2pclient.go:135-148). *)
Definition call_ends (a : api) (q : list nat) (st : list bool) (k : call) (got : list (option nat)) (said : list bool) : api :=
  Api (ap_socket a) (ap_wire a) (ap_closing a) (ap_connected a) (ap_initialised a) (ap_chans a) q st (ap_listeners a) k got said.

(** One round of a listener, p2pclient.go:262-293 with 419-482, on a socket that is not nil: the frame or error is handled at
    once. The answers to the node are written without error (SendAcnSuccess, SendAcnError). *)
Definition listen (a : api) : option (res api) :=
  match ap_listeners a, ap_socket a with
  | S n, Some CNone => Some (Panic "invalid memory address or nil pointer dereference")
  | S n, Some c =>
      match read_conn c (ap_wire a) with
      | None => None
      | Some (fr, w) =>
          let ends := Api (Some CClosed) w (ap_closing a) (ap_connected a) (ap_initialised a) (ap_chans a) (ap_queue a) (ap_statuses a) n (ap_call a) (ap_got a) (ap_said a) in
          let goes_on q st l := Api (Some c) w (ap_closing a) (ap_connected a) (ap_initialised a) (ap_chans a) q st l (ap_call a) (ap_got a) (ap_said a) in
          match fr with
          | None | Some FBad | Some (FSig _) =>
              if ap_closing a then Some (Ok (goes_on (ap_queue a) (ap_statuses a) (S n))) else Some (Ok ends)
          | Some FOther => Some (Ok (goes_on (ap_queue a) (ap_statuses a) (S n)))
          | Some (FStatus ok) =>
              match ap_chans a with
              | Some false => Some (Ok (goes_on (ap_queue a) (ap_statuses a ++ [ok]) (S n)))
              | _ => Some (Panic "send on closed channel")
              end
          | Some (FEnv e) =>
              match ap_chans a with
              | Some false => Some (Ok (goes_on (ap_queue a ++ [e]) (ap_statuses a) (if ap_closing a then n else S n)))
              | _ => Some (Panic "send on closed channel")
              end
          end
      end
  | _, _ => None
  end.

(** agent.go:39-78 and p2pclient.go:89-302, one event; [None]: not possible now. Stop ends the process if Disconnect returns an error
    (agent.go:73-76). A channel that is nil never has a status (acn/acn.go:86); a closed one gives nil, which is then
    read (acn/acn.go:213). *)
Definition step (a : api) (e : event) : option (res api) :=
  match e with
  | EInit wallet conn =>
      match ap_call a with
      | Idle =>
          if negb wallet then Some (Panic "log.Fatal")
          else if ap_connected a then Some (Ok a)
          else if negb conn then Some (Panic "log.Fatal")
          else Some (Ok (Api (Some CNone) [] (ap_closing a) false true (ap_chans a) (ap_queue a) (ap_statuses a) (ap_listeners a) Idle (ap_got a) (ap_said a)))
      | _ => None
      end
  | EStart d =>
      match ap_call a, ap_socket a with
      | Idle, None => Some (Panic "invalid memory address or nil pointer dereference")
      | Idle, Some _ =>
          match d with
          | DialFails => Some (Ok (start_ends a CNone [] false))
          | NoKey => Some (Panic "invalid memory address or nil pointer dereference")
          | DialWell => Some (Ok (start_on a COpen [] InSig))
          end
      | _, _ => None
      end
  | EPut w =>
      match ap_call a, ap_socket a with
      | Idle, None | Idle, Some CNone => Some (Panic "invalid memory address or nil pointer dereference")
      | Idle, Some c =>
          if w && negb (match c with CClosed => true | _ => false end)
          then Some (Ok (call_ends a (ap_queue a) (ap_statuses a) InPut (ap_got a) (ap_said a)))
          else Some (Ok (call_ends a (ap_queue a) (ap_statuses a) Idle (ap_got a) (ap_said a ++ [false])))
      | _, _ => None
      end
  | EGet =>
      match ap_call a with
      | Idle =>
          match ap_chans a, ap_queue a with
          | None, _ => Some (Ok (call_ends a (ap_queue a) (ap_statuses a) Stuck (ap_got a) (ap_said a)))
          | Some _, n :: q => Some (Ok (call_ends a q (ap_statuses a) Idle (ap_got a ++ [Some n]) (ap_said a)))
          | Some true, [] => Some (Ok (call_ends a [] (ap_statuses a) Idle (ap_got a ++ [None]) (ap_said a)))
          | Some false, [] => None
          end
      | _ => None
      end
  | EStop ok =>
      match ap_call a, ap_socket a with
      | Idle, None | Idle, Some CNone => Some (Panic "invalid memory address or nil pointer dereference")
      | Idle, Some CClosed => Some (Panic "log.Fatal")
      | Idle, Some _ =>
          if negb ok then Some (Panic "log.Fatal")
          else match ap_chans a with
          | None => Some (Panic "close of nil channel")
          | Some true => Some (Panic "close of closed channel")
          | Some false =>
              Some (Ok (Api (Some CClosed) (ap_wire a) true false (ap_initialised a) (Some true) (ap_queue a) (ap_statuses a) (ap_listeners a) Idle (ap_got a) (ap_said a)))
          end
      | _, _ => None
      end
  | EGo =>
      match ap_call a, ap_socket a with
      | InSig, Some c =>
          match read_conn c (ap_wire a) with
          | None => None
          | Some (Some (FSig true), w) => Some (Ok (start_on a c w (InReg 4)))
          | Some (_, w) => Some (Ok (start_ends a c w false))
          end
      | InReg n, Some c =>
          match read_conn c (ap_wire a) with
          | None => None
          | Some (Some (FStatus true), w) => Some (Ok (start_ends a c w true))
          | Some (_, w) => match n with S n' => Some (Ok (start_on a c w (InReg n'))) | O => Some (Ok (start_ends a CClosed w false)) end
          end
      | InPut, _ =>
          match ap_chans a, ap_statuses a with
          | Some _, ok :: st => Some (Ok (call_ends a (ap_queue a) st Idle (ap_got a) (ap_said a ++ [ok])))
          | Some true, [] => Some (Panic "invalid memory address or nil pointer dereference")
          | _, _ => None
          end
      | _, _ => None
      end
  | ETimeout =>
      match ap_call a with
      | InPut => Some (Ok (call_ends a (ap_queue a) (ap_statuses a) Idle (ap_got a) (ap_said a ++ [false])))
      | _ => None
      end
  | EArrive f =>
      match ap_socket a with
      | Some COpen =>
          Some (Ok (Api (ap_socket a) (ap_wire a ++ [f]) (ap_closing a) (ap_connected a) (ap_initialised a) (ap_chans a) (ap_queue a) (ap_statuses a) (ap_listeners a) (ap_call a) (ap_got a) (ap_said a)))
      | _ => None
      end
  | ECut =>
      match ap_socket a with
      | Some COpen =>
          Some (Ok (Api (Some CCut) (ap_wire a) (ap_closing a) (ap_connected a) (ap_initialised a) (ap_chans a) (ap_queue a) (ap_statuses a) (ap_listeners a) (ap_call a) (ap_got a) (ap_said a)))
      | _ => None
      end
  | EListen => listen a
  end.

(** A history; a crash ends it (No counterpart in /repo). *)
Fixpoint run (a : api) (l : list event) : option (res api) :=
  match l with
  | [] => Some (Ok a)
  | e :: l' =>
      match step a e with
      | Some (Ok a') => run a' l'
      | Some r => match l' with [] => Some r | _ => None end
      | None => None
      end
  end.
