(** Model of taking delegate connections: handleDelegateService
    (/repo/libs/go/libp2p_node/dht/dhtpeer/dhtpeer.go:779-815) on a TLSListener
    (dhtpeer/utils.go:28-52), beside Close (dhtpeer.go:616-640), and of the signature that
    names the node to the agent (dhtpeer.go:737-752, 770-776). *)
From Coq Require Import ZArith NArith List String Ascii.
From stdpp Require Import base gmap list strings.
From Verif Require Import GoBase Bytes FrameModel.
Open Scope string_scope.
Open Scope list_scope.
Open Scope Z_scope.

(** Where the loop is (dhtpeer.go:779-815): at the select (788), in the listener's Accept
    (utils.go:34), writing the signature to a connection (utils.go:40), returned. *)
Inductive astage := STop | SAccept | SWrite (c : nat) | SEnd.

(** What became of a connection, and of an Accept that failed (dhtpeer.go:797-809): a handler
    was started for it (808); the signature could not be written and it was left alone
    (804, neither handled nor closed); Accept failed. *)
Inductive aentry := Handled (c : nat) | Left_ (c : nat) | Refused.

(** dhtpeer.go:779-815. [ac_ready]: how often ready.Done was called (793); [ac_backlog]:
    connections waiting in the listener; [ac_arrived]: all that ever came while it was open;
    [ac_reset]: those that waited when it was closed; [ac_closing]: the channel closing is
    closed (625); [ac_shut]: the listener is closed (637, 781). *)
Record acceptor := Acceptor {
  ac_at : astage;
  ac_ready : nat;
  ac_backlog : list nat;
  ac_arrived : list nat;
  ac_reset : list nat;
  ac_closing : bool;
  ac_shut : bool;
  ac_log : list aentry;
}.

(** dhtpeer.go:405-413: before the goroutine runs. *)
Definition acceptor0 : acceptor := Acceptor STop 0 [] [] [] false false [].

(** A client connects. The loop makes its next step. Accept fails, the listener being open
    (799-805). The write of the signature comes to an end. Close closes the channel (625) and
    the listener (637). (dhtpeer.go:616-640, 779-815.) *)
Inductive aevent := VArrive (c : nat) | VLoop | VFails | VWritten (ok : bool) | VClose | VShut.

(** dhtpeer.go:637, 781: closing the listener. Who waits in it is reset. *)
Definition shut (s : acceptor) : acceptor :=
  Acceptor (ac_at s) (ac_ready s) [] (ac_arrived s) (ac_reset s ++ ac_backlog s) (ac_closing s) true (ac_log s).

(** dhtpeer.go:779-815: the loop goes to [at_], with an entry of the log. *)
Definition goes (s : acceptor) (at_ : astage) (log : list aentry) : acceptor :=
  Acceptor at_ (ac_ready s) (ac_backlog s) (ac_arrived s) (ac_reset s) (ac_closing s) (ac_shut s) (ac_log s ++ log).

(** One event; [None]: it cannot happen. The select takes the closing case whenever the
    channel is closed (789, 811). The TLS handshake takes place in the first write
    (crypto/tls), so the write at utils.go:40 lasts as long as the client takes for it; there
    is no deadline. (dhtpeer.go:616-640, 779-815; utils.go:33-42.) *)
Definition accept_step (s : acceptor) (v : aevent) : option acceptor :=
  match v with
  | VArrive c =>
      if ac_shut s then Some s
      else Some (Acceptor (ac_at s) (ac_ready s) (ac_backlog s ++ [c]) (ac_arrived s ++ [c]) (ac_reset s)
                   (ac_closing s) (ac_shut s) (ac_log s))
  | VLoop =>
      match ac_at s with
      | STop =>
          if ac_closing s then Some (goes (shut s) SEnd [])
          else Some (Acceptor SAccept (match ac_ready s with O => 1 | n => n end)%nat (ac_backlog s) (ac_arrived s)
                       (ac_reset s) (ac_closing s) (ac_shut s) (ac_log s))
      | SAccept =>
          if ac_shut s then Some (goes s STop [Refused])
          else match ac_backlog s with
          | [] => None
          | c :: rest =>
              Some (Acceptor (SWrite c) (ac_ready s) rest (ac_arrived s) (ac_reset s) (ac_closing s) (ac_shut s) (ac_log s))
          end
      | SWrite _ | SEnd => None
      end
  | VFails =>
      match ac_at s with
      | SAccept => if ac_shut s then None else Some (goes s STop [Refused])
      | _ => None
      end
  | VWritten ok =>
      match ac_at s with
      | SWrite c => Some (goes s STop [if ok then Handled c else Left_ c])
      | _ => None
      end
  | VClose =>
      if ac_closing s then None
      else Some (Acceptor (ac_at s) (ac_ready s) (ac_backlog s) (ac_arrived s) (ac_reset s) true (ac_shut s) (ac_log s))
  | VShut => if ac_closing s then Some (shut s) else None
  end.

(** No counterpart in /repo: a sequence of events. *)
Fixpoint accept_run (s : acceptor) (vs : list aevent) : option acceptor :=
  match vs with
  | [] => Some s
  | v :: vs' => match accept_step s v with Some s' => accept_run s' vs' | None => None end
  end.

(** dhtpeer.go:770-776 makeSessionKeySignature ([sign] is Sign of the node's key) and
    utils.go:40: what a connection gets first. [cert]: elliptic.Marshal of the key of the
    certificate. *)
Definition greeting (sign : bytes -> option bytes) (cert : bytes) : res bytes :=
  match sign cert with
  | None => Err "sign"
  | Some sig => write_node sig
  end.
