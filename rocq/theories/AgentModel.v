(** Model of the connection of an agent to its node:
    /repo/libs/go/aealite/connections/p2pclient.go:135-293, 304-417 and
    /repo/libs/go/aealite/connections/tcpsocket.go:41-82. Logging is left out. *)
From Coq Require Import ZArith NArith List String Ascii.
From stdpp Require Import base list strings.
From Verif Require Import GoBase Bytes Utf8 WireModel ProtoModel CryptoModel AcnModel.
Open Scope string_scope.
Open Scope list_scope.
Open Scope Z_scope.

(** * Delays *)

(** Go's [uint64], and [uint] on 64-bit platforms (used at p2pclient.go:384, 396, 403). *)
Definition uint64 (z : Z) : Z := z mod 2 ^ 64.

(** math.MaxInt64, p2pclient.go:379. *)
Definition max_int64 : Z := 2 ^ 63 - 1.

(** float64(d) for a positive int64 (p2pclient.go:403): 53 significant bits, halves to
    even. *)
Definition float64_of (d : Z) : Z :=
  let e := Z.log2 d - 52 in
  if e <=? 0 then d
  else
    let q := d / 2 ^ e in
    let r := d mod 2 ^ e in
    let up := (2 ^ (e - 1) <? r) || ((2 ^ (e - 1) =? r) && Z.odd q) in
    (if up then q + 1 else q) * 2 ^ e.

(** math.Floor(math.Log2(x)) (p2pclient.go:403) for a positive [x]: exact for powers of
    two; for others the logarithm of the fraction is added to the exponent in floating
    point, which may give the next integer: [rounds_up]. *)
Definition floor_log2 (rounds_up : Z -> bool) (x : Z) : Z :=
  if 2 ^ Z.log2 x =? x then Z.log2 x
  else if rounds_up x then Z.log2 x + 1
  else Z.log2 x.

(** The members of Config that are used (p2pclient.go:363-375), in nanoseconds. *)
Record delay_config := DelayConfig { dc_delay : Z; dc_max_delay : Z; dc_jitter : Z; dc_backoff_n : Z }.

(** p2pclient.go:395-412 BackOffDelay: the config is changed at the first call. A shift
    by 64 or more gives zero. *)
Definition backoff_delay (rounds_up : Z -> bool) (n : Z) (c : delay_config) : delay_config * Z :=
  let c' :=
    if dc_backoff_n c =? 0 then
      let d := if dc_delay c <=? 0 then 1 else dc_delay c in
      DelayConfig d (dc_max_delay c) (dc_jitter c) (uint64 (62 - floor_log2 rounds_up (float64_of d)))
    else c in
  let n' := if dc_backoff_n c' <? n then dc_backoff_n c' else n in
  (c', if 64 <=? n' then 0 else wrap64 (dc_delay c' * 2 ^ n')).

(** p2pclient.go:415-417 RandomDelay: rand.Int63n panics unless its argument is
    positive; [j] is the random number before reduction. *)
Definition random_delay (j : Z) (c : delay_config) : res Z :=
  if dc_jitter c <=? 0 then Panic "invalid argument to Int63n" else Ok (j mod dc_jitter c).

(** p2pclient.go:378-392 CombineDelay, on the delays in order. *)
Definition combine_delays (delays : list Z) : Z :=
  wrap64 (fold_left (fun total d => let t := uint64 (total + uint64 d) in if max_int64 <? t then max_int64 else t) delays 0).

(** p2pclient.go:58-65: the defaults, and 363-375: zero for what is not set. *)
Definition default_config : delay_config := DelayConfig (500 * 10 ^ 6) 0 (100 * 10 ^ 6) 0.

(** p2pclient.go:63 DefaultDelayType. *)
Definition default_delay (rounds_up : Z -> bool) (j n : Z) (c : delay_config) : delay_config * res Z :=
  let (c', b) := backoff_delay rounds_up n c in
  (c', let* r := random_delay j c' in Ok (combine_delays [b; r])).

(** * Registration *)

(** One attempt (acn/acn.go:348, 353): the write succeeds; what is read then. *)
Record reg_attempt := RegAttempt { ra_write : bool; ra_read : res bytes }.

(** p2pclient.go:258-260 register with acn/acn.go:338-361: the frames written and the
    outcome. *)
Definition agent_register (rec : record) (a : reg_attempt) : list bytes * res unit :=
  match encode_acn (Some (PRegister (Some rec))) with
  | None => ([], Err "marshal")
  | Some b => if negb (ra_write a) then ([], Err "write") else ([b], register_outcome (ra_read a))
  end.

(** p2pclient.go:45 retryAttempts. *)
Definition retry_attempts : nat := 5.

(** What registering does: a frame is written (acn/acn.go:348), or some time is waited
    (p2pclient.go:244). *)
Inductive reg_effect := RFrame (b : bytes) | RWait (ns : Z).

(** p2pclient.go:226-255: the loop, with [todo] attempts left and [n] made. The context
    is never done (223). Of the error list (222) only that it is returned matters;
    maxDelay is applied if positive. *)
Fixpoint retry_loop (rounds_up : Z -> bool) (rec : record) (attempt : nat -> reg_attempt) (jitter : nat -> Z)
    (todo n : nat) (c : delay_config) : list reg_effect * res unit :=
  match todo with
  | O => ([], Err "All attempts fail")
  | S todo' =>
      let (frames, r) := agent_register rec (attempt n) in
      match r with
      | Panic p => (map RFrame frames, Panic p)
      | Ok _ => (map RFrame frames, Ok tt)
      | Err _ =>
          match todo' with
          | O => (map RFrame frames, Err "All attempts fail")
          | S _ =>
              match default_delay rounds_up (jitter n) (Z.of_nat n) c with
              | (_, Panic p) => (map RFrame frames, Panic p)
              | (_, Err x) => (map RFrame frames, Err x)
              | (c', Ok d) =>
                  let d' := if (0 <? dc_max_delay c') && (dc_max_delay c' <? d) then dc_max_delay c' else d in
                  let (fs, r') := retry_loop rounds_up rec attempt jitter todo' (S n) c' in
                  (map RFrame frames ++ RWait d' :: fs, r')
              end
          end
      end
  end.

(** p2pclient.go:208-256 registerWithRetry. *)
Definition register_with_retry rounds_up rec attempt jitter : list reg_effect * res unit :=
  retry_loop rounds_up rec attempt jitter retry_attempts 0 default_config.

(** p2pclient.go:304-313 Error of the error list, 315-323 lenWithoutNil: the texts of
    the errors, an entry that is nil being [None]. Writing behind the end panics. *)
Definition errors_text (errs : list (option string)) : res (list string) :=
  let n := length (List.filter (fun e => match e with Some _ => true | None => false end) errs) in
  fold_left
    (fun acc (ie : nat * option string) =>
       let* l := acc in
       match ie with
       | (_, None) => Ok l
       | (i, Some e) => if (i <? length l)%nat then Ok (<[i := e]> l) else Panic "index out of range"
       end)
    (combine (seq 0 (length errs)) errs) (Ok (replicate n "")).

(** * Opening the connection *)

(** What tls.Dial gives (tcpsocket.go:47): for each peer certificate, in order, the
    marshalled ecdsa key or [None] for a key of another kind. *)
Record dial := Dial { dl_ok : bool; dl_certs : list (option bytes); dl_signature : res bytes }.

(** tcpsocket.go:41-82 Connect. [peer_key]: PubKeyFromFetchAIPublicKey
    (wallet/utils.go:73-76); [verify]: Verify of that key. The last certificate
    counts (56-58); none, or one whose key is of another kind, panics (60). *)
Definition socket_connect (peer_key : string -> option bytes) (verify : bytes -> bytes -> bytes -> res bool)
    (key : string) (d : dial) : res unit :=
  if negb (dl_ok d) then Err "dial"
  else match last (dl_certs d) with
  | None => Panic "nil pointer dereference"
  | Some None => Panic "interface conversion"
  | Some (Some pub) =>
      let* signature := dl_signature d in
      match peer_key key with
      | None => Err "public key"
      | Some pk =>
          let* ok := verify pk pub signature in
          if ok then Ok tt else Err "tls signature check failed"
      end
  end.

(** * The life of a connection *)

(** The client after Connect (p2pclient.go:176-206). [ag_pending]: the envelope the
    listener is about to put on the queue (288). [ag_phase]: how far a call of
    Disconnect (162-174) got: 0 none; 1 closing is set; 2 the socket is closed; 3 the
    queue is closed. [ag_got]: what Get returned, nil being [None]. The status queue
    is in AckModel.v. *)
Record agent := Agent {
  ag_address : string;
  ag_closing : bool;
  ag_connected : bool;
  ag_socket : bool;
  ag_listening : bool;
  ag_pending : option envelope;
  ag_queue : list envelope;
  ag_closed : bool;
  ag_phase : nat;
  ag_got : list (option envelope);
}.

(** p2pclient.go:198-206: after a successful Connect. *)
Definition agent0 (address : string) : agent := Agent address false true true true None [] false 0 [].

(** The listener reads: whether an error came back, and the envelope pointer (264). The
    listener's put goes through. Get is called (146-148). Disconnect goes one step
    further; [ok]: the socket closes without error. (p2pclient.go:146-148, 162-174,
    262-302.) *)
Inductive agent_event :=
| ARead (err : bool) (e : option envelope)
| APut
| AGet
| ADisconnect (ok : bool).

(** p2pclient.go:278-287: the listener goes on to the put at 288. *)
Definition agent_set_pending (a : agent) (p : option envelope) : agent :=
  Agent (ag_address a) (ag_closing a) (ag_connected a) (ag_socket a) (ag_listening a) p (ag_queue a) (ag_closed a) (ag_phase a) (ag_got a).

(** p2pclient.go:262-293 listenForEnvelopes, 146-148 Get, 162-174 Disconnect: one event;
    [None] when it cannot happen. The two tests of [closing] at 266 and 269 are one.
    The queue holds ten (199). *)
Definition agent_step (a : agent) (ev : agent_event) : option (res agent) :=
  let (addr, closing, connected, socket, listening, pending, queue, closed, phase, got) := a in
  match ev with
  | ARead err e =>
      match listening, pending with
      | true, None =>
          Some (Ok (if err && negb closing then Agent addr closing connected false false None queue closed phase got
                    else match e with
                    | None => a
                    | Some e' => if String.eqb (e_to e') addr then agent_set_pending a (Some e') else a
                    end))
      | _, _ => None
      end
  | APut =>
      match pending with
      | None => None
      | Some e =>
          if closed then Some (Panic "send on closed channel")
          else if (length queue <? 10)%nat then
            Some (Ok (Agent addr closing connected socket (negb closing) None (queue ++ [e]) closed phase got))
          else None
      end
  | AGet =>
      match queue with
      | e :: l => Some (Ok (Agent addr closing connected socket listening pending l closed phase (got ++ [Some e])))
      | [] => if closed then Some (Ok (Agent addr closing connected socket listening pending [] closed phase (got ++ [None]))) else None
      end
  | ADisconnect ok =>
      match phase with
      | O => Some (Ok (Agent addr true connected socket listening pending queue closed 1 got))
      | 1%nat =>
          Some (Ok (if ok then Agent addr closing connected false listening pending queue closed 2 got
                    else Agent addr closing connected socket listening pending queue closed 0 got))
      | 2%nat =>
          if closed then Some (Panic "close of closed channel")
          else Some (Ok (Agent addr closing connected socket listening pending queue true 3 got))
      | _ => Some (Ok (Agent addr closing false socket listening pending queue closed 0 got))
      end
  end.

(** A history of p2pclient.go:146-174, 262-293; it ends at a crash. *)
Fixpoint agent_run (a : agent) (evs : list agent_event) : option (res agent) :=
  match evs with
  | [] => Some (Ok a)
  | ev :: evs' =>
      match agent_step a ev with
      | Some (Ok a') => agent_run a' evs'
      | r => r
      end
  end.
