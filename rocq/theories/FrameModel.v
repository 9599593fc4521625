(** Model of message framing over connections:
    /repo/libs/go/libp2p_node/utils/utils.go:614-745 (delegate TCP connections and
    libp2p streams), /repo/libs/go/libp2p_node/aea/pipe.go:51-79 and
    /repo/libs/go/aealite/connections/tcpsocket.go:84-105 (agent pipe). *)
From Coq Require Import ZArith NArith List String Ascii.
From stdpp Require Import base list strings.
From Verif Require Import GoBase Bytes.
Open Scope string_scope.
Open Scope list_scope.
Open Scope Z_scope.

(** What will arrive on a connection: the pieces in which the transport hands out the
    bytes, all non-empty, followed by the end of the connection. A reader never sees
    more than one piece per read. Which pieces the stream is cut into is arbitrary;
    theorems quantify over it. Waiting is not modelled. (utils/utils.go:614-745: the
    connections read from.) *)
Definition conn := list bytes.

(** net.Conn.Read (and network.Stream.Read) into a buffer of [n] bytes: the bytes read,
    or the error at the end of the connection. An empty buffer reads nothing.
    (utils/utils.go:634-651; aea/pipe.go:61-79; tcpsocket.go:84-105.) *)
Definition conn_read (n : nat) (c : conn) : res bytes * conn :=
  match n with
  | O => (Ok [], c)
  | _ =>
      match c with
      | [] => (Err "EOF", [])
      | piece :: c' =>
          (Ok (take n piece),
           match drop n piece with [] => c' | rest => rest :: c' end)
      end
  end.

(** [make([]byte, n)] with a prefix overwritten. (utils/utils.go:635, 646, 680, 696.) *)
Definition padded (n : nat) (b : bytes) : bytes := b ++ replicate (n - length b) (z2b 0).

(** utils/utils.go:635: the header before it is read. *)
Definition zero4 : bytes := padded 4 [].

(** utils.go:62-63. *)
Definition max_delegate_message : Z := 1024 * 1024 * 3.

(** utils.go:635-650 ReadBytesConn with [limit = Some max_delegate_message];
    tcpsocket.go:84-95 and pipe.go:51-64 Read with [limit = None]. The number of
    bytes a read returned is not looked at. *)
Definition read_conn (limit : option Z) (c : conn) : res bytes * conn :=
  match conn_read 4 c with
  | (Ok h, c1) =>
      let size := be_val 0 (padded 4 h) in
      if match limit with Some lim => lim <? size | None => false end
      then (Err "expected message size larger than maximum allowed", c1)
      else
        let n := Z.to_nat size in
        match conn_read n c1 with
        | (Ok b, c2) => (Ok (padded n b), c2)
        | (Err e, c2) => (Err e, c2)
        | (Panic e, c2) => (Panic e, c2)
        end
  | (Err e, c1) => (Err e, c1)
  | (Panic e, c1) => (Panic e, c1)
  end.

(** utils.go:615-632 WriteBytesConn and 703-745 WriteBytes (on a non-nil stream):
    the bytes put on the wire. Transport errors are not modelled. *)
Definition write_node (data : bytes) : res bytes :=
  if 2 ^ 31 - 1 <? Z.of_nat (length data) then Err "data size too large"
  else match data with
       | [] => Ok []
       | _ => Ok (be_bytes 4 (Z.of_nat (length data)) ++ data)
       end.

(** pipe.go:66-79 Write. *)
Definition write_pipe (data : bytes) : res bytes :=
  if 2 ^ 31 - 1 <? Z.of_nat (length data) then Err "value too large"
  else Ok (be_bytes 4 (Z.of_nat (length data)) ++ data).

(** tcpsocket.go:97-105 Write: the length is reduced to 32 bits; the capacity
    [4+size] is a 32-bit sum, and [make] panics if it is below 4. *)
Definition write_agent (data : bytes) : res bytes :=
  let size := Z.of_nat (length data) mod 2 ^ 32 in
  if (4 + size) mod 2 ^ 32 <? 4 then Panic "makeslice: cap out of range"
  else Ok (be_bytes 4 size ++ data).

(** * Buffered reading of streams *)

(** bufio.NewReader's buffer size. (utils/utils.go:678.) *)
Definition buffer_size : nat := Z.to_nat 4096.

(** bufio.Reader.Read into [n > 0] bytes: from the buffer if it holds something,
    straight from the stream for large reads, else one read fills the buffer. The state
    is the buffer and the stream. (utils/utils.go:678-697.) *)
Definition buf_read (n : nat) (buf : bytes) (c : conn) : res bytes * bytes * conn :=
  match buf with
  | _ :: _ => (Ok (take n buf), drop n buf, c)
  | [] =>
      if (buffer_size <=? n)%nat then
        let '(r, c') := conn_read n c in (r, [], c')
      else
        match conn_read buffer_size c with
        | (Ok b, c') => (Ok (take n b), drop n b, c')
        | (Err e, c') => (Err e, [], c')
        | (Panic e, c') => (Panic e, [], c')
        end
  end.

(** io.ReadFull: reads until [n] bytes are there. Each read gives at least one byte, so
    [n] rounds are enough. (utils/utils.go:681, 697.) *)
Fixpoint read_full (fuel n : nat) (buf : bytes) (c : conn) : res bytes * bytes * conn :=
  match n with
  | O => (Ok [], buf, c)
  | _ =>
      match fuel with
      | O => (Err "no progress", buf, c)
      | S fuel' =>
          match buf_read n buf c with
          | (Ok b, buf', c') =>
              match read_full fuel' (n - length b) buf' c' with
              | (Ok b', buf'', c'') => (Ok (b ++ b'), buf'', c'')
              | other => other
              end
          | other => other
          end
      end
  end.

(** utils.go:673-700 ReadBytes on a non-nil stream: a fresh buffered reader per
    call, dropped afterwards with what it holds. *)
Definition read_stream (c : conn) : res bytes * conn :=
  match read_full 4 4 [] c with
  | (Ok h, buf, c1) =>
      let size := be_val 0 h in
      if max_delegate_message <? size
      then (Err "expected message size larger than maximum allowed", c1)
      else
        let n := Z.to_nat size in
        match read_full n n buf c1 with
        | (Ok b, _, c2) => (Ok b, c2)
        | (Err e, _, c2) => (Err e, c2)
        | (Panic e, _, c2) => (Panic e, c2)
        end
  | (Err e, _, c1) => (Err e, c1)
  | (Panic e, _, c1) => (Panic e, c1)
  end.
