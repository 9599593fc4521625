(** Properties of message framing (C24, C25, C26). *)
From Coq Require Import ZArith NArith List String Ascii Lia.
From stdpp Require Import base tactics list strings.
From Verif Require Import GoBase Bytes FrameModel FrameProofs.
Open Scope string_scope.
Open Scope list_scope.
Open Scope Z_scope.

(** A message on the wire: its length as four bytes, big-endian, and its bytes. *)
Definition frame (m : bytes) : bytes := be_bytes 4 (Z.of_nat (length m)) ++ m.

(** [c] is a way the transport may deliver the bytes [l]. *)
Definition delivers (c : conn) (l : bytes) : Prop :=
  Forall (fun p => p <> []) c /\ concat c = l.

(** ** C24 *)

(** However a stream's bytes are cut into pieces, a message at its start is read
    unchanged; of what follows, a prefix may be lost. *)
Theorem C24_transparent c m rest :
  delivers c (frame m ++ rest) -> Z.of_nat (length m) <= max_delegate_message ->
  exists lost c', read_stream c = (Ok m, c') /\ rest = lost ++ concat c'.
Proof.
  intros [Hp Hc] Hl. unfold frame in Hc. rewrite <- app_assoc in Hc.
  assert (max_delegate_message < 2 ^ 32) as Hmax by done.
  pose proof (frame_size m rest ltac:(lia)) as Hs. rewrite <- Hc in Hs.
  assert (length (concat c) = 4 + length m + length rest)%nat as Hlen.
  { rewrite Hc, !app_length, be_bytes_length. lia. }
  destruct (read_stream_some c [] Hp) as (lost & c' & E & H1 & H2).
  { lia. } { rewrite Hs. done. } { rewrite Hs. lia. }
  rewrite Hs, Nat2Z.id in E, H1. rewrite !app_nil_r in E.
  rewrite Hc in E, H1. rewrite <- drop_drop in H1.
  rewrite (drop_app_length _ _ 4) in E, H1 by (by rewrite be_bytes_length).
  rewrite take_app in E. rewrite drop_app in H1. by exists lost, c'.
Qed.
Print Assumptions C24_transparent.

(** Alone on the stream, or followed by pieces of its own, nothing is lost. *)
Theorem C24_separate c1 c2 m :
  delivers c1 (frame m) -> Z.of_nat (length m) <= max_delegate_message ->
  read_stream (c1 ++ c2) = (Ok m, c2).
Proof.
  intros [Hp Hc] Hl. unfold frame in Hc.
  assert (max_delegate_message < 2 ^ 32) as Hmax by done.
  pose proof (frame_size m [] ltac:(lia)) as Hs. rewrite app_nil_r, <- Hc in Hs.
  assert (length (concat c1) = 4 + length m)%nat as Hlen.
  { rewrite Hc, !app_length, be_bytes_length. lia. }
  destruct (read_stream_some c1 c2 Hp) as (lost & c' & E & H1 & H2).
  { lia. } { rewrite Hs. done. } { rewrite Hs. lia. }
  rewrite Hs, Nat2Z.id in E, H1. rewrite drop_ge in H1 by lia.
  apply app_eq_nil in H1 as [_ H1]. apply concat_nil in H1; [|done]. subst c'.
  rewrite E. rewrite Hc. rewrite (drop_app_length _ _ 4) by (by rewrite be_bytes_length).
  by rewrite take_ge.
Qed.
Print Assumptions C24_separate.

(** Nothing else is ever returned: a message read was sent as a frame, complete. *)
Theorem C24_sound c l m c' :
  delivers c l -> read_stream c = (Ok m, c') ->
  Z.of_nat (length m) <= max_delegate_message /\
  exists lost, l = frame m ++ lost ++ concat c'.
Proof.
  intros [Hp <-] E. destruct (read_stream_cases c Hp) as [(m' & lost & c'' & E' & _ & Hl & Hc)|He].
  - rewrite E in E'. injection E' as <- <-. split; [done|]. exists lost. rewrite Hc.
    unfold frame. by rewrite <- app_assoc.
  - rewrite E in He. done.
Qed.
Print Assumptions C24_sound.

(** A second message right behind the first is lost: nothing more arrives. *)
Theorem C24_following_lost_refuted :
  exists c m1 m2 c', delivers c (frame m1 ++ frame m2) /\
    read_stream c = (Ok m1, c') /\ is_err (read_stream c').1 = true.
Proof.
  exists [frame (bytes_of "one") ++ frame (bytes_of "two")], (bytes_of "one"), (bytes_of "two"), [].
  split; [split; [repeat constructor; done|vm_compute; done]|]. vm_compute. done.
Qed.
Print Assumptions C24_following_lost_refuted.

Example C24_example :
  let m := bytes_of "hello" in
  let c := [take 1 (frame m); take 6 (drop 1 (frame m)); drop 7 (frame m)] in
  delivers c (frame m) /\ read_stream c = (Ok m, []) /\
  is_err (read_stream (take 2 c)).1 = true.
Proof.
  cbv zeta. split; [split; [repeat constructor; done|vm_compute; done]|]. vm_compute. done.
Qed.

(** ** C25 *)

(** [b]: what the read for the body brings, one piece, possibly arrived together
    with the header. The message returned has the announced length, is correct as
    far as [b] goes and zero behind; so it is the message sent exactly if [b]
    covers it or only zeros are missing. What was not read stays on the connection. *)
Theorem C25_body limit m rest b c1 c :
  m <> [] -> Z.of_nat (length m) < 2 ^ 32 ->
  match limit with Some lim => Z.of_nat (length m) <= lim | None => True end ->
  b <> [] -> b ++ concat c1 = m ++ rest ->
  c = (be_bytes 4 (Z.of_nat (length m)) ++ b) :: c1 \/ c = be_bytes 4 (Z.of_nat (length m)) :: b :: c1 ->
  exists msg c', read_conn limit c = (Ok msg, c') /\
    msg = take (length m) b ++ replicate (length m - length b) (z2b 0) /\
    length msg = length m /\
    (msg = m <-> (length m <= length b)%nat \/
                 drop (length b) m = replicate (length m - length b) (z2b 0)) /\
    concat c' = drop (length m) b ++ concat c1.
Proof.
  intros Hm Hl Hlim Hb Hbc Hc.
  assert (be_val 0 (be_bytes 4 (Z.of_nat (length m))) = Z.of_nat (length m)) as Hs by (apply be4_val; lia).
  destruct (read_conn_frame limit (be_bytes 4 (Z.of_nat (length m))) b c1) with (c := c) as (c' & E & H1).
  { apply be_bytes_length. } { done. } { rewrite Hs. destruct m; [done|simpl; lia]. }
  { by rewrite Hs. } { done. }
  rewrite Hs, Nat2Z.id in E, H1.
  assert (padded (length m) (take (length m) b) = take (length m) b ++ replicate (length m - length b) (z2b 0)) as Hpad.
  { unfold padded. rewrite take_length. f_equal. f_equal. lia. }
  eexists _, c'. split; [exact E|]. split; [exact Hpad|].
  split; [apply padded_length; rewrite take_length; lia|]. split; [|done].
  destruct (decide (length m <= length b)%nat) as [Hge|Hlt].
  - assert (take (length m) b = m) as ->.
    { assert (take (length m) (b ++ concat c1) = take (length m) (m ++ rest)) as H by by rewrite Hbc.
      rewrite take_app_le in H by done. by rewrite take_app in H. }
    rewrite padded_full by done. split; [by left|done].
  - assert (b = take (length b) m) as Hbm.
    { assert (take (length b) (b ++ concat c1) = take (length b) (m ++ rest)) as H by by rewrite Hbc.
      rewrite take_app in H. rewrite take_app_le in H by lia. done. }
    rewrite (take_ge b) by lia. rewrite Hbm at 1. rewrite padded_same by lia.
    split; [by right|]. intros [?|?]; [lia|done].
Qed.
Print Assumptions C25_body.

(** Only the first byte of the header arrives: an empty message is reported and
    the rest of the frame is taken for the next one. *)
Theorem C25_split_header limit m c1 :
  Z.of_nat (length m) < 2 ^ 24 -> match limit with Some lim => 0 <= lim | None => True end ->
  read_conn limit (take 1 (frame m) :: c1) = (Ok [], c1).
Proof.
  intros Hm Hlim.
  assert (take 1 (frame m) = [z2b 0]) as ->.
  { unfold frame. cbn [be_bytes app].
    assert (Z.of_nat (length m) / 256 / 256 / 256 = 0) as ->.
    { rewrite !Z.div_div by lia. apply Z.div_small. lia. }
    done. }
  unfold read_conn. cbn [conn_read take drop].
  assert (be_val 0 (padded 4 [z2b 0]) = 0) as -> by (by vm_compute).
  assert (match limit with Some lim => lim <? 0 | None => false end = false) as ->.
  { destruct limit; [|done]. apply Z.ltb_ge. done. }
  done.
Qed.
Print Assumptions C25_split_header.

(** Three bytes of a body of five: success, two zero bytes; the other two bytes
    are read as the next header. *)
Example C25_example :
  let m := bytes_of "hello" in
  let c := [frame (take 3 m); drop 3 m ++ frame (bytes_of "next")] in
  let c1 := (be_bytes 4 5 ++ take 3 m) :: [drop 3 m ++ frame (bytes_of "next")] in
  (read_conn (Some max_delegate_message) c1).1 = Ok (bytes_of "hel" ++ [z2b 0; z2b 0]) /\
  concat (read_conn (Some max_delegate_message) c1).2 = bytes_of "lo" ++ frame (bytes_of "next") /\
  is_err (read_conn (Some max_delegate_message) (read_conn (Some max_delegate_message) c1).2).1 = true /\
  read_conn (Some max_delegate_message) [frame m; frame (bytes_of "next")] = (Ok m, [frame (bytes_of "next")]).
Proof. vm_compute. done. Qed.

(** ** C26 *)

(** What the writers accept and put on the wire. *)
Theorem C26_writers data :
  (is_ok (write_node data) = true <-> Z.of_nat (length data) <= 2 ^ 31 - 1) /\
  (is_ok (write_pipe data) = true <-> Z.of_nat (length data) <= 2 ^ 31 - 1) /\
  (data <> [] -> Z.of_nat (length data) <= 2 ^ 31 - 1 -> write_node data = Ok (frame data)) /\
  (Z.of_nat (length data) <= 2 ^ 31 - 1 -> write_pipe data = Ok (frame data)) /\
  (Z.of_nat (length data) < 2 ^ 32 - 4 -> write_agent data = Ok (frame data)) /\
  is_panic (write_node data) = false /\ is_panic (write_pipe data) = false.
Proof.
  unfold write_node, write_pipe.
  destruct (Z.ltb_spec (2 ^ 31 - 1) (Z.of_nat (length data))); cbn [is_ok is_panic].
  - split; [split; [done|lia]|]. split; [split; [done|lia]|]. split; [lia|]. split; [lia|].
    split; [|done]. intros Hl. unfold write_agent. rewrite (Z.mod_small (Z.of_nat _)) by lia.
    rewrite Z.mod_small by lia. destruct (Z.ltb_spec (4 + Z.of_nat (length data)) 4); [lia|done].
  - assert (is_ok (match data with [] => Ok [] | _ => Ok (be_bytes 4 (Z.of_nat (length data)) ++ data) end) = true)
      as Hok by (by destruct data).
    split; [split; [lia|done]|]. split; [split; [lia|done]|]. split; [by destruct data|]. split; [done|].
    split; [|by destruct data]. intros Hl. unfold write_agent. rewrite (Z.mod_small (Z.of_nat _)) by lia.
    rewrite Z.mod_small by lia. destruct (Z.ltb_spec (4 + Z.of_nat (length data)) 4); [lia|done].
Qed.
Print Assumptions C26_writers.

(** An empty message: accepted, nothing on the wire; the agent's writers send an
    empty frame, which reads back. *)
Theorem C26_empty :
  write_node [] = Ok [] /\ write_pipe [] = Ok (frame []) /\ write_agent [] = Ok (frame []) /\
  forall limit c, match limit with Some lim => 0 <= lim | None => True end ->
    read_conn limit (frame [] :: c) = (Ok [], c).
Proof.
  split; [done|]. split; [done|]. split; [done|].
  intros limit c Hlim. unfold read_conn. cbn [conn_read].
  assert (take 4 (frame []) = frame []) as -> by done.
  assert (drop 4 (frame []) = []) as -> by done.
  assert (be_val 0 (padded 4 (frame [])) = 0) as -> by (by vm_compute).
  assert (match limit with Some lim => lim <? 0 | None => false end = false) as ->.
  { destruct limit; [|done]. apply Z.ltb_ge. done. }
  done.
Qed.
Print Assumptions C26_empty.

(** The bounded readers accept nothing above their limit. *)
Theorem C26_limit lim c m c' :
  (read_conn (Some lim) c = (Ok m, c') -> Z.of_nat (length m) <= lim) /\
  (Forall (fun p => p <> []) c -> read_stream c = (Ok m, c') ->
     Z.of_nat (length m) <= 1024 * 1024 * 3).
Proof.
  split; [apply read_conn_limit|]. intros Hp E.
  by destruct (C24_sound c (concat c) m c' (conj Hp eq_refl) E).
Qed.
Print Assumptions C26_limit.

(** A message between the reader's limit and the writer's limit is sent and then
    refused; the TCP reader leaves its body on the connection. *)
Theorem C26_sent_but_refused data :
  1024 * 1024 * 3 < Z.of_nat (length data) <= 2 ^ 31 - 1 ->
  write_node data = Ok (frame data) /\
  (forall c rest, delivers c (frame data ++ rest) -> is_err (read_stream c).1 = true) /\
  (forall b c1, b ++ concat c1 = data ->
     is_err (read_conn (Some max_delegate_message) ((be_bytes 4 (Z.of_nat (length data)) ++ b) :: c1)).1 = true /\
     concat (read_conn (Some max_delegate_message) ((be_bytes 4 (Z.of_nat (length data)) ++ b) :: c1)).2 = data).
Proof.
  intros Hl. split.
  { apply C26_writers; [|lia]. intros ->. simpl in Hl. lia. }
  split.
  - intros c rest [Hp Hc]. apply read_stream_none; [done|]. right. left.
    rewrite Hc. unfold frame. rewrite <- app_assoc, frame_size by lia. unfold max_delegate_message. lia.
  - intros b c1 Hb. rewrite <- Hb. apply read_conn_too_large.
    + apply be_bytes_length.
    + rewrite be4_val by (rewrite Hb; lia). unfold max_delegate_message. rewrite Hb. lia.
Qed.
Print Assumptions C26_sent_but_refused.

(** The agent's writer does not check the length: from 2^32-4 bytes on it crashes
    or announces the length modulo 2^32. *)
Theorem C26_agent_large data :
  (2 ^ 32 - 4 <= Z.of_nat (length data) < 2 ^ 32 -> is_panic (write_agent data) = true) /\
  (2 ^ 32 <= Z.of_nat (length data) < 2 ^ 33 - 4 ->
     write_agent data = Ok (be_bytes 4 (Z.of_nat (length data) - 2 ^ 32) ++ data)).
Proof.
  unfold write_agent. split; intros Hl.
  - rewrite (Z.mod_small (Z.of_nat _)) by lia.
    replace ((4 + Z.of_nat (length data)) mod 2 ^ 32) with (4 + Z.of_nat (length data) - 2 ^ 32).
    + destruct (Z.ltb_spec (4 + Z.of_nat (length data) - 2 ^ 32) 4); [done|lia].
    + apply Z.mod_unique with 1; lia.
  - assert (Z.of_nat (length data) mod 2 ^ 32 = Z.of_nat (length data) - 2 ^ 32) as ->.
    { symmetry. apply Z.mod_unique with 1; lia. }
    rewrite Z.mod_small by lia.
    destruct (Z.ltb_spec (4 + (Z.of_nat (length data) - 2 ^ 32)) 4); [lia|done].
Qed.
Print Assumptions C26_agent_large.

(** Messages of all these lengths exist. *)
Example C26_example n : exists data : bytes, Z.of_nat (length data) = Z.of_nat n.
Proof. exists (replicate n (z2b 7)). by rewrite replicate_length. Qed.

Example C26_example_small :
  write_node (bytes_of "ab") = Ok (map z2b [0; 0; 0; 2; 97; 98]) /\
  read_conn (Some 1) [map z2b [0; 0; 0; 2; 97; 98]] =
    (Err "expected message size larger than maximum allowed", [map z2b [97; 98]]).
Proof. vm_compute. done. Qed.
