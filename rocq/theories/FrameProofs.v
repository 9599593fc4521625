(** Lemmas about framing. *)
From Coq Require Import ZArith NArith List String Ascii Lia.
From stdpp Require Import base tactics list strings.
From Verif Require Import GoBase Bytes FrameModel.
Open Scope string_scope.
Open Scope list_scope.
Open Scope Z_scope.

(** Pieces are not empty. *)
Definition pieces (c : conn) : Prop := Forall (fun p => p <> []) c.

(** Reading one piece: something comes, in order, nothing is lost. *)
Lemma conn_read_some n c1 c2 :
  n <> O -> pieces c1 -> c1 <> [] ->
  exists b c1', conn_read n (c1 ++ c2) = (Ok b, c1' ++ c2) /\ b <> [] /\ (length b <= n)%nat /\
    concat c1 = b ++ concat c1' /\ pieces c1'.
Proof.
  intros Hn Hp Hne. destruct n as [|n]; [done|]. destruct c1 as [|p c1]; [done|].
  inversion Hp as [|? ? Hp1 Hp2]; subst. cbn [app conn_read].
  exists (take (S n) p), (match drop (S n) p with [] => c1 | rest => rest :: c1 end).
  split; [by destruct (drop (S n) p)|]. split; [by destruct p|].
  split; [rewrite take_length; lia|]. split.
  - cbn [concat]. rewrite <- (take_drop (S n) p) at 1. rewrite <- app_assoc. f_equal.
    by destruct (drop (S n) p).
  - destruct (drop (S n) p) eqn:E; [done|]. constructor; [done|done].
Qed.

Lemma buf_read_some n buf c1 c2 :
  n <> O -> pieces c1 -> buf ++ concat c1 <> [] ->
  exists b buf' c1', buf_read n buf (c1 ++ c2) = (Ok b, buf', c1' ++ c2) /\
    b <> [] /\ (length b <= n)%nat /\
    buf ++ concat c1 = b ++ buf' ++ concat c1' /\ pieces c1'.
Proof.
  intros Hn Hp Hne. destruct buf as [|x buf].
  - assert (c1 <> []) as Hc1 by (by intros ->). unfold buf_read.
    destruct (Nat.leb_spec buffer_size n) as [Hb|Hb].
    + destruct (conn_read_some n c1 c2 Hn Hp Hc1) as (b & c1' & E & H1 & H2 & H3 & H4).
      rewrite E. by exists b, [], c1'.
    + assert (buffer_size <> O) as Hz by (unfold buffer_size; lia).
      destruct (conn_read_some buffer_size c1 c2 Hz Hp Hc1) as (b & c1' & E & H1 & H2 & H3 & H4).
      rewrite E. exists (take n b), (drop n b), c1'. split; [done|].
      split; [by destruct n, b|]. split; [rewrite take_length; lia|]. split; [|done].
      cbn [app]. rewrite H3. rewrite app_assoc. by rewrite take_drop.
  - unfold buf_read. exists (take n (x :: buf)), (drop n (x :: buf)), c1. split; [done|].
    split; [by destruct n|]. split; [rewrite take_length; lia|]. split; [|done].
    rewrite (app_assoc (take _ _)). by rewrite take_drop.
Qed.

Lemma read_full_some fuel n buf c1 c2 :
  (n <= fuel)%nat -> pieces c1 -> (n <= length (buf ++ concat c1))%nat ->
  exists buf' c1', read_full fuel n buf (c1 ++ c2) = (Ok (take n (buf ++ concat c1)), buf', c1' ++ c2) /\
    buf' ++ concat c1' = drop n (buf ++ concat c1) /\ pieces c1'.
Proof.
  revert n buf c1. induction fuel as [|fuel IH]; intros n buf c1 Hf Hp Hl.
  - destruct n as [|n]; [|lia]. by exists buf, c1.
  - destruct n as [|n]; [by exists buf, c1|].
    destruct (buf_read_some (S n) buf c1 c2 ltac:(done) Hp) as (b & buf1 & c1' & E & H1 & H2 & H3 & H4).
    { intros E. rewrite E in Hl. simpl in Hl. lia. }
    assert (1 <= length b)%nat by (destruct b; [done|simpl; lia]).
    destruct (IH (S n - length b)%nat buf1 c1') as (buf2 & c1'' & E2 & H5 & H6).
    { lia. } { done. }
    { rewrite H3 in Hl. rewrite app_length in Hl. lia. }
    exists buf2, c1''. cbn [read_full]. rewrite E, E2. split; [|split; [|done]].
    + rewrite H3. by rewrite (take_app_ge b) by lia.
    + rewrite H5, H3. by rewrite (drop_app_ge b) by lia.
Qed.

Lemma conn_read_none n : n <> O -> conn_read n [] = (Err "EOF", []).
Proof. by destruct n. Qed.

Lemma buf_read_none n : n <> O -> exists e, buf_read n [] [] = (Err e, [], []).
Proof.
  intros Hn. unfold buf_read. destruct (buffer_size <=? n)%nat.
  - rewrite conn_read_none by done. by eexists.
  - rewrite conn_read_none by (unfold buffer_size; lia). by eexists.
Qed.

Lemma concat_nil (c : conn) : pieces c -> concat c = [] -> c = [].
Proof. intros Hp H. destruct Hp as [|p c Hp _]; [done|]. by destruct p. Qed.

Lemma read_full_none fuel n buf c :
  (n <= fuel)%nat -> pieces c -> (length (buf ++ concat c) < n)%nat ->
  exists e buf' c', read_full fuel n buf c = (Err e, buf', c').
Proof.
  revert n buf c. induction fuel as [|fuel IH]; intros n buf c Hf Hp Hl; [lia|].
  destruct n as [|n]; [lia|].
  destruct (buf ++ concat c) as [|x xs] eqn:E.
  - apply app_eq_nil in E as [-> E]. apply concat_nil in E; [|done]. subst c.
    destruct (buf_read_none (S n) ltac:(done)) as [e He]. cbn [read_full]. rewrite He. by eexists _, _, _.
  - destruct (buf_read_some (S n) buf c [] ltac:(done) Hp) as (b & buf1 & c1 & E1 & H1 & H2 & H3 & H4).
    { by rewrite E. }
    rewrite !app_nil_r in E1. rewrite E in H3.
    assert (1 <= length b)%nat by (destruct b; [done|simpl; lia]).
    assert (length (x :: xs) = length b + length (buf1 ++ concat c1))%nat as Hlen.
    { by rewrite H3, app_length. }
    destruct (IH (S n - length b)%nat buf1 c1) as (e & buf' & c' & E2); [lia|done|lia|].
    cbn [read_full]. rewrite E1, E2. by eexists _, _, _.
Qed.

Lemma be4_range l : length l = 4%nat -> 0 <= be_val 0 l < 2 ^ 32.
Proof. intros H. pose proof (be_val_range l) as Hr. rewrite H in Hr. exact Hr. Qed.

(** The outcome depends only on the bytes that will arrive. *)
Lemma read_stream_some c1 c2 :
  pieces c1 -> (4 <= length (concat c1))%nat ->
  let size := be_val 0 (take 4 (concat c1)) in
  size <= max_delegate_message ->
  size <= Z.of_nat (length (concat c1)) - 4 ->
  exists lost c1',
    read_stream (c1 ++ c2) = (Ok (take (Z.to_nat size) (drop 4 (concat c1))), c1' ++ c2) /\
    lost ++ concat c1' = drop (4 + Z.to_nat size) (concat c1) /\ pieces c1'.
Proof.
  intros Hp Hl size Hs1 Hs2. unfold read_stream.
  destruct (read_full_some 4 4 [] c1 c2) as (buf & c1' & E & H1 & H2); [lia|done|done|].
  rewrite E. cbn [app] in *. fold size. destruct (Z.ltb_spec max_delegate_message size); [lia|].
  assert (0 <= size) by (apply be4_range; rewrite take_length; lia).
  destruct (read_full_some (Z.to_nat size) (Z.to_nat size) buf c1' c2) as (buf2 & c1'' & E2 & H3 & H4);
    [lia|done| |].
  { rewrite H1, drop_length. lia. }
  rewrite E2. exists buf2, c1''. rewrite H1 in *. split; [done|]. split; [|done].
  rewrite H3. by rewrite drop_drop.
Qed.

Lemma read_stream_none c :
  pieces c ->
  (Z.of_nat (length (concat c)) < 4 \/
   max_delegate_message < be_val 0 (take 4 (concat c)) \/
   Z.of_nat (length (concat c)) - 4 < be_val 0 (take 4 (concat c))) ->
  is_err (read_stream c).1 = true.
Proof.
  intros Hp Hcase. unfold read_stream.
  destruct (decide (length (concat c) < 4)%nat) as [Hl|Hl].
  - destruct (read_full_none 4 4 [] c) as (e & buf & c' & E); [lia|done|done|]. by rewrite E.
  - destruct (read_full_some 4 4 [] c []) as (buf & c' & E & H1 & H2); [lia|done|simpl; lia|].
    rewrite !app_nil_r in E. rewrite E. cbn [app] in *.
    set (size := be_val 0 (take 4 (concat c))) in *.
    destruct (Z.ltb_spec max_delegate_message size); [done|].
    destruct (read_full_none (Z.to_nat size) (Z.to_nat size) buf c') as (e & buf2 & c'' & E2);
      [lia|done| |by rewrite E2].
    rewrite H1, drop_length. lia.
Qed.

Lemma read_stream_cases c :
  pieces c ->
  (exists m lost c', read_stream c = (Ok m, c') /\ pieces c' /\
     Z.of_nat (length m) <= max_delegate_message /\
     concat c = be_bytes 4 (Z.of_nat (length m)) ++ m ++ lost ++ concat c') \/
  is_err (read_stream c).1 = true.
Proof.
  intros Hp.
  destruct (decide (length (concat c) < 4)%nat) as [Hl|Hl].
  { right. apply read_stream_none; [done|lia]. }
  set (size := be_val 0 (take 4 (concat c))).
  destruct (decide (size <= max_delegate_message)) as [H1|H1].
  2: { right. apply read_stream_none; [done|]. fold size. lia. }
  destruct (decide (size <= Z.of_nat (length (concat c)) - 4)) as [H2|H2].
  2: { right. apply read_stream_none; [done|]. fold size. lia. }
  left. destruct (read_stream_some c [] Hp ltac:(lia) H1 H2) as (lost & c' & E & H3 & H4).
  rewrite !app_nil_r in E. fold size in E, H3.
  assert (0 <= size) by (apply be4_range; rewrite take_length; lia).
  eexists _, lost, c'. split; [exact E|]. split; [done|].
  assert (Z.of_nat (length (take (Z.to_nat size) (drop 4 (concat c)))) = size) as Hlen.
  { rewrite take_length, drop_length. lia. }
  split; [lia|]. rewrite Hlen, H3.
  rewrite <- drop_drop. rewrite take_drop.
  assert (be_bytes 4 size = take 4 (concat c)) as ->; [|by rewrite take_drop].
  unfold size. rewrite <- (be_bytes_val (take 4 (concat c))) at 2.
  rewrite take_length. by rewrite Nat.min_l by lia.
Qed.

(** * Writing *)

Lemma be4_val n : 0 <= n < 2 ^ 32 -> be_val 0 (be_bytes 4 n) = n.
Proof. intros H. rewrite be_val_bytes. by apply Z.mod_small. Qed.

Lemma frame_size m rest :
  Z.of_nat (length m) < 2 ^ 32 ->
  be_val 0 (take 4 (be_bytes 4 (Z.of_nat (length m)) ++ m ++ rest)) = Z.of_nat (length m).
Proof.
  intros H. rewrite take_app_length by (by rewrite be_bytes_length). apply be4_val. lia.
Qed.

(** * TCP *)

Lemma padded_full n b : length b = n -> padded n b = b.
Proof. intros <-. unfold padded. rewrite Nat.sub_diag. by rewrite app_nil_r. Qed.

Lemma padded_length n b : (length b <= n)%nat -> length (padded n b) = n.
Proof. intros H. unfold padded. rewrite app_length, replicate_length. lia. Qed.

(** The header arrives in one piece, alone or with (part of) the body: what the
    next read brings ([b]) is taken for the whole body. *)
Lemma read_conn_frame limit h b c1 :
  length h = 4%nat -> b <> [] ->
  let size := be_val 0 h in
  size <> 0 -> match limit with Some lim => size <= lim | None => True end ->
  forall c, c = (h ++ b) :: c1 \/ c = h :: b :: c1 ->
  exists c', read_conn limit c = (Ok (padded (Z.to_nat size) (take (Z.to_nat size) b)), c') /\
    concat c' = drop (Z.to_nat size) b ++ concat c1.
Proof.
  intros Hh Hb size Hs Hlim c Hc. unfold read_conn.
  pose proof (be4_range h Hh) as Hr. fold size in Hr.
  assert (match drop 4 (h ++ b) with [] => c1 | rest => rest :: c1 end = b :: c1) as Hd1.
  { rewrite drop_app_length by done. by destruct b. }
  assert (conn_read 4 c = (Ok h, b :: c1)) as Hread.
  { destruct Hc as [-> | ->]; cbn [conn_read].
    - rewrite Hd1. by rewrite take_app_length by done.
    - rewrite drop_ge by lia. by rewrite take_ge by lia. }
  rewrite Hread. rewrite (padded_full 4 h) by done. fold size.
  assert (match limit with Some lim => lim <? size | None => false end = false) as ->.
  { destruct limit as [lim|]; [|done]. apply Z.ltb_ge. done. }
  destruct (Z.to_nat size) as [|n] eqn:En; [lia|]. cbn [conn_read].
  eexists. split; [reflexivity|]. by destruct (drop (S n) b).
Qed.

(** The header arrives in one piece and announces too much. *)
Lemma read_conn_too_large lim h b c1 :
  length h = 4%nat -> lim < be_val 0 h ->
  is_err (read_conn (Some lim) ((h ++ b) :: c1)).1 = true /\
  concat (read_conn (Some lim) ((h ++ b) :: c1)).2 = b ++ concat c1.
Proof.
  intros Hh Hlim. unfold read_conn. cbn [conn_read].
  rewrite take_app_length, drop_app_length by done. rewrite padded_full by done.
  destruct (Z.ltb_spec lim (be_val 0 h)); [|lia]. by destruct b.
Qed.

(** More than the limit is never accepted, whatever the pieces. *)
Lemma read_conn_limit lim c m c' :
  read_conn (Some lim) c = (Ok m, c') -> Z.of_nat (length m) <= lim.
Proof.
  unfold read_conn. destruct (conn_read 4 c) as [[h| |] c1] eqn:E1; try done.
  set (size := be_val 0 (padded 4 h)).
  destruct (Z.ltb_spec lim size); [done|].
  destruct (conn_read (Z.to_nat size) c1) as [[b| |] c2] eqn:E2; try done.
  intros [= <- <-].
  assert (length b <= Z.to_nat size)%nat.
  { destruct (Z.to_nat size); cbn [conn_read] in E2; [by injection E2 as <- _|].
    destruct c1; [done|]. injection E2 as <- _. rewrite take_length. lia. }
  rewrite padded_length by done.
  assert (length h <= 4)%nat.
  { cbn [conn_read] in E1. destruct c; [done|]. injection E1 as <- _. rewrite take_length. lia. }
  pose proof (be4_range (padded 4 h) ltac:(by apply padded_length)). lia.
Qed.

Lemma padded_same n m :
  (n <= length m)%nat ->
  padded (length m) (take n m) = m <-> drop n m = replicate (length m - n) (z2b 0).
Proof.
  intros Hn. unfold padded. rewrite take_length, Nat.min_l by lia. split.
  - intros H. rewrite <- (take_drop n m) in H at 3. by apply app_inv_head in H.
  - intros H. rewrite <- H. apply take_drop.
Qed.
