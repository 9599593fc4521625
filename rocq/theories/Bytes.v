(** Bytes and byte strings. A Go [byte] is an [ascii], a [[]byte] a list of them,
    a Go [string] a Coq [string]. Nothing here models a function of /repo. *)
From Coq Require Import ZArith NArith List String Ascii Lia.
From stdpp Require Import base tactics list strings.
From Verif Require Import GoBase.
Open Scope Z_scope.

(** No counterpart in /repo. *)
Notation byte := ascii.
(** No counterpart in /repo. *)
Notation bytes := (list ascii).

(** No counterpart in /repo. *)
Definition b2z (b : byte) : Z := Z.of_N (N_of_ascii b).
(** No counterpart in /repo. *)
Definition z2b (z : Z) : byte := ascii_of_N (Z.to_N (z mod 256)).

(** No counterpart in /repo. *)
Notation bytes_of := list_ascii_of_string.
(** No counterpart in /repo. *)
Notation string_of := string_of_list_ascii.

Lemma N_of_ascii_bound b : (N_of_ascii b < 256)%N.
Proof. by apply N_ascii_bounded. Qed.

Lemma b2z_range b : 0 <= b2z b < 256.
Proof. unfold b2z. pose proof (N_of_ascii_bound b). lia. Qed.

Lemma b2z_z2b z : b2z (z2b z) = z mod 256.
Proof.
  unfold b2z, z2b. pose proof (Z.mod_pos_bound z 256).
  rewrite N_ascii_embedding by lia. lia.
Qed.

Lemma b2z_z2b_id z : 0 <= z < 256 -> b2z (z2b z) = z.
Proof. intros. rewrite b2z_z2b. by apply Z.mod_small. Qed.

Lemma z2b_b2z b : z2b (b2z b) = b.
Proof.
  unfold b2z, z2b. pose proof (N_of_ascii_bound b).
  rewrite Z.mod_small by lia. rewrite N2Z.id. apply ascii_N_embedding.
Qed.

Lemma b2z_inj a b : b2z a = b2z b -> a = b.
Proof. intros E. rewrite <- (z2b_b2z a), <- (z2b_b2z b). by rewrite E. Qed.

Lemma z2b_mod z : z2b (z mod 256) = z2b z.
Proof. unfold z2b. by rewrite Zmod_mod. Qed.

Lemma bytes_string s : string_of (bytes_of s) = s.
Proof. apply string_of_list_ascii_of_string. Qed.
Lemma string_bytes l : bytes_of (string_of l) = l.
Proof. apply list_ascii_of_string_of_list_ascii. Qed.

Lemma bytes_of_inj s t : bytes_of s = bytes_of t -> s = t.
Proof. intros E. rewrite <- (bytes_string s), <- (bytes_string t). by rewrite E. Qed.

Lemma bytes_of_app s t : bytes_of (s ++ t)%string = bytes_of s ++ bytes_of t.
Proof.
  induction s as [|c s IH]; [done|].
  change (String c s ++ t)%string with (String c (s ++ t)%string). cbn [list_ascii_of_string].
  rewrite IH. done.
Qed.

(** Big-endian value of a byte string, and the [n]-byte big-endian form of a number
    (encoding/binary.BigEndian). (No counterpart in /repo.) *)
Fixpoint be_val (acc : Z) (l : bytes) : Z :=
  match l with
  | [] => acc
  | b :: l' => be_val (acc * 256 + b2z b) l'
  end.

(** No counterpart in /repo. *)
Fixpoint be_bytes (n : nat) (z : Z) : bytes :=
  match n with
  | O => []
  | S n' => be_bytes n' (z / 256) ++ [z2b z]
  end.

Lemma be_bytes_length n z : length (be_bytes n z) = n.
Proof.
  revert z. induction n as [|n IH]; intros z; [done|]. simpl. rewrite app_length, IH. simpl. lia.
Qed.

Lemma be_val_app acc l1 l2 : be_val acc (l1 ++ l2) = be_val (be_val acc l1) l2.
Proof. revert acc. induction l1 as [|b l1 IH]; intros acc; [done|]. simpl. apply IH. Qed.

Lemma be_val_acc acc l : be_val acc l = acc * 256 ^ Z.of_nat (length l) + be_val 0 l.
Proof.
  revert acc. induction l as [|b l IH]; intros acc; [simpl; lia|].
  cbn [be_val length]. rewrite (IH (acc * 256 + b2z b)), (IH (0 * 256 + b2z b)).
  rewrite Nat2Z.inj_succ, Z.pow_succ_r by lia. lia.
Qed.

Lemma be_val_range l : 0 <= be_val 0 l < 256 ^ Z.of_nat (length l).
Proof.
  induction l as [|b l IH]; [simpl; lia|].
  cbn [be_val length]. rewrite be_val_acc. rewrite Nat2Z.inj_succ, Z.pow_succ_r by lia.
  pose proof (b2z_range b). nia.
Qed.

Lemma be_val_bytes n z : be_val 0 (be_bytes n z) = z mod 256 ^ Z.of_nat n.
Proof.
  revert z. induction n as [|n IH]; intros z; [simpl; by rewrite Z.mod_1_r|].
  cbn [be_bytes]. rewrite be_val_app, IH. cbn [be_val]. rewrite b2z_z2b.
  rewrite Nat2Z.inj_succ, Z.pow_succ_r by lia.
  assert (0 < 256 ^ Z.of_nat n) by lia.
  rewrite (Z.rem_mul_r z 256) by lia. lia.
Qed.

Lemma be_bytes_val l : be_bytes (length l) (be_val 0 l) = l.
Proof.
  induction l as [|b l IH] using rev_ind; [done|].
  rewrite app_length, Nat.add_1_r. cbn [be_bytes].
  rewrite be_val_app. cbn [be_val]. pose proof (b2z_range b).
  replace ((be_val 0 l * 256 + b2z b) / 256) with (be_val 0 l).
  - rewrite IH. f_equal. f_equal. rewrite <- z2b_mod.
    replace ((be_val 0 l * 256 + b2z b) mod 256) with (b2z b); [apply z2b_b2z|].
    rewrite Z.add_comm, Z_mod_plus_full. by rewrite Z.mod_small.
  - rewrite Z.add_comm, Z_div_plus_full by lia. rewrite Z.div_small; lia.
Qed.

Lemma take_app_length {A} (l k : list A) n : n = length l -> take n (l ++ k) = l.
Proof. intros ->. apply take_app. Qed.
Lemma drop_app_length {A} (l k : list A) n : n = length l -> drop n (l ++ k) = k.
Proof. intros ->. apply drop_app. Qed.
