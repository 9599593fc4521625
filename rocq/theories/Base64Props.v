(** Properties of the base64 text of signatures (C92). *)
From Coq Require Import ZArith NArith List String Ascii Lia.
From stdpp Require Import base tactics gmap list strings pretty.
From Verif Require Import GoBase Bytes WireModel ProtoModel HexModel CryptoModel CryptoProofs CryptoProps PorModel PorProps KeyModel KeyProps Base64Model.
Open Scope string_scope.
Open Scope list_scope.
Open Scope Z_scope.

(** * What a base64 text is *)

(** The characters, each standing for the number of its place. *)
Definition characters : string :=
  "ABCDEFGHIJKLMNOPQRSTUVWXYZabcdefghijklmnopqrstuvwxyz0123456789+/".

(** The six bits of a number, highest first. *)
Definition six (v : Z) : list bool := map (Z.testbit v) [5; 4; 3; 2; 1; 0].

(** The character [c] stands for the six bits [l]. *)
Definition stands_for (c : byte) (l : list bool) : Prop :=
  exists n, String.get n characters = Some c /\ l = six (Z.of_nat n).

(** The characters [t] spell the bytes [b]: [t] is a number of characters of the alphabet
    and at most two "=" that fill them up to a multiple of four; the bits the characters
    stand for, in order, are the bits of [b] and then [unused], two for each "=". *)
Definition spells (t b : bytes) (unused : list bool) : Prop :=
  exists ds groups k m,
    t = ds ++ replicate k (ascii_of_nat 61) /\ (k <= 2)%nat /\ (length ds + k = 4 * m)%nat /\
    Forall2 stands_for ds groups /\
    concat groups = concat (map byte_bits b) ++ unused /\ length unused = (2 * k)%nat.

(** The text without line feeds and carriage returns. *)
Definition without_newlines (s : string) : bytes :=
  List.filter (fun c => negb (Ascii.eqb c (ascii_of_nat 10) || Ascii.eqb c (ascii_of_nat 13))) (bytes_of s).

(** * Lemmas *)

Lemma value_stands c v : b64_value c = Some v -> 0 <= v < 64 /\ stands_for c (six v).
Proof.
  intros H.
  assert (0 <= v < 64 /\ String.get (Z.to_nat v) characters = Some c) as [Hv Hg].
  { destruct c as [[] [] [] [] [] [] [] []]; vm_compute in H; (discriminate H || (injection H as <-; split; [lia|reflexivity])). }
  split; [done|]. exists (Z.to_nat v). split; [done|]. by rewrite Z2Nat.id by lia.
Qed.

Lemma get_bound n s c : String.get n s = Some c -> (n < String.length s)%nat.
Proof. revert n. induction s as [|a s IH]; intros [|n]; cbn; try done; [lia|]. intros H. apply IH in H. lia. Qed.

Lemma get_value n c : String.get n characters = Some c -> b64_value c = Some (Z.of_nat n).
Proof.
  intros H. pose proof (get_bound _ _ _ H) as Hn. change (String.length characters) with 64%nat in Hn.
  do 64 (destruct n as [|n]; [vm_compute in H; injection H as <-; vm_compute; reflexivity|]). lia.
Qed.

Lemma stands_value c l : stands_for c l -> exists v, b64_value c = Some v /\ 0 <= v < 64 /\ l = six v.
Proof.
  intros (n & Hg & ->). pose proof (get_value _ _ Hg) as Hv. exists (Z.of_nat n).
  split; [done|]. split; [|done]. by apply value_stands in Hv as [? _].
Qed.

Lemma stands_det c l l' : stands_for c l -> stands_for c l' -> l = l'.
Proof. intros (v & H & _ & ->)%stands_value (v' & H' & _ & ->)%stands_value. congruence. Qed.

Lemma pairs (f g : Z -> Z -> list bool) :
  forallb (fun n => forallb (fun m => bool_decide (f (Z.of_nat n) (Z.of_nat m) = g (Z.of_nat n) (Z.of_nat m))) (seq 0 64))
    (seq 0 64) = true ->
  forall x y, 0 <= x < 64 -> 0 <= y < 64 -> f x y = g x y.
Proof.
  intros H x y Hx Hy. rewrite forallb_forall in H.
  specialize (H (Z.to_nat x)). rewrite forallb_forall in H.
  replace x with (Z.of_nat (Z.to_nat x)) by lia. replace y with (Z.of_nat (Z.to_nat y)) by lia.
  apply (bool_decide_eq_true_1 _), H; apply in_seq; lia.
Qed.

Lemma byte1 x y : 0 <= x < 64 -> 0 <= y < 64 -> byte_bits (z2b (4 * x + y / 16)) = six x ++ take 2 (six y).
Proof.
  intros Hx Hy.
  apply (pairs (fun x y => byte_bits (z2b (4 * x + y / 16))) (fun x y => six x ++ take 2 (six y))); [|done..].
  vm_compute. done.
Qed.

Lemma byte2 y z : 0 <= y < 64 -> 0 <= z < 64 ->
  byte_bits (z2b (y mod 16 * 16 + z / 4)) = drop 2 (six y) ++ take 4 (six z).
Proof.
  intros Hx Hy.
  apply (pairs (fun y z => byte_bits (z2b (y mod 16 * 16 + z / 4))) (fun y z => drop 2 (six y) ++ take 4 (six z))); [|done..].
  vm_compute. done.
Qed.

Lemma byte3 z w : 0 <= z < 64 -> 0 <= w < 64 ->
  byte_bits (z2b (z mod 4 * 64 + w)) = drop 4 (six z) ++ six w.
Proof.
  intros Hx Hy.
  apply (pairs (fun z w => byte_bits (z2b (z mod 4 * 64 + w))) (fun z w => drop 4 (six z) ++ six w)); [|done..].
  vm_compute. done.
Qed.

Lemma b64_bytes_eq x y z w : 0 <= x < 64 -> 0 <= y < 64 -> 0 <= z < 64 -> 0 <= w < 64 ->
  b64_bytes x y z w = [z2b (4 * x + y / 16); z2b (y mod 16 * 16 + z / 4); z2b (z mod 4 * 64 + w)].
Proof.
  intros. unfold b64_bytes. cbv zeta.
  rewrite <- (z2b_mod ((262144 * x + 4096 * y + 64 * z + w) / 256)), <- (z2b_mod (262144 * x + 4096 * y + 64 * z + w)).
  pose proof (Z.div_mod y 16 ltac:(lia)) as Ey. pose proof (Z.mod_pos_bound y 16 ltac:(lia)).
  pose proof (Z.div_mod z 4 ltac:(lia)) as Ez. pose proof (Z.mod_pos_bound z 4 ltac:(lia)).
  set (y1 := y / 16) in *. set (y2 := y mod 16) in *. set (z1 := z / 4) in *. set (z2 := z mod 4) in *.
  f_equal; [|f_equal; [|f_equal] ]; f_equal.
  - symmetry. apply (Z.div_unique _ _ _ (4096 * y2 + 64 * z + w)); lia.
  - rewrite <- (Z.div_unique (262144 * x + 4096 * y + 64 * z + w) 256 (1024 * x + 16 * y + z1) (64 * z2 + w)) by lia.
    symmetry. apply (Z.mod_unique _ _ (4 * x + y1)); lia.
  - symmetry. apply (Z.mod_unique _ _ (1024 * x + 16 * y + z1)); lia.
Qed.

Lemma six_cut k v : take k (six v) ++ drop k (six v) = six v.
Proof. apply take_drop. Qed.

Lemma quantum x y z w : 0 <= x < 64 -> 0 <= y < 64 -> 0 <= z < 64 -> 0 <= w < 64 ->
  concat (map byte_bits (b64_bytes x y z w)) = six x ++ six y ++ six z ++ six w.
Proof.
  intros. rewrite b64_bytes_eq by done. cbn [map concat]. rewrite byte1, byte2, byte3 by done.
  rewrite app_nil_r. rewrite <- (six_cut 2 y) at 3. rewrite <- (six_cut 4 z) at 3. by rewrite <- !app_assoc.
Qed.

Lemma pad_value : b64_value (ascii_of_nat 61) = None.
Proof. reflexivity. Qed.

Lemma b2z_61 c : (b2z c =? 61) = true -> c = ascii_of_nat 61.
Proof. intros H. apply Z.eqb_eq in H. by apply b2z_inj. Qed.

Lemma read_spells n : forall t b, (length t <= n)%nat -> b64_read t = Some b -> exists u, spells t b u.
Proof.
  induction n as [|n IH]; intros t b Hn H.
  { destruct t; [|cbn in Hn; lia]. injection H as <-. exists []. exists [], [], 0%nat, 0%nat. repeat split; try done. lia. }
  destruct t as [|c1 [|c2 [|c3 [|c4 t]]]]; try done.
  { injection H as <-. exists []. exists [], [], 0%nat, 0%nat. repeat split; try done. lia. }
  cbn [b64_read] in H.
  destruct (b64_value c1) as [x|] eqn:E1; [|done]. destruct (b64_value c2) as [y|] eqn:E2; [|done].
  apply value_stands in E1 as [Hx S1]. apply value_stands in E2 as [Hy S2].
  destruct (b64_value c3) as [z|] eqn:E3.
  - apply value_stands in E3 as [Hz S3]. destruct (b64_value c4) as [w|] eqn:E4.
    + apply value_stands in E4 as [Hw S4].
      destruct (b64_read t) as [l|] eqn:El; [|done]. injection H as <-.
      cbn [length] in Hn. destruct (IH t l) as (u & ds & gs & k & m & -> & Hk & Hm & HF & HC & HU); [lia|done|].
      exists u, (c1 :: c2 :: c3 :: c4 :: ds), (six x :: six y :: six z :: six w :: gs), k, (S m).
      repeat split; [done|cbn [length]; lia| | |done].
      * by repeat constructor.
      * cbn [concat]. rewrite HC.
        transitivity (concat (map byte_bits (b64_bytes x y z w)) ++ concat (map byte_bits l) ++ u).
        -- rewrite quantum by done. by rewrite <- !app_assoc.
        -- rewrite app_assoc, <- concat_app, <- map_app. done.
    + destruct (b2z c4 =? 61) eqn:P4; [|done]. destruct t; [|done]. cbn [Nat.eqb andb length] in H. apply (inj Some) in H as <-.
      apply b2z_61 in P4 as ->. exists (drop 4 (six z)), [c1; c2; c3], [six x; six y; six z], 1%nat, 1%nat.
      repeat split; [lia|by repeat constructor| ].
      rewrite b64_bytes_eq by lia. cbn [take map concat]. rewrite byte1, byte2 by lia.
      rewrite !app_nil_r. rewrite <- (six_cut 2 y) at 1. rewrite <- (six_cut 4 z) at 1. by rewrite <- !app_assoc.
  - destruct (b2z c3 =? 61) eqn:P3; [|done]. destruct (b2z c4 =? 61) eqn:P4; [|done]. destruct t; [|done].
    cbn [Nat.eqb andb length] in H. apply (inj Some) in H as <-. apply b2z_61 in P3 as ->. apply b2z_61 in P4 as ->.
    exists (drop 2 (six y)), [c1; c2], [six x; six y], 2%nat, 1%nat.
    repeat split; [lia|by repeat constructor| ].
    rewrite b64_bytes_eq by lia. cbn [take map concat]. rewrite byte1 by lia. rewrite !app_nil_r.
    rewrite <- (six_cut 2 y) at 1. by rewrite <- !app_assoc.
Qed.

Lemma spells_read t b u : spells t b u -> is_Some (b64_read t).
Proof.
  intros (ds & gs & k & m & -> & Hk & Hm & HF & _). revert ds gs Hm HF.
  induction m as [|m IH]; intros ds gs Hm HF.
  { destruct ds; [|cbn in Hm; lia]. destruct k; [|lia]. cbn. by eexists. }
  destruct HF as [|c1 l1 ds gs S1 HF]; [cbn in Hm; lia|].
  destruct HF as [|c2 l2 ds gs S2 HF]; [cbn in Hm; lia|].
  apply stands_value in S1 as (x & E1 & _). apply stands_value in S2 as (y & E2 & _).
  destruct HF as [|c3 l3 ds gs S3 HF].
  { cbn [length] in Hm. assert (k = 2)%nat as -> by lia. cbn -[b64_bytes]. rewrite E1, E2. by eexists. }
  apply stands_value in S3 as (z & E3 & _).
  destruct HF as [|c4 l4 ds gs S4 HF].
  { cbn [length] in Hm. assert (k = 1)%nat as -> by lia. cbn -[b64_bytes]. rewrite E1, E2, E3. by eexists. }
  apply stands_value in S4 as (w & E4 & _).
  destruct (IH ds gs) as [l Hl]; [cbn [length] in Hm; lia|done|].
  cbn [app b64_read]. rewrite E1, E2, E3, E4, Hl. by eexists.
Qed.

Lemma pad_split ds gs k ds' gs' k' :
  Forall2 stands_for ds gs -> Forall2 stands_for ds' gs' ->
  ds ++ replicate k (ascii_of_nat 61) = ds' ++ replicate k' (ascii_of_nat 61) -> ds = ds' /\ k = k' /\ gs = gs'.
Proof.
  intros H. revert ds' gs'. induction H as [|c l ds gs S1 HF IH]; intros ds' gs' H' E.
  - destruct H' as [|c' l' ds' gs' S1' HF'].
    + repeat split. apply (f_equal length) in E. cbn in E. by rewrite !replicate_length in E.
    + destruct k; [done|]. cbn in E. injection E as <- _. by apply stands_value in S1' as (? & ? & _).
  - destruct H' as [|c' l' ds' gs' S1' HF'].
    + destruct k'; [done|]. cbn in E. injection E as -> _. by apply stands_value in S1 as (? & ? & _).
    + cbn in E. injection E as <- E. destruct (IH _ _ HF' E) as (-> & -> & ->).
      by rewrite (stands_det _ _ _ S1 S1').
Qed.

Lemma spells_det t b u b' u' : spells t b u -> spells t b' u' -> b = b' /\ u = u'.
Proof.
  intros (ds & gs & k & m & -> & _ & _ & HF & HC & HU) (ds' & gs' & k' & m' & E & _ & _ & HF' & HC' & HU').
  destruct (pad_split _ _ _ _ _ _ HF HF' E) as (-> & -> & ->). rewrite HC in HC'.
  pose proof (f_equal length HC') as L. rewrite !app_length, !concat_bits_length in L.
  apply app_inj_1 in HC' as [H1 H2]; [|rewrite !concat_bits_length; lia].
  split; [|done]. apply concat_bits_inj; [lia|done].
Qed.

Lemma same_filter s : without_newlines s = List.filter (fun c => negb (b64_newline c)) (bytes_of s).
Proof.
  unfold without_newlines. apply filter_ext. intros c. f_equal. unfold b64_newline.
  f_equal; apply eq_true_iff_eq; rewrite Ascii.eqb_eq, Z.eqb_eq; (split; [intros ->; reflexivity|intros H; by apply b2z_inj]).
Qed.

(** * C92 *)

(** DecodeString reads exactly the texts that, newlines left out, spell some bytes; the
    unused bits can be any. *)
Theorem C92_read s b : base64_decode s = Some b <-> exists unused, spells (without_newlines s) b unused.
Proof.
  unfold base64_decode. rewrite <- same_filter. split.
  - intros H. by eapply read_spells.
  - intros [u H]. destruct (spells_read _ _ _ H) as [b' Hb]. rewrite Hb. f_equal.
    destruct (read_spells _ _ _ (le_n _) Hb) as [u' H']. by destruct (spells_det _ _ _ _ _ H' H).
Qed.
Print Assumptions C92_read.

Lemma six_bits v : 0 <= v < 64 -> bits_val (six v) = v.
Proof.
  intros Hv. assert (forallb (fun n => bits_val (six (Z.of_nat n)) =? Z.of_nat n) (seq 0 64) = true) as H by (vm_compute; done).
  rewrite forallb_forall in H. specialize (H (Z.to_nat v)). rewrite Z2Nat.id in H by lia.
  apply Z.eqb_eq, H, in_seq. lia.
Qed.

Lemma stands_inj c c' l : stands_for c l -> stands_for c' l -> c = c'.
Proof.
  intros (n & G & ->) (n' & G' & E).
  pose proof (get_bound _ _ _ G) as B. pose proof (get_bound _ _ _ G') as B'.
  change (String.length characters) with 64%nat in B, B'.
  apply (f_equal bits_val) in E. rewrite !six_bits in E by lia. apply Nat2Z.inj in E as ->. congruence.
Qed.

Lemma stands_length c l : stands_for c l -> length l = 6%nat.
Proof. by intros (n & _ & ->). Qed.

Lemma digits_inj ds gs ds' gs' :
  Forall2 stands_for ds gs -> Forall2 stands_for ds' gs' -> concat gs = concat gs' -> ds = ds'.
Proof.
  intros H. revert ds' gs'. induction H as [|c l ds gs S1 HF IH]; intros ds' gs' H' E.
  - destruct H' as [|c' l' ds' gs' S1' HF']; [done|]. cbn in E. apply stands_length in S1'. by destruct l'.
  - destruct H' as [|c' l' ds' gs' S1' HF']; [cbn in E; apply stands_length in S1; by destruct l|].
    cbn [concat] in E. apply app_inj_1 in E as [-> E]; [|by rewrite (stands_length _ _ S1), (stands_length _ _ S1')].
    f_equal; [by eapply stands_inj|by eapply IH].
Qed.

Lemma spells_inj t t' b u : spells t b u -> spells t' b u -> t = t'.
Proof.
  intros (ds & gs & k & m & -> & _ & _ & HF & HC & HU) (ds' & gs' & k' & m' & -> & _ & _ & HF' & HC' & HU').
  assert (k = k') as -> by lia. f_equal. eapply digits_inj; [done..|]. congruence.
Qed.

Lemma six_some a b c d e f : exists x, stands_for x [a; b; c; d; e; f].
Proof.
  set (v := bits_val [a; b; c; d; e; f]).
  exists (match String.get (Z.to_nat v) characters with Some x => x | None => ascii_of_nat 0 end).
  exists (Z.to_nat v). by destruct a, b, c, d, e, f.
Qed.

Lemma digits_some n : forall l, length l = (6 * n)%nat ->
  exists ds gs, Forall2 stands_for ds gs /\ concat gs = l /\ length ds = n.
Proof.
  induction n as [|n IH]; intros l Hl.
  { destruct l; [|cbn in Hl; lia]. by exists [], []. }
  destruct l as [|a [|b [|c [|d [|e [|f l]]]]]]; cbn [length] in Hl; try lia.
  destruct (IH l) as (ds & gs & HF & HC & HL); [lia|]. destruct (six_some a b c d e f) as [x Hx].
  exists (x :: ds), ([a; b; c; d; e; f] :: gs). split; [by constructor|]. cbn. by rewrite HC, HL.
Qed.

Lemma spells_clean s b u : spells (bytes_of s) b u -> without_newlines s = bytes_of s.
Proof.
  intros H. pose proof H as (ds & gs & k & m & E & _ & _ & HF & _). unfold without_newlines. rewrite E.
  rewrite List.filter_app. f_equal.
  - clear -HF. induction HF as [|c l ds gs S1 HF IH]; [done|]. cbn [List.filter]. rewrite IH.
    apply stands_value in S1 as (v & Hv & _).
    destruct (Ascii.eqb_spec c (ascii_of_nat 10)) as [->|]; [done|].
    by destruct (Ascii.eqb_spec c (ascii_of_nat 13)) as [->|].
  - clear. induction k as [|k IH]; [done|]. cbn [replicate]. cbn [List.filter]. by rewrite IH.
Qed.

(** The number of "=" behind [n] bytes. *)
Definition fill (n : nat) : nat := ((3 - n mod 3) mod 3)%nat.

Lemma fill_spec n : exists q r, (n = 3 * q + r)%nat /\
  (r = 0 /\ fill n = 0 \/ r = 1 /\ fill n = 2 \/ r = 2 /\ fill n = 1)%nat.
Proof.
  exists (n / 3)%nat, (n mod 3)%nat. split; [by apply Nat.div_mod|].
  pose proof (Nat.mod_upper_bound n 3 ltac:(lia)). unfold fill.
  destruct (n mod 3)%nat as [|[|[|]]]; [auto..|lia].
Qed.

(** Bytes whose number is no multiple of three have more than one text: for each choice of
    the unused bits there is exactly one without newlines. *)
Theorem C92_texts b unused : length unused = (2 * fill (length b))%nat ->
  exists s, without_newlines s = bytes_of s /\ spells (bytes_of s) b unused /\
    forall s', spells (bytes_of s') b unused -> s' = s.
Proof.
  intros Hu. destruct (fill_spec (length b)) as (q & r & Hb & Hr).
  set (k := fill (length b)) in *.
  destruct (digits_some (4 * q + (if Nat.eqb r 0 then 0 else S r)) (concat (map byte_bits b) ++ unused))
    as (ds & gs & HF & HC & HL).
  { rewrite app_length, concat_bits_length. destruct Hr as [[-> E]|[[-> E]|[-> E]]]; cbn [Nat.eqb]; lia. }
  assert (spells (ds ++ replicate k (ascii_of_nat 61)) b unused) as HS.
  { exists ds, gs, k, (if Nat.eqb r 0 then q else S q). split; [done|].
    split; [destruct Hr as [[_ E]|[[_ E]|[_ E]]]; lia|]. split; [|done].
    destruct Hr as [[-> E]|[[-> E]|[-> E]]]; cbn [Nat.eqb] in *; lia. }
  exists (string_of (ds ++ replicate k (ascii_of_nat 61))). rewrite string_bytes.
  split; [|split; [done|]].
  - change (without_newlines (string_of (ds ++ replicate k (ascii_of_nat 61))) = ds ++ replicate k (ascii_of_nat 61)).
    rewrite (spells_clean _ b unused); by rewrite string_bytes.
  - intros s' H'. rewrite <- (spells_inj _ _ _ _ H' HS). symmetry. apply bytes_string.
Qed.
Print Assumptions C92_texts.

Lemma digit_stands v : 0 <= v < 64 -> stands_for (b64_digit v) (six v).
Proof.
  intros Hv. exists (Z.to_nat v). rewrite Z2Nat.id by lia. split; [|done]. unfold b64_digit.
  change b64_alphabet with characters. assert (Z.to_nat v < 64)%nat as Hn by lia.
  revert Hn. generalize (Z.to_nat v). intros n Hn.
  do 64 (destruct n as [|n]; [reflexivity|]). lia.
Qed.

Lemma bits4 x y z :
  six (b2z x / 4) ++ six (b2z x mod 4 * 16 + b2z y / 16) ++ six (b2z y mod 16 * 4 + b2z z / 64) ++ six (b2z z mod 64)
  = byte_bits x ++ byte_bits y ++ byte_bits z.
Proof.
  pose proof (b2z_range x). pose proof (b2z_range y). pose proof (b2z_range z).
  pose proof (Z.div_mod (b2z x) 4 ltac:(lia)). pose proof (Z.mod_pos_bound (b2z x) 4 ltac:(lia)).
  pose proof (Z.div_mod (b2z y) 16 ltac:(lia)). pose proof (Z.mod_pos_bound (b2z y) 16 ltac:(lia)).
  pose proof (Z.div_mod (b2z z) 64 ltac:(lia)). pose proof (Z.mod_pos_bound (b2z z) 64 ltac:(lia)).
  rewrite <- quantum by lia. unfold b64_bytes. cbv zeta.
  match goal with |- context [z2b ?v :: nil] => replace v with (65536 * b2z x + 256 * b2z y + b2z z) by lia end.
  rewrite <- (Z.div_unique (65536 * b2z x + 256 * b2z y + b2z z) 65536 (b2z x) (256 * b2z y + b2z z)) by lia.
  rewrite <- (Z.div_unique (65536 * b2z x + 256 * b2z y + b2z z) 256 (256 * b2z x + b2z y) (b2z z)) by lia.
  rewrite <- (z2b_mod (65536 * b2z x + 256 * b2z y + b2z z)), <- (z2b_mod (256 * b2z x + b2z y)).
  rewrite <- (Z.mod_unique (65536 * b2z x + 256 * b2z y + b2z z) 256 (256 * b2z x + b2z y) (b2z z)) by lia.
  rewrite <- (Z.mod_unique (256 * b2z x + b2z y) 256 (b2z x) (b2z y)) by lia.
  rewrite !z2b_b2z. cbn [map concat]. by rewrite app_nil_r.
Qed.

Lemma in64 x y z :
  0 <= b2z x / 4 < 64 /\ 0 <= b2z x mod 4 * 16 + b2z y / 16 < 64 /\
  0 <= b2z y mod 16 * 4 + b2z z / 64 < 64 /\ 0 <= b2z z mod 64 < 64.
Proof.
  pose proof (b2z_range x). pose proof (b2z_range y). pose proof (b2z_range z).
  pose proof (Z.div_mod (b2z x) 4 ltac:(lia)). pose proof (Z.mod_pos_bound (b2z x) 4 ltac:(lia)).
  pose proof (Z.div_mod (b2z y) 16 ltac:(lia)). pose proof (Z.mod_pos_bound (b2z y) 16 ltac:(lia)).
  pose proof (Z.div_mod (b2z z) 64 ltac:(lia)). pose proof (Z.mod_pos_bound (b2z z) 64 ltac:(lia)). lia.
Qed.

Lemma write_spells n : forall b, (length b <= n)%nat ->
  exists k, spells (b64_write b) b (replicate (2 * k) false).
Proof.
  induction n as [|n IH]; intros b Hb.
  { destruct b; [|cbn in Hb; lia]. exists 0%nat, [], [], 0%nat, 0%nat. repeat split; try done. lia. }
  destruct b as [|x [|y [|z b]]].
  - exists 0%nat, [], [], 0%nat, 0%nat. repeat split; try done. lia.
  - pose proof (bits4 x (z2b 0) (z2b 0)) as Q. destruct (in64 x (z2b 0) (z2b 0)) as (B1 & B2 & _).
    change (b2z (z2b 0)) with 0 in *. rewrite Zdiv_0_l, Z.add_0_r in *.
    exists 2%nat, [b64_digit (b2z x / 4); b64_digit (b2z x mod 4 * 16)],
      [six (b2z x / 4); six (b2z x mod 4 * 16)], 2%nat, 1%nat.
    split; [done|]. split; [lia|]. split; [done|].
    split; [repeat constructor; by apply digit_stands|]. split; [|done].
    cbn [map concat]. rewrite !app_nil_r.
    apply (app_inj_2 _ _ (six 0 ++ six 0) (six 0 ++ six 0)); [done|].
    rewrite <- !app_assoc. exact Q.
  - pose proof (bits4 x y (z2b 0)) as Q. destruct (in64 x y (z2b 0)) as (B1 & B2 & B3 & _).
    change (b2z (z2b 0)) with 0 in *. rewrite Zdiv_0_l, Z.add_0_r in *.
    exists 1%nat, [b64_digit (b2z x / 4); b64_digit (b2z x mod 4 * 16 + b2z y / 16); b64_digit (b2z y mod 16 * 4)],
      [six (b2z x / 4); six (b2z x mod 4 * 16 + b2z y / 16); six (b2z y mod 16 * 4)], 1%nat, 1%nat.
    split; [done|]. split; [lia|]. split; [done|].
    split; [repeat constructor; by apply digit_stands|]. split; [|done].
    cbn [map concat]. rewrite !app_nil_r.
    apply (app_inj_2 _ _ (six 0) (six 0)); [done|].
    rewrite <- !app_assoc. exact Q.
  - cbn [length] in Hb. destruct (IH b) as (k & ds & gs & k' & m & E & Hk & Hm & HF & HC & HU); [lia|].
    destruct (in64 x y z) as (B1 & B2 & B3 & B4). exists k. cbn [b64_write]. rewrite E.
    eexists (_ :: _ :: _ :: _ :: ds), (_ :: _ :: _ :: _ :: gs), k', (S m).
    split; [reflexivity|]. split; [done|]. split; [cbn [length]; lia|].
    split; [repeat (constructor; [by apply digit_stands|]); done|]. split; [|done].
    cbn [map concat]. rewrite HC. pose proof (bits4 x y z) as Q. rewrite !app_assoc in Q |- *. by rewrite Q.
Qed.

(** EncodeToString writes the one text without newlines whose unused bits are zero, and
    that is read back. *)
Theorem C92_written b s :
  s = base64_encode b <->
  exists unused, Forall (eq false) unused /\ spells (bytes_of s) b unused.
Proof.
  destruct (write_spells _ b (le_n _)) as [k Hk]. unfold base64_encode. split.
  - intros ->. rewrite string_bytes. eexists. split; [|done]. by apply Forall_replicate.
  - intros (u & Hu & Hs). rewrite <- (bytes_string s). f_equal. eapply spells_inj; [done|].
    assert (u = replicate (2 * k) false) as ->; [|done].
    destruct Hk as (ds & gs & k' & m & _ & Hk' & Hm & HF & HC & HU).
    destruct Hs as (ds1 & gs1 & k1 & m1 & _ & Hk1 & Hm1 & HF1 & HC1 & HU1).
    assert (forall ds gs, Forall2 stands_for ds gs -> length (concat gs) = 6 * length ds)%nat as L.
    { clear. intros ds gs H. induction H as [|c l ds gs S1 HF IH]; [done|]. cbn. rewrite app_length, IH, (stands_length _ _ S1). lia. }
    apply L in HF, HF1. rewrite HC, app_length, concat_bits_length in HF.
    rewrite HC1, app_length, concat_bits_length in HF1.
    assert (length u = 2 * k)%nat as Hl by (rewrite replicate_length in *; lia).
    clear -Hu Hl. rewrite <- Hl. clear Hl. induction Hu as [|x u <- Hu IH]; [done|]. cbn. by rewrite <- IH.
Qed.
Print Assumptions C92_written.

Theorem C92_read_back b : base64_decode (base64_encode b) = Some b.
Proof.
  destruct (proj1 (C92_written b _) eq_refl) as (u & _ & H). apply C92_read. exists u.
  by rewrite (spells_clean _ _ _ H).
Qed.
Print Assumptions C92_read_back.

(** * In records *)

(** A library whose base64 is Go's. *)
Definition go_base64 (P : prims) : Prop := forall s, p_base64 P s = base64_decode s.

(** The check of a record of a fetchai or cosmos agent goes by the bytes of its signature:
    any other text of the same bytes will do. *)
Theorem C92_record_texts P service ledger address key peer_key sig sig' nb na addr k :
  go_base64 P -> ledger <> "ethereum" -> base64_decode sig = base64_decode sig' ->
  is_valid_por P (Record_ service ledger address key peer_key sig nb na) addr k =
  is_valid_por P (Record_ service ledger address key peer_key sig' nb na) addr k.
Proof.
  intros HP Hl E. unfold is_valid_por. cbn [r_address r_ledger r_peer_key r_public_key r_signature].
  assert (forall m key, verify_fetchai P m sig key = verify_fetchai P m sig' key) as V.
  { intros. unfold verify_fetchai, parse_fetchai_signature. by rewrite !HP, E. }
  assert (verify_ledger P ledger (bytes_of peer_key) sig key = verify_ledger P ledger (bytes_of peer_key) sig' key) as ->; [|done].
  unfold verify_ledger. rewrite !V. by destruct (String.eqb_spec ledger "ethereum").
Qed.
Print Assumptions C92_record_texts.

(** In particular newlines can be put anywhere into the signature of an accepted record. *)
Theorem C92_record_newlines P service ledger address key peer_key sig sig' nb na addr k :
  go_base64 P -> ledger <> "ethereum" -> without_newlines sig' = without_newlines sig ->
  is_valid_por P (Record_ service ledger address key peer_key sig nb na) addr k = Ok (0, false) <->
  is_valid_por P (Record_ service ledger address key peer_key sig' nb na) addr k = Ok (0, false).
Proof.
  intros HP Hl E. rewrite (C92_record_texts P service ledger address key peer_key sig sig'); [done..|].
  unfold base64_decode. by rewrite <- !same_filter, E.
Qed.
Print Assumptions C92_record_newlines.

(** Not so: the signature text of an accepted record is the only one that proves what it
    proves. *)
Theorem C92_unique_refuted P service ledger address key peer_key sig nb na addr k :
  go_base64 P -> ledger <> "ethereum" ->
  is_valid_por P (Record_ service ledger address key peer_key sig nb na) addr k = Ok (0, false) ->
  exists sig', sig' <> sig /\
    is_valid_por P (Record_ service ledger address key peer_key sig' nb na) addr k = Ok (0, false).
Proof.
  intros HP Hl H. exists (String (ascii_of_nat 10) sig). split.
  { intros E. apply (f_equal String.length) in E. cbn in E. lia. }
  revert H. apply C92_record_newlines; [done..|]. reflexivity.
Qed.
Print Assumptions C92_unique_refuted.

(** What an agent signs with SignFetchAI, a node with Go's base64 reads as the bytes that
    were signed: nothing needs to be assumed about base64 in C74. *)
Theorem C92_signed pt P parse compress pub_of check sign key d p r s addr peer_key :
  go_base64 P -> agrees pt P parse check ->
  key_pair pt pub_of key = Ok (d, p) -> readable pt parse compress p ->
  signs pt P pub_of check sign d (bytes_of peer_key) r s ->
  (byte_len s = byte_len r \/ byte_len s = S (byte_len r)) ->
  agent_address P "fetchai" (key_text pt compress p) = Ok addr ->
  exists sig, sign_fetchai pt pub_of sign base64_encode (bytes_of peer_key) key = Ok sig /\
    forall service nb na,
      is_valid_por P (Record_ service "fetchai" addr (key_text pt compress p) peer_key sig nb na) addr peer_key
      = Ok (0, false).
Proof.
  intros HP. intros. eapply (C74_record pt P parse compress pub_of check sign base64_encode (fun _ => "")); try done.
  intros b. rewrite HP. apply C92_read_back.
Qed.
Print Assumptions C92_signed.

(** A text that spells two numbers of 32 bytes each is checked as that pair. *)
Theorem C92_fixed_width pt P parse check message sig unused text p r s :
  go_base64 P -> agrees pt P parse check -> strict_key pt parse text = Ok p ->
  0 < r < curve_n -> 0 < s < curve_n ->
  spells (without_newlines sig) (be_bytes 32 r ++ be_bytes 32 s) unused ->
  verify_fetchai P message sig text = Ok (check p r s (p_sha256 P message)).
Proof.
  intros HP HA Hp Hr Hs H.
  apply (C74_fixed_width pt P parse (fun _ => []) (fun _ => p) check (fun _ _ => None) (fun _ => "") (fun _ => "")); [done..|]. rewrite HP. apply C92_read. by exists unused.
Qed.
Print Assumptions C92_fixed_width.

(** The texts of RFC 4648, other texts of the same bytes, and texts that are refused. *)
Example C92_example :
  map (fun s => base64_encode (bytes_of s)) [""; "f"; "fo"; "foo"; "foob"; "fooba"; "foobar"]
  = [""; "Zg=="; "Zm8="; "Zm9v"; "Zm9vYg=="; "Zm9vYmE="; "Zm9vYmFy"] /\
  map base64_decode ["Zg=="; "Zh=="; "Zv=="; String.concat (String (ascii_of_nat 10) "") ["Z"; "g="; "="; ""] ]
  = repeat (Some (bytes_of "f")) 4 /\
  map base64_decode ["Zg"; "Zg="; "Zg==Zg=="; "Z==="; "Zg=a"; "Z_=="; " Zg=="; "===="] = repeat None 8.
Proof. vm_compute. done. Qed.

(** [toy] with Go's base64. *)
Definition toy64 : prims := {|
  p_sha256 := p_sha256 toy; p_ripemd160 := p_ripemd160 toy; p_keccak256 := p_keccak256 toy;
  p_base64 := base64_decode; p_key_ok := p_key_ok toy; p_verify := p_verify toy; p_recover := p_recover toy;
|}.

Example C92_record_example :
  go_base64 toy64 /\
  forall sig, In sig ["CgsMDXBlZXI="; "CgsMDXBlZXJ="; "CgsMDXBlZXK="; "CgsMDXBlZXL=";
                      String.concat (String (ascii_of_nat 13) "") ["CgsM"; "DXBlZXI"; "="] ] ->
  is_valid_por toy64 (Record_ "s" "fetchai" "fetch1pg9scrg8qurswpc8qurswpc8qurswpc80ay04q" "0A0b0c0D" "peer" sig "" "")
    "fetch1pg9scrg8qurswpc8qurswpc8qurswpc80ay04q" "peer" = Ok (0, false).
Proof.
  split; [done|]. intros sig H. cbn [In] in H. repeat destruct H as [<-|H]; [vm_compute; done..|done].
Qed.

Example C92_texts_example :
  length [true; false] = (2 * fill (length (bytes_of "foobarfo")))%nat /\
  base64_decode "Zm9vYmFyZm+=" = Some (bytes_of "foobarfo").
Proof. vm_compute. done. Qed.

(** [tiny] of C74 with Go's base64. *)
Definition tiny64 (r s : Z) : prims := {|
  p_sha256 := p_sha256 toy; p_ripemd160 := p_ripemd160 toy; p_keccak256 := p_keccak256 toy;
  p_base64 := base64_decode; p_key_ok := p_key_ok toy; p_verify := tiny_check r s; p_recover := p_recover toy;
|}.

Example C92_signed_example :
  let r := 2 ^ 254 + 3 in let s := 2 ^ 253 + 9 in
  let P := tiny64 r s in
  go_base64 P /\ agrees bytes P tiny_parse (tiny_check r s) /\
  key_pair bytes tiny_pub "0A" = Ok ([z2b 10], map z2b [10; 10; 11; 12]) /\
  readable bytes tiny_parse id (map z2b [10; 10; 11; 12]) /\
  signs bytes P tiny_pub (tiny_check r s) (tiny_sign r s) [z2b 10] (bytes_of "peer") r s /\
  byte_len s = byte_len r /\
  agent_address P "fetchai" (key_text bytes id (map z2b [10; 10; 11; 12])) =
    Ok "fetch1pg9qkrq8qurswpc8qurswpc8qurswpc8jyzv59" /\
  sign_fetchai bytes tiny_pub (tiny_sign r s) base64_encode (bytes_of "peer") "0A" =
    Ok "QAAAAAAAAAAAAAAAAAAAAAAAAAAAAAAAAAAAAAAAAAMgAAAAAAAAAAAAAAAAAAAAAAAAAAAAAAAAAAAAAAAACQ==".
Proof.
  intros r s P. split; [done|]. split.
  { split; [|done]. intros b. cbn. unfold tiny_parse. destruct (Nat.eqb _ 4); [by split; eauto|].
    by split; [|intros [? ?]]. }
  split; [reflexivity|]. split; [reflexivity|].
  split; [split; [split; reflexivity|split; [split; reflexivity|split; reflexivity]]|].
  split; [reflexivity|]. split; vm_compute; reflexivity.
Qed.
