(** Lemmas about hex text, checksummed addresses, bech32 and signature encodings. *)
From Coq Require Import ZArith NArith List String Ascii Lia.
From stdpp Require Import base tactics gmap list strings.
From Verif Require Import GoBase Bytes HexModel CryptoModel.
Open Scope string_scope.
Open Scope list_scope.
Open Scope Z_scope.

(** Lower case of an ASCII character. *)
Definition lower (c : byte) : byte :=
  if (65 <=? b2z c) && (b2z c <=? 90) then z2b (b2z c + 32) else c.

(** Facts about all 256 bytes by computation. *)
Definition all_bytes : list byte := map (fun n => ascii_of_nat n) (seq 0 256).

Lemma all_bytes_complete c : In c all_bytes.
Proof.
  unfold all_bytes. apply in_map_iff. exists (nat_of_ascii c). split; [apply ascii_nat_embedding|].
  apply in_seq. pose proof (nat_ascii_bounded c). lia.
Qed.

Lemma byte_forall (f : byte -> bool) : forallb f all_bytes = true -> forall c, f c = true.
Proof. intros H c. rewrite forallb_forall in H. apply H, all_bytes_complete. Qed.

Lemma z16 (P : Z -> Prop) :
  P 0 -> P 1 -> P 2 -> P 3 -> P 4 -> P 5 -> P 6 -> P 7 -> P 8 -> P 9 -> P 10 -> P 11 -> P 12 ->
  P 13 -> P 14 -> P 15 -> forall z, 0 <= z < 16 -> P z.
Proof.
  intros. assert (z = 0 \/ z = 1 \/ z = 2 \/ z = 3 \/ z = 4 \/ z = 5 \/ z = 6 \/ z = 7 \/ z = 8 \/
    z = 9 \/ z = 10 \/ z = 11 \/ z = 12 \/ z = 13 \/ z = 14 \/ z = 15) as Hz by lia.
  repeat destruct Hz as [->|Hz]; try done. by subst.
Qed.

Lemma hex_value_digit v : 0 <= v < 16 -> hex_value (hex_digit v) = Some v.
Proof. revert v. apply z16; reflexivity. Qed.

Lemma hex_digit_lower v : 0 <= v < 16 -> lower (hex_digit v) = hex_digit v.
Proof. revert v. apply z16; reflexivity. Qed.

Lemma hex_digit_inj v w : 0 <= v < 16 -> 0 <= w < 16 -> hex_digit v = hex_digit w -> v = w.
Proof.
  intros Hv Hw E. apply (f_equal hex_value) in E. rewrite !hex_value_digit in E by done.
  by injection E.
Qed.

Lemma hex_value_iff c v :
  hex_value c = Some v <-> 0 <= v < 16 /\ lower c = hex_digit v.
Proof.
  split.
  - intros E.
    assert (match hex_value c with
            | Some v => (0 <=? v) && (v <? 16) && Ascii.eqb (lower c) (hex_digit v)
            | None => true end = true) as H.
    { revert c E. intros c _. revert c. apply byte_forall. vm_compute. reflexivity. }
    rewrite E in H. apply andb_true_iff in H as [H1 H3]. apply andb_true_iff in H1 as [H1 H2].
    apply Ascii.eqb_eq in H3. split; [lia|done].
  - intros [Hv E].
    assert (hex_value c = hex_value (lower c)) as ->.
    { assert (match hex_value c, hex_value (lower c) with
              | Some v, Some w => v =? w | None, None => true | _, _ => false end = true) as H.
      { clear. revert c. apply byte_forall. vm_compute. reflexivity. }
      destruct (hex_value c), (hex_value (lower c)); try done. f_equal. lia. }
    rewrite E. by apply hex_value_digit.
Qed.

Lemma byte_split b : 16 * (b2z b / 16) + b2z b mod 16 = b2z b /\
  0 <= b2z b / 16 < 16 /\ 0 <= b2z b mod 16 < 16.
Proof.
  pose proof (b2z_range b). pose proof (Z.div_mod (b2z b) 16).
  pose proof (Z.mod_pos_bound (b2z b) 16). lia.
Qed.

Lemma two_ind {A} (P : list A -> Prop) :
  P [] -> (forall a, P [a]) -> (forall a b l, P l -> P (a :: b :: l)) -> forall l, P l.
Proof.
  intros H0 H1 H2. fix IH 1. intros [|a [|b l]]; [done|done|]. apply H2, IH.
Qed.

Lemma hex_decode_iff s b : hex_decode s = Some b <-> map lower s = hex_encode b.
Proof.
  revert b. induction s as [|a|h l s IH] using two_ind; intros b.
  - cbn. split; [intros [= <-]; done|]. by destruct b.
  - cbn. split; [done|]. destruct b; cbn; done.
  - cbn [hex_decode map]. split.
    + destruct (hex_value h) as [x|] eqn:Eh; [|done].
      destruct (hex_value l) as [y|] eqn:El; [|done].
      destruct (hex_decode s) as [b'|] eqn:Es; [|done]. intros [= <-]. cbn [hex_encode].
      apply hex_value_iff in Eh as [Hx Eh]. apply hex_value_iff in El as [Hy El].
      rewrite Eh, El. rewrite b2z_z2b_id by lia.
      replace ((16 * x + y) / 16) with x by (rewrite Z.mul_comm, Z.div_add_l, Z.div_small; lia).
      replace ((16 * x + y) mod 16) with y
        by (rewrite Z.add_comm, Z.mul_comm, Z_mod_plus_full, Z.mod_small; lia).
      f_equal. f_equal. by apply IH.
    + destruct b as [|x b]; [done|]. cbn [hex_encode]. intros [= E1 E2 E3].
      destruct (byte_split x) as (Hs & H1 & H2).
      rewrite (proj2 (hex_value_iff h (b2z x / 16))) by done.
      rewrite (proj2 (hex_value_iff l (b2z x mod 16))) by done.
      apply IH in E3. rewrite E3. rewrite Hs. by rewrite z2b_b2z.
Qed.

Lemma hex_encode_lower a : map lower (hex_encode a) = hex_encode a.
Proof.
  induction a as [|x a IH]; [done|]. cbn [hex_encode map].
  destruct (byte_split x) as (_ & H1 & H2). rewrite !hex_digit_lower by done. by rewrite IH.
Qed.

Lemma hex_encode_inj a b : hex_encode a = hex_encode b -> a = b.
Proof.
  intros E. pose proof (proj2 (hex_decode_iff _ _) (hex_encode_lower a)) as Ha.
  pose proof (proj2 (hex_decode_iff _ _) (hex_encode_lower b)) as Hb.
  rewrite E in Ha. congruence.
Qed.

Lemma hex_encode_length a : length (hex_encode a) = (2 * length a)%nat.
Proof. induction a as [|x a IH]; [done|]. cbn [hex_encode length]. rewrite IH. lia. Qed.

Lemma hex_encode_digits a c : In c (hex_encode a) -> exists v, 0 <= v < 16 /\ c = hex_digit v.
Proof.
  induction a as [|x a IH]; [done|]. cbn [hex_encode]. destruct (byte_split x) as (_ & H1 & H2).
  intros [<-|[<-|H]]; [by exists (b2z x / 16)|by exists (b2z x mod 16)|by apply IH].
Qed.

(** * Checksum *)

Lemma checksum_char_lower hash i v :
  0 <= v < 16 -> lower (checksum_char hash i (hex_digit v)) = hex_digit v.
Proof.
  intros Hv. unfold checksum_char.
  set (b := 7 <? _). clearbody b. revert v Hv. apply z16; by destruct b.
Qed.

Lemma checksum_lower hash (l : bytes) k :
  (forall c, In c l -> exists v, 0 <= v < 16 /\ c = hex_digit v) ->
  map lower (imap (fun i => checksum_char hash (k + i)) l) = l.
Proof.
  revert k. induction l as [|c l IH]; intros k H; [done|]. rewrite imap_cons. cbn [map]. f_equal.
  - destruct (H c) as (v & Hv & ->); [by left|]. by apply checksum_char_lower.
  - rewrite <- (IH (S k)) at 2; [|intros; apply H; by right]. f_equal.
    apply imap_ext. intros i x _. cbn. by rewrite Nat.add_succ_r.
Qed.

Lemma checksum_address_lower keccak a :
  map lower (checksum_address keccak a) = z2b 48 :: z2b 120 :: hex_encode a.
Proof.
  unfold checksum_address. cbn [map].
  rewrite (checksum_lower _ _ 0); [done|]. apply hex_encode_digits.
Qed.

Lemma checksum_address_inj keccak a b :
  checksum_address keccak a = checksum_address keccak b -> a = b.
Proof.
  intros E. apply (f_equal (map lower)) in E. rewrite !checksum_address_lower in E.
  injection E as E. by apply hex_encode_inj.
Qed.

(** * Bech32 *)

Lemma bits_val_5 a b c d e :
  bits_val [a; b; c; d; e] =
  16 * Z.b2z a + 8 * Z.b2z b + 4 * Z.b2z c + 2 * Z.b2z d + Z.b2z e.
Proof. destruct a, b, c, d, e; reflexivity. Qed.

Lemma bits_val_5_inj a b c d e a' b' c' d' e' :
  bits_val [a; b; c; d; e] = bits_val [a'; b'; c'; d'; e'] ->
  [a; b; c; d; e] = [a'; b'; c'; d'; e'].
Proof. rewrite !bits_val_5. destruct a, b, c, d, e, a', b', c', d', e'; simpl; intros; (done || lia). Qed.

Lemma bits_val_5_range a b c d e : 0 <= bits_val [a; b; c; d; e] < 32.
Proof. rewrite bits_val_5. destruct a, b, c, d, e; simpl; lia. Qed.

Lemma groups5_cons a b c d e l :
  groups5 (a :: b :: c :: d :: e :: l) = bits_val [a; b; c; d; e] :: groups5 l.
Proof. reflexivity. Qed.

Lemma groups5_inj n l l' :
  length l = (5 * n)%nat -> length l' = (5 * n)%nat -> groups5 l = groups5 l' -> l = l'.
Proof.
  revert l l'. induction n as [|n IH]; intros l l' H1 H2 E.
  - destruct l, l'; simpl in *; (done || lia).
  - destruct l as [|a [|b [|c [|d [|e l]]]]]; simpl in H1; try lia.
    destruct l' as [|a' [|b' [|c' [|d' [|e' l']]]]]; simpl in H2; try lia.
    rewrite !groups5_cons in E. injection E as E1 E2. apply bits_val_5_inj in E1.
    apply IH in E2; [|lia|lia]. by injection E1 as -> -> -> -> ->; subst.
Qed.

Lemma groups5_length n l : length l = (5 * n)%nat -> length (groups5 l) = n.
Proof.
  revert l. induction n as [|n IH]; intros l H1.
  - by destruct l.
  - destruct l as [|a [|b [|c [|d [|e l]]]]]; simpl in H1; try lia.
    rewrite groups5_cons. cbn [length]. rewrite IH; lia.
Qed.

Lemma groups5_range n l :
  length l = (5 * n)%nat -> Forall (fun v => 0 <= v < 32) (groups5 l).
Proof.
  revert l. induction n as [|n IH]; intros l H1.
  - destruct l; [constructor|simpl in H1; lia].
  - destruct l as [|a [|b [|c [|d [|e l]]]]]; simpl in H1; try lia.
    rewrite groups5_cons. constructor; [apply bits_val_5_range|]. apply IH. lia.
Qed.

Lemma byte_bits_inj a b : byte_bits a = byte_bits b -> a = b.
Proof.
  intros E. apply b2z_inj. unfold byte_bits in E. cbn [map] in E.
  injection E as E7 E6 E5 E4 E3 E2 E1 E0.
  apply Z.bits_inj'. intros i Hi.
  pose proof (b2z_range a). pose proof (b2z_range b).
  destruct (decide (i < 8)) as [Hlt|Hge].
  - assert (i = 0 \/ i = 1 \/ i = 2 \/ i = 3 \/ i = 4 \/ i = 5 \/ i = 6 \/ i = 7) as Hi' by lia.
    repeat destruct Hi' as [->|Hi']; try done. by subst.
  - rewrite !Z.testbit_eqb by lia.
    assert (2 ^ 8 <= 2 ^ i) by (apply Z.pow_le_mono_r; lia).
    rewrite !Z.div_small by lia. done.
Qed.

Lemma concat_bits_inj h h' :
  length h = length h' -> concat (map byte_bits h) = concat (map byte_bits h') -> h = h'.
Proof.
  revert h'. induction h as [|x h IH]; intros [|y h'] Hl E; try done.
  cbn [map concat] in E. apply app_inj_1 in E as [E1 E2]; [|done].
  apply byte_bits_inj in E1 as ->. f_equal. apply IH; [by injection Hl|done].
Qed.

Lemma concat_bits_length h : length (concat (map byte_bits h)) = (8 * length h)%nat.
Proof. induction h as [|x h IH]; [done|]. cbn [map concat]. rewrite app_length, IH. cbn. lia. Qed.

Lemma bech32_char_inj v w :
  0 <= v < 32 -> 0 <= w < 32 -> bech32_char v = bech32_char w -> v = w.
Proof.
  intros Hv Hw E.
  assert (forallb (fun a => forallb (fun b =>
     implb (Ascii.eqb (bech32_char (Z.of_nat a)) (bech32_char (Z.of_nat b))) (Nat.eqb a b))
     (seq 0 32)) (seq 0 32) = true) as H by (vm_compute; reflexivity).
  rewrite forallb_forall in H. specialize (H (Z.to_nat v) ltac:(apply in_seq; lia)).
  rewrite forallb_forall in H. specialize (H (Z.to_nat w) ltac:(apply in_seq; lia)).
  rewrite !Z2Nat.id in H by lia. rewrite E, Ascii.eqb_refl in H. cbn in H.
  apply Nat.eqb_eq in H. lia.
Qed.

Lemma map_char_inj l l' :
  Forall (fun v => 0 <= v < 32) l -> Forall (fun v => 0 <= v < 32) l' ->
  map bech32_char l = map bech32_char l' -> l = l'.
Proof.
  intros H. revert l'. induction H as [|x l Hx H IH]; intros l' H' E; destruct H' as [|y l' Hy H'];
    try done.
  cbn [map] in E. injection E as E1 E2. apply bech32_char_inj in E1; [|done|done].
  f_equal; [done|]. by apply IH.
Qed.

Lemma bech32_hash_inj hrp h h' :
  length h = 20%nat -> length h' = 20%nat ->
  bech32_encode hrp (groups5 (concat (map byte_bits h))) =
  bech32_encode hrp (groups5 (concat (map byte_bits h'))) -> h = h'.
Proof.
  intros Hh Hh' E. unfold bech32_encode in E. apply app_inv_head in E. apply app_inv_head in E.
  rewrite !map_app in E.
  pose proof (concat_bits_length h) as L1. pose proof (concat_bits_length h') as L2.
  rewrite Hh in L1. rewrite Hh' in L2.
  apply app_inj_1 in E as [E _].
  2:{ rewrite !map_length. rewrite (groups5_length 32), (groups5_length 32); lia. }
  apply map_char_inj in E; [|apply (groups5_range 32); lia..].
  apply (groups5_inj 32) in E; [|lia|lia].
  apply concat_bits_inj in E; [done|lia].
Qed.

(** * Signature encodings *)

Lemma parse_form der (rb sb : bytes) :
  (1 <= length rb)%nat -> (1 <= length sb)%nat -> (length rb + length sb < 250)%nat ->
  parse_sig der
    (z2b 48 :: z2b (6 + Z.of_nat (length rb) + Z.of_nat (length sb) - 2) ::
     z2b 2 :: z2b (Z.of_nat (length rb)) :: rb ++ z2b 2 :: z2b (Z.of_nat (length sb)) :: sb) =
  if der && negb (canonical rb && canonical sb) then None
  else
    let r := be_val 0 rb in
    let s := be_val 0 sb in
    if (0 <? r) && (0 <? s) && (r <? curve_n) && (s <? curve_n) then Some (r, s) else None.
Proof.
  intros H1 H2 Hl. unfold parse_sig.
  rewrite (b2z_z2b_id 48) by lia.
  rewrite (b2z_z2b_id (6 + _ + _ - 2)) by lia.
  set (rest := rb ++ z2b 2 :: z2b (Z.of_nat (length sb)) :: sb).
  assert (length rest = length rb + length sb + 2)%nat as L3.
  { unfold rest. rewrite app_length. cbn [length]. lia. }
  set (n := (length rb + length sb)%nat) in *.
  cbn [length]. rewrite L3.
  replace ((6 + Z.of_nat (length rb) + Z.of_nat (length sb) - 2 + 2) mod 256) with (Z.of_nat n + 6)
    by (rewrite Z.mod_small; lia).
  destruct (Nat.ltb_spec (S (S (S (S (n + 2))))) 8); [lia|].
  rewrite (proj2 (Z.ltb_ge (Z.of_nat (S (S (S (S (n + 2)))))) (Z.of_nat n + 6))) by lia.
  rewrite (proj2 (Z.ltb_ge (Z.of_nat n + 6) 8)) by lia.
  cbn [negb Z.eqb Pos.eqb orb].
  rewrite take_ge by (cbn [length]; lia).
  cbn [drop].
  rewrite (b2z_z2b_id 2), (b2z_z2b_id (Z.of_nat (length rb))) by lia. rewrite Nat2Z.id, L3.
  destruct (Nat.eqb_spec (length rb) 0); [lia|].
  destruct (Nat.ltb_spec (n + 2) (length rb + 3)); [lia|].
  cbn [negb Z.eqb Pos.eqb orb]. unfold rest.
  rewrite (drop_app_length rb _ (length rb)) by done. rewrite (take_app_length rb _ (length rb)) by done.
  rewrite (b2z_z2b_id 2), (b2z_z2b_id (Z.of_nat (length sb))) by lia. rewrite Nat2Z.id.
  destruct (Nat.eqb_spec (length sb) 0); [lia|].
  rewrite Nat.ltb_irrefl. rewrite Nat.eqb_refl. rewrite take_ge by lia.
  cbn [negb Z.eqb Pos.eqb orb].
  destruct der, (canonical rb), (canonical sb); done.
Qed.

Lemma parse_str_to_der l :
  (2 <= length l < 250)%nat ->
  parse_sig false (str_to_der l) =
  let r := be_val 0 (take (length l / 2) l) in
  let s := be_val 0 (drop (length l / 2) l) in
  if (0 <? r) && (0 <? s) && (r <? curve_n) && (s <? curve_n) then Some (r, s) else None.
Proof.
  intros Hl. unfold str_to_der.
  assert (1 <= length l / 2 /\ 2 * (length l / 2) <= length l)%nat as [Hh1 Hh2].
  { split; [apply (Nat.div_le_lower_bound _ 2 1); lia|apply Nat.mul_div_le; lia]. }
  remember (length l / 2)%nat as h eqn:Eh. clear Eh.
  assert (length (take h l) = h) as L1 by (rewrite take_length; lia).
  assert (length (drop h l) = length l - h)%nat as L2 by apply drop_length.
  cbn [app]. rewrite (parse_form false); [done|lia..].
Qed.

(** Number of bytes of a positive number. *)
Definition byte_len (z : Z) : nat := Z.to_nat (Z.log2 z / 8) + 1.

Lemma byte_len_iff z n : 0 < z -> byte_len z = S n <-> 256 ^ Z.of_nat n <= z < 256 ^ Z.of_nat (S n).
Proof.
  intros Hz. unfold byte_len. pose proof (Z.log2_nonneg z).
  assert (0 <= Z.log2 z / 8) by (apply Z.div_pos; lia).
  pose proof (Z.div_mod (Z.log2 z) 8 ltac:(lia)). pose proof (Z.mod_pos_bound (Z.log2 z) 8 ltac:(lia)).
  pose proof (Z.log2_spec z Hz) as [Hlo Hhi].
  change 256 with (2 ^ 8). rewrite <- !Z.pow_mul_r by lia. split.
  - intros E. assert (Z.log2 z / 8 = Z.of_nat n) by lia. split.
    + etransitivity; [|apply Hlo]. apply Z.pow_le_mono_r; lia.
    + eapply Z.lt_le_trans; [apply Hhi|]. apply Z.pow_le_mono_r; lia.
  - intros [Ha Hb]. apply Z.log2_le_pow2 in Ha; [|lia]. apply Z.log2_lt_pow2 in Hb; [|lia]. lia.
Qed.

Lemma int_bytes_n_spec n z :
  256 ^ Z.of_nat n <= z < 256 ^ Z.of_nat (S n) ->
  forall fuel, (n < fuel)%nat ->
  length (int_bytes_n fuel z) = S n /\ be_val 0 (int_bytes_n fuel z) = z.
Proof.
  revert z. induction n as [|n IH]; intros z [H1 H2] fuel Hf.
  - destruct fuel as [|fuel]; [lia|]. cbn [int_bytes_n]. change (256 ^ Z.of_nat 0) with 1 in H1.
    change (256 ^ Z.of_nat 1) with 256 in H2. replace (z <=? 0) with false by lia.
    rewrite Z.div_small by lia. assert (int_bytes_n fuel 0 = []) as -> by (by destruct fuel).
    cbn. split; [done|]. apply b2z_z2b_id; lia.
  - destruct fuel as [|fuel]; [lia|]. cbn [int_bytes_n].
    rewrite (Nat2Z.inj_succ n), Z.pow_succ_r in H1 by lia.
    rewrite (Nat2Z.inj_succ (S n)), Z.pow_succ_r in H2 by lia.
    assert (0 < 256 ^ Z.of_nat n) by lia. replace (z <=? 0) with false by lia.
    destruct (IH (z / 256)) with (fuel := fuel) as [L V]; [|lia|].
    { split; [apply Z.div_le_lower_bound; lia|apply Z.div_lt_upper_bound; lia]. }
    rewrite app_length, L, be_val_app, V. cbn [length be_val]. rewrite b2z_z2b. split; [lia|].
    pose proof (Z.div_mod z 256). lia.
Qed.

Lemma int_bytes_spec z :
  0 < z -> length (int_bytes z) = byte_len z /\ be_val 0 (int_bytes z) = z.
Proof.
  intros Hz. destruct (byte_len z) as [|n] eqn:E; [unfold byte_len in E; lia|].
  pose proof (proj1 (byte_len_iff z n Hz) E) as H. unfold int_bytes. fold (byte_len z). rewrite E.
  apply int_bytes_n_spec; [done|lia].
Qed.

Lemma byte_len_32 z : 0 < z < 2 ^ 256 -> (1 <= byte_len z <= 32)%nat.
Proof.
  intros H. unfold byte_len. assert (Z.log2 z < 256) by (apply Z.log2_lt_pow2; lia).
  assert (Z.log2 z / 8 < 32) by (apply Z.div_lt_upper_bound; lia).
  pose proof (Z.log2_nonneg z). assert (0 <= Z.log2 z / 8) by (apply Z.div_pos; lia). lia.
Qed.

Lemma be_val_take k l : (k <= length l)%nat ->
  be_val 0 l = be_val 0 (take k l) * 256 ^ Z.of_nat (length l - k) + be_val 0 (drop k l).
Proof.
  intros Hk. rewrite <- (take_drop k l) at 1. rewrite be_val_app, be_val_acc. by rewrite drop_length.
Qed.

(** Splitting [r ++ s] in the middle gives back [r] exactly if the lengths fit. *)
Lemma middle_split r s :
  0 < r -> 0 < s ->
  let l := int_bytes r ++ int_bytes s in
  let h := (length l / 2)%nat in
  (be_val 0 (take h l) = r /\ be_val 0 (drop h l) = s) <->
  (byte_len s = byte_len r \/ byte_len s = S (byte_len r)).
Proof.
  intros Hr Hs. cbv zeta. destruct (int_bytes_spec r Hr) as [Lr Vr].
  destruct (int_bytes_spec s Hs) as [Ls Vs].
  rewrite app_length, Lr, Ls. set (h := ((byte_len r + byte_len s) / 2)%nat).
  assert (2 * h <= byte_len r + byte_len s)%nat as Hh1 by (apply Nat.mul_div_le; lia).
  assert (byte_len r + byte_len s < 2 * S h)%nat as Hh2 by (apply Nat.mul_succ_div_gt; lia).
  split.
  - intros [E1 E2]. assert (h = byte_len r); [|lia].
    destruct (Nat.lt_trichotomy h (byte_len r)) as [Hlt|[?|Hgt]]; [|done|]; exfalso.
    + rewrite take_app_le in E1 by lia.
      pose proof (be_val_range (take h (int_bytes r))) as Hb. rewrite E1, take_length, Lr in Hb.
      rewrite Nat.min_l in Hb by lia.
      destruct (byte_len r) as [|n] eqn:En; [lia|].
      apply byte_len_iff in En as [Hn _]; [|lia].
      assert (256 ^ Z.of_nat h <= 256 ^ Z.of_nat n) by (apply Z.pow_le_mono_r; lia). lia.
    + rewrite (take_app_ge (int_bytes r)) in E1 by lia. rewrite be_val_app, Vr, be_val_acc in E1.
      rewrite take_length, Ls, Lr in E1. rewrite Nat.min_l in E1 by lia.
      pose proof (be_val_range (take (h - byte_len r) (int_bytes s))) as Hb.
      assert (256 ^ 1 <= 256 ^ Z.of_nat (h - byte_len r)) by (apply Z.pow_le_mono_r; lia). nia.
  - intros Hd. assert (h = byte_len r) as -> by lia. rewrite (take_app_length (int_bytes r)) by done.
    by rewrite (drop_app_length (int_bytes r)) by done.
Qed.

(** The range check of the parser. *)
Lemma parse_sig_range der l r s :
  parse_sig der l = Some (r, s) -> 0 < r < curve_n /\ 0 < s < curve_n.
Proof.
  unfold parse_sig. intros H.
  repeat (case_match; try done). injection H as <- <-. lia.
Qed.

(** The DER integer of a positive number: a zero byte is put before a set high bit. *)
Definition der_int (z : Z) : bytes :=
  match int_bytes z with
  | b :: l => if 128 <=? b2z b then z2b 0 :: b :: l else b :: l
  | [] => []
  end.

(** The DER form of a signature. *)
Definition der_of (r s : Z) : bytes :=
  let rb := der_int r in
  let sb := der_int s in
  [z2b 48; z2b (Z.of_nat (length rb) + Z.of_nat (length sb) + 4)] ++
  [z2b 2; z2b (Z.of_nat (length rb))] ++ rb ++
  [z2b 2; z2b (Z.of_nat (length sb))] ++ sb.

Lemma int_bytes_head z b l : 0 < z -> int_bytes z = b :: l -> 0 < b2z b.
Proof.
  intros Hz E. destruct (int_bytes_spec z Hz) as [L V]. rewrite E in L, V. cbn [length] in L.
  symmetry in L. apply byte_len_iff in L as [H1 _]; [|done].
  cbn [be_val] in V. rewrite be_val_acc in V. pose proof (be_val_range l). pose proof (b2z_range b). nia.
Qed.

Lemma der_int_spec z :
  0 < z < 2 ^ 256 ->
  canonical (der_int z) = true /\ be_val 0 (der_int z) = z /\ (1 <= length (der_int z) <= 33)%nat.
Proof.
  intros Hz. destruct (int_bytes_spec z) as [L V]; [lia|]. pose proof (byte_len_32 z Hz).
  unfold der_int. destruct (int_bytes z) as [|b l] eqn:E; [simpl in L; lia|].
  pose proof (int_bytes_head z b l ltac:(lia) E). cbn [length] in L.
  destruct (128 <=? b2z b) eqn:Eb.
  - split; [|split].
    + unfold canonical. rewrite b2z_z2b_id by lia. cbn [Z.eqb]. cbn [andb].
      replace (b2z b <? 128) with false by lia. done.
    + cbn [be_val]. rewrite b2z_z2b_id by lia. exact V.
    + cbn [length]. lia.
  - split; [|split].
    + unfold canonical. rewrite Eb. replace (b2z b =? 0) with false by lia. done.
    + exact V.
    + cbn [length]. lia.
Qed.

Lemma curve_n_256 : curve_n < 2 ^ 256.
Proof. reflexivity. Qed.

Lemma der_of_parse r s :
  0 < r < curve_n -> 0 < s < curve_n -> parse_sig true (der_of r s) = Some (r, s).
Proof.
  intros Hr Hs. pose proof curve_n_256.
  destruct (der_int_spec r) as (C1 & V1 & L1); [lia|].
  destruct (der_int_spec s) as (C2 & V2 & L2); [lia|].
  unfold der_of. cbn [app].
  replace (Z.of_nat (length (der_int r)) + Z.of_nat (length (der_int s)) + 4) with
    (6 + Z.of_nat (length (der_int r)) + Z.of_nat (length (der_int s)) - 2) by lia.
  rewrite parse_form by lia. rewrite C1, C2, V1, V2. cbn [andb negb].
  replace (0 <? r) with true by lia. replace (0 <? s) with true by lia.
  replace (r <? curve_n) with true by lia. replace (s <? curve_n) with true by lia. done.
Qed.

Lemma hex_encode_lookup l i d :
  hex_encode l !! i = Some d ->
  exists b, l !! (i / 2)%nat = Some b /\
            d = hex_digit (if Nat.even i then b2z b / 16 else b2z b mod 16).
Proof.
  revert i. induction l as [|x l IH]; intros i H; [done|]. cbn [hex_encode] in H.
  destruct i as [|[|i]].
  - injection H as <-. by exists x.
  - injection H as <-. by exists x.
  - cbn in H. destruct (IH i H) as (b & Hb & Hd). exists b.
    replace (S (S i) / 2)%nat with (S (i / 2)); [done|].
    change (S (S i)) with (2 + i)%nat. rewrite (Nat.add_comm 2). change 2%nat with (1 * 2)%nat at 2.
    rewrite Nat.div_add by lia. lia.
Qed.
