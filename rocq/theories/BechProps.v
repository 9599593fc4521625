(** Addresses of fetchai and cosmos agents in the terms of BIP 173, and how far apart they are (C95). *)
From Coq Require Import ZArith NArith List String Ascii Lia.
From stdpp Require Import base tactics list strings.
From Verif Require Import GoBase Bytes HexModel ProtoModel CryptoModel CryptoProofs CryptoProps PorModel PorProps.
Open Scope string_scope.
Open Scope list_scope.
Open Scope Z_scope.

(** * The field with 32 elements: polynomials over the bits, modulo a^5 + a^3 + 1 *)

(** An element. *)
Definition gf (x : Z) : Prop := 0 <= x < 32.
(** The element times a. *)
Definition gf_double (x : Z) : Z := if x <? 16 then 2 * x else Z.lxor (2 * x) 41.
Definition gf_mul (x y : Z) : Z :=
  Z.lxor (if Z.testbit y 0 then x else 0)
 (Z.lxor (if Z.testbit y 1 then gf_double x else 0)
 (Z.lxor (if Z.testbit y 2 then gf_double (gf_double x) else 0)
 (Z.lxor (if Z.testbit y 3 then gf_double (gf_double (gf_double x)) else 0)
         (if Z.testbit y 4 then gf_double (gf_double (gf_double (gf_double x))) else 0)))).

(** * Polynomials over it, lowest coefficient first; the sum is the bitwise exclusive or *)

Definition coef (p : list Z) (i : nat) : Z := nth i p 0.
Fixpoint padd (p q : list Z) : list Z :=
  match p, q with
  | [], _ => q
  | _, [] => p
  | a :: p', b :: q' => Z.lxor a b :: padd p' q'
  end.
Definition pscale (a : Z) (p : list Z) : list Z := map (gf_mul a) p.
Fixpoint pmul (p q : list Z) : list Z :=
  match p with [] => [] | a :: p' => padd (pscale a q) (0 :: pmul p' q) end.

(** The generator of BIP 173: x^6 + 29 x^5 + 22 x^4 + 20 x^3 + 21 x^2 + 29 x + 18. *)
Definition generator : list Z := [18; 29; 21; 20; 22; 29; 1].
(** The values [w], first the highest, with a 1 in front of them, are 1 modulo the generator. *)
Definition codeword (w : list Z) : Prop :=
  exists q, Forall gf q /\ forall i, coef (rev (1 :: w)) i = coef (padd (pmul q generator) [1]) i.

(** * The field *)

Ltac lxors := apply Z.bits_inj'; intros ?bit _; rewrite ?Z.lxor_spec, ?Z.bits_0;
  repeat match goal with |- context [Z.testbit ?a ?n] => destruct (Z.testbit a n) end; reflexivity.

Lemma all32 (f : Z -> bool) : forallb (fun n => f (Z.of_nat n)) (seq 0 32) = true -> forall a, gf a -> f a = true.
Proof.
  intros H a [H1 H2]. rewrite forallb_forall in H. specialize (H (Z.to_nat a)). rewrite Z2Nat.id in H by done. apply H.
  apply in_seq. lia.
Qed.
Lemma all32_2 (f : Z -> Z -> bool) :
  forallb (fun n => forallb (fun k => f (Z.of_nat n) (Z.of_nat k)) (seq 0 32)) (seq 0 32) = true ->
  forall a b, gf a -> gf b -> f a b = true.
Proof.
  intros H a b Ha Hb. apply (all32 (fun b => f a b)); [|done].
  apply (all32 (fun a => forallb (fun k => f a (Z.of_nat k)) (seq 0 32))); [exact H|done].
Qed.

Lemma gf_lxor a b : gf a -> gf b -> gf (Z.lxor a b).
Proof.
  intros Ha Hb. assert ((0 <=? Z.lxor a b) && (Z.lxor a b <? 32) = true) as H.
  { apply (all32_2 (fun a b => (0 <=? Z.lxor a b) && (Z.lxor a b <? 32))); [|done|done]. vm_compute. reflexivity. }
  apply andb_true_iff in H as [H1 H2]. unfold gf. lia.
Qed.
Lemma gf_double_range a : gf a -> gf (gf_double a).
Proof.
  intros Ha. assert ((0 <=? gf_double a) && (gf_double a <? 32) = true) as H.
  { apply (all32 (fun a => (0 <=? gf_double a) && (gf_double a <? 32))); [|done]. vm_compute. reflexivity. }
  apply andb_true_iff in H as [H1 H2]. unfold gf. lia.
Qed.
Lemma gf_double_lxor a b : gf a -> gf b -> gf_double (Z.lxor a b) = Z.lxor (gf_double a) (gf_double b).
Proof.
  intros Ha Hb. apply Z.eqb_eq.
  apply (all32_2 (fun a b => gf_double (Z.lxor a b) =? Z.lxor (gf_double a) (gf_double b))); [|done|done]. vm_compute. reflexivity.
Qed.
Lemma gf_mul_range a b : gf a -> gf b -> gf (gf_mul a b).
Proof.
  intros Ha Hb. assert (gf 0) as H0 by (unfold gf; lia). unfold gf_mul.
  repeat apply gf_lxor; destruct (Z.testbit _ _); auto using gf_double_range.
Qed.
Lemma gf_mul_comm a b : gf a -> gf b -> gf_mul a b = gf_mul b a.
Proof. intros Ha Hb. apply Z.eqb_eq. apply (all32_2 (fun a b => gf_mul a b =? gf_mul b a)); [|done|done]. vm_compute. reflexivity. Qed.
Lemma lxor4 a b c d : Z.lxor (Z.lxor a b) (Z.lxor c d) = Z.lxor (Z.lxor a c) (Z.lxor b d).
Proof. lxors. Qed.
Lemma pick_xor (a b : bool) x : (if xorb a b then x else 0) = Z.lxor (if a then x else 0) (if b then x else 0).
Proof. destruct a, b; cbn; by rewrite ?Z.lxor_nilpotent, ?Z.lxor_0_r. Qed.
Lemma gf_mul_lxor_r a b c : gf_mul a (Z.lxor b c) = Z.lxor (gf_mul a b) (gf_mul a c).
Proof.
  unfold gf_mul. rewrite !Z.lxor_spec, !pick_xor. symmetry.
  do 4 (etrans; [apply lxor4|apply f_equal]). reflexivity.
Qed.
Lemma gf_mul_lxor_l a b c : gf a -> gf b -> gf c -> gf_mul (Z.lxor a b) c = Z.lxor (gf_mul a c) (gf_mul b c).
Proof. intros Ha Hb Hc. rewrite !(gf_mul_comm _ c) by auto using gf_lxor. apply gf_mul_lxor_r. Qed.
Lemma gf_mul_double a b : gf a -> gf b -> gf_mul a (gf_double b) = gf_double (gf_mul a b).
Proof.
  intros Ha Hb. apply Z.eqb_eq. apply (all32_2 (fun a b => gf_mul a (gf_double b) =? gf_double (gf_mul a b))); [|done|done].
  vm_compute. reflexivity.
Qed.
Lemma gf_mul_0_r a : gf_mul a 0 = 0.
Proof. reflexivity. Qed.
Lemma gf_mul_0_l a : gf a -> gf_mul 0 a = 0.
Proof. intros Ha. rewrite gf_mul_comm; [done|unfold gf; lia|done]. Qed.
Lemma gf_mul_1_r a : gf_mul a 1 = a.
Proof. unfold gf_mul. cbn. by rewrite Z.lxor_0_r. Qed.
Lemma gf_mul_1_l a : gf a -> gf_mul 1 a = a.
Proof. intros Ha. rewrite gf_mul_comm; [apply gf_mul_1_r|unfold gf; lia|done]. Qed.
Lemma gf_mul_eq x y : gf_mul x y =
  Z.lxor (if Z.testbit y 0 then x else 0)
 (Z.lxor (if Z.testbit y 1 then gf_double x else 0)
 (Z.lxor (if Z.testbit y 2 then gf_double (gf_double x) else 0)
 (Z.lxor (if Z.testbit y 3 then gf_double (gf_double (gf_double x)) else 0)
         (if Z.testbit y 4 then gf_double (gf_double (gf_double (gf_double x))) else 0)))).
Proof. reflexivity. Qed.
Lemma gf_mul_assoc a b c : gf a -> gf b -> gf c -> gf_mul a (gf_mul b c) = gf_mul (gf_mul a b) c.
Proof.
  intros Ha Hb Hc. rewrite (gf_mul_eq b c), (gf_mul_eq (gf_mul a b) c), !gf_mul_lxor_r.
  repeat (f_equal; [destruct (Z.testbit c _); [|done]; rewrite ?gf_mul_double by auto using gf_double_range; done|]).
  destruct (Z.testbit c _); [|done]. by rewrite ?gf_mul_double by auto using gf_double_range.
Qed.
Lemma gf_inv a : gf a -> a <> 0 -> exists b, gf b /\ gf_mul b a = 1.
Proof.
  intros Ha Hn.
  assert ((a =? 0) || existsb (fun n => gf_mul (Z.of_nat n) a =? 1) (seq 0 32) = true) as H.
  { apply (all32 (fun a => (a =? 0) || existsb (fun n => gf_mul (Z.of_nat n) a =? 1) (seq 0 32))); [|done]. vm_compute. reflexivity. }
  apply orb_true_iff in H as [H|H]; [lia|]. apply existsb_exists in H as (n & Hn1 & Hn2). apply in_seq in Hn1.
  exists (Z.of_nat n). split; [unfold gf; lia|]. by apply Z.eqb_eq.
Qed.

(** * Remainders *)

(** One step of the division of a polynomial by the generator: the remainder of the values so far, times x, plus the next value. *)
Definition rstep (r : list Z) (v : Z) : list Z :=
  match r with
  | [r0; r1; r2; r3; r4; r5] =>
      [Z.lxor v (gf_mul r5 18); Z.lxor r0 (gf_mul r5 29); Z.lxor r1 (gf_mul r5 21); Z.lxor r2 (gf_mul r5 20);
       Z.lxor r3 (gf_mul r5 22); Z.lxor r4 (gf_mul r5 29)]
  | _ => r
  end.
Definition zeros : list Z := [0; 0; 0; 0; 0; 0].
Definition one : list Z := [1; 0; 0; 0; 0; 0].
(** The remainder of a polynomial, lowest coefficient first. *)
Fixpoint remainder (p : list Z) : list Z := match p with [] => zeros | a :: p' => rstep (remainder p') a end.

Record six (r : list Z) : Prop := { six_len : length r = 6%nat; six_gf : Forall gf r }.

Lemma six_inv r : six r -> exists r0 r1 r2 r3 r4 r5, r = [r0; r1; r2; r3; r4; r5] /\ gf r0 /\ gf r1 /\ gf r2 /\ gf r3 /\ gf r4 /\ gf r5.
Proof.
  intros [H1 H2]. destruct r as [|r0 [|r1 [|r2 [|r3 [|r4 [|r5 [|] ] ] ] ] ] ]; try done.
  rewrite !Forall_cons in H2. exists r0, r1, r2, r3, r4, r5. tauto.
Qed.
Lemma gf_of (x : Z) : (0 <=? x) && (x <? 32) = true -> gf x.
Proof. intros [H1 H2]%andb_true_iff. unfold gf. lia. Qed.
Local Hint Resolve gf_lxor gf_mul_range : gfr.
Local Hint Extern 5 (gf (Zpos _)) => (apply gf_of; reflexivity) : gfr.
Local Hint Extern 5 (gf 0) => (apply gf_of; reflexivity) : gfr.

Lemma six_zeros : six zeros.
Proof. split; [done|]. repeat constructor; auto with gfr; apply gf_of; reflexivity. Qed.
Lemma six_one : six one.
Proof. split; [done|]. repeat constructor; apply gf_of; reflexivity. Qed.
Lemma rstep_six r v : six r -> gf v -> six (rstep r v).
Proof.
  intros H Hv. apply six_inv in H as (r0 & r1 & r2 & r3 & r4 & r5 & -> & ? & ? & ? & ? & ? & ?). split; [done|]. cbn.
  repeat apply Forall_cons_2; auto 6 with gfr.
Qed.
Lemma remainder_six p : Forall gf p -> six (remainder p).
Proof. induction 1; cbn; [apply six_zeros|]. by apply rstep_six. Qed.

Lemma rstep_add r r' v v' : six r -> six r' -> gf v -> gf v' -> rstep (padd r r') (Z.lxor v v') = padd (rstep r v) (rstep r' v').
Proof.
  intros H H' Hv Hv'. apply six_inv in H as (r0 & r1 & r2 & r3 & r4 & r5 & -> & ? & ? & ? & ? & ? & ?).
  apply six_inv in H' as (s0 & s1 & s2 & s3 & s4 & s5 & -> & ? & ? & ? & ? & ? & ?). cbn.
  rewrite !(gf_mul_lxor_l r5 s5) by auto with gfr. repeat (apply f_equal2; [apply lxor4|]). reflexivity.
Qed.
Lemma rstep_scale c r v : gf c -> six r -> gf v -> rstep (pscale c r) (gf_mul c v) = pscale c (rstep r v).
Proof.
  intros Hc H Hv. apply six_inv in H as (r0 & r1 & r2 & r3 & r4 & r5 & -> & ? & ? & ? & ? & ? & ?). cbn.
  rewrite !gf_mul_lxor_r, !gf_mul_assoc by auto with gfr. reflexivity.
Qed.
Lemma rstep_zero r : six r -> rstep r 0 = zeros -> r = zeros.
Proof.
  intros H. apply six_inv in H as (r0 & r1 & r2 & r3 & r4 & r5 & -> & H0 & H1 & H2 & H3 & H4 & H5). cbn.
  intros E. injection E as E0 E1 E2 E3 E4 E5. rewrite Z.lxor_0_l in E0.
  assert (r5 = 0) as ->.
  { destruct (decide (r5 = 0)) as [|Hn]; [done|]. exfalso.
    destruct (gf_inv r5 H5 Hn) as (b & Hb & Hbr). assert (gf_mul (gf_mul b r5) 18 = 0) as K.
    { rewrite <- gf_mul_assoc by auto with gfr. by rewrite E0. }
    rewrite Hbr in K. vm_compute in K. discriminate K. }
  rewrite !gf_mul_0_l, Z.lxor_0_r in * by auto with gfr. by subst.
Qed.

Lemma padd_nil p : padd p [] = p.
Proof. by destruct p. Qed.
Lemma padd_gf p q : Forall gf p -> Forall gf q -> Forall gf (padd p q).
Proof.
  intros Hp. revert q. induction Hp as [|a p Ha Hp IH]; intros q Hq; [done|]. destruct Hq as [|b q Hb Hq]; [by constructor|].
  cbn. constructor; [by apply gf_lxor|by apply IH].
Qed.
Lemma pscale_gf a p : gf a -> Forall gf p -> Forall gf (pscale a p).
Proof. intros Ha Hp. unfold pscale. induction Hp; cbn; constructor; auto with gfr. Qed.
Lemma pmul_gf p q : Forall gf p -> Forall gf q -> Forall gf (pmul p q).
Proof.
  intros Hp Hq. induction Hp; cbn [pmul]; [constructor|]. apply padd_gf; [by apply pscale_gf|]. constructor; [auto with gfr|done].
Qed.

Lemma padd_zeros_l r : six r -> padd zeros r = r.
Proof. intros H. by apply six_inv in H as (r0 & r1 & r2 & r3 & r4 & r5 & -> & _). Qed.
Lemma padd_zeros_r r : six r -> padd r zeros = r.
Proof.
  intros H. apply six_inv in H as (r0 & r1 & r2 & r3 & r4 & r5 & -> & _). cbn. by rewrite !Z.lxor_0_r.
Qed.

Lemma remainder_add p q : Forall gf p -> Forall gf q -> remainder (padd p q) = padd (remainder p) (remainder q).
Proof.
  intros Hp. revert q. induction Hp as [|a p Ha Hp IH]; intros q Hq.
  { cbn [padd remainder]. by rewrite padd_zeros_l by (by apply remainder_six). }
  destruct Hq as [|b q Hb Hq].
  { cbn [padd]. change (remainder []) with zeros. rewrite padd_zeros_r; [done|]. apply remainder_six. by constructor. }
  cbn [padd remainder]. rewrite IH by done. apply rstep_add; auto using remainder_six.
Qed.
Lemma remainder_scale c p : gf c -> Forall gf p -> remainder (pscale c p) = pscale c (remainder p).
Proof.
  intros Hc. induction 1 as [|a p Ha Hp IH]; [reflexivity|]. change (pscale c (a :: p)) with (gf_mul c a :: pscale c p).
  cbn [remainder]. rewrite IH. apply rstep_scale; auto using remainder_six.
Qed.
Lemma rstep_zeros : rstep zeros 0 = zeros.
Proof. reflexivity. Qed.
Lemma pscale_zeros c : pscale c zeros = zeros.
Proof. reflexivity. Qed.
Lemma generator_gf : Forall gf generator.
Proof. repeat constructor; apply gf_of; reflexivity. Qed.
Lemma remainder_multiple q : Forall gf q -> remainder (pmul q generator) = zeros.
Proof.
  induction 1 as [|a q Ha Hq IH]; [done|]. cbn [pmul].
  assert (Forall gf (0 :: pmul q generator)) as K by (constructor; [auto with gfr|apply pmul_gf; [done|apply generator_gf] ]).
  rewrite remainder_add; [|apply pscale_gf; [done|apply generator_gf]|done].
  rewrite remainder_scale by (done || apply generator_gf).
  assert (remainder generator = zeros) as -> by (vm_compute; reflexivity).
  cbn [remainder]. by rewrite IH, rstep_zeros, pscale_zeros.
Qed.

(** The remainder depends on the coefficients only. *)
Lemma remainder_coef p : forall q, (forall i, coef p i = coef q i) -> remainder p = remainder q.
Proof.
  assert (forall q, (forall i, coef q i = 0) -> remainder q = zeros) as Z0.
  { induction q as [|a q IH]; intros H; [done|]. cbn. rewrite (IH (fun i => H (S i))). pose proof (H 0%nat) as E. cbn in E. by subst a. }
  induction p as [|a p IH]; intros q H.
  - symmetry. apply Z0. intros i. rewrite <- H. by destruct i.
  - destruct q as [|b q].
    + apply Z0. intros i. rewrite H. by destruct i.
    + cbn. pose proof (H 0%nat) as E. cbn in E. subst b. f_equal. apply IH. intros i. apply (H (S i)).
Qed.

Lemma coef_padd p q i : coef (padd p q) i = Z.lxor (coef p i) (coef q i).
Proof.
  revert q i. induction p as [|a p IH]; intros q i.
  { cbn [padd]. unfold coef. by destruct i. }
  destruct q as [|b q]; [unfold coef; cbn [padd]; destruct i; cbn; by rewrite Z.lxor_0_r|].
  destruct i as [|i]; [done|]. exact (IH q i).
Qed.

(** Division with remainder. *)
Lemma division p : Forall gf p -> exists q, Forall gf q /\ forall i, coef p i = coef (padd (pmul q generator) (remainder p)) i.
Proof.
  induction 1 as [|v p Hv Hp (q & Hq & IH)].
  - exists []. split; [constructor|]. intros i. cbn. by do 7 (destruct i as [|i]; [done|]).
  - pose proof (remainder_six p Hp) as H6. cbn [remainder].
    apply six_inv in H6 as (r0 & r1 & r2 & r3 & r4 & r5 & Er & ? & ? & ? & ? & ? & ?). rewrite Er in *.
    exists (r5 :: q). split; [by constructor|]. intros i. cbn [pmul]. rewrite !coef_padd.
    destruct i as [|i].
    + cbn. rewrite Z.lxor_0_r. lxors.
    + change (coef (v :: p) (S i)) with (coef p i). rewrite IH, coef_padd. change (coef (0 :: pmul q generator) (S i)) with (coef (pmul q generator) i).
      do 6 (destruct i as [|i]; [cbn; rewrite ?gf_mul_1_r; lxors|]). unfold coef. cbn.
      destruct i; cbn; lxors.
Qed.

Lemma codeword_remainder w : Forall gf w -> codeword w <-> remainder (rev (1 :: w)) = one.
Proof.
  intros Hw. assert (Forall gf (rev (1 :: w))) as Hr by (apply Forall_rev; constructor; [auto with gfr|done]). split.
  - intros (q & Hq & H). rewrite (remainder_coef _ _ H). rewrite remainder_add; [|apply pmul_gf; [done|apply generator_gf]|apply Forall_cons_2; [auto with gfr|constructor] ].
    rewrite remainder_multiple by done. reflexivity.
  - intros E. destruct (division _ Hr) as (q & Hq & H). exists q. split; [done|]. intros i. rewrite H, E, !coef_padd.
    f_equal. unfold coef, one. by do 7 (destruct i as [|i]; [done|]).
Qed.

(** * The code computes remainders *)

(** Six elements in one number. *)
Fixpoint pack (r : list Z) : Z := match r with [] => 0 | a :: r' => a + 32 * pack r' end.

Lemma lxor_32 a b x y : gf a -> gf b -> Z.lxor (a + 32 * x) (b + 32 * y) = Z.lxor a b + 32 * Z.lxor x y.
Proof.
  intros Ha Hb. pose proof (gf_lxor a b Ha Hb) as Hab. unfold gf in *.
  assert (forall c z, 0 <= c < 32 -> forall n, 0 <= n -> Z.testbit (c + 32 * z) n = if n <? 5 then Z.testbit c n else Z.testbit z (n - 5)) as K.
  { intros c z Hc n Hn. rewrite Z.add_comm. change 32 with (2 ^ 5). rewrite Z.mul_comm.
    destruct (Z.ltb_spec n 5).
    - rewrite <- (Z.mod_pow2_bits_low _ 5) by lia. rewrite Z.add_comm, Z.mod_add by lia. rewrite Z.mod_small by lia. reflexivity.
    - replace n with ((n - 5) + 5) at 1 by lia. rewrite <- Z.div_pow2_bits by lia. rewrite Z.div_add_l by lia.
      rewrite Z.div_small by lia. by rewrite Z.add_0_r. }
  apply Z.bits_inj'. intros n Hn. rewrite Z.lxor_spec, !K by lia. destruct (n <? 5); by rewrite Z.lxor_spec.
Qed.

Lemma pack_padd r s : Forall gf r -> Forall gf s -> pack (padd r s) = Z.lxor (pack r) (pack s).
Proof.
  intros Hr. revert s. induction Hr as [|a r Ha Hr IH]; intros s Hs; [by destruct s|].
  destruct Hs as [|b s Hb Hs]; [cbn; by rewrite Z.lxor_0_r|].
  change (padd (a :: r) (b :: s)) with (Z.lxor a b :: padd r s). cbn [pack]. rewrite IH by done. by rewrite lxor_32.
Qed.
Lemma pack_range r : Forall gf r -> 0 <= pack r < 32 ^ Z.of_nat (length r).
Proof.
  induction 1 as [|a r Ha Hr IH]; [cbn; lia|]. cbn [pack length]. rewrite Nat2Z.inj_succ, Z.pow_succ_r by lia. unfold gf in *. lia.
Qed.

(** What the code adds for the coefficient that is shifted out. *)
Lemma generators t : gf t -> forall c,
  fold_left (fun acc '(i, g) => if Z.testbit t i then Z.lxor acc g else acc)
    [(0, 996825010); (1, 642813549); (2, 513874426); (3, 1027748829); (4, 705979059)] c =
  Z.lxor c (pack [gf_mul t 18; gf_mul t 29; gf_mul t 21; gf_mul t 20; gf_mul t 22; gf_mul t 29]).
Proof.
  intros Ht c.
  set (F := fun acc '(i, g) => if Z.testbit t i then Z.lxor acc g else acc).
  assert (forall l c, fold_left F l c = Z.lxor c (fold_left F l 0)) as K.
  { induction l as [|[i g] l IH]; intros x; cbn [fold_left]; [by rewrite Z.lxor_0_r|].
    rewrite IH, (IH (F 0 (i, g))). unfold F at 1 3. destruct (Z.testbit t i); [|done]. rewrite Z.lxor_0_l. by rewrite Z.lxor_assoc. }
  rewrite K. f_equal. unfold F. apply Z.eqb_eq. clear F K. revert t Ht.
  apply (all32 (fun t => fold_left (fun acc '(i, g) => if Z.testbit t i then Z.lxor acc g else acc)
    [(0, 996825010); (1, 642813549); (2, 513874426); (3, 1027748829); (4, 705979059)] 0 =?
    pack [gf_mul t 18; gf_mul t 29; gf_mul t 21; gf_mul t 20; gf_mul t 22; gf_mul t 29])).
  vm_compute. reflexivity.
Qed.

Lemma polymod_step_pack r v : six r -> gf v -> polymod_step (pack r) v = pack (rstep r v).
Proof.
  intros H Hv. apply six_inv in H as (r0 & r1 & r2 & r3 & r4 & r5 & -> & H0 & H1 & H2 & H3 & H4 & H5). unfold polymod_step.
  assert (Forall gf [r0; r1; r2; r3; r4]) as Hl by (repeat apply Forall_cons_2; auto).
  pose proof (pack_range _ Hl) as Hp. cbn [length] in Hp. change (32 ^ Z.of_nat 5) with (2 ^ 25) in Hp.
  assert (pack [r0; r1; r2; r3; r4; r5] = pack [r0; r1; r2; r3; r4] + r5 * 2 ^ 25) as E by (cbn [pack]; lia).
  assert (Z.shiftr (pack [r0; r1; r2; r3; r4; r5]) 25 = r5) as ->.
  { rewrite E, Z.shiftr_div_pow2 by lia. rewrite Z.div_add by lia. rewrite Z.div_small by lia. lia. }
  assert (Z.land (pack [r0; r1; r2; r3; r4; r5]) 33554431 = pack [r0; r1; r2; r3; r4]) as ->.
  { change 33554431 with (Z.ones 25). rewrite Z.land_ones, E by lia. rewrite Z.mod_add by lia. apply Z.mod_small. lia. }
  rewrite generators by done. rewrite Z.shiftl_mul_pow2 by lia. change (2 ^ 5) with 32.
  assert (Z.lxor (pack [r0; r1; r2; r3; r4] * 32) v = pack [v; r0; r1; r2; r3; r4]) as ->.
  { replace (pack [r0; r1; r2; r3; r4] * 32) with (0 + 32 * pack [r0; r1; r2; r3; r4]) by lia.
    replace v with (v + 32 * 0) at 1 by lia. rewrite lxor_32 by auto with gfr. rewrite Z.lxor_0_l, Z.lxor_0_r. reflexivity. }
  rewrite <- pack_padd; [reflexivity| |]; repeat apply Forall_cons_2; auto with gfr.
Qed.

Lemma polymod_remainder l : Forall gf l -> polymod l = pack (remainder (rev (1 :: l))).
Proof.
  intros Hl. unfold polymod. change 1 with (pack one) at 1.
  assert (forall r, six r -> fold_left polymod_step l (pack r) = pack (fold_left rstep l r)) as K.
  { induction Hl as [|v l Hv Hl IH]; intros r Hr; [done|]. cbn [fold_left]. rewrite polymod_step_pack by done. apply IH. by apply rstep_six. }
  rewrite K by apply six_one. f_equal.
  assert (forall p, remainder p = fold_right (fun a r => rstep r a) zeros p) as F by (induction p; cbn; congruence).
  rewrite F, fold_left_rev_right. reflexivity.
Qed.

(** The six values behind the data. *)
Lemma checksum_values hrp data : Forall gf (hrp_expand hrp) -> Forall gf data -> exists r0 r1 r2 r3 r4 r5,
  remainder (rev (1 :: hrp_expand hrp ++ data ++ zeros)) = [r0; r1; r2; r3; r4; r5] /\
  gf r0 /\ gf r1 /\ gf r2 /\ gf r3 /\ gf r4 /\ gf r5 /\
  bech32_checksum hrp data = [r5; r4; r3; r2; r1; Z.lxor r0 1].
Proof.
  intros Hh Hd. assert (Forall gf (hrp_expand hrp ++ data ++ zeros)) as Hall.
  { rewrite !Forall_app. split; [done|]. split; [done|]. apply six_zeros. }
  unfold bech32_checksum. change [0; 0; 0; 0; 0; 0] with zeros. rewrite polymod_remainder by done.
  assert (six (remainder (rev (1 :: hrp_expand hrp ++ data ++ zeros)))) as H6.
  { apply remainder_six, Forall_rev. constructor; [auto with gfr|done]. }
  apply six_inv in H6 as (r0 & r1 & r2 & r3 & r4 & r5 & -> & H0 & H1 & H2 & H3 & H4 & H5).
  exists r0, r1, r2, r3, r4, r5. repeat (split; [done|]).
  assert (Z.lxor (pack [r0; r1; r2; r3; r4; r5]) 1 = pack [Z.lxor r0 1; r1; r2; r3; r4; r5]) as ->.
  { change 1 with (pack one). rewrite <- pack_padd; [|repeat apply Forall_cons_2; auto|apply six_one]. cbn. by rewrite !Z.lxor_0_r. }
  pose proof (gf_lxor r0 1 H0 ltac:(auto with gfr)) as H0'. revert H0'. generalize (Z.lxor r0 1). intros s0 H0'.
  cbn [map]. change 31 with (Z.ones 5). rewrite !Z.land_ones, !Z.shiftr_div_pow2 by lia. cbn [pack]. unfold gf in *.
  change (5 * (5 - 0)) with 25. change (5 * (5 - 1)) with 20. change (5 * (5 - 2)) with 15. change (5 * (5 - 3)) with 10.
  change (5 * (5 - 4)) with 5. change (5 * (5 - 5)) with 0.
  change (2 ^ 25) with 33554432. change (2 ^ 20) with 1048576. change (2 ^ 15) with 32768. change (2 ^ 10) with 1024.
  change (2 ^ 5) with 32. change (2 ^ 0) with 1.
  repeat (apply f_equal2; [Z.div_mod_to_equations; lia|]). reflexivity.
Qed.

Lemma remainder_six_values c0 c1 c2 c3 c4 c5 p : Forall gf p -> Forall gf [c0; c1; c2; c3; c4; c5] ->
  remainder ([c0; c1; c2; c3; c4; c5] ++ p) = padd (remainder (zeros ++ p)) [c0; c1; c2; c3; c4; c5].
Proof.
  intros Hp Hc. replace ([c0; c1; c2; c3; c4; c5] ++ p) with (padd (zeros ++ p) [c0; c1; c2; c3; c4; c5]).
  2: { cbn. rewrite !Z.lxor_0_l. f_equal. f_equal. f_equal. f_equal. f_equal. f_equal. apply padd_nil. }
  rewrite remainder_add; [|apply Forall_app; split; [apply six_zeros|done]|done]. f_equal.
  rewrite !Forall_cons in Hc. destruct Hc as (? & ? & ? & ? & ? & ? & _).
  cbn [remainder]. repeat (rewrite ?gf_mul_0_r; cbn [rstep zeros]; rewrite ?gf_mul_0_l, ?Z.lxor_0_r by auto with gfr). reflexivity.
Qed.

Lemma rev_values hrp data c5 c4 c3 c2 c1 c0 :
  rev (1 :: hrp ++ data ++ [c5; c4; c3; c2; c1; c0]) = [c0; c1; c2; c3; c4; c5] ++ rev (1 :: hrp ++ data).
Proof. rewrite app_assoc. change (1 :: (hrp ++ data) ++ [c5; c4; c3; c2; c1; c0]) with ((1 :: hrp ++ data) ++ [c5; c4; c3; c2; c1; c0]). by rewrite rev_app_distr. Qed.

(** The checksum of the code is the one with which the values are a codeword. *)
Lemma checksum_codeword hrp data c : Forall gf (hrp_expand hrp) -> Forall gf data -> length c = 6%nat -> Forall gf c ->
  codeword (hrp_expand hrp ++ data ++ c) <-> c = bech32_checksum hrp data.
Proof.
  intros Hh Hd Hlen Hc. rewrite codeword_remainder by (by rewrite !Forall_app).
  destruct (checksum_values hrp data Hh Hd) as (r0 & r1 & r2 & r3 & r4 & r5 & Er & H0 & H1 & H2 & H3 & H4 & H5 & ->).
  destruct c as [|c5 [|c4 [|c3 [|c2 [|c1 [|c0 [|] ] ] ] ] ] ]; try done.
  assert (Forall gf (rev (1 :: hrp_expand hrp ++ data))) as Hr.
  { apply Forall_rev. constructor; [auto with gfr|]. by apply Forall_app. }
  unfold zeros in Er. rewrite rev_values in Er. fold zeros in Er. rewrite rev_values, remainder_six_values; [|done|].
  2: { rewrite !Forall_cons in Hc |- *. tauto. }
  rewrite Er. cbn [padd]. unfold one. split.
  - intros E. injection E as E0 E1 E2 E3 E4 E5. apply Z.lxor_eq in E1, E2, E3, E4, E5. subst. repeat f_equal.
    rewrite <- E0. lxors.
  - intros [= -> -> -> -> -> ->]. rewrite !Z.lxor_nilpotent. f_equal. lxors.
Qed.

(** * Polynomials with few terms *)

(** The number of coefficients that are not zero. *)
Fixpoint weight (d : list Z) : nat := match d with [] => 0 | a :: d' => (if a =? 0 then 0 else 1) + weight d' end.
(** The remainder of x^k. *)
Fixpoint power (k : nat) : list Z := match k with O => one | S k' => rstep (power k') 0 end.

Lemma power_six k : six (power k).
Proof. induction k; cbn [power]; [apply six_one|]. apply rstep_six; [done|auto with gfr]. Qed.
Lemma pscale_six c r : gf c -> six r -> six (pscale c r).
Proof. intros Hc [H1 H2]. split; [unfold pscale; by rewrite map_length|by apply pscale_gf]. Qed.
Lemma power_shift c k : gf c -> rstep (pscale c (power k)) 0 = pscale c (power (S k)).
Proof. intros Hc. cbn [power]. rewrite <- rstep_scale by (auto using power_six with gfr). done. Qed.

Lemma coef_pscale c p i : coef (pscale c p) i = gf_mul c (coef p i).
Proof. unfold coef, pscale. rewrite <- (gf_mul_0_r c) at 1. apply map_nth. Qed.
Lemma coef_gf p i : Forall gf p -> gf (coef p i).
Proof.
  intros H. unfold coef. destruct (le_lt_dec (length p) i); [rewrite nth_overflow by done; auto with gfr|].
  rewrite Forall_forall in H. apply H. apply elem_of_list_In. by apply nth_In.
Qed.

(** The coefficient at [i] of the sum of the [cs] times the polynomials [l]. *)
Fixpoint comb (cs : list Z) (l : list (list Z)) (i : nat) : Z :=
  match cs, l with c :: cs', r :: l' => Z.lxor (gf_mul c (coef r i)) (comb cs' l' i) | _, _ => 0 end.

Lemma comb_gf cs l i : Forall gf cs -> Forall (Forall gf) l -> gf (comb cs l i).
Proof.
  intros Hc. revert l. induction Hc as [|c cs Hc Hcs IH]; intros l Hl; [apply gf_of; reflexivity|]. destruct Hl as [|r l Hr Hl]; [apply gf_of; reflexivity|].
  cbn. apply gf_lxor; [apply gf_mul_range; [done|by apply coef_gf]|by apply IH].
Qed.
Lemma comb_more cs l l' i : (length cs <= length l)%nat -> comb cs (l ++ l') i = comb cs l i.
Proof. revert l. induction cs as [|c cs IH]; intros [|r l] H; cbn in *; try done; [lia|]. rewrite IH by lia. done. Qed.
Lemma comb_0 cs l i : Forall (Forall gf) l -> weight cs = 0%nat -> comb cs l i = 0.
Proof.
  intros Hl. revert cs. induction Hl as [|r l Hr Hl IH]; intros [|c cs] H; try done. cbn in *.
  destruct (Z.eqb_spec c 0) as [->|]; [|done]. rewrite gf_mul_0_l by (by apply coef_gf). by apply IH.
Qed.

Lemma remainder_zeros k : remainder (replicate k 0) = zeros.
Proof. induction k as [|k IH]; [done|]. cbn [replicate remainder]. by rewrite IH. Qed.
Lemma remainder_power k : remainder (replicate k 0 ++ [1]) = power k.
Proof. induction k as [|k IH]; [vm_compute; reflexivity|]. cbn [replicate app remainder power]. by rewrite IH. Qed.
Lemma split_first k a d : replicate k 0 ++ a :: d = padd (pscale a (replicate k 0 ++ [1])) (replicate (S k) 0 ++ d).
Proof.
  induction k as [|k IH]; cbn.
  - by rewrite gf_mul_1_r, Z.lxor_0_r.
  - cbn in IH. rewrite gf_mul_0_r. f_equal. exact IH.
Qed.
Lemma zeros_gf k : Forall gf (replicate k 0).
Proof. induction k; cbn; [apply Forall_nil_2|apply Forall_cons_2; [apply gf_of; reflexivity|done] ]. Qed.

(** The remainder is the sum of those of the powers. *)
Lemma remainder_comb d i : Forall gf d -> forall k, coef (remainder (replicate k 0 ++ d)) i = comb d (map power (seq k (length d))) i.
Proof.
  induction 1 as [|a d Ha Hd IH]; intros k.
  - rewrite app_nil_r, remainder_zeros. cbn. do 6 (destruct i as [|i]; [done|]). by destruct i.
  - assert (Forall gf (replicate k 0 ++ [1])) as H1.
    { apply Forall_app. split; [apply zeros_gf|]. apply Forall_cons_2; [apply gf_of; reflexivity|apply Forall_nil_2]. }
    rewrite split_first, remainder_add, coef_padd, remainder_scale, coef_pscale, remainder_power; [|done|done|by apply pscale_gf|].
    + cbn [length seq map comb]. by rewrite IH.
    + apply Forall_app. split; [apply zeros_gf|done].
Qed.

(** The polynomial [w] with the multiple of [v] added that makes its coefficient zero where [v] has its first, all times a constant. *)
Fixpoint lead (v : list Z) : nat := match v with [] => 0 | a :: v' => if a =? 0 then S (lead v') else 0 end.
Definition elim (v w : list Z) : list Z := padd (pscale (coef v (lead v)) w) (pscale (coef w (lead v)) v).
Definition nonzero (v : list Z) : bool := existsb (fun a => negb (a =? 0)) v.

(** No [n] of the polynomials are linearly dependent. *)
Fixpoint free (n : nat) : list (list Z) -> bool :=
  match n with
  | O => fun _ => true
  | S n' => fix go l := match l with
      | [] => true
      | r :: l' => nonzero r && (if (n' =? 0)%nat then true else free n' (map (elim r) l')) && go l'
      end
  end.

Lemma elim_gf v w : Forall gf v -> Forall gf w -> Forall gf (elim v w).
Proof. intros Hv Hw. apply padd_gf; apply pscale_gf; try done; by apply coef_gf. Qed.

Lemma comb_elim r l i : Forall gf r -> Forall (Forall gf) l -> forall cs, Forall gf cs ->
  comb cs (map (elim r) l) i = Z.lxor (gf_mul (coef r (lead r)) (comb cs l i)) (gf_mul (comb cs l (lead r)) (coef r i)).
Proof.
  intros Hr. pose proof (coef_gf r i Hr) as Gi. pose proof (coef_gf r (lead r) Hr) as Gq.
  induction 1 as [|w l Hw Hl IH]; intros cs Hcs.
  - destruct cs; cbn; by rewrite gf_mul_0_r, gf_mul_0_l.
  - destruct Hcs as [|c cs Hc Hcs]; [cbn; by rewrite gf_mul_0_r, gf_mul_0_l|]. cbn [map comb]. rewrite IH by done.
    unfold elim. rewrite coef_padd, !coef_pscale.
    pose proof (coef_gf w i Hw). pose proof (coef_gf w (lead r) Hw).
    pose proof (comb_gf cs l i Hcs Hl). pose proof (comb_gf cs l (lead r) Hcs Hl).
    rewrite !gf_mul_lxor_r. rewrite gf_mul_lxor_l by (try done; by apply gf_mul_range).
    rewrite !gf_mul_assoc by done. rewrite (gf_mul_comm c (coef r (lead r))) by done.
    rewrite <- !gf_mul_assoc by done. apply lxor4.
Qed.

Lemma nonzero_coef r : nonzero r = true -> ~ forall i, coef r i = 0.
Proof.
  intros H K. unfold nonzero in H. apply existsb_exists in H as (x & Hx & Hn). apply (In_nth _ _ 0) in Hx as (i & _ & E).
  specialize (K i). unfold coef in K. rewrite K in E. by subst.
Qed.

Lemma free_sound n : forall l, free n l = true -> Forall (Forall gf) l -> forall cs, Forall gf cs -> (length cs <= length l)%nat ->
  (weight cs <= n)%nat -> (forall i, comb cs l i = 0) -> weight cs = 0%nat.
Proof.
  induction n as [|n IHn]; [intros; lia|]. induction l as [|r l IHl]; intros Hf Hl cs Hcs Hlen Hw E.
  { destruct cs; [done|cbn in Hlen; lia]. }
  cbn in Hf. apply andb_true_iff in Hf as [Hf Hf3]. apply andb_true_iff in Hf as [Hf1 Hf2].
  apply Forall_cons_1 in Hl as [Hr Hl]. destruct Hcs as [|c cs Hc Hcs]; [done|]. cbn in Hlen, Hw, E |- *.
  destruct (Z.eqb_spec c 0) as [->|Hn].
  { apply (IHl Hf3 Hl cs Hcs); [lia|lia|]. intros i. specialize (E i). by rewrite gf_mul_0_l in E by (by apply coef_gf). }
  exfalso. assert (forall i, comb cs l i = gf_mul c (coef r i)) as Ec by (intros i; symmetry; apply Z.lxor_eq, E).
  assert (weight cs = 0%nat) as W0.
  { destruct (Nat.eqb_spec n 0) as [->|Hn0]; [lia|].
    apply (IHn (map (elim r) l) Hf2); [|done|rewrite map_length; lia|lia|].
    - apply Forall_map. eapply Forall_impl; [exact Hl|]. intros w Hw'. by apply elim_gf.
    - intros i. rewrite comb_elim by done. rewrite !Ec. pose proof (coef_gf r i Hr). pose proof (coef_gf r (lead r) Hr).
      rewrite gf_mul_assoc by done. rewrite (gf_mul_comm _ c) by done. apply Z.lxor_nilpotent. }
  apply (nonzero_coef r Hf1). intros i. specialize (Ec i). rewrite comb_0 in Ec by done.
  destruct (gf_inv c Hc Hn) as (g & Hg & Hgc). assert (gf_mul g (gf_mul c (coef r i)) = 0) as K by (rewrite <- Ec; apply gf_mul_0_r).
  pose proof (coef_gf r i Hr). by rewrite gf_mul_assoc, Hgc, gf_mul_1_l in K by done.
Qed.

(** No three of the powers up to 37 have a multiple of one among their combinations. *)
Definition upper (r : list Z) : list Z := drop 1 r.
Lemma powers_free : free 3 (map (fun k => upper (power k)) (seq 1 37)) = true.
Proof. vm_compute. reflexivity. Qed.

Lemma comb_upper cs l i : comb cs (map upper l) i = comb cs l (S i).
Proof.
  revert l. induction cs as [|c cs IH]; intros [|r l]; try done. cbn [map comb]. rewrite IH. do 2 f_equal.
  unfold coef, upper. destruct r; [by destruct i|]. cbn. by destruct i.
Qed.

Lemma weight_4 d : Forall gf d -> (length d <= 38)%nat -> (weight d <= 4)%nat -> remainder d = zeros -> weight d = 0%nat.
Proof.
  induction 1 as [|a d Ha Hd IH]; intros Hlen Hw E; [done|]. cbn in Hlen, Hw |- *.
  destruct (Z.eqb_spec a 0) as [->|Hn].
  { cbn [remainder] in E. apply IH; [lia|lia|]. apply rstep_zero; [by apply remainder_six|done]. }
  exfalso. assert (forall i, Z.lxor (gf_mul a (coef one i)) (comb d (map power (seq 1 (length d))) i) = 0) as K.
  { intros i. pose proof (remainder_comb (a :: d) i ltac:(by constructor) 0) as R. cbn [replicate app] in R. rewrite E in R.
    cbn [length seq map comb power] in R. rewrite <- R. do 6 (destruct i as [|i]; [done|]). by destruct i. }
  assert (Forall (Forall gf) (map power (seq 1 (length d)))) as G.
  { apply Forall_map. apply Forall_forall. intros k _. apply power_six. }
  assert (weight d = 0%nat) as W0.
  { apply (free_sound 3 _ powers_free); [|done|rewrite map_length, seq_length; lia|lia|].
    - apply Forall_map. apply Forall_forall. intros k _. unfold compose, upper. apply Forall_drop. apply power_six.
    - intros i. rewrite <- map_map. rewrite comb_upper. replace 37%nat with (length d + (37 - length d))%nat by lia.
      rewrite seq_app, map_app, comb_more by (by rewrite map_length, seq_length).
      specialize (K (S i)). replace (coef one (S i)) with 0 in K; [by rewrite gf_mul_0_r in K|].
      do 5 (destruct i as [|i]; [done|]). by destruct i. }
  specialize (K 0%nat). rewrite comb_0 in K by done. change (coef one 0) with 1 in K. rewrite gf_mul_1_r, Z.lxor_0_r in K. done.
Qed.

(** * Words that differ in few places *)

(** The number of places at which two lists of one length differ. *)
Fixpoint differences {A} `{EqDecision A} (x y : list A) : nat :=
  match x, y with a :: x', b :: y' => (if decide (a = b) then 0 else 1) + differences x' y' | _, _ => 0 end.

Lemma differences_app {A} `{EqDecision A} (h x y : list A) : differences (h ++ x) (h ++ y) = differences x y.
Proof. induction h as [|a h IH]; [done|]. cbn. by rewrite decide_True. Qed.
Lemma differences_weight x y : length x = length y -> differences x y = weight (padd x y).
Proof.
  revert y. induction x as [|a x IH]; intros [|b y] H; try done. cbn [differences padd weight]. rewrite IH by (by injection H).
  f_equal. destruct (decide (a = b)) as [->|Hn]; [by rewrite Z.lxor_nilpotent|].
  destruct (Z.eqb_spec (Z.lxor a b) 0) as [E|]; [|done]. by apply Z.lxor_eq in E.
Qed.
Lemma differences_0 {A} `{EqDecision A} (x y : list A) : length x = length y -> differences x y = 0%nat -> x = y.
Proof.
  revert y. induction x as [|a x IH]; intros [|b y] H E; try done. cbn in E. destruct (decide (a = b)) as [->|]; [|done].
  f_equal. apply IH; [by injection H|done].
Qed.
Lemma differences_char x y : Forall gf x -> Forall gf y -> differences (map bech32_char x) (map bech32_char y) = differences x y.
Proof.
  intros Hx. revert y. induction Hx as [|a x Ha Hx IH]; intros y Hy; [done|]. destruct Hy as [|b y Hb Hy]; [done|]. cbn. rewrite IH by done.
  f_equal. destruct (decide (a = b)) as [->|Hn]; [by rewrite decide_True|]. rewrite decide_False; [done|].
  intros E. by apply bech32_char_inj in E.
Qed.
Lemma weight_app x y : weight (x ++ y) = (weight x + weight y)%nat.
Proof. induction x as [|a x IH]; [done|]. cbn. rewrite IH. lia. Qed.
Lemma weight_rev x : weight (rev x) = weight x.
Proof. induction x as [|a x IH]; [done|]. cbn. rewrite weight_app, IH. cbn. lia. Qed.
Lemma padd_app x y x' y' : length x = length y -> padd (x ++ x') (y ++ y') = padd x y ++ padd x' y'.
Proof. revert y. induction x as [|a x IH]; intros [|b y] H; try done. cbn. f_equal. apply IH. by injection H. Qed.
Lemma padd_rev x y : length x = length y -> padd (rev x) (rev y) = rev (padd x y).
Proof.
  revert y. induction x as [|a x IH]; intros [|b y] H; try done. cbn [rev padd].
  rewrite padd_app by (rewrite !rev_length; by injection H). rewrite IH by (by injection H). done.
Qed.
Lemma padd_length x y : length x = length y -> length (padd x y) = length x.
Proof. revert y. induction x as [|a x IH]; intros [|b y] H; try done. cbn. f_equal. apply IH. by injection H. Qed.
Lemma coef_self x i : coef (padd x x) i = 0.
Proof. rewrite coef_padd. apply Z.lxor_nilpotent. Qed.

Lemma codeword_distance h x y : Forall gf h -> Forall gf x -> Forall gf y -> length x = length y -> (length x <= 38)%nat ->
  codeword (h ++ x) -> codeword (h ++ y) -> x <> y -> (5 <= differences x y)%nat.
Proof.
  intros Hh Hx Hy Hlen H38 Cx Cy Hne. apply codeword_remainder in Cx; [|by apply Forall_app]. apply codeword_remainder in Cy; [|by apply Forall_app].
  destruct (le_lt_dec 5 (differences x y)) as [|Hlt]; [done|]. exfalso. apply Hne. apply differences_0; [done|].
  rewrite differences_weight in * by done. rewrite <- (weight_rev (padd x y)) in *.
  change (1 :: h ++ x) with ((1 :: h) ++ x) in Cx. change (1 :: h ++ y) with ((1 :: h) ++ y) in Cy. rewrite rev_app_distr in Cx, Cy.
  assert (Forall gf (rev (1 :: h))) as Hr by (apply Forall_rev; constructor; [auto with gfr|done]).
  apply Forall_rev in Hx, Hy.
  assert (Forall gf (padd (rev x) (rev y))) as Hp by (by apply padd_gf).
  rewrite padd_rev in Hp by done.
  apply weight_4; [done|rewrite rev_length, padd_length by done; lia|lia|].
  rewrite <- padd_rev by done.
  rewrite (remainder_coef _ (padd (rev x ++ rev (1 :: h)) (rev y ++ rev (1 :: h)))).
  - rewrite remainder_add, Cx, Cy by (by apply Forall_app). reflexivity.
  - intros i. rewrite padd_app by (by rewrite !rev_length). unfold coef.
    destruct (le_lt_dec (length (padd (rev x) (rev y))) i) as [Hi|Hi].
    + rewrite nth_overflow by done. rewrite app_nth2 by lia. symmetry. apply coef_self.
    + by rewrite app_nth1 by lia.
Qed.

(** * Addresses *)

(** The [n] lowest bits of a number, the highest first. *)
Definition low_bits (n : nat) (z : Z) : list bool := map (fun i => Z.testbit z (Z.of_nat i)) (rev (seq 0 n)).
(** The characters of BIP 173 in the order of their values. *)
Definition alphabet : bytes := bytes_of "qpzry9x8gf2tvdw0s3jn54khce6mua7l".
Definition characters (l : list Z) : bytes := map (fun v => nth (Z.to_nat v) alphabet "000"%char) l.

(** [a] is the address with the bits of [digest] according to BIP 173: [head] and characters that carry the bits in groups of five and
    six more with which the values of all, behind those of the prefix, are a codeword. *)
Definition bip173 (head : string) (prefix : list Z) (digest : bytes) (a : string) : Prop :=
  exists data check, Forall gf data /\ Forall gf check /\ length check = 6%nat /\
    concat (map (low_bits 5) data) = concat (map (fun b => low_bits 8 (b2z b)) digest) /\
    codeword (prefix ++ data ++ check) /\ bytes_of a = bytes_of head ++ characters (data ++ check).

(** The ledgers, the texts in front and the values of the prefixes: the high three bits of the letters, zero, the low five bits. *)
Definition bech32_ledgers : list (string * string * list Z) :=
  [("fetchai", "fetch1", [3; 3; 3; 3; 3; 0; 6; 5; 20; 3; 8]);
   ("cosmos", "cosmos1", [3; 3; 3; 3; 3; 3; 0; 3; 15; 19; 13; 15; 19])].

Lemma low5_val v : gf v -> bits_val (low_bits 5 v) = v.
Proof. intros Hv. apply Z.eqb_eq. apply (all32 (fun v => bits_val (low_bits 5 v) =? v)); [|done]. vm_compute. reflexivity. Qed.
Lemma val_low5 a b c d e : low_bits 5 (bits_val [a; b; c; d; e]) = [a; b; c; d; e] /\ gf (bits_val [a; b; c; d; e]).
Proof. split; [destruct a, b, c, d, e; reflexivity|]. apply gf_of. destruct a, b, c, d, e; reflexivity. Qed.

Lemma groups5_bits n : forall l, length l = (5 * n)%nat -> concat (map (low_bits 5) (groups5 l)) = l /\ Forall gf (groups5 l) /\ length (groups5 l) = n.
Proof.
  induction n as [|n IH]; intros l Hl; [destruct l; [split; [done|split; [apply Forall_nil_2|done] ]|cbn in Hl; lia]|].
  destruct l as [|a [|b [|c [|d [|e l] ] ] ] ]; try (cbn in Hl; lia).
  destruct (IH l) as (I1 & I2 & I3); [cbn in Hl; lia|]. destruct (val_low5 a b c d e) as [V1 V2].
  cbn [groups5 map concat length]. rewrite V1, I1, I3. split; [done|]. split; [by constructor|done].
Qed.
Lemma bits_groups5 data : Forall gf data -> groups5 (concat (map (low_bits 5) data)) = data.
Proof.
  induction 1 as [|v data Hv Hd IH]; [done|]. cbn [map concat].
  change (low_bits 5 v) with [Z.testbit v 4; Z.testbit v 3; Z.testbit v 2; Z.testbit v 1; Z.testbit v 0].
  cbn [app groups5]. rewrite IH. f_equal. by apply low5_val.
Qed.
Lemma byte_bits_low b : byte_bits b = low_bits 8 (b2z b).
Proof. reflexivity. Qed.

Lemma encode_bip173 hrp head prefix digest a :
  bytes_of head = bytes_of hrp ++ [z2b 49] -> hrp_expand (bytes_of hrp) = prefix -> Forall gf prefix -> length digest = 20%nat ->
  (bytes_of a = bech32_encode (bytes_of hrp) (groups5 (concat (map byte_bits digest))) <-> bip173 head prefix digest a).
Proof.
  intros Hh He Hp Hd. assert (map byte_bits digest = map (fun b => low_bits 8 (b2z b)) digest) as Eb by reflexivity.
  destruct (groups5_bits 32 (concat (map byte_bits digest))) as (G1 & G2 & G3); [rewrite concat_bits_length, Hd; reflexivity|].
  unfold bech32_encode, bip173. rewrite Hh. split.
  - intros E. set (data := groups5 (concat (map byte_bits digest))) in *.
    destruct (checksum_values (bytes_of hrp) data) as (r0 & r1 & r2 & r3 & r4 & r5 & _ & H0 & H1 & H2 & H3 & H4 & H5 & Ec); [by rewrite He|done|].
    assert (Forall gf (bech32_checksum (bytes_of hrp) data)) as Hc.
    { rewrite Ec. repeat apply Forall_cons_2; auto with gfr. }
    exists data, (bech32_checksum (bytes_of hrp) data). split; [done|]. split; [done|]. split; [by rewrite Ec|]. split; [by rewrite G1|].
    split; [|by rewrite E, <- app_assoc]. rewrite <- He. apply checksum_codeword; [by rewrite He|done|by rewrite Ec|done|done].
  - intros (data & check & Fd & Fc & Lc & Eq & Cw & E). rewrite Eb, <- Eq, bits_groups5 by done. rewrite <- He in Cw.
    apply checksum_codeword in Cw; [|by rewrite He|done|done|done]. rewrite E, <- Cw, <- app_assoc. reflexivity.
Qed.

(** The digits of bytes, the high one first; the characters of a digit. *)
Definition nibbles (l : bytes) : list Z := flat_map (fun b => [b2z b / 16; b2z b mod 16]) l.
Definition small_digit (v : Z) : byte := nth (Z.to_nat v) (bytes_of "0123456789abcdef") "000"%char.
Definition large_digit (v : Z) : byte := nth (Z.to_nat v) (bytes_of "0123456789ABCDEF") "000"%char.
(** The text is a hexadecimal form of the bytes, with small and large letters. *)
Definition spelled (text b : bytes) : Prop := Forall2 (fun c v => c = small_digit v \/ c = large_digit v) text (nibbles b).

Lemma nibbles_range b v : In v (nibbles b) -> 0 <= v < 16.
Proof.
  unfold nibbles. rewrite in_flat_map. intros (x & _ & H). pose proof (b2z_range x).
  destruct H as [<-|[<-|[] ] ]; [split; [apply Z.div_pos; lia|apply Z.div_lt_upper_bound; lia]|apply Z.mod_pos_bound; lia].
Qed.
Lemma hex_nibbles b : hex_encode b = map small_digit (nibbles b).
Proof.
  induction b as [|x b IH]; [done|]. cbn [hex_encode nibbles flat_map app map]. fold (nibbles b). rewrite IH.
  assert (forall v, 0 <= v < 16 -> hex_digit v = small_digit v) as K by (apply z16; reflexivity).
  destruct (byte_split x) as (_ & H1 & H2). by rewrite !K by lia.
Qed.
Lemma lower_digit v : 0 <= v < 16 -> forall c, lower c = small_digit v <-> c = small_digit v \/ c = large_digit v.
Proof.
  intros Hv c. assert (bool_decide (lower c = small_digit v) = bool_decide (c = small_digit v) || bool_decide (c = large_digit v)) as K.
  { revert v Hv. pose proof (all_bytes_complete c) as Hc.
    assert (forallb (fun n => forallb (fun c => Bool.eqb (bool_decide (lower c = small_digit (Z.of_nat n)))
      (bool_decide (c = small_digit (Z.of_nat n)) || bool_decide (c = large_digit (Z.of_nat n)))) all_bytes) (seq 0 16) = true) as T by (vm_compute; reflexivity).
    intros v Hv. rewrite forallb_forall in T. specialize (T (Z.to_nat v) ltac:(apply in_seq; lia)). rewrite forallb_forall in T.
    specialize (T c Hc). rewrite Z2Nat.id in T by lia. by apply eqb_prop in T. }
  split; intros H.
  - rewrite bool_decide_true in K by done. symmetry in K. apply orb_true_iff in K as [K|K]; apply bool_decide_eq_true in K; auto.
  - apply (bool_decide_unpack (lower c = small_digit v)), Is_true_true. rewrite K. apply orb_true_iff. destruct H; [left|right]; by apply bool_decide_eq_true_2.
Qed.
Lemma hex_spelled text b : hex_decode text = Some b <-> spelled text b.
Proof.
  rewrite hex_decode_iff, hex_nibbles. unfold spelled. pose proof (nibbles_range b) as HR. revert text HR.
  generalize (nibbles b). induction l as [|v l IH]; intros [|c text] HR; cbn.
  - split; [constructor|done].
  - split; [done|]. intros H. inversion H.
  - split; [done|]. intros H. inversion H.
  - rewrite Forall2_cons. rewrite <- (lower_digit v) by (apply HR; by left). rewrite <- IH by (intros; apply HR; by right).
    split; [intros [= -> ->]; done|intros [-> ->]; done].
Qed.

(** The address of a key on the fetchai and cosmos ledgers is exactly the text of BIP 173 with the digest of the key. *)
Theorem C95_address P ledger head prefix key a : digests_ok P -> In (ledger, head, prefix) bech32_ledgers ->
  agent_address P ledger key = Ok a <->
  exists b, spelled (bytes_of key) b /\ bip173 head prefix (p_ripemd160 P (p_sha256 P b)) a.
Proof.
  intros [HR _] Hin.
  assert (exists hrp, bytes_of head = bytes_of hrp ++ [z2b 49] /\ hrp_expand (bytes_of hrp) = prefix /\ Forall gf prefix /\
    agent_address P ledger key = cosmos_address P hrp key) as (hrp & H1 & H2 & H3 & ->).
  { destruct Hin as [[= <- <- <-]|[[= <- <- <-]|[] ] ].
    - exists "fetch". split; [reflexivity|]. split; [vm_compute; reflexivity|]. split; [repeat apply Forall_cons_2; auto with gfr|reflexivity].
    - exists "cosmos". split; [reflexivity|]. split; [vm_compute; reflexivity|]. split; [repeat apply Forall_cons_2; auto with gfr|reflexivity]. }
  unfold cosmos_address. destruct (hex_decode (bytes_of key)) as [b|] eqn:Eb.
  - pose proof (encode_bip173 hrp head prefix (p_ripemd160 P (p_sha256 P b)) a H1 H2 H3 (HR _)) as K. split.
    + intros E%Ok_inj. exists b. split; [by apply hex_spelled|]. apply K. by rewrite <- E, string_bytes.
    + intros (b' & Hb' & Hb). apply hex_spelled in Hb'. rewrite Eb in Hb'. injection Hb' as <-.
      apply K in Hb. f_equal. rewrite <- Hb. apply bytes_string.
  - split; [done|]. intros (b & Hb & _). apply hex_spelled in Hb. by rewrite Eb in Hb.
Qed.
Print Assumptions C95_address.

(** Two addresses of one of these ledgers differ in at least five characters: with up to four wrong characters an address is not the
    address of any other key. *)
Theorem C95_distance P ledger key key' a a' : digests_ok P -> ledger = "fetchai" \/ ledger = "cosmos" ->
  agent_address P ledger key = Ok a -> agent_address P ledger key' = Ok a' -> a <> a' ->
  String.length a = String.length a' /\ (5 <= differences (bytes_of a) (bytes_of a'))%nat.
Proof.
  intros HP Hl Ha Ha' Hne.
  assert (exists head prefix, In (ledger, head, prefix) bech32_ledgers /\ Forall gf prefix) as (head & prefix & Hin & Hp).
  { destruct Hl as [-> | ->]; [exists "fetch1"|exists "cosmos1"]; eexists; (split; [cbn; eauto|repeat apply Forall_cons_2; auto with gfr]). }
  apply (C95_address P ledger head prefix key a HP Hin) in Ha as (b & _ & data & check & D1 & D2 & D3 & D4 & D5 & D6).
  apply (C95_address P ledger head prefix key' a' HP Hin) in Ha' as (b' & _ & data' & check' & E1 & E2 & E3 & E4 & E5 & E6).
  assert (forall d x, concat (map (low_bits 5) d) = concat (map (fun b => low_bits 8 (b2z b)) x) -> length x = 20%nat -> length d = 32%nat) as Len.
  { intros d x H Hx. assert (forall d, length (concat (map (low_bits 5) d)) = (5 * length d)%nat) as L5.
    { clear. induction d as [|v d IH]; [done|]. cbn [map concat length]. rewrite app_length, IH.
      change (length (low_bits 5 v)) with 5%nat. lia. }
    pose proof (concat_bits_length x) as L. rewrite Hx in L.
    assert (length (concat (map (low_bits 5) d)) = 160%nat) as L' by (rewrite H; exact L). rewrite L5 in L'. lia. }
  destruct HP as [HR _]. pose proof (Len _ _ D4 (HR _)) as L1. pose proof (Len _ _ E4 (HR _)) as L2.
  assert (Forall gf (data ++ check)) as F1 by (by apply Forall_app). assert (Forall gf (data' ++ check')) as F2 by (by apply Forall_app).
  assert (length (data ++ check) = length (data' ++ check')) as L3 by (rewrite !app_length; lia).
  assert (bytes_of a <> bytes_of a') as Hb.
  { intros E. apply Hne. rewrite <- (bytes_string a), <- (bytes_string a'). by rewrite E. }
  split.
  { assert (forall s, String.length s = length (bytes_of s)) as HL by (clear; induction s as [|c s IH]; [done|]; cbn; by rewrite IH).
    rewrite !HL, D6, E6, !app_length. unfold characters. rewrite !map_length. by rewrite L3. }
  rewrite D6, E6, differences_app. change (characters (data ++ check)) with (map bech32_char (data ++ check)).
  change (characters (data' ++ check')) with (map bech32_char (data' ++ check')). rewrite differences_char by done.
  apply (codeword_distance prefix); try done; [rewrite app_length; lia|]. intros E. apply Hb. by rewrite D6, E6, E.
Qed.
Print Assumptions C95_distance.

(** The address of EIP-55: the digits, letters large where the digit of the digest of the small ones is at least eight. *)
Definition eip55 (keccak : bytes -> bytes) (address : bytes) (a : string) : Prop :=
  bytes_of a = bytes_of "0x" ++ zip_with (fun v h => if 8 <=? h then large_digit v else small_digit v)
    (nibbles address) (nibbles (keccak (map small_digit (nibbles address)))).

Lemma nibbles_lookup l : forall i, nibbles l !! i = (fun b => if Nat.even i then b2z b / 16 else b2z b mod 16) <$> l !! (i / 2)%nat.
Proof.
  induction l as [|x l IH]; intros i; [by destruct (i / 2)%nat|].
  destruct i as [|[|i] ]; [done|done|]. change (nibbles (x :: l) !! S (S i)) with (nibbles l !! i). rewrite IH.
  replace (S (S i)) with (i + 1 * 2)%nat by lia. rewrite Nat.div_add by lia. rewrite (Nat.add_comm (i / 2)). cbn [Nat.add].
  replace (Nat.even (i + 1 * 2)) with (Nat.even i); [done|]. rewrite Nat.add_comm. done.
Qed.

Lemma checksum_eip55 keccak address a : length (keccak (hex_encode address)) = 32%nat -> length address = 20%nat ->
  bytes_of a = checksum_address keccak address <-> eip55 keccak address a.
Proof.
  intros Lk La. unfold eip55. rewrite <- hex_nibbles. unfold checksum_address.
  assert (imap (checksum_char (keccak (hex_encode address))) (hex_encode address) =
    zip_with (fun v h => if 8 <=? h then large_digit v else small_digit v) (nibbles address) (nibbles (keccak (hex_encode address)))) as ->; [|done].
  generalize dependent (keccak (hex_encode address)). intros hash Lk. apply list_eq. intros i.
  rewrite list_lookup_imap, lookup_zip_with, hex_nibbles, list_lookup_fmap.
  pose proof (nibbles_range address) as HR. pose proof (nibbles_lookup address i) as Na. pose proof (nibbles_lookup hash i) as Nh.
  destruct (nibbles address !! i) as [v|] eqn:Ev; [|done].
  assert (0 <= v < 16) as Hv by (apply HR; by eapply elem_of_list_In, elem_of_list_lookup_2).
  destruct (address !! (i / 2)%nat) as [x|] eqn:Ex; [|done].
  apply lookup_lt_Some in Ex. destruct (lookup_lt_is_Some_2 hash (i / 2)%nat ltac:(lia)) as [h Eh].
  rewrite Eh in Nh. cbn in Nh |- *. rewrite Nh. cbn. f_equal. unfold checksum_char. rewrite (nth_lookup_Some _ _ (z2b 0) _ Eh).
  set (n := if Nat.even i then _ else _). clearbody n. destruct (Z.leb_spec 8 n) as [Hn|Hn].
  - replace (7 <? n) with true by lia. clear - Hv. revert v Hv. apply z16; reflexivity.
  - replace (7 <? n) with false by lia. by rewrite andb_false_r.
Qed.

(** The address of a key on the ethereum ledger is exactly that of EIP-55 with the last twenty bytes of the digest of the key; the first
    two characters of the key are not looked at. *)
Theorem C95_ethereum P key a : digests_ok P ->
  agent_address P "ethereum" key = Ok a <->
  exists x y text b, bytes_of key = x :: y :: text /\ spelled text b /\ eip55 (p_keccak256 P) (drop 12 (p_keccak256 P b)) a.
Proof.
  intros [_ HK]. change (agent_address P "ethereum" key) with (ethereum_address P key). unfold ethereum_address.
  assert (String.length key = length (bytes_of key)) as -> by (clear; induction key as [|c s IH]; [done|]; cbn; by rewrite IH).
  destruct (bytes_of key) as [|x [|y text] ]; [cbn; naive_solver|cbn; naive_solver|].
  cbn [length Nat.ltb Nat.leb drop skipn]. rewrite drop_0. destruct (hex_decode text) as [b|] eqn:Eb.
  - pose proof (checksum_eip55 (p_keccak256 P) (drop 12 (p_keccak256 P b)) a (HK _) ltac:(rewrite drop_length, HK; done)) as K. split.
    + intros E%Ok_inj. exists x, y, text, b. split; [done|]. split; [by apply hex_spelled|]. apply K. by rewrite <- E, string_bytes.
    + intros (x' & y' & t' & b' & [= <- <- <-] & Hb & He). apply hex_spelled in Hb. rewrite Eb in Hb. injection Hb as <-.
      apply K in He. f_equal. rewrite <- He. apply bytes_string.
  - split; [done|]. intros (x' & y' & t' & b' & [= <- <- <-] & Hb & _). apply hex_spelled in Hb. by rewrite Eb in Hb.
Qed.
Print Assumptions C95_ethereum.

(** So an address of these ledgers with up to four characters wrong is not represented by anybody: no record is accepted for it. *)
Theorem C95_mistyped P r a peer a' : digests_ok P -> is_valid_por P r a peer = Ok (0, false) ->
  r_ledger r = "fetchai" \/ r_ledger r = "cosmos" ->
  String.length a' = String.length a -> (1 <= differences (bytes_of a) (bytes_of a') <= 4)%nat ->
  forall r' peer', is_valid_por P r' a' peer' <> Ok (0, false).
Proof.
  intros HP Hr Hl Hlen Hd r' peer' Hr'.
  apply C29_accepted, represents_iff in Hr, Hr'.
  assert (agent_address P (r_ledger r) (r_public_key r) = Ok a) as A by naive_solver.
  assert (agent_address P (r_ledger r') (r_public_key r') = Ok a') as A' by naive_solver.
  assert (a <> a') as Hne.
  { intros <-. assert (forall l : bytes, differences l l = 0%nat) as K by (induction l as [|x l IH]; [done|]; cbn; by rewrite decide_True by done).
    rewrite K in Hd. lia. }
  assert (r_ledger r' = r_ledger r) as El.
  { destruct (C58_shape _ _ _ _ HP A) as [(E1 & E2 & _)|[(E1 & E2 & _)|(E1 & E2 & _)] ],
      (C58_shape _ _ _ _ HP A') as [(F1 & F2 & _)|[(F1 & F2 & _)|(F1 & F2 & _)] ]; congruence || (rewrite E2, F2 in Hlen; lia). }
  rewrite El in A'. destruct (C95_distance P _ _ _ a a' HP Hl A A' Hne). lia.
Qed.
Print Assumptions C95_mistyped.

(** Five is the best bound: some addresses differ in no more. *)
Theorem C95_six_refuted : exists P key key' a a', digests_ok P /\
  agent_address P "fetchai" key = Ok a /\ agent_address P "fetchai" key' = Ok a' /\ a <> a' /\ differences (bytes_of a) (bytes_of a') = 5%nat.
Proof.
  exists toy, "0000000000000000000000000000000000000000", "00000000000000a0000003000000000000000000",
    "fetch1qqqqqqqqqqqqqqqqqqqqqqqqqqqqqqqqq7fm92", "fetch1qqqqqqqqqqq2qqqqqvqqqqqqqqqqqqqqq7jmdt".
  split; [exact (proj1 C58_example)|]. split; [vm_compute; reflexivity|]. split; [vm_compute; reflexivity|]. split; [done|]. vm_compute. reflexivity.
Qed.
Print Assumptions C95_six_refuted.

(** Two keys that differ in one bit: their addresses differ in one character of the data and in all six of the check. *)
Example C95_example :
  digests_ok toy /\ In ("fetchai", "fetch1", [3; 3; 3; 3; 3; 0; 6; 5; 20; 3; 8]) bech32_ledgers /\
  agent_address toy "fetchai" "0A0b0c0D" = Ok "fetch1pg9scrg8qurswpc8qurswpc8qurswpc80ay04q" /\
  agent_address toy "fetchai" "0A0b0c0C" = Ok "fetch1pg9scrq8qurswpc8qurswpc8qurswpc8h9sf32" /\
  differences (bytes_of "fetch1pg9scrg8qurswpc8qurswpc8qurswpc80ay04q") (bytes_of "fetch1pg9scrq8qurswpc8qurswpc8qurswpc8h9sf32") = 7%nat /\
  agent_address toy "ethereum" "0x00000000000000000000000081aBcdef" = Ok "0x81abcdef09090909090909090909090909090909".
Proof. split; [exact (proj1 C58_example)|]. split; [by left|]. vm_compute. done. Qed.

(** One character of an accepted address changed. *)
Example C95_mistyped_example :
  let r := Record_ "s" "fetchai" "fetch1pg9scrg8qurswpc8qurswpc8qurswpc80ay04q" "0A0b0c0D"
             "peer" (string_of [z2b 10; z2b 11; z2b 12; z2b 13; "p"%char; "e"%char; "e"%char; "r"%char]) "" "" in
  is_valid_por toy r "fetch1pg9scrg8qurswpc8qurswpc8qurswpc80ay04q" "peer" = Ok (0, false) /\
  differences (bytes_of "fetch1pg9scrg8qurswpc8qurswpc8qurswpc80ay04q") (bytes_of "fetch1pg9scrg8qurswpc8qurswpc8qurswpc80ay44q") = 1%nat.
Proof. vm_compute. done. Qed.
