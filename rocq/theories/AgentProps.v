(** Properties of the connection of an agent to its node: C49, C50, C61, C62. *)
From Coq Require Import ZArith NArith List String Ascii Lia.
From stdpp Require Import base tactics list strings.
From Verif Require Import GoBase Bytes Utf8 WireModel ProtoModel CryptoModel PorModel CryptoProps PorProps AcnModel DelegateProps AgentModel.
Open Scope string_scope.
Open Scope list_scope.
Open Scope Z_scope.

(** ** C50 *)

Lemma float64_small d : 0 < d -> d < 2 ^ 53 -> float64_of d = d.
Proof.
  intros H1 H2. unfold float64_of. assert (Z.log2 d < 53) by (apply Z.log2_lt_pow2; lia).
  destruct (Z.leb_spec (Z.log2 d - 52) 0); lia.
Qed.

(** Rounding stays within the same power of two, or reaches the next. *)
Lemma float64_range d : 0 < d -> 2 ^ Z.log2 d <= float64_of d <= 2 ^ (Z.log2 d + 1).
Proof.
  intros H. unfold float64_of. pose proof (Z.log2_spec d H) as [Hl Hu].
  rewrite <- Z.add_1_r in Hu.
  destruct (Z.leb_spec (Z.log2 d - 52) 0) as [He|He]; [lia|].
  set (e := Z.log2 d - 52) in *. set (up := orb _ _).
  assert (Hp : 0 < 2 ^ e) by (apply Z.pow_pos_nonneg; lia).
  assert (E1 : 2 ^ Z.log2 d = 2 ^ 52 * 2 ^ e) by (rewrite <- Z.pow_add_r by lia; f_equal; lia).
  assert (E2 : 2 ^ (Z.log2 d + 1) = 2 ^ 53 * 2 ^ e) by (rewrite <- Z.pow_add_r by lia; f_equal; lia).
  assert (Hq1 : 2 ^ 52 <= d / 2 ^ e) by (apply Z.div_le_lower_bound; lia).
  assert (Hq2 : d / 2 ^ e < 2 ^ 53) by (apply Z.div_lt_upper_bound; lia).
  rewrite E1, E2. destruct up; nia.
Qed.

Lemma floor_log2_range rounds_up d :
  0 < d -> Z.log2 d <= floor_log2 rounds_up (float64_of d) <= Z.log2 d + 1.
Proof.
  intros H. pose proof (float64_range d H) as [Hl Hu]. unfold floor_log2. set (x := float64_of d) in *.
  assert (Hx : 0 < x) by (pose proof (Z.pow_pos_nonneg 2 (Z.log2 d) ltac:(lia) (Z.log2_nonneg _)); lia).
  pose proof (Z.log2_nonneg d).
  assert (Hlog : Z.log2 x = Z.log2 d \/ x = 2 ^ (Z.log2 d + 1)).
  { destruct (decide (x = 2 ^ (Z.log2 d + 1))) as [?|Hne]; [by right|left].
    apply Z.log2_unique; [done|]. rewrite <- Z.add_1_r. lia. }
  destruct Hlog as [E|E].
  - rewrite E. destruct (_ =? _); [lia|]. destruct (rounds_up x); lia.
  - assert (El : Z.log2 x = Z.log2 d + 1) by (rewrite E; apply Z.log2_pow2; lia).
    rewrite El, E, Z.eqb_refl. lia.
Qed.

(** Delays of at most 2^62 ns (146 years), and the default of one for what is not
    positive: from the first call on, every call gives the delay doubled [n] times, up
    to a limit between 2^61 and 2^63 ns. *)
Theorem C50_backoff rounds_up c :
  dc_delay c <= 2 ^ 62 -> dc_backoff_n c = 0 ->
  let d := Z.max 1 (dc_delay c) in
  exists k, 0 <= k /\ 2 ^ 61 <= d * 2 ^ k < 2 ^ 63 /\
    forall n m, 0 <= n < 2 ^ 64 -> 0 <= m < 2 ^ 64 ->
      (backoff_delay rounds_up n c).2 = d * 2 ^ Z.min n k /\
      (backoff_delay rounds_up m (backoff_delay rounds_up n c).1).2 = d * 2 ^ Z.min m k.
Proof.
  intros Hd H0 d.
  assert (Ed : (if dc_delay c <=? 0 then 1 else dc_delay c) = d) by (unfold d; destruct (Z.leb_spec (dc_delay c) 0); lia).
  assert (Hd1 : 0 < d <= 2 ^ 62) by lia. clearbody d.
  set (l := floor_log2 rounds_up (float64_of d)).
  pose proof (floor_log2_range rounds_up d ltac:(lia)) as Hl. fold l in Hl.
  pose proof (Z.log2_nonneg d). pose proof (Z.log2_spec d ltac:(lia)) as [Hp1 Hp2]. rewrite <- Z.add_1_r in Hp2.
  assert (Hl62 : l <= 62).
  { destruct (decide (d = 2 ^ 62)) as [E|E].
    - unfold l. rewrite E. by vm_compute.
    - assert (Z.log2 d < 62) by (apply Z.log2_lt_pow2; lia). lia. }
  exists (62 - l). split; [lia|].
  assert (Hpow : forall x, 0 <= x -> 0 < 2 ^ x) by (intros; by apply Z.pow_pos_nonneg).
  assert (Hlow : 2 ^ 61 <= d * 2 ^ (62 - l)).
  { destruct (decide (l = 0)) as [El|El].
    - rewrite El. change (62 - 0) with 62. lia.
    - assert (E : 2 ^ 61 = 2 ^ (l - 1) * 2 ^ (62 - l)) by (rewrite <- Z.pow_add_r by lia; f_equal; lia).
      assert (2 ^ (l - 1) <= 2 ^ Z.log2 d) by (apply Z.pow_le_mono_r; lia).
      pose proof (Hpow (62 - l) ltac:(lia)). nia. }
  assert (Hhigh : d * 2 ^ (62 - l) < 2 ^ 63).
  { assert (E : 2 ^ 63 = 2 ^ (l + 1) * 2 ^ (62 - l)) by (rewrite <- Z.pow_add_r by lia; f_equal; lia).
    assert (2 ^ (Z.log2 d + 1) <= 2 ^ (l + 1)) by (apply Z.pow_le_mono_r; lia).
    pose proof (Hpow (62 - l) ltac:(lia)). nia. }
  split; [lia|].
  assert (Eu : uint64 (62 - l) = 62 - l) by (unfold uint64; apply Z.mod_small; lia).
  set (c1 := DelayConfig d (dc_max_delay c) (dc_jitter c) (62 - l)).
  assert (Hval : forall n, 0 <= n < 2 ^ 64 ->
    (let n' := if 62 - l <? n then 62 - l else n in if 64 <=? n' then 0 else wrap64 (d * 2 ^ n')) = d * 2 ^ Z.min n (62 - l)).
  { intros n Hn. replace (if 62 - l <? n then 62 - l else n) with (Z.min n (62 - l)) by (destruct (Z.ltb_spec (62 - l) n); lia).
    cbv zeta. destruct (Z.leb_spec 64 (Z.min n (62 - l))); [lia|]. apply wrap64_id.
    assert (2 ^ Z.min n (62 - l) <= 2 ^ (62 - l)) by (apply Z.pow_le_mono_r; lia).
    pose proof (Hpow (Z.min n (62 - l)) ltac:(lia)). nia. }
  assert (Hc : forall n, backoff_delay rounds_up n c =
     (c1, let n' := if 62 - l <? n then 62 - l else n in if 64 <=? n' then 0 else wrap64 (d * 2 ^ n'))).
  { intros n. unfold backoff_delay. rewrite H0, Z.eqb_refl, Ed. fold l. rewrite Eu. done. }
  assert (Hc1 : forall n, backoff_delay rounds_up n c1 =
     (c1, let n' := if 62 - l <? n then 62 - l else n in if 64 <=? n' then 0 else wrap64 (d * 2 ^ n'))).
  { intros n. unfold backoff_delay. change (dc_backoff_n c1) with (62 - l).
    destruct (Z.eqb_spec (62 - l) 0) as [E0|E0]; [|reflexivity].
    unfold c1. cbn [dc_delay dc_max_delay dc_jitter]. replace (if d <=? 0 then 1 else d) with d by (destruct (Z.leb_spec d 0); lia).
    fold l. rewrite Eu. done. }
  intros n m Hn Hm. rewrite Hc. cbn [fst snd]. rewrite Hc1. cbn [snd]. split; by apply Hval.
Qed.
Print Assumptions C50_backoff.

(** So the delays of one configuration never decrease with the number of attempts and
    stay positive. *)
Theorem C50_grows rounds_up c n m :
  dc_delay c <= 2 ^ 62 -> dc_backoff_n c = 0 -> 0 <= n <= m -> m < 2 ^ 64 ->
  0 < (backoff_delay rounds_up n c).2 <= (backoff_delay rounds_up m (backoff_delay rounds_up n c).1).2 /\
  (backoff_delay rounds_up m (backoff_delay rounds_up n c).1).2 < 2 ^ 63.
Proof.
  intros Hd H0 Hn Hm. destruct (C50_backoff rounds_up c Hd H0) as (k & Hk & Hb & H).
  destruct (H n m) as [-> ->]; [lia..|]. set (d := Z.max 1 (dc_delay c)) in *. assert (0 < d) by lia.
  assert (Hpow : forall x, 0 <= x -> 0 < 2 ^ x) by (intros; by apply Z.pow_pos_nonneg).
  assert (2 ^ Z.min n k <= 2 ^ Z.min m k) by (apply Z.pow_le_mono_r; lia).
  assert (2 ^ Z.min m k <= 2 ^ k) by (apply Z.pow_le_mono_r; lia).
  pose proof (Hpow (Z.min n k) ltac:(lia)). nia.
Qed.
Print Assumptions C50_grows.

(** Expected but false: that every configured delay is safe. *)
Theorem C50_any_delay_refuted rounds_up :
  (backoff_delay rounds_up 1 (DelayConfig max_int64 0 1 0)).2 = -2 /\
  forall n, 64 <= n < 2 ^ 64 -> (backoff_delay rounds_up n (DelayConfig max_int64 0 1 0)).2 = 0.
Proof.
  assert (E : floor_log2 rounds_up (float64_of max_int64) = 63) by (unfold floor_log2; by vm_compute).
  assert (Eu : uint64 (62 - 63) = 2 ^ 64 - 1) by done.
  split.
  - unfold backoff_delay. cbn [dc_backoff_n dc_delay]. rewrite Z.eqb_refl.
    change (if max_int64 <=? 0 then 1 else max_int64) with max_int64. rewrite E, Eu. by vm_compute.
  - intros n Hn. unfold backoff_delay. cbn [dc_backoff_n dc_delay]. rewrite Z.eqb_refl.
    change (if max_int64 <=? 0 then 1 else max_int64) with max_int64. rewrite E, Eu. cbn [dc_backoff_n dc_delay snd].
    destruct (Z.ltb_spec (2 ^ 64 - 1) n); [lia|]. destruct (Z.leb_spec 64 n); lia.
Qed.
Print Assumptions C50_any_delay_refuted.

(** Combined delays saturate. *)
Theorem C50_combine delays :
  Forall (fun d => 0 <= d < 2 ^ 63) delays ->
  combine_delays delays = Z.min (2 ^ 63 - 1) (fold_right Z.add 0 delays).
Proof.
  intros H. unfold combine_delays.
  set (f := fun total d : Z => _).
  assert (Hs : Forall (fun d => 0 <= d < 2 ^ 63) delays -> 0 <= fold_right Z.add 0 delays).
  { clear. induction delays; cbn; [lia|]. inversion 1; subst. specialize (IHdelays ltac:(done)). lia. }
  assert (Hf : forall delays t, Forall (fun d => 0 <= d < 2 ^ 63) delays -> 0 <= t <= 2 ^ 63 - 1 ->
     fold_left f delays t = Z.min (2 ^ 63 - 1) (t + fold_right Z.add 0 delays)).
  { clear. induction delays as [|d l IH]; intros t Hl Ht; cbn [fold_left fold_right]; [lia|].
    inversion Hl as [|? ? Hd Hl']; subst.
    assert (Hs : 0 <= fold_right Z.add 0 l).
    { clear -Hl'. induction l; cbn; [lia|]. inversion Hl'; subst. specialize (IHl ltac:(done)). lia. }
    assert (E : f t d = Z.min (2 ^ 63 - 1) (t + d)).
    { unfold f. replace (uint64 d) with d by (unfold uint64; rewrite Z.mod_small; lia).
      replace (uint64 (t + d)) with (t + d) by (unfold uint64; rewrite Z.mod_small; lia).
      unfold max_int64. cbv zeta. destruct (Z.ltb_spec (2 ^ 63 - 1) (t + d)); lia. }
    rewrite E, IH by (done || lia). lia. }
  rewrite Hf by (done || lia). specialize (Hs H). apply wrap64_id. lia.
Qed.
Print Assumptions C50_combine.

(** The random part is below the configured one; a configuration without it crashes. *)
Theorem C50_random j c :
  (0 < dc_jitter c -> exists r, random_delay j c = Ok r /\ 0 <= r < dc_jitter c) /\
  (dc_jitter c <= 0 -> is_panic (random_delay j c) = true).
Proof.
  unfold random_delay. destruct (Z.leb_spec (dc_jitter c) 0).
  - split; [lia|done].
  - split; [|lia]. intros _. eexists. split; [done|]. apply Z.mod_pos_bound. lia.
Qed.
Print Assumptions C50_random.

Example C50_example :
  map (fun n => (backoff_delay (fun _ => false) n default_config).2) [0; 1; 34; 35; 2 ^ 64 - 1] =
    [500000000; 1000000000; 8589934592000000000; 8589934592000000000; 8589934592000000000] /\
  combine_delays [2 ^ 63 - 1; 2 ^ 63 - 1; 5] = 2 ^ 63 - 1 /\ combine_delays [3; 4] = 7 /\
  (backoff_delay (fun _ => false) 3 (DelayConfig (-7) 0 1 0)).2 = 8.
Proof. vm_compute. done. Qed.

(** ** C49 *)

(** What comes of one attempt. *)
Definition reg_accepted (rec : record) (a : reg_attempt) : Prop :=
  (exists f, encode_acn (Some (PRegister (Some rec))) = Some f) /\ ra_write a = true /\
  exists b s, ra_read a = Ok b /\ decode_acn b = Some (Some (PStatus (Some s))) /\ sb_code s = 0.
Definition reg_crashes (rec : record) (a : reg_attempt) : Prop :=
  (exists f, encode_acn (Some (PRegister (Some rec))) = Some f) /\ ra_write a = true /\
  ((exists b, ra_read a = Ok b /\ decode_acn b = Some (Some (PStatus None))) \/ exists p, ra_read a = Panic p).
Definition reg_refused (rec : record) (a : reg_attempt) : Prop :=
  ~ reg_accepted rec a /\ ~ reg_crashes rec a.

Lemma register_cases rec a :
  match (agent_register rec a).2 with
  | Ok _ => reg_accepted rec a
  | Panic _ => reg_crashes rec a
  | Err _ => reg_refused rec a
  end.
Proof.
  unfold agent_register, reg_refused, reg_accepted, reg_crashes.
  destruct (encode_acn (Some (PRegister (Some rec)))) as [f|]; cbn [snd].
  2:{ by split; intros [[? ?] _]. }
  destruct (ra_write a); cbn [negb snd].
  2:{ by split; intros (_ & ? & _). }
  unfold register_outcome, read_status. destruct (ra_read a) as [b|x|x]; cbn [rbind].
  - destruct (decode_acn b) as [[[| | | |[s|]]|]|] eqn:E; cbn [rbind];
      try (split; [intros (_ & _ & b' & s' & [= <-] & H & _); congruence
                  |intros (_ & _ & [(b' & [= <-] & H)|(p & H)]); congruence]).
    + destruct (Z.eqb_spec (sb_code s) SUCCESS) as [Ec|Ec].
      * split; [eauto|]. split; [done|]. by exists b, s.
      * split; [|intros (_ & _ & [(b' & [= <-] & H)|(p & H)]); congruence].
        intros (_ & _ & b' & s' & [= <-] & H & Hc). rewrite E in H. injection H as <-. done.
    + split; [eauto|]. split; [done|]. left. by exists b.
  - split; [by intros (_ & _ & ? & ? & ? & _)|by intros (_ & _ & [(? & ? & _)|(? & ?)])].
  - split; [eauto|]. split; [done|]. right. by exists x.
Qed.

(** One of the configurations registration goes through. *)
Definition plain (c : delay_config) : Prop :=
  dc_delay c = 500 * 10 ^ 6 /\ dc_max_delay c = 0 /\ dc_jitter c = 100 * 10 ^ 6 /\
  (dc_backoff_n c = 0 \/ 5 <= dc_backoff_n c).

Lemma default_delay_plain rounds_up j n c :
  plain c -> 0 <= n < 5 ->
  exists c' d, default_delay rounds_up j n c = (c', Ok d) /\ plain c' /\
    500 * 10 ^ 6 * 2 ^ n <= d < 500 * 10 ^ 6 * 2 ^ n + 100 * 10 ^ 6.
Proof.
  intros (H1 & H2 & H3 & H4) Hn. unfold default_delay.
  assert (Hb : exists c', backoff_delay rounds_up n c = (c', 500 * 10 ^ 6 * 2 ^ n) /\ plain c').
  { assert (Hn5 : In n [0; 1; 2; 3; 4]) by (cbn; lia).
    unfold backoff_delay. destruct (Z.eqb_spec (dc_backoff_n c) 0) as [E|E].
    - rewrite H1, H2, H3. change (if 500 * 10 ^ 6 <=? 0 then 1 else 500 * 10 ^ 6) with (500 * 10 ^ 6).
      pose proof (floor_log2_range rounds_up (500 * 10 ^ 6) ltac:(lia)) as Hl.
      change (Z.log2 (500 * 10 ^ 6)) with 28 in Hl. set (l := floor_log2 _ _) in *.
      assert (Hu : uint64 (62 - l) = 62 - l) by (unfold uint64; rewrite Z.mod_small; lia). rewrite Hu.
      cbn [dc_backoff_n dc_delay].
      exists (DelayConfig (500 * 10 ^ 6) 0 (100 * 10 ^ 6) (62 - l)).
      split; [|unfold plain; cbn [dc_backoff_n dc_delay dc_max_delay dc_jitter]; repeat split; lia].
      f_equal. destruct (Z.ltb_spec (62 - l) n); [lia|]. destruct (Z.leb_spec 64 n); [lia|].
      apply wrap64_id. cbn in Hn5. decompose [or] Hn5; subst; try done; lia.
    - exists c. split; [|done].
      f_equal. destruct (Z.ltb_spec (dc_backoff_n c) n); [lia|]. destruct (Z.leb_spec 64 n); [lia|].
      rewrite H1. apply wrap64_id. cbn in Hn5. decompose [or] Hn5; subst; try done; lia. }
  destruct Hb as (c' & -> & Hc'). pose proof Hc' as (H5 & H6 & H7 & H8).
  destruct (C50_random j c') as [Hr _]. destruct Hr as (r & -> & Hr); [lia|]. cbn [rbind].
  eexists _, _. split; [done|]. split; [done|].
  assert (Hp : 0 < 2 ^ n <= 16) by (split; [apply Z.pow_pos_nonneg; lia|change 16 with (2 ^ 4); apply Z.pow_le_mono_r; lia]).
  rewrite C50_combine by (repeat apply Forall_cons_2; try apply Forall_nil_2; lia). cbn. lia.
Qed.

(** Frames written and times waited. *)
Definition reg_frames (fs : list reg_effect) : list bytes := omap (fun f => match f with RFrame b => Some b | _ => None end) fs.
Definition reg_waits (fs : list reg_effect) : list Z := omap (fun f => match f with RWait d => Some d | _ => None end) fs.

Lemma frames_map l : reg_frames (map RFrame l) = l /\ reg_waits (map RFrame l) = [].
Proof.
  unfold reg_frames, reg_waits. induction l as [|b l [IH1 IH2]]; [done|]. cbn in *. by rewrite IH1, IH2.
Qed.

Lemma effects_step l d fs :
  reg_frames (map RFrame l ++ RWait d :: fs) = l ++ reg_frames fs /\ reg_waits (map RFrame l ++ RWait d :: fs) = d :: reg_waits fs.
Proof.
  unfold reg_frames, reg_waits. induction l as [|b l [IH1 IH2]]; [done|]. cbn in *. by rewrite IH1, IH2.
Qed.

Lemma loop_spec rounds_up rec attempt jitter todo n c fs r :
  plain c -> (n + todo = 5)%nat ->
  retry_loop rounds_up rec attempt jitter todo n c = (fs, r) ->
  (r = Ok tt <-> exists m, (n <= m < 5)%nat /\ reg_accepted rec (attempt m) /\ forall i, (n <= i < m)%nat -> reg_refused rec (attempt i)) /\
  (is_panic r = true <-> exists m, (n <= m < 5)%nat /\ reg_crashes rec (attempt m) /\ forall i, (n <= i < m)%nat -> reg_refused rec (attempt i)) /\
  (length (reg_frames fs) <= todo)%nat /\
  (forall f, In f (reg_frames fs) -> encode_acn (Some (PRegister (Some rec))) = Some f) /\
  (forall i w, reg_waits fs !! i = Some w ->
     500 * 10 ^ 6 * 2 ^ Z.of_nat (n + i) <= w < 500 * 10 ^ 6 * 2 ^ Z.of_nat (n + i) + 100 * 10 ^ 6) /\
  (forall m, (n <= m < 5)%nat -> ~ reg_refused rec (attempt m) -> (length (reg_waits fs) <= m - n)%nat).
Proof.
  revert n c fs r. induction todo as [|todo IH]; intros n c fs r Hc Hn.
  { cbn. intros [= <- <-]. split; [split; [done|by intros (m & ? & _); lia]|]. split; [split; [done|by intros (m & ? & _); lia]|].
    cbn. split; [lia|]. split; [done|]. split; [|intros; lia]. intros i w H. by rewrite lookup_nil in H. }
  cbn [retry_loop]. destruct (agent_register rec (attempt n)) as [frames r0] eqn:Ea.
  pose proof (register_cases rec (attempt n)) as Hr. rewrite Ea in Hr. cbn [snd] in Hr.
  destruct (frames_map frames) as [F1 F2].
  assert (Hfl : (length frames <= 1)%nat /\ forall f, In f frames -> encode_acn (Some (PRegister (Some rec))) = Some f).
  { revert Ea. unfold agent_register. destruct (encode_acn (Some (PRegister (Some rec)))) as [b|]; [|by intros [= <- _]; cbn; split; [lia|]].
    destruct (ra_write (attempt n)); cbn [negb]; intros [= <- _]; cbn; split; try lia; try done. by intros f [->|[]]. }
  destruct Hfl as [Hfl Hfe].
  assert (Hexcl : reg_accepted rec (attempt n) -> reg_crashes rec (attempt n) -> False).
  { intros (_ & _ & b & s & H1 & H2 & _) (_ & _ & [(b' & H3 & H4)|(p & H3)]); congruence. }
  assert (Hstop : forall Q : nat -> Prop, ~ reg_refused rec (attempt n) ->
     ((exists m, (n <= m < 5)%nat /\ Q m /\ forall i, (n <= i < m)%nat -> reg_refused rec (attempt i)) <-> Q n)).
  { intros Q Hnr. split; [|intros HQ; exists n; split; [lia|]; split; [done|intros; lia]].
    intros (m & Hm & HQ & Hi). destruct (decide (m = n)) as [->|Hne]; [done|]. destruct Hnr. apply Hi. lia. }
  destruct r0 as [[]|x|x].
  - intros [= <- <-]. rewrite F1, F2. assert (Hnr : ~ reg_refused rec (attempt n)) by (by intros [? _]).
    rewrite (Hstop (fun m => reg_accepted rec (attempt m)) Hnr), (Hstop (fun m => reg_crashes rec (attempt m)) Hnr).
    split; [done|]. split; [split; [done|intros; by destruct Hexcl]|]. split; [lia|]. split; [done|]. cbn. split; [|lia]. done.
  - assert (Hgo : forall Q : nat -> Prop, (Q n -> ~ reg_refused rec (attempt n)) ->
     ((exists m, (n <= m < 5)%nat /\ Q m /\ forall i, (n <= i < m)%nat -> reg_refused rec (attempt i)) <->
      exists m, (S n <= m < 5)%nat /\ Q m /\ forall i, (S n <= i < m)%nat -> reg_refused rec (attempt i))).
    { intros Q HQ. split.
      - intros (m & Hm & Hq & Hi). destruct (decide (m = n)) as [->|Hne]; [by destruct (HQ Hq)|].
        exists m. split; [lia|]. split; [done|]. intros i Hi'. apply Hi. lia.
      - intros (m & Hm & Hq & Hi). exists m. split; [lia|]. split; [done|]. intros i Hi'.
        destruct (decide (i = n)) as [->|]; [done|]. apply Hi. lia. }
    destruct todo as [|todo].
    + intros [= <- <-]. rewrite F1, F2. rewrite (Hgo (fun m => reg_accepted rec (attempt m))), (Hgo (fun m => reg_crashes rec (attempt m))).
      2,3: intros ? [? ?]; done.
      split; [split; [done|]; intros (m & ? & _); lia|]. split; [split; [done|]; intros (m & ? & _); lia|].
      split; [lia|]. split; [done|]. cbn. split; [done|lia].
    + destruct (default_delay_plain rounds_up (jitter n) (Z.of_nat n) c Hc ltac:(lia)) as (c' & d & Ed & Hc' & Hd). rewrite Ed.
      destruct (retry_loop rounds_up rec attempt jitter (S todo) (S n) c') as [fs' r'] eqn:El.
      assert (Hn' : (S n + S todo = 5)%nat) by lia.
      destruct (IH _ _ _ _ Hc' Hn' El) as (H1 & H2 & H3 & H4 & H5 & H6).
      pose proof Hc' as (_ & Hm & _). rewrite Hm. cbn [Z.ltb Z.compare andb]. intros [= <- <-].
      destruct (effects_step frames d fs') as [-> ->].
      rewrite (Hgo (fun m => reg_accepted rec (attempt m))), (Hgo (fun m => reg_crashes rec (attempt m))).
      2,3: intros ? [? ?]; done.
      split; [done|]. split; [done|]. split; [rewrite app_length; cbn in *; lia|].
      split; [intros f [?|?]%in_app_iff; [by apply Hfe|by apply H4]|]. cbn. split.
      * intros [|i] w.
        -- intros [= <-]. replace (n + 0)%nat with n by lia. lia.
        -- intros Hi. replace (n + S i)%nat with (S n + i)%nat by lia. by apply H5.
      * intros m Hm' Hnr. destruct (decide (m = n)) as [->|Hne]; [done|]. specialize (H6 m ltac:(lia) Hnr). lia.
  - intros [= <- <-]. rewrite F1, F2. assert (Hnr : ~ reg_refused rec (attempt n)) by (by intros [_ ?]).
    rewrite (Hstop (fun m => reg_accepted rec (attempt m)) Hnr), (Hstop (fun m => reg_crashes rec (attempt m)) Hnr).
    split; [split; [done|intros; by destruct Hexcl]|]. split; [done|]. split; [lia|]. split; [done|]. cbn. split; [|lia]. done.
Qed.

(** Registration reports success exactly if one of the first five attempts is accepted
    and all before it are refused; it crashes exactly if the first attempt that is not
    refused is answered by a status without content. *)
Theorem C49_success rounds_up rec attempt jitter fs r :
  register_with_retry rounds_up rec attempt jitter = (fs, r) ->
  (r = Ok tt <-> exists m, (m < 5)%nat /\ reg_accepted rec (attempt m) /\ forall i, (i < m)%nat -> reg_refused rec (attempt i)) /\
  (is_panic r = true <-> exists m, (m < 5)%nat /\ reg_crashes rec (attempt m) /\ forall i, (i < m)%nat -> reg_refused rec (attempt i)).
Proof.
  intros H. eapply loop_spec in H as (H1 & H2 & _); [|by vm_compute; repeat split; left|done].
  rewrite H1, H2. split; split; intros (m & Hm & Hq & Hi); exists m; (split; [lia|]); (split; [done|]); intros i Hi'; apply Hi; lia.
Qed.
Print Assumptions C49_success.

(** At most five registrations are written, all the same, nothing is done after the
    first attempt that is not refused, and before the retry number [i + 1] the waiting
    time is 0.5 * 2^i seconds and less than 0.1 s more. *)
Theorem C49_effects rounds_up rec attempt jitter fs r :
  register_with_retry rounds_up rec attempt jitter = (fs, r) ->
  (length (reg_frames fs) <= 5)%nat /\
  (forall f, In f (reg_frames fs) -> encode_acn (Some (PRegister (Some rec))) = Some f) /\
  (forall i w, reg_waits fs !! i = Some w ->
     500 * 10 ^ 6 * 2 ^ Z.of_nat i <= w < 500 * 10 ^ 6 * 2 ^ Z.of_nat i + 100 * 10 ^ 6) /\
  (forall m, (m < 5)%nat -> ~ reg_refused rec (attempt m) -> (length (reg_waits fs) <= m)%nat).
Proof.
  intros H. eapply loop_spec in H as (_ & _ & H1 & H2 & H3 & H4); [|by vm_compute; repeat split; left|done].
  split; [done|]. split; [done|]. split; [intros i w Hw; by apply (H3 i w)|].
  intros m Hm Hr. specialize (H4 m ltac:(lia) Hr). lia.
Qed.
Print Assumptions C49_effects.

(** The text of the error list: a list with a nil before an error crashes; a list
    without one gives the errors in order. *)
Theorem C49_errors errs :
  errors_text (map Some errs) = Ok errs /\
  forall e, is_panic (errors_text (None :: map Some errs ++ [Some e])) = true.
Proof.
  assert (Hcount : forall l : list string, length (List.filter (fun e => match e with Some _ => true | None => false end) (map Some l)) = length l).
  { induction l as [|x l IH]; cbn; [done|]. by rewrite IH. }
  set (f := fun (acc : res (list string)) (ie : nat * option string) =>
       let* l := acc in
       match ie with
       | (_, None) => Ok l
       | (i, Some e) => if (i <? length l)%nat then Ok (<[i := e]> l) else Panic "index out of range"
       end).
  assert (Hfold : forall l done n, (length l <= n)%nat ->
    fold_left f (combine (seq (length done) (length (map Some l))) (map Some l)) (Ok (done ++ replicate n "")) =
    Ok (done ++ l ++ replicate (n - length l) "")).
  { induction l as [|x l IH]; intros d n Hn; cbn [map length seq combine fold_left].
    - cbn. by rewrite Nat.sub_0_r.
    - cbn in Hn. destruct n as [|n]; [lia|].
      replace (f (Ok (d ++ replicate (S n) "")) (length d, Some x)) with (Ok ((d ++ [x]) ++ replicate n "")).
      2:{ unfold f. cbn [rbind]. rewrite app_length, replicate_length.
          destruct (Nat.ltb_spec (length d) (length d + S n)); [|lia].
          rewrite <- app_assoc. f_equal. rewrite insert_app_r_alt by lia. by rewrite Nat.sub_diag. }
      specialize (IH (d ++ [x]) n ltac:(lia)). rewrite app_length in IH. cbn in IH. rewrite Nat.add_1_r in IH.
      rewrite IH. rewrite <- app_assoc. done. }
  split.
  - unfold errors_text. fold f. rewrite Hcount. pose proof (Hfold errs [] (length errs) ltac:(lia)) as Hf. cbn [length app] in Hf.
    rewrite Hf. by rewrite Nat.sub_diag, app_nil_r.
  - intros e. unfold errors_text. fold f. cbn [List.filter]. 
    rewrite List.filter_app, app_length, Hcount. cbn [List.filter length seq combine fold_left].
    change (f (Ok (replicate (length errs + 1) "")) (0%nat, None)) with (@Ok (list string) (replicate (length errs + 1) "")).
    rewrite app_length, map_length. cbn [length]. rewrite Nat.add_1_r, seq_S. cbn [replicate].
    assert (Hz : forall (l1 : list nat) (l2 : list (option string)) a b, length l1 = length l2 ->
      combine (l1 ++ [a]) (l2 ++ [b]) = combine l1 l2 ++ [(a, b)]).
    { induction l1 as [|u l1 IH]; intros [|v l2] a b Hl; cbn in *; try done. rewrite IH; [done|lia]. }
    rewrite Hz by (by rewrite seq_length, map_length). rewrite fold_left_app.
    pose proof (Hfold errs [""] (length errs) ltac:(lia)) as Hf. rewrite map_length in Hf. cbn [length app] in Hf.
    rewrite Hf, Nat.sub_diag, app_nil_r. unfold f. cbn [fold_left rbind length].
    destruct (Nat.ltb_spec (1 + length errs) (S (length errs))); [lia|done].
Qed.
Print Assumptions C49_errors.

Definition reply (code : Z) : res bytes := frame_of (PStatus (Some (StatusBody code []))).
Example C49_example :
  let attempts := fun n : nat => match n with 0%nat => RegAttempt true (Err "timeout") | 1%nat => RegAttempt true (reply 10) | _ => RegAttempt true (reply 0) end in
  (match register_with_retry (fun _ => false) alice attempts (fun _ => 7) with
   | ([RFrame _; RWait 500000007; RFrame _; RWait 1000000007; RFrame _], Ok tt) => true | _ => false end) = true /\
  (match register_with_retry (fun _ => false) alice (fun _ => RegAttempt false (Err "")) (fun _ => 100000003) with
   | ([RWait 500000003; RWait 1000000003; RWait 2000000003; RWait 4000000003], Err _) => true | _ => false end) = true /\
  reg_accepted alice (RegAttempt true (reply 0)) /\ reg_refused alice (RegAttempt true (reply 10)).
Proof.
  split; [vm_compute; done|]. split; [vm_compute; done|].
  pose proof (register_cases alice (RegAttempt true (reply 0))) as H1.
  pose proof (register_cases alice (RegAttempt true (reply 10))) as H2.
  split.
  - revert H1. assert (E : is_ok (agent_register alice (RegAttempt true (reply 0))).2 = true) by (vm_compute; done).
    destruct (agent_register alice (RegAttempt true (reply 0))).2; done.
  - revert H2. assert (E : is_err (agent_register alice (RegAttempt true (reply 10))).2 = true) by (vm_compute; done).
    destruct (agent_register alice (RegAttempt true (reply 10))).2; done.
Qed.

(** ** C61 *)

(** The envelopes read for the agent, in order: those of reads without error, and once
    a Disconnect has begun also those that come with an error. [began]: whether it has. *)
Fixpoint for_agent (address : string) (began : bool) (evs : list agent_event) : list envelope :=
  match evs with
  | [] => []
  | ARead err (Some e) :: evs' =>
      (if String.eqb (e_to e) address && (negb err || began) then [e] else []) ++ for_agent address began evs'
  | ADisconnect _ :: evs' => for_agent address true evs'
  | _ :: evs' => for_agent address began evs'
  end.

(** The envelopes that Get returned. *)
Definition received (a : agent) : list envelope := omap id (ag_got a).

Definition agent_inv (a : agent) : Prop :=
  (ag_pending a <> None -> ag_listening a = true) /\
  (ag_phase a <> 0%nat -> ag_closing a = true) /\ (ag_closed a = true -> ag_closing a = true) /\
  (ag_closing a = false -> ag_connected a = true /\ ag_closed a = false).

Lemma omap_snoc {A B} (f : A -> option B) l x : omap f (l ++ [x]) = omap f l ++ match f x with Some y => [y] | None => [] end.
Proof. induction l as [|y l IH]; cbn; [by destruct (f x)|]. rewrite IH. by destruct (f y). Qed.

Lemma agent_order a evs a' :
  agent_inv a -> agent_run a evs = Some (Ok a') ->
  agent_inv a' /\ ag_address a' = ag_address a /\
  received a' ++ ag_queue a' ++ option_list (ag_pending a') =
  received a ++ ag_queue a ++ option_list (ag_pending a) ++ for_agent (ag_address a) (ag_closing a) evs.
Proof.
  revert a. induction evs as [|ev evs IH]; intros a Hi.
  { cbn. intros [= <-]. split; [done|]. split; [done|]. by rewrite app_nil_r. }
  cbn [agent_run]. destruct (agent_step a ev) as [[a1|x|x]|] eqn:Es; try done. intros Hr.
  assert (H : agent_inv a1 /\ ag_address a1 = ag_address a /\
    received a1 ++ ag_queue a1 ++ option_list (ag_pending a1) ++ for_agent (ag_address a) (ag_closing a1) evs =
    received a ++ ag_queue a ++ option_list (ag_pending a) ++ for_agent (ag_address a) (ag_closing a) (ev :: evs)).
  2:{ destruct H as (H1 & H2 & H3). destruct (IH _ H1 Hr) as (H4 & H5 & H6). split; [done|]. split; [congruence|].
      rewrite H2 in H6. congruence. }
  clear IH Hr. destruct Hi as (I1 & I2 & I3 & I4).
  destruct a as [addr closing connected socket listening pending queue closed phase got]. cbn in *.
  unfold received, agent_inv.
  destruct ev as [err e| | |ok]; cbn in Es.
  - destruct listening; [|done]. destruct pending; [done|]. injection Es as <-.
    destruct err; cbn [andb orb negb].
    + destruct closing; cbn [negb].
      * destruct e as [e|]; [|done]. destruct (String.eqb_spec (e_to e) addr) as [Et|Et]; cbn; [|done]. done.
      * cbn. destruct e as [e|]; [|done]. by rewrite andb_false_r.
    + destruct e as [e|]; [|done]. destruct (String.eqb_spec (e_to e) addr) as [Et|Et]; cbn; [|done]. done.
  - destruct pending as [e|]; [|done]. destruct closed; [done|].
    match type of Es with context [if ?b then _ else _] => destruct b; [|done] end. injection Es as <-. cbn.
    split; [done|]. split; [done|]. by rewrite <- app_assoc.
  - destruct queue as [|e l].
    + destruct closed; [|done]. injection Es as <-. cbn. split; [done|]. split; [done|]. rewrite omap_snoc. cbn. by rewrite app_nil_r.
    + injection Es as <-. cbn. split; [done|]. split; [done|]. rewrite omap_snoc. cbn. by rewrite <- app_assoc.
  - destruct phase as [|[|[|phase]]].
    + injection Es as <-. done.
    + specialize (I2 ltac:(done)). subst closing. destruct ok; injection Es as <-; done.
    + specialize (I2 ltac:(done)). subst closing. destruct closed; [done|]. injection Es as <-. done.
    + specialize (I2 ltac:(done)). subst closing. injection Es as <-. cbn. done.
Qed.

Lemma agent0_inv address : agent_inv (agent0 address).
Proof. by unfold agent_inv. Qed.

(** What Get returns, what is still queued and what the listener is about to queue are
    together exactly the envelopes read for the agent, in the order read. *)
Theorem C61_order address evs a :
  agent_run (agent0 address) evs = Some (Ok a) ->
  received a ++ ag_queue a ++ option_list (ag_pending a) = for_agent address false evs.
Proof. intros H. apply agent_order in H as (_ & _ & H); [done|apply agent0_inv]. Qed.
Print Assumptions C61_order.

(** So Get never returns an envelope for another address, or one that was not read. *)
Theorem C61_own address evs a e :
  agent_run (agent0 address) evs = Some (Ok a) -> In (Some e) (ag_got a) ->
  e_to e = address /\ exists err, In (ARead err (Some e)) evs.
Proof.
  intros H Hin. apply C61_order in H.
  assert (He : In e (for_agent address false evs)).
  { rewrite <- H. apply in_app_iff. left. unfold received. apply elem_of_list_In, elem_of_list_omap. exists (Some e).
    split; [by apply elem_of_list_In|done]. }
  clear -He. revert He. generalize false. induction evs as [|ev evs IH]; intros began; [done|]. cbn.
  assert (Hrest : forall b, In e (for_agent address b evs) -> e_to e = address /\ exists err, ev = ARead err (Some e) \/ In (ARead err (Some e)) evs).
  { intros b Hb. destruct (IH b Hb) as (? & err & ?). split; [done|]. exists err. by right. }
  destruct ev as [err [e'|]| | |ok]; try apply Hrest.
  intros [Hx|Hx]%in_app_iff; [|by apply Hrest in Hx].
  destruct (String.eqb_spec (e_to e') address) as [E|E]; [|done]. destruct (_ || _); [|done]. cbn in Hx. destruct Hx as [->|[]].
  split; [done|]. exists err. by left.
Qed.
Print Assumptions C61_own.

(** A read that fails while no Disconnect has begun ends the listener: the socket is
    closed and nothing is read any more, but the connection still counts as connected
    and the queue stays open, so that Get blocks for ever once it is empty. *)
Theorem C61_broken address evs a e rest a' :
  agent_run (agent0 address) evs = Some (Ok a) -> ag_closing a = false ->
  agent_run a (ARead true e :: rest) = Some (Ok a') -> (forall ok, ~ In (ADisconnect ok) rest) ->
  (forall err e', ~ In (ARead err e') rest) /\ ~ In APut rest /\
  ag_socket a' = false /\ ag_connected a' = true /\
  received a' ++ ag_queue a' = for_agent address false evs /\
  (ag_queue a' = [] -> agent_step a' AGet = None).
Proof.
  intros H Hc Hr Hd. pose proof (C61_order _ _ _ H) as Ho. apply agent_order in H as (Hi & Ha & _); [|apply agent0_inv].
  destruct Hi as (_ & _ & _ & Hcon). specialize (Hcon Hc) as [Hcon Hcl].
  destruct a as [addr closing connected socket listening pending queue closed phase got]. cbn in Hc, Hcon, Hcl, Ha, Ho. subst.
  cbn in Hr. destruct listening; [|done]. destruct pending; [done|]. cbn in Hr, Ho. rewrite app_nil_r in Ho.
  rewrite <- Ho. unfold received in *. cbn [ag_got] in *. clear Ho.
  revert queue got Hr. induction rest as [|ev rest IH]; intros queue got Hr.
  { injection Hr as <-. cbn. repeat split; try done; auto. by intros ->. }
  assert (Hd' : forall ok, ~ In (ADisconnect ok) rest) by (intros ok H; by destruct (Hd ok); right).
  destruct ev as [err e'| | |ok]; [done|done| |by destruct (Hd ok); left].
  cbn in Hr. destruct queue as [|e1 queue]; [done|].
  destruct (IH Hd' _ _ Hr) as (H1 & H2 & H3 & H4 & H5 & H6).
  split; [intros err e' [?|?]; [done|by eapply H1]|]. split; [by intros [?|?]|]. split; [done|]. split; [done|]. split; [|done].
  rewrite H5. rewrite omap_snoc. cbn. by rewrite <- app_assoc.
Qed.
Print Assumptions C61_broken.

(** Once a Disconnect has begun, failing reads never end the listener: it goes on
    reading for as long as it runs. *)
Theorem C61_spins a n :
  ag_listening a = true -> ag_pending a = None -> ag_closing a = true ->
  agent_run a (replicate n (ARead true None)) = Some (Ok a).
Proof.
  intros H1 H2 H3. induction n as [|n IH]; [done|]. cbn [replicate agent_run].
  assert (E : agent_step a (ARead true None) = Some (Ok a)).
  { destruct a as [addr closing connected socket listening pending queue closed phase got]. cbn in *. subst. done. }
  by rewrite E.
Qed.
Print Assumptions C61_spins.

(** A crash happens only when a Disconnect has closed the queue and the listener still
    had an envelope for it, or when a second Disconnect got as far as closing it. *)
Theorem C61_crash address evs x :
  agent_run (agent0 address) evs = Some (Panic x) ->
  exists before a ev after, evs = before ++ ev :: after /\ agent_run (agent0 address) before = Some (Ok a) /\
    ag_closed a = true /\ ag_closing a = true /\
    (ev = APut /\ (exists e, ag_pending a = Some e /\ e_to e = address) \/ exists ok, ev = ADisconnect ok).
Proof.
  assert (Hgen : forall a0 evs, agent_run a0 evs = Some (Panic x) ->
    exists before a ev after, evs = before ++ ev :: after /\ agent_run a0 before = Some (Ok a) /\ agent_step a ev = Some (Panic x)).
  { intros a0 evs0. revert a0. induction evs0 as [|ev evs0 IH]; intros a0; [done|]. cbn.
    destruct (agent_step a0 ev) as [[a1|y|y]|] eqn:Es; try done.
    - intros (before & a & ev' & after & -> & Hb & Hs)%IH. exists (ev :: before), a, ev', after. split; [done|]. cbn. by rewrite Es.
    - intros [= ->]. exists [], a0, ev, evs0. done. }
  intros (before & a & ev & after & -> & Hb & Hs)%Hgen. exists before, a, ev, after. split; [done|]. split; [done|].
  pose proof (C61_order _ _ _ Hb) as Ho.
  apply agent_order in Hb as ((_ & _ & Hc & _) & Ha & _); [|apply agent0_inv]. cbn in Ha.
  assert (Hown : forall e, ag_pending a = Some e -> e_to e = address).
  { intros e He. rewrite He in Ho. cbn in Ho.
    assert (Hin : In e (for_agent address false before)) by (rewrite <- Ho, app_assoc; apply in_app_iff; right; by left).
    clear -Hin. revert Hin. generalize false. induction before as [|ev evs IH]; intros began; [done|]. cbn.
    destruct ev as [err [e'|]| | |ok]; try apply IH. intros [Hx|Hx]%in_app_iff; [|by apply IH in Hx].
    destruct (String.eqb_spec (e_to e') address) as [E|E]; [|done]. destruct (_ || _); [|done]. by destruct Hx as [->|[]]. }
  destruct a as [addr closing connected socket listening pending queue closed phase got]. cbn in *. subst addr.
  destruct ev as [err e| | |ok]; cbn in Hs.
  - by destruct listening, pending.
  - destruct pending as [e|]; [|done]. destruct closed; [|by match type of Hs with context [if ?b then _ else _] => destruct b end].
    split; [done|]. split; [auto|]. left. split; [done|]. eauto.
  - destruct queue; [|done]. by destruct closed.
  - destruct phase as [|[|[|phase]]]; try done. destruct closed; [|done]. split; [done|]. split; [auto|]. eauto.
Qed.
Print Assumptions C61_crash.

(** Expected but false: that Disconnect is safe while envelopes arrive. *)
Definition to_me : envelope := Envelope "me" "you" "p" [] "".
Theorem C61_disconnect_refuted :
  is_Some (agent_run (agent0 "me") [ARead false (Some to_me); ADisconnect true; ADisconnect true; ADisconnect true; APut]) /\
  (forall a, agent_run (agent0 "me") [ARead false (Some to_me); ADisconnect true; ADisconnect true; ADisconnect true; APut] <> Some (Ok a)).
Proof. cbn. split; [by eexists|done]. Qed.
Print Assumptions C61_disconnect_refuted.

Example C61_example :
  (match agent_run (agent0 "me") [ARead false (Some to_me); APut; ARead false (Some (Envelope "you" "me" "p" [] "")); AGet; ARead true None] with
   | Some (Ok a) => received a = [to_me] /\ ag_queue a = [] /\ ag_socket a = false /\ ag_connected a = true
   | _ => False end) /\
  (match agent_run (agent0 "me") [ADisconnect true; ADisconnect true; ADisconnect true; ADisconnect true; AGet] with
   | Some (Ok a) => ag_got a = [None] /\ ag_connected a = false /\ ag_listening a = true /\ ag_closing a = true
   | _ => False end).
Proof. vm_compute. done. Qed.

(** ** C62 *)

(** The connection to a node counts as open exactly if the node signed the key of the
    last certificate of the TLS session with the configured peer key. *)
Theorem C62_pinned peer_key verify key d :
  socket_connect peer_key verify key d = Ok tt <->
  dl_ok d = true /\ exists certs pub pk signature, dl_certs d = certs ++ [Some pub] /\ dl_signature d = Ok signature /\
    peer_key key = Some pk /\ verify pk pub signature = Ok true.
Proof.
  unfold socket_connect. destruct (dl_ok d); cbn [negb]; [|by split; [|intros [? _]]].
  destruct (dl_certs d) as [|cert0 certs0] eqn:E using rev_ind.
  { split; [done|]. intros (_ & certs & ? & ? & ? & H & _). by destruct certs. }
  rewrite last_snoc.
  assert (Hl : forall certs pub, certs0 ++ [cert0] = certs ++ [Some pub] -> cert0 = Some pub) by (intros ? ? [? ?]%app_inj_tail; done).
  destruct cert0 as [pub|].
  2:{ split; [done|]. intros (_ & certs & pub & ? & ? & H & _). by apply Hl in H. }
  destruct (dl_signature d) as [signature|x|x]; cbn [rbind].
  2,3: split; [done|]; by intros (_ & ? & ? & ? & ? & _ & ? & _).
  destruct (peer_key key) as [pk|].
  2:{ split; [done|]. by intros (_ & ? & ? & ? & ? & _ & _ & ? & _). }
  destruct (verify pk pub signature) as [[]|x|x] eqn:Ev; cbn [rbind].
  - split; [|done]. intros _. split; [done|]. by exists certs0, pub, pk, signature.
  - split; [done|]. intros (_ & certs & pub' & pk' & s' & H & [= <-] & [= <-] & Hv). apply Hl in H. injection H as <-. congruence.
  - split; [done|]. intros (_ & certs & pub' & pk' & s' & H & [= <-] & [= <-] & Hv). apply Hl in H. injection H as <-. congruence.
  - split; [done|]. intros (_ & certs & pub' & pk' & s' & H & [= <-] & [= <-] & Hv). apply Hl in H. injection H as <-. congruence.
Qed.
Print Assumptions C62_pinned.

(** Expected but false: that the key authenticated by TLS, that of the first
    certificate, is signed by the configured peer. Whoever knows the certificate and the
    signature of the node, both of which it sends to everyone who connects, is accepted
    with any certificate of their own in front. *)
Theorem C62_session_key_refuted peer_key verify key certs signature own :
  socket_connect peer_key verify key (Dial true certs (Ok signature)) = Ok tt ->
  socket_connect peer_key verify key (Dial true (own :: certs) (Ok signature)) = Ok tt.
Proof.
  rewrite !C62_pinned. cbn. intros (_ & certs' & pub & pk & s & -> & H). split; [done|]. by exists (own :: certs'), pub, pk, s.
Qed.
Print Assumptions C62_session_key_refuted.

(** A node that presents a certificate of another kind of key last crashes the agent,
    before anything is verified. *)
Theorem C62_crash peer_key verify key certs signature :
  is_panic (socket_connect peer_key verify key (Dial true (certs ++ [None]) signature)) = true.
Proof. unfold socket_connect. cbn [dl_ok dl_certs negb]. by rewrite last_snoc. Qed.
Print Assumptions C62_crash.

Example C62_example :
  let peer_key k := if String.eqb k "key" then Some (bytes_of "pk") else None in
  let verify pk data sig := Ok (bool_decide (sig = pk ++ data)) in
  socket_connect peer_key verify "key" (Dial true [None; Some (bytes_of "cert")] (Ok (bytes_of "pkcert"))) = Ok tt /\
  socket_connect peer_key verify "key" (Dial true [Some (bytes_of "cert"); Some (bytes_of "mine")] (Ok (bytes_of "pkcert"))) =
    Err "tls signature check failed" /\
  socket_connect peer_key verify "key" (Dial true [Some (bytes_of "mine"); Some (bytes_of "cert")] (Ok (bytes_of "pkcert"))) = Ok tt /\
  socket_connect peer_key verify "other" (Dial true [Some (bytes_of "cert")] (Ok (bytes_of "pkcert"))) = Err "public key".
Proof. vm_compute. done. Qed.
