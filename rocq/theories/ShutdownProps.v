(** C69: what can crash a node that is being stopped, and what becomes of the envelopes
    it holds. *)
From Coq Require Import ZArith NArith List String Ascii Lia.
From stdpp Require Import base tactics gmap list strings.
From Verif Require Import GoBase Bytes ProtoModel DelegateModel ShutdownModel.
From Verif Require DelegateProps AgentProps.
Open Scope string_scope.
Open Scope list_scope.
Open Scope Z_scope.

Local Instance close_stage_eq_dec : EqDecision close_stage.
Proof. solve_decision. Defined.

(** A call of Close has got at least that far. *)
Definition begun (p : peer) : Prop := exists t s, p_threads p !! t = Some (TClose s) /\ s <> KSignal.
Definition flagged (p : peer) : Prop :=
  exists t s, p_threads p !! t = Some (TClose s) /\ s <> KSignal /\ s <> KFlag.

Record inv (p : peer) : Prop := Inv {
  inv_one : forall t1 t2 s1 s2, p_threads p !! t1 = Some (TClose s1) -> p_threads p !! t2 = Some (TClose s2) ->
      s1 <> KSignal -> s2 <> KSignal -> t1 = t2;
  inv_closing : p_closing p = true <-> begun p;
  inv_flag : p_flag p = true <-> flagged p;
  inv_slow : p_slow_closed p = true <-> exists t, p_threads p !! t = Some (TClose KDone);
  inv_chan : forall ch q, p_chans p !! ch = Some (q, true) ->
      exists t, p_threads p !! t = Some (TClose KSlow) \/ p_threads p !! t = Some (TClose KDone);
  inv_pairs : forall k ch, p_pairs p !! k = Some ch -> is_Some (p_chans p !! ch);
  inv_fresh : forall t, (p_next p <= t)%nat -> p_threads p !! t = None /\ p_chans p !! t = None;
}.

Lemma inv0 : inv peer0.
Proof.
  split; cbn; try done; try set_solver.
  - split; [done|]. intros (t & s & H & _). cbn in H. by rewrite lookup_empty in H.
  - split; [done|]. intros (t & s & H & _). cbn in H. by rewrite lookup_empty in H.
Qed.

(** A step that leaves the calls of Close alone. *)
Lemma inv_frame p p' :
  inv p ->
  (forall t s, p_threads p' !! t = Some (TClose s) <-> p_threads p !! t = Some (TClose s)) ->
  p_closing p' = p_closing p -> p_flag p' = p_flag p -> p_slow_closed p' = p_slow_closed p ->
  (forall ch q, p_chans p' !! ch = Some (q, true) -> exists q', p_chans p !! ch = Some (q', true)) ->
  (forall k ch, p_pairs p' !! k = Some ch -> is_Some (p_chans p' !! ch)) ->
  (forall t, (p_next p' <= t)%nat -> p_threads p' !! t = None /\ p_chans p' !! t = None) ->
  inv p'.
Proof.
  intros I Ht Hc Hf Hs Hch Hp Hn. destruct I as [I1 I2 I3 I4 I5 I6 I7]. split; try done.
  - intros t1 t2 s1 s2 H1 H2. apply Ht in H1. apply Ht in H2. by eapply I1.
  - rewrite Hc, I2. split; intros (t & s & H & Hn'); exists t, s; split; try done; by apply Ht.
  - rewrite Hf, I3. split; intros (t & s & H & Hn'); exists t, s; split; try done; by apply Ht.
  - rewrite Hs, I4. split; intros (t & H); exists t; by apply Ht.
  - intros ch q H. destruct (Hch _ _ H) as [q' H']. destruct (I5 _ _ H') as [t [Hk|Hk]]; exists t; [left|right]; by apply Ht.
Qed.

Definition not_close (x : thread) : Prop := forall s, x <> TClose s.

Lemma closers_insert (m : gmap nat thread) t x y :
  m !! t = Some y -> not_close y -> not_close x ->
  forall t' s, <[t := x]> m !! t' = Some (TClose s) <-> m !! t' = Some (TClose s).
Proof.
  intros Hy Hny Hnx t' s. destruct (decide (t = t')) as [->|Hne].
  - rewrite lookup_insert. split; intros H; [inversion H; subst; by destruct (Hnx s)|].
    rewrite Hy in H. inversion H; subst. by destruct (Hny s).
  - by rewrite lookup_insert_ne by done.
Qed.

Lemma fresh_insert p t x y :
  inv p -> p_threads p !! t = Some y ->
  forall t', (p_next p <= t')%nat -> <[t := x]> (p_threads p) !! t' = None /\ p_chans p !! t' = None.
Proof.
  intros I Hy t' Hle. destruct (inv_fresh _ I t' Hle) as [H1 H2]. split; [|done].
  destruct (decide (t = t')) as [->|Hne]; [by rewrite H1 in Hy|]. by rewrite lookup_insert_ne.
Qed.

Lemma inv_thread p t x y :
  inv p -> p_threads p !! t = Some y -> not_close y -> not_close x -> inv (set_thread p t x).
Proof.
  intros I Hy Hny Hnx. eapply inv_frame; [done|..]; cbn [set_thread p_threads p_closing p_flag p_slow_closed p_chans p_pairs p_next]; try done.
  - intros. by eapply closers_insert.
  - intros ch q H. by exists q.
  - apply (inv_pairs _ I).
  - by eapply fresh_insert.
Qed.

Lemma inv_table p m : inv p -> inv (set_table p m).
Proof.
  intros I. eapply inv_frame; [done|..]; cbn [set_table p_threads p_closing p_flag p_slow_closed p_chans p_pairs p_next]; try done.
  - intros ch q H. by exists q.
  - apply (inv_pairs _ I).
  - apply (inv_fresh _ I).
Qed.

Lemma inv_set_chan p ch q q' c l :
  inv p -> p_chans p !! ch = Some (q, c) -> inv (set_chan p ch (q', c) l).
Proof.
  intros I Hq. eapply inv_frame; [done|..]; cbn [set_chan p_threads p_closing p_flag p_slow_closed p_chans p_pairs p_next]; try done.
  - intros ch' q0 H. destruct (decide (ch = ch')) as [->|Hne].
    + rewrite lookup_insert in H. inversion H; subst. by exists q.
    + rewrite lookup_insert_ne in H by done. by exists q0.
  - intros k ch' H. destruct (decide (ch = ch')) as [->|Hne]; [rewrite lookup_insert; by eexists|].
    rewrite lookup_insert_ne by done. by eapply inv_pairs.
  - intros t Hle. destruct (inv_fresh _ I t Hle) as [H1 H2]. split; [done|].
    rewrite lookup_insert_ne; [done|]. intros ->. by rewrite H2 in Hq.
Qed.

Lemma inv_set_slow p q s l : inv p -> inv (set_slow p q s l).
Proof.
  intros I. eapply inv_frame; [done|..]; cbn [set_slow p_threads p_closing p_flag p_slow_closed p_chans p_pairs p_next]; try done.
  - intros ch q0 H. by exists q0.
  - apply (inv_pairs _ I).
  - apply (inv_fresh _ I).
Qed.

Lemma chans_closed (m : gmap nat (list envelope * bool)) (l : list nat) ch q :
  map_imap (fun c x => Some (x.1, x.2 || bool_decide (c ∈ l))) m !! ch = Some q ->
  exists c, m !! ch = Some (q.1, c) /\ q.2 = c || bool_decide (ch ∈ l).
Proof.
  rewrite map_lookup_imap. destruct (m !! ch) as [[q0 c0]|] eqn:E; [|done].
  cbn [mbind option_bind fst snd]. intros [= <-]. exists c0. done.
Qed.

Lemma inv_close p t s p' :
  inv p -> p_threads p !! t = Some (TClose s) -> close_step p t s = Ok p' -> inv p'.
Proof.
  intros I Ht Es.
  assert (Hin : forall x t' y, <[t := x]> (p_threads p) !! t' = Some y -> (t' = t /\ y = x) \/ (t' <> t /\ p_threads p !! t' = Some y)).
  { intros x t' y H. destruct (decide (t = t')) as [->|Hne].
    - rewrite lookup_insert in H. left. split; [done|congruence].
    - rewrite lookup_insert_ne in H by done. right. split; [congruence|done]. }
  assert (Hat : forall x, <[t := x]> (p_threads p) !! t = Some x) by (intros; apply lookup_insert).
  assert (Hoth : forall x t', t' <> t -> <[t := x]> (p_threads p) !! t' = p_threads p !! t') by (intros; by rewrite lookup_insert_ne).
  pose proof (fun x => fresh_insert p t x _ I Ht) as Hfr.
  assert (Huniq : s <> KSignal -> forall t' s', p_threads p !! t' = Some (TClose s') -> s' <> KSignal -> t' = t).
  { intros Hs t' s' H Hs'. by eapply (inv_one _ I). }
  destruct s; cbn [close_step] in Es.
  - (* signal *)
    destruct (p_closing p) eqn:Ec; [done|]. inversion Es; subst p'; clear Es.
    assert (Hnone : forall t' s', p_threads p !! t' = Some (TClose s') -> s' = KSignal).
    { intros t' s' H. destruct (decide (s' = KSignal)) as [|Hne]; [done|].
      assert (p_closing p = true) by (apply (inv_closing _ I); by exists t', s'). congruence. }
    split; cbn [p_threads p_closing p_flag p_slow_closed p_chans p_pairs p_next].
    + intros t1 t2 s1 s2 H1 H2 N1 N2. destruct (Hin _ _ _ H1) as [[-> _]|[_ H1']]; destruct (Hin _ _ _ H2) as [[-> _]|[_ H2']]; try done.
      * by apply Hnone in H2'. * by apply Hnone in H1'. * by apply Hnone in H1'.
    + split; [intros _|done]. exists t, KFlag. split; [apply Hat|done].
    + split; intros H.
      * apply (inv_flag _ I) in H. destruct H as (t' & s' & H & Hn & _). by apply Hnone in H.
      * destruct H as (t' & s' & H & Hn & Hn'). destruct (Hin _ _ _ H) as [[_ Hx]|[_ H']]; [congruence|by apply Hnone in H'].
    + split; intros H.
      * apply (inv_slow _ I) in H. destruct H as (t' & H). by apply Hnone in H.
      * destruct H as (t' & H). destruct (Hin _ _ _ H) as [[_ Hx]|[_ H']]; [congruence|by apply Hnone in H'].
    + intros ch q H. destruct (inv_chan _ I _ _ H) as [t' [Hk|Hk]]; by apply Hnone in Hk.
    + apply (inv_pairs _ I).
    + apply Hfr.
  - (* flag *)
    inversion Es; subst p'; clear Es. specialize (Huniq ltac:(done)).
    split; cbn [p_threads p_closing p_flag p_slow_closed p_chans p_pairs p_next].
    + intros t1 t2 s1 s2 H1 H2 N1 N2.
      assert (t1 = t) by (destruct (Hin _ _ _ H1) as [[-> _]|[_ H']]; [done|by eapply Huniq]).
      assert (t2 = t) by (destruct (Hin _ _ _ H2) as [[-> _]|[_ H']]; [done|by eapply Huniq]). congruence.
    + split; intros H; [exists t, KConns; split; [apply Hat|done]|]. apply (inv_closing _ I). by exists t, KFlag.
    + split; [intros _|done]. exists t, KConns. split; [apply Hat|done].
    + rewrite (inv_slow _ I). split; intros (t' & H).
      * assert (t' = t) by (by eapply Huniq). subst t'. congruence.
      * destruct (Hin _ _ _ H) as [[_ Hx]|[_ H']]; [congruence|by exists t'].
    + intros ch q H. destruct (inv_chan _ I _ _ H) as [t' [Hk|Hk]]; (assert (t' = t) by (by eapply Huniq)); subst t'; congruence.
    + apply (inv_pairs _ I).
    + apply Hfr.
  - (* conns *)
    inversion Es; subst p'; clear Es. specialize (Huniq ltac:(done)).
    split; cbn [p_threads p_closing p_flag p_slow_closed p_chans p_pairs p_next].
    + intros t1 t2 s1 s2 H1 H2 N1 N2.
      assert (t1 = t) by (destruct (Hin _ _ _ H1) as [[-> _]|[_ H']]; [done|by eapply Huniq]).
      assert (t2 = t) by (destruct (Hin _ _ _ H2) as [[-> _]|[_ H']]; [done|by eapply Huniq]). congruence.
    + split; intros H; [exists t, KServices; split; [apply Hat|done]|]. apply (inv_closing _ I). by exists t, KConns.
    + split; intros H; [exists t, KServices; split; [apply Hat|done]|]. apply (inv_flag _ I). by exists t, KConns.
    + rewrite (inv_slow _ I). split; intros (t' & H).
      * assert (t' = t) by (by eapply Huniq). subst t'. congruence.
      * destruct (Hin _ _ _ H) as [[_ Hx]|[_ H']]; [congruence|by exists t'].
    + intros ch q H. destruct (inv_chan _ I _ _ H) as [t' [Hk|Hk]]; (assert (t' = t) by (by eapply Huniq)); subst t'; congruence.
    + apply (inv_pairs _ I).
    + apply Hfr.
  - (* services *)
    inversion Es; subst p'; clear Es. specialize (Huniq ltac:(done)).
    split; cbn [set_thread p_threads p_closing p_flag p_slow_closed p_chans p_pairs p_next].
    + intros t1 t2 s1 s2 H1 H2 N1 N2.
      assert (t1 = t) by (destruct (Hin _ _ _ H1) as [[-> _]|[_ H']]; [done|by eapply Huniq]).
      assert (t2 = t) by (destruct (Hin _ _ _ H2) as [[-> _]|[_ H']]; [done|by eapply Huniq]). congruence.
    + split; intros H; [exists t, KPairs; split; [apply Hat|done]|]. apply (inv_closing _ I). by exists t, KServices.
    + split; intros H; [exists t, KPairs; split; [apply Hat|done]|]. apply (inv_flag _ I). by exists t, KServices.
    + rewrite (inv_slow _ I). split; intros (t' & H).
      * assert (t' = t) by (by eapply Huniq). subst t'. congruence.
      * destruct (Hin _ _ _ H) as [[_ Hx]|[_ H']]; [congruence|by exists t'].
    + intros ch q H. destruct (inv_chan _ I _ _ H) as [t' [Hk|Hk]]; (assert (t' = t) by (by eapply Huniq)); subst t'; congruence.
    + apply (inv_pairs _ I).
    + apply Hfr.
  - (* pairs *)
    destruct (existsb _ _); [done|]. inversion Es; subst p'; clear Es. specialize (Huniq ltac:(done)).
    split; cbn [p_threads p_closing p_flag p_slow_closed p_chans p_pairs p_next].
    + intros t1 t2 s1 s2 H1 H2 N1 N2.
      assert (t1 = t) by (destruct (Hin _ _ _ H1) as [[-> _]|[_ H']]; [done|by eapply Huniq]).
      assert (t2 = t) by (destruct (Hin _ _ _ H2) as [[-> _]|[_ H']]; [done|by eapply Huniq]). congruence.
    + split; intros H; [exists t, KSlow; split; [apply Hat|done]|]. apply (inv_closing _ I). by exists t, KPairs.
    + split; intros H; [exists t, KSlow; split; [apply Hat|done]|]. apply (inv_flag _ I). by exists t, KPairs.
    + rewrite (inv_slow _ I). split; intros (t' & H).
      * assert (t' = t) by (by eapply Huniq). subst t'. congruence.
      * destruct (Hin _ _ _ H) as [[_ Hx]|[_ H']]; [congruence|by exists t'].
    + intros ch q H. exists t. left. apply Hat.
    + intros k ch H. destruct (inv_pairs _ I _ _ H) as [x Hx]. rewrite map_lookup_imap, Hx. by eexists.
    + intros t' Hle. destruct (Hfr (TClose KSlow) t' Hle) as [H1 H2]. split; [done|]. by rewrite map_lookup_imap, H2.
  - (* slow *)
    destruct (p_slow_closed p); [done|]. inversion Es; subst p'; clear Es. specialize (Huniq ltac:(done)).
    split; cbn [p_threads p_closing p_flag p_slow_closed p_chans p_pairs p_next].
    + intros t1 t2 s1 s2 H1 H2 N1 N2.
      assert (t1 = t) by (destruct (Hin _ _ _ H1) as [[-> _]|[_ H']]; [done|by eapply Huniq]).
      assert (t2 = t) by (destruct (Hin _ _ _ H2) as [[-> _]|[_ H']]; [done|by eapply Huniq]). congruence.
    + split; intros H; [exists t, KDone; split; [apply Hat|done]|]. apply (inv_closing _ I). by exists t, KSlow.
    + split; intros H; [exists t, KDone; split; [apply Hat|done]|]. apply (inv_flag _ I). by exists t, KSlow.
    + split; [intros _|done]. exists t. apply Hat.
    + intros ch q H. exists t. right. apply Hat.
    + apply (inv_pairs _ I).
    + apply Hfr.
  - done.
Qed.

Lemma inv_spawn p t x p' : inv p -> (not_close x \/ x = TClose KSignal) -> spawn p t x = Ok p' -> inv p'.
Proof.
  intros I Hx Es. unfold spawn in Es. destruct (Nat.ltb_spec t (p_next p)) as [|Hle]; [done|].
  inversion Es; subst p'; clear Es. destruct (inv_fresh _ I t Hle) as [Hn _].
  assert (Hin : forall t' s, s <> KSignal -> <[t := x]> (p_threads p) !! t' = Some (TClose s) <-> p_threads p !! t' = Some (TClose s)).
  { intros t' s Hs. destruct (decide (t = t')) as [->|Hne].
    - rewrite lookup_insert, Hn. split; [|done]. intros [= ->]. destruct Hx as [Hx|Hx]; [by destruct (Hx s)|congruence].
    - by rewrite lookup_insert_ne. }
  destruct I as [I1 I2 I3 I4 I5 I6 I7].
  split; cbn [p_threads p_closing p_flag p_slow_closed p_chans p_pairs p_next].
  - intros t1 t2 s1 s2 H1 H2 N1 N2. apply Hin in H1; [|done]. apply Hin in H2; [|done]. by eapply I1.
  - rewrite I2. split; intros (t' & s & H & Hs); exists t', s; (split; [|done]); by apply Hin.
  - rewrite I3. split; intros (t' & s & H & Hs & Hs'); exists t', s; (split; [|done]); by apply Hin.
  - rewrite I4. split; intros (t' & H); exists t'; by apply Hin.
  - intros ch q H. destruct (I5 _ _ H) as [t' [Hk|Hk]]; exists t'; [left|right]; by apply Hin.
  - done.
  - intros t' Hle'. destruct (I7 t' ltac:(lia)) as [H1 H2]. split; [|done]. rewrite lookup_insert_ne by lia. done.
Qed.

Lemma inv_make p t a e :
  inv p -> p_threads p !! t = Some (TMake a e) ->
  inv (Peer (<[S (p_next p) := TStart (pair_key e)]> (<[t := TSend a e]> (p_threads p)))
               (p_closing p) (p_flag p) (p_table p) (p_shut p)
               (<[pair_key e := p_next p]> (p_pairs p)) (<[p_next p := ([], false)]> (p_chans p))
               (p_slow p) (p_slow_closed p) (p_loop p) (p_log p) (S (S (p_next p)))).
Proof.
  intros I Ht. eapply inv_frame; [done|..]; cbn [p_threads p_closing p_flag p_slow_closed p_chans p_pairs p_next]; try done.
  - intros t' s. destruct (decide (t' = S (p_next p))) as [->|Hne].
    + rewrite lookup_insert. split; [done|]. intros H. destruct (inv_fresh _ I (S (p_next p)) ltac:(lia)) as [H' _]. congruence.
    + rewrite lookup_insert_ne by done. by eapply closers_insert.
  - intros ch q H. destruct (decide (p_next p = ch)) as [<-|Hne]; [rewrite lookup_insert in H; congruence|].
    rewrite lookup_insert_ne in H by done. by exists q.
  - intros k ch H. destruct (decide (p_next p = ch)) as [<-|Hne]; [rewrite lookup_insert; by eexists|].
    rewrite lookup_insert_ne by done. destruct (decide (pair_key e = k)) as [<-|Hk].
    + rewrite lookup_insert in H. congruence.
    + rewrite lookup_insert_ne in H by done. by eapply inv_pairs.
  - intros t' Hle. destruct (inv_fresh _ I t' ltac:(lia)) as [H1 H2].
    split.
    + rewrite lookup_insert_ne by lia. rewrite lookup_insert_ne; [done|]. intros ->. congruence.
    + by rewrite lookup_insert_ne by lia.
Qed.

Ltac nc := let s := fresh in intros s; cbn [back]; discriminate.

Lemma inv_step p ev p' : inv p -> down_step p ev = Ok p' -> inv p'.
Proof.
  intros I Es. destruct ev as [t a|t e|t|t read sent|]; cbn [down_step] in Es.
  - destruct (spawn p t (TRead a)) as [q| |] eqn:Eq; cbn [rbind] in Es; try done. inversion Es; subst.
    apply inv_table. eapply inv_spawn; [done| |done]. left. nc.
  - eapply inv_spawn; [done| |done]. left. nc.
  - eapply inv_spawn; [done| |done]. by right.
  - unfold thread_step in Es. destruct (p_threads p !! t) as [x|] eqn:Ht; [|done].
    destruct x as [a|a e|a e|a e|key|ch|k e|k e|k e|s|].
    + destruct read as [e|].
      * destruct (bool_decide _); [done|]. destruct (String.eqb _ _); [|done]. inversion Es; subst.
        eapply inv_thread; [done|done|nc|nc].
      * inversion Es; subst. apply inv_table. eapply inv_thread; [done|done|nc|nc].
    + inversion Es; subst. eapply inv_thread; [done|done|nc|]. destruct (p_pairs p !! pair_key e); nc.
    + inversion Es; subst. by apply inv_make.
    + destruct (p_pairs p !! _) as [ch|]; [|done]. destruct (p_chans p !! ch) as [[q [|]]|] eqn:Ec; try done.
      inversion Es; subst. destruct (_ <? _)%nat.
      * eapply inv_thread; [by eapply inv_set_chan|exact Ht|nc|nc].
      * eapply inv_thread; [by eapply inv_set_chan|exact Ht|nc|nc].
    + destruct (p_pairs p !! key); [|done]. inversion Es; subst. eapply inv_thread; [done|done|nc|nc].
    + destruct (p_chans p !! ch) as [[[|e q] [|]]|] eqn:Ec; try done; inversion Es; subst.
      * eapply inv_thread; [done|done|nc|nc].
      * eapply inv_thread; [by eapply inv_set_chan|exact Ht|nc|nc].
      * eapply inv_thread; [by eapply inv_set_chan|exact Ht|nc|nc].
    + inversion Es; subst. eapply inv_thread; [done|done|nc|]. destruct sent, k; nc.
    + inversion Es; subst. eapply inv_thread; [done|done|nc|]. destruct (p_flag p), k; nc.
    + destruct (p_slow_closed p); [done|]. destruct (_ <? _)%nat; [|done]. inversion Es; subst.
      eapply inv_thread; [by apply inv_set_slow|exact Ht|nc|]. destruct k; nc.
    + by eapply inv_close.
    + done.
  - unfold loop_step in Es. destruct (p_loop p).
    + destruct (p_slow p); [destruct (p_slow_closed p); [|done]|destruct (p_flag p)]; inversion Es; subst; by apply inv_set_slow.
    + inversion Es; subst. by apply inv_set_slow.
    + done.
Qed.

Lemma run_app p evs ev : down_run p (evs ++ [ev]) = (let* q := down_run p evs in down_step q ev).
Proof.
  revert p; induction evs as [|x evs IH]; intros p; cbn [down_run app].
  - cbn [rbind]. destruct (down_step p ev); reflexivity.
  - destruct (down_step p x); cbn [rbind]; [apply IH|reflexivity|reflexivity].
Qed.

Lemma run_inv p evs p' : inv p -> down_run p evs = Ok p' -> inv p'.
Proof.
  revert p; induction evs as [|ev evs IH]; intros p I; cbn [down_run]; [by intros [= <-]|].
  destruct (down_step p ev) as [q| |] eqn:E; cbn [rbind]; try done. apply IH. by eapply inv_step.
Qed.

(** Exactly which steps crash the process: a second Close; the handler of a delegate
    connection putting an envelope into a queue closed by Close; a route call that looked
    at the flag before Close set it and reaches the slow queue after Close closed it. *)
Theorem C69_crash evs p ev :
  down_run peer0 evs = Ok p ->
  (exists m, down_step p ev = Panic m) <->
  exists t read sent, ev = EStep t read sent /\
   ((p_threads p !! t = Some (TClose KSignal) /\
     exists t' s, t' <> t /\ p_threads p !! t' = Some (TClose s) /\ s <> KSignal) \/
    (exists a e ch q, p_threads p !! t = Some (TSend a e) /\ p_pairs p !! (e_to e ++ e_sender e)%string = Some ch /\
       p_chans p !! ch = Some (q, true) /\
       exists t', p_threads p !! t' = Some (TClose KSlow) \/ p_threads p !! t' = Some (TClose KDone)) \/
    (exists k e t', p_threads p !! t = Some (TPut k e) /\ p_threads p !! t' = Some (TClose KDone))).
Proof.
  intros Er. pose proof (run_inv _ _ _ inv0 Er) as I. split.
  - intros [m Em]. destruct ev as [t a|t e|t|t read sent|]; cbn [down_step] in Em.
    + unfold spawn in Em. destruct (_ <? _)%nat; done.
    + unfold spawn in Em. destruct (_ <? _)%nat; done.
    + unfold spawn in Em. destruct (_ <? _)%nat; done.
    + exists t, read, sent. split; [done|]. unfold thread_step in Em.
      destruct (p_threads p !! t) as [x|] eqn:Ht; [|done].
      destruct x as [a|a e|a e|a e|key|ch|k e|k e|k e|s|]; try done.
      * destruct read; [|done]. destruct (bool_decide _); [done|]. destruct (String.eqb _ _); done.
      * right; left. destruct (p_pairs p !! _) as [ch|] eqn:Ep; [|done].
        destruct (p_chans p !! ch) as [[q [|]]|] eqn:Ec; try done.
        exists a, e, ch, q. split; [done|]. split; [done|]. split; [done|]. by eapply inv_chan.
      * destruct (p_pairs p !! key); done.
      * destruct (p_chans p !! ch) as [[[|] [|]]|]; done.
      * destruct (p_slow_closed p) eqn:Ec; [|destruct (_ <? _)%nat; done].
        right; right. apply (inv_slow _ I) in Ec. destruct Ec as [t' Ht']. by exists k, e, t'.
      * destruct s; cbn [close_step] in Em; try done.
        -- left. destruct (p_closing p) eqn:Ec; [|done]. apply (inv_closing _ I) in Ec.
           destruct Ec as (t' & s & Ht' & Hs). split; [done|]. exists t', s. split; [|done]. intros ->. congruence.
        -- exfalso. destruct (existsb _ _) eqn:Ex; [|done]. apply existsb_exists in Ex.
           destruct Ex as (ch & Hin & Hc). destruct (p_chans p !! ch) as [[q [|]]|] eqn:Ech; try done.
           ++ destruct (inv_chan _ I _ _ Ech) as [t' [Hk|Hk]].
              ** assert (t' = t) by (by eapply (inv_one _ I)). subst. congruence.
              ** assert (t' = t) by (by eapply (inv_one _ I)). subst. congruence.
           ++ apply elem_of_list_In, elem_of_list_fmap in Hin. destruct Hin as ([k ch'] & -> & Hin).
              apply elem_of_map_to_list in Hin. apply (inv_pairs _ I) in Hin. cbn [snd] in Ech. rewrite Ech in Hin. by destruct Hin.
        -- exfalso. destruct (p_slow_closed p) eqn:Ec; [|done]. apply (inv_slow _ I) in Ec. destruct Ec as [t' Hk].
           assert (t' = t) by (by eapply (inv_one _ I)). subst. congruence.
    + unfold loop_step in Em. destruct (p_loop p); [|done|done]. destruct (p_slow p); [destruct (p_slow_closed p)|destruct (p_flag p)]; done.
  - intros (t & read & sent & -> & H). cbn [down_step]. unfold thread_step.
    destruct H as [(Ht & t' & s & Hne & Ht' & Hs)|[(a & e & ch & q & Ht & Hp & Hc & _)|(k & e & t' & Ht & Hk)]]; rewrite Ht.
    + cbn [close_step]. assert (Ec : p_closing p = true) by (apply (inv_closing _ I); by exists t', s). rewrite Ec. by eexists.
    + unfold pair_key. rewrite Hp, Hc. by eexists.
    + assert (Ec : p_slow_closed p = true) by (apply (inv_slow _ I); by exists t'). rewrite Ec. by eexists.
Qed.
Print Assumptions C69_crash.

(** Nobody is on the way to a queue: no delegate connection is being served, no route call
    is between its look at the flag and the slow queue, no other Close is about to begin. *)
Definition quiet (p : peer) : Prop :=
  forall t x, p_threads p !! t = Some x ->
    match x with
    | TRead _ | TLook _ _ | TMake _ _ | TSend _ _ | TPut _ _ | TClose KSignal => False
    | _ => True
    end.

Lemma quiet_insert p t x (m : gmap nat thread) :
  quiet p -> match x with TRead _ | TLook _ _ | TMake _ _ | TSend _ _ | TPut _ _ | TClose KSignal => False | _ => True end ->
  m = <[t := x]> (p_threads p) ->
  forall t' y, m !! t' = Some y ->
    match y with TRead _ | TLook _ _ | TMake _ _ | TSend _ _ | TPut _ _ | TClose KSignal => False | _ => True end.
Proof.
  intros Hq Hx -> t' y H. destruct (decide (t = t')) as [->|Hne].
  - rewrite lookup_insert in H. by injection H as <-.
  - rewrite lookup_insert_ne in H by done. by eapply Hq.
Qed.

(** Events other than new delegate connections and further calls of Close. *)
Definition ordinary (ev : event) : Prop := match ev with EConn _ _ | EClose _ => False | _ => True end.

Lemma quiet_step p ev p' :
  quiet p -> p_flag p = true -> ordinary ev -> down_step p ev = Ok p' -> quiet p' /\ p_flag p' = true.
Proof.
  intros Hq Hf Ho Es. destruct ev as [t a|t e|t|t read sent|]; cbn [down_step] in Es; try done.
  - unfold spawn in Es. destruct (_ <? _)%nat; [done|]. injection Es as <-. split; [|done].
    intros t' y. cbn [p_threads]. by apply (quiet_insert p t (TRoute None e)).
  - unfold thread_step in Es. destruct (p_threads p !! t) as [x|] eqn:Ht; [|done]. pose proof (Hq _ _ Ht) as Hx.
    destruct x as [a|a e|a e|a e|key|ch|k e|k e|k e|s|]; try done.
    + destruct (p_pairs p !! key); [|done]. injection Es as <-. split; [|done]. intros t' y. by apply (quiet_insert p t (TRange n)).
    + destruct (p_chans p !! ch) as [[[|e q] [|]]|]; try done; injection Es as <-; (split; [|done]); intros t' y.
      * by apply (quiet_insert p t TEnd).
      * by apply (quiet_insert p t (TRoute (Some ch) e)).
      * by apply (quiet_insert p t (TRoute (Some ch) e)).
    + injection Es as <-. split; [|done]. intros t' y. apply (quiet_insert p t (if sent then back k else TCheck k e)); [done| |done].
      by destruct sent, k.
    + injection Es as <-. rewrite Hf. split; [|done]. intros t' y. apply (quiet_insert p t (back k)); [done| |done]. by destruct k.
    + destruct s; try done; cbn [close_step] in Es.
      * injection Es as <-. split; [|done]. intros t' y. by apply (quiet_insert p t (TClose KConns)).
      * injection Es as <-. split; [|done]. intros t' y. by apply (quiet_insert p t (TClose KServices)).
      * injection Es as <-. split; [|done]. intros t' y. by apply (quiet_insert p t (TClose KPairs)).
      * destruct (existsb _ _); [done|]. injection Es as <-. split; [|done]. intros t' y. by apply (quiet_insert p t (TClose KSlow)).
      * destruct (p_slow_closed p); [done|]. injection Es as <-. split; [|done]. intros t' y. by apply (quiet_insert p t (TClose KDone)).
  - unfold loop_step in Es. destruct (p_loop p); [destruct (p_slow p); [destruct (p_slow_closed p); [|done]|rewrite Hf in Es]| |done];
      injection Es as <-; (split; [exact Hq|exact Hf]).
Qed.

(** If that is so when Close has set its flag, nothing that happens afterwards crashes the
    process, as long as there are no new delegate connections and no second Close. *)
Theorem C69_quiet evs p evs' m :
  down_run peer0 evs = Ok p -> p_flag p = true -> quiet p -> Forall ordinary evs' -> down_run p evs' <> Panic m.
Proof.
  revert evs p. induction evs' as [|ev evs' IH]; intros evs p Er Hf Hq Ho; cbn [down_run]; [done|].
  inversion Ho as [|? ? Ho1 Ho2]; subst. destruct (down_step p ev) as [q|x|x] eqn:Es; cbn [rbind]; [|done|].
  - destruct (quiet_step _ _ _ Hq Hf Ho1 Es) as [Hq' Hf']. apply (IH (evs ++ [ev])); try done.
    by rewrite run_app, Er.
  - exfalso. assert (H : exists m, down_step p ev = Panic m) by (by exists x).
    apply (C69_crash _ _ _ Er) in H. destruct H as (t & read & sent & -> & [(Ht & _)|[(a & e & ch & q & Ht & _)|(k & e & t' & Ht & _)]]); by apply Hq in Ht.
Qed.
Print Assumptions C69_quiet.

(** What a queue took and what its goroutine routed, from the record of what happened. *)
Definition took (ch : nat) (l : list entry) : list envelope :=
  omap (fun x => match x with Took c e => if Nat.eqb c ch then Some e else None | _ => None end) l.
Definition routed (ch : nat) (l : list entry) : list envelope :=
  omap (fun x => match x with Routed c e => if Nat.eqb c ch then Some e else None | _ => None end) l.
Definition slow_in (l : list entry) : list envelope := omap (fun x => match x with SlowIn e => Some e | _ => None end) l.
Definition slow_out (l : list entry) : list envelope := omap (fun x => match x with SlowOut e => Some e | _ => None end) l.
Definition slow_lost (l : list entry) : list envelope := omap (fun x => match x with SlowLost e => Some e | _ => None end) l.

Definition kept (p : peer) : Prop :=
  (forall ch, took ch (p_log p) = routed ch (p_log p) ++ match p_chans p !! ch with Some (q, _) => q | None => [] end) /\
  slow_in (p_log p) = slow_out (p_log p) ++ slow_lost (p_log p) ++ p_slow p /\
  (p_loop p <> LEnd -> slow_lost (p_log p) = []) /\
  (slow_lost (p_log p) <> [] -> p_flag p = true) /\ (length (slow_lost (p_log p)) <= 1)%nat.

Lemma took_app ch l l' : took ch (l ++ l') = took ch l ++ took ch l'.
Proof. apply omap_app. Qed.
Lemma routed_app ch l l' : routed ch (l ++ l') = routed ch l ++ routed ch l'.
Proof. apply omap_app. Qed.
Lemma slow_in_app l l' : slow_in (l ++ l') = slow_in l ++ slow_in l'.
Proof. apply omap_app. Qed.
Lemma slow_out_app l l' : slow_out (l ++ l') = slow_out l ++ slow_out l'.
Proof. apply omap_app. Qed.
Lemma slow_lost_app l l' : slow_lost (l ++ l') = slow_lost l ++ slow_lost l'.
Proof. apply omap_app. Qed.

Lemma kept_same p p' :
  kept p -> p_log p' = p_log p -> p_slow p' = p_slow p -> p_loop p' = p_loop p ->
  (p_flag p = true -> p_flag p' = true) ->
  (forall ch, match p_chans p' !! ch with Some (q, _) => q | None => [] end = match p_chans p !! ch with Some (q, _) => q | None => [] end) ->
  kept p'.
Proof.
  intros (H1 & H2 & H3 & H4 & H5) El Es Ep Hf Hc. unfold kept. rewrite El, Es, Ep.
  split; [intros ch; rewrite Hc; apply H1|]. split; [done|]. split; [done|]. split; [auto|done].
Qed.

Lemma kept_step p ev p' : inv p -> kept p -> down_step p ev = Ok p' -> kept p'.
Proof.
  intros I K Es.
  assert (Hsp : forall t x q, spawn p t x = Ok q -> kept q).
  { intros t x q Eq. unfold spawn in Eq. destruct (_ <? _)%nat; [done|]. injection Eq as <-. by apply (kept_same p). }
  assert (Hth : forall t x, kept (set_thread p t x)) by (intros; by apply (kept_same p)).
  destruct ev as [t a|t e|t|t read sent|]; cbn [down_step] in Es.
  - destruct (spawn p t (TRead a)) as [q| |] eqn:Eq; cbn [rbind] in Es; try done. injection Es as <-.
    apply (kept_same q); try done. by eapply Hsp.
  - by eapply Hsp.
  - by eapply Hsp.
  - unfold thread_step in Es. destruct (p_threads p !! t) as [x|] eqn:Ht; [|done].
    destruct x as [a|a e|a e|a e|key|ch|k e|k e|k e|s|].
    + destruct read as [e|].
      * destruct (bool_decide _); [done|]. destruct (String.eqb _ _); [|done]. injection Es as <-. apply Hth.
      * injection Es as <-. by apply (kept_same p).
    + injection Es as <-. apply Hth.
    + injection Es as <-. apply (kept_same p); try done. cbn [p_chans]. intros ch.
      destruct (decide (p_next p = ch)) as [<-|Hne]; [|by rewrite lookup_insert_ne].
      rewrite lookup_insert. destruct (inv_fresh _ I (p_next p) ltac:(lia)) as [_ ->]. done.
    + destruct (p_pairs p !! _) as [ch|]; [|done]. destruct (p_chans p !! ch) as [[q [|]]|] eqn:Ec; try done.
      injection Es as <-. destruct K as (H1 & H2 & H3 & H4 & H5). destruct (_ <? _)%nat.
      * unfold kept. cbn [set_thread set_chan p_log p_chans p_slow p_loop p_flag].
        rewrite slow_in_app, slow_out_app, slow_lost_app. cbn [slow_in slow_out slow_lost omap list_omap]. rewrite !app_nil_r.
        split; [|done]. intros ch'. rewrite took_app, routed_app. cbn [took routed omap list_omap]. rewrite app_nil_r.
        destruct (Nat.eqb_spec ch ch') as [<-|Hne].
        -- rewrite lookup_insert, H1, Ec. by rewrite app_assoc.
        -- rewrite lookup_insert_ne, app_nil_r by done. apply H1.
      * unfold kept. cbn [set_thread set_chan p_log p_chans p_slow p_loop p_flag].
        rewrite slow_in_app, slow_out_app, slow_lost_app. cbn [slow_in slow_out slow_lost omap list_omap]. rewrite !app_nil_r.
        split; [|done]. intros ch'. rewrite took_app, routed_app. cbn [took routed omap list_omap]. rewrite !app_nil_r.
        destruct (decide (ch = ch')) as [<-|Hne].
        -- by rewrite lookup_insert, H1, Ec.
        -- rewrite lookup_insert_ne by done. apply H1.
    + destruct (p_pairs p !! key); [|done]. injection Es as <-. apply Hth.
    + destruct K as (H1 & H2 & H3 & H4 & H5). destruct (p_chans p !! ch) as [[[|e q] c]|] eqn:Ec; try done.
      * destruct c; [|done]. injection Es as <-. apply Hth.
      * assert (Eq : p' = set_thread (set_chan p ch (q, c) [Routed ch e]) t (TRoute (Some ch) e)) by (by destruct c; injection Es as <-).
        subst p'. unfold kept. cbn [set_thread set_chan p_log p_chans p_slow p_loop p_flag].
        rewrite slow_in_app, slow_out_app, slow_lost_app. cbn [slow_in slow_out slow_lost omap list_omap]. rewrite !app_nil_r.
        split; [|done]. intros ch'. rewrite took_app, routed_app. cbn [took routed omap list_omap]. rewrite app_nil_r.
        destruct (Nat.eqb_spec ch ch') as [<-|Hne].
        -- rewrite lookup_insert, H1, Ec. by rewrite <- app_assoc.
        -- rewrite lookup_insert_ne, app_nil_r by done. apply H1.
    + injection Es as <-. apply Hth.
    + injection Es as <-. apply Hth.
    + destruct (p_slow_closed p); [done|]. destruct (_ <? _)%nat; [|done]. injection Es as <-.
      destruct K as (H1 & H2 & H3 & H4 & H5). unfold kept. cbn [set_thread set_slow p_log p_chans p_slow p_loop p_flag].
      rewrite slow_in_app, slow_out_app, slow_lost_app. cbn [slow_in slow_out slow_lost omap list_omap]. rewrite !app_nil_r.
      split; [intros ch; rewrite took_app, routed_app; cbn [took routed omap list_omap]; rewrite !app_nil_r; apply H1|].
      split; [rewrite H2; by rewrite <- !app_assoc|done].
    + destruct s; cbn [close_step] in Es.
      * destruct (p_closing p); [done|]. injection Es as <-. by apply (kept_same p).
      * injection Es as <-. by apply (kept_same p).
      * injection Es as <-. by apply (kept_same p).
      * injection Es as <-. apply Hth.
      * destruct (existsb _ _); [done|]. injection Es as <-. apply (kept_same p); try done. cbn [p_chans]. intros ch.
        rewrite map_lookup_imap. by destruct (p_chans p !! ch) as [[q c]|].
      * destruct (p_slow_closed p); [done|]. injection Es as <-. by apply (kept_same p).
      * done.
    + done.
  - destruct K as (H1 & H2 & H3 & H4 & H5). unfold loop_step in Es.
    assert (Hpair : forall l, Forall (fun x => match x with Took _ _ | Routed _ _ => False | _ => True end) l ->
      forall ch, took ch (p_log p ++ l) = routed ch (p_log p ++ l) ++ match p_chans p !! ch with Some (q, _) => q | None => [] end).
    { intros l Hl ch. rewrite took_app, routed_app, H1.
      assert (took ch l = [] /\ routed ch l = []) as [-> ->].
      { induction Hl as [|x l Hx Hl IH]; [done|]. destruct IH. by destruct x. }
      by rewrite !app_nil_r. }
    destruct (p_loop p) eqn:Ep.
    + destruct (p_slow p) as [|e q] eqn:Eq.
      * destruct (p_slow_closed p); [|done]. injection Es as <-. unfold kept. cbn [set_slow p_log p_chans p_slow p_loop p_flag].
        split; [by apply Hpair|]. rewrite app_nil_r. split; [done|]. split; [done|]. done.
      * destruct (p_flag p) eqn:Ef; injection Es as <-; unfold kept; cbn [set_slow p_log p_chans p_slow p_loop p_flag];
          (split; [apply Hpair; by repeat constructor|]);
          rewrite slow_in_app, slow_out_app, slow_lost_app; cbn [slow_in slow_out slow_lost omap list_omap]; rewrite ?app_nil_r.
        -- rewrite (H3 ltac:(done)) in *. cbn [app] in *. split; [done|]. split; [done|]. split; [done|]. cbn. lia.
        -- rewrite (H3 ltac:(done)) in *. cbn [app] in *. split; [by rewrite H2, <- app_assoc|done].
    + injection Es as <-. unfold kept. cbn [set_slow p_log p_chans p_slow p_loop p_flag].
      split; [by apply Hpair|]. rewrite app_nil_r. split; [done|]. split; [intros _; by apply H3|done].
    + done.
Qed.

Lemma run_kept p evs p' : inv p -> kept p -> down_run p evs = Ok p' -> kept p'.
Proof.
  revert p; induction evs as [|ev evs IH]; intros p I K; cbn [down_run]; [by intros [= <-]|].
  destruct (down_step p ev) as [q| |] eqn:E; cbn [rbind]; try done. apply IH; [by eapply inv_step|by eapply kept_step].
Qed.

Lemma kept0 : kept peer0.
Proof. split; [intros ch; cbn; by rewrite lookup_empty|]. split; [done|]. split; [done|]. split; [done|]. cbn. lia. Qed.

(** Whatever Close does: the envelopes a pair's queue took are those its goroutine routed,
    in that order, followed by those still in the queue; those the slow queue took are
    those its loop sent, followed by at most one it threw away, which only happens once
    the flag is set, followed by those still in the queue. *)
Theorem C69_kept evs p :
  down_run peer0 evs = Ok p ->
  (forall ch q c, p_chans p !! ch = Some (q, c) -> took ch (p_log p) = routed ch (p_log p) ++ q) /\
  (exists lost, slow_in (p_log p) = slow_out (p_log p) ++ lost ++ p_slow p /\ (length lost <= 1)%nat /\ (lost <> [] -> p_flag p = true)).
Proof.
  intros Er. destruct (run_kept _ _ _ inv0 kept0 Er) as (H1 & H2 & H3 & H4 & H5). split.
  - intros ch q c Hc. specialize (H1 ch). by rewrite Hc in H1.
  - by exists (slow_lost (p_log p)).
Qed.
Print Assumptions C69_kept.

(** Once the flag is set, the slow queue's loop sends nothing more, so what the queue
    holds is lost. *)
Theorem C69_slow_lost p evs p' :
  p_flag p = true -> down_run p evs = Ok p' -> slow_out (p_log p') = slow_out (p_log p).
Proof.
  revert p. induction evs as [|ev evs IH]; intros p Hf; cbn [down_run]; [by intros [= <-]|].
  destruct (down_step p ev) as [q| |] eqn:Es; cbn [rbind]; try done. intros Er.
  assert (Hq : p_flag q = true /\ slow_out (p_log q) = slow_out (p_log p)).
  { destruct ev as [t a|t e|t|t read sent|]; cbn [down_step] in Es.
    - unfold spawn in Es. destruct (_ <? _)%nat; [done|]. by injection Es as <-.
    - unfold spawn in Es. destruct (_ <? _)%nat; [done|]. by injection Es as <-.
    - unfold spawn in Es. destruct (_ <? _)%nat; [done|]. by injection Es as <-.
    - unfold thread_step in Es. destruct (p_threads p !! t) as [x|] eqn:Ht; [|done].
      destruct x as [a|a e|a e|a e|key|ch|k e|k e|k e|s|].
      + destruct read; [destruct (bool_decide _); [done|]; destruct (String.eqb _ _); [|done]|]; by injection Es as <-.
      + by injection Es as <-.
      + by injection Es as <-.
      + destruct (p_pairs p !! _) as [ch|]; [|done]. destruct (p_chans p !! ch) as [[q0 [|]]|]; try done.
        injection Es as <-. destruct (_ <? _)%nat; cbn [set_thread set_chan p_log p_flag]; rewrite slow_out_app; cbn [slow_out omap list_omap]; by rewrite app_nil_r.
      + destruct (p_pairs p !! key); [|done]. by injection Es as <-.
      + destruct (p_chans p !! ch) as [[[|e q0] [|]]|]; try done; injection Es as <-; [done|..];
          cbn [set_thread set_chan p_log p_flag]; rewrite slow_out_app; cbn [slow_out omap list_omap]; by rewrite app_nil_r.
      + by injection Es as <-.
      + by injection Es as <-.
      + destruct (p_slow_closed p); [done|]. destruct (_ <? _)%nat; [|done]. injection Es as <-.
        cbn [set_thread set_slow p_log p_flag]. rewrite slow_out_app. cbn [slow_out omap list_omap]. by rewrite app_nil_r.
      + destruct s; cbn [close_step] in Es; [destruct (p_closing p); [done|]| | | |destruct (existsb _ _); [done|]|destruct (p_slow_closed p); [done|]|done]; by injection Es as <-.
      + done.
    - unfold loop_step in Es. rewrite Hf in Es. destruct (p_loop p); [destruct (p_slow p); [destruct (p_slow_closed p); [|done]|]| |done];
        injection Es as <-; cbn [set_slow p_log p_flag]; rewrite slow_out_app; cbn [slow_out omap list_omap]; by rewrite app_nil_r. }
  destruct Hq as [Hf' Hq]. rewrite (IH _ Hf' Er). done.
Qed.
Print Assumptions C69_slow_lost.

(** But what a pair's queue holds can still be routed: its goroutine, left to run, routes
    all of it, whatever comes of each envelope ([sents]), and ends when the queue is
    closed. *)
Definition drain (t : nat) (sents : list bool) : list event :=
  List.concat (map (fun b : bool => [EStep t None true; EStep t None b] ++ (if b then [] else [EStep t None true])) sents).

Theorem C69_drained p t ch q (c : bool) sents :
  p_flag p = true -> p_threads p !! t = Some (TRange ch) -> p_chans p !! ch = Some (q, c) -> length sents = length q ->
  exists p', down_run p (drain t sents ++ if c then [EStep t None true] else []) = Ok p' /\
    p_chans p' !! ch = Some ([], c) /\ routed ch (p_log p') = routed ch (p_log p) ++ q /\
    p_threads p' !! t = Some (if c then TEnd else TRange ch).
Proof.
  revert p sents. induction q as [|e q IH]; intros p sents Hf Ht Hc Hl.
  - destruct sents; [|done]. cbn [drain List.concat map app]. destruct c.
    + exists (set_thread p t TEnd).
      cbn [down_run down_step]. unfold thread_step. rewrite Ht, Hc. cbn [rbind].
      split; [done|]. split; [done|]. split; [by rewrite app_nil_r|]. cbn [set_thread p_threads]. by rewrite lookup_insert.
    + exists p. split; [done|]. split; [done|]. split; [by rewrite app_nil_r|done].
  - destruct sents as [|b sents]; [done|]. cbn [length] in Hl. injection Hl as Hl.
    set (p1 := set_thread (set_chan p ch (q, c) [Routed ch e]) t (TRoute (Some ch) e)).
    set (p2 := if b then set_thread p1 t (TRange ch) else set_thread (set_thread p1 t (TCheck (Some ch) e)) t (TRange ch)).
    destruct (IH p2 sents) as (p' & Er & Hc' & Hr' & Ht').
    + unfold p2. by destruct b.
    + unfold p2. destruct b; cbn [set_thread p_threads]; by rewrite lookup_insert.
    + unfold p2. destruct b; cbn [set_thread set_chan p1 p_chans]; by rewrite lookup_insert.
    + done.
    + exists p'. split.
      { change (drain t (b :: sents)) with (([EStep t None true; EStep t None b] ++ (if b then [] else [EStep t None true])) ++ drain t sents).
        rewrite <- !app_assoc.
        cbn [app down_run down_step]. unfold thread_step at 1. rewrite Ht, Hc. fold p1. cbn [rbind].
        unfold thread_step at 1. assert (Hp1 : p_threads p1 !! t = Some (TRoute (Some ch) e)) by (cbn [p1 set_thread p_threads]; by rewrite lookup_insert).
        rewrite Hp1. cbn [rbind]. unfold p2 in Er. destruct b.
        - cbn [app back]. exact Er.
        - cbn [app down_run down_step]. unfold thread_step at 1. cbn [set_thread p_threads]. rewrite lookup_insert.
          cbn [rbind p_flag set_thread set_chan p1]. rewrite Hf. cbn [back]. exact Er. }
      split; [done|]. split; [|done].
      rewrite Hr'. unfold p2. destruct b; cbn [set_thread set_chan p1 p_log]; rewrite routed_app; cbn [routed omap list_omap];
        rewrite Nat.eqb_refl, <- app_assoc; done.
Qed.
Print Assumptions C69_drained.

(** Close ends, in six steps of its own, if it is the only call and nobody interferes
    with it. *)
Theorem C69_close_ends evs p t :
  down_run peer0 evs = Ok p -> p_threads p !! t = Some (TClose KSignal) ->
  (forall t' s, p_threads p !! t' = Some (TClose s) -> t' = t) ->
  exists p', down_run p (replicate 6 (EStep t None false)) = Ok p' /\ p_threads p' !! t = Some (TClose KDone) /\
    p_closing p' = true /\ p_flag p' = true /\ p_slow_closed p' = true /\
    (forall k ch, p_pairs p' !! k = Some ch -> exists q, p_chans p' !! ch = Some (q, true)) /\
    (forall a c, p_table p' !! a = Some c -> c ∈ p_shut p') /\
    (forall c, c ∈ p_shut p' <-> c ∈ p_shut p \/ exists a, p_table p !! a = Some c).
Proof.
  intros Er Ht Hone. pose proof (run_inv _ _ _ inv0 Er) as I.
  assert (Hc : p_closing p = false).
  { destruct (p_closing p) eqn:E; [|done]. apply (inv_closing _ I) in E. destruct E as (t' & s & H & Hs).
    pose proof (Hone _ _ H) as ->. rewrite Ht in H. by injection H as <-. }
  assert (Hs : p_slow_closed p = false).
  { destruct (p_slow_closed p) eqn:E; [|done]. apply (inv_slow _ I) in E. destruct E as (t' & H).
    pose proof (Hone _ _ H) as ->. rewrite Ht in H. done. }
  assert (Hch : forall ch q, p_chans p !! ch <> Some (q, true)).
  { intros ch q E. apply (inv_chan _ I) in E. destruct E as (t' & [H|H]); pose proof (Hone _ _ H) as ->; by rewrite Ht in H. }
  cbn [replicate down_run down_step].
  unfold thread_step at 1. rewrite Ht. cbn [close_step]. rewrite Hc. cbn [rbind].
  unfold thread_step at 1. cbn [p_threads]. rewrite lookup_insert. cbn [close_step rbind].
  unfold thread_step at 1. cbn [p_threads]. rewrite lookup_insert. cbn [close_step rbind].
  unfold thread_step at 1. cbn [p_threads]. rewrite lookup_insert. cbn [close_step rbind].
  unfold thread_step at 1. cbn [set_thread p_threads]. rewrite lookup_insert. cbn [close_step rbind p_pairs p_chans set_thread].
  destruct (existsb _ _) eqn:Ex.
  { exfalso. apply existsb_exists in Ex. destruct Ex as (ch & Hin & Hv). apply elem_of_list_In, elem_of_list_fmap in Hin.
    destruct Hin as ([k ch'] & -> & Hin). apply elem_of_map_to_list in Hin. cbn [snd] in Hv.
    destruct (inv_pairs _ I _ _ Hin) as [[q c] Hq]. rewrite Hq in Hv. subst c. by eapply Hch. }
  cbn [rbind]. unfold thread_step at 1. cbn [p_threads]. rewrite lookup_insert. cbn [close_step p_slow_closed]. rewrite Hs. cbn [rbind].
  eexists. split; [reflexivity|]. cbn [p_threads p_closing p_flag p_slow_closed p_pairs p_chans p_table p_shut].
  split; [by rewrite lookup_insert|]. split; [done|]. split; [done|]. split; [done|]. split; [|split].
  - intros k ch Hk. destruct (inv_pairs _ I _ _ Hk) as [[q c] Hq]. exists q. rewrite map_lookup_imap, Hq. cbn [mbind option_bind fst snd].
    rewrite bool_decide_eq_true_2; [by rewrite orb_true_r|]. apply elem_of_list_fmap. exists (k, ch). split; [done|]. by apply elem_of_map_to_list.
  - intros a c Ha. apply elem_of_app. left. apply elem_of_list_fmap. exists (a, c). split; [done|]. by apply elem_of_map_to_list.
  - intros c. cbn [set_thread p_shut p_table]. rewrite elem_of_app, elem_of_list_fmap. split.
    + intros [([a c'] & -> & H)|H]; [right; exists a; by apply elem_of_map_to_list|by left].
    + intros [H|[a H]]; [by right|left; exists (a, c); split; [done|]; by apply elem_of_map_to_list].
Qed.
Print Assumptions C69_close_ends.

Definition mail (to sender : string) (m : bytes) : envelope := Envelope to sender "p:1.0" m "".
Definition tick (t : nat) : event := EStep t None false.
Definition closing (t : nat) : list event := EClose t :: replicate 6 (tick t).
Definition outcome {A B} (f : A -> B) (r : res A) : option (B + string) :=
  match r with Ok x => Some (inl (f x)) | Panic m => Some (inr m) | Err _ => None end.

(** One call of Close is enough for a crash: a delegate handler that has read an envelope
    and reaches the queue after Close has closed it; a call of RouteEnvelope that has
    looked at the flag just before it was set. *)
Theorem C69_handler_refuted :
  exists evs, length (List.filter (fun ev => match ev with EClose _ => true | _ => false end) evs) = 1%nat /\
    down_run peer0 evs = Panic "send on closed channel" /\
    Forall (fun ev => match ev with ECall _ _ => False | _ => True end) evs.
Proof.
  exists ([EConn 0 "alice"; EStep 0 (Some (mail "bob" "alice" [])) false; tick 0; tick 0] ++ closing 3 ++ [tick 0]).
  split; [by vm_compute|]. split; [by vm_compute|]. repeat constructor.
Qed.
Print Assumptions C69_handler_refuted.

Theorem C69_call_refuted :
  exists evs, length (List.filter (fun ev => match ev with EClose _ => true | _ => false end) evs) = 1%nat /\
    down_run peer0 evs = Panic "send on closed channel" /\
    Forall (fun ev => match ev with EConn _ _ => False | _ => True end) evs.
Proof.
  exists ([ECall 0 (mail "bob" "alice" []); tick 0; tick 0] ++ closing 1 ++ [tick 0]).
  split; [by vm_compute|]. split; [by vm_compute|]. repeat constructor.
Qed.
Print Assumptions C69_call_refuted.

(** A connection whose address has registered again is not closed: after Close has
    returned, its handler still takes envelopes, and they are routed. *)
Theorem C69_replaced_refuted :
  exists evs p evs' p',
    down_run peer0 evs = Ok p /\ p_threads p !! 2%nat = Some (TClose KDone) /\ p_threads p !! 0%nat = Some (TRead "alice") /\
    down_run p (EStep 0 (Some (mail "bob" "alice" [])) false :: evs') = Ok p' /\
    routed 3 (p_log p') = [mail "bob" "alice" []].
Proof.
  exists ([EConn 0 "alice"; EConn 1 "alice"] ++ closing 2).
  eexists. exists [tick 0; tick 0; tick 0; tick 4; tick 4]. eexists.
  split; [by vm_compute|]. split; [by vm_compute|]. split; [by vm_compute|]. split; by vm_compute.
Qed.
Print Assumptions C69_replaced_refuted.

(** Nor is the new connection, if the handler of the old one has ended: it takes the
    entry of the new one out of the table. *)
Theorem C69_cleanup_refuted :
  exists evs p evs' p',
    down_run peer0 ([EConn 0 "alice"; EConn 1 "alice"; tick 0] ++ evs) = Ok p /\
    p_threads p !! 2%nat = Some (TClose KDone) /\ p_threads p !! 0%nat = Some TEnd /\
    p_threads p !! 1%nat = Some (TRead "alice") /\ p_shut p = [] /\
    down_run p (EStep 1 (Some (mail "bob" "alice" [])) false :: evs') = Ok p' /\
    routed 3 (p_log p') = [mail "bob" "alice" []].
Proof.
  exists (closing 2).
  eexists. exists [tick 1; tick 1; tick 1; tick 4; tick 4]. eexists.
  split; [by vm_compute|]. split; [by vm_compute|]. split; [by vm_compute|]. split; [by vm_compute|].
  split; [by vm_compute|]. split; by vm_compute.
Qed.
Print Assumptions C69_cleanup_refuted.

(** Close called twice crashes the process. *)
Theorem C69_twice_refuted : down_run peer0 (closing 0 ++ [EClose 1; tick 1]) = Panic "close of closed channel".
Proof. by vm_compute. Qed.
Print Assumptions C69_twice_refuted.

(** Two envelopes in a pair's queue and one in the slow queue when Close is called: Close
    returns; the pair's goroutine still routes both, in order; the one in the slow queue
    is thrown away. *)
Definition busy : list event :=
  [EConn 0 "alice";
   EStep 0 (Some (mail "bob" "alice" [])) false; tick 0; tick 0; tick 0;
   EStep 0 (Some (mail "bob" "alice" (bytes_of "x"))) false; tick 0; tick 0; tick 2;
   ECall 3 (mail "carol" "dave" []); tick 3; tick 3; tick 3].
Definition stopped : list event := closing 4 ++ [EStep 0 None false].

Example C69_example :
  (* before Close: in the queues *)
  outcome (fun p => (p_chans p !! 1%nat, p_slow p, p_flag p)) (down_run peer0 busy)
    = Some (inl (Some ([mail "bob" "alice" []; mail "bob" "alice" (bytes_of "x")], false), [mail "carol" "dave" []], false)) /\
  (* after Close: still there, the queues are closed, the connection is closed *)
  outcome (fun p => (p_chans p !! 1%nat, p_slow p, p_flag p, p_threads p !! 4%nat, p_shut p)) (down_run peer0 (busy ++ stopped))
    = Some (inl (Some ([mail "bob" "alice" []; mail "bob" "alice" (bytes_of "x")], true), [mail "carol" "dave" []], true,
                 Some (TClose KDone), [0%nat])) /\
  (* nobody is on the way to a queue any more *)
  outcome (fun p => forallb (fun x => match x.2 with TRead _ | TLook _ _ | TMake _ _ | TSend _ _ | TPut _ _ | TClose KSignal => false | _ => true end)
                      (map_to_list (p_threads p))) (down_run peer0 (busy ++ stopped)) = Some (inl true) /\
  (* what becomes of them *)
  outcome (fun p => (routed 1 (p_log p), slow_out (p_log p), slow_lost (p_log p), p_threads p !! 2%nat))
    (down_run peer0 (busy ++ stopped ++ drain 2 [true; false] ++ [tick 2; ELoop]))
    = Some (inl ([mail "bob" "alice" []; mail "bob" "alice" (bytes_of "x")], [], [mail "carol" "dave" []], Some TEnd)).
Proof. split; [by vm_compute|]. split; [by vm_compute|]. split; by vm_compute. Qed.
