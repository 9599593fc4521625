(** C85: simultaneous use of the tables of a peer node (RaceModel.v). *)
From Coq Require Import ZArith List String Lia.
From stdpp Require Import base list sets.
From Verif Require Import GoBase RaceModel RaceProofs.
Open Scope string_scope.
Open Scope list_scope.
Open Scope nat_scope.

(** The next step of a goroutine (No counterpart in /repo: names in the statements). *)
Definition next (s : state) (i : nat) : option instr := st_threads s !! i ≫= fun t => head (th_rest t).

(** What a registration of a relay client does to the tables: dhtpeer.go:1706-1708, 1759-1771. *)
Definition registration : list section := [SMetric; SRecord; SDht].

(** Exactly when a step ends the process: one goroutine is in the middle of writing a table that another is about to write, read
    or range over; one of the two is New, and the table is one of the two that New uses without their locks. *)
Theorem C85_crash relay n ends stored own es s i :
  run relay (init n ends stored own) es = Some (Ok s) ->
  (exists why, step relay s (EMove i) = Some (Panic why)) <->
  exists j t, i <> j /\ (i = 0 \/ j = 0) /\ (t = TRecords \/ t = TDht) /\
    next s j = Some (IWritten t) /\ (next s i = Some (IWrite t) \/ next s i = Some (IRead t)).
Proof.
  intros Hrun. pose proof (inv_run _ _ _ _ (inv_init relay n ends stored own) Hrun) as Hinv. split.
  - intros [why Hs]. cbn in Hs. destruct (st_threads s !! i) as [t|] eqn:Ht; [|done].
    destruct (move _ _ _ _) as [[[[t' w] o]| |]|] eqn:Hm; try done.
    destruct (move_crash _ _ _ _ _ Hinv Ht Hm) as (j & x & H1 & H2 & H3 & H4 & H5).
    exists j, x. split; [done|]. split; [done|]. split; [unfold bare in H3; set_solver|]. done.
  - intros (j & x & _ & _ & _ & H4 & H5). by eapply move_crash_back.
Qed.
Print Assumptions C85_crash.

(** Once all handlers are set up, and on a node that is no relay, nothing that is done to the tables ends the process: any number
    of goroutines, in any order. *)
Theorem C85_running relay n ends stored own es s es' why :
  run relay (init n ends stored own) es = Some (Ok s) ->
  st_open s = true \/ relay = false ->
  run relay s es' <> Some (Panic why).
Proof.
  intros Hrun Hsafe Hc. destruct (run_crash _ _ _ _ Hc) as (pre & e & s1 & -> & Hpre & Hstep).
  pose proof (inv_run _ _ _ _ (inv_init relay n ends stored own) Hrun) as Hinv.
  assert (st_open s1 = true \/ relay = false) as Hsafe1.
  { destruct Hsafe as [Ho|]; [left|by right]. clear -Ho Hpre. revert s Ho Hpre.
    induction pre as [|e pre IH]; intros s Ho; cbn; [by intros [= <-]|].
    destruct (step relay s e) as [[s2| |]|] eqn:Hs; try done; [|by destruct pre|by destruct pre].
    apply IH. destruct e as [l|i]; cbn in Hs.
    - rewrite Ho in Hs. cbn in Hs. by injection Hs as <-.
    - destruct (st_threads s !! i) as [t|]; [|done]. destruct (move _ _ _ _) as [[[[t' w] o]| |]|] eqn:Hm; try done.
      injection Hs as <-. cbn. rewrite Ho in Hm. unfold move in Hm.
      destruct (th_rest t) as [|[] k]; try done; repeat case_match; congruence. }
  pose proof (inv_run _ _ _ _ Hinv Hpre) as Hinv1.
  assert (run relay (init n ends stored own) (es ++ pre) = Some (Ok s1)) as Hrun1 by (by rewrite (run_app _ _ _ _ _ Hrun)).
  destruct e as [l|i]; [cbn in Hstep; by destruct (st_open s1 || forallb (early relay) l)|].
  assert (exists j t, i <> j /\ (i = 0 \/ j = 0) /\ (t = TRecords \/ t = TDht) /\
    next s1 j = Some (IWritten t) /\ (next s1 i = Some (IWrite t) \/ next s1 i = Some (IRead t))) as (j & t & Hij & H0 & Ht & Hj & Hi).
  { apply (C85_crash relay n ends stored own (es ++ pre) s1 i Hrun1). eauto. }
  unfold next in *.
  destruct (st_threads s1 !! i) as [ti|] eqn:Hti; [|cbn in Hi; naive_solver].
  destruct (st_threads s1 !! j) as [tj|] eqn:Htj; [|done]. cbn in Hi, Hj.
  destruct (st_open s1) eqn:Ho.
  { destruct H0 as [->| ->].
    - rewrite (inv_open _ _ Hinv1 Ho _ Hti) in Hi. cbn in Hi. naive_solver.
    - by rewrite (inv_open _ _ Hinv1 Ho _ Htj) in Hj. }
  destruct Hsafe1 as [?|Hrel]; [done|].
  destruct (decide (i = 0)) as [->|Hi0].
  - pose proof (inv_quiet _ _ Hinv1 Hrel Ho j tj (not_eq_sym Hij) Htj) as Hq.
    destruct (th_rest tj) as [|c k]; [done|]. injection Hj as ->. apply Forall_cons_1 in Hq as [Hq _].
    destruct Ht as [-> | ->]; unfold bare in Hq; set_solver.
  - pose proof (inv_quiet _ _ Hinv1 Hrel Ho i ti Hi0 Hti) as Hq.
    destruct (th_rest ti) as [|c k]; [cbn in Hi; naive_solver|]. apply Forall_cons_1 in Hq as [Hq _]. cbn in Hi.
    destruct Hi as [[= ->]|[= ->]]; destruct Ht as [-> | ->]; unfold bare in Hq; set_solver.
Qed.
Print Assumptions C85_running.

(** The steps New has still to do are an end of its code (used in the proofs only). *)
Lemma new_suffix relay s es s' k :
  (exists t, st_threads s !! 0 = Some t /\ exists k1, k = k1 ++ th_rest t) ->
  run relay s es = Some (Ok s') ->
  exists t, st_threads s' !! 0 = Some t /\ exists k1, k = k1 ++ th_rest t.
Proof.
  revert s. induction es as [|e es IH]; intros s Hs; cbn; [by intros [= <-]|].
  destruct (step relay s e) as [[s2| |]|] eqn:He; try done; [|by destruct es|by destruct es].
  apply IH. destruct Hs as (t & Ht & k1 & Hk). destruct e as [l|i]; cbn in He.
  - destruct (st_open s || _); [|done]. injection He as <-. cbn. exists t. split; [by apply lookup_app_l_Some|]. eauto.
  - destruct (st_threads s !! i) as [u|] eqn:Hu; [|done]. destruct (move _ _ _ _) as [[[[t' w] o]| |]|] eqn:Hm; try done.
    injection He as <-. cbn. destruct (decide (i = 0)) as [->|Hi].
    + rewrite Ht in Hu. injection Hu as <-. exists t'. split; [apply list_lookup_insert; by eapply lookup_lt_Some|].
      unfold move in Hm. destruct (th_rest t) as [|c r]; [done|]. exists (k1 ++ [c]). rewrite <- app_assoc. cbn. rewrite Hk. do 2 f_equal.
      destruct c; try (by injection Hm as <- <- <-);
        repeat match type of Hm with context [if ?b then _ else _] => destruct b end; try done; try (by injection Hm as <- <- <-).
      destruct (th_held t); [done|]. by injection Hm as <- <- <-.
    + exists t. rewrite list_lookup_insert_ne by done. eauto.
Qed.

(** The last goroutine moves (used in the proofs only). *)
Lemma move_last relay ts T T' w w' o o' :
  move (ts ++ [T]) w o T = Some (Ok (T', w', o')) ->
  step relay (State (ts ++ [T]) w o) (EMove (length ts)) = Some (Ok (State (ts ++ [T']) w' o')).
Proof.
  intros Hm. cbn. rewrite list_lookup_middle by done. rewrite Hm. do 3 f_equal.
  replace (length ts) with (length ts + 0) at 1 by lia. by rewrite insert_app_r.
Qed.

Lemma run_last relay ts T T' w w' o o' es :
  move (ts ++ [T]) w o T = Some (Ok (T', w', o')) ->
  run relay (State (ts ++ [T]) w o) (EMove (length ts) :: es) = run relay (State (ts ++ [T']) w' o') es.
Proof. intros Hm. cbn [run]. by rewrite (move_last relay _ _ _ _ _ _ _ Hm). Qed.

(** As long as New has still to write or range over one of its two tables, a relay client that registers can end the process,
    whatever happened before, if no handler is at work. *)
Theorem C85_exposed n ends stored own es s t k1 x k2 :
  run true (init n ends stored own) es = Some (Ok s) ->
  st_threads s !! 0 = Some t -> th_rest t = k1 ++ x :: k2 ->
  (x = IRead TDht \/ x = IWrite TDht \/ x = IWrite TRecords) ->
  (forall i u, i <> 0 -> st_threads s !! i = Some u -> th_rest u = []) ->
  exists es1 m why, run true s (es1 ++ EStart registration :: m ++ [EMove 0]) = Some (Panic why).
Proof.
  intros Hrun Ht Hr Hx Hoth. pose proof (inv_run _ _ _ _ (inv_init true n ends stored own) Hrun) as Hinv.
  destruct (solo true s t k1 x k2 Hinv Ht Hr Hoth) as (es1 & s1 & t1 & Hrun1 & Ht1 & Hr1 & Ho & Hoth1).
  pose proof (inv_run _ _ _ _ Hinv Hrun1) as Hinv1.
  assert (st_writing s1 = []) as Hw.
  { destruct (st_writing s1) as [|y w] eqn:Hw; [done|]. exfalso.
    assert (y ∈ st_writing s1) as ([|i] & u & Hu & Hy)%(inv_mark _ _ Hinv1) by (rewrite Hw; by left).
    - rewrite Ht1 in Hu. injection Hu as <-. rewrite Hr1 in Hy. destruct Hx as [->|[->| ->]]; done.
    - by rewrite (Hoth1 (S i) u) in Hy. }
  assert (th_held t1 = []) as Hh1.
  { pose proof (inv_ok _ _ Hinv1 _ _ Ht1) as Hok. rewrite Hr1 in Hok. rewrite decide_True in Hok by done.
    destruct Hx as [->|[->| ->]]; destruct Hok as [ [ [_ Hok]|[Hok _] ] _]; try done; unfold bare in Hok; set_solver. }
  assert (forall l any, held (st_threads s1) l any = false) as Hfree.
  { intros l any. apply held_free. intros i u m Hu Hm.
    pose proof (inv_ok _ _ Hinv1 _ _ Hu) as Hok. destruct (decide (i = 0)) as [->|Hi].
    - rewrite Ht1 in Hu. injection Hu as <-. rewrite Hh1 in Hm. set_solver.
    - rewrite (Hoth1 i u Hi Hu) in Hok. cbn in Hok. rewrite Hok in Hm. set_solver. }
  destruct s1 as [ts w o]. cbn [st_threads st_writing st_open] in *. subst w o.
  assert (forall h k l any, held (ts ++ [Thread h k]) l any = held [Thread h k] l any) as Hheld.
  { intros h k l any. unfold held. rewrite existsb_app. fold (held ts l any). by rewrite Hfree. }
  assert (forall T, (ts ++ [T]) !! 0 = Some t1) as H0 by (intros T; by apply lookup_app_l_Some).
  assert (run true (State ts [] false) (EStart registration :: repeat (EMove (length ts)) 3) =
    Some (Ok (State (ts ++ [Thread [(LRecords, true)] [IWritten TRecords; IUnlock; ILock LDht; IWrite TDht; IWritten TDht; IUnlock]]) [TRecords] false))) as H3.
  { transitivity (run true (State (ts ++ [Thread [] [IRead TMetrics; ILock LRecords; IWrite TRecords; IWritten TRecords; IUnlock;
      ILock LDht; IWrite TDht; IWritten TDht; IUnlock] ]) [] false) (repeat (EMove (length ts)) 3)); [reflexivity|].
    cbn [repeat].
    (erewrite run_last; [|reflexivity]). cbn [th_held].
    erewrite run_last; [|unfold move; cbn [th_rest]; rewrite Hheld; reflexivity]. cbn [th_held].
    (erewrite run_last; [|reflexivity]). done. }
  assert (x = IWrite TRecords \/ x = IRead TDht \/ x = IWrite TDht) as [->|Hx'] by tauto.
  - exists es1, (repeat (EMove (length ts)) 3). eexists. rewrite (run_app _ _ _ _ _ Hrun1), app_comm_cons, (run_app _ _ _ _ _ H3).
    cbn [run step st_threads]. rewrite H0. unfold move. rewrite Hr1. cbn. reflexivity.
  - assert (run true (State ts [] false) (EStart registration :: repeat (EMove (length ts)) 7) =
      Some (Ok (State (ts ++ [Thread [(LDht, true)] [IWritten TDht; IUnlock] ]) [TDht] false))) as H7.
    { change (EStart registration :: repeat (EMove (length ts)) 7)
        with ((EStart registration :: repeat (EMove (length ts)) 3) ++ repeat (EMove (length ts)) 4).
      rewrite (run_app _ _ _ _ _ H3). cbn [repeat].
      (erewrite run_last; [|reflexivity]). cbn [th_held].
      (erewrite run_last; [|reflexivity]). cbn [th_held].
      erewrite run_last; [|unfold move; cbn [th_rest]; rewrite Hheld; reflexivity]. cbn [th_held].
      (erewrite run_last; [|reflexivity]). done. }
    destruct Hx' as [->| ->];
      (exists es1, (repeat (EMove (length ts)) 7); eexists; rewrite (run_app _ _ _ _ _ Hrun1), app_comm_cons, (run_app _ _ _ _ _ H7); cbn [run step st_threads];
       rewrite H0; unfold move; rewrite Hr1; cbn; reflexivity).
Qed.
Print Assumptions C85_exposed.

(** Which nodes can end this way while they start: exactly the relays that have a stored record or entry peers. *)
Theorem C85_nodes relay n ends stored own :
  (exists es why, run relay (init n ends stored own) es = Some (Panic why)) <->
  relay = true /\ (n <> 0 \/ ends = NoPeer \/ (ends = Loaded /\ stored <> None)).
Proof.
  split.
  - intros (es & why & Hc). destruct relay; [|by apply (C85_running false n ends stored own [] _ es why eq_refl) in Hc; [|right] ].
    split; [done|].
    destruct (run_crash _ _ _ _ Hc) as (pre & e & s1 & -> & Hpre & Hstep).
    destruct e as [l|i]; [cbn in Hstep; by destruct (st_open s1 || forallb (early true) l)|].
    assert (exists j t, i <> j /\ (i = 0 \/ j = 0) /\ (t = TRecords \/ t = TDht) /\
      next s1 j = Some (IWritten t) /\ (next s1 i = Some (IWrite t) \/ next s1 i = Some (IRead t))) as (j & t & Hij & H0 & Ht & Hj & Hi).
    { apply (C85_crash true n ends stored own pre s1 i Hpre). eauto. }
    destruct (new_suffix true (init n ends stored own) pre s1 (new_code n ends stored own)) as (t0 & Ht0 & k & Hk); [ |done|].
    { eexists. split; [done|]. by exists []. }
    destruct n as [|n]; [|by left]. right. destruct ends; [|exfalso|by left].
    + right. split; [done|]. intros ->. cbn in Hk.
      unfold next in *. destruct H0 as [->| ->]; rewrite Ht0 in *; cbn in *.
      * destruct k as [|c k]; cbn in Hk; [rewrite <- Hk in Hi; cbn in Hi; naive_solver|].
        injection Hk as _ Hk. destruct k; [|done]. cbn in Hk. rewrite <- Hk in Hi. cbn in Hi. naive_solver.
      * destruct k as [|c k]; cbn in Hk; [by rewrite <- Hk in Hj|].
        injection Hk as _ Hk. destruct k; [|done]. cbn in Hk. by rewrite <- Hk in Hj.
    + cbn in Hk. destruct k; [|done]. cbn in Hk.
      unfold next in *. destruct H0 as [->| ->]; rewrite Ht0 in *; cbn in *; rewrite <- Hk in *; cbn in *; naive_solver.
  - intros [-> Hn].
    assert (exists k1 x k2, new_code n ends stored own = k1 ++ x :: k2 /\ (x = IRead TDht \/ x = IWrite TDht \/ x = IWrite TRecords)) as (k1 & x & k2 & Hk & Hx).
    { destruct n as [|n].
      - destruct Hn as [?|[->|[-> Hs]]]; [done| |].
        + eexists [], _, _. cbn. split; [reflexivity|]. auto.
        + destruct stored as [l|]; [|done]. eexists [], _, _. cbn. split; [reflexivity|]. auto.
      - eexists [], _, _. cbn. split; [reflexivity|]. auto. }
    destruct (C85_exposed n ends stored own [] _ (Thread [] (new_code n ends stored own)) k1 x k2 eq_refl eq_refl Hk Hx) as (es1 & m & why & H).
    { intros [|i] u Hi Hu; done. }
    eauto.
Qed.
Print Assumptions C85_nodes.

(** A user expects that a client that registers while the node starts is served or refused: a relay with entry peers and two stored clients that announces the
    first of them when a third registers ends. *)
Theorem C85_refuted :
  exists es, run true (init 2 Loaded (Some [true; true]) None) es = Some (Panic "concurrent map read and map write").
Proof.
  exists (repeat (EMove 0) 9 ++ EStart registration :: repeat (EMove 1) 7 ++ repeat (EMove 0) 9). vm_compute. reflexivity.
Qed.
Print Assumptions C85_refuted.

(** What the state is (No counterpart in /repo: used in the examples only). *)
Definition observe (r : option (res state)) : option (res (list (list instr) * list table * bool)) :=
  match r with
  | Some (Ok s) => Some (Ok (map th_rest (st_threads s), st_writing s, st_open s))
  | Some (Err e) => Some (Err e)
  | Some (Panic w) => Some (Panic w)
  | None => None
  end.

(** Once that relay is up, the same registration, a delegate connection, a mailbox request and a notification run at the same time: three tables are
    being written at once, the delegate connection waits for the lock of the records, and all end; the node without relay ignores the client until it is
    up. *)
Example C85_example :
  let up := run true (init 2 Loaded (Some [true; true]) None) in
  let es := repeat (EMove 0) 28 ++
    [EStart registration; EStart [SRecord; STcp]; EStart [SMailRegister]; EStart [SNotifyDht [true; false] ] ] in
  let busy := es ++ repeat (EMove 1) 3 ++ repeat (EMove 3) 2 ++ repeat (EMove 4) 5 in
  match up busy with
  | Some (Ok s) => map (next s) [0; 1; 2; 3; 4] =
      [None; Some (IWritten TRecords); Some (ILock LRecords); Some (IWritten TMailRecords); Some (ILock LAnnounced)] /\
      st_writing s = [TMailRecords; TRecords] /\ step true s (EMove 2) = None
  | _ => False
  end /\
  observe (up (busy ++ repeat (EMove 1) 2 ++ repeat (EMove 2) 8 ++ repeat (EMove 3) 6 ++ repeat (EMove 4) 11 ++ repeat (EMove 1) 4)) =
    Some (Ok ([ []; []; []; []; [] ], [], true)) /\
  run false (init 2 Loaded (Some [true; true]) None) [EStart registration] = None.
Proof. vm_compute. repeat split. Qed.
