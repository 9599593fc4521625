(** Properties of the metrics of the peers of one process: which peers can be made, that
    every metric the node uses is there, who serves the metrics and how long. *)
From Coq Require Import ZArith NArith List String Ascii Lia.
From stdpp Require Import base tactics gmap list strings.
From Verif Require Import GoBase MetricsModel.
Open Scope string_scope.
Open Scope list_scope.
Open Scope Z_scope.

(** The metrics that the node looks up by name (dhtpeer.go:384, 844-846, 1058-1061,
    1247-1248, 1331, 1620, 1706-1708, 1805). *)
Definition looked_up : list (kind * string) :=
  [(KHistogram, "op_latency_register");
   (KGauge, "service_delegate_clients_count"); (KCounter, "service_delegate_clients_count_all");
   (KGauge, "op_route_count"); (KCounter, "op_route_count_all"); (KCounter, "op_route_count_success");
   (KHistogram, "op_latency_route"); (KHistogram, "dht_op_latency_lookup");
   (KCounter, "service_relay_clients_count_all"); (KHistogram, "dht_op_latency_store")].

(** The names under which the metrics of a peer are published. *)
Definition published : list string :=
  ["acn_dht_op_latency_store"; "acn_dht_op_latency_lookup"; "acn_op_latency_register"; "acn_op_latency_route";
   "acn_op_route_count"; "acn_op_route_count_all"; "acn_op_route_count_success";
   "acn_service_delegate_clients_count"; "acn_service_delegate_clients_count_all";
   "acn_service_relay_clients_count"; "acn_service_relay_clients_count_all"].

(** * Making metrics *)

Definition key (x : kind * string * list Z) : kind * string := x.1.
Definition full (x : kind * string * list Z) : string := full_name "acn" x.1.2.
Definition fit (x : kind * string * list Z) : Prop := name_ok (full x) = true /\ increasing x.2 = true.

(** The monitors of [p'] are those of [p] but for [i], which was [m] and got the metrics [l]. *)
Record built (p p' : process) (i : nat) (m : monitor) (l : list (kind * string * list Z)) : Prop := {
  bu_page : pr_page p' = pr_page p;
  bu_made : pr_made p' = (pr_made p + length l)%nat;
  bu_monitor : exists d, pr_monitors p' = <[i := Monitor (mo_file m) (mo_namespace m) d (mo_running m) (mo_server m) (mo_waiting m)]> (pr_monitors p) /\
    (forall x n, d !! x = Some n -> (mo_dict m !! x = Some n \/ exists j, n = (pr_made p + j)%nat /\ key <$> l !! j = Some x)) /\
    (NoDup (map key l) -> forall j x, key <$> l !! j = Some x -> d !! x = Some (pr_made p + j)%nat) /\
    (forall x, x ∉ map key l -> d !! x = mo_dict m !! x) }.

Lemma built_nil p i m : pr_monitors p !! i = Some m -> built p p i m [].
Proof.
  intros H. split; [done|cbn; lia|]. exists (mo_dict m). split.
  - rewrite insert_id; [done|]. rewrite H. by destruct m.
  - split; [by left|]. split; [|done]. by intros _ j x.
Qed.

Lemma built_cons p i m k name b l p1 p' :
  pr_monitors p !! i = Some m ->
  let m1 := Monitor (mo_file m) (mo_namespace m) (<[(k, name) := pr_made p]> (mo_dict m)) (mo_running m) (mo_server m) (mo_waiting m) in
  pr_page p1 = pr_page p -> pr_made p1 = S (pr_made p) -> pr_monitors p1 = <[i := m1]> (pr_monitors p) ->
  built p1 p' i m1 l -> built p p' i m ((k, name, b) :: l).
Proof.
  intros Hm m1 H1 H2 H3 [B1 B2 (d & B3 & B4 & B5 & B6)]. split; [congruence|cbn; lia|].
  exists d. split; [by rewrite B3, H3, insert_insert|]. split; [|split].
  - intros x n Hx. destruct (B4 x n Hx) as [Hd|(j & -> & Hj)].
    + cbn in Hd. destruct (decide ((k, name) = x)) as [<-|Hne].
      * rewrite lookup_insert in Hd. injection Hd as <-. right. exists 0%nat. split; [lia|done].
      * rewrite lookup_insert_ne in Hd by done. by left.
    + right. exists (S j). split; [lia|done].
  - intros Hnd j x Hj. cbn in Hnd. apply NoDup_cons in Hnd as [Hk Hnd]. destruct j as [|j].
    + cbn in Hj. injection Hj as <-. rewrite B6 by done. cbn. rewrite lookup_insert. f_equal. lia.
    + rewrite (B5 Hnd j x Hj). f_equal. lia.
  - intros x Hx. cbn in Hx. apply not_elem_of_cons in Hx as [Hx1 Hx2]. rewrite B6 by done. cbn.
    by rewrite lookup_insert_ne.
Qed.

Lemma file_metrics l p i m :
  pr_monitors p !! i = Some m -> mo_file m = true ->
  exists p', new_metrics p i l = Ok p' /\ pr_registry p' = pr_registry p /\ built p p' i m l.
Proof.
  revert p m. induction l as [|[[k name] b] l IH]; intros p m Hm Hf.
  { exists p. split; [done|]. split; [done|]. by apply built_nil. }
  cbn [new_metrics]. unfold new_metric. rewrite Hm, Hf. cbn [rbind].
  match goal with |- context[new_metrics ?q i l] => set (p1 := q) end.
  edestruct (IH p1) as (p' & E & Hr & Hb); [apply lookup_insert|done|].
  exists p'. split; [done|]. split; [by rewrite Hr|].
  eapply (built_cons p i m k name b l p1); [done|done|done| |]; cbn; rewrite Hf; [done|exact Hb].
Qed.

Lemma prom_metrics l p i m :
  pr_monitors p !! i = Some m -> mo_file m = false -> mo_namespace m = "acn" -> Forall fit l -> NoDup (map full l) ->
  if decide (Exists (fun x => full x ∈ pr_registry p) l) then is_panic (new_metrics p i l) = true
  else exists p', new_metrics p i l = Ok p' /\ pr_registry p' = list_to_set (map full l) ∪ pr_registry p /\ built p p' i m l.
Proof.
  revert p m. induction l as [|[[k name] b] l IH]; intros p m Hm Hf Hns Hfit Hnd.
  { rewrite decide_False by (intros He; inversion He). exists p. split; [done|]. split; [set_solver|]. by apply built_nil. }
  apply Forall_cons in Hfit as [[F1 F2] Hfit]. cbn [map] in Hnd. apply NoDup_cons in Hnd as [Hx Hnd].
  cbn [new_metrics]. unfold new_metric. rewrite Hm, Hf, Hns. unfold full in F1. cbn [fst snd] in F1, F2. rewrite F1, F2. cbn [negb].
  destruct (decide (full_name "acn" name ∈ pr_registry p)) as [Hin|Hin].
  { rewrite decide_True; [done|]. by left. }
  cbn [rbind]. match goal with |- context[new_metrics ?q i l] => set (p1 := q) end.
  specialize (IH p1 _ (lookup_insert _ _ _) eq_refl eq_refl Hfit Hnd).
  assert (Exists (fun x => full x ∈ pr_registry p1) l <-> Exists (fun x => full x ∈ pr_registry p) ((k, name, b) :: l)) as Hiff.
  { rewrite Exists_cons. split.
    - intros H. right. apply Exists_exists in H as (x & Hxl & Hxr). apply Exists_exists. exists x. split; [done|].
      cbn in Hxr. apply elem_of_union in Hxr as [Hxr|Hxr]; [|done]. apply elem_of_singleton in Hxr.
      exfalso. apply Hx. rewrite elem_of_list_fmap. exists x. split; [|done]. by rewrite Hxr.
    - intros [H|H]; [by destruct Hin|]. eapply Exists_impl; [exact H|]. cbn. set_solver. }
  destruct (decide (Exists (fun x => full x ∈ pr_registry p1) l)) as [He|He].
  - by rewrite decide_True by (by apply Hiff).
  - rewrite decide_False by (by rewrite <- Hiff). destruct IH as (p' & E & Hr & Hb).
    exists p'. split; [done|]. split.
    + rewrite Hr. cbn. unfold full at 2. cbn. set_solver.
    + eapply (built_cons p i m k name b l p1); [done|done|done| |]; cbn; rewrite Hf, Hns; [done|exact Hb].
Qed.

Lemma peer_fit : Forall fit peer_metrics.
Proof. repeat constructor. Qed.
Lemma peer_published : map full peer_metrics = published.
Proof. reflexivity. Qed.
Lemma published_nodup : NoDup published.
Proof. apply (bool_decide_unpack _). vm_compute. exact I. Qed.
Lemma keys_nodup : NoDup (map key peer_metrics).
Proof. apply (bool_decide_unpack _). vm_compute. exact I. Qed.

Definition fresh_monitor (port : Z) : monitor := Monitor (port =? 0) "acn" ∅ false SZero 0.

(** What setting up a peer does. *)
Lemma setup_spec p i port :
  if decide (port <> 0 /\ Exists (fun n => n ∈ pr_registry p) published)
  then is_panic (setup p i port) = true
  else exists p', setup p i port = Ok p' /\
    pr_registry p' = (if decide (port = 0) then ∅ else list_to_set published) ∪ pr_registry p /\
    built (put_monitor p i (fresh_monitor port)) p' i (fresh_monitor port) peer_metrics.
Proof.
  unfold setup. fold (fresh_monitor port). fold (put_monitor p i (fresh_monitor port)).
  set (q := put_monitor p i (fresh_monitor port)).
  assert (pr_monitors q !! i = Some (fresh_monitor port)) as Hq by apply lookup_insert.
  destruct (decide (port = 0)) as [->|Hport].
  - rewrite decide_False by tauto.
    destruct (file_metrics peer_metrics q i _ Hq eq_refl) as (p' & E & Hr & Hb).
    exists p'. split; [done|]. split; [|done]. rewrite Hr. cbn. set_solver.
  - pose proof (prom_metrics peer_metrics q i _ Hq) as H. cbn [fresh_monitor mo_file mo_namespace] in H.
    specialize (H ltac:(by apply Z.eqb_neq) eq_refl peer_fit ltac:(rewrite peer_published; apply published_nodup)).
    assert (Exists (fun x => full x ∈ pr_registry q) peer_metrics <-> Exists (fun n => n ∈ pr_registry p) published) as Hiff.
    { rewrite <- peer_published. by rewrite Exists_fmap. }
    rewrite peer_published in H.
    destruct (decide (Exists _ peer_metrics)) as [He|He].
    + rewrite decide_True; [done|]. split; [done|]. by apply Hiff.
    + rewrite decide_False by (intros [_ Hx]; by apply He, Hiff). exact H.
Qed.

(** * Histories *)

(** A process whose registry has none of the names, without peers so far. *)
Definition clean (p : process) : Prop :=
  Forall (fun n => n ∉ pr_registry p) published /\ pr_page p = false /\ pr_monitors p = ∅.

(** Some peer was made with a monitoring port. *)
Definition with_port (es : list event) : Prop := exists j port, In (ESetup j port) es /\ port <> 0.

Lemma run_snoc p es e : run p (es ++ [e]) = match run p es with Some (Ok q) => step q e | x => x end.
Proof.
  revert p. induction es as [|e' es IH]; intros p; cbn [run app].
  - by destruct (step p e) as [[]|].
  - destruct (step p e') as [[]|]; [apply IH|done..].
Qed.

Lemma run_app p es es' : run p (es ++ es') = match run p es with Some (Ok q) => run q es' | x => x end.
Proof.
  revert p. induction es as [|e es IH]; intros p; cbn [run app]; [done|].
  destruct (step p e) as [[]|]; [apply IH|done..].
Qed.

(** The same monitor but for having been started. *)
Definition grown (m m' : monitor) : Prop :=
  mo_file m' = mo_file m /\ mo_dict m' = mo_dict m /\ (mo_running m = true -> mo_running m' = true).

Lemma step_kept p e p' :
  step p e = Some (Ok p') -> (forall i port, e <> ESetup i port) ->
  pr_registry p' = pr_registry p /\ pr_made p' = pr_made p /\
  (forall j m', pr_monitors p' !! j = Some m' -> exists m, pr_monitors p !! j = Some m /\ grown m m') /\
  (forall j m, pr_monitors p !! j = Some m -> exists m', pr_monitors p' !! j = Some m' /\ grown m m') /\
  (pr_page p' = true -> pr_page p = true \/ exists j m, pr_monitors p' !! j = Some m /\ mo_file m = false /\ mo_running m = true).
Proof.
  assert (forall q, (forall j m', pr_monitors q !! j = Some m' -> exists m, pr_monitors q !! j = Some m /\ grown m m')) as Hself.
  { intros q j m' H. exists m'. done. }
  assert (forall q, (forall j m, pr_monitors q !! j = Some m -> exists m', pr_monitors q !! j = Some m' /\ grown m m')) as Hself'.
  { intros q j m' H. exists m'. done. }
  assert (forall (q : gmap nat monitor) i m m1, q !! i = Some m -> grown m m1 ->
    (forall j m', <[i := m1]> q !! j = Some m' -> exists m, q !! j = Some m /\ grown m m') /\
    (forall j m, q !! j = Some m -> exists m', <[i := m1]> q !! j = Some m' /\ grown m m')) as Hput.
  { intros q i m m1 Hi Hg. split; intros j mj Hj; destruct (decide (i = j)) as [<-|Hne].
    - rewrite lookup_insert in Hj. injection Hj as <-. eauto.
    - rewrite lookup_insert_ne in Hj by done. exists mj. done.
    - rewrite lookup_insert. rewrite Hi in Hj. injection Hj as <-. eauto.
    - rewrite lookup_insert_ne by done. exists mj. done. }
  intros H Hne. destruct e as [i port|i|i ok|i|i]; [by destruct (Hne i port)|..]; cbn [step] in H;
    destruct (pr_monitors p !! i) as [m|] eqn:Em; try discriminate H.
  - injection H as H. unfold start_monitor in H. destruct (mo_file m) eqn:Ef, (mo_running m) eqn:Er; cbn [orb] in H;
      try (injection H as <-; repeat split; auto; fail).
    destruct (pr_page p); [discriminate H|]. injection H as <-. cbn.
    destruct (Hput (pr_monitors p) i m (Monitor false (mo_namespace m) (mo_dict m) true SMade (S (mo_waiting m))) Em) as [P1 P2].
    { split; [done|]. split; done. }
    repeat split; auto. intros _. right. exists i. eexists. split; [apply lookup_insert|]. done.
  - unfold listen_monitor in H. destruct (mo_waiting m) as [|n]; [discriminate H|]. injection H as <-. cbn.
    match goal with |- context[<[i := ?x]> _] => destruct (Hput (pr_monitors p) i m x Em) as [P1 P2]; [done|] end.
    repeat split; auto.
  - injection H as H. unfold stop_monitor in H. destruct (mo_file m) eqn:Ef; [discriminate H|]. injection H as <-. cbn.
    match goal with |- context[<[i := ?x]> _] => destruct (Hput (pr_monitors p) i m x Em) as [P1 P2]; [by split|] end.
    repeat split; auto.
  - injection H as <-. repeat split; auto.
Qed.

Record inv (es : list event) (p : process) : Prop := {
  in_names : Exists (fun n => n ∈ pr_registry p) published <-> with_port es;
  in_from : forall i m, pr_monitors p !! i = Some m -> exists port, In (ESetup i port) es /\ mo_file m = (port =? 0);
  in_to : forall i port, In (ESetup i port) es -> exists m, pr_monitors p !! i = Some m /\ mo_file m = (port =? 0);
  in_one : forall i j m m', pr_monitors p !! i = Some m -> pr_monitors p !! j = Some m' ->
    mo_file m = false -> mo_file m' = false -> i = j;
  in_page : pr_page p = true -> exists j m, pr_monitors p !! j = Some m /\ mo_file m = false /\ mo_running m = true;
  in_less : forall i m x n, pr_monitors p !! i = Some m -> mo_dict m !! x = Some n -> (n < pr_made p)%nat;
  in_inj : forall i j m m' x y n, pr_monitors p !! i = Some m -> pr_monitors p !! j = Some m' ->
    mo_dict m !! x = Some n -> mo_dict m' !! y = Some n -> i = j /\ x = y;
  in_all : forall i m x, pr_monitors p !! i = Some m -> x ∈ map key peer_metrics -> is_Some (mo_dict m !! x) }.

Lemma inv_clean p : clean p -> inv [] p.
Proof.
  intros (H1 & H2 & H3). split; rewrite ?H3; try (intros *; rewrite ?lookup_empty; done).
  - split.
    + intros He. apply Exists_exists in He as (n & Hn & Hr). rewrite Forall_forall in H1. by destruct (H1 n Hn).
    + by intros (? & ? & [] & _).
  - by rewrite H2.
Qed.

Lemma in_snoc {A} (x e : A) es : In x (es ++ [e]) <-> In x es \/ x = e.
Proof. rewrite in_app_iff. cbn. split; [intros [H|[H|[]]]|intros [H|H]]; auto. Qed.

Lemma inv_kept es p e p' : inv es p -> step p e = Some (Ok p') -> (forall i port, e <> ESetup i port) -> inv (es ++ [e]) p'.
Proof.
  intros [I1 I2 I3 I4 I5 I6 I7 I8] Hs Hne. destruct (step_kept p e p' Hs Hne) as (K1 & K2 & K3 & K4 & K5).
  assert (forall i port, In (ESetup i port) (es ++ [e]) <-> In (ESetup i port) es) as Hin.
  { intros i port. rewrite in_snoc. split; [intros [H|H]; [done|by destruct (Hne i port)]|by left]. }
  split.
  - rewrite K1, I1. unfold with_port. split; intros (j & port & H & Hp); exists j, port; (split; [by apply Hin|done]).
  - intros i m' H. destruct (K3 i m' H) as (m & Hm & G1 & _). destruct (I2 i m Hm) as (port & Hp & Hf).
    exists port. split; [by apply Hin|congruence].
  - intros i port H. apply Hin in H. destruct (I3 i port H) as (m & Hm & Hf). destruct (K4 i m Hm) as (m' & Hm' & G1 & _).
    exists m'. split; [done|congruence].
  - intros i j m1 m2 H1 H2 F1 F2. destruct (K3 i m1 H1) as (n1 & N1 & G1 & _), (K3 j m2 H2) as (n2 & N2 & G2 & _).
    eapply I4; [exact N1|exact N2|congruence..].
  - intros H. destruct (K5 H) as [Hp|Hj]; [|done]. destruct (I5 Hp) as (j & m & Hm & Hf & Hr).
    destruct (K4 j m Hm) as (m' & Hm' & G1 & _ & G3). exists j, m'. split; [done|]. split; [congruence|auto].
  - intros i m' x n H Hx. destruct (K3 i m' H) as (m & Hm & _ & G2 & _). rewrite K2. eapply I6; [exact Hm|]. by rewrite <- G2.
  - intros i j m1 m2 x y n H1 H2 X1 X2. destruct (K3 i m1 H1) as (n1 & N1 & _ & G1 & _), (K3 j m2 H2) as (n2 & N2 & _ & G2 & _).
    eapply I7; [exact N1|exact N2|by rewrite <- G1|by rewrite <- G2].
  - intros i m' x H Hx. destruct (K3 i m' H) as (m & Hm & _ & G2 & _). rewrite G2. by eapply I8.
Qed.

Lemma inv_setup es p i port p' : inv es p -> step p (ESetup i port) = Some (Ok p') -> inv (es ++ [ESetup i port]) p'.
Proof.
  intros [I1 I2 I3 I4 I5 I6 I7 I8] Hs. cbn [step] in Hs. destruct (pr_monitors p !! i) as [m|] eqn:Ei; [discriminate Hs|].
  injection Hs as Hs. pose proof (setup_spec p i port) as H. destruct (decide _) as [Hd|Hd].
  { rewrite Hs in H. discriminate H. }
  destruct H as (q & E & Hr & [B1 B2 (d & B3 & B4 & B5 & B6)]). rewrite E in Hs. injection Hs as <-.
  cbn [put_monitor pr_page pr_made pr_monitors fresh_monitor mo_file mo_namespace mo_dict mo_running mo_server mo_waiting] in *.
  rewrite insert_insert in B3.
  set (mi := Monitor (port =? 0) "acn" d false SZero 0) in B3.
  assert (forall j m, pr_monitors q !! j = Some m -> (j = i /\ m = mi) \/ (j <> i /\ pr_monitors p !! j = Some m)) as Hlk.
  { intros j m Hj. rewrite B3 in Hj. destruct (decide (i = j)) as [<-|Hne].
    - rewrite lookup_insert in Hj. injection Hj as <-. by left.
    - rewrite lookup_insert_ne in Hj by done. right. by split; [congruence|]. }
  assert (forall j m, pr_monitors p !! j = Some m -> pr_monitors q !! j = Some m) as Hkl.
  { intros j m Hj. rewrite B3, lookup_insert_ne; [done|]. intros <-. congruence. }
  assert (forall x n, d !! x = Some n -> exists j, n = (pr_made p + j)%nat /\ key <$> peer_metrics !! j = Some x) as Hd4.
  { intros x n Hx. destruct (B4 x n Hx) as [H|H]; [|done]. by rewrite lookup_empty in H. }
  assert (forall x n, d !! x = Some n -> (pr_made p <= n < pr_made q)%nat) as Hd5.
  { intros x n Hx. destruct (Hd4 x n Hx) as (j & -> & Hj). rewrite B2.
    destruct (peer_metrics !! j) as [z|] eqn:Ez; [|discriminate Hj]. apply lookup_lt_Some in Ez. lia. }
  assert (port <> 0 -> ~ with_port es) as Hnp. { intros Hp Hw. apply Hd. split; [done|]. by apply I1. }
  assert (with_port (es ++ [ESetup i port]) <-> with_port es \/ port <> 0) as Hwp.
  { unfold with_port. split.
    - intros (j & pt & H & Hp). apply in_snoc in H as [H|H]; [left; eauto|]. injection H as -> ->. by right.
    - intros [(j & pt & H & Hp)|H]; [exists j, pt|exists i, port]; (split; [apply in_snoc; auto|done]). }
  split.
  - rewrite Hwp, <- I1, Hr. destruct (decide (port = 0)) as [->|Hp].
    + split.
      * intros H. left. eapply Exists_impl; [exact H|]. cbn. set_solver.
      * intros [H|H]; [|done]. eapply Exists_impl; [exact H|]. cbn. set_solver.
    + split; [by right|]. intros _. left. apply elem_of_union_l. apply elem_of_list_to_set. left.
  - intros j m Hj. destruct (Hlk j m Hj) as [[-> ->]|[_ Hj']].
    + exists port. split; [apply in_snoc; by right|done].
    + destruct (I2 j m Hj') as (pt & Hp & Hf). exists pt. split; [apply in_snoc; by left|done].
  - intros j pt Hj. apply in_snoc in Hj as [Hj|Hj].
    + destruct (I3 j pt Hj) as (m & Hm & Hf). exists m. split; [by apply Hkl|done].
    + injection Hj as -> ->. exists mi. split; [|done]. rewrite B3. apply lookup_insert.
  - intros j1 j2 m1 m2 H1 H2 F1 F2. destruct (Hlk j1 m1 H1) as [[-> ->]|[N1 H1']], (Hlk j2 m2 H2) as [[-> ->]|[N2 H2']]; [done|..].
    + exfalso. cbn in F1. apply Z.eqb_neq in F1. apply (Hnp F1). destruct (I2 _ _ H2') as (pt & Hp & Hf).
      exists j2, pt. split; [done|]. rewrite F2 in Hf. by apply Z.eqb_neq.
    + exfalso. cbn in F2. apply Z.eqb_neq in F2. apply (Hnp F2). destruct (I2 _ _ H1') as (pt & Hp & Hf).
      exists j1, pt. split; [done|]. rewrite F1 in Hf. by apply Z.eqb_neq.
    + by eapply I4.
  - rewrite B1. intros Hp. destruct (I5 Hp) as (j & m & Hm & Hx). exists j, m. split; [by apply Hkl|done].
  - intros j m x n Hj Hx. destruct (Hlk j m Hj) as [[-> ->]|[_ Hj']].
    + cbn in Hx. by apply Hd5 in Hx as [].
    + pose proof (I6 j m x n Hj' Hx). rewrite B2. lia.
  - intros j1 j2 m1 m2 x y n H1 H2 X1 X2.
    destruct (Hlk j1 m1 H1) as [[-> ->]|[N1 H1']], (Hlk j2 m2 H2) as [[-> ->]|[N2 H2']]; cbn in *.
    + split; [done|]. destruct (Hd4 x n X1) as (a & -> & Ha), (Hd4 y _ X2) as (b & Hab & Hb).
      assert (a = b) as -> by lia. congruence.
    + pose proof (Hd5 x n X1). pose proof (I6 _ _ _ _ H2' X2). lia.
    + pose proof (Hd5 y n X2). pose proof (I6 _ _ _ _ H1' X1). lia.
    + by eapply I7.
  - intros j m x Hj Hx. destruct (Hlk j m Hj) as [[-> ->]|[_ Hj']]; [|by eapply I8].
    cbn. apply elem_of_list_lookup in Hx as (a & Ha). rewrite list_lookup_fmap in Ha.
    rewrite (B5 keys_nodup a x Ha). eauto.
Qed.

Lemma run_inv p es q : clean p -> run p es = Some (Ok q) -> inv es q.
Proof.
  intros Hc. revert q. induction es as [|e es IH] using rev_ind; intros q Hr.
  { injection Hr as <-. by apply inv_clean. }
  rewrite run_snoc in Hr. destruct (run p es) as [[p1| |]|]; try discriminate Hr.
  specialize (IH p1 eq_refl). destruct e as [i port|i|i ok|i|i]; [by eapply inv_setup|eapply inv_kept; eauto; done..].
Qed.

(** * The theorems *)

(** Making a peer crashes the process exactly if it has a monitoring port and one of the
    names is in the registry already; otherwise it succeeds. *)
Theorem C79_setup p i port :
  (is_panic (setup p i port) = true <-> port <> 0 /\ Exists (fun n => n ∈ pr_registry p) published) /\
  (is_panic (setup p i port) = false -> exists q, setup p i port = Ok q /\
     (port <> 0 -> Forall (fun n => n ∈ pr_registry q) published)).
Proof.
  pose proof (setup_spec p i port) as H. destruct (decide _) as [Hd|Hd].
  - rewrite H. done.
  - destruct H as (q & E & Hr & _). rewrite E. split; [done|]. intros _. exists q. split; [done|].
    intros Hp. rewrite Hr, decide_False by done. apply Forall_forall. intros n Hn.
    apply elem_of_union_l. by apply elem_of_list_to_set.
Qed.
Print Assumptions C79_setup.

(** What can crash a process with many peers, in any order of events: only a second peer
    with a monitoring port, and stopping the monitor of a peer without one. *)
Theorem C79_crash p es q e r :
  clean p -> run p es = Some (Ok q) -> step q e = Some r ->
  (is_panic r = true <->
   (exists i port, e = ESetup i port /\ port <> 0 /\ with_port es) \/
   (exists i, e = EStop i /\ In (ESetup i 0) es)) /\
  (is_panic r = false -> exists q', r = Ok q').
Proof.
  intros Hc Hr Hs. destruct (run_inv p es q Hc Hr) as [I1 I2 I3 I4 I5 I6 I7 I8].
  destruct e as [i port|i|i ok|i|i]; cbn [step] in Hs; destruct (pr_monitors q !! i) as [m|] eqn:Em; try discriminate Hs;
    try injection Hs as <-.
  - destruct (C79_setup q i port) as [S1 S2]. split.
    + rewrite S1, I1. split.
      * intros [Hp Hw]. left. eauto.
      * intros [(i' & pt & He & Hp & Hw)|(i' & He & _)]; [|done]. injection He as -> ->. done.
    + intros H. destruct (S2 H) as (q' & E & _). eauto.
  - assert (is_panic (start_monitor q i m) = false /\ exists q', start_monitor q i m = Ok q') as [-> Hq'].
    { unfold start_monitor. destruct (mo_file m) eqn:Ef, (mo_running m) eqn:Ern; cbn [orb]; eauto.
      destruct (pr_page q) eqn:Ep; [|eauto]. exfalso. destruct (I5 eq_refl) as (j & m' & Hj & Hf & Hrn).
      assert (i = j) as <- by (by eapply I4). congruence. }
    split; [|done]. split; [done|]. intros [(? & ? & He & _)|(? & He & _)]; discriminate He.
  - destruct (listen_monitor q i m ok) as [q'|]; [|discriminate Hs]. injection Hs as <-. split; [|eauto].
    split; [done|]. intros [(? & ? & He & _)|(? & He & _)]; discriminate He.
  - destruct (I2 i m Em) as (pt & Hp & Hf). unfold stop_monitor. rewrite Hf. destruct (Z.eqb_spec pt 0) as [->|Hne].
    + split; [|done]. split; [|done]. intros _. right. eauto.
    + split; [|eauto]. split; [done|]. intros [(? & ? & He & _)|(i' & He & Hin)]; [discriminate He|]. injection He as <-.
      destruct (I3 i 0 Hin) as (m' & Hm' & Hf'). exfalso. rewrite Em in Hm'. injection Hm' as <-. rewrite Hf in Hf'. discriminate Hf'.
  - split; [|eauto]. split; [done|]. intros [(? & ? & He & _)|(? & He & _)]; discriminate He.
Qed.
Print Assumptions C79_crash.

(** Every metric that the node uses is there from the making of the peer on, and no two
    names or two peers share one. *)
Theorem C79_found p es q i port :
  clean p -> run p es = Some (Ok q) -> In (ESetup i port) es ->
  Forall (fun x => exists n, find_metric q i x.1 x.2 = Some n) looked_up /\
  (forall j k k' name name' n, find_metric q i k name = Some n -> find_metric q j k' name' = Some n ->
     i = j /\ k = k' /\ name = name').
Proof.
  intros Hc Hr Hi. destruct (run_inv p es q Hc Hr) as [I1 I2 I3 I4 I5 I6 I7 I8].
  destruct (I3 i port Hi) as (m & Hm & _). unfold find_metric. rewrite Hm. split.
  - apply Forall_forall. intros [k name] Hx. cbn [fst snd]. assert ((k, name) ∈ map key peer_metrics) as Hk.
    { revert Hx. generalize (k, name). apply Forall_forall. apply (bool_decide_unpack _). vm_compute. exact I. }
    destruct (I8 i m _ Hm Hk) as (n & Hn). eauto.
  - intros j k k' name name' n H1 H2. destruct (pr_monitors q !! j) as [m'|] eqn:Ej; [|discriminate H2].
    destruct (I7 i j m m' _ _ n Hm Ej H1 H2) as [-> He]. by injection He as -> ->.
Qed.
Print Assumptions C79_found.

(** * Serving *)

(** What the events of a monitor with a port have made of it. *)
Definition past (i : nat) (es : list event) (m : monitor) : Prop :=
  (mo_running m = false /\ mo_server m = SZero /\ mo_waiting m = 0%nat /\ EStart i ∉ es) \/
  (exists a b, es = a ++ EStart i :: b /\ EStart i ∉ a /\ mo_running m = true /\
     ((mo_waiting m = 1%nat /\ (forall ok, EListen i ok ∉ b) /\
       ((mo_server m = SMade /\ EStop i ∉ b) \/ (mo_server m = SClosed /\ EStop i ∈ b))) \/
      (exists c ok d, mo_waiting m = 0%nat /\ b = c ++ EListen i ok :: d /\ (forall ok, EListen i ok ∉ c) /\ (forall ok, EListen i ok ∉ d) /\
       ((mo_server m = SServing /\ ok = true /\ EStop i ∉ c ++ d) \/
        (mo_server m = SMade /\ ok = false /\ EStop i ∉ c ++ d) \/
        (mo_server m = SClosed /\ EStop i ∈ c ++ d))))).

(** An event about something else changes nothing of it. *)
Lemma past_other i es m e :
  past i es m -> (e = EStart i -> mo_running m = true) -> (forall ok, e <> EListen i ok) -> e <> EStop i -> past i (es ++ [e]) m.
Proof.
  assert (forall (l : list event) x, x ∉ l -> x <> e -> x ∉ l ++ [e]) as Hno.
  { intros l x H Hne. rewrite elem_of_app, elem_of_list_singleton. tauto. }
  assert (forall (l : list event) x, x ∈ l -> x ∈ l ++ [e]) as Hyes. { intros. apply elem_of_app. by left. }
  intros H Hs Hl Ht. destruct H as [(H1 & H2 & H3 & H4)|(a & b & -> & Ha & Hr & H)].
  { left. repeat split; try done. apply Hno; [done|]. intros He. rewrite (Hs (eq_sym He)) in H1. discriminate H1. }
  right. exists a, (b ++ [e]). split; [by rewrite <- app_assoc|]. split; [done|]. split; [done|].
  destruct H as [(H1 & H2 & H3)|(c & ok & d & H1 & -> & H2 & H3 & H4)].
  - left. split; [done|]. split; [intros ok; apply Hno; [done|auto]|]. destruct H3 as [[? ?]|[? ?]]; [left|right]; auto.
  - right. exists c, ok, (d ++ [e]). split; [done|]. split; [by rewrite <- app_assoc|]. split; [done|].
    split; [intros ok'; apply Hno; [done|auto]|]. rewrite app_assoc.
    destruct H4 as [(? & ? & ?)|[(? & ? & ?)|(? & ?)]]; [left|right; left|right; right]; auto 6.
Qed.

Lemma step_past p es e p' i m' :
  (forall m, pr_monitors p !! i = Some m -> mo_file m = false -> past i es m) ->
  (pr_monitors p !! i = None -> EStart i ∉ es) ->
  step p e = Some (Ok p') -> pr_monitors p' !! i = Some m' -> mo_file m' = false -> past i (es ++ [e]) m'.
Proof.
  intros IH Hnone Hs Hm' Hf'.
  assert (forall (l : list event) x, x ∉ l -> x <> e -> x ∉ l ++ [e]) as Hno.
  { intros l x H Hne. rewrite elem_of_app, elem_of_list_singleton. tauto. }
  destruct e as [j port|j|j ok|j|j]; cbn [step] in Hs; destruct (pr_monitors p !! j) as [m|] eqn:Ej; try discriminate Hs.
  - injection Hs as Hs. pose proof (setup_spec p j port) as H. destruct (decide _) as [Hd|Hd].
    { rewrite Hs in H. discriminate H. }
    destruct H as (q & E & _ & [_ _ (d & B3 & _)]). rewrite E in Hs. injection Hs as <-.
    cbn [put_monitor pr_monitors] in B3. rewrite insert_insert in B3. rewrite B3 in Hm'.
    destruct (decide (j = i)) as [->|Hne].
    + rewrite lookup_insert in Hm'. injection Hm' as <-. left. repeat split; try done. apply Hno; [by apply Hnone|done].
    + rewrite lookup_insert_ne in Hm' by done. apply past_other; [by apply IH|done..].
  - injection Hs as Hs. unfold start_monitor in Hs. destruct (mo_file m || mo_running m) eqn:Efr.
    + injection Hs as <-. apply past_other; [by apply IH| |done..]. intros He. injection He as ->.
      rewrite Ej in Hm'. injection Hm' as <-. by rewrite Hf' in Efr.
    + destruct (pr_page p); [discriminate Hs|]. injection Hs as <-. cbn [pr_monitors] in Hm'.
      apply orb_false_iff in Efr as [Ef Er].
      destruct (decide (j = i)) as [->|Hne].
      * rewrite lookup_insert in Hm'. injection Hm' as <-. destruct (IH m Ej Ef) as [(_ & _ & H3 & H4)|(a & b & _ & _ & Hr & _)]; [|congruence].
        right. exists es, []. repeat split; try done. left. cbn. rewrite H3. repeat split; [set_solver|]. left. split; [done|set_solver].
      * rewrite lookup_insert_ne in Hm' by done. apply past_other; [by apply IH| |done..]. intros He. by injection He as ->.
  - unfold listen_monitor in Hs. destruct (mo_waiting m) as [|w] eqn:Ew; [discriminate Hs|]. injection Hs as <-.
    cbn [put_monitor pr_monitors] in Hm'. destruct (decide (j = i)) as [->|Hne].
    + rewrite lookup_insert in Hm'. injection Hm' as <-. cbn [mo_file] in Hf'.
      destruct (IH m Ej Hf') as [(_ & _ & H3 & _)|(a & b & -> & Ha & Hr & [(H1 & H2 & H3)|(c & ? & d & H1 & _)])]; [congruence| |congruence].
      right. exists a, (b ++ [EListen i ok]). split; [by rewrite <- app_assoc|]. split; [done|]. split; [done|]. right.
      exists b, ok, []. cbn. rewrite app_nil_r. split; [congruence|]. split; [done|]. split; [done|]. split; [set_solver|].
      destruct H3 as [[-> H3]|[-> H3]]; [destruct ok|]; auto.
    + rewrite lookup_insert_ne in Hm' by done. apply past_other; [by apply IH|done| |done]. intros o He. by injection He as ->.
  - injection Hs as Hs. unfold stop_monitor in Hs. destruct (mo_file m) eqn:Ef; [discriminate Hs|]. injection Hs as <-.
    cbn [put_monitor pr_monitors] in Hm'. destruct (decide (j = i)) as [->|Hne].
    + rewrite lookup_insert in Hm'. injection Hm' as <-.
      destruct (IH m Ej Ef) as [(H1 & H2 & H3 & H4)|(a & b & -> & Ha & Hr & H)].
      { left. cbn. rewrite H2. repeat split; try done. by apply Hno. }
      right. exists a, (b ++ [EStop i]). split; [by rewrite <- app_assoc|]. split; [done|]. split; [done|].
      destruct H as [(H1 & H2 & H3)|(c & ok & d & H1 & -> & H2 & H3 & H4)].
      * left. split; [done|]. split; [intros ok; by apply Hno|]. right. cbn. split; [|set_solver]. by destruct H3 as [[-> _]|[-> _]].
      * right. exists c, ok, (d ++ [EStop i]). split; [done|]. split; [by rewrite <- app_assoc|]. split; [done|].
        split; [intros ok'; by apply Hno|]. right. right. cbn. split; [|set_solver]. by destruct H4 as [(-> & _)|[(-> & _)|(-> & _)]].
    + rewrite lookup_insert_ne in Hm' by done. apply past_other; [by apply IH|done..|]. intros He. by injection He as ->.
  - injection Hs as <-. apply past_other; [by apply IH|done..].
Qed.

Lemma run_past p es q i m : clean p -> run p es = Some (Ok q) -> pr_monitors q !! i = Some m -> mo_file m = false -> past i es m.
Proof.
  intros Hc. revert q m. induction es as [|e es IH] using rev_ind; intros q m Hr Hm Hf.
  { injection Hr as <-. destruct Hc as (_ & _ & Hc). rewrite Hc, lookup_empty in Hm. discriminate Hm. }
  rewrite run_snoc in Hr. destruct (run p es) as [[p1| |]|] eqn:E1; try discriminate Hr.
  eapply step_past; [by intros m1; apply IH| |exact Hr|exact Hm|exact Hf].
  intros Hn Hin. clear IH Hr Hm Hf.
  apply elem_of_list_split in Hin as (a & b & ->).
  rewrite run_app in E1. destruct (run p a) as [[p2| |]|] eqn:E2; try discriminate E1. cbn [run] in E1.
  destruct (step p2 (EStart i)) as [[p3| |]|] eqn:E3; try discriminate E1.
  assert (run p (a ++ [EStart i]) = Some (Ok p3)) as E4 by (by rewrite run_snoc, E2).
  assert (run p ((a ++ [EStart i]) ++ b) = Some (Ok p1)) as E5 by (rewrite run_app, E4; exact E1).
  cbn [step] in E3. destruct (pr_monitors p2 !! i) as [m2|] eqn:Em2; [|discriminate E3].
  destruct (in_from _ _ (run_inv p a p2 Hc E2) i m2 Em2) as (port & Hp & _).
  destruct (in_to _ _ (run_inv p _ p1 Hc E5) i port) as (m1 & Hm1 & _); [|congruence].
  rewrite !in_app_iff. auto.
Qed.

(** The page of metrics is served to others. *)
Definition serving (q : process) (i : nat) : Prop := exists m, pr_monitors q !! i = Some m /\ mo_server m = SServing.

(** The metrics of a peer with a port are served exactly if, after the first Start, the
    port could be listened on and Stop was not called. *)
Theorem C79_serving p es q i port :
  clean p -> run p es = Some (Ok q) -> In (ESetup i port) es -> port <> 0 ->
  serving q i <->
  exists a b c, es = a ++ EStart i :: b ++ EListen i true :: c /\ EStart i ∉ a /\ EStop i ∉ b /\ EStop i ∉ c.
Proof.
  intros Hc Hr Hi Hp. destruct (in_to _ _ (run_inv p es q Hc Hr) i port Hi) as (m & Hm & Hf).
  assert (mo_file m = false) as Hf' by (rewrite Hf; by apply Z.eqb_neq).
  pose proof (run_past p es q i m Hc Hr Hm Hf') as H. unfold serving. rewrite Hm. split.
  - intros (m' & Hm' & Hsv). injection Hm' as <-.
    destruct H as [(_ & H & _)|(a & b & -> & Ha & _ & [(_ & _ & [[H _]|[H _]])|(c & ok & d & _ & -> & _ & _ & H)])]; try congruence.
    destruct H as [(_ & -> & H)|[(H & _)|(H & _)]]; try congruence. exists a, c, d. split; [done|].
    rewrite elem_of_app in H. split; [done|tauto].
  - intros (a & b & c & -> & Ha & Hb & Hc'). exists m. split; [done|].
    assert (forall (x : event) a b a' b', a ++ x :: b = a' ++ x :: b' -> x ∉ a -> x ∉ a' -> a = a' /\ b = b') as Hsp.
    { clear. intros x a. induction a as [|y a IH]; intros b [|y' a'] b' H Hx Hx'; cbn in H; simplify_eq; [done|..].
      - destruct Hx'. left.
      - destruct Hx. left.
      - match goal with H : a ++ _ = _ |- _ => destruct (IH b a' b' H) as [-> ->]; set_solver end. }
    destruct H as [(_ & _ & _ & H)|(a' & b' & He & Ha' & _ & H)]; [destruct H; set_solver|].
    apply Hsp in He as [<- <-]; [|done..].
    destruct H as [(_ & H & _)|(c' & ok & d & _ & He & H1 & H2 & H)]; [destruct (H true); set_solver|].
    assert (c' = b /\ ok = true /\ d = c) as (-> & -> & ->).
    { clear -He H1 H2. revert c' H1 He. induction b as [|y b IH]; intros [|y' c'] H1 He; cbn in He; simplify_eq; [done|..].
      - destruct (H1 true). left.
      - destruct (H2 true). set_solver.
      - destruct (IH c') as (-> & -> & ->); [|done|done]. intros o Ho. apply (H1 o). by right. }
    destruct H as [(H & _)|[(_ & H & _)|(_ & H)]]; [done|discriminate H|]. apply elem_of_app in H as []; done.
Qed.
Print Assumptions C79_serving.

(** Once stopped after a start, or once listening has failed, a peer's metrics are never
    served again, however often it is started. *)
Theorem C79_once p es es' q i port :
  clean p -> run p (es ++ es') = Some (Ok q) -> In (ESetup i port) es -> port <> 0 ->
  EStart i ∈ es -> ((exists a b, es = a ++ b /\ EStart i ∈ a /\ EStop i ∈ b) \/ EListen i false ∈ es) ->
  ~ serving q i.
Proof.
  intros Hc Hr Hi Hp Hst Hend Hs.
  assert (In (ESetup i port) (es ++ es')) as Hi' by (apply in_app_iff; by left).
  destruct (in_to _ _ (run_inv p _ q Hc Hr) i port Hi') as (m & Hm & Hf).
  assert (mo_file m = false) as Hf' by (rewrite Hf; by apply Z.eqb_neq).
  pose proof (run_past p _ q i m Hc Hr Hm Hf') as H. destruct Hs as (m' & Hm' & Hsv). rewrite Hm in Hm'. injection Hm' as <-.
  destruct H as [(_ & H & _)|(a & b & He & Ha & _ & [(_ & _ & [[H _]|[H _]])|(c & ok & d & _ & -> & H1 & H2 & H)])]; try congruence.
  destruct H as [(_ & -> & H)|[(H & _)|(H & _)]]; try congruence.
  destruct Hend as [(x & y & -> & Hx & Hy)|Hl].
  - assert (EStop i ∈ EStart i :: c ++ EListen i true :: d) as Hin; [|set_solver].
    assert (forall (l k : list event), l ++ k = a ++ EStart i :: c ++ EListen i true :: d -> EStart i ∈ l -> EStop i ∈ k ->
              EStop i ∈ EStart i :: c ++ EListen i true :: d) as Hg.
    { clear -Ha. revert Ha. induction a as [|z a IH]; intros Ha l k He Hl Hk.
      - cbn in He. rewrite <- He. apply elem_of_app. by right.
      - destruct l as [|z' l]; [by apply elem_of_nil in Hl|]. cbn in He. injection He as -> He.
        apply not_elem_of_cons in Ha as [Hz Ha]. apply (IH Ha l k He); [|done].
        apply elem_of_cons in Hl as [Hl|Hl]; [by destruct Hz|done]. }
    apply (Hg x (y ++ es')); [by rewrite app_assoc|done|]. apply elem_of_app. by left.
  - assert (EListen i false ∈ a) as Hla.
    { assert (EListen i false ∈ a ++ EStart i :: c ++ EListen i true :: d) as Hin by (rewrite <- He; apply elem_of_app; by left).
      pose proof (H1 false). pose proof (H2 false). set_solver. }
    apply elem_of_list_split in Hla as (a1 & a2 & ->).
    pose proof (in_to _ _ (run_inv p _ q Hc Hr)) as Hto.
    rewrite He in Hr. rewrite <- !app_assoc in Hr. rewrite run_app in Hr.
    destruct (run p a1) as [[p1| |]|] eqn:E1; try discriminate Hr. cbn [run app] in Hr.
    destruct (step p1 (EListen i false)) as [[p2| |]|] eqn:E2; try discriminate Hr. cbn [step] in E2.
    destruct (pr_monitors p1 !! i) as [m1|] eqn:Em1; [|discriminate E2].
    unfold listen_monitor in E2. destruct (mo_waiting m1) as [|w] eqn:Ew; [discriminate E2|].
    destruct (in_from _ _ (run_inv p a1 p1 Hc E1) i m1 Em1) as (pt & Hpt & Hfm).
    assert (mo_file m1 = false) as Hf1.
    { destruct (Hto i pt) as (mm & Hmm & Hff).
      { rewrite He, <- app_assoc. apply in_app_iff. by left. }
      congruence. }
    destruct (run_past p a1 p1 i m1 Hc E1 Em1 Hf1) as [(_ & _ & Hw & _)|(a' & b' & -> & _)]; [congruence|].
    set_solver.
Qed.
Print Assumptions C79_once.

(** The text of the page is not ambiguous: what a histogram adds to its name never gives
    another metric's name. *)
Theorem C79_page :
  NoDup published /\
  forall h n suffix, In h published -> In n published -> In suffix ["_bucket"; "_sum"; "_count"] -> (h ++ suffix)%string <> n.
Proof.
  split; [apply published_nodup|]. intros h n suffix Hh Hn Hs.
  assert (Forall (fun h => Forall (fun n => Forall (fun x => (h ++ x)%string <> n) ["_bucket"; "_sum"; "_count"]) published) published) as H.
  { apply (bool_decide_unpack _). vm_compute. exact I. }
  apply elem_of_list_In in Hh, Hn, Hs. rewrite Forall_forall in H. specialize (H h Hh).
  rewrite Forall_forall in H. specialize (H n Hn). rewrite Forall_forall in H. exact (H suffix Hs).
Qed.
Print Assumptions C79_page.

(** * Examples *)

Definition nothing : process := Process ∅ false 0 ∅.

Lemma nothing_clean : clean nothing.
Proof. split; [|done]. apply Forall_forall. intros n _. apply not_elem_of_empty. Qed.

Definition crashes (es : list event) : bool := match run nothing es with Some (Panic _) => true | _ => false end.
Definition goes_well (es : list event) : bool := match run nothing es with Some (Ok _) => true | _ => false end.
Definition server_of (es : list event) (i : nat) : option server :=
  match run nothing es with Some (Ok q) => mo_server <$> pr_monitors q !! i | _ => None end.

Definition metric_of (es : list event) (i : nat) (k : kind) (name : string) : option nat :=
  match run nothing es with Some (Ok q) => find_metric q i k name | _ => None end.

(** Peers of one process cannot be made one after the other: the second with a port
    crashes it, though the first was closed, or though its monitor was stopped. *)
Theorem C79_again_refuted :
  crashes [ESetup 0 9000; EStart 0; EListen 0 true; EClose 0; ESetup 1 9001] = true /\
  crashes [ESetup 0 9000; EStart 0; EListen 0 true; EStop 0; EClose 0; ESetup 1 9001] = true /\
  goes_well [ESetup 0 9000; ESetup 1 0; EStart 0; EStart 1; EListen 0 true; EClose 1; ESetup 2 0] = true.
Proof. vm_compute. auto. Qed.
Print Assumptions C79_again_refuted.

(** Closing a peer does not end the serving of its metrics. *)
Theorem C79_close_refuted :
  server_of [ESetup 0 9000; EStart 0; EListen 0 true; EClose 0] 0 = Some SServing.
Proof. vm_compute. reflexivity. Qed.
Print Assumptions C79_close_refuted.

(** A monitor stopped before it listens does not listen, one stopped before it starts
    does; one without a port crashes when stopped. *)
Example C79_example :
  server_of [ESetup 0 9000; EStart 0; EStop 0; EListen 0 true; EStart 0] 0 = Some SClosed /\
  server_of [ESetup 0 9000; EStop 0; EStart 0; EListen 0 true; EStart 0] 0 = Some SServing /\
  server_of [ESetup 0 9000; EStart 0; EListen 0 false; EStart 0] 0 = Some SMade /\
  crashes [ESetup 0 9000; ESetup 1 0; EStart 1; EStop 1] = true /\
  metric_of [ESetup 1 0; ESetup 0 9000] 0 KGauge "op_route_count" = Some 15%nat /\
  metric_of [ESetup 1 0; ESetup 0 9000] 1 KGauge "op_route_count" = Some 4%nat /\
  metric_of [ESetup 1 0; ESetup 0 9000] 1 KCounter "op_route_count" = None.
Proof. do 6 (split; [vm_compute; reflexivity|]). vm_compute. reflexivity. Qed.
