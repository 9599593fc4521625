(** Lemmas about RaceModel.v. *)
From Coq Require Import ZArith List String Lia.
From stdpp Require Import base list sets.
From Verif Require Import GoBase RaceModel.
Open Scope string_scope.
Open Scope list_scope.
Open Scope nat_scope.

(** The lock that is meant to guard a table (none for the metrics, which are never written once handlers run): dhtpeer.go:147-181,
    mailbox.go:244-247. *)
Definition guardian (t : table) : option lock :=
  match t with
  | TAnnounced => Some LAnnounced
  | TDht => Some LDht
  | TStatuses => Some LStatuses
  | TTcp => Some LTcp
  | TRecords => Some LRecords
  | TSync => Some LSync
  | TSessions | TMailRecords | TBoxes => Some LMail
  | TMetrics => None
  end.

(** An access is allowed: the table is exempted and no lock is held, or its lock is held (No counterpart in /repo: used in the proofs only). *)
Definition may (free : list table) (h : list (lock * bool)) (t : table) (wr : bool) : Prop :=
  (t ∈ free /\ h = []) \/
  (t ∉ free /\
   match guardian t with
   | None => wr = false
   | Some l => (l, true) ∈ h \/ (wr = false /\ (l, false) ∈ h)
   end).

(** The tables New uses without their locks (dhtpeer.go:367, 498, 503). *)
Definition bare : list table := [TRecords; TDht].

(** Code that keeps to the locks; [w]: the table it is writing (No counterpart in /repo: used in the proofs only). *)
Fixpoint ok (free : list table) (w : option table) (h : list (lock * bool)) (k : list instr) : Prop :=
  match w, k with
  | Some t, IWritten t' :: k' => t = t' /\ may free h t true /\ ok free None h k'
  | Some _, _ => False
  | None, [] => h = []
  | None, ILock l :: k' => (forall m, (l, m) ∉ h) /\ ok free None ((l, true) :: h) k'
  | None, IRLock l :: k' => (forall m, (l, m) ∉ h) /\ ok free None ((l, false) :: h) k'
  | None, IUnlock :: k' => match h with _ :: h' => ok free None h' k' | [] => False end
  | None, IWrite t :: k' => may free h t true /\ ok free (Some t) h k'
  | None, IRead t :: k' => may free h t false /\ ok free None h k'
  | None, IOpen :: k' => free <> [] /\ k' = [] /\ h = []
  | None, IWritten _ :: _ => False
  end.

(** What code is writing (No counterpart in /repo: used in the proofs only). *)
Definition wr (k : list instr) : option table := match k with IWritten t :: _ => Some t | _ => None end.

Lemma ok_wr free w h k : ok free w h k -> w = wr k.
Proof. destruct w, k as [|[] k]; cbn; try done. by intros [-> _]. Qed.

Lemma ok_reads free h t n k : may free h t false -> ok free None h k -> ok free None h (replicate n (IRead t) ++ k).
Proof. intros Hm Hk. induction n; cbn; auto. Qed.

Lemma ok_announce free h new k :
  TAnnounced ∉ free -> TMetrics ∉ free -> (forall m, (LAnnounced, m) ∉ h) -> ok free None h k -> ok free None h (announce new ++ k).
Proof.
  intros Hf1 Hf2 Hn Hk.
  assert (forall b, may free ((LAnnounced, true) :: h) TAnnounced b) as Ha by (intros b; right; split; [done|left; by left]).
  assert (may free h TMetrics false) as Hb by (right; split; done).
  unfold announce, locked. destruct new; cbn; auto 10.
Qed.

Lemma ok_announce_all free h t l k :
  TAnnounced ∉ free -> TMetrics ∉ free -> (forall m, (LAnnounced, m) ∉ h) -> may free h t false -> ok free None h k -> ok free None h (announce_all t l ++ k).
Proof.
  intros Hf1 Hf2 Hn Hm Hk. unfold announce_all. rewrite <- app_comm_cons. split; [done|].
  induction l as [|b l IH]; cbn [map concat]; [done|].
  rewrite <- !app_assoc. apply ok_announce; [done..|]. split; [done|]. done.
Qed.

Ltac okk :=
  repeat match goal with
  | |- _ /\ _ => split
  | |- forall m, (_, m) ∉ _ => intros ?; set_solver
  | |- may _ _ _ _ => first [left; split; [unfold bare; set_solver|reflexivity] |
      right; split; [unfold bare; set_solver|]; cbn; first [left; set_solver | right; split; [reflexivity|set_solver] | reflexivity]]
  | |- _ => done
  end.

Lemma ok_code s k : ok [] None [] k -> ok [] None [] (code s ++ k).
Proof.
  intros Hk. destruct s; unfold code, locked, rlocked, write; cbn [app];
    try solve [cbn; okk].
  - rewrite <- app_assoc. cbn. split; [set_solver|]. split; [okk|]. apply ok_reads; [okk|done].
  - rewrite <- app_assoc. cbn. split; [set_solver|]. split; [okk|]. apply ok_reads; [okk|done].
  - apply ok_announce; [set_solver..|done].
  - cbn. rewrite <- app_assoc. split; [set_solver|]. 
    apply (ok_announce_all [] [(LDht, false)] TDht l ([IUnlock] ++ k)); [set_solver|set_solver|set_solver|okk|done].
  - cbn. rewrite <- app_assoc. split; [set_solver|].
    apply (ok_announce_all [] [(LTcp, false)] TTcp l ([IUnlock] ++ k)); [set_solver|set_solver|set_solver|okk|done].
  - destruct known, full; cbn; okk.
  - destruct known, fits; cbn; okk.
Qed.

Lemma ok_codes l : ok [] None [] (concat (map code l)).
Proof. induction l; cbn; [done|]. by apply ok_code. Qed.

Lemma ok_load n k : ok bare None [] k -> ok bare None [] (concat (replicate n (write TRecords ++ write TDht)) ++ k).
Proof.
  intros Hk. induction n; cbn; [done|].
  okk.
Qed.

Lemma ok_new n ends stored own : ok bare None [] (new_code n ends stored own).
Proof.
  unfold new_code. apply ok_load. destruct ends; cbn; [|done|].
  - destruct stored as [l|]; [|done]. apply ok_announce_all; [unfold bare; set_solver|unfold bare; set_solver|set_solver|okk|].
    destruct own as [[new b]|]; [|done]. cbn. okk. apply ok_announce; [unfold bare; set_solver|unfold bare; set_solver|set_solver|]. destruct b; cbn; okk.
  - okk.
Qed.

(** Code without an access to what New uses without locks (No counterpart in /repo: used in the proofs only). *)
Definition quiet (k : list instr) : Prop :=
  Forall (fun x => match x with IWrite t | IWritten t | IRead t => t ∉ bare | _ => True end) k.

Lemma quiet_app a b : quiet a -> quiet b -> quiet (a ++ b).
Proof. apply Forall_app_2. Qed.

Lemma quiet_announce b : quiet (announce b).
Proof. unfold quiet, announce, locked, bare. destruct b; cbn; repeat (constructor; [first [done|set_solver]|]); constructor. Qed.

Lemma quiet_announce_all t l : t ∉ bare -> quiet (announce_all t l).
Proof.
  intros Ht. unfold announce_all. constructor; [done|]. induction l; cbn [map concat]; [constructor|].
  apply quiet_app; [|done]. apply quiet_app; [apply quiet_announce|]. by constructor.
Qed.

Lemma quiet_early s : early false s = true -> quiet (code s).
Proof.
  destruct s; try done; intros _; cbn [code].
  - unfold quiet, locked, bare; cbn; repeat (constructor; [first [done|set_solver]|]); constructor.
  - apply quiet_announce.
  - unfold rlocked. constructor; [done|]. apply quiet_app; [|by repeat constructor]. apply quiet_announce_all. unfold bare. set_solver.
  - constructor; [unfold bare; set_solver|constructor].
Qed.

Lemma quiet_earlies l : forallb (early false) l = true -> quiet (concat (map code l)).
Proof.
  induction l as [|s l IH]; cbn [map concat forallb]; [constructor|]. intros [H1 H2]%andb_prop. apply quiet_app; [by apply quiet_early|auto].
Qed.

(** What holds of all states of a node (No counterpart in /repo: used in the proofs only). *)
Record inv (relay : bool) (s : state) : Prop := Inv {
  inv_ok : forall i t, st_threads s !! i = Some t ->
    ok (if decide (i = 0) then bare else []) (wr (th_rest t)) (th_held t) (th_rest t);
  inv_excl : forall i j t u l m, i <> j -> st_threads s !! i = Some t -> st_threads s !! j = Some u ->
    (l, true) ∈ th_held t -> (l, m) ∉ th_held u;
  inv_mark : forall x, x ∈ st_writing s <-> exists i t, st_threads s !! i = Some t /\ wr (th_rest t) = Some x;
  inv_one : forall i j t u x, st_threads s !! i = Some t -> st_threads s !! j = Some u ->
    wr (th_rest t) = Some x -> wr (th_rest u) = Some x -> i = j;
  inv_open : st_open s = true -> forall t, st_threads s !! 0 = Some t -> th_rest t = [];
  inv_quiet : relay = false -> st_open s = false -> forall i t, i <> 0 -> st_threads s !! i = Some t -> quiet (th_rest t);
  inv_some : st_threads s <> [] }.

Lemma inv_init relay n ends stored own : inv relay (init n ends stored own).
Proof.
  unfold init. pose proof (ok_new n ends stored own) as Hok. pose proof (ok_wr _ _ _ _ Hok) as Hw.
  constructor; cbn [st_threads st_writing st_open].
  - intros [|i] t Ht; [|done]. injection Ht as <-. cbn [th_rest th_held]. rewrite <- Hw. by rewrite decide_True.
  - intros [|i] [|j]; done.
  - intros x. split; [set_solver|]. intros (i & t & Ht & Hx). destruct i; [|done]. injection Ht as <-. cbn in Hx. congruence.
  - intros [|i] [|j]; done.
  - done.
  - intros _ _ [|i] t; done.
  - done.
Qed.

Lemma held_none ts l any :
  held ts l any = false -> forall i t m, ts !! i = Some t -> (l, m) ∈ th_held t -> any = false /\ m = false.
Proof.
  unfold held. intros H i t m Ht Hm. apply Bool.not_true_iff_false in H.
  destruct any, m; try done; exfalso; apply H, existsb_exists; exists t;
    (split; [by apply elem_of_list_In, elem_of_list_lookup_2 with i|]); apply existsb_exists;
    eexists; (split; [by apply elem_of_list_In|]); cbn; by rewrite bool_decide_true.
Qed.

Lemma held_free ts l any :
  (forall i t m, ts !! i = Some t -> (l, m) ∉ th_held t) -> held ts l any = false.
Proof.
  unfold held. intros H. apply Bool.not_true_iff_false. intros (t & Ht & Hx)%existsb_exists.
  apply existsb_exists in Hx as ([l' m] & Hm & Hb). apply andb_prop in Hb as [Hb _]. apply bool_decide_eq_true in Hb. cbn in Hb. subst l'.
  apply elem_of_list_In in Ht, Hm. apply elem_of_list_lookup in Ht as [i Hi]. by eapply H.
Qed.

(** A goroutine moves on without touching marks. *)
Lemma inv_plain relay s i t h k :
  inv relay s -> st_threads s !! i = Some t ->
  wr (th_rest t) = None -> wr k = None ->
  ok (if decide (i = 0) then bare else []) None h k ->
  (forall l m, (l, m) ∈ h -> (l, m) ∈ th_held t \/
     forall j u m', st_threads s !! j = Some u -> (l, m') ∈ th_held u -> m = false /\ m' = false) ->
  th_rest t <> [] -> (forall P, Forall P (th_rest t) -> Forall P k) ->
  inv relay (State (<[i := Thread h k]> (st_threads s)) (st_writing s) (st_open s)).
Proof.
  intros [I1 I2 I3 I4 I5 I6 I7] Ht Hw Hk Hok Hh Hne Hall.
  assert (i < length (st_threads s)) as Hi by (by eapply lookup_lt_Some).
  constructor; cbn [st_threads st_writing st_open].
  - intros j u [(-> & <- & _)|[Hne' Hu]]%list_lookup_insert_Some; [|by apply I1]. cbn. by rewrite Hk.
  - intros a b u v l m Hab Hu Hv Hl Hm.
    apply list_lookup_insert_Some in Hu as [(-> & <- & _)|[Ha Hu]]; apply list_lookup_insert_Some in Hv as [(Hb & <- & _)|[Hb Hv]]; cbn in *.
    + congruence.
    + destruct (Hh _ _ Hl) as [Hl'|Hl']; [by eapply (I2 _ b t v)|]. destruct (Hl' _ _ _ Hv Hm). done.
    + subst b. destruct (Hh _ _ Hm) as [Hm'|Hm']; [by eapply (I2 a i u t)|]. destruct (Hm' _ _ _ Hu Hl). done.
    + by eapply (I2 a b u v).
  - intros x. rewrite I3. split; intros (j & u & Hu & Hx).
    + exists j, u. split; [|done]. rewrite list_lookup_insert_ne; [done|]. intros ->. congruence.
    + apply list_lookup_insert_Some in Hu as [(-> & <- & _)|[Ha Hu]]; [cbn in Hx; congruence|]. eauto.
  - intros a b u v x Hu Hv Hx Hy.
    apply list_lookup_insert_Some in Hu as [(-> & <- & _)|[Ha Hu]]; apply list_lookup_insert_Some in Hv as [(Hb & <- & _)|[Hb Hv]]; cbn in *;
      try congruence. by eapply I4.
  - intros Ho u [(-> & <- & _)|[Ha Hu]]%list_lookup_insert_Some; [|by apply I5]. exfalso. apply Hne. by apply I5.
  - intros Hr Ho j u Hj [(-> & <- & _)|[Ha Hu]]%list_lookup_insert_Some; [|by eapply I6]. cbn. apply Hall. by eapply I6.
  - intros Hn. apply (f_equal length) in Hn. rewrite insert_length in Hn. cbn in Hn. lia.
Qed.

(** The conflict of two goroutines about a table. *)
Definition at_ (s : state) (i : nat) : option instr := st_threads s !! i ≫= fun t => head (th_rest t).

Lemma may_excl relay s i j t u x b :
  inv relay s -> i <> j -> st_threads s !! i = Some t -> st_threads s !! j = Some u ->
  may (if decide (i = 0) then bare else []) (th_held t) x true ->
  may (if decide (j = 0) then bare else []) (th_held u) x b ->
  (i = 0 \/ j = 0) /\ x ∈ bare.
Proof.
  intros Hinv Hij Ht Hu [ [H1 _]|[_ H1] ] H2.
  { destruct (decide (i = 0)); [auto|]. set_solver. }
  destruct H2 as [ [H2 _]|[_ H2] ].
  { destruct (decide (j = 0)); [auto|]. set_solver. }
  exfalso. destruct (guardian x) as [l|]; [|done]. destruct H1 as [H1|[? _]]; [|done].
  destruct H2 as [H2|[_ H2]]; by eapply (inv_excl _ _ Hinv i j).
Qed.

Lemma move_crash relay s i t why :
  inv relay s -> st_threads s !! i = Some t ->
  move (st_threads s) (st_writing s) (st_open s) t = Some (Panic why) ->
  exists j x, i <> j /\ (i = 0 \/ j = 0) /\ x ∈ bare /\
    at_ s j = Some (IWritten x) /\ (at_ s i = Some (IWrite x) \/ at_ s i = Some (IRead x)).
Proof.
  intros Hinv Ht Hm. pose proof (inv_ok _ _ Hinv _ _ Ht) as Hok.
  assert (at_ s i = head (th_rest t)) as Hat by (unfold at_; by rewrite Ht).
  unfold move in Hm. destruct (th_rest t) as [|[] k] eqn:Hr; cbn in Hok; try done.
  - by destruct (held _ _ _).
  - by destruct (held _ _ _).
  - by destruct (th_held t).
  - destruct (bool_decide _) eqn:Hb; [|done]. apply bool_decide_eq_true in Hb.
    apply (inv_mark _ _ Hinv) in Hb as (j & u & Hu & Hx). pose proof (inv_ok _ _ Hinv _ _ Hu) as Hok'. rewrite Hx in Hok'.
    destruct (th_rest u) as [|[] k'] eqn:Hr'; try done. injection Hx as ->. destruct Hok' as (_ & Hmu & _).
    assert (i <> j) as Hij. { intros ->. congruence. }
    destruct (may_excl relay s j i u t t0 true Hinv (not_eq_sym Hij) Hu Ht Hmu (proj1 Hok)) as [H0 Hbare].
    exists j, t0. split; [done|]. split; [tauto|]. split; [done|]. split; [unfold at_; rewrite Hu; cbn; by rewrite Hr'|]. left. done.
  - destruct (bool_decide _) eqn:Hb; [done|]. apply bool_decide_eq_false in Hb. exfalso. apply Hb.
    apply (inv_mark _ _ Hinv). exists i, t. split; [done|]. by rewrite Hr.
  - destruct (bool_decide _) eqn:Hb; [|done]. apply bool_decide_eq_true in Hb.
    apply (inv_mark _ _ Hinv) in Hb as (j & u & Hu & Hx). pose proof (inv_ok _ _ Hinv _ _ Hu) as Hok'. rewrite Hx in Hok'.
    destruct (th_rest u) as [|[] k'] eqn:Hr'; try done. injection Hx as ->. destruct Hok' as (_ & Hmu & _).
    assert (i <> j) as Hij. { intros ->. congruence. }
    destruct (may_excl relay s j i u t t0 false Hinv (not_eq_sym Hij) Hu Ht Hmu (proj1 Hok)) as [H0 Hbare].
    exists j, t0. split; [done|]. split; [tauto|]. split; [done|]. split; [unfold at_; rewrite Hu; cbn; by rewrite Hr'|]. right. done.
Qed.

Lemma move_crash_back relay s i j x :
  inv relay s -> at_ s j = Some (IWritten x) -> (at_ s i = Some (IWrite x) \/ at_ s i = Some (IRead x)) ->
  exists why, step relay s (EMove i) = Some (Panic why).
Proof.
  intros Hinv Hj Hi. unfold at_ in *. cbn.
  destruct (st_threads s !! j) as [u|] eqn:Hu; [|done]. cbn in Hj.
  destruct (st_threads s !! i) as [t|] eqn:Ht; [|cbn in Hi; naive_solver]. cbn in Hi.
  assert (x ∈ st_writing s) as Hx.
  { apply (inv_mark _ _ Hinv). exists j, u. split; [done|]. destruct (th_rest u) as [|[] k]; try done. by injection Hj as ->. }
  unfold move. destruct (th_rest t) as [|[] k]; cbn in Hi; try (naive_solver fail).
  - assert (t0 = x) as -> by naive_solver. rewrite bool_decide_true; eauto.
  - assert (t0 = x) as -> by naive_solver. rewrite bool_decide_true; eauto.
Qed.

Lemma inv_step relay s e s' : inv relay s -> step relay s e = Some (Ok s') -> inv relay s'.
Proof.
  intros Hinv. destruct e as [l|i]; cbn.
  - destruct (st_open s || forallb (early relay) l) eqn:Hcan; [|done]. intros [= <-].
    pose proof (ok_codes l) as Hok. pose proof (ok_wr _ _ _ _ Hok) as Hw. destruct Hinv as [I1 I2 I3 I4 I5 I6 I7].
    set (n := Thread [] (concat (map code l))).
    assert (forall i t, (st_threads s ++ [n]) !! i = Some t -> st_threads s !! i = Some t \/ (i = length (st_threads s) /\ t = n)) as Hl.
    { intros i t [Hi|[Hi Ht]]%lookup_app_Some; [by left|right]. apply list_lookup_singleton_Some in Ht as [Ha <-]. split; [lia|done]. }
    assert (0 < length (st_threads s)) as Hpos by (destruct (st_threads s); [done|cbn; lia]).
    constructor; cbn [st_threads st_writing st_open].
    + intros i t [Ht|[-> ->]]%Hl; [by apply I1|]. cbn. rewrite decide_False by lia. by rewrite <- Hw.
    + intros i j t u k m Hij [Ht|[-> ->]]%Hl [Hu|[-> ->]]%Hl Hk; cbn in *; try set_solver.
    + intros x. rewrite I3. split; intros (i & t & Ht & Hx).
      * exists i, t. split; [|done]. by apply lookup_app_l_Some.
      * apply Hl in Ht as [Ht|[-> ->]]; [eauto|]. cbn in Hx. congruence.
    + intros i j t u x [Ht|[-> ->]]%Hl [Hu|[-> ->]]%Hl Hx Hy; cbn in *; try congruence. by eapply I4.
    + intros Ho t [Ht|[H0 ->]]%Hl; [by apply I5|]. lia.
    + intros -> Ho i t Hi [Ht|[-> ->]]%Hl; [by eapply I6|]. cbn. rewrite Ho in Hcan. by apply quiet_earlies.
    + by destruct (st_threads s).
  - destruct (st_threads s !! i) as [t|] eqn:Ht; [|done].
    pose proof (inv_ok _ _ Hinv _ _ Ht) as Hok.
    destruct (move _ _ _ _) as [[[[t' w] o]| |]|] eqn:Hm; try done. intros [= <-].
    unfold move in Hm. destruct (th_rest t) as [|c k] eqn:Hr; [done|].
    destruct c; cbn in Hok.
    + destruct (held _ _ _) eqn:Hh; [done|]. injection Hm as <- <- <-. destruct Hok as [Hn Hok].
      eapply inv_plain; [done|done|by rewrite Hr|by erewrite <- ok_wr|done| |by rewrite Hr|].
      * intros l' m [[= -> ->]|Hin]%elem_of_cons; [|by left]. right. intros j u m' Hu Hm'.
        by destruct (held_none _ _ _ Hh _ _ _ Hu Hm').
      * rewrite Hr. by intros P [_ ?]%Forall_cons_1.
    + destruct (held _ _ _) eqn:Hh; [done|]. injection Hm as <- <- <-. destruct Hok as [Hn Hok].
      eapply inv_plain; [done|done|by rewrite Hr|by erewrite <- ok_wr|done| |by rewrite Hr|].
      * intros l' m [[= -> ->]|Hin]%elem_of_cons; [|by left]. right. intros j u m' Hu Hm'.
        by destruct (held_none _ _ _ Hh _ _ _ Hu Hm').
      * rewrite Hr. by intros P [_ ?]%Forall_cons_1.
    + destruct (th_held t) as [|c h] eqn:Hth; [done|]. injection Hm as <- <- <-.
      eapply inv_plain; [done|done|by rewrite Hr|by erewrite <- ok_wr|done| |by rewrite Hr|].
      * intros l' m Hin. left. rewrite Hth. by right.
      * rewrite Hr. by intros P [_ ?]%Forall_cons_1.
    + (* a write begins *)
      destruct (bool_decide _) eqn:Hb; [done|]. apply bool_decide_eq_false in Hb. injection Hm as <- <- <-. destruct Hok as [Hmay Hok].
      destruct k as [|[] k]; try done. destruct Hok as (<- & _ & Hok). destruct Hinv as [I1 I2 I3 I4 I5 I6 I7].
      assert (i < length (st_threads s)) as Hi by (by eapply lookup_lt_Some).
      constructor; cbn [st_threads st_writing st_open].
      * intros j u [(-> & <- & _)|[Hne' Hu]]%list_lookup_insert_Some; [|by apply I1]. done.
      * intros a b u v l m Hab Hu Hv Hl.
        apply list_lookup_insert_Some in Hu as [(-> & <- & _)|[Ha Hu]]; apply list_lookup_insert_Some in Hv as [(Hb' & <- & _)|[Hb' Hv]]; cbn in *;
          try congruence; subst; first [by eapply (I2 a b u v)|by eapply (I2 _ b t v)|by eapply (I2 a _ u t)].
      * intros x. rewrite elem_of_cons, I3. split.
        -- intros [->|(j & u & Hu & Hx)].
           ++ exists i. eexists. rewrite list_lookup_insert by done. done.
           ++ exists j, u. split; [|done]. rewrite list_lookup_insert_ne; [done|]. intros ->. rewrite Ht in Hu. injection Hu as <-. by rewrite Hr in Hx.
        -- intros (j & u & Hu & Hx). apply list_lookup_insert_Some in Hu as [(-> & <- & _)|[Ha Hu]]; [cbn in Hx; left; congruence|]. right. eauto.
      * intros a b u v x Hu Hv Hx Hy.
        apply list_lookup_insert_Some in Hu as [(-> & <- & _)|[Ha Hu]]; apply list_lookup_insert_Some in Hv as [(Hb' & <- & _)|[Hb' Hv]]; cbn in *;
          try congruence.
        -- exfalso. apply Hb, I3. exists b, v. split; [done|]. congruence.
        -- exfalso. apply Hb, I3. exists a, u. split; [done|]. congruence.
        -- by eapply I4.
      * intros Ho u [(-> & <- & _)|[Ha Hu]]%list_lookup_insert_Some; [|by apply I5]. specialize (I5 Ho _ Ht). congruence.
      * intros Hrel Ho j u Hj [(-> & <- & _)|[Ha Hu]]%list_lookup_insert_Some; [|by eapply I6]. cbn.
        specialize (I6 Hrel Ho _ _ Hj Ht). rewrite Hr in I6. by apply Forall_cons_1 in I6 as [_ ?].
      * intros Hn. apply (f_equal length) in Hn. rewrite insert_length in Hn. cbn in Hn. lia.
    + (* a write ends *)
      destruct (bool_decide _) eqn:Hb; [|done]. apply bool_decide_eq_true in Hb. injection Hm as <- <- <-. destruct Hok as (_ & Hmay & Hok).
      pose proof (ok_wr _ _ _ _ Hok) as Hwk. destruct Hinv as [I1 I2 I3 I4 I5 I6 I7].
      assert (i < length (st_threads s)) as Hi by (by eapply lookup_lt_Some).
      constructor; cbn [st_threads st_writing st_open].
      * intros j u [(-> & <- & _)|[Hne' Hu]]%list_lookup_insert_Some; [|by apply I1]. cbn. by rewrite <- Hwk.
      * intros a b u v l m Hab Hu Hv Hl.
        apply list_lookup_insert_Some in Hu as [(-> & <- & _)|[Ha Hu]]; apply list_lookup_insert_Some in Hv as [(Hb' & <- & _)|[Hb' Hv]]; cbn in *;
          try congruence; subst; first [by eapply (I2 a b u v)|by eapply (I2 _ b t v)|by eapply (I2 a _ u t)].
      * intros x. rewrite elem_of_list_filter, I3. split.
        -- intros [Hne (j & u & Hu & Hx)]. exists j, u. split; [|done]. rewrite list_lookup_insert_ne; [done|]. intros ->.
           rewrite Ht in Hu. injection Hu as <-. rewrite Hr in Hx. cbn in Hx. congruence.
        -- intros (j & u & Hu & Hx). apply list_lookup_insert_Some in Hu as [(-> & <- & _)|[Ha Hu]]; [cbn in Hx; congruence|].
           split; [|eauto]. intros ->. apply Ha. eapply I4; [done|done| |done]. by rewrite Hr.
      * intros a b u v x Hu Hv Hx Hy.
        apply list_lookup_insert_Some in Hu as [(-> & <- & _)|[Ha Hu]]; apply list_lookup_insert_Some in Hv as [(Hb' & <- & _)|[Hb' Hv]]; cbn in *;
          try congruence. by eapply I4.
      * intros Ho u [(-> & <- & _)|[Ha Hu]]%list_lookup_insert_Some; [|by apply I5]. specialize (I5 Ho _ Ht). congruence.
      * intros Hrel Ho j u Hj [(-> & <- & _)|[Ha Hu]]%list_lookup_insert_Some; [|by eapply I6]. cbn.
        specialize (I6 Hrel Ho _ _ Hj Ht). rewrite Hr in I6. by apply Forall_cons_1 in I6 as [_ ?].
      * intros Hn. apply (f_equal length) in Hn. rewrite insert_length in Hn. cbn in Hn. lia.
    + destruct (bool_decide _) eqn:Hb; [done|]. injection Hm as <- <- <-. destruct Hok as [Hmay Hok].
      eapply inv_plain; [done|done|by rewrite Hr|by erewrite <- ok_wr|done| |by rewrite Hr|].
      * by left.
      * rewrite Hr. by intros P [_ ?]%Forall_cons_1.
    + injection Hm as <- <- <-. destruct Hok as (Hf & -> & Hh). destruct (decide (i = 0)) as [->|]; [|done].
      assert (inv relay (State (<[0 := Thread (th_held t) []]> (st_threads s)) (st_writing s) (st_open s))) as H.
      { eapply inv_plain; [done|done|by rewrite Hr|done| | |by rewrite Hr|].
        - rewrite Hh. done.
        - by left.
        - by constructor. }
      destruct H as [I1 I2 I3 I4 I5 I6 I7]. constructor; cbn [st_threads st_writing st_open] in *; try done.
      intros _ u [(_ & <- & _)|[Ha Hu]]%list_lookup_insert_Some; done.
Qed.

Lemma run_app relay s s1 a b : run relay s a = Some (Ok s1) -> run relay s (a ++ b) = run relay s1 b.
Proof.
  revert s. induction a as [|e a IH]; intros s; cbn; [by intros [= ->]|].
  destruct (step relay s e) as [[s2| |]|]; try done; [apply IH|by destruct a|by destruct a].
Qed.

Lemma inv_run relay s es s' : inv relay s -> run relay s es = Some (Ok s') -> inv relay s'.
Proof.
  revert s. induction es as [|e es IH]; intros s Hinv; cbn; [by intros [= <-]|].
  destruct (step relay s e) as [[s2| |]|] eqn:Hs; try done; [|by destruct es|by destruct es].
  apply IH. by eapply inv_step.
Qed.

Lemma run_crash relay s es why :
  run relay s es = Some (Panic why) ->
  exists pre e s1, es = pre ++ [e] /\ run relay s pre = Some (Ok s1) /\ step relay s1 e = Some (Panic why).
Proof.
  revert s. induction es as [|e es IH]; intros s; cbn; [done|].
  destruct (step relay s e) as [[s2| |]|] eqn:Hs; try done.
  - intros (pre & e' & s1 & -> & H1 & H2)%IH. exists (e :: pre), e', s1. cbn. by rewrite Hs.
  - by destruct es.
  - destruct es; [|done]. intros [= ->]. by exists [], e, s.
Qed.

(** New alone gets to its next use of the table of relay clients. *)
Lemma solo relay s t k1 x k2 :
  inv relay s -> st_threads s !! 0 = Some t -> th_rest t = k1 ++ x :: k2 ->
  (forall i u, i <> 0 -> st_threads s !! i = Some u -> th_rest u = []) ->
  exists es s1 t1, run relay s es = Some (Ok s1) /\ st_threads s1 !! 0 = Some t1 /\ th_rest t1 = x :: k2 /\
    st_open s1 = false /\ (forall i u, i <> 0 -> st_threads s1 !! i = Some u -> th_rest u = []).
Proof.
  revert s t. induction k1 as [|c k1 IH]; intros s t Hinv Ht Hr Hoth.
  { exists [], s, t. split; [done|]. split; [done|]. split; [done|]. split; [|done].
    destruct (st_open s) eqn:Ho; [|done]. pose proof (inv_open _ _ Hinv Ho _ Ht) as Hz. rewrite Hr in Hz. by destruct x. }
  assert (exists t', move (st_threads s) (st_writing s) (st_open s) t = Some (Ok t') /\ th_rest t'.1.1 = k1 ++ x :: k2) as ([[t' w] o] & Hm & Hr').
  { pose proof (inv_ok _ _ Hinv _ _ Ht) as Hok. rewrite decide_True in Hok by done. rewrite Hr in Hok.
    assert (forall l, (forall m, (l, m) ∉ th_held t) -> forall any, held (st_threads s) l any = false) as Hfree.
    { intros l Hl any. apply held_free. intros [|i] u m Hu; [rewrite Ht in Hu; injection Hu as <-; apply Hl|].
      pose proof (inv_ok _ _ Hinv _ _ Hu) as Hok'. rewrite (Hoth (S i) u) in Hok' by done. cbn in Hok'. rewrite Hok'. set_solver. }
    assert (forall y, y ∈ st_writing s -> wr (th_rest t) = Some y) as Hwr.
    { intros y ([|i] & u & Hu & Hy)%(inv_mark _ _ Hinv); [congruence|]. rewrite (Hoth (S i) u) in Hy by done. done. }
    unfold move. rewrite Hr in *. cbn [app] in *. destruct c; cbn in Hok.
    - rewrite Hfree by apply Hok. eauto.
    - rewrite Hfree by apply Hok. eauto.
    - destruct (th_held t); [done|]. eauto.
    - rewrite bool_decide_false; [eauto|]. intros Hy%Hwr. done.
    - rewrite bool_decide_true; [eauto|]. apply (inv_mark _ _ Hinv). exists 0, t. rewrite Hr. done.
    - rewrite bool_decide_false; [eauto|]. intros Hy%Hwr. done.
    - destruct Hok as (_ & Hk & _). by destruct k1. }
  assert (step relay s (EMove 0) = Some (Ok (State (<[0 := t']> (st_threads s)) w o))) as Hs.
  { cbn. rewrite Ht. rewrite Hm. done. }
  cbn in Hr'. destruct (IH (State (<[0 := t']> (st_threads s)) w o) t') as (es & s1 & t1 & H1 & H2).
  - by eapply inv_step.
  - cbn. apply list_lookup_insert. by eapply lookup_lt_Some.
  - done.
  - intros i u Hi. cbn. rewrite list_lookup_insert_ne by done. by apply Hoth.
  - exists (EMove 0 :: es), s1, t1. cbn [run]. rewrite Hs. done.
Qed.
