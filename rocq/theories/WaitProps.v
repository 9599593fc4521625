(** C82: the wait group of announcements (WaitModel.v). *)
From Coq Require Import List String Arith Lia.
From stdpp Require Import base tactics list.
From Verif Require Import GoBase WaitModel.
Open Scope string_scope.
Open Scope list_scope.
Open Scope nat_scope.

(** * Counting *)

Definition total (f : goroutine -> nat) (gs : list goroutine) : nat := list_sum (map f gs).

Lemma total_app f a b : total f (a ++ b) = total f a + total f b.
Proof. unfold total. by rewrite map_app, list_sum_app. Qed.

Lemma total_one f g : total f [g] = f g.
Proof. unfold total, list_sum. cbn. lia. Qed.

Lemma total_insert f gs i g g' : gs !! i = Some g -> total f (<[i := g']> gs) + f g = total f gs + f g'.
Proof.
  intros Hi. pose proof (take_drop_middle gs i g Hi) as E.
  assert (<[i := g']> gs = take i gs ++ g' :: drop (S i) gs) as E'.
  { apply insert_take_drop. by eapply lookup_lt_Some. }
  rewrite E'. rewrite <- E at 3.
  rewrite !total_app. change (g' :: drop (S i) gs) with ([g'] ++ drop (S i) gs). change (g :: drop (S i) gs) with ([g] ++ drop (S i) gs).
  rewrite !total_app, !total_one. lia.
Qed.

Lemma total_pos f gs : total f gs <> 0 -> exists i g, gs !! i = Some g /\ f g <> 0.
Proof.
  induction gs as [|g gs IH]; [done|]. intros H. destruct (decide (f g = 0)) as [Hg|Hg].
  - assert (total f gs <> 0) as H' by (unfold total, list_sum in *; cbn in *; lia).
    destruct (IH H') as (i & g' & Hi & Hg'). by exists (S i), g'.
  - by exists 0, g.
Qed.

Lemma total_le f gs i g : gs !! i = Some g -> f g <= total f gs.
Proof.
  revert i. induction gs as [|h gs IH]; intros [|i] Hi; [done..| |].
  - injection Hi as ->. unfold total, list_sum. cbn. lia.
  - specialize (IH i Hi). unfold total, list_sum in *. cbn. lia.
Qed.

(** A notification between its arrival and the moment it is counted off. *)
Definition active (g : goroutine) : nat := match g with Notif NIn | Notif NSet => 1 | _ => 0 end.
(** A registration that waits for a wake-up. *)
Definition waiting (g : goroutine) : nat := match g with Reg _ WWaiting => 1 | _ => 0 end.
(** Wake-ups still to be given. *)
Definition owed (g : goroutine) : nat := match g with Notif (NRelease k) => k | _ => 0 end.
(** Between counting off and clearing. *)
Definition clearing (g : goroutine) : nat := match g with Notif (NCheck _) | Notif (NClear _) => 1 | _ => 0 end.

Record inv (s : state) : Prop := {
  i_v : total active (st_go s) = st_v s;
  i_w : st_w s + st_sema s + total owed (st_go s) = total waiting (st_go s);
  i_c : total clearing (st_go s) = (if Nat.eqb (st_v s) 0 && negb (Nat.eqb (st_w s) 0) then 1 else 0);
  i_k : forall i w0, st_go s !! i = Some (Notif (NCheck w0)) \/ st_go s !! i = Some (Notif (NClear w0)) -> st_v s = 0 /\ st_w s = w0 /\ w0 <> 0
}.

Lemma inv_init b : inv (init b).
Proof. constructor; cbn; [done..|]. intros i w0 [H|H]; done. Qed.

Ltac totals i g :=
  match goal with
  | H : ?gs !! i = Some ?o |- _ =>
      pose proof (total_insert active gs i o g H); pose proof (total_insert waiting gs i o g H);
      pose proof (total_insert owed gs i o g H); pose proof (total_insert clearing gs i o g H)
  end; cbn [active waiting owed clearing] in *.

Lemma look_insert (gs : list goroutine) i g j o : (<[i := g]> gs) !! j = Some o -> (j = i /\ o = g) \/ (j <> i /\ gs !! j = Some o).
Proof.
  intros H. destruct (decide (j = i)) as [->|Hne].
  - left. assert (i < length gs) as Hl. { apply lookup_lt_Some in H. by rewrite insert_length in H. }
    rewrite list_lookup_insert in H by done. by injection H as <-.
  - right. by rewrite list_lookup_insert_ne in H by done.
Qed.

Lemma look_snoc (gs : list goroutine) g j o : (gs ++ [g]) !! j = Some o -> gs !! j = Some o \/ o = g.
Proof.
  intros H. apply lookup_app_Some in H as [H|[_ H]]; [by left|]. right. destruct (j - length gs); [|done]. by injection H as <-.
Qed.

Lemma zero_one n : Nat.eqb n 0 = match n with 0 => true | S _ => false end.
Proof. by destruct n. Qed.

(** What a step can do, with the invariant kept. *)
Lemma step_inv s e r :
  inv s -> step s e = Some r ->
  (exists s', r = Ok s' /\ inv s') \/
  (exists why, r = Panic why /\
    ((e = EAdd /\ st_v s = 0 /\ st_w s <> 0) \/
     exists j, e = EVerify j /\ st_go s !! j = Some (Reg false WWoken) /\ (st_v s <> 0 \/ st_w s <> 0))).
Proof.
  intros [Iv Iw Ic Ik] Hs. destruct s as [v w sema flag gs]. cbn [st_v st_w st_sema st_go] in *.
  destruct e as [|i|i|i|i|i|http|j|j|j]; cbn [step] in Hs; unfold put in Hs; cbn [st_go] in Hs.
  - rewrite !zero_one in Hs. destruct w as [|w], v as [|v]; cbn in Hs; injection Hs as <-.
    3:{ right. eexists. split; [done|]. left. cbn. done. }
    1,2,3: left; eexists; split; [done|]; constructor; cbn [st_v st_w st_sema st_go];
      [rewrite total_app, total_one; cbn; lia | rewrite !total_app, !total_one; cbn; lia
      | rewrite !total_app, !total_one; cbn in *; lia
      | intros i w0 [H|H]; apply look_snoc in H as [H|H]; try done; destruct (Ik i w0) as (H1 & H2 & H3); auto; lia].
  - destruct (gs !! i) as [[[]|]|] eqn:Ei; try discriminate Hs. injection Hs as <-. left. eexists. split; [done|].
    totals i (Notif NSet). constructor; cbn [st_v st_w st_sema st_go]; [lia|lia|lia|].
    intros j w0 [H'|H']; apply look_insert in H' as [[_ H']|[_ H']]; try done; eauto.
  - assert (exists n, gs !! i = Some (Notif n) /\ active (Notif n) = 1 /\ waiting (Notif n) = 0 /\ owed (Notif n) = 0 /\ clearing (Notif n) = 0 /\
      match v with
      | O => Some (Panic "sync: negative WaitGroup counter")
      | S v' =>
          if negb (Nat.eqb v' 0) || Nat.eqb w 0 then Some (Ok (State v' w sema flag (<[i := Notif (NRelease 0)]> gs)))
          else Some (Ok (State v' w sema flag (<[i := Notif (NCheck w)]> gs)))
      end = Some r) as (n & Ei & H1 & H2 & H3 & H4 & Hs').
    { destruct (gs !! i) as [[[]|]|] eqn:Ei; try discriminate Hs; eexists; (split; [done|]); cbn; auto. }
    clear Hs. pose proof (total_le active gs i _ Ei). destruct v as [|v]; [lia|].
    assert (total clearing gs = 0) as Hc by (cbn in Ic; lia).
    assert (forall j w0, gs !! j = Some (Notif (NCheck w0)) \/ gs !! j = Some (Notif (NClear w0)) -> False) as Hno.
    { intros j w0 [Hj|Hj]; apply (total_le clearing) in Hj; cbn in Hj; lia. }
    rewrite !zero_one in Hs'. destruct v as [|v], w as [|w]; cbn [negb orb] in Hs'; injection Hs' as <-; left; eexists; (split; [done|]).
    1,3,4: pose proof (total_insert active gs i _ (Notif (NRelease 0)) Ei); pose proof (total_insert waiting gs i _ (Notif (NRelease 0)) Ei);
      pose proof (total_insert owed gs i _ (Notif (NRelease 0)) Ei); pose proof (total_insert clearing gs i _ (Notif (NRelease 0)) Ei);
      rewrite ?H1, ?H2, ?H3, ?H4 in *; cbn [active waiting owed clearing] in *;
      constructor; cbn [st_v st_w st_sema st_go Nat.eqb negb andb]; [lia|lia|lia|];
      intros j w0 [H'|H']; apply look_insert in H' as [[_ H']|[_ H']]; try done; exfalso; eauto.
    pose proof (total_insert active gs i _ (Notif (NCheck (S w))) Ei); pose proof (total_insert waiting gs i _ (Notif (NCheck (S w))) Ei);
      pose proof (total_insert owed gs i _ (Notif (NCheck (S w))) Ei); pose proof (total_insert clearing gs i _ (Notif (NCheck (S w))) Ei);
      rewrite ?H1, ?H2, ?H3, ?H4 in *; cbn [active waiting owed clearing] in *.
    constructor; cbn [st_v st_w st_sema st_go Nat.eqb negb andb]; [lia|lia|lia|].
    intros j w0 [H'|H']; apply look_insert in H' as [[_ H']|[_ H']]; try done; [|exfalso; eauto..].
    injection H' as ->. done.
  - destruct (gs !! i) as [[[| |w0| |]|]|] eqn:Ei; try discriminate Hs.
    destruct (Ik i w0 (or_introl Ei)) as (-> & -> & Hw). rewrite !Nat.eqb_refl in Hs. cbn in Hs. injection Hs as <-. left. eexists. split; [done|].
    totals i (Notif (NClear w0)). constructor; cbn [st_v st_w st_sema st_go]; [lia|lia|lia|].
    intros j w1 [H'|H']; apply look_insert in H' as [[_ H']|[_ H']]; [done|by apply (Ik j); left|simplify_eq; done|by apply (Ik j); right].
  - destruct (gs !! i) as [[[| | |w0|]|]|] eqn:Ei; try discriminate Hs. injection Hs as <-.
    destruct (Ik i w0 (or_intror Ei)) as (-> & -> & Hw). left. eexists. split; [done|].
    totals i (Notif (NRelease w0)). rewrite (proj2 (Nat.eqb_neq w0 0) Hw) in Ic. cbn in Ic.
    constructor; cbn [st_v st_w st_sema st_go Nat.eqb negb andb]; [lia|lia|lia|].
    intros j w1 Hj. assert (clearing (Notif (NCheck w1)) = 1 /\ clearing (Notif (NClear w1)) = 1) as [E1 E2] by done.
    destruct Hj as [H'|H']; apply (total_le clearing) in H'; cbn in H'; lia.
  - destruct (gs !! i) as [[[| | | |[|k]]|]|] eqn:Ei; try discriminate Hs. injection Hs as <-. left. eexists. split; [done|].
    totals i (Notif (NRelease k)). constructor; cbn [st_v st_w st_sema st_go]; [lia|lia|lia|].
    intros j w0 [H'|H']; apply look_insert in H' as [[_ H']|[_ H']]; try done; eauto.
  - destruct (Nat.eqb v 0) eqn:Ev; injection Hs as <-; left; eexists; (split; [done|]).
    + constructor; cbn [st_v st_w st_sema st_go]; rewrite ?total_app, ?total_one; cbn [active waiting owed clearing]; [lia|lia|rewrite Ev; lia|].
      intros j w0 [H'|H']; apply look_snoc in H' as [H'|H']; try done; eauto.
    + constructor; cbn [st_v st_w st_sema st_go]; rewrite ?total_app, ?total_one; cbn [active waiting owed clearing]; [lia|lia|rewrite Ev; cbn in *; lia|].
      apply Nat.eqb_neq in Ev.
      intros j w0 [H'|H']; apply look_snoc in H' as [H'|H']; try done; destruct (Ik j w0); auto; lia.
  - destruct (gs !! j) as [[|http []]|] eqn:Ei; try discriminate Hs. destruct sema as [|k]; [discriminate Hs|]. injection Hs as <-. left. eexists. split; [done|].
    totals j (Reg http WWoken). constructor; cbn [st_v st_w st_sema st_go]; [lia|lia|lia|].
    intros i w0 [H'|H']; apply look_insert in H' as [[_ H']|[_ H']]; try done; eauto.
  - destruct (gs !! j) as [[|http []]|] eqn:Ei; try discriminate Hs.
    destruct (Nat.eqb v 0 && Nat.eqb w 0) eqn:Ez; [|destruct http].
    + injection Hs as <-. left. eexists. split; [done|]. totals j (Reg http WBack). constructor; cbn [st_v st_w st_sema st_go]; [lia|lia|lia|].
      intros i w0 [H'|H']; apply look_insert in H' as [[_ H']|[_ H']]; try done; eauto.
    + injection Hs as <-. left. eexists. split; [done|]. totals j (Reg true WFailed). constructor; cbn [st_v st_w st_sema st_go]; [lia|lia|lia|].
      intros i w0 [H'|H']; apply look_insert in H' as [[_ H']|[_ H']]; try done; eauto.
    + injection Hs as <-. right. eexists. split; [done|]. right. exists j. split; [done|]. split; [done|].
      apply andb_false_iff in Ez as [Ez|Ez]; apply Nat.eqb_neq in Ez; auto.
  - destruct (gs !! j) as [[|http []]|] eqn:Ei; try discriminate Hs. injection Hs as <-. left. eexists. split; [done|].
    totals j (Reg http (WRead flag)). constructor; cbn [st_v st_w st_sema st_go]; [lia|lia|lia|].
    intros i w0 [H'|H']; apply look_insert in H' as [[_ H']|[_ H']]; try done; eauto.
Qed.

(** * Histories *)

Lemma run_snoc s es e r :
  run s (es ++ [e]) = Some r <-> exists s1, run s es = Some (Ok s1) /\ step s1 e = Some r.
Proof.
  revert s. induction es as [|a es IH]; intros s; cbn [run app].
  - split.
    + destruct (step s e) as [[]|] eqn:E; intros H; try discriminate H; injection H as <-; eauto.
    + intros (s1 & H & E). injection H as <-. rewrite E. by destruct r.
  - destruct (step s a) as [[s'|w|w]|].
    + apply IH.
    + split; [by destruct es|]. intros (s1 & H & _). by destruct es.
    + split; [by destruct es|]. intros (s1 & H & _). by destruct es.
    + split; [done|]. by intros (s1 & H & _).
Qed.

Lemma run_inv b es s : run (init b) es = Some (Ok s) -> inv s.
Proof.
  revert s. induction es as [|e es IH] using rev_ind; intros s Hr.
  - injection Hr as <-. apply inv_init.
  - apply run_snoc in Hr as (s1 & H1 & Hs). destruct (step_inv s1 e _ (IH _ H1) Hs) as [(s' & E & I)|(w & E & _)]; [|done].
    by injection E as ->.
Qed.

(** No notification is in progress. *)
Definition idle (s : state) : Prop := forall i, st_go s !! i <> Some (Notif NIn) /\ st_go s !! i <> Some (Notif NSet).

(** Registration [j] has been made to wait and is not back yet. *)
Definition held_up (s : state) (j : nat) (http : bool) : Prop :=
  st_go s !! j = Some (Reg http WWaiting) \/ st_go s !! j = Some (Reg http WWoken).

Lemma idle_v s : inv s -> idle s <-> st_v s = 0.
Proof.
  intros [Iv _ _ _]. rewrite <- Iv. split.
  - intros Hi. destruct (decide (total active (st_go s) = 0)) as [|Hn]; [done|].
    apply total_pos in Hn as (i & g & Hg & Ha). destruct (Hi i) as [H1 H2]. destruct g as [[]|]; cbn in Ha; done.
  - intros Hz i. split; intros Hi; apply (total_le active) in Hi; cbn in Hi; lia.
Qed.

Definition woken (g : goroutine) : nat := match g with Reg _ WWoken => 1 | _ => 0 end.
Definition failed (g : goroutine) : nat := match g with Reg _ WFailed => 1 | _ => 0 end.

Lemma held_up_total s : (exists j http, held_up s j http) <-> total waiting (st_go s) + total woken (st_go s) <> 0.
Proof.
  split.
  - intros (j & http & [H|H]); [apply (total_le waiting) in H|apply (total_le woken) in H]; cbn in H; lia.
  - intros H. destruct (decide (total waiting (st_go s) = 0)) as [Hz|Hz].
    + assert (total woken (st_go s) <> 0) as Hw by lia. apply total_pos in Hw as (j & g & Hj & Hg).
      destruct g as [|http []]; cbn in Hg; try done. exists j, http. by right.
    + apply total_pos in Hz as (j & g & Hj & Hg). destruct g as [|http []]; cbn in Hg; try done. exists j, http. by left.
Qed.

(** A notification has arrived when none was in progress and somebody had been made to wait. *)
Definition collided (b : bool) (es : list event) : Prop :=
  exists pre post s j http, es = pre ++ EAdd :: post /\ run (init b) pre = Some (Ok s) /\ idle s /\ held_up s j http.

Lemma collided_snoc b es e : collided b es -> collided b (es ++ [e]).
Proof.
  intros (pre & post & s & j & http & -> & H). exists pre, (post ++ [e]), s, j, http. split; [|done]. by rewrite <- app_assoc.
Qed.

Definition calm (s : state) : Prop :=
  total failed (st_go s) = 0 /\
  (st_v s <> 0 \/ st_w s <> 0 -> st_sema s = 0 /\ total owed (st_go s) = 0 /\ total woken (st_go s) = 0).

Lemma calm_step b es s e r :
  run (init b) es = Some (Ok s) -> inv s -> calm s -> step s e = Some r -> ~ collided b (es ++ [e]) -> exists s', r = Ok s' /\ calm s'.
Proof.
  intros Hr I [Cf Cc] Hs Hn. pose proof I as [Iv Iw Ic Ik].
  assert (e = EAdd -> st_v s = 0 -> total waiting (st_go s) = 0 /\ total woken (st_go s) = 0) as Hadd.
  { intros -> Hv. destruct (decide (total waiting (st_go s) + total woken (st_go s) = 0)) as [|Hne]; [lia|].
    exfalso. apply held_up_total in Hne as (j & http & Hj). apply Hn. exists es, [], s, j, http. split; [done|]. split; [done|]. split; [|done]. by apply idle_v. }
  clear Hr Hn. destruct s as [v w sema flag gs]. unfold calm. cbn [st_v st_w st_sema st_go] in *.
  destruct e as [|i|i|i|i|i|http|j|j|j]; cbn [step] in Hs; unfold put in Hs; cbn [st_go] in Hs.
  - destruct (decide (v = 0)) as [->|Hv].
    + destruct (Hadd eq_refl eq_refl) as [H1 H2]. assert (w = 0 /\ sema = 0 /\ total owed gs = 0) as (-> & -> & Ho) by lia.
      cbn in Hs. injection Hs as <-. eexists. split; [done|]. cbn [st_v st_w st_sema st_go]. rewrite !total_app, !total_one. cbn. lia.
    + rewrite (proj2 (Nat.eqb_neq v 0) Hv), andb_false_r in Hs. injection Hs as <-. eexists. split; [done|].
      cbn [st_v st_w st_sema st_go]. rewrite !total_app, !total_one. cbn. lia.
  - destruct (gs !! i) as [[[]|]|] eqn:Ei; try discriminate Hs. injection Hs as <-. eexists. split; [done|]. cbn [st_v st_w st_sema st_go].
    pose proof (total_insert failed gs i _ (Notif NSet) Ei). pose proof (total_insert owed gs i _ (Notif NSet) Ei). pose proof (total_insert woken gs i _ (Notif NSet) Ei).
    cbn [failed owed woken] in *. lia.
  - assert (exists n, gs !! i = Some (Notif n) /\ failed (Notif n) = 0 /\ active (Notif n) = 1 /\ owed (Notif n) = 0 /\ woken (Notif n) = 0 /\
      exists n' v' , failed (Notif n') = 0 /\ owed (Notif n') = 0 /\ woken (Notif n') = 0 /\ (v <> 0 -> r = Ok (State v' w sema flag (<[i := Notif n']> gs)))) as
      (n & Ei & H1 & H2 & H3 & H4 & n' & v' & H5 & H6 & H7 & Hs').
    { destruct (gs !! i) as [[[]|]|] eqn:Ei; try discriminate Hs; eexists; (split; [done|]); (do 4 (split; [done|]));
      (destruct v as [|v]; [exists NIn, 0; by do 3 (split; [done|])|]);
      (destruct (negb (Nat.eqb v 0) || Nat.eqb w 0); injection Hs as <-; [exists (NRelease 0), v|exists (NCheck w), v]; auto). }
    pose proof (total_le active gs i _ Ei). assert (v <> 0) as Hv by lia. rewrite (Hs' Hv). eexists. split; [done|]. cbn [st_v st_w st_sema st_go].
    pose proof (total_insert failed gs i _ (Notif n') Ei). pose proof (total_insert owed gs i _ (Notif n') Ei). pose proof (total_insert woken gs i _ (Notif n') Ei).
    lia.
  - destruct (gs !! i) as [[[| |w0| |]|]|] eqn:Ei; try discriminate Hs.
    destruct (Ik i w0 (or_introl Ei)) as (-> & -> & Hw). rewrite !Nat.eqb_refl in Hs. cbn in Hs. injection Hs as <-. eexists. split; [done|]. cbn [st_v st_w st_sema st_go].
    pose proof (total_insert failed gs i _ (Notif (NClear w0)) Ei). pose proof (total_insert owed gs i _ (Notif (NClear w0)) Ei). pose proof (total_insert woken gs i _ (Notif (NClear w0)) Ei).
    cbn [failed owed woken] in *. lia.
  - destruct (gs !! i) as [[[| | |w0|]|]|] eqn:Ei; try discriminate Hs. injection Hs as <-. eexists. split; [done|]. cbn [st_v st_w st_sema st_go].
    pose proof (total_insert failed gs i _ (Notif (NRelease w0)) Ei). cbn [failed owed woken] in *. lia.
  - destruct (gs !! i) as [[[| | | |[|k]]|]|] eqn:Ei; try discriminate Hs. injection Hs as <-. eexists. split; [done|]. cbn [st_v st_w st_sema st_go].
    pose proof (total_insert failed gs i _ (Notif (NRelease k)) Ei). pose proof (total_le owed gs i _ Ei). cbn [failed owed woken] in *. lia.
  - destruct (Nat.eqb v 0) eqn:Ev; injection Hs as <-; eexists; (split; [done|]); cbn [st_v st_w st_sema st_go]; rewrite !total_app, !total_one; cbn [failed owed woken].
    + lia.
    + apply Nat.eqb_neq in Ev. lia.
  - destruct (gs !! j) as [[|http []]|] eqn:Ei; try discriminate Hs. destruct sema as [|k]; [discriminate Hs|]. injection Hs as <-. eexists. split; [done|].
    cbn [st_v st_w st_sema st_go]. pose proof (total_insert failed gs j _ (Reg http WWoken) Ei). cbn [failed owed woken] in *. lia.
  - destruct (gs !! j) as [[|http []]|] eqn:Ei; try discriminate Hs. pose proof (total_le woken gs j _ Ei) as Hle. cbn in Hle.
    assert (v = 0 /\ w = 0) as [-> ->] by lia. cbn in Hs. injection Hs as <-. eexists. split; [done|]. cbn [st_v st_w st_sema st_go].
    pose proof (total_insert failed gs j _ (Reg http WBack) Ei). cbn [failed owed woken] in *. lia.
  - destruct (gs !! j) as [[|http []]|] eqn:Ei; try discriminate Hs. injection Hs as <-. eexists. split; [done|]. cbn [st_v st_w st_sema st_go].
    pose proof (total_insert failed gs j _ (Reg http (WRead flag)) Ei). pose proof (total_insert owed gs j _ (Reg http (WRead flag)) Ei). pose proof (total_insert woken gs j _ (Reg http (WRead flag)) Ei).
    cbn [failed owed woken] in *. lia.
Qed.

Lemma calm_run b es r :
  ~ collided b es -> run (init b) es = Some r -> exists s, r = Ok s /\ calm s.
Proof.
  revert r. induction es as [|e es IH] using rev_ind; intros r Hn Hr.
  - injection Hr as <-. eexists. split; [done|]. split; [done|]. cbn. lia.
  - apply run_snoc in Hr as (s1 & H1 & Hs).
    destruct (IH _ (fun H => Hn (collided_snoc b es e H)) H1) as (s & E & C). injection E as <-.
    eapply calm_step; eauto. by eapply run_inv.
Qed.

(** * The theorems *)

(** Registrations and notifications never crash the node, and no request of the mailbox
    fails in them, unless a notification arrives when none is in progress while a
    registration that was made to wait is not back yet. *)
Theorem C82_safe b es r :
  (forall pre post s j http, es = pre ++ EAdd :: post -> run (init b) pre = Some (Ok s) -> idle s -> ~ held_up s j http) ->
  run (init b) es = Some r ->
  exists s, r = Ok s /\ forall j http, st_go s !! j <> Some (Reg http WFailed).
Proof.
  intros Hn Hr. destruct (calm_run b es r) as (s & -> & Cf & _); [|done|].
  - intros (pre & post & s & j & http & -> & H1 & H2 & H3). by eapply Hn.
  - exists s. split; [done|]. intros j http Hj. apply (total_le failed) in Hj. cbn in Hj. lia.
Qed.
Print Assumptions C82_safe.

Definition crashes (s : state) (es : list event) : Prop := exists why, run s es = Some (Panic why).

(** And then it can: in every such state the arrival of a notification crashes the node at once
    or at most three steps of the waiting registration and its waker later. *)
Theorem C82_peril b es s j :
  run (init b) es = Some (Ok s) -> idle s -> held_up s j false ->
  exists post, length post <= 3 /\ Forall (fun e => (exists i, e = ERelease i) \/ e = EAcquire j \/ e = EVerify j) post /\ crashes s (EAdd :: post).
Proof.
  intros Hr Hi Hj. pose proof (run_inv b es s Hr) as I. apply idle_v in Hi; [|done]. destruct I as [Iv Iw Ic Ik].
  destruct s as [v w sema flag gs]. unfold held_up, crashes in *. cbn [st_v st_w st_sema st_go] in *. rewrite Hi in *.
  destruct w as [|w].
  2:{ exists []. split; [cbn; lia|]. split; [done|]. eexists. cbn. done. }
  assert (forall g, (gs ++ [Notif NIn]) !! j = Some g <-> gs !! j = Some g) as Hold.
  { intros g. rewrite lookup_app_l; [done|]. destruct Hj as [Hj|Hj]; by eapply lookup_lt_Some. }
  assert (j < length (gs ++ [Notif NIn])) as Hlen. { destruct Hj as [Hj|Hj]; apply Hold in Hj; by eapply lookup_lt_Some. }
  destruct Hj as [Hj|Hj].
  2:{ exists [EVerify j]. split; [cbn; lia|]. split; [rewrite ?Forall_cons; repeat split; eauto|]. eexists. cbn [run step Nat.eqb negb andb].
    rewrite (proj2 (Hold _) Hj). done. }
  pose proof (total_le waiting gs j _ Hj) as Hle. cbn in Hle.
  destruct sema as [|sema].
  - assert (total owed gs <> 0) as Ho by lia. apply total_pos in Ho as (i & g & Hg & Hz).
    destruct g as [[| | | |[|k]]|]; cbn in Hz; try done.
    assert (i <> j) as Hij by (intros ->; congruence).
    exists [ERelease i; EAcquire j; EVerify j]. split; [cbn; lia|]. split; [rewrite ?Forall_cons; repeat split; eauto|]. eexists.
    cbn [run step Nat.eqb negb andb]. rewrite lookup_app_l by (by eapply lookup_lt_Some). rewrite Hg. unfold put. cbn [run step Nat.eqb negb andb st_go].
    rewrite list_lookup_insert_ne by done. rewrite (proj2 (Hold _) Hj). unfold put. cbn [run step Nat.eqb negb andb st_go].
    rewrite list_lookup_insert by (by rewrite insert_length). done.
  - exists [EAcquire j; EVerify j]. split; [cbn; lia|]. split; [rewrite ?Forall_cons; repeat split; eauto|]. eexists.
    cbn [run step Nat.eqb negb andb]. rewrite (proj2 (Hold _) Hj). unfold put. cbn [run step Nat.eqb negb andb st_go].
    rewrite list_lookup_insert by done. done.
Qed.
Print Assumptions C82_peril.

(** A registration is made to wait exactly if a notification is in progress, and it is back
    from waiting only at a moment when none is. *)
Theorem C82_waits b es s http :
  run (init b) es = Some (Ok s) ->
  exists s', step s (EWait http) = Some (Ok s') /\
    ((idle s /\ st_go s' = st_go s ++ [Reg http WBack]) \/ (~ idle s /\ st_go s' = st_go s ++ [Reg http WWaiting])).
Proof.
  intros Hr. pose proof (run_inv b es s Hr) as I. pose proof (idle_v s I) as Hv. clear Hr I.
  destruct s as [v w sema flag gs]. cbn [step st_v st_go] in *. destruct (Nat.eqb v 0) eqn:Ev; eexists; (split; [done|]); cbn [st_go].
  - apply Nat.eqb_eq in Ev. left. split; [by apply Hv|done].
  - apply Nat.eqb_neq in Ev. right. split; [by rewrite Hv|done].
Qed.
Print Assumptions C82_waits.

Theorem C82_back b es e s s' j http :
  run (init b) es = Some (Ok s) -> step s e = Some (Ok s') ->
  st_go s' !! j = Some (Reg http WBack) -> st_go s !! j <> Some (Reg http WBack) ->
  idle s' /\ (e = EWait http \/ e = EVerify j).
Proof.
  intros Hr Hs Hj Hn. pose proof (run_inv b es s Hr) as I.
  assert (inv s') as I'. { destruct (step_inv s e _ I Hs) as [(s1 & E & I1)|(w & E & _)]; [|done]. by injection E as ->. }
  rewrite idle_v by done. clear I I'.
  destruct s as [v w sema flag gs]. cbn [st_go] in *.
  destruct e as [|i|i|i|i|i|h|i|i|i]; cbn [step] in Hs; unfold put in Hs; cbn [st_go] in Hs.
  - destruct (negb (Nat.eqb w 0) && Nat.eqb v 0); [done|]. injection Hs as <-. cbn in Hj. apply look_snoc in Hj as [Hj|Hj]; done.
  - destruct (gs !! i) as [[[]|]|] eqn:Ei; try discriminate Hs. injection Hs as <-. cbn in Hj. apply look_insert in Hj as [[_ Hj]|[_ Hj]]; done.
  - destruct (gs !! i) as [[[]|]|] eqn:Ei; try discriminate Hs; (destruct v as [|v]; [done|]); destruct (negb (Nat.eqb v 0) || Nat.eqb w 0); injection Hs as <-;
      cbn in Hj; apply look_insert in Hj as [[_ Hj]|[_ Hj]]; done.
  - destruct (gs !! i) as [[[]|]|] eqn:Ei; try discriminate Hs. destruct (Nat.eqb v 0 && _); [|done]. injection Hs as <-. cbn in Hj. apply look_insert in Hj as [[_ Hj]|[_ Hj]]; done.
  - destruct (gs !! i) as [[[]|]|] eqn:Ei; try discriminate Hs. injection Hs as <-. cbn in Hj. apply look_insert in Hj as [[_ Hj]|[_ Hj]]; done.
  - destruct (gs !! i) as [[[| | | |[|k]]|]|] eqn:Ei; try discriminate Hs. injection Hs as <-. cbn in Hj. apply look_insert in Hj as [[_ Hj]|[_ Hj]]; done.
  - destruct (Nat.eqb v 0) eqn:Ev; injection Hs as <-; cbn in Hj; apply look_snoc in Hj as [Hj|Hj]; try done.
    injection Hj as ->. apply Nat.eqb_eq in Ev as ->. auto.
  - destruct (gs !! i) as [[|h []]|] eqn:Ei; try discriminate Hs. destruct sema; [done|]. injection Hs as <-. cbn in Hj. apply look_insert in Hj as [[_ Hj]|[_ Hj]]; done.
  - destruct (gs !! i) as [[|h []]|] eqn:Ei; try discriminate Hs. destruct (Nat.eqb v 0 && Nat.eqb w 0) eqn:Ez.
    + injection Hs as <-. cbn in Hj. apply look_insert in Hj as [[-> Hj]|[_ Hj]]; [|done]. apply andb_true_iff in Ez as [Ez _]. apply Nat.eqb_eq in Ez as ->. auto.
    + destruct h; [|done]. injection Hs as <-. cbn in Hj. apply look_insert in Hj as [[_ Hj]|[_ Hj]]; done.
  - destruct (gs !! i) as [[|h []]|] eqn:Ei; try discriminate Hs. injection Hs as <-. cbn in Hj. apply look_insert in Hj as [[_ Hj]|[_ Hj]]; done.
Qed.
Print Assumptions C82_back.

(** A registration then sees announcements enabled exactly if the node started with entry
    peers or a notification has enabled them. *)
Theorem C82_flag b es s s' j :
  run (init b) es = Some (Ok s) -> step s (EFlag j) = Some (Ok s') ->
  exists http c, st_go s' !! j = Some (Reg http (WRead c)) /\ (c = true <-> b = true \/ exists i, ESet i ∈ es).
Proof.
  intros Hr Hs.
  assert (st_flag s = true <-> b = true \/ exists i, ESet i ∈ es) as Hf.
  { clear Hs. revert s Hr. induction es as [|e es IH] using rev_ind; intros s Hr.
    - injection Hr as <-. cbn. split; [auto|]. intros [|(i & Hi)]; [done|]. by apply elem_of_nil in Hi.
    - apply run_snoc in Hr as (s1 & H1 & Hs). specialize (IH s1 H1).
      assert (st_flag s = (match e with ESet _ => true | _ => st_flag s1 end)) as Hfl.
      { destruct s1 as [v w sema flag gs]. destruct e as [|i|i|i|i|i|h|i|i|i]; cbn [step] in Hs; unfold put in Hs; cbn [st_go st_flag] in *.
        - destruct (negb (Nat.eqb w 0) && Nat.eqb v 0); [done|]. by injection Hs as <-.
        - destruct (gs !! i) as [[[]|]|]; try discriminate Hs. by injection Hs as <-.
        - destruct (gs !! i) as [[[]|]|]; try discriminate Hs; (destruct v as [|v]; [done|]); destruct (negb (Nat.eqb v 0) || Nat.eqb w 0); by injection Hs as <-.
        - destruct (gs !! i) as [[[]|]|]; try discriminate Hs. destruct (Nat.eqb v 0 && _); [|done]. by injection Hs as <-.
        - destruct (gs !! i) as [[[]|]|]; try discriminate Hs. by injection Hs as <-.
        - destruct (gs !! i) as [[[| | | |[|k]]|]|]; try discriminate Hs. by injection Hs as <-.
        - destruct (Nat.eqb v 0); by injection Hs as <-.
        - destruct (gs !! i) as [[|h []]|]; try discriminate Hs. destruct sema; [done|]. by injection Hs as <-.
        - destruct (gs !! i) as [[|h []]|]; try discriminate Hs. destruct (Nat.eqb v 0 && Nat.eqb w 0); [by injection Hs as <-|]. destruct h; [|done]. by injection Hs as <-.
        - destruct (gs !! i) as [[|h []]|]; try discriminate Hs. by injection Hs as <-. }
      rewrite Hfl. setoid_rewrite elem_of_app. setoid_rewrite elem_of_list_singleton.
      destruct e as [|i0| | | | | | | |]; try (rewrite IH; split; [intros [|(i9 & Hi)]; eauto|intros [|(i9 & [Hi|Hi])]; eauto; done]).
      split; [|done]. intros _. right. exists i0. by right. }
  destruct s as [v w sema flag gs]. cbn [step st_flag] in *. destruct (gs !! j) as [[|http []]|] eqn:Ej; try discriminate Hs. injection Hs as <-.
  exists http, flag. split; [|done]. cbn. apply list_lookup_insert. by eapply lookup_lt_Some.
Qed.
Print Assumptions C82_flag.

(** No wake-up is lost: as soon as no notification is in progress, the steps that remain
    inside Done and Wait bring back every registration that was made to wait. *)
Definition inner (e : event) : Prop :=
  match e with ECheck _ | EClear _ | ERelease _ | EAcquire _ | EVerify _ => True | _ => False end.

Definition todo (g : goroutine) : nat :=
  match g with
  | Notif (NCheck w) => S (S w)
  | Notif (NClear w) => S w
  | Notif (NRelease k) => k
  | Reg _ WWaiting => 2
  | Reg _ WWoken => 1
  | _ => 0
  end.

Definition comes_back (g : goroutine) (http : bool) : Prop := g = Reg http WWaiting \/ g = Reg http WWoken \/ g = Reg http WBack.

Lemma drain_step s :
  inv s -> st_v s = 0 -> total todo (st_go s) <> 0 ->
  exists e s', inner e /\ step s e = Some (Ok s') /\ inv s' /\ st_v s' = 0 /\ total todo (st_go s) = S (total todo (st_go s')) /\
    forall j g http, st_go s !! j = Some g -> comes_back g http -> exists g', st_go s' !! j = Some g' /\ comes_back g' http.
Proof.
  intros I Hv Ht. pose proof I as [Iv Iw Ic Ik].
  assert (exists e i g g', inner e /\ st_go s !! i = Some g /\ todo g = S (todo g') /\
    (exists s', step s e = Some (Ok s') /\ st_v s' = 0 /\ st_go s' = <[i := g']> (st_go s)) /\ (forall http, comes_back g http -> comes_back g' http)) as
    (e & i & g & g' & He & Hi & Hg & (s' & Hs & Hv' & Hgo) & Hcb).
  { destruct s as [v w sema flag gs]. cbn [st_v st_w st_sema st_go] in *. rewrite Hv in *.
    destruct (decide (total clearing gs = 0)) as [Hc|Hc].
    2:{ apply total_pos in Hc as (i & g & Hi & Hg). destruct g as [[| |w0|w0|]|]; cbn in Hg; try done.
      - exists (ECheck i), i, (Notif (NCheck w0)), (Notif (NClear w0)). split; [done|]. split; [done|]. split; [done|]. destruct (Ik i w0 (or_introl Hi)) as (H0 & -> & _). split.
        + cbn [step]. rewrite Hi, !Nat.eqb_refl. cbn. eauto.
        + intros http [?|[?|?]]; done.
      - exists (EClear i), i, (Notif (NClear w0)), (Notif (NRelease w0)). split; [done|]. split; [done|]. split; [done|]. split.
        + cbn [step]. rewrite Hi. cbn. eauto.
        + intros http [?|[?|?]]; done. }
    assert (w = 0) as ->. { destruct w; [done|]. cbn in Ic. lia. }
    destruct (decide (total owed gs = 0)) as [Ho|Ho].
    2:{ apply total_pos in Ho as (i & g & Hi & Hg). destruct g as [[| | | |[|k]]|]; cbn in Hg; try done.
      exists (ERelease i), i, (Notif (NRelease (S k))), (Notif (NRelease k)). split; [done|]. split; [done|]. split; [done|]. split.
      + cbn [step]. rewrite Hi. cbn. eauto.
      + intros http [?|[?|?]]; done. }
    destruct (decide (total waiting gs = 0)) as [Hw|Hw].
    2:{ destruct sema as [|sema]; [lia|]. apply total_pos in Hw as (i & g & Hi & Hg). destruct g as [|http []]; cbn in Hg; try done.
      exists (EAcquire i), i, (Reg http WWaiting), (Reg http WWoken). split; [done|]. split; [done|]. split; [done|]. split.
      + cbn [step]. rewrite Hi. cbn. eauto.
      + intros h [E|[E|E]]; try done. injection E as ->. right. by left. }
    apply total_pos in Ht as (i & g & Hi & Hg).
    assert (exists http, g = Reg http WWoken) as (http & ->).
    { pose proof (total_le owed gs i g Hi). pose proof (total_le waiting gs i g Hi). pose proof (total_le clearing gs i g Hi).
      destruct g as [[]|http []]; cbn in *; try lia; eauto. }
    exists (EVerify i), i, (Reg http WWoken), (Reg http WBack). split; [done|]. split; [done|]. split; [done|]. split.
    + cbn [step]. rewrite Hi. cbn. eauto.
    + intros h [E|[E|E]]; try done. injection E as ->. right. by right. }
  exists e, s'. split; [done|]. split; [done|].
  assert (inv s') as I'. { destruct (step_inv s e _ I Hs) as [(s1 & E & I1)|(w & E & _)]; [|done]. by injection E as ->. }
  split; [done|]. split; [done|]. split.
  - rewrite Hgo. pose proof (total_insert todo (st_go s) i g g' Hi). lia.
  - intros j o http Hj Ho. rewrite Hgo. destruct (decide (j = i)) as [->|Hne].
    + rewrite list_lookup_insert by (by eapply lookup_lt_Some). eexists. split; [done|]. apply Hcb. congruence.
    + rewrite list_lookup_insert_ne by done. eauto.
Qed.

Theorem C82_wakes b es s :
  run (init b) es = Some (Ok s) -> idle s ->
  exists es' s', Forall inner es' /\ run s es' = Some (Ok s') /\
    (forall j http, ~ held_up s' j http) /\
    forall j http, held_up s j http -> st_go s' !! j = Some (Reg http WBack).
Proof.
  intros Hr Hi. pose proof (run_inv b es s Hr) as I. apply idle_v in Hi; [|done]. clear Hr.
  assert (exists es' s', Forall inner es' /\ run s es' = Some (Ok s') /\ total todo (st_go s') = 0 /\
    forall j g http, st_go s !! j = Some g -> comes_back g http -> exists g', st_go s' !! j = Some g' /\ comes_back g' http) as (es' & s' & H1 & H2 & H3 & H4).
  { remember (total todo (st_go s)) as n eqn:En. revert s En I Hi. induction n as [|n IH]; intros s En I Hi.
    - exists [], s. split; [done|]. split; [done|]. split; [done|]. eauto.
    - destruct (drain_step s I Hi ltac:(lia)) as (e & s1 & He & Hs & I1 & Hv1 & Ht & Hb).
      destruct (IH s1 ltac:(lia) I1 Hv1) as (es' & s' & H1 & H2 & H3 & H4).
      exists (e :: es'), s'. split; [by constructor|]. split; [cbn [run]; by rewrite Hs|]. split; [done|].
      intros j g http Hj Hg. destruct (Hb j g http Hj Hg) as (g1 & Hj1 & Hg1). eauto. }
  assert (forall j http, ~ held_up s' j http) as Hno.
  { intros j http [Hj|Hj]; apply (total_le todo) in Hj; cbn in Hj; lia. }
  exists es', s'. split; [done|]. split; [done|]. split; [done|].
  intros j http Hj. destruct (H4 j (match st_go s !! j with Some g => g | None => Notif NIn end) http) as (g' & Hg' & [E|[E|E]]); subst; try done.
  - destruct Hj as [Hj|Hj]; by rewrite Hj.
  - destruct Hj as [Hj|Hj]; rewrite Hj; unfold comes_back; auto.
  - by destruct (Hno j http (or_introl Hg')).
  - by destruct (Hno j http (or_intror Hg')).
Qed.
Print Assumptions C82_wakes.

(** * Examples *)

Definition fate (es : list event) : option (option string) :=
  match run (init false) es with Some (Ok _) => Some None | Some (Panic w) => Some (Some w) | _ => None end.
Definition phases (es : list event) : option (list goroutine) :=
  match run (init false) es with Some (Ok s) => Some (st_go s) | _ => None end.

(** A peer connects, an agent registers, the announcements for the peer end, another peer
    connects: the process ends. A request to the mailbox is only lost. *)
Theorem C82_survives_refuted :
  fate [EAdd; EWait false; EDone 0; EAdd] = Some (Some "sync: WaitGroup misuse: Add called concurrently with Wait") /\
  fate [EAdd; EWait false; EDone 0; ECheck 0; EClear 0; ERelease 0; EAdd; EAcquire 1; EVerify 1] =
    Some (Some "sync: WaitGroup is reused before previous Wait has returned") /\
  phases [EAdd; EWait true; EDone 0; ECheck 0; EClear 0; ERelease 0; EAdd; EAcquire 1; EVerify 1] =
    Some [Notif (NRelease 0); Reg true WFailed; Notif NIn].
Proof. vm_compute. auto. Qed.
Print Assumptions C82_survives_refuted.

Example C82_example :
  phases [EAdd; EWait false; EAdd; EWait true; ESet 0; EDone 0; EDone 2; ECheck 2; EWait false; EClear 2; ERelease 2; ERelease 2; EAcquire 3; EAcquire 1;
          EVerify 1; EVerify 3; EFlag 1; EFlag 3; EFlag 4; EAdd] =
    Some [Notif (NRelease 0); Reg false (WRead true); Notif (NRelease 0); Reg true (WRead true); Reg false (WRead true); Notif NIn].
Proof. vm_compute. auto. Qed.
