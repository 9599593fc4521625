(** Properties of starting and stopping the mailbox service beside its users. *)
From Coq Require Import ZArith NArith List String Lia.
From stdpp Require Import base tactics gmap list strings.
From Verif Require Import GoBase ServeModel.
Open Scope string_scope.
Open Scope list_scope.

#[local] Instance event_eq : EqDecision event. Proof. solve_decision. Defined.

(** How many visitors entered and left in a history. *)
Definition enters (es : list event) : nat := length (List.filter (fun e => match e with VEnter _ _ => true | _ => false end) es).
Definition leaves (es : list event) : nat := length (List.filter (fun e => match e with VLeave _ => true | _ => false end) es).

(** Visitor [v] is between Lock and Unlock: its last event is that it locked. *)
Definition within (es : list event) (v : nat) : Prop :=
  exists a b web, es = a ++ VEnter v web :: b /\ VLeave v ∉ b.

Lemma run_snoc s es e : run s (es ++ [e]) = match run s es with Some (Ok q) => step q e | x => x end.
Proof.
  revert s. induction es as [|e' es IH]; intros s; cbn [run app].
  - by destruct (step s e) as [[]|].
  - destruct (step s e') as [[]|]; [apply IH|done..].
Qed.

Lemma enters_snoc es e : enters (es ++ [e]) = (enters es + match e with VEnter _ _ => 1 | _ => 0 end)%nat.
Proof. unfold enters. rewrite List.filter_app, app_length. by destruct e. Qed.
Lemma leaves_snoc es e : leaves (es ++ [e]) = (leaves es + match e with VLeave _ => 1 | _ => 0 end)%nat.
Proof. unfold leaves. rewrite List.filter_app, app_length. by destruct e. Qed.

Lemma within_snoc es e v :
  within (es ++ [e]) v <-> (exists web, e = VEnter v web) \/ (within es v /\ e <> VLeave v).
Proof.
  unfold within. split.
  - intros (a & b & web & He & Hb). destruct b as [|b0 b _] using rev_ind.
    + apply app_inj_tail in He as [_ ->]. left. eauto.
    + assert (es ++ [e] = (a ++ VEnter v web :: b) ++ [b0]) as He' by (by rewrite He, <- app_assoc).
      apply app_inj_tail in He' as [-> ->]. right. split; [|set_solver]. exists a, b, web. split; [done|set_solver].
  - intros [(web & ->)|[(a & b & web & -> & Hb) He]].
    + exists es, [], web. split; [done|set_solver].
    + exists a, (b ++ [e]), web. rewrite <- app_assoc. split; [done|]. rewrite elem_of_app, elem_of_list_singleton. intros [|]; [done|congruence].
Qed.

(** Where the goroutine is, by what it did; what the lock is; who is inside. *)
Record inv (es : list event) (s : service) : Prop := {
  iv_reset : VReset ∈ es <-> se_stage s <> Begin;
  iv_make : VMake ∈ es <-> ~ (se_stage s = Begin \/ se_stage s = Fresh);
  iv_ok : VListen true ∈ es <-> se_stage s = Bound true \/ se_stage s = Serving \/ se_stage s = Over;
  iv_bad : VListen false ∈ es <-> se_stage s = Bound false;
  iv_serve : VServe ∈ es <-> se_stage s = Serving \/ se_stage s = Over;
  iv_stop : VStop ∈ es <-> se_stopped s = true;
  iv_stopped : se_stage s = Over -> se_stopped s = true;
  iv_serving : se_stage s = Serving -> se_stopped s = false;
  iv_early : se_stopped s = true -> ~ (se_stage s = Begin \/ se_stage s = Fresh);
  iv_served : se_served s = true -> VServe ∈ es;
  iv_inside : forall v, v ∈ se_inside s <-> within es v;
  iv_before : se_stage s = Begin -> size (se_inside s) = (if se_taken s then 1 else 0)%nat;
  iv_after : se_stage s <> Begin -> exists a b, es = a ++ VReset :: b /\ VReset ∉ a /\ VReset ∉ b /\
    enters b = (leaves b + if se_taken s then 1 else 0)%nat /\
    (exists s0, run launched a = Some (Ok s0) /\ se_stage s0 = Begin /\
       size (se_inside s) = (size (se_inside s0) + if se_taken s then 1 else 0)%nat) }.

Lemma inv_step es s e s' :
  run launched es = Some (Ok s) -> inv es s -> step s e = Some (Ok s') -> inv (es ++ [e]) s'.
Proof.
  intros Hrun [I1 I2 I3 I4 I5 I6 I7 I8 I9 I10 I11 I12 I13] Hs.
  assert (forall x, x ∈ es ++ [e] <-> x ∈ es \/ x = e) as Hin.
  { intros x. by rewrite elem_of_app, elem_of_list_singleton. }
  assert (e <> VReset -> (forall v web, e <> VEnter v web) -> (forall v, e <> VLeave v) ->
    se_inside s' = se_inside s -> se_taken s' = se_taken s -> (se_stage s' = Begin <-> se_stage s = Begin) ->
    (forall v, v ∈ se_inside s' <-> within (es ++ [e]) v) /\
    (se_stage s' = Begin -> size (se_inside s') = (if se_taken s' then 1 else 0)%nat) /\
    (se_stage s' <> Begin -> exists a b, es ++ [e] = a ++ VReset :: b /\ VReset ∉ a /\ VReset ∉ b /\
      enters b = (leaves b + if se_taken s' then 1 else 0)%nat /\
      (exists s0, run launched a = Some (Ok s0) /\ se_stage s0 = Begin /\
         size (se_inside s') = (size (se_inside s0) + if se_taken s' then 1 else 0)%nat))) as Hsame.
  { intros N1 N2 N3 E1 E2 E3. rewrite E1, E2. split; [|split].
    - intros v. rewrite within_snoc, I11. split; [intros H; right; split; [done|apply N3]|].
      intros [(web & He)|[H _]]; [by destruct (N2 v web)|done].
    - intros H. by apply I12, E3.
    - intros H. destruct I13 as (a & b & -> & H1 & H2 & H3 & H4). { by rewrite <- E3. }
      exists a, (b ++ [e]). rewrite <- app_assoc. split; [done|]. split; [done|].
      split. { rewrite elem_of_app, elem_of_list_singleton. intros [|]; [done|congruence]. }
      rewrite enters_snoc, leaves_snoc. split; [|done].
      destruct e; try (by exfalso; eapply N1); try (by exfalso; eapply N2); try (by exfalso; eapply N3); rewrite H3; lia. }
  destruct e as [| |ok| |v web|v|]; cbn [step] in Hs.
  - destruct (se_stage s) eqn:Est; try discriminate Hs. injection Hs as <-.
    split; cbn [se_stage se_stopped se_served se_inside se_taken]; rewrite ?Hin; try (clear I11 I12 I13 Hsame; intuition congruence; fail).
    + intros v. rewrite within_snoc, I11. split; [intros H; by right|]. intros [(? & ?)|[H _]]; done.
    + intros _. exists es, []. split; [done|]. split; [intros H; by apply I1 in H|]. split; [set_solver|]. split; [done|].
      exists s. split; [done|]. split; [done|]. lia.
  - destruct (se_stage s) eqn:Est; try discriminate Hs. injection Hs as <-.
    destruct Hsame as (H1 & H2 & H3); [done| |done|done|done|cbn; intuition congruence|]; [done|].
    split; cbn [se_stage se_stopped se_served se_inside se_taken]; rewrite ?Hin; try done; clear I11 I12 I13 H1 H2 H3; intuition congruence.
  - destruct (se_stage s) eqn:Est; try discriminate Hs. injection Hs as <-.
    destruct Hsame as (H1 & H2 & H3); [done| |done|done|done|cbn; intuition congruence|]; [done|].
    split; cbn [se_stage se_stopped se_served se_inside se_taken]; rewrite ?Hin; try done; clear I11 I12 I13 H1 H2 H3; destruct ok; intuition congruence.
  - destruct (se_stage s) as [| | |[|]| |] eqn:Est; try discriminate Hs. injection Hs as <-.
    destruct Hsame as (H1 & H2 & H3); [done| |done|done|done|cbn; destruct (se_stopped s); intuition congruence|]; [done|].
    split; cbn [se_stage se_stopped se_served se_inside se_taken]; rewrite ?Hin; try done; clear I11 I12 I13 H1 H2 H3; destruct (se_stopped s) eqn:Estop; intuition congruence.
  - destruct (se_taken s) eqn:Et; [discriminate Hs|]. cbn [orb] in Hs. case_bool_decide as Hv; [discriminate Hs|].
    destruct (web && negb (se_served s)) eqn:Ew; [discriminate Hs|]. injection Hs as <-.
    assert (size ({[v]} ∪ se_inside s) = S (size (se_inside s))) as Hsz.
    { rewrite size_union by set_solver. by rewrite size_singleton. }
    split; cbn [se_stage se_stopped se_served se_inside se_taken]; rewrite ?Hin; try (clear I11 I12 I13 Hsame; intuition congruence; fail).
    + intros u. rewrite within_snoc, elem_of_union, elem_of_singleton, I11. split.
      * intros [->|H]; [left; eauto|right; done].
      * intros [(w & He)|[H _]]; [left; congruence|by right].
    + intros H. specialize (I12 H). lia.
    + intros H. destruct (I13 H) as (a & b & -> & H1 & H2 & H3 & s0 & H4 & H5 & H6).
      exists a, (b ++ [VEnter v web]). rewrite <- app_assoc. split; [done|]. split; [done|]. split; [set_solver|].
      rewrite enters_snoc, leaves_snoc. split; [lia|]. exists s0. split; [done|]. split; [done|]. rewrite Hsz. lia.
  - case_bool_decide as Hv; [|discriminate Hs]. destruct (se_taken s) eqn:Et; [|discriminate Hs]. injection Hs as <-.
    assert (size (se_inside s) = S (size (se_inside s ∖ {[v]}))) as Hsz.
    { rewrite (union_difference_L {[v]} (se_inside s)) at 1 by set_solver.
      rewrite size_union by set_solver. by rewrite size_singleton. }
    split; cbn [se_stage se_stopped se_served se_inside se_taken]; rewrite ?Hin; try (clear I11 I12 I13 Hsame; intuition congruence; fail).
    + intros u. rewrite within_snoc, elem_of_difference, elem_of_singleton, I11. split.
      * intros [H Hn]. right. split; [done|congruence].
      * intros [(w & He)|[H Hn]]; [done|]. split; [done|congruence].
    + intros H. specialize (I12 H). lia.
    + intros H. destruct (I13 H) as (a & b & -> & H1 & H2 & H3 & s0 & H4 & H5 & H6).
      exists a, (b ++ [VLeave v]). rewrite <- app_assoc. split; [done|]. split; [done|]. split; [set_solver|].
      rewrite enters_snoc, leaves_snoc. split; [lia|]. exists s0. split; [done|]. split; [done|]. lia.
  - assert (se_stage s' = (if decide (se_stage s = Serving) then Over else se_stage s) /\ se_stopped s' = true /\
      ~ (se_stage s = Begin \/ se_stage s = Fresh) /\ se_inside s' = se_inside s /\ se_taken s' = se_taken s /\ se_served s' = se_served s)
      as (E1 & E2 & E3 & E4 & E5 & E6).
    { destruct (se_stage s) eqn:Est; try discriminate Hs; injection Hs as <-; cbn; repeat split; intuition congruence. }
    destruct Hsame as (H1 & H2 & H3); [done..| |].
    { rewrite E1. destruct (decide _) as [Hd|Hd]; [rewrite Hd; done|done]. }
    split; rewrite ?Hin, ?E2, ?E6; try done; rewrite ?E1; clear I11 I12 I13 H1 H2 H3; destruct (decide _) as [Hd|Hd];
      intuition congruence.
Qed.

Lemma run_inv es s : run launched es = Some (Ok s) -> inv es s.
Proof.
  revert s. induction es as [|e es IH] using rev_ind; intros s H.
  - injection H as <-. split; cbn; try (rewrite elem_of_nil; intuition congruence; fail); try (intuition congruence; fail).
    intros v. split; [intros Hv; by apply elem_of_empty in Hv|]. intros (a & b & web & He & _). by destruct a.
  - pose proof H as H'. rewrite run_snoc in H. destruct (run launched es) as [[s1| |]|] eqn:E; try discriminate H.
    eapply inv_step; [exact E|by apply IH|exact H].
Qed.

(** * The theorems *)

(** What can crash the process: stopping before there is a server; serving when the
    address could not be listened on; and leaving after the lock was replaced while it
    was taken, as soon as as many left as entered since. *)
Theorem C80_crash es s e r :
  run launched es = Some (Ok s) -> step s e = Some r ->
  (is_panic r = true <->
   (e = VStop /\ VMake ∉ es) \/
   (e = VServe /\ VListen false ∈ es) \/
   (exists v a b, e = VLeave v /\ es = a ++ VReset :: b /\ enters b = leaves b)) /\
  (is_panic r = false -> exists s', r = Ok s').
Proof.
  intros Hr Hs. destruct (run_inv es s Hr) as [I1 I2 I3 I4 I5 I6 I7 I8 I9 I10 I11 I12 I13].
  assert (forall a b a' b', a ++ VReset :: b = a' ++ VReset :: b' -> VReset ∉ a' -> VReset ∉ b' -> b = b') as Hsp.
  { clear. induction a as [|x a IH]; intros b [|x' a'] b' H H1 H2; cbn in H; simplify_eq; [done|..].
    - destruct H1. left.
    - destruct H2. set_solver.
    - eapply IH; [done|set_solver|done]. }
  destruct e as [| |ok| |v web|v|]; cbn [step] in Hs.
  - destruct (se_stage s) eqn:Est; try discriminate Hs. injection Hs as <-. split; [|eauto]. split; [done|].
    by intros [[? _]|[[? _]|(? & ? & ? & ? & _)]].
  - destruct (se_stage s) eqn:Est; try discriminate Hs. injection Hs as <-. split; [|eauto]. split; [done|].
    by intros [[? _]|[[? _]|(? & ? & ? & ? & _)]].
  - destruct (se_stage s) eqn:Est; try discriminate Hs. injection Hs as <-. split; [|eauto]. split; [done|].
    by intros [[? _]|[[? _]|(? & ? & ? & ? & _)]].
  - destruct (se_stage s) as [| | |[|]| |] eqn:Est; try discriminate Hs; injection Hs as <-.
    + split; [|eauto]. split; [done|]. intros [[? _]|[[_ H]|(? & ? & ? & ? & _)]]; [done| |done]. by apply I4 in H.
    + split; [|done]. split; [|done]. intros _. right. left. split; [done|]. by apply I4.
  - destruct (se_taken s || _ || _); [discriminate Hs|]. injection Hs as <-. split; [|eauto]. split; [done|].
    by intros [[? _]|[[? _]|(? & ? & ? & ? & _)]].
  - case_bool_decide as Hv; [|discriminate Hs]. destruct (se_taken s) eqn:Et; injection Hs as <-.
    + split; [|eauto]. split; [done|]. intros [[? _]|[[? _]|(? & a & b & _ & He & Hb)]]; [done..|].
      destruct I13 as (a' & b' & He' & H1 & H2 & H3 & _). { apply I1. set_solver. }
      rewrite He in He'. apply Hsp in He'; [|done..]. subst b'. lia.
    + split; [|done]. split; [|done]. intros _. right. right.
      destruct (decide (se_stage s = Begin)) as [Hb|Hb].
      * specialize (I12 Hb). apply size_empty_inv in I12. set_solver.
      * destruct (I13 Hb) as (a & b & He & _ & _ & H & _). exists v, a, b. split; [done|]. split; [done|]. lia.
  - destruct (decide (se_stage s = Begin \/ se_stage s = Fresh)) as [Hd|Hd].
    + assert (is_panic r = true) as Hp by (destruct Hd as [Hd|Hd]; rewrite Hd in Hs; by injection Hs as <-).
      rewrite Hp. split; [|done]. split; [|done]. intros _. left. split; [done|]. rewrite I2. tauto.
    + assert (exists s', r = Ok s') as (s' & ->).
      { destruct (se_stage s) eqn:Est; try (injection Hs as <-; eauto); tauto. }
      split; [|eauto]. split; [done|]. intros [[_ H]|[[? _]|(? & ? & ? & ? & _)]]; [|done..]. tauto.
Qed.
Print Assumptions C80_crash.

(** If nobody holds the lock when it is replaced, there is never more than one visitor
    between Lock and Unlock and leaving never crashes. *)
Theorem C80_exclusion es a b s :
  run launched es = Some (Ok s) -> es = a ++ VReset :: b -> (forall v, ~ within a v) ->
  (forall v v', within es v -> within es v' -> v = v') /\
  (forall v, within es v -> exists s', step s (VLeave v) = Some (Ok s')).
Proof.
  intros Hr -> Ha. destruct (run_inv _ s Hr) as [I1 I2 I3 I4 I5 I6 I7 I8 I9 I10 I11 I12 I13].
  destruct I13 as (a' & b' & He & H1 & H2 & _ & s0 & H4 & H5 & H6). { apply I1. set_solver. }
  assert (a = a') as <-.
  { clear -He H1 H2. revert a' He H1. induction a as [|x a IH]; intros [|x' a'] He H1; cbn in He; simplify_eq; [done|..].
    - destruct H1. left.
    - destruct H2. set_solver.
    - f_equal. apply IH; [done|set_solver]. }
  assert (size (se_inside s0) = 0%nat) as Hz.
  { apply size_empty_iff. intros v. rewrite (iv_inside _ _ (run_inv a s0 H4) v). set_solver. }
  rewrite Hz in H6. split.
  - intros v v' Hv Hv'. apply I11 in Hv, Hv'. destruct (decide (v = v')) as [|Hne]; [done|]. exfalso.
    assert (size ({[v; v']} : gset nat) <= size (se_inside s))%nat as Hle by (apply subseteq_size; set_solver).
    rewrite size_union, !size_singleton in Hle by set_solver. destruct (se_taken s); cbn in *; lia.
  - intros v Hv. cbn [step]. apply I11 in Hv. rewrite bool_decide_true by done. destruct (se_taken s); [eauto|].
    apply size_empty_inv in H6. set_solver.
Qed.
Print Assumptions C80_exclusion.

(** If somebody does, the process lives only as long as somebody stays inside: it
    crashes at the latest when the last one leaves. *)
Theorem C80_doomed es a b s v :
  run launched es = Some (Ok s) -> es = a ++ VReset :: b -> within a v -> exists u, within es u.
Proof.
  intros Hr -> Ha. destruct (run_inv _ s Hr) as [I1 I2 I3 I4 I5 I6 I7 I8 I9 I10 I11 I12 I13].
  destruct I13 as (a' & b' & He & H1 & H2 & _ & s0 & H4 & H5 & H6). { apply I1. set_solver. }
  assert (a = a') as <-.
  { clear -He H1 H2. revert a' He H1. induction a as [|x a IH]; intros [|x' a'] He H1; cbn in He; simplify_eq; [done|..].
    - destruct H1. left.
    - destruct H2. set_solver.
    - f_equal. apply IH; [done|set_solver]. }
  apply (iv_inside _ _ (run_inv a s0 H4)) in Ha.
  assert (size (se_inside s) <> 0%nat) as Hz.
  { assert (size (se_inside s0) <> 0%nat); [|lia]. intros Hz. apply size_empty_inv in Hz. set_solver. }
  apply size_non_empty_iff in Hz. apply set_choose in Hz as (u & Hu). exists u. by apply I11.
Qed.
Print Assumptions C80_doomed.

(** Requests are handled only after the tables were made, so none is lost by that, and
    only if the address could be listened on. *)
Theorem C80_requests es s v a b :
  run launched es = Some (Ok s) -> es = a ++ VEnter v true :: b -> VReset ∈ a /\ VListen true ∈ a /\ VServe ∈ a.
Proof.
  intros Hr ->.
  assert (forall l l' s0 s1, run s0 (l ++ l') = Some (Ok s1) -> exists s2, run s0 l = Some (Ok s2) /\ run s2 l' = Some (Ok s1)) as Hcut.
  { clear. induction l as [|e l IH]; intros l' s0 s1 H; cbn [run app] in *; [eauto|].
    destruct (step s0 e) as [[s2| |]|]; try discriminate H. by apply IH. }
  apply Hcut in Hr as (s0 & Hr0 & Hr). cbn [run step] in Hr.
  destruct (se_served s0) eqn:Esv.
  - destruct (run_inv a s0 Hr0) as [I1 I2 I3 I4 I5 I6 I7 I8 I9 I10 I11 I12 I13]. specialize (I10 Esv).
    split; [|split]; [| |done].
    + apply I1. apply I5 in I10. intuition congruence.
    + apply I3. apply I5 in I10. tauto.
  - destruct (se_taken s0 || _); cbn in Hr; discriminate Hr.
Qed.
Print Assumptions C80_requests.

(** The address is listened on exactly from a successful listen until both Serve and
    stop were called; so stopping releases it, at once or as soon as Serve is reached.
    Requests are accepted exactly while Serve was called and stop was not. *)
Theorem C80_listening es s :
  run launched es = Some (Ok s) ->
  (listening s = true <-> VListen true ∈ es /\ ~ (VServe ∈ es /\ VStop ∈ es)) /\
  (se_stage s = Serving <-> VServe ∈ es /\ VStop ∉ es).
Proof.
  intros Hr. destruct (run_inv es s Hr) as [I1 I2 I3 I4 I5 I6 I7 I8 I9 I10 I11 I12 I13].
  rewrite I3, I5, I6. unfold listening. clear I1 I2 I4 I9 I10 I11 I12 I13. split.
  - destruct (se_stage s) as [| | |[|]| |] eqn:Est; intuition congruence.
  - destruct (se_stage s) eqn:Est; intuition congruence.
Qed.
Print Assumptions C80_listening.

(** * Examples *)

Definition crashes (es : list event) : bool := match run launched es with Some (Panic _) => true | _ => false end.
Definition goes_well (es : list event) : bool := match run launched es with Some (Ok _) => true | _ => false end.
Definition stage_of (es : list event) : option stage := match run launched es with Some (Ok s) => Some (se_stage s) | _ => None end.

(** An address that is in use crashes the node, though the error is only logged; so does
    closing the node right after its start. *)
Theorem C80_survives_refuted :
  crashes [VReset; VMake; VListen false; VServe] = true /\
  crashes [VReset; VMake; VListen false; VStop; VServe] = true /\
  crashes [VStop] = true /\ crashes [VReset; VStop] = true.
Proof. vm_compute. auto. Qed.
Print Assumptions C80_survives_refuted.

(** An envelope routed while the service starts can let two into the tables at once and
    crash the node. *)
Theorem C80_exclusion_refuted :
  goes_well [VEnter 1 false; VReset; VEnter 2 false] = true /\
  crashes [VEnter 1 false; VReset; VLeave 1] = true /\
  crashes [VEnter 1 false; VReset; VEnter 2 false; VLeave 2; VLeave 1] = true.
Proof. vm_compute. auto. Qed.
Print Assumptions C80_exclusion_refuted.

Example C80_example :
  stage_of [VEnter 1 false; VLeave 1; VReset; VMake; VEnter 1 false; VListen true; VLeave 1; VServe; VEnter 2 true; VLeave 2] = Some Serving /\
  stage_of [VReset; VMake; VStop; VListen true] = Some (Bound true) /\
  stage_of [VReset; VMake; VStop; VListen true; VServe] = Some Over /\
  goes_well [VReset; VMake; VListen true; VServe; VEnter 2 true; VStop; VLeave 2; VEnter 3 false; VLeave 3] = true /\
  run launched [VReset; VMake; VListen true; VEnter 2 true] = None.
Proof. vm_compute. auto. Qed.
