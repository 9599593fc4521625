(** Properties of the node's connection to its own agent: C63. *)
From Coq Require Import ZArith NArith List String Ascii Lia.
From stdpp Require Import base tactics list strings.
From Verif Require Import GoBase Bytes Utf8 WireModel ProtoModel AcnModel PipeModel.
Open Scope string_scope.
Open Scope list_scope.
Open Scope Z_scope.

(** The envelopes read from the agent under the address of its record, in order. *)
Definition from_agent (record : string) (evs : list napi_event) : list envelope :=
  omap (fun ev => match ev with
                  | NRead (Ok (HEnvelope e)) => if String.eqb (e_sender e) record then Some e else None
                  | _ => None
                  end) evs.
Definition puts (evs : list napi_event) : list envelope :=
  omap (fun ev => match ev with NPut e => Some e | _ => None end) evs.
(** Envelopes under way. *)
Definition listening (s : napi) : list envelope := match na_listener s with LPut e => [e] | _ => [] end.
Definition sending (s : napi) : list envelope := match na_sender s with SBusy e => [e] | _ => [] end.

(** How the phases of the listener and the flags go together. *)
Definition napi_inv (s : napi) : Prop :=
  na_standalone s = false /\
  na_out_closed s = match na_listener s with LStopSend | LEnd => true | _ => false end /\
  na_send_closed s = match na_listener s with LEnd => true | _ => false end /\
  na_closing s = match na_listener s with LStopOut | LStopSend | LEnd => true | _ => false end.

Lemma napi_spec record s evs s' :
  napi_inv s -> na_record s = Some record -> napi_run s evs = Some (Ok s') ->
  napi_inv s' /\ na_record s' = Some record /\
  na_routed s' ++ na_out s' ++ listening s' = na_routed s ++ na_out s ++ listening s ++ from_agent record evs /\
  na_put s' = na_put s ++ puts evs /\
  (map fst (na_sent s) ++ sending s ++ omap id (na_send s) = na_put s ->
   map fst (na_sent s') ++ sending s' ++ omap id (na_send s') = na_put s').
Proof.
  revert s. induction evs as [|ev evs IH]; intros s Hi Hrec.
  { intros [= <-]. cbn. by rewrite !app_nil_r. }
  cbn [napi_run]. destruct (napi_step s ev) as [[s1|x|x]|] eqn:Es; try done. intros Hr.
  assert (H : napi_inv s1 /\ na_record s1 = Some record /\
    na_routed s1 ++ na_out s1 ++ listening s1 = na_routed s ++ na_out s ++ listening s ++ from_agent record [ev] /\
    na_put s1 = na_put s ++ puts [ev] /\
    (map fst (na_sent s) ++ sending s ++ omap id (na_send s) = na_put s ->
     map fst (na_sent s1) ++ sending s1 ++ omap id (na_send s1) = na_put s1)).
  2:{ destruct H as (H1 & H2 & H3 & H4 & H5). destruct (IH _ H1 H2 Hr) as (H6 & H7 & H8 & H9 & H10).
      split; [done|]. split; [done|].
      assert (E1 : from_agent record (ev :: evs) = from_agent record [ev] ++ from_agent record evs)
        by (unfold from_agent; by rewrite <- omap_app).
      assert (E2 : puts (ev :: evs) = puts [ev] ++ puts evs) by (unfold puts; by rewrite <- omap_app).
      rewrite E1, E2, H8. split; [|split; [by rewrite H9, H4, app_assoc|auto]].
      rewrite (app_assoc (na_out s1)), (app_assoc (na_routed s1)), H3. by rewrite !app_assoc. }
  clear IH Hr. destruct s as [standalone rec l out oc sn send sc cl routed put sent].
  destruct Hi as (I1 & I2 & I3 & I4). cbn in I1, I2, I3, I4, Hrec. subst standalone rec oc sc cl.
  unfold napi_inv, listening, sending, from_agent, puts.
  destruct ev as [h| | |e| |ok]; cbn in Es.
  - destruct l; try done. destruct h as [h|x|x]; try done.
    destruct (after_read (Some record) h) as [l1|x|x] eqn:Ea; try done. injection Es as <-.
    unfold after_read in Ea. destruct h as [e|st| |]; injection Ea as <-; cbn; rewrite ?app_nil_r; try done.
    destruct (String.eqb (e_sender e) record); cbn; rewrite ?app_nil_r; done.
  - destruct l; try done.
    + match type of Es with context [if ?b then _ else _] => destruct b; [|done] end. injection Es as <-. cbn.
      rewrite !app_nil_r. done.
    + match type of Es with context [if ?b then _ else _] => destruct b; [|done] end. injection Es as <-. cbn.
      rewrite !app_nil_r. repeat split; try done. rewrite omap_app. cbn. by rewrite app_nil_r.
    + injection Es as <-. cbn. rewrite !app_nil_r. done.
    + injection Es as <-. cbn. rewrite !app_nil_r. done.
    + injection Es as <-. cbn. rewrite !app_nil_r. done.
  - destruct out as [|e out]; [done|]. injection Es as <-. cbn. rewrite !app_nil_r. rewrite <- app_assoc. done.
  - match type of Es with context [if ?b then Some (Panic _) else _] => destruct b eqn:El; [done|] end.
    match type of Es with context [if ?b then _ else _] => destruct b; [|done] end. injection Es as <-. cbn.
    rewrite !app_nil_r. repeat split; try done. intros H. rewrite omap_app. cbn. rewrite <- H. by rewrite !app_assoc.
  - destruct sn; try done. destruct send as [|[e|] send].
    + match type of Es with context [if ?b then _ else _] => destruct b eqn:El; [|done] end. injection Es as <-. cbn.
      rewrite !app_nil_r. done.
    + injection Es as <-. cbn. rewrite !app_nil_r. done.
    + injection Es as <-. cbn. rewrite !app_nil_r. done.
  - destruct sn as [|e|]; try done. injection Es as <-. cbn. rewrite !app_nil_r. repeat split; try done.
    intros <-. rewrite map_app. cbn. rewrite <- app_assoc. by destruct l.
Qed.

Lemma napi0_inv record : napi_inv (napi0 false record).
Proof. done. Qed.

(** What was routed, what is queued for it and the envelope about to be queued are
    together exactly the envelopes the agent sent under the address of its record, in
    order. *)
Theorem C63_routed record evs s :
  napi_run (napi0 false (Some record)) evs = Some (Ok s) ->
  na_routed s ++ na_out s ++ listening s = from_agent record evs.
Proof. intros H. apply (napi_spec record) in H as (_ & _ & H & _); [done|apply napi0_inv|done]. Qed.
Print Assumptions C63_routed.

(** Put takes every envelope and the send loop handles them in that order, each once;
    what comes of it is not reported. *)
Theorem C63_sent record evs s :
  napi_run (napi0 false (Some record)) evs = Some (Ok s) ->
  map fst (na_sent s) ++ sending s ++ omap id (na_send s) = puts evs.
Proof. intros H. apply (napi_spec record) in H as (_ & _ & _ & H1 & H2); [|apply napi0_inv|done]. cbn in *. rewrite <- H1. auto. Qed.
Print Assumptions C63_sent.

(** After the pipe to the agent failed the listener ends for good, and from then on
    every Put crashes the node. *)
Theorem C63_crash record evs s e :
  napi_run (napi0 false (Some record)) evs = Some (Ok s) -> na_listener s = LEnd ->
  (forall rest s', napi_run s rest = Some (Ok s') -> na_listener s' = LEnd) /\
  exists x, napi_step s (NPut e) = Some (Panic x).
Proof.
  intros H Hl. apply (napi_spec record) in H as (Hi & _); [|apply napi0_inv|done].
  split.
  - intros rest. clear Hi. revert s Hl. induction rest as [|ev rest IH]; intros s Hl s'; [by intros [= <-]|]. cbn.
    destruct (napi_step s ev) as [[s1|x|x]|] eqn:Es; try done. apply IH.
    destruct s as [standalone rec l out oc sn send sc cl routed put sent]. cbn in Hl. subst l.
    destruct ev as [h| | |e'| |ok]; cbn in Es; try done.
    + destruct out; [done|]. by injection Es as <-.
    + destruct standalone; [by injection Es as <-|]. destruct sc; [done|].
      match type of Es with context [if ?b then _ else _] => destruct b; [|done] end. by injection Es as <-.
    + destruct sn; try done. destruct send as [|[?|] ?]; [destruct sc; [|done]|..]; by injection Es as <-.
    + destruct sn; try done. by injection Es as <-.
  - destruct Hi as (H1 & _ & H2 & _). rewrite Hl in H2.
    destruct s as [standalone rec l out oc sn send sc cl routed put sent]. cbn in *. subst. eauto.
Qed.
Print Assumptions C63_crash.

(** It crashes in no other way if the agent has a record, and only after a read from the
    pipe failed; and it does end up there: from the failed read the steps of the
    listener lead to the end unless the send queue is full. *)
Theorem C63_safe record evs ev x s :
  napi_run (napi0 false (Some record)) evs = Some (Ok s) -> napi_step s ev = Some (Panic x) ->
  ev = NRead (Panic x) \/ (exists e, ev = NPut e) /\ na_listener s = LEnd.
Proof.
  intros H Hs. apply (napi_spec record) in H as (Hi & Hr & _); [|apply napi0_inv|done].
  destruct Hi as (I1 & I2 & I3 & I4).
  destruct s as [standalone rec l out oc sn send sc cl routed put sent]. cbn in *. subst.
  destruct ev as [h| | |e| |ok]; cbn in Hs.
  - destruct l; try done. destruct h as [h|y|y]; try done; [|injection Hs as <-; by left].
    by destruct h.
  - destruct l; try done; match type of Hs with context [if ?b then _ else _] => destruct b; done end.
  - by destruct out.
  - destruct l; try (match type of Hs with context [if ?b then _ else _] => destruct b; done end). right. eauto.
  - destruct sn; try done. destruct send as [|[?|] ?]; try done. by destruct l.
  - by destruct sn.
Qed.
Print Assumptions C63_safe.

Theorem C63_pipe_error record evs s :
  napi_run (napi0 false (Some record)) evs = Some (Ok s) ->
  (na_listener s = LEnd -> In (NRead (Ok HPipeError)) evs) /\
  (na_listener s = LRead -> (length (na_send s) < 100)%nat ->
   exists s', napi_run s [NRead (Ok HPipeError); NListen; NListen; NListen; NListen] = Some (Ok s') /\ na_listener s' = LEnd).
Proof.
  intros H. split.
  - assert (Hgen : forall s0, napi_run s0 evs = Some (Ok s) -> na_listener s0 = LRead \/ (exists e, na_listener s0 = LPut e) /\ na_closing s0 = false ->
       na_closing s0 = false -> na_listener s = LEnd -> In (NRead (Ok HPipeError)) evs).
    2:{ intros Hl. eapply Hgen; [done|by left|done|done]. }
    clear H. induction evs as [|ev evs IH]; intros s0 H Hl Hc Hend.
    { injection H as ->. destruct Hl as [?|[[? ?] _]]; congruence. }
    cbn in H. destruct (napi_step s0 ev) as [[s1|x|x]|] eqn:Es; try done.
    assert (Hd : ev = NRead (Ok HPipeError) \/ ev <> NRead (Ok HPipeError))
      by (destruct ev as [[[| | |]|?|?]| | | | |]; auto; by right).
    destruct Hd as [->|Hne]; [by left|]. right.
    enough (Hn : (na_listener s1 = LRead \/ (exists e, na_listener s1 = LPut e) /\ na_closing s1 = false) /\ na_closing s1 = false)
      by (destruct Hn; by apply (IH s1)).
    destruct s0 as [standalone rec l out oc sn send sc cl routed put sent]. cbn in Hl, Hc. subst cl.
    assert (Hl' : l = LRead \/ exists e, l = LPut e) by (destruct Hl as [?|[? _]]; auto). clear Hl.
    destruct ev as [h| | |e'| |ok]; cbn in Es.
    + destruct l; try done. destruct h as [h|y|y]; try done.
      destruct (after_read rec h) as [l1|y|y] eqn:Ea; try done. injection Es as <-. cbn. split; [|done].
      unfold after_read in Ea. destruct h; try (injection Ea as <-; by left).
      destruct rec; [|done]. injection Ea as <-. destruct (String.eqb _ _); [right; eauto|by left].
    + destruct Hl' as [->|[e ->]]; [done|]. destruct oc; [done|].
      match type of Es with context [if ?b then _ else _] => destruct b; [|done] end. injection Es as <-. cbn. auto.
    + destruct out; [done|]. injection Es as <-. cbn. split; [|done]. destruct Hl' as [->|[e1 ->]]; eauto.
    + destruct standalone; [injection Es as <-; cbn; split; [|done]; destruct Hl' as [->|[e1 ->]]; eauto|]. destruct sc; [done|].
      match type of Es with context [if ?b then _ else _] => destruct b; [|done] end. injection Es as <-. cbn. split; [|done].
      destruct Hl' as [->|[e1 ->]]; eauto.
    + destruct sn; try done. destruct send as [|[?|] ?]; [destruct sc; [|done]|..]; injection Es as <-; cbn; (split; [|done]);
        destruct Hl' as [->|[e1 ->]]; eauto.
    + destruct sn; try done. injection Es as <-. cbn. split; [|done]. destruct Hl' as [->|[e1 ->]]; eauto.
  - intros Hl Hq. apply (napi_spec record) in H as ((I1 & I2 & I3 & I4) & Hr & _); [|apply napi0_inv|done].
    destruct s as [standalone rec l out oc sn send sc cl routed put sent]. cbn in *. subst.
    assert (Eq : (length send <? queue_size)%nat = true) by (apply Nat.ltb_lt; unfold queue_size; lia).
    cbn [napi_run napi_step after_read]. rewrite Eq. cbn [napi_run napi_step]. eexists. split; reflexivity.
Qed.
Print Assumptions C63_pipe_error.

(** An agent without a record crashes the node with its first envelope. *)
Theorem C63_no_record evs s e :
  napi_run (napi0 false None) evs = Some (Ok s) -> na_listener s = LRead ->
  exists x, napi_step s (NRead (Ok (HEnvelope e))) = Some (Panic x).
Proof.
  intros H Hl. assert (Hrec : na_record s = None).
  { assert (Hgen : forall s0, napi_run s0 evs = Some (Ok s) -> na_record s0 = None -> na_record s = None); [|by eapply Hgen].
    clear. induction evs as [|ev evs IH]; intros s0; [by intros [= ->]|]. cbn.
    destruct (napi_step s0 ev) as [[s1|x|x]|] eqn:Es; try done. intros H Hn. apply (IH s1); [done|].
    destruct s0 as [standalone rec l out oc sn send sc cl routed put sent]. cbn in Hn. subst rec.
    destruct ev as [h| | |e'| |ok]; cbn in Es.
    - destruct l; try done. destruct h as [h|y|y]; try done. by destruct (after_read None h); [injection Es as <-|..].
    - destruct l; try done; repeat (match type of Es with context [if ?b then _ else _] => destruct b end; try done); by injection Es as <-.
    - destruct out; [done|]. by injection Es as <-.
    - repeat (match type of Es with context [if ?b then _ else _] => destruct b end; try done); by injection Es as <-.
    - destruct sn; try done. destruct send as [|[?|] ?]; [destruct sc; [|done]|..]; by injection Es as <-.
    - destruct sn; try done. by injection Es as <-. }
  destruct s as [standalone rec l out oc sn send sc cl routed put sent]. cbn in *. subst. eauto.
Qed.
Print Assumptions C63_no_record.

(** Without an agent nothing is ever queued, routed or sent, and nothing crashes. *)
Theorem C63_standalone record evs r :
  napi_run (napi0 true record) evs = Some r -> r = Ok (napi0 true record).
Proof.
  induction evs as [|ev evs IH]; [by intros [= <-]|].
  destruct ev; cbn [napi_run napi_step napi0]; try done; apply IH.
Qed.
Print Assumptions C63_standalone.

Definition hi : envelope := Envelope "you" "me" "p" [] "".
Definition forged : envelope := Envelope "you" "eve" "p" [] "".
Example C63_example :
  (match napi_run (napi0 false (Some "me"))
     [NRead (Ok (HEnvelope hi)); NListen; NRead (Ok (HEnvelope forged)); NTake; NPut forged; NNext; NSent false; NRead (Ok HError)] with
   | Some (Ok s) => na_routed s = [hi] /\ na_sent s = [(forged, false)] /\ na_out s = [] /\ na_listener s = LRead
   | _ => False end) /\
  (match napi_run (napi0 false (Some "me")) [NRead (Ok HPipeError); NListen; NListen; NListen; NListen; NNext] with
   | Some (Ok s) => na_listener s = LEnd /\ na_sender s = SEnd
   | _ => False end) /\
  napi_run (napi0 false (Some "me")) [NRead (Ok HPipeError); NListen; NListen; NListen; NListen; NPut hi] =
    Some (Panic "send on closed channel").
Proof. vm_compute. done. Qed.
