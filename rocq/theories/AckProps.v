(** Properties of delivery statuses (C33, C59). *)
From Coq Require Import ZArith NArith List String Ascii Lia.
From stdpp Require Import base tactics gmap list strings.
From Verif Require Import GoBase Bytes ProtoModel PorModel AckModel.
Open Scope string_scope.
Open Scope list_scope.
Open Scope Z_scope.

(** Statuses in order of arrival, and waits in order of their end ([true]: the wait
    got a status). *)
Definition arrivals (evs : list ack_event) : list status_body :=
  omap (fun ev => match ev with Arrive s => Some s | _ => None end) evs.
Definition waits (evs : list ack_event) : list bool :=
  omap (fun ev => match ev with Take => Some true | Timeout => Some false | _ => None end) evs.
Definition timeouts (ws : list bool) : nat := length (filter (fun b => b = false) ws).

(** What a status says. *)
Definition says (s : status_body) : res unit := if sb_code s =? 0 then Ok tt else Err "bad status".

Lemma ack_run_app_items cap evs : forall q q' outs,
  ack_run cap q evs = Some (q', outs) -> q_closed q = false -> ~ In CloseQueue evs ->
  length outs = length (waits evs) /\
  (forall i, waits evs !! i = Some true ->
     exists s, (q_items q ++ arrivals evs) !! (i - timeouts (take i (waits evs)))%nat = Some s /\
       outs !! i = Some (says s)) /\
  (forall i, waits evs !! i = Some false -> outs !! i = Some (Err "ACN send acknowledge timeout")) /\
  q_items q' = drop (length (waits evs) - timeouts (waits evs)) (q_items q ++ arrivals evs) /\
  (length (waits evs) - timeouts (waits evs) <= length (q_items q ++ arrivals evs))%nat.
Proof.
  assert (forall l, timeouts l <= length l)%nat as Ht.
  { intros l. unfold timeouts. apply filter_length. }
  induction evs as [|ev evs IH]; intros q q' outs H Hc Hn.
  - cbn in H. injection H as <- <-. cbn. repeat split; try done; try lia. by rewrite app_nil_r.
  - cbn [ack_run] in H. destruct (ack_step cap q ev) as [[q1 o]|] eqn:Es; [|done].
    destruct (ack_run cap q1 evs) as [[q2 os]|] eqn:Er; [|done]. injection H as <- <-.
    assert (~ In CloseQueue evs) as Hn' by (intros ?; apply Hn; by right).
    destruct ev as [s| | |]; cbn [ack_step] in Es; [| | |by destruct Hn; left].
    + rewrite Hc in Es. destruct (_ <? _)%nat; [|done]. injection Es as <- <-.
      destruct (IH _ _ _ Er) as (H1 & H2 & H3 & H4 & H5); [done|done|].
      cbn [waits arrivals omap list_omap] in *. cbn [q_items] in *.
      change (omap (fun ev => match ev with Arrive s => Some s | _ => None end) evs) with (arrivals evs) in *.
      change (omap (fun ev => match ev with Take => Some true | Timeout => Some false | _ => None end) evs)
        with (waits evs) in *.
      rewrite <- app_assoc in *. cbn [app] in *. done.
    + destruct (q_items q) as [|s l] eqn:Eq; [by rewrite Hc in Es|]. injection Es as <- <-.
      destruct (IH _ _ _ Er) as (H1 & H2 & H3 & H4 & H5); [done|done|].
      change (waits (Take :: evs)) with (true :: waits evs).
      change (arrivals (Take :: evs)) with (arrivals evs). cbn [q_items] in *.
      assert (forall l, timeouts (true :: l) = timeouts l) as Hf by done.
      pose proof (Ht (waits evs)).
      split; [cbn; lia|]. split; [|split; [|split]].
      * intros [|i] Hi.
        -- exists s. cbn. split; [done|]. unfold ack_outcome, SUCCESS, says. done.
        -- cbn in Hi. destruct (H2 i Hi) as (s' & Hs & Ho). exists s'. cbn [take]. rewrite Hf. split; [|done].
           pose proof (Ht (take i (waits evs))) as Hi'. rewrite take_length in Hi'.
           apply lookup_lt_Some in Hi.
           replace (S i - timeouts (take i (waits evs)))%nat with (S (i - timeouts (take i (waits evs)))) by lia.
           done.
      * intros [|i] Hi; [done|]. apply (H3 i Hi).
      * rewrite H4, Hf. cbn [length]. replace (S (length (waits evs)) - timeouts (waits evs))%nat with
          (S (length (waits evs) - timeouts (waits evs))) by lia. done.
      * rewrite Hf. cbn [length app]. lia.
    + injection Es as <- <-.
      destruct (IH _ _ _ Er) as (H1 & H2 & H3 & H4 & H5); [done|done|].
      change (waits (Timeout :: evs)) with (false :: waits evs).
      change (arrivals (Timeout :: evs)) with (arrivals evs).
      assert (forall l, timeouts (false :: l) = S (timeouts l)) as Hf by done.
      pose proof (Ht (waits evs)).
      split; [cbn; lia|]. split; [|split; [|split]].
      * intros [|i] Hi; [done|]. cbn in Hi. destruct (H2 i Hi) as (s' & Hs & Ho). exists s'.
        cbn [take]. rewrite Hf. split; [|done].
        replace (S i - S (timeouts (take i (waits evs))))%nat with (i - timeouts (take i (waits evs)))%nat by lia.
        done.
      * intros [|i] Hi; [done|]. apply (H3 i Hi).
      * rewrite H4, Hf. cbn [length]. done.
      * rewrite Hf. cbn [length]. lia.
Qed.

(** ** C33 *)

(** The [i]-th wait on a connection either times out or reports what the status says
    that arrived at position [i] minus the number of earlier timeouts. *)
Theorem C33_attribution cap evs q outs i :
  ack_run cap (AckQ [] false) evs = Some (q, outs) -> ~ In CloseQueue evs ->
  match waits evs !! i with
  | Some true =>
      exists s, arrivals evs !! (i - timeouts (take i (waits evs)))%nat = Some s /\
        outs !! i = Some (says s)
  | Some false => outs !! i = Some (Err "ACN send acknowledge timeout")
  | None => outs !! i = None
  end.
Proof.
  intros H Hn. destruct (ack_run_app_items _ _ _ _ _ H eq_refl Hn) as (H1 & H2 & H3 & _).
  destruct (waits evs !! i) as [[]|] eqn:E.
  - by apply H2.
  - by apply H3.
  - apply lookup_ge_None in E. apply lookup_ge_None. lia.
Qed.
Print Assumptions C33_attribution.

Definition got_status (o : res unit) : bool :=
  match o with Err e => negb (String.eqb e "ACN send acknowledge timeout") | _ => true end.

(** Statuses are neither lost, duplicated nor reordered: those not reported yet are
    still queued. *)
Theorem C33_fifo cap evs q outs :
  ack_run cap (AckQ [] false) evs = Some (q, outs) -> ~ In CloseQueue evs ->
  exists taken, arrivals evs = taken ++ q_items q /\
    map says taken = List.filter got_status outs.
Proof.
  revert outs q. induction evs as [|ev evs IH] using rev_ind; intros outs q H Hn.
  - cbn in H. injection H as <- <-. by exists [].
  - assert (forall l q0 q2 os2, ack_run cap q0 (l ++ [ev]) = Some (q2, os2) ->
      exists q1 os1 o, ack_run cap q0 l = Some (q1, os1) /\ ack_step cap q1 ev = Some (q2, o) /\
        os2 = os1 ++ o) as Hsplit.
    { clear. induction l as [|e l IH]; intros q0 q2 os2 H.
      - cbn in H. destruct (ack_step cap q0 ev) as [[q1 o]|] eqn:E; [|done].
        injection H as <- <-. exists q0, [], o. rewrite app_nil_r. done.
      - cbn in H. destruct (ack_step cap q0 e) as [[q1 o]|] eqn:E; [|done].
        destruct (ack_run cap q1 (l ++ [ev])) as [[q3 os3]|] eqn:E3; [|done]. injection H as <- <-.
        destruct (IH _ _ _ E3) as (q4 & os4 & o4 & H1 & H2 & ->).
        exists q4, (o ++ os4), o4. cbn. rewrite E, H1. split; [done|]. split; [done|]. by rewrite app_assoc. }
    destruct (Hsplit _ _ _ _ H) as (q1 & os1 & o & H1 & H2 & ->). clear Hsplit.
    assert (~ In CloseQueue evs) as Hn1 by (intros ?; apply Hn, in_app_iff; by left).
    destruct (IH _ _ H1 Hn1) as (taken & Ha & Hm).
    assert (q_closed q1 = false) as Hc.
    { clear - H1 Hn1. assert (forall l q0 q2 os, q_closed q0 = false -> ~ In CloseQueue l ->
        ack_run cap q0 l = Some (q2, os) -> q_closed q2 = false) as Hx; [|by eapply Hx in H1].
      clear. induction l as [|e l IH]; intros q0 q2 os H0 Hn H; [by injection H as <- <-|].
      cbn in H. destruct (ack_step cap q0 e) as [[q1 o]|] eqn:E; [|done].
      destruct (ack_run cap q1 l) as [[q3 os3]|] eqn:E3; [|done]. injection H as <- <-.
      eapply (IH _ _ _ _ _ E3). Unshelve. 2:{ intros ?; apply Hn; by right. }
      destruct e; cbn in E; rewrite ?H0 in E; repeat case_match; simplify_eq/=; try done.
      destruct Hn. by left. }
    unfold arrivals. rewrite omap_app. fold (arrivals evs). rewrite Ha, List.filter_app, <- Hm.
    destruct ev as [s| | |]; cbn [ack_step] in H2.
    + rewrite Hc in H2. destruct (_ <? _)%nat; [|done]. injection H2 as <- <-. exists taken.
      cbn. rewrite <- app_assoc. split; [done|]. by rewrite app_nil_r.
    + destruct (q_items q1) as [|s l] eqn:Eq; [by rewrite Hc in H2|]. injection H2 as <- <-.
      exists (taken ++ [s]). cbn. rewrite app_nil_r, <- app_assoc. split; [done|].
      rewrite map_app. f_equal. cbn. unfold ack_outcome, says, SUCCESS.
      destruct (sb_code s =? 0); done.
    + injection H2 as <- <-. exists taken. cbn. rewrite !app_nil_r. done.
    + destruct Hn. apply in_app_iff. right. by left.
Qed.
Print Assumptions C33_fifo.

(** Without timeouts and with one sender at a time every report is about its own
    envelope, provided the other side answers each envelope in order. *)
Theorem C33_no_timeout cap evs q outs i :
  ack_run cap (AckQ [] false) evs = Some (q, outs) -> ~ In CloseQueue evs -> ~ In Timeout evs ->
  (i < length (waits evs))%nat ->
  exists s, arrivals evs !! i = Some s /\ outs !! i = Some (says s).
Proof.
  intros H Hn Ht Hi. pose proof (C33_attribution _ _ _ _ i H Hn) as Ha.
  assert (forall j, waits evs !! j <> Some false) as Hf.
  { intros j Hj. apply elem_of_list_lookup_2 in Hj. unfold waits in Hj.
    apply elem_of_list_omap in Hj as (ev & Hev & E). apply elem_of_list_In in Hev. by destruct ev. }
  destruct (lookup_lt_is_Some_2 _ _ Hi) as [[] E]; [|by destruct (Hf i)].
  rewrite E in Ha. replace (timeouts (take i (waits evs))) with 0%nat in Ha; [by rewrite Nat.sub_0_r in Ha|].
  unfold timeouts. symmetry. apply length_zero_iff_nil.
  destruct (filter _ _) as [|b l] eqn:Ef; [done|]. exfalso.
  assert (b ∈ filter (fun b => b = false) (take i (waits evs))) as Hb by (rewrite Ef; by left).
  apply elem_of_list_filter in Hb as [-> Hb]. apply elem_of_take in Hb as (j & Hj & _). by apply (Hf j).
Qed.
Print Assumptions C33_no_timeout.

(** After a timeout a success can be reported for an envelope that was refused: the
    answers are success for the first and an error for the second envelope, the first
    wait times out, and the second sender is told "success". *)
Theorem C33_own_status_refuted :
  exists evs q outs s0 s1,
    ack_run 1000 (AckQ [] false) evs = Some (q, outs) /\ ~ In CloseQueue evs /\
    arrivals evs = [s0; s1] /\ waits evs = [false; true] /\
    says s0 = Ok tt /\ is_err (says s1) = true /\ outs !! 1%nat = Some (Ok tt).
Proof.
  exists [Timeout; Arrive (StatusBody 0 []); Arrive (StatusBody 21 ["e"]); Take].
  eexists _, _, _, _. split; [vm_compute; reflexivity|]. split; [cbn; intuition discriminate|].
  split; [reflexivity|]. split; [reflexivity|]. vm_compute. done.
Qed.
Print Assumptions C33_own_status_refuted.

Example C33_example :
  exists q outs,
    ack_run 10 (AckQ [] false)
      [Arrive (StatusBody 0 []); Take; Timeout; Arrive (StatusBody 3 ["x"]); Arrive (StatusBody 0 []); Take]
      = Some (q, outs) /\
    outs = [Ok tt; Err "ACN send acknowledge timeout"; Err "bad status"] /\
    q_items q = [StatusBody 0 []].
Proof. eexists _, _. split; [vm_compute; reflexivity|]. done. Qed.

(** ** C59 *)

(** Closing the queue while a sender waits (Disconnect during Put) crashes the
    process as soon as no status is queued; so does a status arriving afterwards. *)
Theorem C59_disconnect_crash cap q :
  q_closed q = true ->
  (q_items q = [] -> exists o, ack_step cap q Take = Some (q, [o]) /\ is_panic o = true) /\
  (forall s, exists o, ack_step cap q (Arrive s) = Some (q, [o]) /\ is_panic o = true) /\
  (q_items q <> [] -> exists q' o, ack_step cap q Take = Some (q', [o]) /\ is_panic o = false /\ q_closed q' = true).
Proof.
  intros Hc. split; [|split].
  - intros Hi. cbn. rewrite Hi, Hc. by eexists.
  - intros s. cbn. rewrite Hc. by eexists.
  - intros Hi. cbn. destruct (q_items q) as [|s l]; [done|]. eexists _, _. split; [done|].
    split; [|done]. unfold ack_outcome. by destruct (_ =? _).
Qed.
Print Assumptions C59_disconnect_crash.

(** Nothing else crashes: in a history without closing, no report is a crash. *)
Theorem C59_only_closing cap evs q outs :
  ack_run cap (AckQ [] false) evs = Some (q, outs) -> ~ In CloseQueue evs ->
  Forall (fun o => is_panic o = false) outs.
Proof.
  intros H Hn. apply Forall_lookup. intros i o Ho.
  pose proof (C33_attribution _ _ _ _ i H Hn) as Ha.
  destruct (waits evs !! i) as [[]|].
  - destruct Ha as (s & _ & Hs). rewrite Hs in Ho. injection Ho as <-. unfold says. by destruct (_ =? _).
  - rewrite Ha in Ho. by injection Ho as <-.
  - congruence.
Qed.
Print Assumptions C59_only_closing.

Example C59_example :
  exists q outs, ack_run 10 (AckQ [] false) [CloseQueue; Take] = Some (q, outs) /\
    outs = [Panic "nil pointer dereference"].
Proof. eexists _, _. split; [vm_compute; reflexivity|]. done. Qed.
