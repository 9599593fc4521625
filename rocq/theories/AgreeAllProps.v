(** Two agents between which nothing is lost or rejected hold the same messages (C94). *)
From Coq Require Import ZArith List String Lia.
From stdpp Require Import base tactics gmap list strings.
From Verif Require Import GoBase SetModel DialogueModel StoreModel DialogueSpec DialogueDemo DialogueProofs StoreProofs StoreInv TraceProofs DialogueLemmas StoreLemmas AgreeProps.
Open Scope string_scope.
Open Scope list_scope.
Open Scope Z_scope.

(** Every message from agent [x] given to Update was accepted in some dialogue. *)
Definition all_accepted (x : address) (tr : list (op * res out)) : Prop :=
  forall n m r, In (OpUpdate n m, r) tr -> m_sender m = x -> exists om p, r = Ok (om, Some p).

(** Then what the agent has received in a dialogue is all it was given from the peer for this reference. *)
Lemma in_all c tr s p d : exec_clean c tr s -> proper tr -> s_heap s !! p = Some d -> lb_opponent (d_label d) <> c_self c ->
  all_accepted (lb_opponent (d_label d)) tr ->
  (forall m, In m (received (lb_opponent (d_label d)) tr) -> m_id m = 1 -> responder_ref (m_ref m) = "") ->
  d_in d = filter (of_dialogue (starter_ref (lb_ref (d_label d))) (negb (bool_decide (lb_starter (d_label d) = c_self c))))
                  (received (lb_opponent (d_label d)) tr).
Proof.
  intros Hc Hp Hd Ho Hacc Hop. pose proof (clean_exec _ _ _ Hc) as He. pose proof (settled_exec c tr s Hc Hp) as Hset.
  pose proof (fun m => in_key c tr s p d m He Hd Hop) as KA.
  pose proof (transcript_some c tr s p d He Hd) as Hv. rewrite (rep_in _ _ (di_rep _ _ _ Hv)), transcript_messages.
  assert (forall or, In or tr -> In or tr) as Hall by done. unfold received. revert Hall. generalize tr at 1 3 4 as t.
  induction t as [|[o r] t IH]; intros Hall; [done|].
  specialize (IH (fun or Hin => Hall or (or_intror Hin))). cbn [omap list_omap fst snd].
  assert (In (o, r) tr) as Hin by (apply Hall; by left).
  assert (forall e, said c o r = Some (p, e) -> e_from e = Peer -> m_sender (e_msg e) = lb_opponent (d_label d)) as Hsame.
  { intros e Es Hf. destruct (said_dialogue c tr s o r p e He Hin Es) as (d' & Hd' & Hm). rewrite Hf in Hm.
    assert (d' = d) as -> by congruence. by apply KA. }
  destruct o as [n cp pf|cp m0|n m0|q pf tm tp].
  - destruct r as [[[mo|] [po|]]|e|e]; try exact IH. cbn [said]. rewrite bool_decide_false by (intros [_ ?]; done). exact IH.
  - destruct r as [[[mo|] [po|]]|e|e]; try exact IH; cbn [said]; rewrite bool_decide_false by (intros [_ ?]; done); exact IH.
  - destruct (decide (m_sender m0 = lb_opponent (d_label d))) as [Hx|Hx].
    2: { rewrite (bool_decide_false (m_sender m0 = _)) by done. destruct (said c (OpUpdate n m0) r) as [[p' e]|] eqn:Es; [|exact IH].
         rewrite bool_decide_false; [exact IH|]. intros [-> Hf]. apply Hx. rewrite <- (Hsame e eq_refl Hf).
         destruct r as [[mo [po|]]|er|er]; try done; cbn in Es; by injection Es as _ <-. }
    rewrite (bool_decide_true (m_sender m0 = _)) by done. destruct (Hacc n m0 r Hin Hx) as (om & p' & ->).
    assert (said c (OpUpdate n m0) (Ok (om, Some p')) = Some (p', Entry Peer m0)) as Es by (by destruct om).
    rewrite Es. destruct (said_dialogue c tr s _ _ p' _ He Hin Es) as (d' & Hd' & Hm). cbn [e_from e_msg] in Hm |- *.
    destruct (decide (p' = p)) as [->|Hne].
    + rewrite bool_decide_true by done. assert (d' = d) as -> by congruence.
      destruct (KA m0 Hm) as (_ & _ & _ & K). rewrite filter_cons_True by done. f_equal. exact IH.
    + rewrite bool_decide_false by tauto. rewrite filter_cons_False; [exact IH|]. intros [K1 K2]. apply Hne.
      pose proof (transcript_some c tr s p' d' He Hd') as Hv'.
      assert (lb_opponent (d_label d') = lb_opponent (d_label d)) as Eo.
      { pose proof Hm as Hm'. rewrite (rep_in _ _ (di_rep _ _ _ Hv')) in Hm'. apply in_messages in Hm' as (h1 & h2 & Eh).
        destruct (di_conv _ _ _ Hv' h1 (Entry Peer m0) h2 Eh) as ((Ha & _) & _). cbn in Ha. unfold other in Ha. congruence. }
      destruct (in_key c tr s p' d' m0 He Hd') as (_ & _ & _ & K4 & K5); [by rewrite Eo|done|].
      apply (se_one _ _ _ Hset p' p (d_label d') (d_label d)); [unfold lab; by rewrite Hd'|unfold lab; by rewrite Hd|].
      split; [congruence|]. split; [congruence|].
      rewrite !negb_true_iff, !bool_decide_eq_false in *.
      destruct (di_label _ _ _ Hv') as [L1|[L1 L2]], (di_label _ _ _ Hv) as [M1|[M1 M2]]; try congruence; exfalso; intuition congruence.
  - destruct r as [[[mo|] [po|]]|e|e]; try exact IH; cbn [said]; rewrite bool_decide_false by (intros [_ ?]; done); exact IH.
Qed.

Lemma bool_decide_other {P Q : Prop} `{Decision P} `{Decision Q} : (P <-> ~ Q) -> bool_decide P = negb (bool_decide Q).
Proof. intros HPQ. destruct (decide Q); [rewrite (bool_decide_true Q), bool_decide_false by tauto|rewrite (bool_decide_false Q), bool_decide_true by tauto]; done. Qed.

(** Two ends of a dialogue: [a] has been given all that [b] sent, and rejected none of it. *)
Lemma ends_agree ca cb trA sA trB sB pA dA pB dB :
  exec_clean ca trA sA -> exec_clean cb trB sB -> proper trA -> proper trB -> c_self ca <> c_self cb ->
  received (c_self cb) trA = sent cb (c_self ca) trB -> all_accepted (c_self cb) trA ->
  s_heap sA !! pA = Some dA -> s_heap sB !! pB = Some dB ->
  lb_opponent (d_label dA) = c_self cb -> lb_opponent (d_label dB) = c_self ca ->
  starter_ref (lb_ref (d_label dA)) = starter_ref (lb_ref (d_label dB)) -> lb_starter (d_label dA) = lb_starter (d_label dB) ->
  d_in dA = d_out dB.
Proof.
  intros HA HB PA PB Hab Hch Hacc HdA HdB OA OB Hr Hs. pose proof (clean_exec _ _ _ HB) as HB'.
  rewrite (in_all ca trA sA pA dA), (out_all cb trB sB pB dB); try done; [|congruence|congruence|by rewrite OA|].
  - rewrite OA, OB, Hch, Hr. pose proof (transcript_some cb trB sB pB dB HB' HdB) as HvB.
    assert (negb (bool_decide (lb_starter (d_label dA) = c_self ca)) = bool_decide (lb_starter (d_label dB) = c_self cb)) as ->; [|done].
    symmetry. apply bool_decide_other. rewrite Hs. destruct (di_label _ _ _ HvB) as [M1|[M1 M2]]; split; intros; congruence.
  - intros m Hm. rewrite OA, Hch in Hm. by eapply sent_opening.
Qed.

(** Nothing that [b] sent to [a] was lost, repeated, reordered or rejected. Then for every dialogue in which [b] sent something, [a] has
    exactly one dialogue with [b] for the same starter reference, started by the same agent, and it holds as received exactly what [b]
    holds as sent. If the same is true of what [a] sent to [b], this dialogue is also sent and received the other way round. *)
Theorem C94_complete ca cb trA sA trB sB pB dB :
  exec_clean ca trA sA -> exec_clean cb trB sB -> proper trA -> proper trB -> c_self ca <> c_self cb ->
  received (c_self cb) trA = sent cb (c_self ca) trB -> all_accepted (c_self cb) trA ->
  s_heap sB !! pB = Some dB -> lb_opponent (d_label dB) = c_self ca -> d_out dB <> [] ->
  exists pA dA, s_heap sA !! pA = Some dA /\ lb_opponent (d_label dA) = c_self cb /\
    starter_ref (lb_ref (d_label dA)) = starter_ref (lb_ref (d_label dB)) /\
    lb_starter (d_label dA) = lb_starter (d_label dB) /\
    d_in dA = d_out dB /\
    (received (c_self ca) trB = sent ca (c_self cb) trA -> all_accepted (c_self ca) trB -> d_out dA = d_in dB) /\
    (forall p d, s_heap sA !! p = Some d -> lb_opponent (d_label d) = c_self cb ->
       starter_ref (lb_ref (d_label d)) = starter_ref (lb_ref (d_label dB)) ->
       lb_starter (d_label d) = lb_starter (d_label dB) -> p = pA).
Proof.
  intros HA HB PA PB Hab Hch Hacc HdB OB Hne. pose proof (clean_exec _ _ _ HA) as HA'. pose proof (clean_exec _ _ _ HB) as HB'.
  assert (lb_opponent (d_label dB) <> c_self cb) as OB' by congruence.
  destruct (d_out dB) as [|m0 rest] eqn:Eout; [done|]. rewrite <- Eout in *.
  assert (In m0 (d_out dB)) as Hm0 by (rewrite Eout; by left).
  destruct (out_key cb trB sB pB dB m0 HB' HdB OB' Hm0) as (B1 & B2 & B3).
  assert (In m0 (received (c_self cb) trA)) as Hrec.
  { rewrite Hch, <- OB. pose proof Hm0 as H. rewrite (out_all cb trB sB pB dB HB PB HdB OB') in H.
    apply elem_of_list_In, elem_of_list_filter in H as [_ H]. by apply elem_of_list_In. }
  pose proof Hrec as Hrec'. unfold received in Hrec'. apply elem_of_list_In, elem_of_list_omap in Hrec' as ([o r] & Ho & Hu). cbn in Hu.
  destruct o as [n cp pf|cp m1|n m1|q pf tm tp]; try done. destruct (bool_decide (m_sender m1 = c_self cb)) eqn:Eb; [|done].
  injection Hu as ->. apply bool_decide_eq_true in Eb. apply elem_of_list_In in Ho. destruct (Hacc n m0 r Ho Eb) as (om & pA & ->).
  assert (said ca (OpUpdate n m0) (Ok (om, Some pA)) = Some (pA, Entry Peer m0)) as Es by (by destruct om).
  destruct (said_dialogue ca trA sA _ _ pA _ HA' Ho Es) as (dA & HdA & HmA). cbn [e_from e_msg] in HmA.
  pose proof (transcript_some ca trA sA pA dA HA' HdA) as HvA. pose proof (transcript_some cb trB sB pB dB HB' HdB) as HvB.
  assert (lb_opponent (d_label dA) = c_self cb) as OA.
  { pose proof HmA as H. rewrite (rep_in _ _ (di_rep _ _ _ HvA)) in H. apply in_messages in H as (h1 & h2 & Eh).
    destruct (di_conv _ _ _ HvA h1 (Entry Peer m0) h2 Eh) as ((Ha & _) & _). cbn in Ha. unfold other in Ha. congruence. }
  destruct (in_key ca trA sA pA dA m0 HA' HdA) as (_ & _ & _ & A2 & A3); [|done|].
  { intros m Hm. rewrite OA, Hch in Hm. by eapply sent_opening. }
  assert (starter_ref (lb_ref (d_label dA)) = starter_ref (lb_ref (d_label dB))) as Hr by congruence.
  assert (lb_starter (d_label dA) = lb_starter (d_label dB)) as Hs.
  { rewrite negb_true_iff, bool_decide_eq_false in A3. rewrite bool_decide_eq_true in B3.
    destruct (di_label _ _ _ HvA) as [L1|[L1 L2]], (di_label _ _ _ HvB) as [M1|[M1 M2]]; try congruence; exfalso; intuition congruence. }
  exists pA, dA. split; [done|]. split; [done|]. split; [done|]. split; [done|]. split; [|split].
  - by eapply (ends_agree ca cb trA sA trB sB pA dA pB dB).
  - intros Hch' Hacc'. symmetry. by eapply (ends_agree cb ca trB sB trA sA pB dB pA dA).
  - intros p d Hd D1 D2 D3. apply (se_one _ _ _ (settled_exec ca trA sA HA PA) p pA (d_label d) (d_label dA)).
    + unfold lab. by rewrite Hd.
    + unfold lab. by rewrite HdA.
    + repeat split; congruence.
Qed.
Print Assumptions C94_complete.

(** A conversation of three messages, all delivered and accepted. *)
Definition whole_a : list op :=
  [OpCreate "x" "b" "open"; OpUpdate "n" (Msg "a" "b" abc (-1) 1 "say"); OpReply 0%nat "say" None None].
Definition whole_b : list op :=
  [OpUpdate "y" (Msg "b" "a" ab 1 0 "open"); OpReply 0%nat "say" None (Some 1); OpUpdate "n" (Msg "b" "a" abc 2 (-1) "say")].
Lemma accepted_all x tr : forallb (fun or => match or with (OpUpdate _ _, Ok (_, Some _)) => true | (OpUpdate _ _, _) => false | _ => true end) tr = true ->
  all_accepted x tr.
Proof.
  intros H n m r Hin _. rewrite forallb_forall in H. specialize (H _ Hin). cbn in H. destruct r as [[om [p|] ]|e|e]; try done. by eexists _, _.
Qed.
Example C94_complete_example :
  exec_clean (demo "a" false) (trace_of (demo "a" false) whole_a) (store_of (demo "a" false) whole_a) /\
  exec_clean (demo "b" false) (trace_of (demo "b" false) whole_b) (store_of (demo "b" false) whole_b) /\
  proper (trace_of (demo "a" false) whole_a) /\ proper (trace_of (demo "b" false) whole_b) /\
  received "b" (trace_of (demo "a" false) whole_a) = sent (demo "b" false) "a" (trace_of (demo "b" false) whole_b) /\
  received "a" (trace_of (demo "b" false) whole_b) = sent (demo "a" false) "b" (trace_of (demo "a" false) whole_a) /\
  all_accepted "b" (trace_of (demo "a" false) whole_a) /\ all_accepted "a" (trace_of (demo "b" false) whole_b) /\
  map m_id (d_out (dialogue_at (store_of (demo "a" false) whole_a) 0%nat)) = [1; 2] /\
  map m_id (d_in (dialogue_at (store_of (demo "b" false) whole_b) 0%nat)) = [1; 2].
Proof.
  split; [by apply demo_clean|]. split; [by apply demo_clean|].
  split. { split; [vm_compute; repeat constructor; set_solver|]. intros n m r Hin. vm_compute in Hin. naive_solver. }
  split. { split; [vm_compute; repeat constructor; set_solver|]. intros n m r Hin. vm_compute in Hin. naive_solver. }
  split; [vm_compute; reflexivity|]. split; [vm_compute; reflexivity|].
  split; [apply accepted_all; vm_compute; reflexivity|]. split; [apply accepted_all; vm_compute; reflexivity|].
  split; vm_compute; reflexivity.
Qed.
