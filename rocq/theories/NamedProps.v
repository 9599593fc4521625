(** Property C96: which dialogue a message from another agent reaches. *)
From Coq Require Import ZArith List String Lia.
From stdpp Require Import base tactics gmap strings list.
From Verif Require Import GoBase SetModel DialogueModel StoreModel DialogueSpec DialogueDemo
  DialogueProofs StoreProofs StoreInv TraceProofs DialogueLemmas StoreLemmas DialogueProps.
Open Scope string_scope.
Open Scope list_scope.
Open Scope Z_scope.

(** The reference [r] names the dialogue labelled [l]: it has its starter
    reference, and its responder reference is left out, is the one of the
    dialogue, or is the first the agent hears of in a dialogue it started. *)
Definition refers (c : config) (l : dlabel) (r : dref) : Prop :=
  starter_ref r = starter_ref (lb_ref l) /\
  (responder_ref r = "" \/ responder_ref r = responder_ref (lb_ref l) \/
   lb_starter l = c_self c /\ responder_ref (lb_ref l) = "").

(** A stored dialogue with the sender that the message names. *)
Definition named (c : config) (s : store) (m : message) : Prop :=
  exists l p, s_by_label s !! l = Some p /\ lb_opponent l = m_sender m /\ refers c l (m_ref m).

(** ** Lookup *)

Lemma latest_stored c s r opp st q :
  inv c s -> s_by_label s !! st_latest_label s (DLabel r opp st) = Some q ->
  exists l, s_by_label s !! l = Some q /\ lb_opponent l = opp /\ lb_starter l = st /\
    starter_ref (lb_ref l) = starter_ref r /\
    (responder_ref r = "" \/ responder_ref r = responder_ref (lb_ref l)).
Proof.
  intros Hi. unfold st_latest_label. destruct (s_incomplete s !! DLabel r opp st) as [v|] eqn:E; intros Hq.
  - exists v. split; [done|]. apply (ia_incomplete c s (iv_any c s Hi)) in E.
    unfold incomplete_version in E. injection E as E1 E2 E3. rewrite E1. subst. simpl. auto.
  - eexists. split; [exact Hq|]. simpl. auto.
Qed.

Lemma latest_named c s l p r :
  inv c s -> s_by_label s !! l = Some p -> starter_ref r = starter_ref (lb_ref l) ->
  responder_ref r = "" \/ responder_ref r = responder_ref (lb_ref l) ->
  st_latest_label s (DLabel r (lb_opponent l) (lb_starter l)) = l.
Proof.
  intros Hi Hl Hs Hr. destruct (decide (responder_ref r = responder_ref (lb_ref l))) as [E|E].
  - assert (DLabel r (lb_opponent l) (lb_starter l) = l) as ->.
    { destruct l as [[a b] o st], r as [a' b']; simpl in *; congruence. }
    destruct (decide (responder_ref (lb_ref l) = "")) as [El|El]; [|by apply (latest_complete c); [apply Hi|]].
    unfold st_latest_label. by destruct (iv_open c s Hi l p Hl El) as [[_ ->]|[_ ->]].
  - destruct Hr as [Hr|Hr]; [|done].
    assert (DLabel r (lb_opponent l) (lb_starter l) = incomplete_version l) as ->.
    { unfold incomplete_version, unassigned. destruct l as [[a b] o st], r as [a' b']; simpl in *; congruence. }
    unfold st_latest_label. rewrite (iv_complete c s Hi l p Hl) by congruence. done.
Qed.

(** What [GetDialogue] finds. *)
Lemma get_named c s m l p :
  inv c s -> m_sender m <> c_self c -> s_by_label s !! l = Some p -> lb_opponent l = m_sender m ->
  starter_ref (m_ref m) = starter_ref (lb_ref l) ->
  responder_ref (m_ref m) = "" \/ responder_ref (m_ref m) = responder_ref (lb_ref l) ->
  (lb_starter l <> c_self c -> no_own_with c s (lb_opponent l) (starter_ref (lb_ref l))) ->
  get_dialogue c s m = Some p.
Proof.
  intros Hi Hns Hl Ho Hs Hr Hno. unfold get_dialogue, ds_counterparty, ds_is_by_self, st_get.
  rewrite bool_decide_eq_false_2 by done. rewrite <- Ho.
  pose proof (latest_named c s l p (m_ref m) Hi Hl Hs Hr) as Hla.
  destruct (decide (lb_starter l = c_self c)) as [Est|Est]; [by rewrite <- Est, Hla, Hl|].
  destruct (s_by_label s !! st_latest_label s (DLabel (m_ref m) (lb_opponent l) (c_self c))) as [q|] eqn:E.
  { exfalso. destruct (latest_stored c s _ _ _ q Hi E) as (v & V1 & V2 & V3 & V4 & _).
    apply (Hno Est v q V1 V2 V3). congruence. }
  destruct (ia_label c s (iv_any c s Hi) l p Hl) as (d & Hd & Hdl).
  destruct (ia_dlg c s (iv_any c s Hi) p d Hd) as (h & Hh).
  pose proof (di_label c d h Hh) as Hlo. rewrite Hdl in Hlo. destruct Hlo as [?|[Hlo _]]; [done|].
  by rewrite Hlo in Hla; rewrite Hla.
Qed.

Lemma get_unnamed c s m :
  inv c s -> m_sender m <> c_self c ->
  get_dialogue c s m = None <->
  ~ exists l p, s_by_label s !! l = Some p /\ lb_opponent l = m_sender m /\
      starter_ref (m_ref m) = starter_ref (lb_ref l) /\
      (responder_ref (m_ref m) = "" \/ responder_ref (m_ref m) = responder_ref (lb_ref l)).
Proof.
  intros Hi Hns. split.
  - intros Hg (l & p & Hl & Ho & Hs & Hr).
    revert Hg. unfold get_dialogue, ds_counterparty, ds_is_by_self, st_get.
    rewrite bool_decide_eq_false_2 by done. rewrite <- Ho.
    pose proof (latest_named c s l p (m_ref m) Hi Hl Hs Hr) as Hla.
    destruct (ia_label c s (iv_any c s Hi) l p Hl) as (d & Hd & Hdl).
    destruct (ia_dlg c s (iv_any c s Hi) p d Hd) as (h & Hh).
    pose proof (di_label c d h Hh) as Hlo. rewrite Hdl in Hlo.
    destruct Hlo as [Hlo|[Hlo _]]; rewrite Hlo in Hla; rewrite Hla, Hl; [done|].
    case_match; discriminate.
  - intros Hn. destruct (get_dialogue c s m) as [q|] eqn:E; [|done]. exfalso. apply Hn.
    revert E. unfold get_dialogue, ds_counterparty, ds_is_by_self, st_get.
    rewrite bool_decide_eq_false_2 by done.
    assert (forall st, s_by_label s !! st_latest_label s (DLabel (m_ref m) (m_sender m) st) = Some q ->
      exists l p, s_by_label s !! l = Some p /\ lb_opponent l = m_sender m /\
      starter_ref (m_ref m) = starter_ref (lb_ref l) /\
      (responder_ref (m_ref m) = "" \/ responder_ref (m_ref m) = responder_ref (lb_ref l))) as H.
    { intros st E. destruct (latest_stored c s _ _ _ q Hi E) as (v & V1 & V2 & V3 & V4 & V5).
      exists v, q. auto. }
    destruct (s_by_label s !! _) as [q'|] eqn:E1.
    + intros [= ->]. eauto.
    + eauto.
Qed.

(** ** Completion *)

Lemma completes c s m l p :
  inv c s -> s_by_label s !! l = Some p ->
  lb_starter l = c_self c -> responder_ref (lb_ref l) = "" ->
  m_sender m = lb_opponent l -> starter_ref (m_ref m) = starter_ref (lb_ref l) ->
  starter_ref (lb_ref l) <> "" -> responder_ref (m_ref m) <> "" ->
  exists sc, complete_dialogue_reference c s m = (sc, Ok tt) /\ inv c sc /\
    s_by_label sc !! DLabel (m_ref m) (lb_opponent l) (c_self c) = Some p /\
    effect c s sc (m_sender m) None.
Proof.
  intros Hi Hl Hst Hre Hs Hsr Hsne Hrr.
  destruct (complete_dialogue_reference c s m) as [sc oc] eqn:Ec.
  destruct (inv_complete c s m sc oc Hi Ec) as [Hic Hpc].
  destruct (complete_spec c s m sc oc (iv_any c s Hi) Ec Hpc) as (_ & Hef & _).
  destruct (ia_label c s (iv_any c s Hi) l p Hl) as (d & Hd & Hdl).
  assert (DLabel (DRef (starter_ref (m_ref m)) "") (m_sender m) (c_self c) = l) as Hinc.
  { destruct l as [[a b] o st]. simpl in *. congruence. }
  exists sc. assert (oc = Ok tt /\ s_by_label sc !! DLabel (m_ref m) (lb_opponent l) (c_self c) = Some p) as [-> H]; [|done].
  revert Ec. unfold complete_dialogue_reference, st_get, st_is_present, st_is_in_incomplete, unassigned.
  rewrite (bool_decide_eq_true_2 (starter_ref (m_ref m) <> "")) by congruence.
  rewrite (bool_decide_eq_true_2 (responder_ref (m_ref m) <> "")) by done.
  simpl. rewrite Hinc, Hl.
  destruct (iv_open c s Hi l p Hl Hre) as [[_ Hni]|[Hni _]]; [|done]. rewrite Hni. simpl.
  rewrite Hd. destruct (inv_remove c s l p Hi Hl) as (sr & Hsr' & Hir & Hmem). rewrite Hsr'.
  unfold update_dialogue_label. rewrite Hdl. unfold unassigned.
  rewrite (bool_decide_eq_true_2 (responder_ref (lb_ref l) = "")) by done. simpl.
  rewrite bool_decide_eq_false_2 by done. simpl.
  intros [= <- <-]. split; [done|]. rewrite Hs. simpl. by rewrite lookup_insert.
Qed.

(** No dialogue waits for the reference of the message: nothing is renamed. *)
Lemma completes_none c s m :
  inv c s -> starter_ref (m_ref m) <> "" -> responder_ref (m_ref m) <> "" ->
  (forall l p, s_by_label s !! l = Some p -> lb_opponent l = m_sender m ->
     starter_ref (m_ref m) = starter_ref (lb_ref l) -> lb_starter l = c_self c ->
     responder_ref (lb_ref l) = "" -> False) ->
  complete_dialogue_reference c s m = (s, Ok tt).
Proof.
  intros Hi H1 H2 Hno. unfold complete_dialogue_reference, st_is_present, st_is_in_incomplete, unassigned.
  rewrite !bool_decide_eq_true_2 by done. simpl.
  destruct (s_by_label s !! DLabel _ _ _) as [q|] eqn:E; [|done].
  exfalso. by apply (Hno _ q E).
Qed.

(** ** Acceptance *)

Lemma found_ok c s m l p d h :
  inv c s -> s_by_label s !! l = Some p -> s_heap s !! p = Some d -> dinv c d h ->
  from_other c m -> m_sender m = lb_opponent l ->
  (update_found c s m false (Some p)).2 = Ok (None, Some p) <->
  is_ok (dialogue_update d m) = true.
Proof.
  intros Hi Hl Hd Hh Ho Hs.
  destruct (ia_label c s (iv_any c s Hi) l p Hl) as (d0 & Hd0 & Hdl).
  rewrite Hd in Hd0. injection Hd0 as <-. destruct Ho as (Ho1 & Ho2 & Ho3).
  unfold update_found. rewrite Hd.
  assert (presented c m) as Hpr by (right; done).
  assert (from_of c m = Peer) as Hfr by (unfold from_of; by rewrite decide_False).
  destruct (dialogue_update d m) as [[[d' m'] t]|e|e] eqn:Ed; simpl; [|done..].
  destruct (update_dinv c d h m d' m' t Hh Hpr) as (-> & -> & Ht & Hd'); try done;
    try (rewrite Hfr; done).
  destruct (inv_store_update c s p d (append_message d m) m t (h ++ [Entry (from_of c m) m]))
    as (s1 & He & _); try done; [by rewrite Hdl|].
  unfold store_update in He. rewrite He. done.
Qed.

Lemma found_accepts c s m l p d h :
  inv c s -> s_by_label s !! l = Some p -> s_heap s !! p = Some d -> dinv c d h -> h <> [] ->
  from_other c m -> m_sender m = lb_opponent l -> ref_fits c l (m_ref m) ->
  (update_found c s m false (Some p)).2 = Ok (None, Some p) <->
  m_id m = demanded_id c l Peer h /\ target_ok c l h m.
Proof.
  intros Hi Hl Hd Hh Hne Ho Hs Hfit. rewrite (found_ok c s m l p d h) by done.
  destruct (ia_label c s (iv_any c s Hi) l p Hl) as (d0 & Hd0 & Hdl).
  rewrite Hd in Hd0. injection Hd0 as <-. destruct Ho as (Ho1 & Ho2 & Ho3).
  pose proof (incoming_accept_iff c d h m Hh) as Hiff. rewrite Hdl in Hiff.
  rewrite Hiff; [|congruence|done..]. tauto.
Qed.

Lemma found_opens c s m l p d :
  inv c s -> s_by_label s !! l = Some p -> s_heap s !! p = Some d -> dinv c d [] ->
  from_other c m -> m_sender m = lb_opponent l -> ref_fits c l (m_ref m) ->
  (update_found c s m false (Some p)).2 = Ok (None, Some p) <->
  m_id m = 1 /\ m_target m = 0 /\ In (m_perf m) (c_initial c).
Proof.
  intros Hi Hl Hd Hh Ho Hs Hfit. rewrite (found_ok c s m l p d []) by done.
  destruct (ia_label c s (iv_any c s Hi) l p Hl) as (d0 & Hd0 & Hdl).
  rewrite Hd in Hd0. injection Hd0 as <-. destruct Ho as (Ho1 & Ho2 & Ho3).
  rewrite (update_accept_iff c d [] m Hh); [|congruence|by right].
  unfold acceptable, legal_opening. rewrite Hdl, decide_False by done. destruct Hfit as [Hf1 Hf2].
  split; [tauto|]. intros. split; [done|]. split; [by split|]. tauto.
Qed.

Lemma api_update_incomplete_ref c s nonce m :
  from_other c m -> starter_ref (m_ref m) <> "" -> responder_ref (m_ref m) = "" ->
  m_id m <> 1 -> m_id m <> 0 ->
  api_update c s nonce m = update_found c s m false (get_dialogue c s m).
Proof.
  intros (H1 & H2 & H3) H4 H5 H6 H7. unfold api_update, has_sender, has_to, ds_is_by_self.
  rewrite (bool_decide_eq_true_2 (m_sender m <> "")) by done.
  rewrite (bool_decide_eq_false_2 (m_sender m = c_self c)) by done.
  rewrite (bool_decide_eq_true_2 (m_to m = c_self c)) by done.
  unfold unassigned, starting_message_id, starting_target.
  rewrite (bool_decide_eq_true_2 (starter_ref (m_ref m) <> "")) by done.
  rewrite (bool_decide_eq_false_2 (responder_ref (m_ref m) <> "")) by tauto.
  rewrite (proj2 (Z.eqb_neq _ _) H6), (proj2 (Z.eqb_neq _ _) H7). done.
Qed.

(** However a message names a stored dialogue, [Update] hands it to that
    dialogue, whose messages are what they were. *)
Lemma reaches c s nonce m l p d h :
  inv c s -> s_by_label s !! l = Some p -> s_heap s !! p = Some d -> dinv c d h ->
  from_other c m -> m_sender m = lb_opponent l -> refers c l (m_ref m) ->
  (responder_ref (m_ref m) = "" -> m_id m <> 1 /\ m_id m <> 0) ->
  (lb_starter l <> c_self c -> no_own_with c s (lb_opponent l) (starter_ref (lb_ref l))) ->
  exists s' l' d', api_update c s nonce m = update_found c s' m false (Some p) /\
    inv c s' /\ s_by_label s' !! l' = Some p /\ s_heap s' !! p = Some d' /\ dinv c d' h /\
    lb_opponent l' = lb_opponent l /\ lb_starter l' = lb_starter l /\ ref_fits c l' (m_ref m).
Proof.
  intros Hi Hl Hd Hdi Ho Hs [Hsr Hrr] Hid Hno.
  destruct (ia_label c s (iv_any c s Hi) l p Hl) as (d0 & Hd0 & Hdl).
  rewrite Hd in Hd0. injection Hd0 as <-.
  assert (starter_ref (lb_ref l) <> "") as Hsne.
  { rewrite <- Hdl. by apply (ia_cb c s (iv_any c s Hi) p d). }
  assert (m_sender m <> c_self c) as Hns by apply Ho.
  destruct (decide (responder_ref (m_ref m) = "")) as [E|E].
  - destruct (Hid E) as [Hid1 Hid2]. exists s, l, d.
    rewrite api_update_incomplete_ref; [|done|congruence|done..].
    rewrite (get_named c s m l p) by (done || by left).
    do 7 (split; [done|]). split; [done|]. right. by left.
  - destruct (decide (responder_ref (m_ref m) = responder_ref (lb_ref l))) as [E'|E'].
    + exists s, l, d.
      rewrite (update_routed c s nonce m l p); try done; [|destruct (m_ref m), (lb_ref l); simpl in *; congruence|congruence].
      do 7 (split; [done|]). split; [done|]. right. by right.
    + destruct Hrr as [?|[?|[Hst Hre]]]; [done..|].
      destruct (completes c s m l p) as (sc & Hc & Hic & Hlc & Hef); try done.
      rewrite api_update_complete_ref; [|done|congruence|done]. rewrite Hc.
      set (l' := DLabel (m_ref m) (lb_opponent l) (c_self c)) in *.
      rewrite (get_named c sc m l' p); try done; [|by right].
      destruct (ef_old _ _ _ _ _ Hef p d Hd) as (d' & Hd' & _ & _ & Hdi' & _).
      specialize (Hdi' h Hdi). rewrite app_nil_r in Hdi'.
      exists sc, l', d'. do 7 (split; [done|]). split; [done|]. by left.
Qed.

(** C96. Whichever way a message names a stored dialogue, it is accepted there
    under the same condition. *)
Theorem C96_accepted c tr s nonce m l p :
  exec_clean c tr s -> s_by_label s !! l = Some p ->
  let h := transcript c p tr in
  h <> [] ->
  from_other c m -> m_sender m = lb_opponent l -> refers c l (m_ref m) ->
  (responder_ref (m_ref m) = "" -> m_id m <> 1 /\ m_id m <> 0) ->
  (lb_starter l <> c_self c -> no_own_with c s (lb_opponent l) (starter_ref (lb_ref l))) ->
  (api_update c s nonce m).2 = Ok (None, Some p) <->
  m_id m = (if decide (lb_starter l = c_self c) then -1 else 1) *
           (match messages_of Peer h with [] => 1 | _ => Z.abs (last_id h) + 1 end) /\
  target_ok c l h m.
Proof.
  intros He Hl h Hne Ho Hs Href Hid Hno.
  pose proof (reachable_inv c s (clean_reachable c tr s He)) as Hi.
  destruct (ia_label c s (iv_any c s Hi) l p Hl) as (d & Hd & Hdl).
  pose proof (transcript_some c tr s p d (clean_exec c tr s He) Hd) as Hdi. fold h in Hdi.
  destruct (reaches c s nonce m l p d h) as (s' & l' & d' & -> & Hi' & Hl' & Hd' & Hdi' & H1 & H2 & H3); try done.
  rewrite (found_accepts c s' m l' p d' h); try done; [|congruence].
  clear -H2. destruct l as [r o st], l' as [r' o' st']. simpl in H2. subst st'. exact (iff_refl _).
Qed.
Print Assumptions C96_accepted.

(** A dialogue without messages, as a failed Create leaves it (C15), takes an
    opening of the partner although this agent is its starter ... *)
Theorem C96_empty_opened c tr s nonce m l p :
  exec_clean c tr s -> s_by_label s !! l = Some p -> transcript c p tr = [] ->
  from_other c m -> m_sender m = lb_opponent l -> refers c l (m_ref m) ->
  (responder_ref (m_ref m) = "" -> m_id m <> 1 /\ m_id m <> 0) ->
  (lb_starter l <> c_self c -> no_own_with c s (lb_opponent l) (starter_ref (lb_ref l))) ->
  (api_update c s nonce m).2 = Ok (None, Some p) <->
  m_id m = 1 /\ m_target m = 0 /\ In (m_perf m) (c_initial c).
Proof.
  intros He Hl Hh Ho Hs Href Hid Hno.
  pose proof (reachable_inv c s (clean_reachable c tr s He)) as Hi.
  destruct (ia_label c s (iv_any c s Hi) l p Hl) as (d & Hd & Hdl).
  pose proof (transcript_some c tr s p d (clean_exec c tr s He) Hd) as Hdi. rewrite Hh in Hdi.
  destruct (reaches c s nonce m l p d []) as (s' & l' & d' & -> & Hi' & Hl' & Hd' & Hdi' & H1 & H2 & H3); try done.
  apply (found_opens c s' m l' p d'); try done. congruence.
Qed.
Print Assumptions C96_empty_opened.

(** ... and then this agent can never say anything in it. *)
Theorem C96_opened_mute c tr s p d e h :
  exec c tr s -> s_heap s !! p = Some d -> lb_starter (d_label d) = c_self c ->
  transcript c p tr = e :: h -> e_from e = Peer ->
  messages_of Me (transcript c p tr) = [] /\ d_out d = [].
Proof.
  intros He Hd Hst Hh Hf. pose proof (transcript_some c tr s p d He Hd) as Hdi.
  assert (messages_of Me (transcript c p tr) = []) as Hm.
  2: { split; [done|]. by rewrite (rep_out _ _ (di_rep _ _ _ Hdi)). }
  pose proof (di_conv _ _ _ Hdi) as Hc. rewrite Hh in Hc |- *. clear Hh Hdi.
  induction h as [|x h IH] using rev_ind.
  - unfold messages_of. simpl. rewrite bool_decide_eq_false_2 by congruence. done.
  - rewrite app_comm_cons in Hc |- *.
    specialize (IH (conversation_prefix _ _ _ _ Hc)).
    unfold messages_of in IH |- *. rewrite List.filter_app, map_app, IH. simpl.
    destruct (bool_decide (e_from x = Me)) eqn:E; [|done]. apply bool_decide_eq_true in E. exfalso.
    destruct (Hc (e :: h) x [] eq_refl) as (_ & _ & _ & H).
    destruct (H ltac:(done)) as (_ & _ & H' & _). by apply (H' E Hst).
Qed.
Print Assumptions C96_opened_mute.

(** The failed Create of [C15_example]; the partner opens the dialogue and every
    reply of the agent is refused. *)
Example C96_empty_example :
  let c := demo "a" true in
  let ops := [OpCreate "x" "b" "say"] in
  let ops' := [OpCreate "x" "b" "say"; OpUpdate "n" (from_b abc 1 0 "open")] in
  exec_clean c (trace_of c ops) (store_of c ops) /\
  s_by_label (store_of c ops) !! DLabel ab "b" "a" = Some 0%nat /\
  transcript c 0%nat (trace_of c ops) = [] /\ refers c (DLabel ab "b" "a") abc /\
  (api_update c (store_of c ops) "n" (from_b abc 1 0 "open")).2 = Ok (None, Some 0%nat) /\
  exec_clean c (trace_of c ops') (store_of c ops') /\
  map e_from (transcript c 0%nat (trace_of c ops')) = [Peer] /\
  is_err (step c (store_of c ops') (OpReply 0%nat "say" None None)).2 = true.
Proof.
  split; [apply demo_clean; vm_compute; reflexivity|]. split; [vm_compute; reflexivity|].
  split; [vm_compute; reflexivity|]. split; [split; [done|right; by right]|].
  split; [vm_compute; reflexivity|]. split; [apply demo_clean; vm_compute; reflexivity|].
  split; vm_compute; reflexivity.
Qed.

Lemma found_some c s m n p : (update_found c s m n (Some p)).2 <> Ok (None, None).
Proof.
  unfold update_found. destruct (s_heap s !! p) as [d|]; [|done].
  destruct (store_update c s p _) as [su [x|e|e] ]; [done| |done].
  destruct n; [|done]. by destruct (st_remove su (d_label d)).
Qed.

Lemma from_other_dec c m : {from_other c m} + {~ from_other c m}.
Proof.
  unfold from_other. destruct (decide (m_sender m <> "" /\ m_sender m <> c_self c /\ m_to m = c_self c)); auto.
Qed.

Lemma api_update_not_other c s nonce m :
  ~ from_other c m -> exists e, api_update c s nonce m = (s, Err e).
Proof.
  intros H. unfold api_update, has_sender, has_to, ds_is_by_self.
  destruct (decide (m_sender m <> "")) as [E1|E1];
    [rewrite (bool_decide_eq_true_2 (m_sender m <> "")) by done
    |rewrite (bool_decide_eq_false_2 (m_sender m <> "")) by done; simpl; eauto].
  destruct (decide (m_sender m = c_self c)) as [E2|E2];
    [rewrite (bool_decide_eq_true_2 (m_sender m = c_self c)) by done; simpl; eauto
    |rewrite (bool_decide_eq_false_2 (m_sender m = c_self c)) by done].
  rewrite (bool_decide_eq_false_2 (m_to m = c_self c)) by (intros ?; apply H; done).
  simpl. eauto.
Qed.

(** Messages without a usable reference. *)
Lemma api_update_no_starter c s nonce m :
  from_other c m -> starter_ref (m_ref m) = "" -> responder_ref (m_ref m) <> "" ->
  api_update c s nonce m = (s, Ok (None, None)).
Proof.
  intros (H1 & H2 & H3) H4 H5. unfold api_update, has_sender, has_to, ds_is_by_self.
  rewrite (bool_decide_eq_true_2 (m_sender m <> "")) by done.
  rewrite (bool_decide_eq_false_2 (m_sender m = c_self c)) by done.
  rewrite (bool_decide_eq_true_2 (m_to m = c_self c)) by done.
  unfold unassigned.
  rewrite (bool_decide_eq_false_2 (starter_ref (m_ref m) <> "")) by tauto.
  rewrite (bool_decide_eq_true_2 (responder_ref (m_ref m) <> "")) by done. done.
Qed.

Lemma api_update_unusable c s nonce m :
  from_other c m -> responder_ref (m_ref m) = "" -> starter_ref (m_ref m) = "" \/ m_id m = 0 ->
  exists e, api_update c s nonce m = (s, Err e).
Proof.
  intros (H1 & H2 & H3) H5 H4. unfold api_update, has_sender, has_to, ds_is_by_self.
  rewrite (bool_decide_eq_true_2 (m_sender m <> "")) by done.
  rewrite (bool_decide_eq_false_2 (m_sender m = c_self c)) by done.
  rewrite (bool_decide_eq_true_2 (m_to m = c_self c)) by done.
  unfold complete_dialogue_reference, unassigned, starting_message_id, starting_target.
  rewrite (bool_decide_eq_false_2 (responder_ref (m_ref m) <> "")) by tauto.
  rewrite !andb_false_r, !andb_true_r. simpl.
  destruct H4 as [H4|H4].
  - rewrite (bool_decide_eq_false_2 (starter_ref (m_ref m) <> "")) by tauto. simpl. eauto.
  - rewrite H4. rewrite !andb_false_r. simpl. eauto.
Qed.

(** [Update] answers neither with an error nor with a dialogue exactly if the
    message names no stored dialogue, and then nothing has changed. *)
Theorem C96_unknown c s nonce m :
  reachable c s ->
  ((api_update c s nonce m).2 = Ok (None, None) <->
   from_other c m /\
   ((starter_ref (m_ref m) = "" /\ responder_ref (m_ref m) <> "") \/
    (starter_ref (m_ref m) <> "" /\
     (responder_ref (m_ref m) = "" -> m_id m <> 1 /\ m_id m <> 0) /\
     ~ named c s m))) /\
  ((api_update c s nonce m).2 = Ok (None, None) -> (api_update c s nonce m).1 = s).
Proof.
  intros Hr. pose proof (reachable_inv c s Hr) as Hi.
  destruct (from_other_dec c m) as [Ho|Ho].
  2: { destruct (api_update_not_other c s nonce m Ho) as [e ->]. simpl. split; [|done]. split; [done|tauto]. }
  assert (m_sender m <> c_self c) as Hns by apply Ho.
  destruct (decide (starter_ref (m_ref m) = "")) as [Es|Es].
  { destruct (decide (responder_ref (m_ref m) = "")) as [Er|Er].
    - destruct (api_update_unusable c s nonce m Ho Er (or_introl Es)) as [e ->]. simpl. split; [|done].
      split; [done|tauto].
    - rewrite (api_update_no_starter c s nonce m Ho Es Er). simpl. split; [|done]. tauto. }
  destruct (decide (responder_ref (m_ref m) = "")) as [Er|Er].
  - destruct (decide (m_id m = 0)) as [E0|E0].
    { destruct (api_update_unusable c s nonce m Ho Er (or_intror E0)) as [e ->]. simpl. split; [|done].
      split; [done|tauto]. }
    destruct (decide (m_id m = 1)) as [E1|E1].
    { rewrite api_update_opening by done.
      destruct (create c s _ _ _) as [s1 [q|e|e] ]; simpl.
      - pose proof (found_some c s1 m true q). split; [|done]. split; [done|tauto].
      - split; [|done]. split; [done|tauto].
      - split; [|done]. split; [done|tauto]. }
    rewrite api_update_incomplete_ref by done.
    pose proof (get_unnamed c s m Hi Hns) as Hg.
    assert (named c s m <-> exists l p, s_by_label s !! l = Some p /\ lb_opponent l = m_sender m /\
      starter_ref (m_ref m) = starter_ref (lb_ref l) /\
      (responder_ref (m_ref m) = "" \/ responder_ref (m_ref m) = responder_ref (lb_ref l))) as Hn.
    { unfold named, refers. split; intros (l & p & H); exists l, p; tauto. }
    rewrite <- Hn in Hg. clear Hn.
    destruct (get_dialogue c s m) as [q|].
    + pose proof (found_some c s m false q). split; [|done]. split; [done|].
      intros [_ [ [? _]|(_ & _ & Hnn)] ]; [done|]. apply Hg in Hnn. done.
    + simpl. split; [|done]. split; [|done]. intros _. split; [done|]. right. tauto.
  - rewrite api_update_complete_ref by done.
    destruct (s_by_label s !! DLabel (DRef (starter_ref (m_ref m)) "") (m_sender m) (c_self c)) as [q|] eqn:Ew.
    + destruct (completes c s m _ q Hi Ew) as (sc & Hc & Hic & Hlc & _); try done.
      rewrite Hc. simpl in Hlc.
      rewrite (get_named c sc m _ q Hic Hns Hlc); try done; [|by right].
      pose proof (found_some c sc m false q). split; [|done]. split; [done|].
      intros [_ [ [? _]|(_ & _ & Hnn)] ]; [done|]. exfalso. apply Hnn.
      eexists _, q. split; [exact Ew|]. split; [done|]. split; [done|]. right. right. done.
    + assert (forall l p, s_by_label s !! l = Some p -> lb_opponent l = m_sender m ->
        starter_ref (m_ref m) = starter_ref (lb_ref l) -> lb_starter l = c_self c ->
        responder_ref (lb_ref l) = "" -> False) as Hno.
      { intros l p Hl H1 H2 H3 H4. rewrite H2, <- H1, <- H3, <- H4 in Ew.
        destruct l as [ [a b] o st]. simpl in *. congruence. }
      rewrite (completes_none c s m Hi Es Er Hno).
      pose proof (get_unnamed c s m Hi Hns) as Hg.
      assert (named c s m <-> exists l p, s_by_label s !! l = Some p /\ lb_opponent l = m_sender m /\
        starter_ref (m_ref m) = starter_ref (lb_ref l) /\
        (responder_ref (m_ref m) = "" \/ responder_ref (m_ref m) = responder_ref (lb_ref l))) as Hn.
      { unfold named, refers. split; intros (l & p & H1 & H2 & H3 & H4); exists l, p; [|tauto].
        destruct H4 as [H4|[H4|[H4 H5] ] ]; [tauto..|]. exfalso. by eapply Hno. }
      rewrite <- Hn in Hg. clear Hn.
      destruct (get_dialogue c s m) as [q|].
      * pose proof (found_some c s m false q). split; [|done]. split; [done|].
        intros [_ [ [? _]|(_ & _ & Hnn)] ]; [done|]. apply Hg in Hnn. done.
      * simpl. split; [|done]. split; [|done]. intros _. split; [done|]. right. tauto.
Qed.
Print Assumptions C96_unknown.

(** A message that is not from another agent to this one, or whose reference
    can neither open nor name a dialogue, is refused and changes nothing. *)
Theorem C96_refused c s nonce m :
  ~ from_other c m \/
  (responder_ref (m_ref m) = "" /\ (starter_ref (m_ref m) = "" \/ m_id m = 0)) ->
  exists e, api_update c s nonce m = (s, Err e).
Proof.
  intros [H|[H1 H2] ]; [by apply api_update_not_other|].
  destruct (from_other_dec c m) as [Ho|Ho]; [by apply api_update_unusable|by apply api_update_not_other].
Qed.
Print Assumptions C96_refused.

(** In the demo run of [C02_example] the answer -3 is accepted with only the
    starter reference too; a message naming no dialogue is passed over. *)
Example C96_example :
  let c := demo "a" true in
  let s := store_of c ops_self in
  let l := DLabel abc "b" "a" in
  exec_clean c (trace_of c ops_self) s /\ s_by_label s !! l = Some 0%nat /\
  from_other c (from_b ab (-3) 2 "say") /\ refers c l ab /\
  (api_update c s "n" (from_b ab (-3) 2 "say")).2 = Ok (None, Some 0%nat) /\
  is_err (api_update c s "n" (from_b ab (-2) 2 "say")).2 = true /\
  (api_update c s "n" (from_b (DRef "z" "y") (-3) 2 "say")).2 = Ok (None, None).
Proof.
  split; [apply self_clean|]. split; [vm_compute; reflexivity|].
  split; [repeat split; done|]. split; [split; [done|by left]|].
  repeat split; vm_compute; reflexivity.
Qed.

(** The partner may go on before it has learnt the responder reference, and the
    first answer to an opening both completes the reference and is accepted. *)
Example C96_example_partner :
  let c := demo "a" true in
  (exec_clean c (trace_of c ops_peer) (store_of c ops_peer) /\
   s_by_label (store_of c ops_peer) !! DLabel abc "b" "b" = Some 0%nat /\
   no_own_with c (store_of c ops_peer) "b" "x" /\ refers c (DLabel abc "b" "b") ab /\
   (api_update c (store_of c ops_peer) "n" (from_b ab 3 (-1) "say")).2 = Ok (None, Some 0%nat)) /\
  (exec_clean c (trace_of c (take 1 ops_self)) (store_of c (take 1 ops_self)) /\
   s_by_label (store_of c (take 1 ops_self)) !! DLabel ab "b" "a" = Some 0%nat /\
   refers c (DLabel ab "b" "a") abc /\
   (api_update c (store_of c (take 1 ops_self)) "n" (from_b abc (-1) 1 "say")).2 = Ok (None, Some 0%nat)).
Proof.
  split.
  - split; [apply peer_clean|]. split; [vm_compute; reflexivity|]. split; [apply peer_no_own|].
    split; [split; [done|by left]|vm_compute; reflexivity].
  - split; [apply demo_clean; vm_compute; reflexivity|]. split; [vm_compute; reflexivity|].
    split; [split; [done|right; by right]|vm_compute; reflexivity].
Qed.

Example C96_refused_example :
  let c := demo "a" true in
  ~ from_other c (Msg "c" "b" ab 1 0 "open") /\
  is_err (api_update c (store_of c ops_self) "n" (Msg "c" "b" ab 1 0 "open")).2 = true /\
  is_err (api_update c (store_of c ops_self) "n" (from_b ab 0 0 "say")).2 = true.
Proof. split; [intros (_ & _ & H); done|]. split; vm_compute; reflexivity. Qed.
