(** The index invariant of stores reached by well-behaved clients: [Reply] is
    used only on dialogues that are still in the store. *)
From Coq Require Import ZArith List String Lia.
From stdpp Require Import base tactics gmap strings list.
From Verif Require Import GoBase SetModel DialogueModel StoreModel DialogueSpec
  DialogueProofs StoreProofs.
Open Scope Z_scope.

Lemma find_index_app heap ps1 p ps2 l d i :
  (forall q, q ∈ ps1 -> exists x, heap !! q = Some x /\ d_label x <> l) ->
  heap !! p = Some d -> d_label d = l ->
  find_index heap (ps1 ++ p :: ps2) l i = (i + length ps1)%nat.
Proof.
  intros H1 Hp Hl. revert i H1. induction ps1 as [|q ps1 IH]; intros i H1; simpl.
  - rewrite Hp, bool_decide_eq_true_2 by done. lia.
  - destruct (H1 q) as (x & Hx & Hxl); [left|]. rewrite Hx.
    rewrite bool_decide_eq_false_2 by done. rewrite IH; [lia|].
    intros q' Hq'. apply H1. by right.
Qed.

Lemma remove_from_array_spec heap ps l p d :
  NoDup ps -> p ∈ ps -> heap !! p = Some d -> d_label d = l ->
  (forall q, q ∈ ps -> q <> p -> exists x, heap !! q = Some x /\ d_label x <> l) ->
  exists ps1 ps2, ps = ps1 ++ p :: ps2 /\ remove_from_array heap ps l = Ok (ps1 ++ ps2).
Proof.
  intros Hnd Hin Hp Hl Hoth. apply elem_of_list_split in Hin as (ps1 & ps2 & ->).
  exists ps1, ps2. split; [done|]. unfold remove_from_array.
  apply NoDup_app in Hnd as (Hn1 & Hd & Hn2).
  rewrite (find_index_app heap ps1 p ps2 l d); [|  |done|done].
  - rewrite app_length. simpl. replace (length ps1 <? _)%nat with true
      by (symmetry; apply Nat.ltb_lt; lia).
    f_equal. rewrite take_app. f_equal.
    replace (S (length ps1)) with (length (ps1 ++ [p])) by (rewrite app_length; simpl; lia).
    change (ps1 ++ p :: ps2) with (ps1 ++ [p] ++ ps2). rewrite app_assoc.
    by rewrite drop_app.
  - intros q Hq. apply Hoth; [set_solver|]. intros ->. apply (Hd p Hq). left.
Qed.

Record inv (c : config) (s : store) : Prop := {
  iv_any : inv_any c s;
  iv_addr : forall a, NoDup (st_with_counterparty s a) /\
            forall p, p ∈ st_with_counterparty s a <->
                      exists l, s_by_label s !! l = Some p /\ lb_opponent l = a;
  iv_complete : forall l p, s_by_label s !! l = Some p -> responder_ref (lb_ref l) <> "" ->
                s_incomplete s !! incomplete_version l = Some l;
  iv_open : forall l p, s_by_label s !! l = Some p -> responder_ref (lb_ref l) = "" ->
            (lb_starter l = c_self c /\ s_incomplete s !! l = None) \/
            (lb_starter l <> c_self c /\ s_incomplete s !! l = Some l);
  iv_term : forall l, hs_contains (s_terminal s) l = true -> is_Some (s_by_label s !! l);
  iv_keep : c_keep c = false -> forall l, hs_contains (s_terminal s) l = false }.

Lemma inv_empty c : inv c empty_store.
Proof.
  split; simpl; try done.
  - intros a. unfold st_with_counterparty. simpl. rewrite lookup_empty.
    split; [constructor|]. intros p. rewrite elem_of_nil. split; [done|].
    intros (l & Hl & _). by rewrite lookup_empty in Hl.
Qed.

(** Two stored labels that differ at most in the responder reference are equal. *)
Lemma inv_unique c s l l' p p' :
  inv c s -> s_by_label s !! l = Some p -> s_by_label s !! l' = Some p' ->
  incomplete_version l = incomplete_version l' -> l = l'.
Proof.
  intros Hi H1 H2 He.
  destruct (decide (responder_ref (lb_ref l) = "")) as [E|E];
  destruct (decide (responder_ref (lb_ref l') = "")) as [E'|E'].
  - by rewrite !incomplete_version_idem in He.
  - rewrite (incomplete_version_idem l E) in He.
    pose proof (iv_complete c s Hi l' p' H2 E') as Hc. rewrite <- He in Hc.
    destruct (iv_open c s Hi l p H1 E) as [[_ Ho]|[_ Ho]]; congruence.
  - rewrite (incomplete_version_idem l' E') in He.
    pose proof (iv_complete c s Hi l p H1 E) as Hc. rewrite He in Hc.
    destruct (iv_open c s Hi l' p' H2 E') as [[_ Ho]|[_ Ho]]; congruence.
  - pose proof (iv_complete c s Hi l p H1 E) as Hc.
    pose proof (iv_complete c s Hi l' p' H2 E') as Hc'. rewrite He in Hc. congruence.
Qed.

(** A pointer is stored under one label only. *)
Lemma inv_inj c s l l' p :
  inv_any c s -> s_by_label s !! l = Some p -> s_by_label s !! l' = Some p -> l = l'.
Proof.
  intros Hi H1 H2. destruct (ia_label c s Hi l p H1) as (d & Hd & Hl).
  destruct (ia_label c s Hi l' p H2) as (d' & Hd' & Hl'). congruence.
Qed.

Lemma hs_contains_remove (s : hset dlabel) x y :
  hs_contains (hs_remove s x) y = true -> y <> x /\ hs_contains s y = true.
Proof.
  unfold hs_contains, hs_remove. destruct (decide (y = x)) as [->|Hne].
  - by rewrite lookup_delete.
  - by rewrite lookup_delete_ne.
Qed.

(** Removing a stored label succeeds and keeps the invariant. *)
Lemma inv_remove c s l p :
  inv c s -> s_by_label s !! l = Some p ->
  exists s', st_remove s l = Ok s' /\ inv c s' /\
    forall a q, q ∈ st_with_counterparty s' a <-> q <> p /\ q ∈ st_with_counterparty s a.
Proof.
  intros Hi Hl.
  destruct (ia_label c s (iv_any c s Hi) l p Hl) as (d & Hd & Hdl).
  destruct (iv_addr c s Hi (lb_opponent l)) as [Hnd Hin].
  destruct (remove_from_array_spec (s_heap s) (st_with_counterparty s (lb_opponent l)) l p d)
    as (ps1 & ps2 & Hps & Hrm); [done| |done|done| |].
  { apply Hin. by exists l. }
  { intros q Hq Hne. apply Hin in Hq as (l' & Hl' & Ho).
    destruct (ia_label c s (iv_any c s Hi) l' q Hl') as (x & Hx & Hxl).
    exists x. split; [done|]. intros He. apply Hne. congruence. }
  destruct (st_remove s l) as [s'|e|e] eqn:Er.
  2:{ by apply st_remove_no_err in Er. }
  2:{ unfold st_remove in Er. rewrite Hl, Hrm in Er. done. }
  exists s'. split; [done|].
  pose proof (inv_any_remove c s l s' (iv_any c s Hi) Er) as Hi'.
  apply st_remove_ok in Er as (R1 & R2 & R3 & R4 & R5 & R6 & R7).
  rewrite Hl, Hrm in R7. injection R7 as R7.
  assert (forall a q, q ∈ st_with_counterparty s' a <-> q <> p /\ q ∈ st_with_counterparty s a)
    as Hmem.
  { intros a q. destruct (decide (a = lb_opponent l)) as [->|Hne].
    - rewrite <- R7, Hps. rewrite Hps in Hnd.
      apply NoDup_app in Hnd as (_ & Hn1 & Hn2). apply NoDup_cons in Hn2 as [Hn2 _].
      split.
      + intros Hq. split; [|set_solver]. intros ->.
        apply elem_of_app in Hq as [Hq|Hq]; [|done]. apply (Hn1 p Hq). left.
      + set_solver.
    - rewrite R6 by done. split; [|by intros [_ ?]]. intros Hq. split; [|done].
      intros ->. apply (iv_addr c s Hi a) in Hq as (l' & Hl' & Ho).
      apply Hne. rewrite <- Ho. f_equal.
      eapply (inv_inj c s l' l p); [apply Hi|done|done]. }
  split; [|exact Hmem].
  split.
  - done.
  - intros a. split.
    + destruct (decide (a = lb_opponent l)) as [->|Hne].
      * rewrite <- R7. rewrite Hps in Hnd. apply NoDup_app in Hnd as (Hn0 & Hn1 & Hn2).
        apply NoDup_cons in Hn2 as [Hn3 Hn2]. apply NoDup_app. split; [done|].
        split; [|done]. intros x Hx Hx'. apply (Hn1 x Hx). by right.
      * rewrite R6 by done. apply Hi.
    + intros q. rewrite Hmem, R3. destruct (iv_addr c s Hi a) as [_ Ha]. rewrite Ha.
      split.
      * intros (Hne & l' & Hl' & Ho). exists l'. split; [|done].
        rewrite lookup_delete_ne; [done|]. intros <-. congruence.
      * intros (l' & Hl' & Ho). apply lookup_delete_Some in Hl' as [Hne Hl'].
        split; [|by exists l']. intros ->. apply Hne.
        symmetry. eapply (inv_inj c s l' l p); [apply Hi|done|done].
  - intros l' q Hl' Hr. rewrite R3 in Hl'. apply lookup_delete_Some in Hl' as [Hne Hl'].
    rewrite R4. rewrite lookup_delete_ne; [by eapply (iv_complete c s Hi)|].
    intros He. apply Hne. eapply (inv_unique c s l l'); [done|done|done|].
    rewrite He. by rewrite incomplete_version_idem.
  - intros l' q Hl' Hr. rewrite R3 in Hl'. apply lookup_delete_Some in Hl' as [Hne Hl'].
    rewrite R4, lookup_delete_ne by done. by eapply (iv_open c s Hi).
  - intros l'. rewrite R5, R3. intros Hc. apply hs_contains_remove in Hc as [Hne Hc].
    rewrite lookup_delete_ne by done. by apply (iv_term c s Hi).
  - intros Hk l'. rewrite R5. destruct (hs_contains (hs_remove _ _) _) eqn:E; [|done].
    apply hs_contains_remove in E as [_ E]. by rewrite (iv_keep c s Hi Hk) in E.
Qed.

Lemma inv_set c s p d d' h :
  inv c s -> s_heap s !! p = Some d -> d_label d' = d_label d ->
  d_callbacks d' = d_callbacks d -> dinv c d' h -> inv c (set_dialogue s p d').
Proof.
  intros [] Hp Hl Hcb Hd. split; try done. by eapply inv_any_set.
Qed.

Lemma inv_mark c s l p :
  inv c s -> c_keep c = true -> s_by_label s !! l = Some p -> inv c (mark_terminal s l).
Proof.
  intros [] Hk Hl. split; simpl; try done.
  - by apply inv_any_mark.
  - intros l' Hc. apply hs_contains_add in Hc as [->|Hc]; [|by apply iv_term0].
    by exists p.
  - congruence.
Qed.

(** Appending a message to a stored dialogue always succeeds. *)
Lemma inv_store_update c s p d d' m t h :
  inv c s -> s_heap s !! p = Some d -> s_by_label s !! d_label d = Some p ->
  d_label d' = d_label d -> d_callbacks d' = d_callbacks d -> dinv c d' h ->
  exists s1, store_update c s p (Ok (d', m, t)) = (s1, Ok m) /\ inv c s1.
Proof.
  intros Hi Hp Hl Hdl Hcb Hd. unfold store_update.
  pose proof (inv_set c s p d d' h Hi Hp Hdl Hcb Hd) as Hi1.
  destruct t; [|by eexists].
  destruct (ia_cb c s (iv_any c s Hi) p d Hp) as [Hn _]. rewrite Hcb.
  destruct (d_callbacks d) as [|n]; [done|].
  assert (s_by_label (set_dialogue s p d') !! d_label d' = Some p) as Hl1
    by (simpl; by rewrite Hdl).
  destruct (c_keep c) eqn:Hk.
  - rewrite run_callbacks_keep. eexists. split; [done|]. by eapply inv_mark.
  - rewrite run_callbacks_remove.
    destruct (inv_remove c _ (d_label d') p Hi1 Hl1) as (s' & -> & Hi' & _).
    by eexists.
Qed.

Lemma inv_store_update_res c s p d rr s1 o :
  inv c s -> s_heap s !! p = Some d -> s_by_label s !! d_label d = Some p ->
  (forall d' m t, rr = Ok (d', m, t) ->
     d_label d' = d_label d /\ d_callbacks d' = d_callbacks d /\ exists h, dinv c d' h) ->
  store_update c s p rr = (s1, o) ->
  inv c s1 /\ is_panic o = is_panic rr.
Proof.
  intros Hi Hp Hl Hrr Hs. destruct rr as [[[d' m] t]|e|e].
  - destruct (Hrr d' m t eq_refl) as (H1 & H2 & h & H3).
    destruct (inv_store_update c s p d d' m t h) as (s1' & He & Hi1); try done.
    rewrite He in Hs. injection Hs as <- <-. done.
  - by injection Hs as <- <-.
  - by injection Hs as <- <-.
Qed.

(** Adding a pointer that is in no index, under an unused label. *)
Lemma inv_add_addr c s p d :
  inv c s -> (forall a, p ∉ st_with_counterparty s a) ->
  s_by_label s !! d_label d = None ->
  forall a, NoDup (st_with_counterparty (st_add s p d) a) /\
    forall q, q ∈ st_with_counterparty (st_add s p d) a <->
      exists l, s_by_label (st_add s p d) !! l = Some q /\ lb_opponent l = a.
Proof.
  intros Hi Hnot Hfree a. destruct (iv_addr c s Hi a) as [Hnd Hin].
  rewrite st_add_addr. destruct (decide (a = lb_opponent (d_label d))) as [->|Hne].
  - split.
    + apply NoDup_app. split; [done|]. split; [|apply NoDup_singleton].
      intros x Hx Hx'. apply elem_of_list_singleton in Hx' as ->. by apply (Hnot _) in Hx.
    + intros q. rewrite elem_of_app, elem_of_list_singleton, Hin. split.
      * intros [(l & Hl & Ho) | ->].
        -- exists l. rewrite st_add_lookup, decide_False; [done|]. intros ->. congruence.
        -- exists (d_label d). by rewrite st_add_lookup, decide_True.
      * intros (l & Hl & Ho). rewrite st_add_lookup in Hl.
        destruct (decide (l = d_label d)) as [->|Hne].
        -- right. congruence.
        -- left. by exists l.
  - split; [done|]. intros q. rewrite Hin. split.
    + intros (l & Hl & Ho). exists l. rewrite st_add_lookup, decide_False; [done|].
      intros ->. done.
    + intros (l & Hl & Ho). rewrite st_add_lookup, decide_False in Hl; [by exists l|].
      intros ->. by symmetry in Ho.
Qed.

Lemma fresh_not_indexed c s : inv c s -> forall a, s_next s ∉ st_with_counterparty s a.
Proof.
  intros Hi a Hin. apply (iv_addr c s Hi a) in Hin as (l & Hl & _).
  destruct (ia_label c s (iv_any c s Hi) l _ Hl) as (d & Hd & _).
  pose proof (ia_fresh c s (iv_any c s Hi) (s_next s) (le_n _)). congruence.
Qed.

(** Creation by this agent. *)
Lemma inv_create_self c s r cp role s1 o :
  inv c s -> starter_ref r <> "" -> responder_ref r = "" ->
  create c s (DLabel r cp (c_self c)) role None = (s1, o) ->
  inv c s1 /\
  match o with
  | Ok p => s_by_label s1 !! DLabel r cp (c_self c) = Some p
  | Err _ => s1 = s
  | Panic _ => False
  end.
Proof.
  intros Hi Hr1 Hr2 Hc.
  edestruct (create_spec c s) as (Hic & Hec & Hoc);
    [apply Hi| | | |exact Hc|]; [done|by left|done|].
  revert Hc. unfold create, st_is_in_incomplete, st_is_present.
  set (l := DLabel r cp (c_self c)) in *.
  destruct (s_incomplete s !! l) as [v|] eqn:Ei; [by intros [= <- <-]|].
  destruct (s_by_label s !! l) as [q|] eqn:El; [by intros [= <- <-]|].
  intros [= <- <-].
  set (s0 := Store _ _ _ _ _ _) in *. set (d := new_dialogue _ _ _ _ _ _) in *.
  split; [|by rewrite st_add_lookup, decide_True].
  split.
  - done.
  - change (forall a, NoDup (st_with_counterparty (st_add s (s_next s) d) a) /\
    forall q, q ∈ st_with_counterparty (st_add s (s_next s) d) a <->
      exists l, s_by_label (st_add s (s_next s) d) !! l = Some q /\ lb_opponent l = a).
    apply (inv_add_addr c); [done| |done]. by apply (fresh_not_indexed c).
  - intros l' q Hl' Hr. rewrite st_add_lookup in Hl'.
    destruct (decide (l' = d_label d)) as [->|Hne]; [done|].
    by eapply (iv_complete c s Hi).
  - intros l' q Hl' Hr. rewrite st_add_lookup in Hl'.
    destruct (decide (l' = d_label d)) as [->|Hne]; [by left|].
    by eapply (iv_open c s Hi).
  - intros l' Hl'. rewrite st_add_lookup.
    destruct (decide (l' = d_label d)) as [->|Hne]; [by eexists|].
    by apply (iv_term c s Hi).
  - apply Hi.
Qed.

(** Creation by the peer. *)
Lemma inv_create_opp c s st opp nonce role s1 o :
  inv c s -> st <> "" -> opp <> c_self c ->
  create c s (DLabel (DRef st "") opp opp) role
    (Some (DLabel (DRef st nonce) opp opp)) = (s1, o) ->
  inv c s1 /\
  match o with
  | Ok p => s_by_label s1 !! DLabel (DRef st nonce) opp opp = Some p /\
            s_incomplete s1 = <[DLabel (DRef st "") opp opp := DLabel (DRef st nonce) opp opp]>
                                (s_incomplete s)
  | Err _ => s1 = s /\ is_Some (s_incomplete s !! DLabel (DRef st "") opp opp)
  | Panic _ => False
  end.
Proof.
  intros Hi Hr1 Ho Hc.
  edestruct (create_spec c s) as (Hic & Hec & Hoc);
    [apply Hi| | | |exact Hc|].
  { by intros v [= <-]. }
  { by right. }
  { done. }
  revert Hc. unfold create, st_is_in_incomplete, st_is_present.
  set (l := DLabel (DRef st "") opp opp) in *.
  set (f := DLabel (DRef st nonce) opp opp) in *.
  destruct (s_incomplete s !! l) as [v|] eqn:Ei.
  { intros [= <- <-]. split; [done|]. split; [done|]. by eexists. }
  simpl.
  assert (s_by_label s !! f = None) as Hf.
  { destruct (s_by_label s !! f) as [q|] eqn:El; [|done]. exfalso.
    destruct (decide (nonce = "")) as [->|Hne].
    - destruct (iv_open c s Hi f q El eq_refl) as [[H _]|[_ H]]; [done|].
      change f with l in H. congruence.
    - pose proof (iv_complete c s Hi f q El Hne) as H.
      change (incomplete_version f) with l in H. congruence. }
  rewrite Hf. intros [= <- <-].
  assert (s_by_label s !! l = None) as Hl0.
  { destruct (s_by_label s !! l) as [q|] eqn:El; [|done]. exfalso.
    destruct (iv_open c s Hi l q El eq_refl) as [[H _]|[_ H]]; [done|]. congruence. }
  set (s0 := Store _ _ _ _ _ _) in *. set (d := new_dialogue _ _ _ _ _ _) in *.
  split; [|split; [by rewrite st_add_lookup, decide_True|done]].
  split.
  - done.
  - change (forall a, NoDup (st_with_counterparty (st_add s (s_next s) d) a) /\
    forall q, q ∈ st_with_counterparty (st_add s (s_next s) d) a <->
      exists l, s_by_label (st_add s (s_next s) d) !! l = Some q /\ lb_opponent l = a).
    apply (inv_add_addr c); [done| |done]. by apply (fresh_not_indexed c).
  - intros l' q Hl' Hr. rewrite st_add_lookup in Hl'. simpl.
    destruct (decide (l' = d_label d)) as [->|Hne]; [by rewrite lookup_insert|].
    simpl in Hl'. pose proof (iv_complete c s Hi l' q Hl' Hr) as H.
    rewrite lookup_insert_ne; [done|]. intros He. congruence.
  - intros l' q Hl' Hr. rewrite st_add_lookup in Hl'. simpl.
    destruct (decide (l' = d_label d)) as [->|Hne].
    + right. split; [done|]. simpl in Hr |- *.
      assert (l = f) as Hlf by (subst l f; by rewrite Hr).
      rewrite Hlf. apply lookup_insert.
    + simpl in Hl'. rewrite lookup_insert_ne; [by eapply (iv_open c s Hi)|].
      intros <-. congruence.
  - intros l' Hl'. rewrite st_add_lookup.
    destruct (decide (l' = d_label d)) as [->|Hne]; [by eexists|].
    by apply (iv_term c s Hi).
  - apply Hi.
Qed.

(** Completion. *)
Lemma inv_complete c s m s1 o :
  inv c s -> complete_dialogue_reference c s m = (s1, o) ->
  inv c s1 /\ is_panic o = false.
Proof.
  intros Hi Hc.
  assert (is_panic o = false -> inv c s1) as Hfin.
  { intros Hp. destruct (complete_spec c s m s1 o (iv_any c s Hi) Hc Hp) as (Hic & _ & _).
    revert Hc. unfold complete_dialogue_reference, st_get, st_is_present, st_is_in_incomplete.
    destruct (negb _) eqn:Hn; [by intros [= <- <-]|].
    apply negb_false_iff, andb_true_iff in Hn as [H1 H2].
    apply bool_decide_eq_true in H1. apply bool_decide_eq_true in H2.
    set (inc := DLabel _ _ _).
    destruct (s_by_label s !! inc) as [p|] eqn:Ep; [|by intros [= <- <-]].
    destruct (s_incomplete s !! inc) as [v|] eqn:Ei; [by intros [= <- <-]|]. simpl.
    destruct (ia_label c s (iv_any c s Hi) inc p Ep) as (d & Hd & Hdl). rewrite Hd.
    destruct (inv_remove c s inc p Hi Ep) as (sr & Hsr & Hir & Hmem). rewrite Hsr.
    unfold update_dialogue_label. rewrite Hdl. simpl.
    rewrite bool_decide_eq_false_2 by done. simpl.
    intros [= <- <-].
    apply st_remove_ok in Hsr as (R1 & R2 & R3 & R4 & R5 & R6 & _).
    set (fin := DLabel (m_ref m) _ _) in *.
    set (d' := Dialogue fin _ _ _ _ _ _ _ _) in *.
    assert (incomplete_version fin = inc) as Hfi by done.
    assert (s_by_label s !! fin = None) as Hfin.
    { destruct (s_by_label s !! fin) as [q|] eqn:El; [|done]. exfalso.
      pose proof (iv_complete c s Hi fin q El H2) as H. rewrite Hfi in H. congruence. }
    assert (s_by_label sr !! d_label d' = None) as Hfr.
    { simpl. rewrite R3. rewrite lookup_delete_None. by right. }
    split.
    - done.
    - change (forall a, NoDup (st_with_counterparty (st_add sr p d') a) /\
        forall q, q ∈ st_with_counterparty (st_add sr p d') a <->
          exists l, s_by_label (st_add sr p d') !! l = Some q /\ lb_opponent l = a).
      apply (inv_add_addr c); [done| |done]. intros a Ha. apply Hmem in Ha as [Ha _]. done.
    - intros l' q Hl' Hr.
      change (s_by_label (st_add sr p d') !! l' = Some q) in Hl'.
      rewrite st_add_lookup in Hl'. simpl.
      destruct (decide (l' = d_label d')) as [->|Hne]; [simpl; by rewrite Hfi, lookup_insert|].
      pose proof (iv_complete c sr Hir l' q Hl' Hr) as H.
      rewrite lookup_insert_ne; [done|]. intros He. rewrite <- He, R4, lookup_delete in H. done.
    - intros l' q Hl' Hr.
      change (s_by_label (st_add sr p d') !! l' = Some q) in Hl'.
      rewrite st_add_lookup in Hl'. simpl.
      destruct (decide (l' = d_label d')) as [->|Hne]; [done|].
      rewrite lookup_insert_ne; [by eapply (iv_open c sr Hir)|].
      intros <-. rewrite R3, lookup_delete in Hl'. done.
    - intros l' Hl'. change (is_Some (s_by_label (st_add sr p d') !! l')).
      rewrite st_add_lookup.
      destruct (decide (l' = d_label d')) as [->|Hne]; [by eexists|].
      by apply (iv_term c sr Hir).
    - apply Hir. }
  assert (is_panic o = false) as Hp; [|by split; [apply Hfin|]].
  revert Hc. unfold complete_dialogue_reference, st_get, st_is_present, st_is_in_incomplete.
  destruct (negb _) eqn:Hn; [by intros [= <- <-]|].
  set (inc := DLabel _ _ _).
  destruct (s_by_label s !! inc) as [p|] eqn:Ep; [|by intros [= <- <-]].
  destruct (s_incomplete s !! inc) as [v|] eqn:Ei; [by intros [= <- <-]|]. simpl.
  destruct (ia_label c s (iv_any c s Hi) inc p Ep) as (d & Hd & Hdl). rewrite Hd.
  destruct (inv_remove c s inc p Hi Ep) as (sr & Hsr & Hir & Hmem). rewrite Hsr.
  clear Hn. unfold update_dialogue_label. destruct (_ && _); by intros [= <- <-].
Qed.

Lemma dinv_last_bound c d h :
  dinv c d h -> no_gap d ->
  Z.abs (d_last_id d) <= Z.of_nat (length (d_out d)) + Z.of_nat (length (d_in d)).
Proof.
  intros Hd Hg. pose proof (di_rep c d h Hd) as Hr.
  rewrite (rep_last d h Hr). unfold last_id.
  destruct (last h) as [e|] eqn:El; [|simpl; lia].
  apply last_Some in El as [h' ->].
  destruct e as [[|] m]; simpl.
  - assert (last (messages_of Me (h' ++ [Entry Me m])) = Some m) as Hl.
    { rewrite messages_of_app, messages_of_one. simpl. apply last_app_one. }
    pose proof (sent_last c (d_label d) _ m (di_conv c d _ Hd) Hl) as Hs.
    rewrite <- (rep_out d _ Hr) in Hs. lia.
  - assert (last (messages_of Peer (h' ++ [Entry Peer m])) = Some m) as Hl.
    { rewrite messages_of_app, messages_of_one. simpl. apply last_app_one. }
    rewrite <- (rep_in d _ Hr) in Hl. apply Hg in Hl. lia.
Qed.

Lemma gap_free_new d : d_in d = [] -> no_gap d.
Proof. unfold no_gap. by intros ->. Qed.

Lemma inv_create_dialogue c s cp m s1 o :
  inv c s -> m_sender m = c_self c ->
  create_dialogue c s cp m = (s1, o) ->
  inv c s1 /\ (m_target m <> min_int -> is_panic o = false).
Proof.
  intros Hi Hself. unfold create_dialogue, create_self_initiated.
  destruct (negb _) eqn:Hn; [by intros [= <- <-]|].
  apply negb_false_iff, andb_true_iff in Hn as [H1 H2].
  apply bool_decide_eq_true in H1. apply bool_decide_eq_true in H2.
  destruct (create c s _ _ None) as [sc oc] eqn:Ec.
  edestruct (create_spec c s) as (Hic & Hec & Hoc); [apply Hi| | | |exact Ec|];
    [done|by left|done|].
  destruct (inv_create_self c s (m_ref m) cp _ sc oc Hi H1 H2 Ec) as [Hiv Hst].
  destruct oc as [p|e|e]; [|by intros [= <- <-]|done].
  destruct Hoc as (_ & _ & _ & d & Hd & Hdi & Hdl). rewrite Hd.
  destruct (store_update c sc p (dialogue_update d m)) as [su ou] eqn:Eu.
  assert (presented c m) as Hpr by (by left).
  destruct (inv_store_update_res c sc p d (dialogue_update d m) su ou Hiv Hd) as [Hiu Hpu];
    [by rewrite Hdl| |done|].
  { intros d' m' t Hu.
    destruct (update_dinv c d [] m d' m' t Hdi Hpr) as (-> & -> & _ & Hd'); try done.
    { intros _ _. by rewrite Hdl. }
    split; [done|]. split; [done|]. by eexists. }
  assert (m_target m <> min_int -> is_panic ou = false) as Hnp.
  { intros Ht. rewrite Hpu. eapply update_no_panic; [done| |done].
    apply gap_free_new. by rewrite (rep_in d [] (di_rep c d [] Hdi)). }
  destruct ou as [m'|e|e]; intros [= <- <-]; (split; [done|]); done.
Qed.

Lemma inv_update_found c s m is_new found s1 r :
  inv c s ->
  m_sender m <> c_self c -> m_sender m <> "" -> m_to m = c_self c ->
  (forall p, found = Some p -> exists d, s_heap s !! p = Some d /\
     lb_opponent (d_label d) = m_sender m /\ s_by_label s !! d_label d = Some p) ->
  update_found c s m is_new found = (s1, r) ->
  inv c s1 /\
  (m_target m <> min_int ->
   (forall p d, found = Some p -> s_heap s !! p = Some d -> no_gap d) ->
   is_panic r = false).
Proof.
  intros Hi H1 H2 H3 Hf. unfold update_found. destruct found as [p|].
  2:{ by intros [= <- <-]. }
  destruct (Hf p eq_refl) as (d & Hd & Hopp & Hst). rewrite Hd.
  destruct (store_update c s p (dialogue_update d m)) as [su ou] eqn:Eu.
  destruct (ia_dlg c s (iv_any c s Hi) p d Hd) as (h & Hh).
  assert (presented c m) as Hpr by (right; done).
  assert (from_of c m = Peer) as Hfr by (unfold from_of; by rewrite decide_False).
  destruct (inv_store_update_res c s p d (dialogue_update d m) su ou Hi Hd Hst) as [Hiu Hpu];
    [|done|].
  { intros d' m' t Hu.
    destruct (update_dinv c d h m d' m' t Hh Hpr) as (-> & -> & _ & Hd'); try done;
      try (rewrite Hfr; done).
    split; [done|]. split; [done|]. by eexists. }
  assert (m_target m <> min_int ->
     (forall q x, Some p = Some q -> s_heap s !! q = Some x -> no_gap x) ->
     is_panic ou = false) as Hnp.
  { intros Ht Hg. rewrite Hpu. eapply update_no_panic; [done| |done]. by eapply Hg. }
  destruct ou as [m'|e|e].
  - by intros [= <- <-].
  - assert (su = s) as ->.
    { unfold store_update in Eu. destruct (dialogue_update d m) as [[[d' m'] t]|e1|e1] eqn:Ed.
      - destruct (update_dinv c d h m d' m' t Hh Hpr) as (-> & -> & _ & Hd'); try done;
          try (rewrite Hfr; done).
        destruct (inv_store_update c s p d (append_message d m) m t _ Hi Hd Hst eq_refl eq_refl Hd')
          as (sx & Hsx & _). unfold store_update in Hsx. rewrite Hsx in Eu. done.
      - by injection Eu as <- <-.
      - done. }
    destruct is_new; [|by intros [= <- <-]].
    destruct (inv_remove c s (d_label d) p Hi Hst) as (s2 & -> & Hi2 & _).
    by intros [= <- <-].
  - intros [= <- <-]. done.
Qed.

Lemma inv_step c s o s' r :
  inv c s -> reply_in_store s o -> step c s o = (s', r) ->
  inv c s' /\
  (call_in_range o -> (forall p d, s_heap s !! p = Some d -> gap_free d) ->
   is_panic r = false).
Proof.
  intros Hi Hrs Hs. destruct o as [nonce cp p|cp m|nonce m|p perf tm tp]; simpl in Hs.
  - unfold api_create in Hs. set (m := Msg _ _ _ _ _ _) in *.
    destruct (create_dialogue c s cp m) as [sc oc] eqn:Ec.
    destruct (inv_create_dialogue c s cp m sc oc Hi eq_refl Ec) as [Hic Hpc].
    assert (is_panic oc = false) as Hp by (by apply Hpc).
    destruct oc as [q|e|e]; [| |done]; by injection Hs as <- <-.
  - unfold api_create_with in Hs.
    destruct (set_sender m (c_self c)) as [m1|e|e] eqn:E1.
    2: by injection Hs as <- <-.
    2:{ unfold set_sender in E1. by destruct (bool_decide _). }
    destruct (set_to m1 cp) as [m2|e|e] eqn:E2.
    2: by injection Hs as <- <-.
    2:{ unfold set_to in E2. by destruct (bool_decide _). }
    assert (m_sender m2 = c_self c /\ m_target m2 = m_target m) as [Hm2 Ht2].
    { unfold set_sender in E1. destruct (bool_decide _); [done|]. injection E1 as <-.
      unfold set_to in E2. destruct (bool_decide _); [done|]. by injection E2 as <-. }
    destruct (create_dialogue c s cp m2) as [sc oc] eqn:Ec.
    destruct (inv_create_dialogue c s cp m2 sc oc Hi Hm2 Ec) as [Hic Hpc].
    rewrite Ht2 in Hpc.
    destruct oc as [q|e|e]; injection Hs as <- <-; (split; [done|]); try done.
    intros Hr _. by apply Hpc.
  - unfold api_update in Hs.
    destruct (negb (has_sender m && negb (ds_is_by_self c m))) eqn:Hn;
      [by injection Hs as <- <-|].
    apply negb_false_iff, andb_true_iff in Hn as [H1 H2].
    unfold has_sender in H1. apply bool_decide_eq_true in H1.
    unfold ds_is_by_self in H2. apply negb_true_iff, bool_decide_eq_false in H2.
    destruct (negb (has_to m)); [by injection Hs as <- <-|].
    destruct (negb (bool_decide (m_to m = c_self c))) eqn:Hn; [by injection Hs as <- <-|].
    apply negb_false_iff, bool_decide_eq_true in Hn.
    match type of Hs with context [update_found c s m ?b None] => set (is_new := b) in * end.
    simpl.
    assert (forall sx found s1 r1, inv c sx ->
        (exists g, effect c s sx (m_sender m) g /\ g = None) ->
        (forall p, found = Some p -> exists d, s_heap sx !! p = Some d /\
           lb_opponent (d_label d) = m_sender m /\ s_by_label sx !! d_label d = Some p) ->
        update_found c sx m is_new found = (s1, r1) ->
        inv c s1 /\ (m_target m <> min_int ->
          (forall p d, s_heap s !! p = Some d -> gap_free d) -> is_panic r1 = false)) as Huf.
    { intros sx found s1 r1 Hix (g & He & ->) Hfx Hu.
      destruct (inv_update_found c sx m is_new found s1 r1 Hix H2 H1 Hn Hfx Hu) as [Hi1 Hp1].
      split; [done|]. intros Ht Hg. apply Hp1; [done|].
      intros q d _ Hd. destruct (s_heap s !! q) as [d0|] eqn:E0.
      - destruct (ef_old _ _ _ _ _ He q d0 E0) as (d' & Hd' & _ & _ & _ & _ & Hm1 & Hm2 & _).
        rewrite Hd in Hd'. injection Hd' as <-.
        destruct (Hg q d0 E0) as [Hng _]. unfold no_gap in *. by rewrite Hm2.
      - destruct (ef_new _ _ _ _ _ He q d E0 Hd) as (_ & _ & _ & _ & Hm & _).
        by apply gap_free_new. }
    assert (forall sx p, inv c sx -> get_dialogue c sx m = Some p ->
        exists d, s_heap sx !! p = Some d /\ lb_opponent (d_label d) = m_sender m /\
                  s_by_label sx !! d_label d = Some p) as Hgd.
    { intros sx p Hix Hg.
      destruct (get_dialogue_opponent c sx m p (iv_any c sx Hix) Hg) as (d & Hd & Ho & Hl).
      exists d. split; [done|]. split; [|done]. rewrite Ho.
      unfold ds_counterparty, ds_is_by_self. by rewrite bool_decide_eq_false_2. }
    destruct (_ && _) eqn:Hinv in Hs.
    { eapply Huf; [exact Hi|exists None; split; [apply effect_refl|done]| |exact Hs]. done. }
    destruct is_new eqn:Hnew.
    { unfold create_opponent_initiated in Hs.
      destruct (negb _) eqn:Hn2 in Hs; [by injection Hs as <- <-|].
      apply negb_false_iff, andb_true_iff in Hn2 as [H3 H4].
      apply bool_decide_eq_true in H3. apply bool_decide_eq_true in H4.
      destruct (m_ref m) as [rs rr] eqn:Eref. simpl in H3, H4. cbn [starter_ref] in Hs. rewrite H4 in Hs.
      destruct (create c s _ _ _) as [sc oc] eqn:Ec.
      edestruct (create_spec c s) as (Hic & Hec & Hoc); [apply Hi| | | |exact Ec|].
      { by intros v [= <-]. }
      { by right. }
      { done. }
      destruct (inv_create_opp c s rs (m_sender m) nonce _ sc oc Hi H3 H2 Ec) as [Hiv Hst].
      destruct oc as [p|e|e]; [|by injection Hs as <- <-|done].
      destruct Hoc as (_ & _ & _ & d & Hd & _ & Hdl). destruct Hst as [Hst _].
      eapply Huf; [exact Hiv|exists None; done| |exact Hs].
      intros q [= <-]. exists d. split; [done|]. rewrite Hdl. done. }
    destruct (_ && _) eqn:Hini in Hs.
    { eapply Huf; [exact Hi|exists None; split; [apply effect_refl|done]| |exact Hs].
      intros p. by apply Hgd. }
    destruct (complete_dialogue_reference c s m) as [sc oc] eqn:Ec.
    destruct (inv_complete c s m sc oc Hi Ec) as [Hiv Hpo].
    destruct (complete_spec c s m sc oc (iv_any c s Hi) Ec Hpo) as (_ & Hec & _).
    destruct oc as [u|e|e]; [|by injection Hs as <- <-|done].
    eapply Huf; [exact Hiv|exists None; done| |exact Hs]. intros p. by apply Hgd.
  - unfold api_reply in Hs. destruct (s_heap s !! p) as [d|] eqn:Hd; [|by injection Hs as <- <-].
    destruct (store_update c s p _) as [su ou] eqn:Eu.
    destruct Hrs as [l Hl].
    destruct (ia_label c s (iv_any c s Hi) l p Hl) as (d1 & Hd1 & Hl1).
    rewrite Hd in Hd1. injection Hd1 as <-.
    destruct (ia_dlg c s (iv_any c s Hi) p d Hd) as (h & Hh).
    destruct (inv_store_update_res c s p d (dialogue_reply d perf tm tp) su ou Hi Hd)
      as [Hiu Hpu]; [by rewrite Hl1| |done|].
    { intros d' m' t Hu.
      destruct (reply_result c d h perf tm tp d' m' t Hh Hu)
        as (le & _ & _ & _ & _ & -> & _ & Hd').
      split; [done|]. split; [done|]. by eexists. }
    assert (call_in_range (OpReply p perf tm tp) ->
            (forall p d, s_heap s !! p = Some d -> gap_free d) -> is_panic ou = false) as Hnp.
    { intros [Hr1 Hr2] Hg. rewrite Hpu. destruct (Hg p d Hd) as [Hng Hlen].
      eapply reply_no_panic; try done.
      pose proof (dinv_last_bound c d h Hh Hng) as Hb. intros He. rewrite He in Hb.
      unfold min_int in Hb. lia. }
    destruct ou as [m|e|e]; injection Hs as <- <-; done.
Qed.

Lemma reachable_inv c s : reachable c s -> inv c s.
Proof.
  induction 1 as [|s o s' r _ IH Hr Hs Hp]; [apply inv_empty|].
  by apply (inv_step c s o s' r IH Hr Hs).
Qed.
