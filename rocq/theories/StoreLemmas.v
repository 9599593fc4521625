(** Lemmas about single API calls, used by the property theorems of the store. *)
From Coq Require Import ZArith List String Lia.
From stdpp Require Import base tactics gmap strings list.
From Verif Require Import GoBase SetModel DialogueModel StoreModel DialogueSpec
  DialogueProofs StoreProofs StoreInv TraceProofs TermProofs DialogueLemmas.
Open Scope Z_scope.

(** A message of another agent, addressed to this one. *)
Definition from_other (c : config) (m : message) : Prop :=
  m_sender m <> "" /\ m_sender m <> c_self c /\ m_to m = c_self c.

Lemma api_update_complete_ref c s nonce m :
  from_other c m -> starter_ref (m_ref m) <> "" -> responder_ref (m_ref m) <> "" ->
  api_update c s nonce m =
  match complete_dialogue_reference c s m with
  | (s1, Ok _) => update_found c s1 m false (get_dialogue c s1 m)
  | (s1, Err e) => (s1, Err e)
  | (s1, Panic e) => (s1, Panic e)
  end.
Proof.
  intros (H1 & H2 & H3) H4 H5. unfold api_update, has_sender, has_to, ds_is_by_self.
  rewrite (bool_decide_eq_true_2 (m_sender m <> "")) by done.
  rewrite (bool_decide_eq_false_2 (m_sender m = c_self c)) by done.
  rewrite (bool_decide_eq_true_2 (m_to m = c_self c)) by done.
  unfold unassigned.
  rewrite (bool_decide_eq_true_2 (starter_ref (m_ref m) <> "")) by done.
  rewrite (bool_decide_eq_true_2 (responder_ref (m_ref m) <> "")) by done.
  simpl. done.
Qed.

Lemma api_update_opening c s nonce m :
  from_other c m -> starter_ref (m_ref m) <> "" -> responder_ref (m_ref m) = "" ->
  m_id m = 1 ->
  api_update c s nonce m =
  match create c s (DLabel (DRef (starter_ref (m_ref m)) "") (m_sender m) (m_sender m))
          (c_role c m (c_self c))
          (Some (DLabel (DRef (starter_ref (m_ref m)) nonce) (m_sender m) (m_sender m))) with
  | (s1, Ok p) => update_found c s1 m true (Some p)
  | (s1, Err e) => (s1, Err e)
  | (s1, Panic e) => (s1, Panic e)
  end.
Proof.
  intros (H1 & H2 & H3) H4 H5 H6. unfold api_update, has_sender, has_to, ds_is_by_self.
  rewrite (bool_decide_eq_true_2 (m_sender m <> "")) by done.
  rewrite (bool_decide_eq_false_2 (m_sender m = c_self c)) by done.
  rewrite (bool_decide_eq_true_2 (m_to m = c_self c)) by done.
  unfold create_opponent_initiated, unassigned.
  rewrite (bool_decide_eq_true_2 (starter_ref (m_ref m) <> "")) by done.
  rewrite (bool_decide_eq_false_2 (responder_ref (m_ref m) <> "")) by (by intros ?).
  rewrite (bool_decide_eq_true_2 (responder_ref (m_ref m) = "")) by done.
  rewrite H6. simpl.
  replace (m_ref m) with (DRef (starter_ref (m_ref m)) "") at 1; [done|].
  destruct (m_ref m) as [a b]. simpl in *. by rewrite H5.
Qed.

(** An opening that has already been seen is rejected without any effect. *)
Lemma opening_rejected c s nonce m v :
  from_other c m -> starter_ref (m_ref m) <> "" -> responder_ref (m_ref m) = "" ->
  m_id m = 1 ->
  s_incomplete s !! DLabel (DRef (starter_ref (m_ref m)) "") (m_sender m) (m_sender m)
    = Some v ->
  exists e, api_update c s nonce m = (s, Err e).
Proof.
  intros Ho H1 H2 H3 Hk. rewrite api_update_opening by done.
  unfold create, st_is_in_incomplete. rewrite Hk. by eexists.
Qed.

(** After an opening with a proper nonce, accepted or not, the reference is
    remembered. *)
Lemma opening_remembered c s nonce m s1 r :
  inv c s -> from_other c m -> starter_ref (m_ref m) <> "" -> responder_ref (m_ref m) = "" ->
  m_id m = 1 -> nonce <> "" ->
  api_update c s nonce m = (s1, r) -> is_panic r = false ->
  let k := DLabel (DRef (starter_ref (m_ref m)) "") (m_sender m) (m_sender m) in
  (exists v, s_incomplete s !! k = Some v /\ is_err r = true /\ s1 = s) \/
  s_incomplete s1 !! k =
    Some (DLabel (DRef (starter_ref (m_ref m)) nonce) (m_sender m) (m_sender m)).
Proof.
  intros Hi Ho H1 H2 H3 Hn Hs Hp k.
  destruct (s_incomplete s !! k) as [v|] eqn:Ek.
  { left. exists v. destruct (opening_rejected c s nonce m v Ho H1 H2 H3 Ek) as [e He].
    rewrite He in Hs. injection Hs as <- <-. done. }
  right. set (v := DLabel _ _ _).
  rewrite api_update_opening in Hs by done. fold k in Hs. fold v in Hs.
  destruct Ho as (Ho1 & Ho2 & Ho3).
  destruct (create c s k _ (Some v)) as [sc oc] eqn:Ec.
  edestruct (create_spec c s) as (Hic & Hec & Hoc); [apply Hi| | | |exact Ec|].
  { by intros ? [= <-]. }
  { by right. }
  { done. }
  destruct (inv_create_opp c s (starter_ref (m_ref m)) (m_sender m) nonce _ sc oc Hi H1 Ho2 Ec)
    as [Hiv Hst].
  destruct oc as [p|e|e]; [| |done].
  2:{ destruct Hst as [_ [x Hx]]. unfold k in Ek. congruence. }
  destruct Hst as [Hst Hinc]. destruct Hoc as (_ & _ & _ & d & Hd & _ & Hdl).
  assert (s_incomplete sc !! k = Some v) as Hk by (rewrite Hinc; apply lookup_insert).
  edestruct (update_found_evo c sc m true (Some p)) as [(q & d1 & [= <-] & Hd1 & _ & Hr & Hrm)|[He _]];
    [exact Hiv|done|done|done| |exact Hs|done| |].
  - intros q [= <-]. exists d. split; [done|]. by rewrite Hdl.
  - rewrite Hd in Hd1. injection Hd1 as <-. rewrite Hdl in Hrm.
    by eapply (remove_persist c sc _ p s1 Hiv Hst Hrm).
  - by eapply ev_persist.
Qed.

(** A rejected opening leaves no dialogue behind. *)
Lemma rejected_opening_gone c s nonce m s1 r :
  inv c s -> from_other c m -> starter_ref (m_ref m) <> "" -> responder_ref (m_ref m) = "" ->
  m_id m = 1 ->
  api_update c s nonce m = (s1, r) -> is_err r = true ->
  s_by_label s1 = s_by_label s.
Proof.
  intros Hi Ho H1 H2 H3 Hs Hp.
  rewrite api_update_opening in Hs by done.
  destruct Ho as (Ho1 & Ho2 & Ho3).
  destruct (create c s _ _ _) as [sc oc] eqn:Ec.
  edestruct (create_spec c s) as (Hic & Hec & Hoc); [apply Hi| | | |exact Ec|].
  { by intros ? [= <-]. }
  { by right. }
  { done. }
  destruct (inv_create_opp c s (starter_ref (m_ref m)) (m_sender m) nonce _ sc oc Hi H1 Ho2 Ec)
    as [Hiv Hst].
  destruct oc as [p|e|e]; [| |done].
  2:{ destruct Hst as [-> _]. by injection Hs as <- <-. }
  destruct Hst as [Hst Hinc]. destruct Hoc as (-> & Hnone & _ & d & Hd & _ & Hdl).
  edestruct (update_found_evo c sc m true (Some (s_next s)))
    as [(q & d1 & [= <-] & Hd1 & _ & Hr & Hrm)|[He Hne]];
    [exact Hiv|done|done|done| |exact Hs|by destruct r| |].
  - intros q [= <-]. exists d. split; [done|]. by rewrite Hdl.
  - rewrite Hd in Hd1. injection Hd1 as <-. rewrite Hdl in Hrm.
    apply st_remove_ok in Hrm as (_ & _ & -> & _).
    assert (s_by_label s !! DLabel (DRef (starter_ref (m_ref m)) nonce) (m_sender m) (m_sender m)
            = None) as Hnl.
    { destruct (s_by_label s !! _) as [q|] eqn:E; [|done]. exfalso.
      destruct (ev_kept c s sc None (evo_create_opp _ _ _ _ _ _ _ _ Hi Ho2 Ec) _ q E)
        as [(l' & He & Hl')|(_ & ? & [=] & _)].
      destruct (ia_label c s (iv_any c s Hi) _ q E) as (x & Hx & Hxl).
      destruct (ia_label c sc (iv_any c sc Hiv) _ q Hl') as (y & Hy & Hyl).
      revert Ec. unfold create, st_is_in_incomplete, st_is_present.
      destruct (s_incomplete s !! _); [done|]. simpl. rewrite E. done. }
    revert Ec. unfold create, st_is_in_incomplete, st_is_present.
    destruct (s_incomplete s !! _); [done|]. simpl. rewrite Hnl.
    intros [= <-]. simpl. by rewrite delete_insert.
  - specialize (Hne eq_refl). congruence.
Qed.

(** * Finding the dialogue of a message *)

Lemma latest_complete c s l :
  inv_any c s -> responder_ref (lb_ref l) <> "" -> st_latest_label s l = l.
Proof.
  intros Hi Hr. unfold st_latest_label. destruct (s_incomplete s !! l) as [v|] eqn:E; [|done].
  apply (ia_incomplete c s Hi) in E. rewrite E in Hr. done.
Qed.

(** No dialogue started by this agent towards [opp] uses starter reference [st]. *)
Definition no_own_with (c : config) (s : store) (opp : address) (st : string) : Prop :=
  forall l p, s_by_label s !! l = Some p -> lb_opponent l = opp ->
    lb_starter l = c_self c -> starter_ref (lb_ref l) <> st.

(** A message with the complete reference of a stored dialogue is passed to it. *)
Lemma update_routed c s nonce m l p :
  inv c s -> s_by_label s !! l = Some p ->
  from_other c m -> m_sender m = lb_opponent l -> m_ref m = lb_ref l ->
  starter_ref (lb_ref l) <> "" -> responder_ref (lb_ref l) <> "" ->
  (lb_starter l <> c_self c ->
     no_own_with c s (lb_opponent l) (starter_ref (lb_ref l))) ->
  api_update c s nonce m = update_found c s m false (Some p).
Proof.
  intros Hi Hl Ho Hs Hr H1 H2 Hno.
  rewrite api_update_complete_ref; [|done|by rewrite Hr|by rewrite Hr].
  destruct (ia_label c s (iv_any c s Hi) l p Hl) as (d & Hd & Hdl).
  destruct (ia_dlg c s (iv_any c s Hi) p d Hd) as (h & Hh).
  pose proof (di_label c d h Hh) as Hlo. rewrite Hdl in Hlo.
  assert (complete_dialogue_reference c s m = (s, Ok tt)) as ->.
  { unfold complete_dialogue_reference, st_is_present, st_is_in_incomplete, unassigned.
    rewrite Hr, Hs. rewrite !bool_decide_eq_true_2 by done. simpl.
    destruct (s_by_label s !! DLabel (DRef (starter_ref (lb_ref l)) "") (lb_opponent l) (c_self c))
      as [q|] eqn:E; [|done].
    destruct (decide (lb_starter l = c_self c)) as [Est|Est].
    - pose proof (iv_complete c s Hi l p Hl H2) as Hc. unfold incomplete_version in Hc.
      rewrite Est in Hc. unfold unassigned in Hc. rewrite Hc. done.
    - exfalso. by apply (Hno Est _ q E). }
  f_equal. unfold get_dialogue, ds_counterparty, ds_is_by_self, st_get.
  destruct Ho as (Ho1 & Ho2 & Ho3).
  rewrite (bool_decide_eq_false_2 (m_sender m = c_self c)) by done.
  rewrite Hr, Hs. rewrite !(latest_complete c) by (apply Hi || done).
  destruct (decide (lb_starter l = c_self c)) as [Est|Est].
  - assert (DLabel (lb_ref l) (lb_opponent l) (c_self c) = l) as ->.
    { destruct l; simpl in *; congruence. }
    by rewrite Hl.
  - destruct (s_by_label s !! DLabel (lb_ref l) (lb_opponent l) (c_self c)) as [q|] eqn:E.
    { exfalso. by apply (Hno Est _ q E). }
    assert (DLabel (lb_ref l) (lb_opponent l) (lb_opponent l) = l) as ->.
    { destruct Hlo as [Hlo|[Hlo _]]; [done|]. destruct l; simpl in *; congruence. }
    done.
Qed.

(** Which messages [Update] accepts into a stored dialogue. *)
Lemma update_accepts_iff c s nonce m l p d h :
  inv c s -> s_by_label s !! l = Some p -> s_heap s !! p = Some d -> dinv c d h ->
  h <> [] ->
  from_other c m -> m_sender m = lb_opponent l -> m_ref m = lb_ref l ->
  starter_ref (lb_ref l) <> "" -> responder_ref (lb_ref l) <> "" ->
  (lb_starter l <> c_self c ->
     no_own_with c s (lb_opponent l) (starter_ref (lb_ref l))) ->
  (api_update c s nonce m).2 = Ok (None, Some p) <->
  m_id m = demanded_id c l Peer h /\ target_ok c l h m.
Proof.
  intros Hi Hl Hd Hh Hne Ho Hs Hr H1 H2 Hno.
  rewrite (update_routed c s nonce m l p) by done.
  destruct (ia_label c s (iv_any c s Hi) l p Hl) as (d0 & Hd0 & Hdl).
  rewrite Hd in Hd0. injection Hd0 as <-.
  destruct Ho as (Ho1 & Ho2 & Ho3).
  pose proof (incoming_accept_iff c d h m Hh) as Hiff. rewrite Hdl in Hiff.
  unfold update_found. rewrite Hd.
  assert (ref_fits c l (m_ref m)) as Hfit.
  { rewrite Hr. split; [done|]. right. by right. }
  assert (is_ok (dialogue_update d m) = true <->
          m_id m = demanded_id c l Peer h /\ target_ok c l h m) as Hiff'.
  { rewrite Hiff; [|congruence|done..]. tauto. }
  rewrite <- Hiff'. clear Hiff Hiff'.
  assert (presented c m) as Hpr by (right; done).
  assert (from_of c m = Peer) as Hfr by (unfold from_of; by rewrite decide_False).
  destruct (dialogue_update d m) as [[[d' m'] t]|e|e] eqn:Ed; simpl; [|done..].
  destruct (update_dinv c d h m d' m' t Hh Hpr) as (-> & -> & Ht & Hd'); try done;
    try (rewrite Hfr; done).
  destruct (inv_store_update c s p d (append_message d m) m t (h ++ [Entry (from_of c m) m]))
    as (s1 & He & _); try done; [by rewrite Hdl|].
  change (set_dialogue s p (append_message d m)) with (set_dialogue s p (append_message d m)).
  unfold store_update in He. rewrite He. done.
Qed.

(** * Completion of references *)

(** The first message with a complete reference renames the dialogue, whether or
    not the message is accepted. *)
Lemma update_completes c s nonce m l p s1 r :
  inv c s -> s_by_label s !! l = Some p ->
  lb_starter l = c_self c -> responder_ref (lb_ref l) = "" ->
  from_other c m -> m_sender m = lb_opponent l ->
  starter_ref (m_ref m) = starter_ref (lb_ref l) -> starter_ref (lb_ref l) <> "" ->
  responder_ref (m_ref m) <> "" ->
  api_update c s nonce m = (s1, r) -> is_panic r = false ->
  let l' := DLabel (m_ref m) (lb_opponent l) (c_self c) in
  s_by_label s1 !! l = None /\
  (exists d, s_heap s1 !! p = Some d /\ d_label d = l') /\
  s_incomplete s1 !! l = Some l' /\
  (is_ok r = false -> s_by_label s1 !! l' = Some p).
Proof.
  intros Hi Hl Hst Hre Ho Hs Hsr Hsne Hrr Hu Hp l'.
  rewrite api_update_complete_ref in Hu; [|done|congruence|done].
  destruct Ho as (Ho1 & Ho2 & Ho3).
  destruct (ia_label c s (iv_any c s Hi) l p Hl) as (d & Hd & Hdl).
  assert (DLabel (DRef (starter_ref (m_ref m)) "") (m_sender m) (c_self c) = l) as Hinc.
  { destruct l as [[a b] o st]. simpl in *. congruence. }
  destruct (complete_dialogue_reference c s m) as [sc oc] eqn:Ec.
  destruct (inv_complete c s m sc oc Hi Ec) as [Hic Hpc].
  assert (s_by_label sc !! l' = Some p /\ s_by_label sc !! l = None /\
          s_incomplete sc !! l = Some l' /\ oc = Ok tt) as (Hc1 & Hc2 & Hc3 & ->).
  { revert Ec. unfold complete_dialogue_reference, st_get, st_is_present, st_is_in_incomplete,
      unassigned.
    rewrite (bool_decide_eq_true_2 (starter_ref (m_ref m) <> "")) by congruence.
    rewrite (bool_decide_eq_true_2 (responder_ref (m_ref m) <> "")) by done.
    simpl. rewrite Hinc, Hl.
    destruct (iv_open c s Hi l p Hl Hre) as [[_ Hni]|[Hni _]]; [|done]. rewrite Hni. simpl.
    rewrite Hd. destruct (inv_remove c s l p Hi Hl) as (sr & Hsr' & Hir & Hmem). rewrite Hsr'.
    unfold update_dialogue_label. rewrite Hdl. unfold unassigned.
    rewrite (bool_decide_eq_true_2 (responder_ref (lb_ref l) = "")) by done. simpl.
    rewrite bool_decide_eq_false_2 by done. simpl.
    intros [= <- <-]. apply st_remove_ok in Hsr' as (_ & _ & R3 & R4 & _).
    assert (DLabel (m_ref m) (m_sender m) (c_self c) = l') as -> by (unfold l'; congruence).
    simpl.
    split; [by rewrite lookup_insert|].
    assert (l' <> l) as Hne by (intros E; rewrite <- E in Hre; done).
    split; [|split; [by rewrite lookup_insert|done]].
    rewrite lookup_insert_ne by done. rewrite R3. by rewrite lookup_delete. }
  destruct (ia_label c sc (iv_any c sc Hic) l' p Hc1) as (dc & Hdc & Hdcl).
  assert (forall q, get_dialogue c sc m = Some q -> exists d, s_heap sc !! q = Some d /\
     lb_opponent (d_label d) = m_sender m /\ s_by_label sc !! d_label d = Some q) as Hgd.
  { intros q Hg.
    destruct (get_dialogue_opponent c sc m q (iv_any c sc Hic) Hg) as (x & Hx & Hxo & Hxl).
    exists x. split; [done|]. split; [|done]. rewrite Hxo.
    unfold ds_counterparty, ds_is_by_self. by rewrite bool_decide_eq_false_2. }
  destruct (update_found_evo c sc m false (get_dialogue c sc m) s1 r Hic Ho2 Ho1 Ho3 Hgd Hu Hp)
    as [(? & ? & _ & _ & [=] & _)|[He _]].
  destruct (update_found_spec c sc sc m false (get_dialogue c sc m) s1 r)
    as [Hi1 Hef]; try done; [apply Hic|apply effect_refl| |].
  { intros q Hq. destruct (Hgd q Hq) as (x & Hx & Hxo & _). by exists x. }
  assert (exists g, effect c sc s1 (m_sender m) g) as [g Hg].
  { destruct r as [[om [q|]]|e|e]; [destruct Hef as (_ & _ & Hef)| | |]; by eexists. }
  destruct (ef_old _ _ _ _ _ Hg p dc Hdc) as (d1 & Hd1 & _ & Hev & _).
  assert (d_label d1 = l') as Hd1l.
  { rewrite Hdcl in Hev. destruct Hev as [->|(_ & Hev & _)]; [done|]. by destruct Hrr. }
  assert (inv c s1) as Hinv1.
  { by apply (inv_update_found c sc m false (get_dialogue c sc m) s1 r Hic Ho2 Ho1 Ho3 Hgd Hu). }
  split; [|split; [by exists d1|split; [by eapply (ev_persist _ _ _ _ He)|]]].
  - destruct (s_by_label s1 !! l) as [q|] eqn:E; [|done]. exfalso.
    pose proof (ev_persist _ _ _ _ He l l' Hc3 Hrr) as Hk.
    destruct (iv_open c s1 Hinv1 l q E Hre) as [[_ Hni]|[Hni _]]; [congruence|done].
  - intros Hr. destruct (ev_kept _ _ _ _ He l' p Hc1) as [(l2 & Hl2 & Hst2)|(_ & m' & Hg' & _)].
    + destruct (ia_label c s1 (iv_any c s1 Hinv1) l2 p Hst2) as (d2 & Hd2 & Hd2l). congruence.
    + destruct r as [[om [q|]]|e|e]; done.
Qed.

(** Once a reference is completed, messages with another responder reference
    reach no dialogue. *)
Lemma update_other_reference c s nonce m k l' :
  inv c s -> s_incomplete s !! k = Some l' -> lb_starter k = c_self c ->
  from_other c m -> m_sender m = lb_opponent k ->
  starter_ref (m_ref m) = starter_ref (lb_ref k) -> starter_ref (m_ref m) <> "" ->
  responder_ref (m_ref m) <> "" ->
  m_ref m <> lb_ref l' ->
  s_by_label s !! DLabel (m_ref m) (m_sender m) (m_sender m) = None ->
  api_update c s nonce m = (s, Ok (None, None)).
Proof.
  intros Hi Hk Hst Ho Hs Hsr Hsne Hrr Hneq Hnopp.
  rewrite api_update_complete_ref by done.
  pose proof (ia_incomplete c s (iv_any c s Hi) k l' Hk) as Hkv.
  assert (DLabel (DRef (starter_ref (m_ref m)) "") (m_sender m) (c_self c) = k) as Hinc.
  { assert (responder_ref (lb_ref k) = "") as Hke by (by rewrite Hkv).
    destruct k as [[a b] o st]. simpl in *. congruence. }
  assert (complete_dialogue_reference c s m = (s, Ok tt)) as ->.
  { unfold complete_dialogue_reference, st_is_in_incomplete, unassigned.
    rewrite !bool_decide_eq_true_2 by done. simpl. rewrite Hinc, Hk. simpl.
    by rewrite andb_false_r. }
  assert (get_dialogue c s m = None) as ->; [|done].
  unfold get_dialogue, ds_counterparty, ds_is_by_self, st_get.
  destruct Ho as (Ho1 & Ho2 & Ho3).
  rewrite (bool_decide_eq_false_2 (m_sender m = c_self c)) by done.
  rewrite !(latest_complete c) by (apply Hi || done).
  destruct (s_by_label s !! DLabel (m_ref m) (m_sender m) (c_self c)) as [q|] eqn:E; [|done].
  exfalso. pose proof (iv_complete c s Hi _ q E Hrr) as Hc.
  unfold incomplete_version in Hc. simpl in Hc. unfold unassigned in Hc. rewrite Hinc, Hk in Hc.
  injection Hc as ->. done.
Qed.

(** * Create *)

(** No dialogue towards [cp] has been started with this nonce. *)
Definition unused_nonce (c : config) (s : store) (nonce : string) (cp : address) : Prop :=
  s_by_label s !! DLabel (DRef nonce "") cp (c_self c) = None /\
  s_incomplete s !! DLabel (DRef nonce "") cp (c_self c) = None.

Lemma opening_update_iff c d m :
  dinv c d [] -> starter_ref (lb_ref (d_label d)) <> "" ->
  m = Msg (lb_opponent (d_label d)) (c_self c) (DRef (starter_ref (lb_ref (d_label d))) "") 1 0
        (m_perf m) ->
  responder_ref (lb_ref (d_label d)) = "" -> lb_starter (d_label d) = c_self c ->
  (exists t, In (m_perf m) (c_initial c) /\ dialogue_update d m = Ok (append_message d m, m, t)) \/
  (~ In (m_perf m) (c_initial c) /\ exists e, dialogue_update d m = Err e).
Proof.
  intros Hd Hs Hm Hr Hst. assert (presented c m) as Hpr by (left; by rewrite Hm).
  unfold dialogue_update.
  rewrite (fill_sender_presented c d m (di_self _ _ _ Hd) Hpr).
  assert (is_belonging d m = true) as ->.
  { unfold is_belonging, check_label_belongs, counterparty_from_message, is_by_self,
      is_self_initiated, unassigned. rewrite Hm. simpl.
    rewrite (di_self _ _ _ Hd). rewrite (bool_decide_eq_true_2 (c_self c = c_self c)) by done.
    apply orb_true_iff. left. apply bool_decide_eq_true.
    rewrite Hst. destruct (d_label d) as [[a b] o st]. simpl in *.
    case_bool_decide; congruence. }
  simpl. unfold validate_next_message.
  rewrite (proj2 (is_empty_rep d [] (di_rep _ _ _ Hd)) eq_refl).
  unfold basic_validation_initial, validate_message_target.
  rewrite (bool_decide_eq_true_2 (_ = _)) by (by rewrite Hm).
  assert (m_id m = 1 /\ m_target m = 0) as [-> ->] by (by rewrite Hm). simpl.
  destruct (hs_contains (r_initial (d_rules d)) (m_perf m)) eqn:E; simpl.
  - left. eexists. split; [|done].
    rewrite (di_rules _ _ _ Hd) in E. unfold new_rules in E. simpl in E.
    by apply hs_contains_list in E.
  - right. split; [|by eexists]. intros Hin.
    rewrite (di_rules _ _ _ Hd) in E. unfold new_rules in E. simpl in E.
    apply hs_contains_list in Hin. congruence.
Qed.

Lemma create_outcome c s nonce cp p :
  inv c s -> nonce <> "" -> unused_nonce c s nonce cp ->
  let l := DLabel (DRef nonce "") cp (c_self c) in
  let m := Msg cp (c_self c) (DRef nonce "") 1 0 p in
  exists s1 d b,
    api_create c s nonce cp p = (s1, Ok (Some m, if b : bool then Some (s_next s) else None)) /\
    (b = true <-> In p (c_initial c)) /\
    s_heap s !! s_next s = None /\
    s_heap s1 !! s_next s = Some d /\ d_label d = l /\ d_role d = c_role c m (c_self c) /\
    d_out d = (if b then [m] else []) /\ d_in d = [] /\
    (b = false -> s_by_label s1 !! l = Some (s_next s) /\ s_next s ∈ st_active_dialogues s1).
Proof.
  intros Hi Hn [Hf1 Hf2] l m.
  unfold api_create, create_dialogue, create_self_initiated, unassigned.
  change (Msg cp (c_self c) (DRef nonce "") starting_message_id starting_target p) with m.
  simpl. rewrite bool_decide_eq_true_2 by done. simpl.
  destruct (create c s (DLabel (DRef nonce "") cp (c_self c)) (c_role c m (c_self c)) None)
    as [sc oc] eqn:Ec.
  edestruct (create_spec c s) as (Hic & Hec & Hoc); [apply Hi| | | |exact Ec|];
    [done|by left|done|].
  destruct (inv_create_self c s (DRef nonce "") cp (c_role c m (c_self c)) sc oc Hi)
    as [Hiv Hst]; [done|done|exact Ec|].
  assert (s_heap s !! s_next s = None) as Hfresh by (by apply (ia_fresh c s (iv_any c s Hi))).
  assert (oc = Ok (s_next s) /\ s_terminal sc = s_terminal s /\ exists d, s_heap sc !! s_next s = Some d
    /\ d_role d = c_role c m (c_self c)) as (-> & Hte & d1 & Hd1 & Hrole).
  { revert Ec. unfold create, st_is_in_incomplete, st_is_present. rewrite Hf1, Hf2. cbv iota.
    intros [= <- <-]. split; [done|]. split; [done|]. simpl. rewrite lookup_insert.
    by eexists. }
  destruct Hoc as (_ & _ & _ & d & Hd & Hdi & Hdl).
  rewrite Hd in Hd1. injection Hd1 as <-. rewrite Hd.
  simpl in Hdl. fold l in Hdl.
  destruct (opening_update_iff c d m) as [(t & Hin & Hu)|(Hin & e & Hu)];
    try done; try (by rewrite Hdl).
  - assert (dinv c (append_message d m) ([] ++ [Entry (from_of c m) m])) as Hd'.
    { destruct (update_dinv c d [] m (append_message d m) m t Hdi) as (_ & _ & _ & Hd'); try done.
      - by left.
      - intros _ _. by rewrite Hdl. }
    rewrite Hu.
    destruct (inv_store_update c sc (s_next s) d (append_message d m) m t
                ([] ++ [Entry (from_of c m) m])) as (su & Hsu & Hisu); try done.
    { rewrite Hdl. exact Hst. }
    rewrite Hsu.
    assert (s_heap su = s_heap (set_dialogue sc (s_next s) (append_message d m))) as Hheap.
    { revert Hsu. unfold store_update. destruct t; [|by intros [= <-]].
      destruct (run_callbacks _ _ _ _) as [s2|?|?] eqn:Er; [|done..].
      intros [= <-]. by apply run_callbacks_heap in Er as (? & _). }
    exists su, (append_message d m), true. split; [done|]. split; [done|]. split; [done|].
    rewrite Hheap. unfold set_dialogue. cbn [s_heap]. rewrite lookup_insert.
    split; [done|]. split; [done|].
    split; [done|].
    destruct (di_rep _ _ _ Hd') as [Ho Hii _ _]. rewrite Ho, Hii.
    assert (from_of c m = Me) as -> by (unfold from_of; by rewrite decide_True).
    done.
  - rewrite Hu. simpl. exists sc, d, false.
    split; [done|]. split; [done|]. split; [done|]. split; [done|]. split; [done|].
    split; [done|]. destruct (di_rep _ _ _ Hdi) as [Ho Hii _ _]. split; [done|]. split; [done|].
    intros _. assert (s_by_label sc !! l = Some (s_next s)) as Hsl by (exact Hst).
    split; [done|]. apply active_spec. exists l. split; [done|].
    rewrite Hte. destruct (hs_contains (s_terminal s) l) eqn:E; [|done].
    apply (iv_term c s Hi) in E as [? E]. unfold l in E. by rewrite Hf1 in E.
Qed.

(** * Openings from other agents *)

Lemma opening_peer_update c d m :
  dinv c d [] -> from_other c m -> m_id m = 1 ->
  lb_opponent (d_label d) = m_sender m -> lb_starter (d_label d) = m_sender m ->
  starter_ref (m_ref m) = starter_ref (lb_ref (d_label d)) -> responder_ref (m_ref m) = "" ->
  (exists t, m_target m = 0 /\ In (m_perf m) (c_initial c) /\
     dialogue_update d m = Ok (append_message d m, m, t)) \/
  (~ (m_target m = 0 /\ In (m_perf m) (c_initial c)) /\ exists e, dialogue_update d m = Err e).
Proof.
  intros Hd (Ho1 & Ho2 & Ho3) Hid Hopp Hst Hsr Hrr.
  assert (presented c m) as Hpr by (right; done).
  unfold dialogue_update.
  rewrite (fill_sender_presented c d m (di_self _ _ _ Hd) Hpr).
  assert (is_belonging d m = true) as ->.
  { unfold is_belonging, check_label_belongs, counterparty_from_message, is_by_self,
      is_self_initiated, incomplete_version, unassigned.
    rewrite (di_self _ _ _ Hd). rewrite (bool_decide_eq_false_2 (m_sender m = c_self c)) by done.
    rewrite Hst, Hopp. rewrite (bool_decide_eq_false_2 (m_sender m <> m_sender m)) by (intros E; by apply E).
    apply orb_true_iff. right. apply bool_decide_eq_true.
    rewrite <- Hsr. destruct (m_ref m) as [a b]. simpl in *. congruence. }
  simpl. unfold validate_next_message.
  rewrite (proj2 (is_empty_rep d [] (di_rep _ _ _ Hd)) eq_refl).
  unfold basic_validation_initial, validate_message_target.
  rewrite (bool_decide_eq_true_2 (_ = _)) by done. rewrite Hid. simpl.
  unfold starting_target. destruct (Z.eqb_spec (m_target m) 0) as [Et|Et]; simpl.
  - destruct (hs_contains (r_initial (d_rules d)) (m_perf m)) eqn:E; simpl.
    + left. eexists. split; [done|]. split; [|done].
      rewrite (di_rules _ _ _ Hd) in E. by apply hs_contains_list in E.
    + right. split; [|by eexists]. intros [_ Hin].
      rewrite (di_rules _ _ _ Hd) in E. unfold new_rules in E. simpl in E.
      apply hs_contains_list in Hin. congruence.
  - right. split; [|by eexists]. by intros [? _].
Qed.

Lemma opening_outcome c s nonce m :
  inv c s -> from_other c m ->
  starter_ref (m_ref m) <> "" -> responder_ref (m_ref m) = "" -> m_id m = 1 -> nonce <> "" ->
  s_incomplete s !! DLabel (DRef (starter_ref (m_ref m)) "") (m_sender m) (m_sender m) = None ->
  exists s1 r,
    step c s (OpUpdate nonce m) = (s1, r) /\
    (m_target m = 0 /\ In (m_perf m) (c_initial c) ->
       exists p d, r = Ok (None, Some p) /\ s_heap s !! p = None /\ s_heap s1 !! p = Some d /\
         d_label d = DLabel (DRef (starter_ref (m_ref m)) nonce) (m_sender m) (m_sender m) /\
         d_role d = c_role c m (c_self c) /\ d_in d = [m] /\ d_out d = []) /\
    (~ (m_target m = 0 /\ In (m_perf m) (c_initial c)) -> exists e, r = Err e).
Proof.
  intros Hi Ho H1 H2 H3 Hn Hk. simpl. rewrite api_update_opening by done.
  pose proof Ho as (Ho1 & Ho2 & Ho3).
  set (k := DLabel (DRef (starter_ref (m_ref m)) "") (m_sender m) (m_sender m)) in *.
  set (v := DLabel (DRef (starter_ref (m_ref m)) nonce) (m_sender m) (m_sender m)).
  destruct (create c s k (c_role c m (c_self c)) (Some v)) as [sc oc] eqn:Ec.
  edestruct (create_spec c s) as (Hic & Hec & Hoc); [apply Hi| | | |exact Ec|].
  { by intros ? [= <-]. }
  { by right. }
  { done. }
  destruct (inv_create_opp c s (starter_ref (m_ref m)) (m_sender m) nonce _ sc oc Hi H1 Ho2 Ec)
    as [Hiv Hst].
  destruct oc as [p|e|e]; [| |done].
  2:{ destruct Hst as [_ [x Hx]]. unfold k in Hk. congruence. }
  destruct Hst as [Hst Hinc]. destruct Hoc as (Hpn & Hfresh & _ & d & Hd & Hdi & Hdl).
  assert (d_role d = c_role c m (c_self c)) as Hrole.
  { revert Ec. unfold create, st_is_in_incomplete. rewrite Hk.
    destruct (st_is_present _ _); [done|]. intros [= <- <-]. simpl in Hd.
    rewrite lookup_insert in Hd. by injection Hd as <-. }
  simpl. rewrite Hd.
  destruct (opening_peer_update c d m) as [(t & Ht & Hin & Hu)|(Hbad & e & Hu)];
    try done; try (by rewrite Hdl).
  - rewrite Hu.
    destruct (update_dinv c d [] m (append_message d m) m t Hdi) as (_ & _ & _ & Hd'); try done.
    { by right. }
    { intros _ E. unfold from_of in E. by rewrite decide_False in E. }
    destruct (inv_store_update c sc p d (append_message d m) m t
                ([] ++ [Entry (from_of c m) m])) as (su & Hsu & _); try done.
    { rewrite Hdl. exact Hst. }
    rewrite Hsu.
    assert (s_heap su = s_heap (set_dialogue sc p (append_message d m))) as Hheap.
    { revert Hsu. unfold store_update. destruct t; [|by intros [= <-]].
      destruct (run_callbacks _ _ _ _) as [s2|?|?] eqn:Er; [|done..].
      intros [= <-]. by apply run_callbacks_heap in Er as (? & _). }
    do 2 eexists. split; [done|]. split; [|by intros []].
    intros _. exists p, (append_message d m). split; [done|]. split; [done|].
    rewrite Hheap. unfold set_dialogue. cbn [s_heap]. rewrite lookup_insert.
    split; [done|]. split; [done|]. split; [done|].
    destruct (di_rep _ _ _ Hd') as [Hx Hy _ _]. rewrite Hx, Hy.
    assert (from_of c m = Peer) as -> by (unfold from_of; by rewrite decide_False).
    done.
  - rewrite Hu. simpl.
    assert (s_by_label sc !! d_label d = Some p) as Hl by (by rewrite Hdl).
    destruct (inv_remove c sc (d_label d) p Hiv Hl) as (s2 & -> & _).
    do 2 eexists. split; [done|]. split; [done|]. intros _. by eexists.
Qed.
