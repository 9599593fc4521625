(** Proofs about executions: transcripts, the fate of stored dialogues and the
    persistence of completed references. *)
From Coq Require Import ZArith List String Lia.
From stdpp Require Import base tactics gmap strings list.
From Verif Require Import GoBase SetModel DialogueModel StoreModel DialogueSpec
  DialogueProofs StoreProofs StoreInv.
Open Scope Z_scope.

Lemma reported_said c o r g :
  reported c o r g ->
  said c o r = (fun pm => (pm.1, Entry (from_of c pm.2) pm.2)) <$> g.
Proof.
  unfold reported, said, from_of. destruct r as [[om [p|]]|e|e].
  - intros (m & -> & H). simpl. destruct o as [? ? ?|cp m0|? m0|? ? ? ?].
    + destruct H as [-> H]. by rewrite decide_True.
    + destruct H as (-> & H & Hm). rewrite decide_True by done. by rewrite Hm.
    + destruct H as (-> & -> & H). by rewrite decide_False.
    + destruct H as (-> & -> & H). by rewrite decide_True.
  - intros ->. by destruct o, om.
  - intros ->. by destruct o.
  - intros ->. by destruct o.
Qed.

Lemma transcript_app c p tr1 tr2 :
  transcript c p (tr1 ++ tr2) = transcript c p tr1 ++ transcript c p tr2.
Proof.
  induction tr1 as [|[o r] tr1 IH]; [done|]. simpl.
  destruct (said c o r) as [[q e]|]; [|done]. destruct (decide (p = q)); [|done].
  simpl. by rewrite IH.
Qed.

Lemma transcript_one c p o r g :
  reported c o r g -> transcript c p [(o, r)] = suffix c g p.
Proof.
  intros H. apply reported_said in H. simpl. rewrite H.
  destruct g as [[q m]|]; [|done]. simpl. by destruct (decide (p = q)).
Qed.

Lemma exec_reachable c tr s : exec c tr s -> reachable_any c s.
Proof. induction 1; [apply ra_init|]. by eapply ra_step. Qed.

Lemma reachable_exec c s : reachable_any c s -> exists tr, exec c tr s.
Proof.
  induction 1 as [|s o s' r _ [tr IH] Hs Hp]; [exists []; apply exec_init|].
  exists (tr ++ [(o, r)]). by eapply exec_call.
Qed.

(** The main correctness result: every dialogue stores exactly its transcript,
    which is a well-formed conversation. *)
Lemma clean_exec c tr s : exec_clean c tr s -> exec c tr s.
Proof. induction 1; [constructor|by econstructor]. Qed.

Lemma clean_reachable c tr s : exec_clean c tr s -> reachable c s.
Proof. induction 1; [constructor|by econstructor]. Qed.

Lemma transcript_dinv c tr s p :
  exec c tr s ->
  match s_heap s !! p with
  | Some d => dinv c d (transcript c p tr)
  | None => transcript c p tr = []
  end.
Proof.
  induction 1 as [|tr s o s' r He IH Hs Hp]; [done|].
  pose proof (reachable_any_inv c s (exec_reachable c tr s He)) as Hi.
  destruct (step_any c s o s' r Hi Hs Hp) as (Hi' & g & Hef & Hr).
  rewrite transcript_app, (transcript_one c p o r g Hr).
  destruct (s_heap s !! p) as [d|] eqn:Ed.
  - destruct (ef_old _ _ _ _ _ Hef p d Ed) as (d' & -> & _ & _ & Hv & _). by apply Hv.
  - rewrite IH. simpl. destruct (s_heap s' !! p) as [d'|] eqn:Ed'.
    + by destruct (ef_new _ _ _ _ _ Hef p d' Ed Ed') as (_ & _ & Hv & _).
    + unfold suffix. destruct g as [[q m]|]; [|done].
      destruct (decide (p = q)) as [->|]; [|done].
      destruct (ef_grown _ _ _ _ _ Hef q m eq_refl) as [x Hx]. congruence.
Qed.

Lemma transcript_some c tr s p d :
  exec c tr s -> s_heap s !! p = Some d -> dinv c d (transcript c p tr).
Proof. intros He Hd. pose proof (transcript_dinv c tr s p He) as H. by rewrite Hd in H. Qed.

Lemma label_evolves_trans l1 l2 l3 :
  label_evolves l1 l2 -> label_evolves l2 l3 -> label_evolves l1 l3.
Proof.
  intros [->|(H1 & H2 & H3)]; [done|]. intros [->|(H4 & H5 & H6)].
  - by right.
  - done.
Qed.

(** Labels over a whole execution. *)
Lemma exec_label c tr s tr' s' p d :
  exec c tr s -> exec c (tr ++ tr') s' -> s_heap s !! p = Some d ->
  exists d', s_heap s' !! p = Some d' /\ fixed_parts_same d d' /\
             label_evolves (d_label d) (d_label d').
Proof.
  intros He. revert s'. induction tr' as [|[o r] tr' IH] using rev_ind; intros s' He' Hd.
  - rewrite app_nil_r in He'.
    assert (s' = s) as ->.
    { clear Hd p d. revert s' He'. induction He as [|tr s o s1 r He IH Hs Hp]; intros s' He'.
      - inversion He' as [|tr0 s0 o0 s0' r0 ? ? ? Heq]; [done|].
        by destruct tr0.
      - inversion He' as [Heq|tr0 s0 o0 s0' r0 H1 H2 H3 Heq].
        + by destruct tr.
        + apply app_inj_tail in Heq as [-> [= -> ->]].
          rewrite (IH s0 H1) in H2. congruence. }
    exists d. split; [done|]. split; [done|]. by left.
  - rewrite app_assoc in He'.
    inversion He' as [Heq|tr0 s0 o0 s0' r0 H1 H2 H3 Heq]; [by destruct (tr ++ tr')|].
    apply app_inj_tail in Heq as [-> [= -> ->]].
    destruct (IH s0 H1 Hd) as (d0 & Hd0 & Hf0 & Hl0).
    pose proof (reachable_any_inv c s0 (exec_reachable c _ s0 H1)) as Hi.
    destruct (step_any c s0 o s' r Hi H2 H3) as (Hi' & g & Hef & Hr).
    destruct (ef_old _ _ _ _ _ Hef p d0 Hd0) as (d' & Hd' & Hf & Hl & _).
    exists d'. split; [done|]. split.
    + destruct Hf as (?&?&?), Hf0 as (?&?&?). repeat split; congruence.
    + by eapply label_evolves_trans.
Qed.

(** * The fate of stored dialogues *)

Record evo (c : config) (s s' : store) (g : option (ptr * message)) : Prop := {
  ev_persist : forall k v, s_incomplete s !! k = Some v -> responder_ref (lb_ref v) <> "" ->
     s_incomplete s' !! k = Some v;
  ev_kept : forall l p, s_by_label s !! l = Some p ->
     (exists l', label_evolves l l' /\ s_by_label s' !! l' = Some p) \/
     (c_keep c = false /\ exists m, g = Some (p, m) /\ In (m_perf m) (c_terminal c));
  ev_end : forall p m, g = Some (p, m) -> In (m_perf m) (c_terminal c) ->
     if c_keep c
     then exists l, s_by_label s' !! l = Some p /\ hs_contains (s_terminal s') l = true
     else forall l, s_by_label s' !! l <> Some p;
  ev_live : forall p m, g = Some (p, m) -> ~ In (m_perf m) (c_terminal c) ->
     exists l, s_by_label s' !! l = Some p;
  ev_terminal : forall l, hs_contains (s_terminal s') l = true ->
     hs_contains (s_terminal s) l = true \/
     exists p m, g = Some (p, m) /\ In (m_perf m) (c_terminal c) /\
                 s_by_label s' !! l = Some p }.

Lemma evo_refl c s : evo c s s None.
Proof.
  split; try done.
  - intros l p H. left. exists l. split; [by left|done].
  - intros. by left.
Qed.

Lemma evo_trans c s1 s2 s3 g :
  evo c s1 s2 None -> evo c s2 s3 g -> evo c s1 s3 g.
Proof.
  intros [A1 A2 A3 A4 A5] [B1 B2 B3 B4 B5]. split; try done.
  - intros k v H1 H2. by apply B1; [apply A1|].
  - intros l p Hl. destruct (A2 l p Hl) as [(l' & He & Hl')|(_ & m & [=] & _)].
    destruct (B2 l' p Hl') as [(l'' & He' & Hl'')|H]; [|by right].
    left. exists l''. split; [by eapply label_evolves_trans|done].
  - intros l Ht. destruct (B5 l Ht) as [H|H]; [|by right].
    destruct (A5 l H) as [|(p & m & [=] & _)]. by left.
Qed.

(** Removing a stored label does not touch completed references. *)
Lemma remove_persist c s l p s' :
  inv c s -> s_by_label s !! l = Some p -> st_remove s l = Ok s' ->
  forall k v, s_incomplete s !! k = Some v -> responder_ref (lb_ref v) <> "" ->
  s_incomplete s' !! k = Some v.
Proof.
  intros Hi Hl Hr k v Hk Hv. apply st_remove_ok in Hr as (_ & _ & _ & R4 & _).
  rewrite R4. rewrite lookup_delete_ne; [done|]. intros ->.
  pose proof (ia_incomplete c s (iv_any c s Hi) k v Hk) as He.
  assert (responder_ref (lb_ref k) = "") as Hk' by (by rewrite He).
  destruct (iv_open c s Hi k p Hl Hk') as [[_ H]|[_ H]]; [congruence|].
  rewrite H in Hk. injection Hk as <-. done.
Qed.

Lemma evo_create_self c s r cp role s1 o :
  inv c s -> create c s (DLabel r cp (c_self c)) role None = (s1, o) -> evo c s s1 None.
Proof.
  intros Hi. unfold create, st_is_in_incomplete, st_is_present.
  set (l := DLabel r cp (c_self c)).
  destruct (s_incomplete s !! l) as [v|] eqn:Ei; [intros [= <- <-]; apply evo_refl|].
  destruct (s_by_label s !! l) as [q|] eqn:El; [intros [= <- <-]; apply evo_refl|].
  intros [= <- <-]. split; try done.
  - intros k p Hk. left. exists k. split; [by left|]. rewrite st_add_lookup.
    rewrite decide_False; [done|]. intros ->. simpl in Hk. congruence.
  - intros k Hk. by left.
Qed.

Lemma evo_create_opp c s st opp nonce role s1 o :
  inv c s -> opp <> c_self c ->
  create c s (DLabel (DRef st "") opp opp) role
    (Some (DLabel (DRef st nonce) opp opp)) = (s1, o) -> evo c s s1 None.
Proof.
  intros Hi Ho. unfold create, st_is_in_incomplete, st_is_present.
  set (l := DLabel (DRef st "") opp opp) in *.
  set (f := DLabel (DRef st nonce) opp opp) in *.
  destruct (s_incomplete s !! l) as [v|] eqn:Ei; [intros [= <- <-]; apply evo_refl|].
  simpl.
  assert (forall k v, s_incomplete s !! k = Some v -> responder_ref (lb_ref v) <> "" ->
    <[l := f]> (s_incomplete s) !! k = Some v) as Hper.
  { intros k v Hk _. rewrite lookup_insert_ne; [done|]. intros <-. congruence. }
  destruct (s_by_label s !! f) as [q|] eqn:El; intros [= <- <-].
  - split; try done.
    + intros k p Hk. left. exists k. split; [by left|]. done.
    + intros k Hk. by left.
  - split; try done.
    + intros k p Hk. left. exists k. split; [by left|]. rewrite st_add_lookup.
      rewrite decide_False; [done|]. intros ->. simpl in Hk. congruence.
    + intros k Hk. by left.
Qed.

Lemma evo_complete c s m s1 o :
  inv c s -> complete_dialogue_reference c s m = (s1, o) -> is_panic o = false ->
  evo c s s1 None.
Proof.
  intros Hi. unfold complete_dialogue_reference, st_get, st_is_present, st_is_in_incomplete.
  destruct (negb _) eqn:Hn; [intros [= <- <-] _; apply evo_refl|].
  apply negb_false_iff, andb_true_iff in Hn as [H1 H2].
  apply bool_decide_eq_true in H1. apply bool_decide_eq_true in H2.
  set (inc := DLabel _ _ _).
  destruct (s_by_label s !! inc) as [p|] eqn:Ep; [|intros [= <- <-] _; apply evo_refl].
  destruct (s_incomplete s !! inc) as [v|] eqn:Ei;
    [intros [= <- <-] _; apply evo_refl|]. simpl.
  destruct (ia_label c s (iv_any c s Hi) inc p Ep) as (d & Hd & Hdl). rewrite Hd.
  destruct (inv_remove c s inc p Hi Ep) as (sr & Hsr & Hir & Hmem). rewrite Hsr.
  unfold update_dialogue_label. rewrite Hdl. simpl.
  rewrite bool_decide_eq_false_2 by done. simpl.
  intros [= <- <-] _.
  pose proof (remove_persist c s inc p sr Hi Ep Hsr) as Hper.
  apply st_remove_ok in Hsr as (R1 & R2 & R3 & R4 & R5 & R6 & _).
  set (fin := DLabel (m_ref m) _ _) in *.
  split; try done; simpl.
  - intros k v Hk Hv. rewrite lookup_insert_ne; [by apply Hper|]. intros <-. congruence.
  - intros k q Hk. left. destruct (decide (k = inc)) as [->|Hne].
    + exists fin. split; [by right|]. rewrite Ep in Hk. injection Hk as <-.
      by rewrite lookup_insert.
    + exists k. split; [by left|]. rewrite lookup_insert_ne.
      * rewrite R3. by rewrite lookup_delete_ne.
      * intros <-. pose proof (iv_complete c s Hi fin q Hk H2) as H.
        change (incomplete_version fin) with inc in H. congruence.
  - intros k Hk. left. rewrite R5 in Hk. by apply hs_contains_remove in Hk as [_ ?].
Qed.

Lemma store_update_evo c s p d d' m t h :
  inv c s -> s_heap s !! p = Some d -> s_by_label s !! d_label d = Some p ->
  d_label d' = d_label d -> d_callbacks d' = d_callbacks d -> dinv c d' h ->
  (t = true <-> In (m_perf m) (c_terminal c)) ->
  forall s1 o, store_update c s p (Ok (d', m, t)) = (s1, o) -> evo c s s1 (Some (p, m)).
Proof.
  intros Hi Hp Hl Hdl Hcb Hd Ht s1 o. unfold store_update.
  pose proof (inv_set c s p d d' h Hi Hp Hdl Hcb Hd) as Hi1.
  destruct t.
  - destruct (ia_cb c s (iv_any c s Hi) p d Hp) as [Hn _]. rewrite Hcb.
    destruct (d_callbacks d) as [|n]; [done|].
    assert (s_by_label (set_dialogue s p d') !! d_label d' = Some p) as Hl1
      by (simpl; by rewrite Hdl).
    destruct (c_keep c) eqn:Hk.
    + rewrite run_callbacks_keep. intros [= <- <-]. split; simpl; try done.
      * intros l q Hq. left. exists l. split; [by left|done].
      * intros q m' [= <- <-] _. rewrite Hk. exists (d_label d'). split; [by rewrite Hdl|].
        apply hs_contains_add. by left.
      * intros q m' [= <- <-] Hnt. destruct Hnt. by apply Ht.
      * intros l Hc. apply hs_contains_add in Hc as [->|Hc]; [|by left].
        right. exists p, m. split; [done|]. split; [by apply Ht|]. by rewrite Hdl.
    + rewrite run_callbacks_remove.
      destruct (inv_remove c _ (d_label d') p Hi1 Hl1) as (s' & Hs' & Hi' & _).
      rewrite Hs'. intros [= <- <-].
      pose proof (remove_persist c _ _ p s' Hi1 Hl1 Hs') as Hper.
      apply st_remove_ok in Hs' as (R1 & R2 & R3 & R4 & R5 & R6 & _). simpl in R3, R5.
      split.
      * exact Hper.
      * intros l q Hq. destruct (decide (q = p)) as [->|Hne].
        -- right. split; [done|]. exists m. split; [done|]. by apply Ht.
        -- left. exists l. split; [by left|]. rewrite R3.
           rewrite lookup_delete_ne; [done|]. intros <-. congruence.
      * intros q m' [= <- <-] _. rewrite Hk. intros l Hq. rewrite R3 in Hq.
        apply lookup_delete_Some in Hq as [Hne Hq]. apply Hne.
        eapply (inv_inj c (set_dialogue s p d')); [apply Hi1|done|done].
      * intros q m' [= <- <-] Hnt. destruct Hnt. by apply Ht.
      * intros l Hc. rewrite R5 in Hc. left. by apply hs_contains_remove in Hc as [_ ?].
  - intros [= <- <-]. split; simpl; try done.
    + intros l q Hq. left. exists l. split; [by left|done].
    + intros q m' [= <- <-] Hnt. apply Ht in Hnt. done.
    + intros q m' [= <- <-] _. by exists (d_label d).
    + intros l Hc. by left.
Qed.

Lemma terminal_spec c d h p :
  dinv c d h -> hs_contains (r_terminal (d_rules d)) p = true <-> In p (c_terminal c).
Proof. intros Hd. rewrite (di_rules c d h Hd). simpl. apply hs_contains_list. Qed.

Lemma create_dialogue_evo c s cp m s1 o :
  inv c s -> m_sender m = c_self c ->
  create_dialogue c s cp m = (s1, o) -> is_panic o = false ->
  evo c s s1 (match o with Ok (Some p) => Some (p, m) | _ => None end).
Proof.
  intros Hi Hself. unfold create_dialogue, create_self_initiated.
  destruct (negb _) eqn:Hn; [intros [= <- <-] _; apply evo_refl|].
  apply negb_false_iff, andb_true_iff in Hn as [H1 H2].
  apply bool_decide_eq_true in H1. apply bool_decide_eq_true in H2.
  destruct (create c s _ _ None) as [sc oc] eqn:Ec.
  edestruct (create_spec c s) as (Hic & Hec & Hoc); [apply Hi| | | |exact Ec|];
    [done|by left|done|].
  pose proof (evo_create_self c s _ _ _ _ _ Hi Ec) as Hev.
  destruct (inv_create_self c s (m_ref m) cp _ sc oc Hi H1 H2 Ec) as [Hiv Hst].
  destruct oc as [p|e|e]; [|by intros [= <- <-]|done].
  destruct Hoc as (_ & _ & _ & d & Hd & Hdi & Hdl). rewrite Hd.
  destruct (store_update c sc p (dialogue_update d m)) as [su ou] eqn:Eu.
  assert (presented c m) as Hpr by (by left).
  intros Hres Hp.
  destruct (dialogue_update d m) as [[[d' m'] t]|e|e] eqn:Ed.
  - destruct (update_dinv c d [] m d' m' t Hdi Hpr) as (-> & -> & Ht & Hd'); try done.
    { intros _ _. by rewrite Hdl. }
    assert (evo c sc su (Some (p, m))) as He.
    { eapply store_update_evo; [exact Hiv|exact Hd|by rewrite Hdl| | |exact Hd'| |exact Eu];
        [done|done|]. rewrite Ht. by eapply terminal_spec. }
    edestruct (inv_store_update c sc p d (append_message d m) m t) as (sx & Hsx & _);
      [exact Hiv|exact Hd|by rewrite Hdl|done|done|exact Hd'|].
    rewrite Hsx in Eu. injection Eu as <- <-. injection Hres as <- <-.
    by eapply evo_trans.
  - injection Eu as <- <-. injection Hres as <- <-. done.
  - injection Eu as <- <-. injection Hres as <- <-. done.
Qed.

Lemma update_found_evo c s m is_new found s1 r :
  inv c s ->
  m_sender m <> c_self c -> m_sender m <> "" -> m_to m = c_self c ->
  (forall p, found = Some p -> exists d, s_heap s !! p = Some d /\
     lb_opponent (d_label d) = m_sender m /\ s_by_label s !! d_label d = Some p) ->
  update_found c s m is_new found = (s1, r) -> is_panic r = false ->
  (exists p d, found = Some p /\ s_heap s !! p = Some d /\ is_new = true /\
               r <> Ok (None, Some p) /\ st_remove s (d_label d) = Ok s1) \/
  (evo c s s1 (match r with Ok (_, Some p) => Some (p, m) | _ => None end) /\
   (is_new = true -> is_err r = false)).
Proof.
  intros Hi H1 H2 H3 Hf. unfold update_found. destruct found as [p|].
  2:{ intros [= <- <-] _. right. split; [apply evo_refl|done]. }
  destruct (Hf p eq_refl) as (d & Hd & Hopp & Hst). rewrite Hd.
  destruct (store_update c s p (dialogue_update d m)) as [su ou] eqn:Eu.
  destruct (ia_dlg c s (iv_any c s Hi) p d Hd) as (h & Hh).
  assert (presented c m) as Hpr by (right; done).
  assert (from_of c m = Peer) as Hfr by (unfold from_of; by rewrite decide_False).
  intros Hres Hp.
  destruct (dialogue_update d m) as [[[d' m'] t]|e|e] eqn:Ed.
  - destruct (update_dinv c d h m d' m' t Hh Hpr) as (-> & -> & Ht & Hd'); try done;
      try (rewrite Hfr; done).
    assert (evo c s su (Some (p, m))) as He.
    { eapply store_update_evo; [exact Hi|exact Hd|exact Hst| | |exact Hd'| |exact Eu];
        [done|done|]. rewrite Ht. by eapply terminal_spec. }
    edestruct (inv_store_update c s p d (append_message d m) m t) as (sx & Hsx & _);
      [exact Hi|exact Hd|exact Hst|done|done|exact Hd'|].
    rewrite Hsx in Eu. injection Eu as <- <-. injection Hres as <- <-. by right.
  - injection Eu as <- <-. destruct is_new.
    + destruct (inv_remove c s (d_label d) p Hi Hst) as (s2 & Hs2 & Hi2 & _).
      rewrite Hs2 in Hres. injection Hres as <- <-. left. by exists p, d.
    + injection Hres as <- <-. right. split; [apply evo_refl|done].
  - injection Eu as <- <-. injection Hres as <- <-. done.
Qed.

Lemma evo_step c s o s' r :
  inv c s -> reply_in_store s o -> step c s o = (s', r) -> is_panic r = false ->
  exists g, evo c s s' g /\ reported c o r g.
Proof.
  intros Hi Hrs Hs Hp.
  destruct (step_any c s o s' r (iv_any c s Hi) Hs Hp) as (_ & g0 & _ & Hrep).
  destruct o as [nonce cp p|cp m|nonce m|p perf tm tp]; simpl in Hs.
  - unfold api_create in Hs. set (m := Msg _ _ _ _ _ _) in *.
    destruct (create_dialogue c s cp m) as [sc oc] eqn:Ec.
    assert (is_panic oc = false) as Hpu by (destruct oc; [done|done|by injection Hs as <- <-]).
    pose proof (create_dialogue_evo c s cp m sc oc Hi eq_refl Ec Hpu) as He.
    destruct oc as [[q|]|e|e]; [| | |done]; injection Hs as <- <-; eexists; (split; [exact He|]);
      [|done..]. by exists m.
  - unfold api_create_with in Hs.
    destruct (set_sender m (c_self c)) as [m1|e|e] eqn:E1.
    2,3: injection Hs as <- <-; exists None; split; [apply evo_refl|done].
    destruct (set_to m1 cp) as [m2|e|e] eqn:E2.
    2,3: injection Hs as <- <-; exists None; split; [apply evo_refl|done].
    assert (m_sender m2 = c_self c /\ m2 = Msg cp (c_self c) (m_ref m) (m_id m)
              (m_target m) (m_perf m)) as [Hm2 Hm2'].
    { unfold set_sender in E1. destruct (bool_decide _); [done|]. injection E1 as <-.
      unfold set_to in E2. destruct (bool_decide _); [done|]. by injection E2 as <-. }
    destruct (create_dialogue c s cp m2) as [sc oc] eqn:Ec.
    assert (is_panic oc = false) as Hpu by (destruct oc; [done|done|by injection Hs as <- <-]).
    pose proof (create_dialogue_evo c s cp m2 sc oc Hi Hm2 Ec Hpu) as He.
    destruct oc as [[q|]|e|e]; [| | |done]; injection Hs as <- <-; eexists; (split; [exact He|]);
      [|done..]. by exists m2.
  - unfold api_update in Hs.
    destruct (negb (has_sender m && negb (ds_is_by_self c m))) eqn:Hn;
      [injection Hs as <- <-; exists None; split; [apply evo_refl|done]|].
    apply negb_false_iff, andb_true_iff in Hn as [H1 H2].
    unfold has_sender in H1. apply bool_decide_eq_true in H1.
    unfold ds_is_by_self in H2. apply negb_true_iff, bool_decide_eq_false in H2.
    destruct (negb (has_to m));
      [injection Hs as <- <-; exists None; split; [apply evo_refl|done]|].
    destruct (negb (bool_decide (m_to m = c_self c))) eqn:Hn;
      [injection Hs as <- <-; exists None; split; [apply evo_refl|done]|].
    apply negb_false_iff, bool_decide_eq_true in Hn.
    match type of Hs with context [update_found c s m ?b None] => set (is_new := b) in * end.
    assert (forall r1, reported c (OpUpdate nonce m) r1 g0 ->
              reported c (OpUpdate nonce m) r1
                (match r1 with Ok (_, Some p) => Some (p, m) | _ => None end)) as Hrp.
    { intros r1 H. destruct r1 as [[om [q|]]|e|e]; try done. simpl in *.
      destruct H as (m' & -> & -> & -> & H). by exists m. }
    apply Hrp in Hrep. eexists. split; [|exact Hrep]. clear Hrp Hrep.
    assert (forall sx p, inv c sx -> get_dialogue c sx m = Some p ->
        exists d, s_heap sx !! p = Some d /\ lb_opponent (d_label d) = m_sender m /\
                  s_by_label sx !! d_label d = Some p) as Hgd.
    { intros sx p Hix Hg.
      destruct (get_dialogue_opponent c sx m p (iv_any c sx Hix) Hg) as (d & Hd & Ho & Hl).
      exists d. split; [done|]. split; [|done]. rewrite Ho.
      unfold ds_counterparty, ds_is_by_self. by rewrite bool_decide_eq_false_2. }
    destruct (_ && _) eqn:Hinv in Hs.
    { edestruct (update_found_evo c s m is_new None) as [(q & d & [=] & _)|[He _]];
        [exact Hi|done|done|done| |exact Hs|done|exact He]. done. }
    destruct is_new eqn:Hnew.
    { unfold create_opponent_initiated in Hs.
      destruct (negb _) eqn:Hn2 in Hs; [injection Hs as <- <-; apply evo_refl|].
      apply negb_false_iff, andb_true_iff in Hn2 as [H3 H4].
      apply bool_decide_eq_true in H3. apply bool_decide_eq_true in H4.
      destruct (m_ref m) as [rs rr] eqn:Eref. simpl in H3, H4. cbn [starter_ref] in Hs.
      rewrite H4 in Hs.
      destruct (create c s _ _ _) as [sc oc] eqn:Ec.
      edestruct (create_spec c s) as (Hic & Hec & Hoc); [apply Hi| | | |exact Ec|].
      { by intros v [= <-]. }
      { by right. }
      { done. }
      destruct (inv_create_opp c s rs (m_sender m) nonce _ sc oc Hi H3 H2 Ec) as [Hiv Hst].
      pose proof (evo_create_opp c s rs (m_sender m) nonce _ sc oc Hi H2 Ec) as Hev.
      destruct oc as [p|e|e]; [|by injection Hs as <- <-|done].
      destruct Hoc as (Hfr & Hnone & _ & d & Hd & _ & Hdl). destruct Hst as [Hst _].
      edestruct (update_found_evo c sc m true (Some p)) as [(q & d1 & [= <-] & Hd1 & _ & Hr & Hrm)|[He _]];
        [exact Hiv|done|done|done| |exact Hs|done| |].
      - intros q [= <-]. exists d. split; [done|]. by rewrite Hdl.
      - rewrite Hd in Hd1. injection Hd1 as <-. rewrite Hdl in Hrm.
        pose proof (remove_persist c sc _ p s' Hiv Hst Hrm) as Hper.
        assert ((match r with Ok (_, Some q) => Some (q, m) | _ => None end) = None) as ->.
        { destruct r as [[om [q|]]|e|e]; [|done..]. exfalso.
          unfold update_found in Hs. rewrite Hd in Hs.
          destruct (store_update c sc p _) as [su [mu|eu|eu]]; [injection Hs as <- <- <-; done| |done].
          destruct (st_remove su (d_label d)); discriminate. }
        apply st_remove_ok in Hrm as (R1 & R2 & R3 & R4 & R5 & R6 & _).
        split; try done.
        + intros k v Hk Hv. apply Hper; [|done]. by apply Hev.
        + intros l q Hl. destruct (ev_kept c s sc None Hev l q Hl)
            as [(l' & He & Hl')|(_ & m' & [=] & _)].
          left. exists l'. split; [done|]. rewrite R3. rewrite lookup_delete_ne; [done|].
          intros <-. rewrite Hst in Hl'. injection Hl' as <-.
          destruct (ia_label c s (iv_any c s Hi) l p Hl) as (x & Hx & _). congruence.
        + intros l Hl. left. rewrite R5 in Hl. apply hs_contains_remove in Hl as [_ Hl].
          by destruct (ev_terminal c s sc None Hev l Hl) as [|(? & ? & [=] & _)].
      - by eapply evo_trans. }
    destruct (_ && _) eqn:Hini in Hs.
    { edestruct (update_found_evo c s m false) as [(q & d & _ & _ & [=] & _)|[He _]];
        [exact Hi|done|done|done| |exact Hs|done|exact He]. intros p. by apply Hgd. }
    destruct (complete_dialogue_reference c s m) as [sc oc] eqn:Ec.
    destruct (inv_complete c s m sc oc Hi Ec) as [Hiv Hpo].
    pose proof (evo_complete c s m sc oc Hi Ec Hpo) as Hev.
    destruct oc as [u|e|e]; [|by injection Hs as <- <-|done].
    eapply evo_trans; [exact Hev|].
    edestruct (update_found_evo c sc m false) as [(q & d & _ & _ & [=] & _)|[He _]];
      [exact Hiv|done|done|done| |exact Hs|done|exact He]. intros p. by apply Hgd.
  - unfold api_reply in Hs. destruct (s_heap s !! p) as [d|] eqn:Hd.
    2:{ injection Hs as <- <-. exists None. split; [apply evo_refl|done]. }
    destruct (store_update c s p _) as [su ou] eqn:Eu.
    destruct Hrs as [l Hl].
    destruct (ia_label c s (iv_any c s Hi) l p Hl) as (d1 & Hd1 & Hl1).
    rewrite Hd in Hd1. injection Hd1 as <-.
    destruct (ia_dlg c s (iv_any c s Hi) p d Hd) as (h & Hh).
    destruct (dialogue_reply d perf tm tp) as [[[d' m'] t]|e|e] eqn:Ed.
    + destruct (reply_result c d h perf tm tp d' m' t Hh Ed)
        as (le & _ & Hm & _ & _ & -> & Ht & Hd').
      assert (evo c s su (Some (p, m'))) as He.
      { eapply store_update_evo; [exact Hi|exact Hd|by rewrite Hl1| | |exact Hd'| |exact Eu];
          [done|done|]. rewrite Ht. rewrite Hm. by eapply terminal_spec. }
      edestruct (inv_store_update c s p d (append_message d m') m' t) as (sx & Hsx & _);
        [exact Hi|exact Hd|by rewrite Hl1|done|done|exact Hd'|].
      rewrite Hsx in Eu. injection Eu as <- <-. injection Hs as <- <-.
      eexists. split; [exact He|]. exists m'. split; [done|]. split; [done|]. split; [done|].
      by rewrite Hm.
    + injection Eu as <- <-. injection Hs as <- <-. exists None. split; [apply evo_refl|done].
    + injection Eu as <- <-. injection Hs as <- <-. done.
Qed.

Lemma later_inv c s s' : inv c s -> later c s s' -> inv c s'.
Proof.
  intros Hi. induction 1 as [|s1 o s2 r _ IH Hr Hs Hp]; [done|].
  by apply (inv_step c s1 o s2 r IH Hr Hs).
Qed.

Lemma later_reachable c s s' : reachable c s -> later c s s' -> reachable c s'.
Proof.
  intros Hi. induction 1 as [|s1 o s2 r _ IH Hr Hs Hp]; [done|].
  by eapply r_step.
Qed.

Lemma later_persist c s s' k v :
  inv c s -> later c s s' -> s_incomplete s !! k = Some v -> responder_ref (lb_ref v) <> "" ->
  s_incomplete s' !! k = Some v.
Proof.
  intros Hi. induction 1 as [|s1 o s2 r Hl IH Hr Hs Hp]; [done|].
  intros Hk Hv. pose proof (later_inv c s s1 Hi Hl) as Hi1.
  destruct (evo_step c s1 o s2 r Hi1 Hr Hs Hp) as (g & He & _).
  eapply ev_persist; [exact He| |done]. by apply IH.
Qed.

Lemma reported_unique c o r g g' : reported c o r g -> reported c o r g' -> g = g'.
Proof.
  unfold reported. destruct r as [[om [p|]]|e|e]; [|congruence..].
  intros (m & -> & H) (m' & -> & H'). do 2 f_equal.
  destruct o; simpl in *; intuition congruence.
Qed.
