(** Proofs about the dialogue store: invariants of all reachable stores and the
    effect of one API call. *)
From Coq Require Import ZArith List String Lia.
From stdpp Require Import base tactics gmap strings list.
From Verif Require Import GoBase SetModel DialogueModel StoreModel DialogueSpec
  DialogueProofs.
Open Scope Z_scope.

(** * Building blocks *)

(** The store after a removal, apart from the by-address index. *)
Lemma st_remove_ok s l s' :
  st_remove s l = Ok s' ->
  s_heap s' = s_heap s /\ s_next s' = s_next s /\
  s_by_label s' = delete l (s_by_label s) /\
  s_incomplete s' = delete l (s_incomplete s) /\
  s_terminal s' = hs_remove (s_terminal s) l /\
  (forall a, a <> lb_opponent l -> st_with_counterparty s' a = st_with_counterparty s a) /\
  match s_by_label s !! l with
  | None => st_with_counterparty s' (lb_opponent l) = st_with_counterparty s (lb_opponent l)
  | Some _ => remove_from_array (s_heap s) (st_with_counterparty s (lb_opponent l)) l =
              Ok (st_with_counterparty s' (lb_opponent l))
  end.
Proof.
  unfold st_remove. destruct (s_by_label s !! l) as [p|] eqn:E.
  - intros H. apply rbind_ok in H as (ps & Hps & H). injection H as <-. simpl.
    repeat split; try done.
    + intros a Ha. unfold st_with_counterparty. simpl. by rewrite lookup_insert_ne.
    + rewrite Hps. unfold st_with_counterparty. simpl. by rewrite lookup_insert.
  - intros [= <-]. simpl. repeat split; done.
Qed.

Lemma st_remove_no_err s l e : st_remove s l <> Err e.
Proof.
  unfold st_remove, remove_from_array. destruct (s_by_label s !! l); [|done].
  destruct (_ <? _)%nat; simpl; done.
Qed.

Lemma st_remove_idem s l s' : st_remove s l = Ok s' -> st_remove s' l = Ok s'.
Proof.
  intros H. pose proof (st_remove_ok _ _ _ H) as (H1 & H2 & H3 & H4 & H5 & _).
  unfold st_remove. rewrite H3 at 1. rewrite lookup_delete.
  destruct s' as [hp nx bl ba ic tm]. simpl in *. subst.
  unfold hs_remove. by rewrite !delete_idemp.
Qed.

Lemma run_callbacks_remove n s l : run_callbacks (S n) false s l = st_remove s l.
Proof.
  simpl. destruct (st_remove s l) as [s'|e|e] eqn:E; try done. simpl.
  apply st_remove_idem in E. clear s. induction n as [|n IH]; [done|].
  simpl. by rewrite E.
Qed.

(** Adding a label to the terminal set. *)
Definition mark_terminal (s : store) (l : dlabel) : store :=
  Store (s_heap s) (s_next s) (s_by_label s) (s_by_addr s) (s_incomplete s)
        (hs_add (s_terminal s) l).

Lemma run_callbacks_keep n s l : run_callbacks (S n) true s l = Ok (mark_terminal s l).
Proof.
  simpl. fold (mark_terminal s l).
  assert (forall m, run_callbacks m true (mark_terminal s l) l = Ok (mark_terminal s l)) as H;
    [|apply H].
  induction m as [|m IH]; [done|]. simpl.
  replace (Store _ _ _ _ _ _) with (mark_terminal s l); [done|].
  unfold mark_terminal. simpl. f_equal. unfold hs_add. by rewrite insert_insert.
Qed.

(** * Invariant of every store, whatever the calls *)

Record inv_any (c : config) (s : store) : Prop := {
  ia_dlg : forall p d, s_heap s !! p = Some d -> exists h, dinv c d h;
  ia_cb : forall p d, s_heap s !! p = Some d ->
          d_callbacks d <> 0%nat /\ starter_ref (lb_ref (d_label d)) <> "";
  ia_fresh : forall p : ptr, (s_next s <= p)%nat -> s_heap s !! p = None;
  ia_label : forall l p, s_by_label s !! l = Some p ->
             exists d, s_heap s !! p = Some d /\ d_label d = l;
  ia_incomplete : forall k v, s_incomplete s !! k = Some v -> k = incomplete_version v }.

Lemma inv_any_empty c : inv_any c empty_store.
Proof.
  split; unfold empty_store; simpl; intros *; rewrite ?lookup_empty; try done.
Qed.

Lemma inv_any_remove c s l s' :
  inv_any c s -> st_remove s l = Ok s' -> inv_any c s'.
Proof.
  intros Hi H. apply st_remove_ok in H as (H1 & H2 & H3 & H4 & H5 & _).
  split; rewrite ?H1, ?H2, ?H3, ?H4; try apply Hi.
  - intros k p Hk. apply lookup_delete_Some in Hk as [_ Hk]. by eapply ia_label.
  - intros k v Hk. apply lookup_delete_Some in Hk as [_ Hk]. by eapply ia_incomplete.
Qed.

Lemma inv_any_mark c s l : inv_any c s -> inv_any c (mark_terminal s l).
Proof. intros []. split; done. Qed.

Lemma inv_any_callbacks c s l n keep s' :
  inv_any c s -> run_callbacks n keep s l = Ok s' -> inv_any c s'.
Proof.
  intros Hi. destruct n as [|n]; [by intros [= <-]|]. destruct keep.
  - rewrite run_callbacks_keep. intros [= <-]. by apply inv_any_mark.
  - rewrite run_callbacks_remove. by apply inv_any_remove.
Qed.

(** Writing a dialogue with the same label. *)
Lemma inv_any_set c s p d d' h :
  inv_any c s -> s_heap s !! p = Some d -> d_label d' = d_label d ->
  d_callbacks d' = d_callbacks d -> dinv c d' h -> inv_any c (set_dialogue s p d').
Proof.
  intros Hi Hp Hl Hcb Hd. split; simpl.
  - intros q x Hq. destruct (decide (p = q)) as [->|Hne].
    + rewrite lookup_insert in Hq. injection Hq as <-. by exists h.
    + rewrite lookup_insert_ne in Hq by done. by eapply ia_dlg.
  - intros q x Hq. destruct (decide (p = q)) as [->|Hne].
    + rewrite lookup_insert in Hq. injection Hq as <-. rewrite Hl, Hcb.
      by eapply ia_cb.
    + rewrite lookup_insert_ne in Hq by done. by eapply ia_cb.
  - intros q Hq. rewrite lookup_insert_ne; [by apply (ia_fresh c s)|].
    intros <-. pose proof (ia_fresh c s Hi p Hq). congruence.
  - intros l q Hq. destruct (ia_label c s Hi l q Hq) as (x & Hx & Hxl).
    destruct (decide (p = q)) as [->|Hne].
    + exists d'. rewrite lookup_insert. split; [done|]. congruence.
    + exists x. by rewrite lookup_insert_ne.
  - apply Hi.
Qed.

(** * The effect of one call on the dialogues *)

Definition messages_same (d d' : dialogue) : Prop :=
  d_out d' = d_out d /\ d_in d' = d_in d /\ d_last_id d' = d_last_id d /\
  d_ordered d' = d_ordered d.

Definition messages_appended (d d' : dialogue) (m : message) : Prop :=
  d_out d' = (if decide (m_sender m = d_self d) then d_out d ++ [m] else d_out d) /\
  d_in d' = (if decide (m_sender m = d_self d) then d_in d else d_in d ++ [m]) /\
  d_last_id d' = m_id m /\ d_ordered d' = d_ordered d ++ [m_id m].

Definition fixed_parts_same (d d' : dialogue) : Prop :=
  d_self d' = d_self d /\ d_role d' = d_role d /\ d_rules d' = d_rules d.

Lemma label_evolves_refl l : label_evolves l l.
Proof. by left. Qed.

Lemma append_message_appended d m :
  messages_appended d (append_message d m) m.
Proof.
  unfold messages_appended, append_message, is_by_self. simpl.
  destruct (decide (m_sender m = d_self d)).
  - rewrite bool_decide_eq_true_2 by done. done.
  - rewrite bool_decide_eq_false_2 by done. done.
Qed.

(** [store_update] on a dialogue that exists. *)
Lemma store_update_cases c s p r s1 o :
  store_update c s p r = (s1, o) -> is_panic o = false ->
  match r with
  | Err e => s1 = s /\ o = Err e
  | Panic e => False
  | Ok (d', m, t) =>
      o = Ok m /\
      (if t then run_callbacks (d_callbacks d') (c_keep c) (set_dialogue s p d') (d_label d')
            = Ok s1
       else s1 = set_dialogue s p d')
  end.
Proof.
  unfold store_update. destruct r as [[[d' m] t]|e|e].
  - destruct t.
    + destruct (run_callbacks _ _ _ _) eqn:E; intros [= <- <-]; try done.
      intros _. exfalso.
      destruct (d_callbacks d') as [|n]; [done|].
      destruct (c_keep c).
      * by rewrite run_callbacks_keep in E.
      * rewrite run_callbacks_remove in E. by apply st_remove_no_err in E.
    + by intros [= <- <-].
  - by intros [= <- <-].
  - by intros [= <- <-].
Qed.

Lemma run_callbacks_heap n keep s l s' :
  run_callbacks n keep s l = Ok s' ->
  s_heap s' = s_heap s /\ s_next s' = s_next s /\
  (forall k, k <> l -> s_by_label s' !! k = s_by_label s !! k) /\
  (forall a, a <> lb_opponent l -> st_with_counterparty s' a = st_with_counterparty s a) /\
  (forall k, k <> l -> s_incomplete s' !! k = s_incomplete s !! k) /\
  (forall k, k <> l -> hs_contains (s_terminal s') k = hs_contains (s_terminal s) k).
Proof.
  destruct n as [|n]; [by intros [= <-]|]. destruct keep.
  - rewrite run_callbacks_keep. intros [= <-]. simpl. repeat split; try done.
    intros k Hk. unfold hs_contains, hs_add. by rewrite lookup_insert_ne.
  - rewrite run_callbacks_remove. intros H.
    apply st_remove_ok in H as (H1 & H2 & H3 & H4 & H5 & H6 & _).
    split; [done|]. split; [done|]. split; [|split; [done|split]].
    + intros k Hk. rewrite H3. by rewrite lookup_delete_ne.
    + intros k Hk. rewrite H4. by rewrite lookup_delete_ne.
    + intros k Hk. rewrite H5. unfold hs_contains, hs_remove. by rewrite lookup_delete_ne.
Qed.

(** The dialogues of [s'] differ from those of [s] at most at pointer [t], which
    held dialogue [d] before (a new empty one if it was just allocated); the
    indexes differ only for counterparty [x]. [grown] tells whether a message
    was appended. *)
Definition suffix (c : config) (grown : option (ptr * message)) (p : ptr) : history :=
  match grown with
  | Some (q, m) => if decide (p = q) then [Entry (from_of c m) m] else []
  | None => []
  end.

Record effect (c : config) (s s' : store) (x : address) (grown : option (ptr * message))
    : Prop := {
  ef_old : forall p d, s_heap s !! p = Some d ->
     exists d', s_heap s' !! p = Some d' /\ fixed_parts_same d d' /\
       label_evolves (d_label d) (d_label d') /\
       (forall h, dinv c d h -> dinv c d' (h ++ suffix c grown p)) /\
       (lb_opponent (d_label d) <> x -> d' = d) /\
       match grown with
       | Some (q, m) => if decide (p = q) then messages_appended d d' m
                        else messages_same d d'
       | None => messages_same d d'
       end;
  ef_new : forall p d', s_heap s !! p = None -> s_heap s' !! p = Some d' ->
     p = s_next s /\ lb_opponent (d_label d') = x /\ dinv c d' (suffix c grown p) /\
     match grown with
     | Some (q, m) =>
         if decide (p = q)
         then d_ordered d' = [m_id m] /\ d_last_id d' = m_id m /\
              ((d_out d' = [m] /\ d_in d' = []) \/ (d_out d' = [] /\ d_in d' = [m]))
         else d_out d' = [] /\ d_in d' = [] /\ d_ordered d' = []
     | None => d_out d' = [] /\ d_in d' = [] /\ d_ordered d' = []
     end;
  ef_labels : forall l, lb_opponent l <> x -> s_by_label s' !! l = s_by_label s !! l;
  ef_addr : forall a, a <> x -> st_with_counterparty s' a = st_with_counterparty s a;
  ef_incomplete : forall l, lb_opponent l <> x -> s_incomplete s' !! l = s_incomplete s !! l;
  ef_terminal : forall l, lb_opponent l <> x ->
     hs_contains (s_terminal s') l = hs_contains (s_terminal s) l;
  ef_grown : forall q m, grown = Some (q, m) -> is_Some (s_heap s' !! q) }.

Lemma messages_same_refl d : messages_same d d.
Proof. done. Qed.
Lemma fixed_same_refl d : fixed_parts_same d d.
Proof. done. Qed.

Lemma unchanged_ok c d x p :
  fixed_parts_same d d /\ label_evolves (d_label d) (d_label d) /\
  (forall h, dinv c d h -> dinv c d (h ++ suffix c None p)) /\
  (lb_opponent (d_label d) <> x -> d = d) /\ messages_same d d.
Proof.
  split; [done|]. split; [by left|]. split; [|done]. intros h. simpl. by rewrite app_nil_r.
Qed.

Lemma effect_refl c s x : effect c s s x None.
Proof.
  split; intros *; try done.
  - intros H. exists d. split; [done|]. split; [done|]. split; [by left|].
    split; [|done]. intros h. by rewrite app_nil_r.
  - intros H1 H2. congruence.
Qed.

(** Changing only indexes of counterparty [x] (and the terminal set, and the
    completion map). *)
Lemma effect_indexes c s s1 s' x g :
  effect c s s1 x g ->
  s_heap s' = s_heap s1 ->
  (forall l, lb_opponent l <> x -> s_by_label s' !! l = s_by_label s1 !! l) ->
  (forall a, a <> x -> st_with_counterparty s' a = st_with_counterparty s1 a) ->
  (forall l, lb_opponent l <> x -> s_incomplete s' !! l = s_incomplete s1 !! l) ->
  (forall l, lb_opponent l <> x ->
     hs_contains (s_terminal s') l = hs_contains (s_terminal s1) l) ->
  effect c s s' x g.
Proof.
  intros [E1 E2 E3 E4 E6 E7 E5] Hh Hl Ha Hc Ht. split; rewrite ?Hh; try done.
  - intros l Hx. by rewrite Hl, E3.
  - intros a Hx. by rewrite Ha, E4.
  - intros l Hx. by rewrite Hc, E6.
  - intros l Hx. by rewrite Ht, E7.
Qed.

(** Appending a message through a pointer, on top of an effect without message. *)
Lemma effect_append c s s1 p d m x :
  effect c s s1 x None -> s_heap s1 !! p = Some d -> lb_opponent (d_label d) = x ->
  (forall h, dinv c d h -> dinv c (append_message d m) (h ++ [Entry (from_of c m) m])) ->
  effect c s (set_dialogue s1 p (append_message d m)) x (Some (p, m)).
Proof.
  intros [E1 E2 E3 E4 E6 E7 E5] Hp Hx Hext.
  pose proof (append_message_appended d m) as Hap.
  split; simpl; try done.
  - intros q dq Hq. destruct (E1 q dq Hq) as (d' & Hd' & Hf & Hl & Hv & Ho & Hm).
    simpl in Hv. destruct (decide (q = p)) as [->|Hne].
    + rewrite Hp in Hd'. injection Hd' as <-.
      exists (append_message d m). rewrite lookup_insert.
      destruct Hf as (Hf1 & Hf2 & Hf3). destruct Hm as (Hm1 & Hm2 & Hm3 & Hm4).
      split; [done|]. split; [done|]. split; [done|]. split.
      { intros h Hh. apply Hv in Hh. rewrite app_nil_r in Hh. by apply Hext. }
      split.
      * intros Hne. exfalso. destruct Hl as [Hl|[(_ & Hl & _) _]]; congruence.
      * destruct Hap as (A1 & A2 & A3 & A4). rewrite Hf1, Hm1 in A1.
        rewrite Hf1, Hm2 in A2. rewrite Hm4 in A4. done.
    + exists d'. rewrite lookup_insert_ne by done. done.
  - intros q d' Hn Hq. destruct (decide (q = p)) as [->|Hne].
    + rewrite lookup_insert in Hq. injection Hq as <-.
      destruct (E2 p d Hn Hp) as (H1 & H2 & Hv & H3 & H4 & H5).
      split; [done|]. split; [done|].
      split; [by apply (Hext [])|].
      destruct Hap as (A1 & A2 & A3 & A4). rewrite H3 in A1. rewrite H4 in A2.
      rewrite H5 in A4. simpl in *.
      split; [done|]. split; [done|].
      destruct (decide (m_sender m = d_self d)).
      * left. rewrite A1, A2. done.
      * right. rewrite A1, A2. done.
    + rewrite lookup_insert_ne in Hq by done.
      by apply E2.
  - intros q m' [= <- <-]. rewrite lookup_insert. by eexists.
Qed.

(** [store_update] keeps the invariant and has the expected effect. *)
Lemma store_update_spec c s0 s p d rr s1 o x :
  inv_any c s -> s_heap s !! p = Some d -> lb_opponent (d_label d) = x ->
  effect c s0 s x None ->
  (forall d' m t, rr = Ok (d', m, t) -> d' = append_message d m /\
     forall h, dinv c d h -> dinv c d' (h ++ [Entry (from_of c m) m])) ->
  store_update c s p rr = (s1, o) -> is_panic o = false ->
  inv_any c s1 /\
  match o with
  | Ok m => effect c s0 s1 x (Some (p, m)) /\ s_heap s1 !! p = Some (append_message d m) /\
            exists t, rr = Ok (append_message d m, m, t)
  | _ => s1 = s /\ is_err rr = true
  end.
Proof.
  intros Hi Hp Hx He Hrr Hs Ho.
  pose proof (store_update_cases _ _ _ _ _ _ Hs Ho) as Hc.
  destruct rr as [[[d' m] t]|e|e]; [|by destruct Hc as [-> ->]|done].
  destruct (Hrr d' m t eq_refl) as [-> Hd']. destruct Hc as [-> Hc].
  assert (inv_any c (set_dialogue s p (append_message d m))) as Hi1.
  { destruct (ia_dlg c s Hi p d Hp) as [h Hh].
    by eapply (inv_any_set c s p d _ _ Hi Hp), Hd'. }
  pose proof (effect_append c s0 s p d m x He Hp Hx Hd') as He1.
  destruct t.
  - split; [by eapply inv_any_callbacks|].
    apply run_callbacks_heap in Hc as (H1 & H2 & H3 & H4 & H5 & H6).
    split; [|split; [|by eexists]].
    + eapply effect_indexes; [exact He1|done| | | |].
      * intros l Hl. apply H3. intros ->. simpl in Hl. congruence.
      * intros a Ha. apply H4. simpl. congruence.
      * intros l Hl. apply H5. intros ->. simpl in Hl. congruence.
      * intros l Hl. apply H6. intros ->. simpl in Hl. congruence.
    + rewrite H1. simpl. by rewrite lookup_insert.
  - subst s1. split; [done|]. split; [done|]. split; [|by eexists].
    simpl. by rewrite lookup_insert.
Qed.

Lemma new_dialogue_dinv c l role :
  label_ok c l ->
  dinv c (new_dialogue l (c_self c) role (c_initial c) (c_terminal c) (c_replies c)) [].
Proof.
  intros Hl. split; try done. apply conversation_nil.
Qed.

(** Registering callbacks does not matter. *)
Lemma dinv_callbacks c d n h :
  dinv c d h ->
  dinv c (Dialogue (d_label d) (d_role d) (d_self d) (d_out d) (d_in d)
            (d_last_id d) (d_ordered d) (d_rules d) n) h.
Proof. intros [[] ? ? ? ?]. split; try done. Qed.

(** Adding a (possibly new) dialogue to the indexes. *)
Lemma st_add_lookup s p d l :
  s_by_label (st_add s p d) !! l = if decide (l = d_label d) then Some p else s_by_label s !! l.
Proof.
  simpl. destruct (decide (l = d_label d)) as [->|Hne].
  - by rewrite lookup_insert.
  - by rewrite lookup_insert_ne.
Qed.

Lemma st_add_addr s p d a :
  st_with_counterparty (st_add s p d) a =
  if decide (a = lb_opponent (d_label d)) then st_with_counterparty s a ++ [p]
  else st_with_counterparty s a.
Proof.
  unfold st_with_counterparty at 1. simpl.
  destruct (decide (a = lb_opponent (d_label d))) as [->|Hne].
  - by rewrite lookup_insert.
  - by rewrite lookup_insert_ne.
Qed.

(** [create]. *)
Lemma create_spec c s l role complete s1 o :
  inv_any c s ->
  (forall v, complete = Some v -> l = incomplete_version v) ->
  label_ok c (match complete with None => l | Some v => v end) ->
  starter_ref (lb_ref l) <> "" ->
  create c s l role complete = (s1, o) ->
  inv_any c s1 /\ effect c s s1 (lb_opponent l) None /\
  match o with
  | Ok p => p = s_next s /\ s_heap s !! p = None /\ s_incomplete s !! l = None /\
            exists d, s_heap s1 !! p = Some d /\ dinv c d [] /\
                      d_label d = match complete with None => l | Some v => v end
  | Err _ => True
  | Panic _ => False
  end.
Proof.
  intros Hi Hc Hl Hsr. unfold create, st_is_in_incomplete, st_is_present.
  destruct (s_incomplete s !! l) as [v|] eqn:Ei.
  { intros [= <- <-]. split; [done|]. split; [apply effect_refl|done]. }
  set (sa := match complete with None => s | Some v => st_set_incomplete s l v end).
  set (lab := match complete with None => l | Some v => v end) in *.
  assert (s_heap sa = s_heap s /\ s_next sa = s_next s /\ s_by_label sa = s_by_label s /\
          s_by_addr sa = s_by_addr s /\ s_terminal sa = s_terminal s)
    as (Ha1 & Ha2 & Ha3 & Ha4 & Ha5)
    by (subst sa; destruct complete; done).
  assert (forall k, lb_opponent k <> lb_opponent l ->
          s_incomplete sa !! k = s_incomplete s !! k) as Ha6.
  { intros k Hk. subst sa. destruct complete; [|done]. simpl.
    rewrite lookup_insert_ne; [done|]. by intros <-. }
  assert (lb_opponent lab = lb_opponent l /\
          starter_ref (lb_ref lab) = starter_ref (lb_ref l)) as [Hopp Hst].
  { subst lab. destruct complete as [v|]; [|done]. by rewrite (Hc v eq_refl). }
  assert (inv_any c sa) as Hia.
  { split; rewrite ?Ha1, ?Ha2, ?Ha3; try apply Hi.
    subst sa. destruct complete as [v|]; [|apply Hi]. simpl.
    intros k v' Hk. destruct (decide (k = l)) as [->|Hne].
    - rewrite lookup_insert in Hk. injection Hk as <-. by apply Hc.
    - rewrite lookup_insert_ne in Hk by done. by eapply ia_incomplete. }
  destruct (s_by_label sa !! lab) as [q|] eqn:Eq.
  { intros [= <- <-]. split; [done|]. split; [|done].
    split; rewrite ?Ha1; intros *; try done.
    - intros H. exists d. split; [done|]. by eapply (unchanged_ok c _ _ 0%nat).
    - congruence.
    - by rewrite Ha3.
    - unfold st_with_counterparty. by rewrite Ha4.
    - apply Ha6.
    - by rewrite Ha5. }
  intros [= <- <-].
  set (d0 := new_dialogue _ _ _ _ _ _).
  pose proof (ia_fresh c s Hi (s_next s) (le_n _)) as Hfresh.
  assert (dinv c d0 []) as Hd0 by (by apply new_dialogue_dinv).
  split.
  { split; simpl; rewrite ?Ha1, ?Ha2.
    - intros q x Hq. destruct (decide (q = s_next s)) as [->|Hne].
      + rewrite lookup_insert in Hq. injection Hq as <-. exists []. by destruct Hd0.
      + rewrite lookup_insert_ne in Hq by done. by eapply (ia_dlg c s Hi).
    - intros q x Hq. destruct (decide (q = s_next s)) as [->|Hne].
      + rewrite lookup_insert in Hq. injection Hq as <-. simpl. split; [done|].
        by rewrite Hst.
      + rewrite lookup_insert_ne in Hq by done. by eapply (ia_cb c s Hi).
    - intros q Hq. rewrite lookup_insert_ne by lia. apply (ia_fresh c s Hi). lia.
    - intros k q Hk. destruct (decide (k = lab)) as [->|Hne].
      + rewrite lookup_insert in Hk. injection Hk as <-.
        eexists. rewrite lookup_insert. done.
      + rewrite lookup_insert_ne in Hk by done. rewrite Ha3 in Hk.
        destruct (ia_label c s Hi k q Hk) as (x & Hx & Hxl). exists x.
        rewrite lookup_insert_ne; [done|]. intros <-. congruence.
    - apply Hia. }
  split.
  { split; simpl; rewrite ?Ha1, ?Ha2; intros *; try done.
    - intros H. exists d. rewrite lookup_insert_ne by congruence.
      split; [done|]. by eapply (unchanged_ok c _ _ 0%nat).
    - intros Hn Hq. destruct (decide (p = s_next s)) as [->|Hne].
      + rewrite lookup_insert in Hq. injection Hq as <-. simpl. split; [done|].
        split; [done|]. split; [|done]. by apply (dinv_callbacks c d0).
      + rewrite lookup_insert_ne in Hq by done. congruence.
    - intros Hne. rewrite Ha3. rewrite lookup_insert_ne; [done|]. intros <-. congruence.
    - intros Hne. unfold st_with_counterparty at 1. simpl.
      rewrite lookup_insert_ne by congruence. rewrite Ha4. done.
    - apply Ha6.
    - by rewrite Ha5. }
  rewrite Ha2. split; [done|]. split; [done|]. split; [done|].
  eexists. simpl. rewrite ?Ha1, ?Ha2, lookup_insert. split; [done|].
  split; [|done]. by destruct Hd0.
Qed.

Lemma incomplete_version_idem l :
  responder_ref (lb_ref l) = "" -> incomplete_version l = l.
Proof. destruct l as [[a b] o st]. simpl. by intros ->. Qed.

(** Relabelling: remove the incomplete label, write the final one, add again. *)
Lemma complete_spec c s m s1 o :
  inv_any c s -> complete_dialogue_reference c s m = (s1, o) -> is_panic o = false ->
  inv_any c s1 /\ effect c s s1 (m_sender m) None /\
  match o with
  | Ok _ => starter_ref (m_ref m) <> "" /\ responder_ref (m_ref m) <> ""
  | _ => s1 = s
  end.
Proof.
  intros Hi. unfold complete_dialogue_reference, st_get.
  destruct (negb _) eqn:Hn.
  { intros [= <- <-] _. split; [done|]. split; [apply effect_refl|done]. }
  apply negb_false_iff, andb_true_iff in Hn as [H1 H2].
  apply bool_decide_eq_true in H1. apply bool_decide_eq_true in H2.
  set (inc := DLabel _ _ _).
  destruct (_ && _) eqn:Hcond.
  2:{ intros [= <- <-] _. split; [done|]. split; [apply effect_refl|done]. }
  destruct (s_by_label s !! inc) as [p|] eqn:Ep.
  2:{ intros [= <- <-] _. split; [done|]. split; [apply effect_refl|done]. }
  destruct (ia_label c s Hi inc p Ep) as (d & Hd & Hdl). rewrite Hd.
  destruct (st_remove s inc) as [sr|e|e] eqn:Er; [|by apply st_remove_no_err in Er|
    by intros [= <- <-]].
  unfold update_dialogue_label. rewrite Hdl. simpl.
  rewrite bool_decide_eq_false_2 by done. simpl.
  intros [= <- <-] _.
  pose proof (inv_any_remove c s inc sr Hi Er) as Hir.
  pose proof (st_remove_ok _ _ _ Er) as (R1 & R2 & R3 & R4 & R5 & R6 & R7).
  set (fin := DLabel (m_ref m) _ _).
  set (d' := Dialogue fin _ _ _ _ _ _ _ _).
  destruct (ia_dlg c s Hi p d Hd) as (h & Hh).
  destruct (ia_cb c s Hi p d Hd) as (Hcb & Hsr).
  assert (same_core inc fin) as Hcore by done.
  assert (forall h, dinv c d h -> dinv c d' h) as Hall.
  { clear Hh h. intros h Hh.
    destruct Hh as [[Ha Hb Hc Hd0] Hs Hr Hl Hv]. split; simpl; try done.
    - rewrite Hdl in Hl. exact Hl.
    - rewrite Hdl in Hv. by eapply conversation_core. }
  pose proof (Hall h Hh) as Hd'.
  split.
  { split; simpl; rewrite ?R1, ?R2.
    - intros q x Hq. destruct (decide (q = p)) as [->|Hne].
      + rewrite lookup_insert in Hq. injection Hq as <-. exists h.
        by apply (dinv_callbacks c d').
      + rewrite lookup_insert_ne in Hq by done. by eapply (ia_dlg c s Hi).
    - intros q x Hq. destruct (decide (q = p)) as [->|Hne].
      + rewrite lookup_insert in Hq. injection Hq as <-. simpl. done.
      + rewrite lookup_insert_ne in Hq by done. by eapply (ia_cb c s Hi).
    - intros q Hq. rewrite lookup_insert_ne; [by apply (ia_fresh c s Hi)|].
      intros ->. pose proof (ia_fresh c s Hi q Hq). congruence.
    - intros k q Hk. destruct (decide (k = fin)) as [->|Hne].
      + rewrite lookup_insert in Hk. injection Hk as <-.
        eexists. rewrite lookup_insert. done.
      + rewrite lookup_insert_ne in Hk by done. rewrite R3 in Hk.
        apply lookup_delete_Some in Hk as [Hki Hk].
        destruct (ia_label c s Hi k q Hk) as (x & Hx & Hxl). exists x.
        rewrite lookup_insert_ne; [done|]. intros <-. congruence.
    - intros k v Hk. rewrite R4 in Hk. destruct (decide (k = inc)) as [->|Hne].
      + rewrite lookup_insert in Hk. injection Hk as <-. done.
      + rewrite lookup_insert_ne in Hk by done.
        apply lookup_delete_Some in Hk as [_ Hk]. by eapply (ia_incomplete c s Hi). }
  split; [|done].
  split; simpl; rewrite ?R1; try done.
  - intros q x Hq. destruct (decide (q = p)) as [->|Hne].
    + rewrite lookup_insert. eexists. split; [done|]. simpl.
      rewrite Hd in Hq. injection Hq as <-.
      split; [done|]. split; [right; by rewrite Hdl|]. split.
      { intros h0 Hh0. rewrite app_nil_r. by apply (dinv_callbacks c d'), Hall. }
      split; [|done].
      intros Hx. rewrite Hdl in Hx. done.
    + rewrite lookup_insert_ne by done. exists x. split; [done|]. by eapply (unchanged_ok c _ _ 0%nat).
  - intros q x Hn Hq. destruct (decide (q = p)) as [->|Hne]; [congruence|].
    rewrite lookup_insert_ne in Hq by done. congruence.
  - intros k Hk. rewrite lookup_insert_ne by (intros <-; done).
    rewrite R3. by rewrite lookup_delete_ne by (intros <-; done).
  - intros a Ha. unfold st_with_counterparty at 1. simpl.
    rewrite lookup_insert_ne by congruence. by apply R6.
  - intros k Hk. rewrite lookup_insert_ne by (intros <-; done).
    rewrite R4. by rewrite lookup_delete_ne by (intros <-; done).
  - intros k Hk. rewrite R5. unfold hs_contains, hs_remove.
    by rewrite lookup_delete_ne by (intros <-; done).
Qed.

Lemma latest_label_opponent c s l :
  inv_any c s -> lb_opponent (st_latest_label s l) = lb_opponent l.
Proof.
  intros Hi. unfold st_latest_label. destruct (s_incomplete s !! l) as [v|] eqn:E; [|done].
  by rewrite (ia_incomplete c s Hi l v E).
Qed.

Lemma get_dialogue_opponent c s m p :
  inv_any c s -> get_dialogue c s m = Some p ->
  exists d, s_heap s !! p = Some d /\ lb_opponent (d_label d) = ds_counterparty c m /\
            s_by_label s !! d_label d = Some p.
Proof.
  intros Hi. unfold get_dialogue, st_get.
  destruct (s_by_label s !! st_latest_label s (DLabel (m_ref m) _ (c_self c)))
    as [q|] eqn:E1.
  - intros [= <-]. destruct (ia_label c s Hi _ _ E1) as (d & Hd & Hl).
    exists d. split; [done|]. rewrite Hl. split; [|done].
    by rewrite (latest_label_opponent c).
  - intros E2. destruct (ia_label c s Hi _ _ E2) as (d & Hd & Hl).
    exists d. split; [done|]. rewrite Hl. split; [|done].
    by rewrite (latest_label_opponent c).
Qed.

Lemma ia_self c s p d : inv_any c s -> s_heap s !! p = Some d -> d_self d = c_self c.
Proof. intros Hi Hp. destruct (ia_dlg c s Hi p d Hp) as [h []]. done. Qed.

(** An empty dialogue holds the empty conversation only. *)
Lemma dinv_same c d h h' : dinv c d h -> dinv c d [] -> h = h' -> h' = [].
Proof.
  intros H1 H2 <-. pose proof (rep_ordered _ _ (di_rep _ _ _ H1)) as H.
  rewrite (rep_ordered _ _ (di_rep _ _ _ H2)) in H. by destruct h.
Qed.

(** An incoming message applied to a dialogue with its sender. *)
Lemma store_update_incoming c s0 s p d m s1 o :
  inv_any c s -> s_heap s !! p = Some d ->
  lb_opponent (d_label d) = m_sender m ->
  m_sender m <> c_self c -> m_sender m <> "" -> m_to m = c_self c ->
  effect c s0 s (m_sender m) None ->
  store_update c s p (dialogue_update d m) = (s1, o) -> is_panic o = false ->
  inv_any c s1 /\
  match o with
  | Ok m' => m' = m /\ effect c s0 s1 (m_sender m) (Some (p, m)) /\
             s_heap s1 !! p = Some (append_message d m)
  | _ => s1 = s /\ is_err (dialogue_update d m) = true
  end.
Proof.
  intros Hi Hp Hopp Hns Hne Hto He Hs Ho.
  destruct (ia_dlg c s Hi p d Hp) as (h & Hh).
  assert (presented c m) as Hpr by (right; done).
  assert (from_of c m = Peer) as Hfr by (unfold from_of; by rewrite decide_False).
  clear h Hh. pose proof (store_update_spec c s0 s p d
    (dialogue_update d m) s1 o (m_sender m) Hi Hp Hopp He) as Hsp.
  assert (forall d' m' t, dialogue_update d m = Ok (d', m', t) ->
            m' = m /\ d' = append_message d m' /\
            forall h, dinv c d h -> dinv c d' (h ++ [Entry (from_of c m') m']))
    as Hup.
  { intros d' m' t Hu. pose proof (update_result _ _ _ _ _ Hu) as (-> & -> & _).
    rewrite (fill_sender_presented c d m) in * by (try done; by eapply ia_self).
    split; [done|]. split; [done|]. intros h Hh.
    edestruct (update_dinv c d h m) as (_ & _ & _ & Hd'); [exact Hh|exact Hpr| | | |exact Hu|done];
      rewrite Hfr; done. }
  destruct Hsp as [Hi1 Hsp]; [|done|done|].
  { intros d' m' t Hu. by apply Hup in Hu as (_ & ? & ?). }
  split; [done|]. destruct o as [m'| |]; [|done|done].
  destruct Hsp as (He1 & Hh1 & t & Ht).
  apply Hup in Ht as (-> & _). done.
Qed.

(** A reply. *)
Lemma store_update_reply c s p d perf tm tp s1 o :
  inv_any c s -> s_heap s !! p = Some d ->
  store_update c s p (dialogue_reply d perf tm tp) = (s1, o) -> is_panic o = false ->
  inv_any c s1 /\
  match o with
  | Ok m => effect c s s1 (lb_opponent (d_label d)) (Some (p, m)) /\
            s_heap s1 !! p = Some (append_message d m) /\ m_sender m = c_self c
  | _ => s1 = s /\ is_err (dialogue_reply d perf tm tp) = true
  end.
Proof.
  intros Hi Hp Hs Ho.
  destruct (ia_dlg c s Hi p d Hp) as (h & Hh).
  pose proof (store_update_spec c s s p d
    (dialogue_reply d perf tm tp) s1 o _ Hi Hp eq_refl (effect_refl _ _ _)) as Hsp.
  destruct Hsp as [Hi1 Hsp]; [|done|done|].
  { intros d' m' t Hu.
    destruct (reply_result c d h perf tm tp d' m' t Hh Hu)
      as (le & _ & Hm & _ & _ & Hd' & _ & _).
    split; [done|]. intros h' Hh'.
    destruct (reply_result c d h' perf tm tp d' m' t Hh' Hu)
      as (_ & _ & _ & _ & _ & _ & _ & Hrest).
    replace (from_of c m') with Me; [apply Hrest|].
    unfold from_of. rewrite decide_True; [done|]. by rewrite Hm. }
  split; [done|]. destruct o as [m'| |]; [|done|done].
  destruct Hsp as (He1 & Hh1 & t & Ht). split; [done|]. split; [done|].
  destruct (reply_result c d h perf tm tp _ m' t Hh Ht) as (le & _ & Hm & _).
  by rewrite Hm.
Qed.

(** What a call appended, and what it returned. *)
Definition reported (c : config) (o : op) (r : res out) (g : option (ptr * message)) : Prop :=
  match r with
  | Ok (om, Some p) =>
      exists m, g = Some (p, m) /\
        match o with
        | OpCreate _ _ _ => om = Some m /\ m_sender m = c_self c
        | OpCreateWith cp m0 =>
            om = None /\ m_sender m = c_self c /\
            m = Msg cp (c_self c) (m_ref m0) (m_id m0) (m_target m0) (m_perf m0)
        | OpUpdate _ m0 => om = None /\ m = m0 /\ m_sender m <> c_self c
        | OpReply q _ _ _ => om = Some m /\ p = q /\ m_sender m = c_self c
        end
  | _ => g = None
  end.

Lemma create_dialogue_spec c s cp m s1 o :
  inv_any c s -> m_sender m = c_self c ->
  create_dialogue c s cp m = (s1, o) -> is_panic o = false ->
  inv_any c s1 /\
  match o with
  | Ok (Some p) => effect c s s1 cp (Some (p, m))
  | _ => effect c s s1 cp None
  end.
Proof.
  intros Hi Hself. unfold create_dialogue, create_self_initiated.
  destruct (negb _) eqn:Hn.
  { intros [= <- <-] _. split; [done|]. apply effect_refl. }
  apply negb_false_iff, andb_true_iff in Hn as [H1 H2].
  apply bool_decide_eq_true in H1. apply bool_decide_eq_true in H2.
  destruct (create c s _ _ None) as [sc oc] eqn:Ec.
  edestruct (create_spec c s) as (Hic & Hec & Hoc); [exact Hi| | | |exact Ec|];
    [done|by left|done|].
  simpl in Hec. destruct oc as [p|e|e]; [|by intros [= <- <-]|by intros [= <- <-]].
  destruct Hoc as (_ & _ & _ & d & Hd & Hdi & Hdl). rewrite Hd.
  destruct (store_update c sc p (dialogue_update d m)) as [su ou] eqn:Eu.
  intros Hres Hp.
  assert (is_panic ou = false) as Hpu by (destruct ou; [done|done|by injection Hres as <- <-]).
  assert (presented c m) as Hpr by (by left).
  assert (from_of c m = Me) as Hfr by (unfold from_of; by rewrite decide_True).
  assert (forall d' m' t, dialogue_update d m = Ok (d', m', t) ->
            m' = m /\ d' = append_message d m' /\
            forall h, dinv c d h -> dinv c d' (h ++ [Entry (from_of c m') m']))
    as Hup.
  { intros d' m' t Hu.
    destruct (update_dinv c d [] m d' m' t Hdi Hpr) as (-> & -> & _ & Hd'); try done.
    { intros _ _. by rewrite Hdl. }
    split; [done|]. split; [done|]. intros h Hh. by rewrite (dinv_same c d h h Hh Hdi eq_refl). }
  pose proof (store_update_spec c s sc p d
    (dialogue_update d m) su ou cp Hic Hd) as Hsp.
  destruct Hsp as [Hi1 Hsp]; [by rewrite Hdl|done| |done|done|].
  { intros d' m' t Hu. by apply Hup in Hu as (_ & ? & ?). }
  destruct ou as [m'|e|e]; [| |done]; injection Hres as <- <-.
  - split; [done|]. destruct Hsp as (He1 & _ & t & Ht).
    by apply Hup in Ht as (-> & _).
  - split; [done|]. by destruct Hsp as [-> _].
Qed.

Lemma update_found_spec c s0 s m is_new found s1 r :
  inv_any c s -> effect c s0 s (m_sender m) None ->
  m_sender m <> c_self c -> m_sender m <> "" -> m_to m = c_self c ->
  (forall p, found = Some p -> exists d, s_heap s !! p = Some d /\
                                  lb_opponent (d_label d) = m_sender m) ->
  update_found c s m is_new found = (s1, r) -> is_panic r = false ->
  inv_any c s1 /\
  match r with
  | Ok (om, Some p) => om = None /\ found = Some p /\ effect c s0 s1 (m_sender m) (Some (p, m))
  | _ => effect c s0 s1 (m_sender m) None
  end.
Proof.
  intros Hi He H1 H2 H3 Hf. unfold update_found. destruct found as [p|].
  2:{ intros [= <- <-] _. done. }
  destruct (Hf p eq_refl) as (d & Hd & Hopp). rewrite Hd.
  destruct (store_update c s p (dialogue_update d m)) as [su ou] eqn:Eu.
  intros Hres Hp.
  assert (is_panic ou = false) as Hpu by (destruct ou; [done|done|by injection Hres as <- <-]).
  pose proof (store_update_incoming c s0 s p d m su ou Hi Hd Hopp H1 H2 H3 He Eu Hpu)
    as [Hi1 Hsp].
  destruct ou as [m'|e|e]; [| |done].
  - injection Hres as <- <-. split; [done|]. by destruct Hsp as (_ & ? & _).
  - destruct Hsp as [-> _]. destruct is_new; [|injection Hres as <- <-; done].
    destruct (st_remove s (d_label d)) as [s2|e'|e'] eqn:Er;
      [|by apply st_remove_no_err in Er|by injection Hres as <- <-].
    injection Hres as <- <-.
    split; [by eapply inv_any_remove|].
    apply st_remove_ok in Er as (R1 & R2 & R3 & R4 & R5 & R6 & _).
    eapply effect_indexes; [exact He|done| | | |].
    + intros l Hl. rewrite R3. rewrite lookup_delete_ne; [done|]. intros <-. congruence.
    + intros a Ha. apply R6. congruence.
    + intros l Hl. rewrite R4. rewrite lookup_delete_ne; [done|]. intros <-. congruence.
    + intros l Hl. rewrite R5. unfold hs_contains, hs_remove.
      rewrite lookup_delete_ne; [done|]. intros <-. congruence.
Qed.

Lemma step_any c s o s' r :
  inv_any c s -> step c s o = (s', r) -> is_panic r = false ->
  inv_any c s' /\ exists g, effect c s s' (call_counterparty s o) g /\ reported c o r g.
Proof.
  intros Hi Hs Hp. destruct o as [nonce cp p|cp m|nonce m|p perf tm tp]; simpl in Hs.
  - unfold api_create in Hs. set (m := Msg _ _ _ _ _ _) in *.
    destruct (create_dialogue c s cp m) as [sc oc] eqn:Ec.
    assert (is_panic oc = false) as Hpu by (destruct oc; [done|done|by injection Hs as <- <-]).
    destruct (create_dialogue_spec c s cp m sc oc Hi eq_refl Ec Hpu) as [Hic Hec].
    destruct oc as [[q|]|e|e]; injection Hs as <- <-; (split; [done|]);
      [exists (Some (q, m))|exists None|exists None|exists None]; try done.
    split; [done|]. simpl. by eexists.
  - unfold api_create_with in Hs.
    destruct (set_sender m (c_self c)) as [m1|e|e] eqn:E1.
    2,3: injection Hs as <- <-; split; [done|]; exists None; split; [apply effect_refl|done].
    destruct (set_to m1 cp) as [m2|e|e] eqn:E2.
    2,3: injection Hs as <- <-; split; [done|]; exists None; split; [apply effect_refl|done].
    assert (m_sender m2 = c_self c /\ m2 = Msg cp (c_self c) (m_ref m) (m_id m)
              (m_target m) (m_perf m)) as [Hm2 Hm2'].
    { unfold set_sender in E1. destruct (bool_decide _); [done|]. injection E1 as <-.
      unfold set_to in E2. destruct (bool_decide _); [done|]. by injection E2 as <-. }
    destruct (create_dialogue c s cp m2) as [sc oc] eqn:Ec.
    assert (is_panic oc = false) as Hpu by (destruct oc; [done|done|by injection Hs as <- <-]).
    destruct (create_dialogue_spec c s cp m2 sc oc Hi Hm2 Ec Hpu) as [Hic Hec].
    destruct oc as [[q|]|e|e]; injection Hs as <- <-; (split; [done|]);
      [exists (Some (q, m2))|exists None|exists None|exists None]; try done.
    split; [done|]. simpl. by eexists.
  - unfold api_update in Hs.
    destruct (negb (has_sender m && negb (ds_is_by_self c m))) eqn:Hn.
    { injection Hs as <- <-. split; [done|]. exists None. split; [apply effect_refl|done]. }
    apply negb_false_iff, andb_true_iff in Hn as [H1 H2].
    unfold has_sender in H1. apply bool_decide_eq_true in H1.
    unfold ds_is_by_self in H2. apply negb_true_iff, bool_decide_eq_false in H2.
    destruct (negb (has_to m)).
    { injection Hs as <- <-. split; [done|]. exists None. split; [apply effect_refl|done]. }
    destruct (negb (bool_decide (m_to m = c_self c))) eqn:Hn.
    { injection Hs as <- <-. split; [done|]. exists None. split; [apply effect_refl|done]. }
    apply negb_false_iff, bool_decide_eq_true in Hn.
    match type of Hs with context [update_found c s m ?b None] => set (is_new := b) in * end.
    assert (forall sx found s1 r1, inv_any c sx -> effect c s sx (m_sender m) None ->
        (forall p, found = Some p -> exists d, s_heap sx !! p = Some d /\
                                      lb_opponent (d_label d) = m_sender m) ->
        update_found c sx m is_new found = (s1, r1) -> is_panic r1 = false ->
        inv_any c s1 /\ exists g, effect c s s1 (m_sender m) g /\ reported c (OpUpdate nonce m) r1 g)
      as Huf.
    { intros sx found s1 r1 Hix Hex Hfx Hu Hpx.
      destruct (update_found_spec c s sx m is_new found s1 r1 Hix Hex H2 H1 Hn Hfx Hu Hpx)
        as [Hi1 Hr]. split; [done|].
      destruct r1 as [[om [q|]]|e|e]; [|by exists None|by exists None|done].
      destruct Hr as (-> & _ & Hr). exists (Some (q, m)). split; [done|]. simpl.
      by exists m. }
    assert (forall sx p, inv_any c sx -> get_dialogue c sx m = Some p ->
        exists d, s_heap sx !! p = Some d /\ lb_opponent (d_label d) = m_sender m) as Hgd.
    { intros sx p Hix Hg. destruct (get_dialogue_opponent c sx m p Hix Hg) as (d & Hd & Ho & _).
      exists d. split; [done|]. rewrite Ho. unfold ds_counterparty, ds_is_by_self.
      by rewrite bool_decide_eq_false_2. }
    change (call_counterparty s (OpUpdate nonce m)) with (m_sender m).
    destruct (_ && _) eqn:Hinv in Hs.
    { eapply Huf; [exact Hi|apply effect_refl| |exact Hs|done]. done. }
    destruct is_new eqn:Hnew.
    { unfold create_opponent_initiated in Hs.
      destruct (negb _) eqn:Hn2 in Hs.
      { injection Hs as <- <-. split; [done|]. exists None. split; [apply effect_refl|done]. }
      apply negb_false_iff, andb_true_iff in Hn2 as [H3 H4].
      apply bool_decide_eq_true in H3. apply bool_decide_eq_true in H4.
      destruct (create c s _ _ _) as [sc oc] eqn:Ec.
      edestruct (create_spec c s) as (Hic & Hec & Hoc); [exact Hi| | | |exact Ec|].
      { intros v [= <-]. unfold incomplete_version. simpl. f_equal.
        destruct (m_ref m); simpl in *; congruence. }
      { right. done. }
      { done. }
      simpl in Hec. destruct oc as [p|e|e].
      - destruct Hoc as (_ & _ & _ & d & Hd & _ & Hdl).
        eapply Huf; [exact Hic|exact Hec| |exact Hs|done].
        intros q [= <-]. exists d. split; [done|]. by rewrite Hdl.
      - injection Hs as <- <-. split; [done|]. by exists None.
      - done. }
    destruct (_ && _) eqn:Hini in Hs.
    { eapply Huf; [exact Hi|apply effect_refl| |exact Hs|done]. intros p. by apply Hgd. }
    destruct (complete_dialogue_reference c s m) as [sc oc] eqn:Ec.
    assert (is_panic oc = false) as Hpu by (destruct oc; [done|done|by injection Hs as <- <-]).
    destruct (complete_spec c s m sc oc Hi Ec Hpu) as (Hic & Hec & Hoc).
    destruct oc as [u|e|e]; [| |done].
    + eapply Huf; [exact Hic|exact Hec| |exact Hs|done]. intros p. by apply Hgd.
    + injection Hs as <- <-. split; [done|]. by exists None.
  - unfold api_reply in Hs. simpl. destruct (s_heap s !! p) as [d|] eqn:Hd.
    2:{ injection Hs as <- <-. split; [done|]. exists None. split; [apply effect_refl|done]. }
    destruct (store_update c s p _) as [su ou] eqn:Eu.
    assert (is_panic ou = false) as Hpu by (destruct ou; [done|done|by injection Hs as <- <-]).
    destruct (store_update_reply c s p d perf tm tp su ou Hi Hd Eu Hpu) as [Hi1 Hr].
    destruct ou as [m|e|e]; [| |done]; injection Hs as <- <-; (split; [done|]).
    + destruct Hr as (He & _ & Hms). exists (Some (p, m)). split; [done|]. by exists m.
    + destruct Hr as [-> _]. exists None. split; [apply effect_refl|done].
Qed.

Lemma reachable_any_inv c s : reachable_any c s -> inv_any c s.
Proof.
  induction 1 as [|s o s' r _ IH Hs Hp]; [apply inv_any_empty|].
  by apply (step_any c s o s' r IH Hs Hp).
Qed.

Lemma reachable_is_any c s : reachable c s -> reachable_any c s.
Proof. induction 1; [apply ra_init|]. by eapply ra_step. Qed.
