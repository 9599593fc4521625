(** Proofs about single dialogues. *)
From Coq Require Import ZArith List String Lia.
From stdpp Require Import base tactics gmap strings list.
From Verif Require Import GoBase SetModel DialogueModel StoreModel DialogueSpec.
Open Scope Z_scope.

(** * Sets built by repeated Add *)

Lemma hs_contains_add `{Countable K} (s : hset K) (x y : K) :
  hs_contains (hs_add s x) y = true <-> y = x \/ hs_contains s y = true.
Proof.
  unfold hs_contains, hs_add. destruct (decide (x = y)) as [->|Hne].
  - rewrite lookup_insert. naive_solver.
  - rewrite lookup_insert_ne by done. naive_solver.
Qed.

Lemma hs_contains_fold `{Countable K} (xs : list K) (s : hset K) (y : K) :
  hs_contains (fold_left hs_add xs s) y = true <->
  In y xs \/ hs_contains s y = true.
Proof.
  revert s. induction xs as [|x xs IH]; intros s; simpl.
  - naive_solver.
  - rewrite IH, hs_contains_add. naive_solver.
Qed.

Lemma hs_contains_list `{Countable K} (xs : list K) (y : K) :
  hs_contains (fold_left hs_add xs hs_new) y = true <-> In y xs.
Proof.
  rewrite hs_contains_fold. unfold hs_contains, hs_new. rewrite lookup_empty.
  naive_solver.
Qed.

Lemma replies_for_spec init term reps p q :
  hs_contains (replies_for (new_rules init term reps) p) q = true <->
  exists qs, reps !! p = Some qs /\ In q qs.
Proof.
  unfold replies_for, new_rules. simpl. rewrite lookup_fmap.
  destruct (reps !! p) as [qs|] eqn:E; simpl.
  - rewrite hs_contains_list. naive_solver.
  - unfold hs_contains, hs_new. rewrite lookup_empty. naive_solver.
Qed.

(** * Lists *)

Lemma last_app_one {A} (xs : list A) (x : A) : last (xs ++ [x]) = Some x.
Proof. apply last_snoc. Qed.

Lemma messages_of_app p h1 h2 :
  messages_of p (h1 ++ h2) = messages_of p h1 ++ messages_of p h2.
Proof. unfold messages_of. by rewrite List.filter_app, map_app. Qed.

Lemma messages_of_one p e :
  messages_of p [e] = if decide (e_from e = p) then [e_msg e] else [].
Proof.
  unfold messages_of. simpl. destruct (decide (e_from e = p)).
  - by rewrite bool_decide_eq_true_2.
  - by rewrite bool_decide_eq_false_2.
Qed.

Lemma last_id_snoc h e : last_id (h ++ [e]) = m_id (e_msg e).
Proof. unfold last_id. by rewrite last_app_one. Qed.

(** * The invariant of a conversation *)

(** Each message, seen with the conversation [h1] before it. *)
Definition entry_ok (c : config) (l : dlabel) (h1 : history) (e : entry) : Prop :=
  addressed c l e /\
  starter_ref (m_ref (e_msg e)) = starter_ref (lb_ref l) /\
  (h1 = [] -> legal_opening c l (e_msg e) /\
              (e_from e = Me -> started_by_me c l)) /\
  (h1 <> [] ->
     other l <> c_self c /\
     m_id (e_msg e) = demanded_id c l (e_from e) h1 /\
     (e_from e = Me -> started_by_me c l -> messages_of Me h1 <> []) /\
     legal_answer c l h1 (e_msg e)).

Definition conversation (c : config) (l : dlabel) (h : history) : Prop :=
  forall h1 e h2, h = h1 ++ e :: h2 -> entry_ok c l h1 e.

Definition label_ok (c : config) (l : dlabel) : Prop :=
  lb_starter l = c_self c \/ (lb_starter l = lb_opponent l /\ lb_opponent l <> c_self c).

Record dinv (c : config) (d : dialogue) (h : history) : Prop := {
  di_rep : represents d h;
  di_self : d_self d = c_self c;
  di_rules : d_rules d = new_rules (c_initial c) (c_terminal c) (c_replies c);
  di_label : label_ok c (d_label d);
  di_conv : conversation c (d_label d) h }.

Lemma conversation_nil c l : conversation c l [].
Proof. intros h1 e h2 Heq. destruct h1; discriminate. Qed.

Lemma conversation_snoc c l h e :
  conversation c l h -> entry_ok c l h e -> conversation c l (h ++ [e]).
Proof.
  intros Hc He h1 e' h2 Heq.
  destruct h2 as [|e2 h2 _] using rev_ind.
  - apply app_inj_tail in Heq as [<- <-]. done.
  - rewrite app_comm_cons, app_assoc in Heq.
    apply app_inj_tail in Heq as [-> _]. by eapply Hc.
Qed.

Lemma conversation_prefix c l h h' :
  conversation c l (h ++ h') -> conversation c l h.
Proof.
  intros Hc h1 e h2 ->. eapply (Hc h1 e (h2 ++ h')).
  by rewrite <- app_assoc.
Qed.

Lemma conversation_core c l l' h :
  same_core l l' -> conversation c l h -> conversation c l' h.
Proof.
  intros (H1 & H2 & H3) Hc h1 e h2 Heq.
  destruct l as [[s r] o st], l' as [[s' r'] o' st']; simpl in *; subst.
  exact (Hc h1 e h2 eq_refl).
Qed.

(** * Ids *)

Lemma id_sign_pm c l p : id_sign c l p = 1 \/ id_sign c l p = -1.
Proof. destruct p; unfold id_sign; destruct (decide _); auto. Qed.

Lemma id_sign_opp c l : id_sign c l Peer = - id_sign c l Me.
Proof. unfold id_sign; destruct (decide _); auto. Qed.

(** The first message of a started-by-the-peer dialogue comes from the peer. *)
Lemma conversation_first c l h e h' :
  conversation c l h -> h = e :: h' -> e_from e = Me -> started_by_me c l.
Proof. intros Hc -> He. destruct (Hc [] e h' eq_refl) as (_ & _ & H & _). by apply H. Qed.

Lemma sent_ids c l h :
  conversation c l h ->
  forall k m, nth_error (messages_of Me h) k = Some m ->
  m_id m = id_sign c l Me * (Z.of_nat k + 1).
Proof.
  induction h as [|e h IH] using rev_ind; intros Hc k m Hk.
  - destruct k; discriminate.
  - rewrite messages_of_app, messages_of_one in Hk.
    pose proof (conversation_prefix _ _ _ _ Hc) as Hc'.
    destruct (decide (e_from e = Me)) as [He|He]; cycle 1.
    { rewrite app_nil_r in Hk. by eapply IH. }
    destruct (decide (k < length (messages_of Me h))%nat) as [Hlt|Hge].
    { rewrite nth_error_app1 in Hk by done. by eapply IH. }
    rewrite nth_error_app2 in Hk by lia.
    destruct (k - length (messages_of Me h))%nat eqn:Ek;
      [|destruct n; discriminate].
    injection Hk as <-.
    destruct (Hc h e [] eq_refl) as (Ha & Hs & H0 & H1).
    destruct h as [|e0 h0].
    + destruct (H0 eq_refl) as [(Hid & _) Hst].
      specialize (Hst He). rewrite Hid.
      unfold id_sign. rewrite decide_True by done.
      simpl in *. replace k with 0%nat by lia. lia.
    + destruct (H1 ltac:(done)) as (_ & Hid & _). rewrite Hid, He.
      unfold demanded_id, protocol_id. f_equal. f_equal. f_equal. lia.
Qed.

Lemma peer_id_nonzero c l h :
  conversation c l h ->
  forall m, In m (messages_of Peer h) -> m_id m <> 0.
Proof.
  induction h as [|e h IH] using rev_ind; intros Hc m Hm; [destruct Hm|].
  rewrite messages_of_app, messages_of_one in Hm. apply in_app_or in Hm as [Hm|Hm].
  { eapply IH; eauto using conversation_prefix. }
  destruct (decide (e_from e = Peer)) as [He|He]; [|destruct Hm].
  destruct Hm as [<-|[]].
  destruct (Hc h e [] eq_refl) as (Ha & Hs & H0 & H1).
  destruct h as [|e0 h0].
  - destruct (H0 eq_refl) as [(Hid & _) _]. lia.
  - destruct (H1 ltac:(done)) as (_ & Hid & _). rewrite Hid, He.
    unfold demanded_id.
    destruct (id_sign_pm c l Peer) as [-> | ->];
      destruct (messages_of Peer (e0 :: h0)); lia.
Qed.

Lemma id_nonzero c l h e :
  conversation c l h -> In e h -> m_id (e_msg e) <> 0.
Proof.
  intros Hc Hin. apply in_split in Hin as (h1 & h2 & ->).
  destruct (Hc h1 e h2 eq_refl) as (Ha & Hs & H0 & H1).
  destruct h1 as [|e0 h0].
  - destruct (H0 eq_refl) as [(Hid & _) _]. lia.
  - destruct (H1 ltac:(done)) as (_ & Hid & _). rewrite Hid.
    destruct (e_from e); unfold demanded_id, protocol_id.
    + destruct (id_sign_pm c l Me) as [-> | ->]; lia.
    + destruct (id_sign_pm c l Peer) as [-> | ->];
        destruct (messages_of Peer (e0 :: h0)); lia.
Qed.

(** If I have sent something in a dialogue I started, then I opened it. *)
Lemma started_first_me c l h e h' :
  conversation c l h -> h = e :: h' -> started_by_me c l ->
  messages_of Me h <> [] -> e_from e = Me.
Proof.
  revert e h'. induction h as [|e1 h IH] using rev_ind; intros e h' Hc Heq Hst Hne;
    [discriminate|].
  destruct h as [|e0 h0].
  - simpl in Heq. injection Heq as -> <-.
    rewrite messages_of_app, messages_of_one in Hne. simpl in Hne.
    destruct (decide (e_from e = Me)); done.
  - simpl in Heq. injection Heq as -> <-.
    eapply (IH e h0); eauto using conversation_prefix.
    rewrite messages_of_app, messages_of_one in Hne.
    destruct (decide (e_from e1 = Me)) as [He|He].
    + destruct (Hc (e :: h0) e1 [] eq_refl) as (_ & _ & _ & H1).
      destruct (H1 ltac:(done)) as (_ & _ & H & _). by apply H.
    + by rewrite app_nil_r in Hne.
Qed.

(** Peer ids have the peer's sign, if I have sent anything or the peer started. *)
Lemma peer_sign c l h m :
  conversation c l h -> label_ok c l ->
  (started_by_me c l -> messages_of Me h <> []) ->
  In m (messages_of Peer h) -> 0 < m_id m * id_sign c l Peer.
Proof.
  intros Hc Hl Hme Hin.
  unfold messages_of in Hin. apply in_map_iff in Hin as (e & <- & Hin).
  apply filter_In in Hin as [Hin He]. apply bool_decide_eq_true_1 in He.
  apply in_split in Hin as (h1 & h2 & ->).
  destruct (Hc h1 e h2 eq_refl) as (Ha & Hs & H0 & H1).
  destruct h1 as [|e0 h0].
  - destruct (H0 eq_refl) as [(Hid & _) _]. rewrite Hid.
    unfold id_sign. destruct (decide (started_by_me c l)) as [Hst|]; [|lia].
    exfalso. specialize (Hme Hst).
    pose proof (started_first_me c l _ e h2 Hc eq_refl Hst Hme). congruence.
  - destruct (H1 ltac:(done)) as (_ & Hid & _). rewrite Hid, He.
    unfold demanded_id.
    destruct (id_sign_pm c l Peer) as [-> | ->];
      destruct (messages_of Peer (e0 :: h0)); lia.
Qed.

(** * Reading the model through the history *)

Lemma is_empty_rep d h : represents d h -> is_empty d = true <-> h = [].
Proof.
  intros [Ho Hi _ _]. unfold is_empty. rewrite Ho, Hi.
  destruct h as [|e h]; [done|].
  unfold messages_of. simpl.
  destruct (e_from e) eqn:E.
  - rewrite bool_decide_eq_true_2 by done. simpl. split; done.
  - rewrite (bool_decide_eq_false_2 (Peer = Me)) by done.
    rewrite (bool_decide_eq_true_2 (Peer = Peer)) by done. simpl.
    destruct (map e_msg _); split; done.
Qed.

Lemma self_initiated_started c d :
  label_ok c (d_label d) -> lb_opponent (d_label d) <> c_self c ->
  is_self_initiated d = true <-> started_by_me c (d_label d).
Proof.
  intros Hl Hne. unfold is_self_initiated, started_by_me. rewrite bool_decide_eq_true.
  destruct Hl as [H|[H _]]; rewrite H; naive_solver.
Qed.

Lemma self_initiated_sign c d :
  label_ok c (d_label d) -> lb_opponent (d_label d) <> c_self c ->
  is_self_initiated d = bool_decide (id_sign c (d_label d) Me = 1).
Proof.
  intros Hl Hne. pose proof (self_initiated_started c d Hl Hne) as Hiff.
  unfold id_sign. destruct (decide (started_by_me c (d_label d))) as [H|H].
  - rewrite bool_decide_eq_true_2 by done. by apply Hiff.
  - rewrite bool_decide_eq_false_2 by lia.
    destruct (is_self_initiated d); [|done]. exfalso. by apply H, Hiff.
Qed.

Lemma outgoing_next_spec c d h :
  dinv c d h -> lb_opponent (d_label d) <> c_self c ->
  outgoing_next_id d = protocol_id c (d_label d) Me h.
Proof.
  intros [Hrep Hself Hrules Hl Hc] Hne.
  unfold outgoing_next_id, last_outgoing. rewrite (rep_out _ _ Hrep).
  rewrite (self_initiated_sign c) by done.
  unfold protocol_id.
  assert (match last (messages_of Me h) with
          | Some m => abs_stored (m_id m) + 1
          | None => starting_message_id
          end = Z.of_nat (length (messages_of Me h)) + 1) as ->.
  { destruct (last (messages_of Me h)) as [m|] eqn:E.
    - rewrite last_lookup in E.
      assert (nth_error (messages_of Me h) (pred (length (messages_of Me h))) = Some m)
        as E' by (rewrite nth_error_is_lookup; done).
      pose proof (sent_ids _ _ _ Hc _ _ E') as Hid.
      assert (messages_of Me h <> []) as Hnn.
      { intros Hnil. rewrite Hnil in E'. destruct (pred _); discriminate. }
      assert (length (messages_of Me h) <> 0%nat) by (destruct (messages_of Me h); done).
      unfold abs_stored. rewrite Hid.
      destruct (id_sign_pm c (d_label d) Me) as [-> | ->]; lia.
    - apply last_None in E. rewrite E. done. }
  destruct (id_sign_pm c (d_label d) Me) as [-> | ->].
  - rewrite bool_decide_eq_true_2 by done. lia.
  - rewrite bool_decide_eq_false_2 by done. lia.
Qed.

Lemma incoming_next_spec c d h :
  dinv c d h -> lb_opponent (d_label d) <> c_self c ->
  incoming_next_id d = demanded_id c (d_label d) Peer h.
Proof.
  intros [Hrep Hself Hrules Hl Hc] Hne.
  unfold incoming_next_id, last_incoming, demanded_id. rewrite (rep_in _ _ Hrep).
  rewrite (self_initiated_sign c), id_sign_opp by done.
  rewrite (rep_last _ _ Hrep). unfold abs_stored, starting_message_id.
  assert (match last (messages_of Peer h) with
          | Some _ => Z.abs (last_id h) + 1
          | None => 1
          end = match messages_of Peer h with [] => 1 | _ :: _ => Z.abs (last_id h) + 1 end)
    as ->.
  { destruct (last (messages_of Peer h)) eqn:E.
    - destruct (messages_of Peer h); done.
    - apply last_None in E. by rewrite E. }
  destruct (id_sign_pm c (d_label d) Me) as [-> | ->].
  - rewrite bool_decide_eq_true_2 by done. lia.
  - rewrite bool_decide_eq_false_2 by done. lia.
Qed.

(** The list [getMessageById] looks in. *)
Lemma target_list c d h t :
  dinv c d h -> lb_opponent (d_label d) <> c_self c -> t <> 0 ->
  (if Bool.eqb (0 <? t) (is_self_initiated d) then d_out d else d_in d) =
  messages_of (target_party c (d_label d) t) h.
Proof.
  intros [Hrep Hself Hrules Hl Hc] Hne Ht.
  rewrite (self_initiated_sign c), (rep_out _ _ Hrep), (rep_in _ _ Hrep) by done.
  unfold target_party.
  destruct (id_sign_pm c (d_label d) Me) as [-> | ->].
  - rewrite bool_decide_eq_true_2 by done.
    destruct (0 <? t) eqn:E; simpl; destruct (decide _); try done; lia.
  - rewrite bool_decide_eq_false_2 by done.
    destruct (0 <? t) eqn:E; simpl; destruct (decide _); try done; lia.
Qed.

Lemma index_some {A} (xs : list A) i x :
  index xs i = Ok x <-> 0 <= i /\ nth_error xs (Z.to_nat i) = Some x.
Proof.
  unfold index. destruct (i <? 0) eqn:E.
  - split; [discriminate|lia].
  - destruct (nth_error xs (Z.to_nat i)) eqn:E'; naive_solver lia.
Qed.

Lemma index_neg {A} (xs : list A) i : i < 0 -> index xs i = Panic "index out of range".
Proof. intros. unfold index. by rewrite (proj2 (Z.ltb_lt i 0)). Qed.

(** What [getMessageById] finds. *)
Lemma get_message_by_id_some c d h t tm :
  dinv c d h -> lb_opponent (d_label d) <> c_self c ->
  get_message_by_id d t = Ok (Some tm) <->
  designates c (d_label d) h t tm /\ t <> min_int /\
  (exists lm, last (messages_of (target_party c (d_label d) t) h) = Some lm /\
              Z.abs t <= Z.abs (m_id lm)).
Proof.
  intros Hd Hne. unfold get_message_by_id, designates.
  destruct (is_empty d) eqn:Ee.
  { apply (is_empty_rep d h (di_rep _ _ _ Hd)) in Ee as ->.
    split; [discriminate|]. intros [[_ H] _].
    unfold messages_of in H. simpl in H. destruct (Z.to_nat _); discriminate. }
  destruct (t =? 0) eqn:E0.
  { split; [discriminate|]. lia. }
  rewrite (target_list c d h t) by (done || lia).
  set (L := messages_of _ h).
  destruct (last L) as [lm|] eqn:EL.
  2: { split; [discriminate|]. intros (_ & _ & ? & ? & _). discriminate. }
  unfold abs_stored, abs_id. destruct (t =? min_int) eqn:Em.
  { assert (t = min_int) as -> by lia.
    destruct (Z.abs (m_id lm) <? min_int) eqn:E1.
    - split; [discriminate|]. intros (_ & ? & _); congruence.
    - rewrite index_neg by (unfold min_int; lia).
      cbn [rbind]. split; [discriminate|]. intros (_ & ? & _); congruence. }
  destruct (Z.abs (m_id lm) <? Z.abs t) eqn:E1.
  { split; [discriminate|]. intros (_ & _ & lm' & [= <-] & ?). lia. }
  destruct (index L (Z.abs t - 1)) as [x| |] eqn:Ex; cbn [rbind].
  - apply index_some in Ex as [Hx1 Hx2]. rewrite Hx2. split.
    + intros [= <-]. repeat split; try lia. exists lm. split; [done|lia].
    + intros [[_ [= <-]] _]. done.
  - unfold index in Ex. destruct (_ <? 0); [discriminate|].
    destruct (nth_error _ _); discriminate.
  - split; [discriminate|]. intros [[_ H] _].
    assert (index L (Z.abs t - 1) = Ok tm) as Hi
      by (apply index_some; split; [lia|done]).
    congruence.
Qed.

Lemma rbind_ok {A B} (x : res A) (f : A -> res B) b :
  rbind x f = Ok b <-> exists a, x = Ok a /\ f a = Ok b.
Proof. destruct x; simpl; naive_solver. Qed.

Lemma max_ids_two x y : max_ids [x; y] = Ok (Z.max x y).
Proof.
  unfold max_ids. cbn [fold_left]. f_equal.
  destruct (x <? y) eqn:E; lia.
Qed.

Lemma validate_target_spec c d h m :
  dinv c d h -> lb_opponent (d_label d) <> c_self c ->
  validate_message_target d m = Ok tt <->
  (m_id m = 1 /\ m_target m = 0) \/ (m_id m <> 1 /\ target_ok c (d_label d) h m).
Proof.
  intros Hd Hne. unfold validate_message_target, starting_message_id, starting_target.
  destruct (m_id m =? 1) eqn:E1.
  { destruct (m_target m =? 0) eqn:E0.
    - split; [intros _; left; lia|done].
    - split; [discriminate|]. intros [?|[? _]]; lia. }
  destruct (m_target m =? 0) eqn:E0.
  { split; [discriminate|]. intros [?|[_ (_ & tm & _ & [? _] & _)]]; lia. }
  (* the last messages of both parties, through the history *)
  pose proof (di_rep _ _ _ Hd) as Hrep.
  set (t := m_target m) in *.
  set (latest := _ ++ _).
  assert (forall mx, max_ids latest = Ok mx ->
    forall p lm, last (messages_of p h) = Some lm -> Z.abs (m_id lm) <= mx) as Hmx.
  { intros mx Hm p lm Hl. subst latest. unfold last_incoming, last_outgoing in Hm.
    rewrite (rep_out _ _ Hrep), (rep_in _ _ Hrep) in Hm.
    destruct p; rewrite Hl in Hm.
    - destruct (last (messages_of Peer h)) as [lp|].
      + change (max_ids [abs_stored (m_id lp); abs_stored (m_id lm)] = Ok mx) in Hm.
        rewrite max_ids_two in Hm. injection Hm as <-. unfold abs_stored. lia.
      + injection Hm as <-. unfold abs_stored. lia.
    - destruct (last (messages_of Me h)) as [lp|].
      + change (max_ids [abs_stored (m_id lm); abs_stored (m_id lp)] = Ok mx) in Hm.
        rewrite max_ids_two in Hm. injection Hm as <-. unfold abs_stored. lia.
      + injection Hm as <-. unfold abs_stored. lia. }
  assert (forall mx, max_ids latest = Ok mx -> 0 <= mx) as Hmx0.
  { intros mx Hm. destruct latest as [|x xs] eqn:El; [discriminate|].
    subst latest. unfold last_incoming, last_outgoing in El.
    destruct (last (d_in d)) as [li|], (last (d_out d)) as [lo|]; simpl in El; try discriminate;
      injection El as <- <-; unfold max_ids, abs_stored in Hm; cbn [fold_left] in Hm;
      injection Hm as <-; repeat case_match; lia. }
  destruct (max_ids latest) as [mx|e|e] eqn:Em; simpl.
  - specialize (Hmx mx eq_refl). specialize (Hmx0 mx eq_refl).
    destruct (mx <? abs_id t) eqn:Elt.
    { split; [discriminate|]. intros [?|[_ (Hmin & tm & lm & _ & Hl & Hle & _)]]; [lia|].
      exfalso. specialize (Hmx _ _ Hl). unfold abs_id in Elt.
      destruct (t =? min_int) eqn:Etm; fold t in Hle, Hmin; lia. }
    split.
    + intros H. apply rbind_ok in H as (tmo & Hg & H).
      destruct tmo as [tm|]; [|discriminate].
      destruct (hs_contains _ _) eqn:Eh in H; [|discriminate].
      apply (get_message_by_id_some c d h) in Hg as (Hdes & Hmin & lm & Hl & Hle);
        [|done|done].
      right. split; [lia|]. split; [done|]. exists tm, lm.
      split; [done|]. split; [done|]. split; [done|].
      rewrite (di_rules _ _ _ Hd) in Eh. by apply replies_for_spec in Eh.
    + intros [?|[_ (Hmin & tm & lm & Hdes & Hl & Hle & Hma)]]; [lia|].
      assert (get_message_by_id d t = Ok (Some tm)) as ->.
      { apply (get_message_by_id_some c d h); [done|done|]. eauto. }
      simpl. rewrite (di_rules _ _ _ Hd).
      assert (hs_contains (replies_for (new_rules (c_initial c) (c_terminal c) (c_replies c))
                (m_perf tm)) (m_perf m) = true) as ->; [|done].
      apply replies_for_spec. apply Hma.
  - exfalso. unfold max_ids in Em. destruct latest; discriminate.
  - split; [discriminate|].
    intros [?|[_ (Hmin & tm & lm & _ & Hl & _)]]; [lia|].
    exfalso. unfold max_ids in Em. subst latest.
    unfold last_incoming, last_outgoing in Em.
    rewrite (rep_out _ _ Hrep), (rep_in _ _ Hrep) in Em.
    destruct (target_party c (d_label d) (m_target m)); rewrite Hl in Em.
    + destruct (last (messages_of Peer h)); discriminate.
    + destruct (last (messages_of Me h)); discriminate.
Qed.

Lemma belonging_spec c d h m :
  dinv c d h -> lb_opponent (d_label d) <> c_self c ->
  is_belonging d m = true <->
  counterparty_from_message d m = lb_opponent (d_label d) /\ ref_fits c (d_label d) (m_ref m).
Proof.
  intros Hd Hne. unfold is_belonging, check_label_belongs, ref_fits.
  rewrite orb_true_iff, !bool_decide_eq_true.
  pose proof (self_initiated_started c d (di_label _ _ _ Hd) Hne) as Hsi.
  pose proof (di_label _ _ _ Hd) as Hl. pose proof (di_self _ _ _ Hd) as Hself.
  unfold started_by_me in *. unfold label_ok in Hl.
  destruct (d_label d) as [[sr rr] op st] eqn:El. destruct (m_ref m) as [sr' rr'] eqn:Er.
  unfold incomplete_version. simpl in *. rewrite Hself.
  destruct (is_self_initiated d) eqn:Es.
  - assert (st = c_self c) as -> by (by apply Hsi). unfold unassigned.
    split.
    + intros [H|H]; injection H as <- <-; intuition congruence.
    + intros (-> & -> & _). right. done.
  - assert (st <> c_self c) by (intros ?; destruct Hsi as [_ Hsi]; specialize (Hsi H); discriminate).
    destruct Hl as [?|[-> _]]; [done|]. unfold unassigned. split.
    + intros [H'|H']; injection H' as -> -> ->; intuition.
    + intros (-> & -> & [?|[-> | ->]]); [done|right|left]; done.
Qed.

(** * The effect of accepting a message *)

(** The party a message comes from. *)
Definition from_of (c : config) (m : message) : party :=
  if decide (m_sender m = c_self c) then Me else Peer.

(** A message as the API passes it to a dialogue: own messages, or messages of
    others addressed to this agent. *)
Definition presented (c : config) (m : message) : Prop :=
  m_sender m = c_self c \/
  (m_sender m <> c_self c /\ m_sender m <> "" /\ m_to m = c_self c).

Lemma fill_sender_presented c d m :
  d_self d = c_self c -> presented c m -> fill_sender d m = m.
Proof.
  intros Hs [H|(H1 & H2 & H3)]; unfold fill_sender, has_sender.
  - case_bool_decide as E; [done|].
    unfold set_sender. rewrite bool_decide_eq_false_2 by (intros Hn; by apply Hn).
    destruct m; simpl in *. congruence.
  - rewrite bool_decide_eq_true_2 by done. done.
Qed.

Lemma append_represents c d h m :
  represents d h -> d_self d = c_self c ->
  represents (append_message d m) (h ++ [Entry (from_of c m) m]).
Proof.
  intros [Ho Hi Hla Hor] Hs. unfold append_message, is_by_self, from_of.
  rewrite Hs. split; simpl.
  - rewrite messages_of_app, messages_of_one. simpl.
    destruct (decide (m_sender m = c_self c)) as [E|E].
    + rewrite bool_decide_eq_true_2, Ho by done. done.
    + rewrite bool_decide_eq_false_2, Ho by done. simpl. by rewrite app_nil_r.
  - rewrite messages_of_app, messages_of_one. simpl.
    destruct (decide (m_sender m = c_self c)) as [E|E].
    + rewrite bool_decide_eq_true_2, Hi by done. simpl. by rewrite app_nil_r.
    + rewrite bool_decide_eq_false_2, Hi by done. done.
  - by rewrite last_id_snoc.
  - by rewrite map_app, Hor.
Qed.

(** The full acceptance condition. *)
Definition acceptable (c : config) (l : dlabel) (h : history) (m : message) : Prop :=
  (if decide (m_sender m = c_self c) then m_to m = lb_opponent l
   else m_sender m = lb_opponent l) /\
  ref_fits c l (m_ref m) /\
  match h with
  | [] => legal_opening c l m
  | _ => m_id m = demanded_id c l (from_of c m) h /\
         ((m_id m = 1 /\ m_target m = 0) \/ (m_id m <> 1 /\ target_ok c l h m))
  end.

Lemma update_result d m d' m' t :
  dialogue_update d m = Ok (d', m', t) ->
  m' = fill_sender d m /\ d' = append_message d m' /\
  t = hs_contains (r_terminal (d_rules d)) (m_perf m').
Proof.
  unfold dialogue_update. destruct (negb _); [discriminate|].
  intros H. apply rbind_ok in H as (u & _ & H). injection H as <- <- <-. done.
Qed.

Lemma update_accept_iff c d h m :
  dinv c d h -> lb_opponent (d_label d) <> c_self c -> presented c m ->
  is_ok (dialogue_update d m) = true <-> acceptable c (d_label d) h m.
Proof.
  intros Hd Hne Hp.
  unfold dialogue_update. rewrite (fill_sender_presented c d m (di_self _ _ _ Hd) Hp).
  unfold acceptable.
  pose proof (belonging_spec c d h m Hd Hne) as Hb.
  assert (counterparty_from_message d m = lb_opponent (d_label d) <->
          (if decide (m_sender m = c_self c) then m_to m = lb_opponent (d_label d)
           else m_sender m = lb_opponent (d_label d))) as Hcp.
  { unfold counterparty_from_message, is_by_self. rewrite (di_self _ _ _ Hd).
    destruct (decide (m_sender m = c_self c)).
    - rewrite bool_decide_eq_true_2 by done. done.
    - rewrite bool_decide_eq_false_2 by done. done. }
  rewrite Hcp in Hb.
  destruct (is_belonging d m) eqn:Eb; simpl; cycle 1.
  { split; [discriminate|]. intros (H1 & H2 & _).
    assert (false = true) by (apply Hb; done). done. }
  destruct Hb as [Hb _]. specialize (Hb eq_refl) as [Hb1 Hb2].
  assert ((is_ok (let* _ := validate_next_message d m in
     Ok (append_message d m, m, hs_contains (r_terminal (d_rules d)) (m_perf m)))) = true <->
     validate_next_message d m = Ok tt) as ->.
  { destruct (validate_next_message d m) as [[]|e|e]; simpl; split; done. }
  unfold validate_next_message.
  assert (bool_decide (starter_ref (lb_ref (d_label d)) = starter_ref (m_ref m)) = true) as Hsr.
  { apply bool_decide_eq_true. destruct Hb2 as [-> _]. done. }
  pose proof (is_empty_rep d h (di_rep _ _ _ Hd)) as He.
  destruct h as [|e0 h0].
  - rewrite (proj2 He eq_refl). unfold basic_validation_initial. rewrite Hsr. simpl.
    unfold starting_message_id.
    destruct (m_id m =? 1) eqn:E1; simpl; cycle 1.
    { split; [discriminate|]. intros (_ & _ & (? & _)). lia. }
    split.
    + intros H. apply rbind_ok in H as ([] & Ht & H).
      apply (validate_target_spec c d []) in Ht; [|done|done].
      destruct (hs_contains _ _) eqn:Eh; [|discriminate].
      rewrite (di_rules _ _ _ Hd) in Eh. simpl in Eh. apply hs_contains_list in Eh.
      split; [done|]. split; [done|]. unfold legal_opening.
      destruct Ht as [[? ?]|[? _]]; [|lia]. destruct Hb2 as [? _]. done.
    + intros (_ & _ & (Hid & Ht & Hin & _)).
      assert (validate_message_target d m = Ok tt) as ->.
      { apply (validate_target_spec c d []); [done|done|]. by left. }
      simpl. rewrite (di_rules _ _ _ Hd). simpl.
      by rewrite (proj2 (hs_contains_list _ _) Hin).
  - assert (is_empty d = false) as ->.
    { destruct (is_empty d); [|done]. destruct He as [He _]. by specialize (He eq_refl). }
    unfold basic_validation_non_initial. rewrite Hsr. simpl.
    unfold validate_message_id.
    assert ((if bool_decide (m_to m <> d_self d) then outgoing_next_id d
             else incoming_next_id d) =
            demanded_id c (d_label d) (from_of c m) (e0 :: h0)) as ->.
    { rewrite (di_self _ _ _ Hd). unfold from_of.
      destruct (decide (m_sender m = c_self c)) as [E|E].
      - rewrite bool_decide_eq_true_2 by congruence. simpl.
        by apply outgoing_next_spec.
      - destruct Hp as [?|(_ & _ & Hto)]; [done|].
        rewrite bool_decide_eq_false_2 by (intros H; by apply H).
        by apply incoming_next_spec. }
    destruct (m_id m =? _) eqn:Eid; simpl; cycle 1.
    { split; [discriminate|]. intros (_ & _ & ? & _). lia. }
    rewrite (validate_target_spec c d (e0 :: h0)) by done.
    split.
    + intros H. repeat split; try done; [apply Hb2|apply Hb2|lia].
    + by intros (_ & _ & _ & H).
Qed.

(** * Opening messages, for any counterparty *)

Lemma update_initial c d m r :
  dinv c d [] -> presented c m -> dialogue_update d m = Ok r ->
  legal_opening c (d_label d) m /\
  (if decide (m_sender m = c_self c) then m_to m = lb_opponent (d_label d)
   else m_sender m = lb_opponent (d_label d)).
Proof.
  intros Hd Hp Hu. unfold dialogue_update in Hu.
  rewrite (fill_sender_presented c d m (di_self _ _ _ Hd) Hp) in Hu.
  destruct (is_belonging d m) eqn:Eb; simpl in Hu; [|discriminate].
  apply rbind_ok in Hu as ([] & Hv & _).
  unfold validate_next_message in Hv.
  rewrite (proj2 (is_empty_rep d [] (di_rep _ _ _ Hd)) eq_refl) in Hv.
  unfold basic_validation_initial, starting_message_id in Hv.
  case_bool_decide as Es; [simpl in Hv|discriminate].
  destruct (m_id m =? 1) eqn:E1; simpl in Hv; [|discriminate].
  apply rbind_ok in Hv as ([] & Ht & Hv).
  unfold validate_message_target, starting_message_id, starting_target in Ht.
  rewrite E1 in Ht. destruct (m_target m =? 0) eqn:E0; [|discriminate].
  destruct (hs_contains _ _) eqn:Eh; [|discriminate].
  rewrite (di_rules _ _ _ Hd) in Eh. simpl in Eh. apply hs_contains_list in Eh.
  split; [unfold legal_opening; repeat split; try done; lia|].
  assert (counterparty_from_message d m = lb_opponent (d_label d)) as Hcp.
  { unfold is_belonging, check_label_belongs, incomplete_version in Eb.
    apply orb_true_iff in Eb. rewrite !bool_decide_eq_true in Eb.
    destruct (d_label d) as [lr lo ls]; simpl in *.
    destruct (is_self_initiated d); destruct Eb as [Eb|Eb]; injection Eb; intros; done. }
  unfold counterparty_from_message, is_by_self in Hcp. rewrite (di_self _ _ _ Hd) in Hcp.
  destruct (decide (m_sender m = c_self c)) as [E|E].
  - by rewrite bool_decide_eq_true_2 in Hcp.
  - by rewrite bool_decide_eq_false_2 in Hcp.
Qed.

(** A dialogue of the agent with itself holds at most its opening. *)
Lemma self_conversation c l h :
  conversation c l h -> lb_opponent l = c_self c ->
  h = [] \/ exists m, h = [Entry Me m].
Proof.
  intros Hc Hs. destruct h as [|e [|e2 h]]; [by left| |].
  - right. destruct (Hc [] e [] eq_refl) as (Ha & _).
    unfold addressed, other in Ha. destruct e as [[|] m]; simpl in Ha; [by exists m|].
    destruct Ha as (_ & _ & Ha). done.
  - exfalso. destruct (Hc [e] e2 h eq_refl) as (_ & _ & _ & H).
    destruct (H ltac:(done)) as (Hne & _). done.
Qed.

Lemma last_id_nonzero c l h :
  conversation c l h -> h <> [] -> last_id h <> 0.
Proof.
  intros Hc Hne. destruct h as [|e h _] using rev_ind; [done|].
  rewrite last_id_snoc. eapply id_nonzero; [done|].
  apply in_or_app. right. by left.
Qed.

(** Every conversation has a first message of somebody. *)
Lemma no_peer_started c l h :
  conversation c l h -> h <> [] -> messages_of Peer h = [] -> started_by_me c l.
Proof.
  intros Hc Hne Hp. destruct h as [|e h]; [done|].
  destruct (e_from e) eqn:Ee.
  - by eapply conversation_first.
  - unfold messages_of in Hp. simpl in Hp. rewrite Ee in Hp.
    rewrite bool_decide_eq_true_2 in Hp by done. discriminate.
Qed.

(** Accepting a message keeps the invariant. *)
Lemma update_dinv c d h m d' m' t :
  dinv c d h -> presented c m ->
  (h = [] -> from_of c m = Me -> started_by_me c (d_label d)) ->
  (h <> [] -> from_of c m = Me -> m_target m <> 0) ->
  (h <> [] -> from_of c m = Me -> lb_opponent (d_label d) <> c_self c) ->
  dialogue_update d m = Ok (d', m', t) ->
  m' = m /\ d' = append_message d m /\
  t = hs_contains (r_terminal (d_rules d)) (m_perf m) /\
  dinv c d' (h ++ [Entry (from_of c m) m]).
Proof.
  intros Hd Hp H0 H1 H2 Hu.
  pose proof (update_result _ _ _ _ _ Hu) as (Hm' & Hd' & Ht).
  rewrite (fill_sender_presented c d m (di_self _ _ _ Hd) Hp) in Hm'. subst m'.
  split; [done|]. split; [done|]. split; [done|].
  assert (entry_ok c (d_label d) h (Entry (from_of c m) m)) as He.
  { destruct (decide (h = [])) as [->|Hne].
    - destruct (update_initial _ _ _ _ Hd Hp Hu) as [Hop Had].
      split; [|split; [apply Hop|split; [|done]]].
      + unfold addressed, from_of, other. simpl.
        destruct (decide (m_sender m = c_self c)) as [E|E]; [done|].
        destruct Hp as [?|(_ & _ & ?)]; [done|]. split; [done|]. split; [done|]. congruence.
      + intros _. split; [done|]. by apply H0.
    - assert (lb_opponent (d_label d) <> c_self c) as Hopp.
      { destruct (from_of c m) eqn:Ef; [by apply H2|].
        (* a message of somebody else never enters a dialogue with oneself *)
        unfold from_of in Ef. destruct (decide (m_sender m = c_self c)) as [E|E]; [done|].
        unfold dialogue_update in Hu.
        rewrite (fill_sender_presented c d m (di_self _ _ _ Hd) Hp) in Hu.
        destruct (is_belonging d m) eqn:Eb; [|discriminate].
        unfold is_belonging, check_label_belongs, incomplete_version in Eb.
        apply orb_true_iff in Eb. rewrite !bool_decide_eq_true in Eb.
        assert (counterparty_from_message d m = lb_opponent (d_label d)) as Hcp.
        { destruct (d_label d) as [lr lo ls]; simpl in *.
          destruct (is_self_initiated d); destruct Eb as [Eb|Eb]; injection Eb; intros; done. }
        unfold counterparty_from_message, is_by_self in Hcp.
        rewrite (di_self _ _ _ Hd), bool_decide_eq_false_2 in Hcp by done. congruence. }
      assert (is_ok (dialogue_update d m) = true) as Hok by (by rewrite Hu).
      apply (update_accept_iff c d h m Hd Hopp Hp) in Hok as (Had & Href & Hrest).
      destruct h as [|e0 h0] eqn:Eh; [done|]. rewrite <- Eh in *.
      destruct Hrest as [Hid Htg].
      assert (m_id m <> 1 /\ target_ok c (d_label d) h m) as [Hid1 Htok].
      { destruct Htg as [[Hone Hzero]|Htg]; [|done]. exfalso.
        destruct (from_of c m) eqn:Ef; [by apply H1|].
        rewrite Hone in Hid. unfold demanded_id in Hid.
        destruct (messages_of Peer h) eqn:Epeer.
        - assert (started_by_me c (d_label d)) as Hst
            by (eapply no_peer_started; eauto using di_conv).
          unfold id_sign in Hid. rewrite decide_True in Hid by done. lia.
        - pose proof (last_id_nonzero _ _ _ (di_conv _ _ _ Hd) Hne).
          destruct (id_sign_pm c (d_label d) Peer) as [E'|E']; rewrite E' in Hid; lia. }
      split; [|split; [apply Href|split; [done|]]].
      + unfold addressed, from_of, other. simpl.
        destruct (decide (m_sender m = c_self c)) as [E|E]; [done|].
        destruct Hp as [?|(_ & _ & ?)]; [done|]. done.
      + intros _. split; [done|]. simpl. split; [done|]. split.
        * intros Hme Hst Hnil. rewrite Hme in Hid.
          unfold demanded_id, protocol_id in Hid. rewrite Hnil in Hid.
          unfold id_sign in Hid. rewrite decide_True in Hid by done. simpl in Hid. lia.
        * destruct Htok as (_ & tm & lm & Hdes & _ & _ & Hma). by exists tm. }
  subst d'. split; simpl.
  - by apply append_represents; [apply Hd|apply Hd].
  - apply Hd.
  - apply Hd.
  - apply Hd.
  - apply conversation_snoc; [apply Hd|done].
Qed.

(** * LastMessage *)

Lemma last_map {A B} (f : A -> B) (xs : list A) : last (map f xs) = f <$> last xs.
Proof.
  induction xs as [|x [|y xs] IH]; [done|done|]. simpl in *. done.
Qed.

Lemma last_message_spec c d h :
  dinv c d h -> last_message d = e_msg <$> last h.
Proof.
  intros Hd. pose proof (di_conv _ _ _ Hd) as Hc. pose proof (di_rep _ _ _ Hd) as Hrep.
  unfold last_message. rewrite (rep_last _ _ Hrep).
  destruct h as [|e h _] using rev_ind; [done|].
  pose proof (last_id_nonzero _ _ _ Hc ltac:(by destruct h)) as Hnz.
  rewrite last_id_snoc in *. rewrite last_app_one.
  destruct (m_id (e_msg e) =? 0) eqn:E0; [lia|].
  unfold last_incoming, last_outgoing. rewrite (rep_in _ _ Hrep), (rep_out _ _ Hrep).
  rewrite !messages_of_app, !messages_of_one.
  destruct (e_from e) eqn:Ee; simpl.
  - (* my message: no peer message has this id *)
    rewrite app_nil_r, last_app_one.
    destruct (last (messages_of Peer h)) as [mp|] eqn:Ep; [|done].
    destruct (m_id mp =? m_id (e_msg e)) eqn:Eq; [|done]. exfalso.
    assert (In mp (messages_of Peer h)) as Hin.
    { apply last_Some in Ep as [l' ->]. apply in_or_app. right. by left. }
    assert (messages_of Me (h ++ [e]) <> []) as Hme.
    { rewrite messages_of_app, messages_of_one, decide_True by done.
      by destruct (messages_of Me h). }
    assert (0 < m_id mp * id_sign c (d_label d) Peer) as Hs1.
    { eapply (peer_sign c (d_label d) (h ++ [e])); [done|apply Hd|done|].
      rewrite messages_of_app. apply in_or_app. by left. }
    assert (nth_error (messages_of Me (h ++ [e])) (length (messages_of Me h)) = Some (e_msg e))
      as Hn.
    { rewrite messages_of_app, messages_of_one, decide_True by done.
      rewrite nth_error_app2 by lia. by rewrite Nat.sub_diag. }
    pose proof (sent_ids _ _ _ Hc _ _ Hn) as Hid.
    rewrite id_sign_opp in Hs1.
    destruct (id_sign_pm c (d_label d) Me) as [E|E]; rewrite E in *; lia.
  - rewrite last_app_one. rewrite Z.eqb_refl. done.
Qed.

(** * Reply *)

Lemma reply_target_ok d lm tm tp o t :
  reply_target d lm tm tp = Ok (o, t) ->
  match tm, tp with
  | None, None => o = Some lm /\ t = m_id lm
  | Some m, None => o = Some m /\ t = m_id m
  | None, Some t' => t = t'
  | Some m, Some t' => o = Some m /\ t = t' /\ t' = m_id m
  end.
Proof.
  unfold reply_target. destruct tm as [m|], tp as [t'|]; simpl.
  - destruct (t' =? m_id m) eqn:E; [|discriminate]. intros [= <- <-].
    split; [done|]. split; [done|lia].
  - by intros [= <- <-].
  - intros H. apply rbind_ok in H as (o' & _ & [= <- <-]). done.
  - by intros [= <- <-].
Qed.

Lemma reply_result c d h p tm tp d' m t :
  dinv c d h ->
  dialogue_reply d p tm tp = Ok (d', m, t) ->
  exists le,
    last h = Some le /\
    m = Msg (lb_opponent (d_label d)) (c_self c) (lb_ref (d_label d))
            (protocol_id c (d_label d) Me h) (m_target m) p /\
    m_target m = match tm, tp with
                 | None, None => m_id (e_msg le)
                 | Some x, _ => m_id x
                 | None, Some x => x
                 end /\
    (forall x y, tm = Some x -> tp = Some y -> y = m_id x) /\
    d' = append_message d m /\
    t = hs_contains (r_terminal (d_rules d)) p /\
    dinv c d' (h ++ [Entry Me m]).
Proof.
  intros Hd Hr. unfold dialogue_reply in Hr.
  rewrite (last_message_spec c d h Hd) in Hr.
  destruct (last h) as [le|] eqn:El; simpl in Hr; [|discriminate].
  assert (h <> []) as Hne by (intros ->; discriminate).
  apply rbind_ok in Hr as ([o tg] & Hrt & Hr). simpl in Hr.
  pose proof (reply_target_ok _ _ _ _ _ _ Hrt) as Htg.
  destruct o as [om|]; [|discriminate].
  apply rbind_ok in Hr as (found & Hf & Hr).
  destruct found; simpl in Hr; [|discriminate].
  set (mm := Msg _ _ _ _ _ _) in Hr.
  assert (from_of c mm = Me) as Hfrom.
  { unfold from_of, mm. simpl. rewrite (di_self _ _ _ Hd). by rewrite decide_True. }
  assert (presented c mm) as Hp by (left; apply (di_self _ _ _ Hd)).
  assert (tg <> 0) as Hnz.
  { intros ->. unfold has_message_id in Hf. apply rbind_ok in Hf as (x & Hg & Hf).
    unfold get_message_by_id in Hg.
    destruct (is_empty d) in Hg; injection Hg as <-; discriminate. }
  assert (lb_opponent (d_label d) <> c_self c) as Hopp.
  { intros Heq. destruct (self_conversation _ _ _ (di_conv _ _ _ Hd) Heq) as [?|[m0 ->]];
      [done|].
    pose proof (di_rep _ _ _ Hd) as Hrep.
    pose proof (di_conv _ _ _ Hd [] (Entry Me m0) [] eq_refl) as (_ & _ & Hop & _).
    destruct (Hop eq_refl) as [(Hid & _) Hst]. simpl in Hid. specialize (Hst eq_refl).
    assert (is_self_initiated d = false) as Hsi.
    { unfold is_self_initiated. apply bool_decide_eq_false. unfold started_by_me in Hst.
      intros Hn. apply Hn. congruence. }
    apply update_result in Hr as Hres.
    unfold dialogue_update in Hr.
    rewrite (fill_sender_presented c d mm (di_self _ _ _ Hd) Hp) in Hr.
    destruct (negb (is_belonging d mm)); [discriminate|].
    apply rbind_ok in Hr as ([] & Hv & _).
    unfold validate_next_message in Hv.
    assert (is_empty d = false) as He.
    { destruct (is_empty d) eqn:He; [|done]. apply (is_empty_rep d _ Hrep) in He. done. }
    rewrite He in Hv. unfold basic_validation_non_initial in Hv.
    destruct (negb _) in Hv; [discriminate|].
    apply rbind_ok in Hv as ([] & Hv & _). unfold validate_message_id in Hv.
    unfold mm in Hv. simpl in Hv.
    rewrite (di_self _ _ _ Hd), Heq, bool_decide_eq_false_2 in Hv by (intros Hn; by apply Hn).
    unfold outgoing_next_id, incoming_next_id, last_outgoing, last_incoming in Hv.
    rewrite Hsi, (rep_out _ _ Hrep), (rep_in _ _ Hrep) in Hv.
    unfold messages_of in Hv. simpl in Hv. rewrite Hid in Hv.
    unfold abs_stored, starting_message_id in Hv. simpl in Hv. discriminate. }
  destruct (update_dinv c d h mm d' m t Hd Hp) as (Hm & Hd' & Ht & Hinv); try done.
  subst m. rewrite Hfrom in Hinv.
  exists le. split; [done|]. split.
  { unfold mm at 1. simpl. rewrite (di_self _ _ _ Hd).
    by rewrite (outgoing_next_spec c d h Hd Hopp). }
  split.
  { simpl. destruct tm as [x|], tp as [y|]; naive_solver. }
  split.
  { intros x y -> ->. naive_solver. }
  split; [done|]. split; [done|done].
Qed.

(** * Crashes *)

Lemma sent_last c l h lm :
  conversation c l h -> last (messages_of Me h) = Some lm ->
  Z.abs (m_id lm) = Z.of_nat (length (messages_of Me h)).
Proof.
  intros Hc Hl. apply last_Some in Hl as [l' Heq].
  assert (nth_error (messages_of Me h) (length l') = Some lm) as Hn.
  { rewrite Heq, nth_error_app2 by lia. by rewrite Nat.sub_diag. }
  pose proof (sent_ids _ _ _ Hc _ _ Hn) as Hid. rewrite Hid, Heq, app_length. cbn [length].
  destruct (id_sign_pm c l Me) as [-> | ->]; lia.
Qed.

Lemma get_message_no_panic c d h t :
  dinv c d h -> no_gap d -> t <> min_int -> is_panic (get_message_by_id d t) = false.
Proof.
  intros Hd Hg Ht. unfold get_message_by_id.
  destruct (is_empty d) eqn:Ee; [done|].
  destruct (t =? 0) eqn:E0; [done|].
  set (L := if Bool.eqb _ _ then _ else _).
  destruct (last L) as [lm|] eqn:EL; [|done].
  unfold abs_id, abs_stored. destruct (t =? min_int) eqn:Em; [lia|].
  destruct (Z.abs (m_id lm) <? Z.abs t) eqn:Elt; [done|].
  assert (Z.abs (m_id lm) <= Z.of_nat (length L)) as Hlen.
  { subst L. destruct (Bool.eqb _ _).
    - rewrite (rep_out _ _ (di_rep _ _ _ Hd)) in *.
      rewrite (sent_last _ _ _ _ (di_conv _ _ _ Hd) EL). lia.
    - by apply Hg. }
  unfold index. destruct (Z.abs t - 1 <? 0) eqn:En; [lia|].
  destruct (nth_error L (Z.to_nat (Z.abs t - 1))) eqn:Enth; [done|].
  apply nth_error_None in Enth. lia.
Qed.

Lemma rbind_panic {A B} (x : res A) (f : A -> res B) :
  is_panic (rbind x f) = true <->
  is_panic x = true \/ exists a, x = Ok a /\ is_panic (f a) = true.
Proof. destruct x; simpl; naive_solver. Qed.

Lemma update_no_panic c d h m :
  dinv c d h -> no_gap d -> m_target m <> min_int ->
  is_panic (dialogue_update d m) = false.
Proof.
  intros Hd Hg Ht. unfold dialogue_update.
  assert (m_target (fill_sender d m) = m_target m) as Htm.
  { unfold fill_sender, set_sender. repeat case_match; naive_solver. }
  set (m' := fill_sender d m) in *.
  destruct (negb _); [done|].
  assert (is_panic (validate_next_message d m') = false) as Hv; cycle 1.
  { destruct (validate_next_message d m'); done. }
  unfold validate_next_message.
  assert (is_empty d = false \/ m_id m' = 1 ->
          is_panic (validate_message_target d m') = false) as Hvt.
  { intros Hor. unfold validate_message_target, starting_message_id, starting_target.
    destruct (m_id m' =? 1) eqn:E1; [by destruct (m_target m' =? 0)|].
    destruct (m_target m' =? 0) eqn:E0; [done|].
    destruct Hor as [Hne|?]; [|lia].
    unfold last_incoming, last_outgoing, is_empty in *.
    destruct (last (d_in d)) as [a|] eqn:Ea, (last (d_out d)) as [b|] eqn:Eb; cycle 3.
    { apply last_None in Ea, Eb. rewrite Ea, Eb in Hne. discriminate. }
    all: cbn [app max_ids rbind].
    all: match goal with |- context [?x <? ?y] =>
           destruct (x <? y); [done|] end.
    all: pose proof (get_message_no_panic c d h (m_target m') Hd Hg ltac:(congruence)) as Hgm;
         destruct (get_message_by_id d (m_target m')) as [[tm|]| |]; simpl in *; try done;
         destruct (hs_contains _ _); done. }
  destruct (is_empty d) eqn:Ee.
  - unfold basic_validation_initial, starting_message_id. case_bool_decide; [|done]. simpl.
    destruct (m_id m' =? 1) eqn:E1; [|done]. simpl.
    specialize (Hvt ltac:(right; lia)).
    destruct (validate_message_target d m'); simpl in *; try done.
    destruct (hs_contains _ _); done.
  - unfold basic_validation_non_initial. case_bool_decide; [|done]. simpl.
    unfold validate_message_id. destruct (m_id m' =? _); [|done]. simpl.
    apply Hvt. by left.
Qed.

Lemma reply_no_panic c d h p tm tp :
  dinv c d h -> no_gap d ->
  (forall t, tp = Some t -> t <> min_int) ->
  (forall x, tm = Some x -> m_id x <> min_int) ->
  d_last_id d <> min_int ->
  is_panic (dialogue_reply d p tm tp) = false.
Proof.
  intros Hd Hg Ht Hx Hlast. unfold dialogue_reply.
  destruct (last_message d) as [lm|] eqn:El; [|done].
  assert (m_id lm <> min_int) as Hlm.
  { rewrite (last_message_spec c d h Hd) in El.
    rewrite (rep_last _ _ (di_rep _ _ _ Hd)) in Hlast. unfold last_id in Hlast.
    destruct (last h); [|discriminate]. injection El as <-. done. }
  assert (exists o t, reply_target d lm tm tp = Ok (o, t) /\ t <> min_int \/
                      exists e, reply_target d lm tm tp = Err e) as Hrt.
  { unfold reply_target. destruct tm as [x|], tp as [t|].
    - destruct (t =? m_id x) eqn:E; [|exists None, 0; eauto].
      exists (Some x), t. left. split; [done|]. by apply Ht.
    - exists (Some x), (m_id x). left. split; [done|]. by apply Hx.
    - pose proof (get_message_no_panic c d h t Hd Hg (Ht t eq_refl)) as Hgm.
      destruct (get_message_by_id d t) as [o|e|e] eqn:Eg; simpl in *; try done.
      + exists o, t. left. split; [done|]. by apply Ht.
      + exists None, 0. right. by exists e.
    - exists (Some lm), (m_id lm). by left. }
  destruct Hrt as (o & t & [[-> Hmin]|[e ->]]); [|done]. simpl.
  destruct o as [x|]; [|done].
  pose proof (get_message_no_panic c d h t Hd Hg Hmin) as Hgm. unfold has_message_id.
  destruct (get_message_by_id d t) as [[y|]|e|e]; simpl in *; try done.
  by apply (update_no_panic c d h).
Qed.

(** Without messages of mine, the peer's ids have no gap. *)
Lemma peer_only_no_gap c l h :
  conversation c l h -> messages_of Me h = [] ->
  Z.abs (last_id h) = Z.of_nat (length (messages_of Peer h)).
Proof.
  induction h as [|e h IH] using rev_ind; intros Hc Hme; [done|].
  rewrite messages_of_app, messages_of_one in Hme. apply app_eq_nil in Hme as [Hme1 Hme2].
  destruct (e_from e) eqn:Ee; [done|].
  rewrite last_id_snoc, messages_of_app, messages_of_one, Ee, decide_True, app_length by done.
  simpl. specialize (IH (conversation_prefix _ _ _ _ Hc) Hme1).
  destruct (Hc h e [] eq_refl) as (_ & _ & H0 & H1).
  destruct h as [|e0 h0].
  - destruct (H0 eq_refl) as [(-> & _) _]. done.
  - destruct (H1 ltac:(done)) as (_ & Hid & _). rewrite Hid, Ee. unfold demanded_id.
    destruct (messages_of Peer (e0 :: h0)) as [|x xs] eqn:Ep.
    + exfalso. pose proof (no_peer_started c l (e0 :: h0)
        (conversation_prefix _ _ _ _ Hc) ltac:(done) Ep).
      unfold messages_of in Hme1, Ep. simpl in Hme1, Ep.
      destruct (e_from e0); simpl in *; discriminate.
    + destruct (id_sign_pm c l Peer) as [-> | ->]; simpl length in *; lia.
Qed.

(** After a gap, a reply with the default target to a message of the peer
    crashes. *)
Lemma gap_reply_panics c d h m p :
  dinv c d h -> lb_opponent (d_label d) <> c_self c ->
  last h = Some (Entry Peer m) ->
  Z.of_nat (length (d_in d)) < Z.abs (m_id m) ->
  m_id m <> min_int ->
  is_panic (dialogue_reply d p None None) = true.
Proof.
  intros Hd Hne Hlast Hgap Hmin.
  pose proof (di_conv _ _ _ Hd) as Hc. pose proof (di_rep _ _ _ Hd) as Hrep.
  unfold dialogue_reply. rewrite (last_message_spec c d h Hd), Hlast. simpl.
  apply last_Some in Hlast as [h' ->].
  assert (m_id m <> 0) as Hnz.
  { pose proof (last_id_nonzero _ _ _ Hc ltac:(by destruct h')) as H.
    by rewrite last_id_snoc in H. }
  assert (messages_of Me (h' ++ [Entry Peer m]) <> []) as Hme.
  { intros Hnil. pose proof (peer_only_no_gap _ _ _ Hc Hnil) as H.
    rewrite last_id_snoc in H. rewrite (rep_in _ _ Hrep) in Hgap. simpl in H. lia. }
  assert (0 < m_id m * id_sign c (d_label d) Peer) as Hs.
  { eapply peer_sign; [exact Hc|apply Hd|done|].
    rewrite messages_of_app, messages_of_one, decide_True by done.
    apply in_or_app. right. by left. }
  unfold has_message_id, get_message_by_id.
  destruct (is_empty d) eqn:Ee.
  { apply (is_empty_rep d _ Hrep) in Ee. by destruct h'. }
  destruct (m_id m =? 0) eqn:E0; [lia|].
  rewrite (target_list c d (h' ++ [Entry Peer m])) by done.
  assert (target_party c (d_label d) (m_id m) = Peer) as ->.
  { unfold target_party. rewrite id_sign_opp in Hs. destruct (decide _); [lia|done]. }
  rewrite (rep_in _ _ Hrep) in Hgap.
  rewrite messages_of_app, messages_of_one, decide_True in * by done.
  rewrite last_app_one.
  unfold abs_id, abs_stored. destruct (m_id m =? min_int) eqn:Em; [lia|].
  simpl e_msg in *. rewrite Z.ltb_irrefl.
  unfold index. destruct (Z.abs (m_id m) - 1 <? 0) eqn:En; [lia|].
  destruct (nth_error _ _) as [x|] eqn:Enth; [|done].
  exfalso. assert (Z.to_nat (Z.abs (m_id m) - 1) < length (messages_of Peer h' ++ [m]))%nat.
  { apply nth_error_Some. congruence. }
  lia.
Qed.
