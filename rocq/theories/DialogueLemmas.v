(** Lemmas behind the property theorems of the dialogue theme. *)
From Coq Require Import ZArith List String Lia.
From stdpp Require Import base tactics gmap strings list.
From Verif Require Import GoBase SetModel DialogueModel StoreModel DialogueSpec
  DialogueProofs StoreProofs StoreInv TraceProofs.
Open Scope Z_scope.

Lemma rbind_Ok {A B} (a : A) (f : A -> res B) : rbind (Ok a) f = f a.
Proof. done. Qed.

Lemma demanded_peer_not_one c l h :
  conversation c l h -> h <> [] -> demanded_id c l Peer h <> 1.
Proof.
  intros Hc Hne. unfold demanded_id. destruct (messages_of Peer h) as [|m ms] eqn:Em.
  - pose proof (no_peer_started c l h Hc Hne Em) as Hs. unfold id_sign.
    rewrite decide_True by done. lia.
  - pose proof (last_id_nonzero c l h Hc Hne).
    destruct (id_sign_pm c l Peer) as [-> | ->]; lia.
Qed.

Lemma incoming_accept_iff c d h m :
  dinv c d h -> lb_opponent (d_label d) <> c_self c -> h <> [] ->
  m_sender m = lb_opponent (d_label d) -> m_sender m <> "" -> m_to m = c_self c ->
  is_ok (dialogue_update d m) = true <->
  ref_fits c (d_label d) (m_ref m) /\
  m_id m = demanded_id c (d_label d) Peer h /\
  target_ok c (d_label d) h m.
Proof.
  intros Hd Ho Hne Hs Hs' Ht.
  assert (m_sender m <> c_self c) as Hns by congruence.
  rewrite (update_accept_iff c d h m Hd Ho) by (right; done).
  unfold acceptable, from_of. rewrite !decide_False by done.
  pose proof (demanded_peer_not_one c (d_label d) h (di_conv c d h Hd) Hne) as Hone.
  destruct h as [|e h]; [done|]. split.
  - intros (_ & H1 & H2 & [[H3 _]|[_ H3]]); [congruence|done].
  - intros (H1 & H2 & H3). split; [done|]. split; [done|]. split; [done|].
    right. split; [congruence|done].
Qed.

(** Which message a reply targets. *)
Definition chosen_target (h : history) (tm : option message) (tp : option Z) : Z :=
  match tm, tp with
  | None, None => last_id h
  | None, Some t => t
  | Some x, _ => m_id x
  end.

Lemma reply_accept_iff c d h p tm tp :
  dinv c d h -> lb_opponent (d_label d) <> c_self c -> h <> [] ->
  (started_by_me c (d_label d) -> messages_of Me h <> []) ->
  is_ok (dialogue_reply d p tm tp) = true <->
  (forall x y, tm = Some x -> tp = Some y -> y = m_id x) /\
  target_ok c (d_label d) h
    (Msg (lb_opponent (d_label d)) (c_self c) (lb_ref (d_label d))
         (protocol_id c (d_label d) Me h) (chosen_target h tm tp) p).
Proof.
  intros Hd Ho Hne Hspeak.
  assert (protocol_id c (d_label d) Me h <> 1) as Hone.
  { unfold protocol_id. destruct (messages_of Me h) as [|x xs] eqn:Em.
    - assert (~ started_by_me c (d_label d)) as Hns by (intros Hs; by apply Hspeak in Hs).
      unfold id_sign. rewrite decide_False by done. simpl. lia.
    - simpl length. destruct (id_sign_pm c (d_label d) Me) as [-> | ->]; lia. }
  destruct (last h) as [le|] eqn:El; [|by apply last_None in El].
  assert (last_id h = m_id (e_msg le)) as Hli by (unfold last_id; by rewrite El).
  unfold dialogue_reply. rewrite (last_message_spec c d h Hd), El. cbn [fmap option_fmap option_map].
  rewrite (outgoing_next_spec c d h Hd Ho), (di_self c d h Hd).
  set (msg := fun t => Msg (lb_opponent (d_label d)) (c_self c) (lb_ref (d_label d))
                         (protocol_id c (d_label d) Me h) t p).
  assert (forall t, is_ok (dialogue_update d (msg t)) = true <->
                    target_ok c (d_label d) h (msg t)) as Hup.
  { intros t. rewrite (update_accept_iff c d h (msg t) Hd Ho) by (by left).
    unfold acceptable, from_of. rewrite !decide_True by done.
    destruct h as [|e h]; [done|]. split.
    - intros (_ & _ & _ & [[H _]|[_ H]]); [done|done].
    - intros H. split; [done|]. split; [|split; [done|right; done]].
      split; [done|]. right. by right. }
  assert (forall t, is_ok (let* found := has_message_id d t in
             if negb found then Err "the target message does not exist in this dialogue"
             else dialogue_update d (msg t)) = true <->
             target_ok c (d_label d) h (msg t)) as Hfin.
  { intros t. unfold has_message_id. split.
    - destruct (get_message_by_id d t) as [[x|]|e|e]; try done. simpl. apply Hup.
    - intros H. destruct H as (Hmi & x & lm & H1 & H2 & H3 & H4).
      assert (get_message_by_id d t = Ok (Some x)) as ->.
      { apply (get_message_by_id_some c d h t x Hd Ho). split; [done|]. split; [done|].
        by exists lm. }
      simpl. apply Hup. split; [done|]. by exists x, lm. }
  unfold reply_target, chosen_target. destruct tm as [x|], tp as [t|].
  - destruct (t =? m_id x) eqn:E.
    + apply Z.eqb_eq in E. subst t. rewrite rbind_Ok; cbn [fst snd]. etransitivity; [apply Hfin|]. split.
      * intros H. split; [|done]. by intros ? ? [= <-] [= <-].
      * by intros [_ H].
    + apply Z.eqb_neq in E. split; [done|]. intros [H _]. exfalso. apply E. by apply H.
  - rewrite rbind_Ok; cbn [fst snd]. etransitivity; [apply Hfin|]. split; [intros H; split; [done|done]|by intros [_ H]].
  - split.
    + destruct (get_message_by_id d t) as [[x|]|e|e]; try done.
      rewrite !rbind_Ok; cbn [fst snd]. intros H. apply Hfin in H. split; [done|done].
    + intros [_ H]. pose proof H as (Hmi & x & lm & H1 & H2 & H3 & H4).
      assert (get_message_by_id d t = Ok (Some x)) as ->.
      { apply (get_message_by_id_some c d h t x Hd Ho). split; [done|]. split; [done|].
        by exists lm. }
      rewrite !rbind_Ok; cbn [fst snd]. by apply Hfin.
  - rewrite rbind_Ok; cbn [fst snd]. etransitivity; [apply Hfin|]. rewrite Hli.
    split; [intros H; split; [done|done]|by intros [_ H]].
Qed.

(** The designated message has the target as its id when the party's messages are
    numbered consecutively. *)
Lemma designated_id c l h t tm :
  conversation c l h -> label_ok c l -> designates c l h t tm ->
  (started_by_me c l -> messages_of Me h <> []) ->
  (forall k m, nth_error (messages_of (target_party c l t) h) k = Some m ->
     Z.abs (m_id m) = Z.of_nat k + 1) ->
  m_id tm = t.
Proof.
  intros Hc Hl [Hnz Hd] Hor Hgap. pose proof (Hgap _ _ Hd) as Habs.
  assert (Z.abs (m_id tm) = Z.abs t) as Ha by lia. clear Habs.
  unfold target_party in *. destruct (decide (0 < t * id_sign c l Me)) as [Hs|Hs].
  - pose proof (sent_ids c l h Hc _ _ Hd) as Hid.
    destruct (id_sign_pm c l Me) as [E|E]; rewrite E in *; lia.
  - pose proof (peer_sign c l h tm Hc Hl Hor) as Hp.
    assert (In tm (messages_of Peer h)) as Hin by (by eapply nth_error_In).
    specialize (Hp Hin). rewrite id_sign_opp in Hp.
    destruct (id_sign_pm c l Me) as [E|E]; rewrite E in *; lia.
Qed.

(** Consecutive messages of the peer have different ids. *)
Lemma peer_successor c l h1 m m' h2 :
  conversation c l (h1 ++ Entry Peer m :: Entry Peer m' :: h2) ->
  Z.abs (m_id m') = Z.abs (m_id m) + 1.
Proof.
  intros Hc. assert (entry_ok c l (h1 ++ [Entry Peer m]) (Entry Peer m')) as He.
  { apply (Hc _ _ h2). by rewrite <- app_assoc. }
  destruct He as (_ & _ & _ & He). destruct He as (_ & Hid & _); [by destruct h1|].
  simpl in Hid. rewrite messages_of_app, messages_of_one in Hid. simpl in Hid.
  destruct (messages_of Peer h1 ++ [m]) eqn:E; [by destruct (messages_of Peer h1)|].
  rewrite last_id_snoc in Hid. simpl in Hid.
  rewrite Hid. destruct (decide (started_by_me c l)); lia.
Qed.

(** * Strictly alternating conversations *)

Fixpoint alternating (first : party) (h : history) : Prop :=
  match h with
  | [] => True
  | e :: h' => e_from e = first /\
               alternating (match first with Me => Peer | Peer => Me end) h'
  end.

Definition swap (p : party) : party := match p with Me => Peer | Peer => Me end.

Lemma alternating_app p h1 h2 :
  alternating p (h1 ++ h2) ->
  alternating p h1 /\ alternating (if Nat.even (length h1) then p else swap p) h2.
Proof.
  revert p. induction h1 as [|e h1 IH]; intros p; [done|]. simpl.
  intros [H1 H2]. apply IH in H2 as [H2 H3]. split; [done|].
  change (match length h1 with O => false | S n => Nat.even n end)
    with (Nat.even (S (length h1))).
  rewrite Nat.even_succ, <- Nat.negb_even. destruct (Nat.even (length h1)), p; done.
Qed.

Lemma alternating_count p h :
  alternating p h ->
  (length (messages_of p h) = Nat.div2 (S (length h)) /\
   length (messages_of (swap p) h) = Nat.div2 (length h))%nat.
Proof.
  revert p. induction h as [|e h IH]; intros p Ha; [done|]. destruct Ha as [Hf Ha].
  apply IH in Ha as [H1 H2]. unfold messages_of. simpl.
  rewrite Hf. rewrite bool_decide_eq_true_2 by done.
  rewrite bool_decide_eq_false_2 by (by destruct p). simpl.
  unfold messages_of in H1, H2. destruct p; simpl in *; rewrite ?H1, ?H2; done.
Qed.

(** The last own id in a conversation that ends with an own message. *)
Lemma last_own_id c l h m :
  conversation c l (h ++ [Entry Me m]) ->
  Z.abs (last_id (h ++ [Entry Me m])) =
  Z.of_nat (length (messages_of Me (h ++ [Entry Me m]))).
Proof.
  intros Hc. rewrite last_id_snoc. simpl. eapply sent_last; [exact Hc|].
  rewrite messages_of_app, messages_of_one. simpl. apply last_app_one.
Qed.

(** As responder, in a strictly alternating conversation, the id demanded of the
    starter's next message is the protocol id. *)
Lemma responder_alternating c l h :
  conversation c l h -> alternating Peer h -> Nat.even (length h) = true ->
  demanded_id c l Peer h = protocol_id c l Peer h.
Proof.
  intros Hc Ha Hev. unfold demanded_id, protocol_id. f_equal.
  destruct (messages_of Peer h) as [|x xs] eqn:Em; [done|]. rewrite <- Em.
  destruct h as [|e h _] using rev_ind; [done|].
  destruct e as [[|] m].
  - rewrite (last_own_id c l h m Hc).
    destruct (alternating_count _ _ Ha) as [H1 H2]. simpl swap in H2. rewrite H1, H2.
    apply Nat.even_spec in Hev as [n Hn]. rewrite Hn.
    replace (S (2 * n))%nat with (S (2 * n)) by done.
    rewrite Nat.div2_succ_double, Nat.div2_double. done.
  - exfalso. apply alternating_app in Ha as [_ Ha].
    rewrite app_length in Hev. simpl in Hev. rewrite Nat.add_1_r, Nat.even_succ in Hev.
    rewrite <- Nat.negb_even in Hev. apply negb_true_iff in Hev. rewrite Hev in Ha.
    simpl in Ha. by destruct Ha.
Qed.

(** As initiator the two differ from the fourth message on. *)
Lemma initiator_alternating c l h :
  conversation c l h -> alternating Me h -> Nat.odd (length h) = true ->
  (3 <= length h)%nat ->
  demanded_id c l Peer h <> protocol_id c l Peer h.
Proof.
  intros Hc Ha Hodd Hlen. unfold demanded_id, protocol_id.
  destruct (alternating_count _ _ Ha) as [H1 H2]. simpl swap in H2.
  apply Nat.odd_spec in Hodd as [n Hn]. rewrite Hn in *.
  rewrite Nat.add_1_r in H1, H2.
  change (S (S (2 * n))) with (2 + 2 * n)%nat in H1.
  replace (2 + 2 * n)%nat with (2 * (S n))%nat in H1 by lia.
  rewrite Nat.div2_double in H1. rewrite Nat.div2_succ_double in H2.
  destruct (messages_of Peer h) as [|x xs] eqn:Em; [simpl in H2; lia|].
  cbv iota. rewrite <- Em in H2 |- *.
  destruct h as [|e h _] using rev_ind; [simpl in Hn; lia|].
  destruct e as [[|] m].
  - rewrite (last_own_id c l h m Hc). rewrite H1, H2.
    destruct (id_sign_pm c l Peer) as [-> | ->]; lia.
  - exfalso. apply alternating_app in Ha as [_ Ha].
    rewrite app_length in Hn. simpl in Hn. replace (length h) with (2 * n)%nat in Ha by lia.
    rewrite Nat.even_mul in Ha. simpl in Ha. by destruct Ha.
Qed.
