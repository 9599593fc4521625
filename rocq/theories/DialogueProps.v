(** Properties C01-C10: conversations. *)
From Coq Require Import ZArith List String Lia.
From stdpp Require Import base tactics gmap strings list.
From Verif Require Import GoBase SetModel DialogueModel StoreModel DialogueSpec DialogueDemo
  DialogueProofs StoreProofs StoreInv TraceProofs DialogueLemmas StoreLemmas.
Open Scope string_scope.
Open Scope list_scope.
Open Scope Z_scope.

(** The examples below use these two finished runs of the demo agent. *)
Lemma self_clean : exec_clean (demo "a" true) (trace_of (demo "a" true) ops_self)
                     (store_of (demo "a" true) ops_self).
Proof. apply demo_clean. vm_compute. reflexivity. Qed.
Lemma peer_clean : exec_clean (demo "a" true) (trace_of (demo "a" true) ops_peer)
                     (store_of (demo "a" true) ops_peer).
Proof. apply demo_clean. vm_compute. reflexivity. Qed.

(** C01. The k-th message the agent sent in a dialogue is numbered k or -k. *)
Theorem C01_outgoing_numbering c tr s p d k m :
  exec c tr s -> s_heap s !! p = Some d ->
  nth_error (messages_of Me (transcript c p tr)) k = Some m ->
  nth_error (d_out d) k = Some m /\
  m_id m = (if decide (lb_starter (d_label d) = c_self c)
            then Z.of_nat k + 1 else - (Z.of_nat k + 1)) /\
  m_sender m = c_self c /\ m_to m = lb_opponent (d_label d).
Proof.
  intros He Hd Hk. pose proof (transcript_some c tr s p d He Hd) as Hdi.
  split; [by rewrite (rep_out _ _ (di_rep _ _ _ Hdi))|].
  pose proof (sent_ids c (d_label d) _ (di_conv _ _ _ Hdi) k m Hk) as Hid.
  split.
  - rewrite Hid. unfold id_sign, started_by_me.
    destruct (decide (started_by_me c (d_label d))) as [E|E]; unfold started_by_me in E;
      destruct (decide (lb_starter (d_label d) = c_self c)); try done; lia.
  - apply nth_error_In in Hk. unfold messages_of in Hk.
    apply in_map_iff in Hk as (e & <- & Hk). apply filter_In in Hk as [Hin Hf].
    apply bool_decide_eq_true in Hf. apply in_split in Hin as (h1 & h2 & Hh).
    destruct (di_conv _ _ _ Hdi h1 e h2 Hh) as (Ha & _). unfold addressed in Ha.
    rewrite Hf in Ha. exact Ha.
Qed.
Print Assumptions C01_outgoing_numbering.

Example C01_example :
  let c := demo "a" true in
  let tr := trace_of c ops_self in
  exec c tr (store_of c ops_self) /\
  (exists d, s_heap (store_of c ops_self) !! 0%nat = Some d) /\
  map m_id (messages_of Me (transcript c 0%nat tr)) = [1; 2].
Proof.
  split; [apply clean_exec, self_clean|]. split; [eexists; vm_compute; reflexivity|].
  vm_compute. reflexivity.
Qed.

(** C02. Which message of the counterparty is accepted next into a stored
    dialogue. *)
Theorem C02_incoming_accepted c tr s nonce m l p :
  exec_clean c tr s -> s_by_label s !! l = Some p ->
  let h := transcript c p tr in
  h <> [] ->
  from_other c m -> m_sender m = lb_opponent l -> m_ref m = lb_ref l ->
  starter_ref (lb_ref l) <> "" -> responder_ref (lb_ref l) <> "" ->
  (lb_starter l <> c_self c -> no_own_with c s (lb_opponent l) (starter_ref (lb_ref l))) ->
  (api_update c s nonce m).2 = Ok (None, Some p) <->
  m_id m = (if decide (lb_starter l = c_self c) then -1 else 1) *
           (match messages_of Peer h with [] => 1 | _ => Z.abs (last_id h) + 1 end) /\
  target_ok c l h m.
Proof.
  intros He Hl h Hne Ho Hs Hr H1 H2 Hno.
  pose proof (reachable_inv c s (clean_reachable c tr s He)) as Hi.
  destruct (ia_label c s (iv_any c s Hi) l p Hl) as (d & Hd & _).
  pose proof (transcript_some c tr s p d (clean_exec c tr s He) Hd) as Hdi.
  exact (update_accepts_iff c s nonce m l p d h Hi Hl Hd Hdi Hne Ho Hs Hr H1 H2 Hno).
Qed.
Print Assumptions C02_incoming_accepted.

(** The protocol numbering is rejected whenever the latest message of either
    party is not numbered like the counterparty's latest. *)
Theorem C02_protocol_id_rejected c tr s nonce m l p :
  exec_clean c tr s -> s_by_label s !! l = Some p ->
  let h := transcript c p tr in
  let received := messages_of Peer h in
  received <> [] ->
  from_other c m -> m_sender m = lb_opponent l -> m_ref m = lb_ref l ->
  starter_ref (lb_ref l) <> "" -> responder_ref (lb_ref l) <> "" ->
  (lb_starter l <> c_self c -> no_own_with c s (lb_opponent l) (starter_ref (lb_ref l))) ->
  Z.abs (m_id m) = Z.of_nat (length received) + 1 ->
  Z.abs (last_id h) <> Z.of_nat (length received) ->
  (api_update c s nonce m).2 <> Ok (None, Some p).
Proof.
  intros He Hl h received Hne Ho Hs Hr H1 H2 Hno Hid Hla Hok.
  assert (h <> []) as Hh by (intros E; unfold received in Hne; by rewrite E in Hne).
  apply (C02_incoming_accepted c tr s nonce m l p He Hl Hh Ho Hs Hr H1 H2 Hno) in Hok
    as [Hok _].
  fold h in Hok. fold received in Hok. destruct received as [|x xs]; [done|].
  destruct (decide (lb_starter l = c_self c)); lia.
Qed.
Print Assumptions C02_protocol_id_rejected.

(** After "open" (1), "say" (-1), "say" (2) the agent accepts -3, not -2. *)
Example C02_example :
  let c := demo "a" true in
  let s := store_of c ops_self in
  let l := DLabel abc "b" "a" in
  exec_clean c (trace_of c ops_self) s /\ s_by_label s !! l = Some 0%nat /\
  from_other c (from_b abc (-3) 2 "say") /\
  (api_update c s "n" (from_b abc (-3) 2 "say")).2 = Ok (None, Some 0%nat) /\
  is_err (api_update c s "n" (from_b abc (-2) 2 "say")).2 = true.
Proof.
  split; [apply self_clean|]. split; [vm_compute; reflexivity|].
  split; [repeat split; done|]. split; vm_compute; reflexivity.
Qed.

Lemma peer_no_own : no_own_with (demo "a" true) (store_of (demo "a" true) ops_peer) "b" "x".
Proof.
  intros l p Hl Ho Hst Hr.
  assert (map_to_list (s_by_label (store_of (demo "a" true) ops_peer)) =
          [(DLabel abc "b" "b", 0%nat : ptr)]) as Hm by (vm_compute; reflexivity).
  apply elem_of_map_to_list in Hl. rewrite Hm in Hl.
  apply elem_of_list_singleton in Hl. injection Hl as -> ->. done.
Qed.

Example C02_example_peer :
  let c := demo "a" true in
  let s := store_of c ops_peer in
  let l := DLabel abc "b" "b" in
  exec_clean c (trace_of c ops_peer) s /\ s_by_label s !! l = Some 0%nat /\
  no_own_with c s "b" "x" /\
  (api_update c s "n" (from_b abc 3 (-1) "say")).2 = Ok (None, Some 0%nat).
Proof.
  split; [apply peer_clean|]. split; [vm_compute; reflexivity|].
  split; [|vm_compute; reflexivity].
  exact peer_no_own.
Qed.

(** C03. In a strictly alternating conversation the responder goes on accepting
    the protocol numbering ... *)
Theorem C03_responder_never_blocks c tr s nonce m l p :
  exec_clean c tr s -> s_by_label s !! l = Some p ->
  let h := transcript c p tr in
  h <> [] -> alternating Peer h -> Nat.even (length h) = true ->
  from_other c m -> m_sender m = lb_opponent l -> m_ref m = lb_ref l ->
  starter_ref (lb_ref l) <> "" -> responder_ref (lb_ref l) <> "" ->
  lb_starter l <> c_self c -> no_own_with c s (lb_opponent l) (starter_ref (lb_ref l)) ->
  (api_update c s nonce m).2 = Ok (None, Some p) <->
  m_id m = Z.of_nat (length (messages_of Peer h)) + 1 /\ target_ok c l h m.
Proof.
  intros He Hl h Hne Ha Hev Ho Hs Hr H1 H2 Hst Hno.
  rewrite (C02_incoming_accepted c tr s nonce m l p) by done. fold h.
  pose proof (reachable_inv c s (clean_reachable c tr s He)) as Hi.
  destruct (ia_label c s (iv_any c s Hi) l p Hl) as (d & Hd & Hdl).
  pose proof (transcript_some c tr s p d (clean_exec c tr s He) Hd) as Hdi.
  pose proof (di_conv _ _ _ Hdi) as Hc. rewrite Hdl in Hc.
  pose proof (responder_alternating c l h Hc Ha Hev) as Hd1.
  unfold demanded_id, protocol_id, id_sign in Hd1.
  destruct (decide (started_by_me c l)) as [E|_]; [done|].
  rewrite decide_False by done. rewrite Hd1. rewrite Z.mul_1_l. done.
Qed.
Print Assumptions C03_responder_never_blocks.

(** ... while the initiator rejects every message numbered by the protocol once
    the responder has been heard. *)
Theorem C03_initiator_blocks c tr s nonce m l p :
  exec_clean c tr s -> s_by_label s !! l = Some p ->
  let h := transcript c p tr in
  alternating Me h -> Nat.odd (length h) = true -> (3 <= length h)%nat ->
  from_other c m -> m_sender m = lb_opponent l -> m_ref m = lb_ref l ->
  starter_ref (lb_ref l) <> "" -> responder_ref (lb_ref l) <> "" ->
  lb_starter l = c_self c ->
  m_id m = - (Z.of_nat (length (messages_of Peer h)) + 1) ->
  (api_update c s nonce m).2 <> Ok (None, Some p).
Proof.
  intros He Hl h Ha Hodd Hlen Ho Hs Hr H1 H2 Hst Hid Hok.
  assert (h <> []) as Hne by (intros E; rewrite E in Hlen; simpl in Hlen; lia).
  apply (C02_incoming_accepted c tr s nonce m l p) in Hok as [Hok _]; try done.
  pose proof (reachable_inv c s (clean_reachable c tr s He)) as Hi.
  destruct (ia_label c s (iv_any c s Hi) l p Hl) as (d & Hd & Hdl).
  pose proof (transcript_some c tr s p d (clean_exec c tr s He) Hd) as Hdi.
  pose proof (di_conv _ _ _ Hdi) as Hc. rewrite Hdl in Hc.
  apply (initiator_alternating c l h Hc Ha Hodd Hlen).
  unfold demanded_id, protocol_id, id_sign.
  rewrite decide_True in Hok by done.
  destruct (decide (started_by_me c l)) as [_|E]; [|done].
  fold h in Hok. rewrite <- Hok. lia.
Qed.
Print Assumptions C03_initiator_blocks.

(** Two agents using nothing but the library: "a" opens, "b" answers, "a"
    answers, "b" answers; every call succeeds until "a" refuses the last
    message. The expectation that agents that alternate understand each other is
    false. *)
Definition exchange : option (res out) :=
  let ca := demo "a" true in
  let cb := demo "b" true in
  let msg r := match r with Ok (Some m, _) => m | _ => from_b ab 0 0 "" end in
  let (sa, r1) := step ca empty_store (OpCreate "x" "b" "open") in
  let (sb, u1) := step cb empty_store (OpUpdate "y" (msg r1)) in
  let (sb, r2) := step cb sb (OpReply 0%nat "say" None None) in
  let (sa, u2) := step ca sa (OpUpdate "n" (msg r2)) in
  let (sa, r3) := step ca sa (OpReply 0%nat "say" None None) in
  let (sb, u3) := step cb sb (OpUpdate "n" (msg r3)) in
  let (sb, r4) := step cb sb (OpReply 0%nat "say" None None) in
  let (sa, u4) := step ca sa (OpUpdate "n" (msg r4)) in
  if is_ok r1 && is_ok u1 && is_ok r2 && is_ok u2 && is_ok r3 && is_ok u3 && is_ok r4
  then Some u4 else None.

Theorem C03_fourth_message_refuted : exists e, exchange = Some (Err e).
Proof. eexists. vm_compute. reflexivity. Qed.
Print Assumptions C03_fourth_message_refuted.

Example C03_example :
  let c := demo "a" true in
  alternating Me (transcript c 0%nat (trace_of c ops_self)) /\
  length (transcript c 0%nat (trace_of c ops_self)) = 3%nat /\
  s_by_label (store_of c ops_self) !! DLabel abc "b" "a" = Some 0%nat /\
  let ops2 := take 2 ops_peer in
  alternating Peer (transcript c 0%nat (trace_of c ops2)) /\
  length (transcript c 0%nat (trace_of c ops2)) = 2%nat /\
  s_by_label (store_of c ops2) !! DLabel abc "b" "b" = Some 0%nat.
Proof. vm_compute. repeat split. Qed.

(** C04. A message delivered twice in direct succession enters the dialogue at
    most once. *)
Theorem C04_no_immediate_replay c tr s nonce m p d :
  exec c tr s -> s_heap s !! p = Some d ->
  last (transcript c p tr) = Some (Entry Peer m) ->
  (api_update c s nonce m).2 <> Ok (None, Some p).
Proof.
  intros He Hd Hlast Hok.
  destruct (api_update c s nonce m) as [s' r] eqn:Eu. simpl in Hok. subst r.
  assert (exec c (tr ++ [(OpUpdate nonce m, Ok (None, Some p))]) s') as He'.
  { by econstructor. }
  pose proof (reachable_any_inv c s (exec_reachable c tr s He)) as Hi.
  destruct (step_any c s (OpUpdate nonce m) s' (Ok (None, Some p)) Hi Eu eq_refl)
    as (_ & g & Hef & _).
  destruct (ef_old _ _ _ _ _ Hef p d Hd) as (d' & Hd' & _).
  pose proof (transcript_some c _ s' p d' He' Hd') as Hdi.
  rewrite transcript_app in Hdi. simpl in Hdi. rewrite decide_True in Hdi by done.
  apply last_Some in Hlast as [h' Hh]. rewrite Hh in Hdi.
  pose proof (di_conv _ _ _ Hdi) as Hc. rewrite <- app_assoc in Hc. simpl in Hc.
  apply peer_successor in Hc. lia.
Qed.
Print Assumptions C04_no_immediate_replay.

(** An opening is never accepted again: at any later time every opening with the
    same sender and starter reference is refused without effect. *)
Theorem C04_no_opening_replay c s nonce m s1 r s2 nonce' m' :
  reachable c s ->
  from_other c m -> starter_ref (m_ref m) <> "" -> responder_ref (m_ref m) = "" ->
  m_id m = 1 -> nonce <> "" ->
  step c s (OpUpdate nonce m) = (s1, r) -> is_ok r = true ->
  later c s1 s2 ->
  m_sender m' = m_sender m -> m_to m' = c_self c ->
  starter_ref (m_ref m') = starter_ref (m_ref m) -> responder_ref (m_ref m') = "" ->
  m_id m' = 1 ->
  exists e, step c s2 (OpUpdate nonce' m') = (s2, Err e).
Proof.
  intros Hr Ho H1 H2 H3 Hn Hs Hok Hl Hs' Hto Hst Hre Hid.
  assert (is_panic r = false) as Hp by (by destruct r).
  pose proof (reachable_inv c s Hr) as Hi. simpl in Hs.
  destruct (opening_remembered c s nonce m s1 r Hi Ho H1 H2 H3 Hn Hs Hp)
    as [(v & _ & Hv & _)|Hk]; [by destruct r|].
  assert (inv c s1) as Hi1.
  { apply reachable_inv. by eapply (r_step c s (OpUpdate nonce m)). }
  pose proof (later_persist c s1 s2 _ _ Hi1 Hl Hk Hn) as Hk2.
  destruct Ho as (Ho1 & Ho2 & Ho3).
  eapply (opening_rejected c s2 nonce' m'); try done.
  - repeat split; congruence.
  - congruence.
  - rewrite Hst, Hs'. exact Hk2.
Qed.
Print Assumptions C04_no_opening_replay.

(** But an accepted message can be accepted a second time: "b" opens (1) and
    sends 2, "a" answers (-1), and the message numbered 2 is accepted again. *)
Definition ops_replay : list op :=
  [OpUpdate "y" (from_b ab 1 0 "open");
   OpUpdate "n" (from_b abc 2 1 "say");
   OpReply 0%nat "say" None (Some 2)].

Theorem C04_replay_refuted :
  exists c tr s m p,
    exec_clean c tr s /\ In (Entry Peer m) (transcript c p tr) /\
    (api_update c s "n" m).2 = Ok (None, Some p).
Proof.
  exists (demo "a" true), (trace_of (demo "a" true) ops_replay),
    (store_of (demo "a" true) ops_replay), (from_b abc 2 1 "say"), 0%nat.
  split; [apply demo_clean; vm_compute; reflexivity|].
  split; [vm_compute; tauto|]. vm_compute. reflexivity.
Qed.
Print Assumptions C04_replay_refuted.

Example C04_example :
  let c := demo "a" true in
  let m := from_b ab 1 0 "open" in
  let s1 := (step c empty_store (OpUpdate "y" m)).1 in
  (exists p, last (transcript c p (trace_of c ops_peer)) =
             Some (Entry Peer (from_b abc 2 (-1) "say"))) /\
  is_ok (step c empty_store (OpUpdate "y" m)).2 = true /\
  later c s1 (step c s1 (OpReply 0%nat "say" None None)).1 /\
  is_err (step c s1 (OpUpdate "z" m)).2 = true.
Proof.
  split; [exists 0%nat; vm_compute; reflexivity|].
  split; [vm_compute; reflexivity|]. split; [|vm_compute; reflexivity].
  eapply (later_call _ _ _ (OpReply 0%nat "say" None None)); [constructor| | |].
  - exists (DLabel abc "b" "b"). vm_compute. reflexivity.
  - apply surjective_pairing.
  - vm_compute. reflexivity.
Qed.

(** C05. The first message of every dialogue is a well-formed opening. *)
Theorem C05_opening c tr s p d e h :
  exec c tr s -> s_heap s !! p = Some d -> transcript c p tr = e :: h ->
  m_id (e_msg e) = 1 /\ m_target (e_msg e) = 0 /\
  In (m_perf (e_msg e)) (c_initial c) /\
  starter_ref (m_ref (e_msg e)) = starter_ref (lb_ref (d_label d)).
Proof.
  intros He Hd Hh. pose proof (transcript_some c tr s p d He Hd) as Hdi. rewrite Hh in Hdi.
  destruct (di_conv _ _ _ Hdi [] e h eq_refl) as (_ & _ & Ho & _).
  destruct (Ho eq_refl) as [Ho' _]. exact Ho'.
Qed.
Print Assumptions C05_opening.

Example C05_example :
  let c := demo "a" true in
  exists e h, transcript c 0%nat (trace_of c ops_peer) = e :: h /\ e_from e = Peer /\
    exists e' h', transcript c 0%nat (trace_of c ops_self) = e' :: h' /\ e_from e' = Me.
Proof. do 2 eexists. split; [vm_compute; reflexivity|]. split; [done|]. do 2 eexists.
  split; [vm_compute; reflexivity|done]. Qed.

(** C06. Every later message answers an earlier message of its dialogue with a
    performative the protocol allows. *)
Theorem C06_reply_legal c tr s p d h1 e h2 :
  exec c tr s -> s_heap s !! p = Some d ->
  transcript c p tr = h1 ++ e :: h2 -> h1 <> [] ->
  let t := m_target (e_msg e) in
  let l := d_label d in
  exists tm qs,
    t <> 0 /\
    nth_error (messages_of (target_party c l t) h1) (Z.to_nat (Z.abs t - 1)) = Some tm /\
    c_replies c !! m_perf tm = Some qs /\ In (m_perf (e_msg e)) qs.
Proof.
  intros He Hd Hh Hne t l. pose proof (transcript_some c tr s p d He Hd) as Hdi.
  rewrite Hh in Hdi.
  destruct (di_conv _ _ _ Hdi h1 e h2 eq_refl) as (_ & _ & _ & Ho).
  destruct (Ho Hne) as (_ & _ & _ & tm & [Hnz Hdes] & qs & Hq & Hin).
  by exists tm, qs.
Qed.
Print Assumptions C06_reply_legal.

(** If the messages of the designated party are numbered without gaps, the
    message designated by [t] is the one numbered [t]. *)
Theorem C06_target_is_id c tr s p d h1 e h2 tm :
  exec c tr s -> s_heap s !! p = Some d ->
  transcript c p tr = h1 ++ e :: h2 -> h1 <> [] ->
  (lb_starter (d_label d) = c_self c -> messages_of Me h1 <> []) ->
  let t := m_target (e_msg e) in
  designates c (d_label d) h1 t tm ->
  (forall k m, nth_error (messages_of (target_party c (d_label d) t) h1) k = Some m ->
     Z.abs (m_id m) = Z.of_nat k + 1) ->
  m_id tm = t.
Proof.
  intros He Hd Hh Hne Hor t Hdes Hgap. pose proof (transcript_some c tr s p d He Hd) as Hdi.
  rewrite Hh in Hdi.
  apply (designated_id c (d_label d) h1 t tm); try done.
  - eapply conversation_prefix. apply (di_conv _ _ _ Hdi).
  - apply (di_label _ _ _ Hdi).
Qed.
Print Assumptions C06_target_is_id.

Example C06_example :
  let c := demo "a" true in
  let h := transcript c 0%nat (trace_of c ops_self) in
  exists h1 e, h = h1 ++ [e] /\ length h1 = 2%nat /\ m_target (e_msg e) = -1 /\
    exists tm, designates c (DLabel abc "b" "a") h1 (-1) tm /\ m_id tm = -1.
Proof.
  eexists [_; _], _. split; [vm_compute; reflexivity|]. split; [done|]. split; [done|].
  eexists. split; [split; [done|]; vm_compute; reflexivity|]. done.
Qed.

(** C07. A call leaves every conversation as it is or, if it hands the dialogue
    back, appends one message; what is stored is that conversation. *)
Theorem C07_append_only c tr s o s' r :
  exec c tr s -> step c s o = (s', r) -> is_panic r = false ->
  (forall p d, s_heap s !! p = Some d ->
     exists d' added,
       s_heap s' !! p = Some d' /\
       represents d (transcript c p tr) /\
       represents d' (transcript c p tr ++ added) /\
       transcript c p (tr ++ [(o, r)]) = transcript c p tr ++ added /\
       (added = [] \/ exists e om, added = [e] /\ r = Ok (om, Some p))) /\
  (forall p d', s_heap s !! p = None -> s_heap s' !! p = Some d' ->
     exists added,
       represents d' added /\ transcript c p (tr ++ [(o, r)]) = added /\
       (added = [] \/ exists e om, added = [e] /\ r = Ok (om, Some p))).
Proof.
  intros He Hs Hp. pose proof (reachable_any_inv c s (exec_reachable c tr s He)) as Hi.
  assert (exec c (tr ++ [(o, r)]) s') as He' by (by econstructor).
  destruct (step_any c s o s' r Hi Hs Hp) as (_ & g & Hef & Hrep).
  assert (forall p, suffix c g p = [] \/ exists e om, suffix c g p = [e] /\ r = Ok (om, Some p))
    as Hsuf.
  { intros p. unfold suffix. destruct g as [[q m]|]; [|by left].
    destruct (decide (p = q)) as [->|]; [|by left]. right.
    unfold reported in Hrep. destruct r as [[om [q'|]]|e|e]; [|done..].
    destruct Hrep as (m' & [= -> ->] & _). by do 2 eexists. }
  split.
  - intros p d Hd. destruct (ef_old _ _ _ _ _ Hef p d Hd) as (d' & Hd' & _ & _ & Hdi & _).
    pose proof (transcript_some c tr s p d He Hd) as Hdt.
    pose proof (transcript_some c _ s' p d' He' Hd') as Hdt'.
    exists d', (suffix c g p). split; [done|]. split; [apply Hdt|].
    split; [apply Hdi, Hdt|]. split; [|apply Hsuf].
    rewrite transcript_app. f_equal. by apply transcript_one.
  - intros p d' Hn Hd'. exists (suffix c g p).
    destruct (ef_new _ _ _ _ _ Hef p d' Hn Hd') as (_ & _ & Hdi & _).
    split; [apply Hdi|]. split; [|apply Hsuf].
    rewrite transcript_app. rewrite (transcript_one c p o r g Hrep).
    assert (transcript c p tr = []) as ->; [|done].
    pose proof (transcript_dinv c tr s p He) as Ht. by rewrite Hn in Ht.
Qed.
Print Assumptions C07_append_only.

(** In particular an error changes no conversation. *)
Theorem C07_error_changes_nothing c tr s o s' r p d :
  exec c tr s -> step c s o = (s', r) -> is_err r = true ->
  s_heap s !! p = Some d ->
  exists d', s_heap s' !! p = Some d' /\
    d_out d' = d_out d /\ d_in d' = d_in d /\ d_ordered d' = d_ordered d /\
    d_last_id d' = d_last_id d.
Proof.
  intros He Hs Hr Hd.
  destruct (C07_append_only c tr s o s' r He Hs) as [H _]; [by destruct r|].
  destruct (H p d Hd) as (d' & added & Hd' & [] & H2 & _ & [->|(? & ? & _ & ->)]); [|done].
  rewrite app_nil_r in H2. destruct H2. exists d'. repeat split; congruence.
Qed.
Print Assumptions C07_error_changes_nothing.

Example C07_example :
  let c := demo "a" true in
  let s := store_of c ops_self in
  let r1 := step c s (OpUpdate "n" (from_b abc (-3) 2 "say")) in
  let r2 := step c s (OpUpdate "n" (from_b abc (-2) 2 "say")) in
  is_ok r1.2 = true /\ is_err r2.2 = true /\
  length (d_in (dialogue_at s 0%nat)) = 1%nat /\
  length (d_in (dialogue_at r1.1 0%nat)) = 2%nat /\
  length (d_in (dialogue_at r2.1 0%nat)) = 1%nat.
Proof. vm_compute. repeat split. Qed.

(** C08. A call concerning one counterparty leaves everything about the others
    as it is. *)
Theorem C08_isolation c tr s o s' r x :
  exec c tr s -> step c s o = (s', r) -> is_panic r = false ->
  x <> call_counterparty s o ->
  (forall p d, s_heap s !! p = Some d -> lb_opponent (d_label d) = x -> s_heap s' !! p = Some d) /\
  (forall p d, s_heap s' !! p = Some d -> lb_opponent (d_label d) = x -> s_heap s !! p = Some d) /\
  (forall l, lb_opponent l = x -> s_by_label s' !! l = s_by_label s !! l) /\
  st_with_counterparty s' x = st_with_counterparty s x /\
  (forall l, lb_opponent l = x -> s_incomplete s' !! l = s_incomplete s !! l) /\
  (forall l, lb_opponent l = x ->
     hs_contains (s_terminal s') l = hs_contains (s_terminal s) l).
Proof.
  intros He Hs Hp Hx. pose proof (reachable_any_inv c s (exec_reachable c tr s He)) as Hi.
  destruct (step_any c s o s' r Hi Hs Hp) as (_ & g & Hef & _).
  split.
  { intros p d Hd Ho. destruct (ef_old _ _ _ _ _ Hef p d Hd) as (d' & Hd' & _ & _ & _ & Hsame & _).
    rewrite Hd'. f_equal. apply Hsame. congruence. }
  split.
  { intros p d Hd Ho. destruct (s_heap s !! p) as [d0|] eqn:E.
    - destruct (ef_old _ _ _ _ _ Hef p d0 E) as (d' & Hd' & _ & Hev & _ & Hsame & _).
      rewrite Hd in Hd'. injection Hd' as <-.
      assert (lb_opponent (d_label d0) = x) as Hx0.
      { destruct Hev as [Hev|[(_ & Hev & _) _]]; congruence. }
      f_equal. symmetry. apply Hsame. congruence.
    - destruct (ef_new _ _ _ _ _ Hef p d E Hd) as (_ & Hop & _). congruence. }
  split; [intros l Hl; apply (ef_labels _ _ _ _ _ Hef); congruence|].
  split; [by apply (ef_addr _ _ _ _ _ Hef)|].
  split; [intros l Hl; apply (ef_incomplete _ _ _ _ _ Hef); congruence|].
  intros l Hl. apply (ef_terminal _ _ _ _ _ Hef). congruence.
Qed.
Print Assumptions C08_isolation.

(** A message of "z" while a dialogue with "b" is stored. *)
Example C08_example :
  let c := demo "a" true in
  let s := store_of c ops_self in
  let o := OpUpdate "n" (Msg "a" "z" (DRef "x" "") 1 0 "open") in
  "b" <> call_counterparty s o /\ is_ok (step c s o).2 = true /\
  st_with_counterparty s "b" = [0%nat] /\ st_with_counterparty (step c s o).1 "z" = [1%nat].
Proof. vm_compute. repeat split. intros [=]. Qed.

(** C09. A successful reply produces the correctly addressed next message; a
    failed one changes nothing. *)
Theorem C09_reply c tr s p d perf tm tp s' r :
  exec c tr s -> s_heap s !! p = Some d ->
  step c s (OpReply p perf tm tp) = (s', r) ->
  let h := transcript c p tr in
  match r with
  | Ok (om, op) =>
      exists m d',
        om = Some m /\ op = Some p /\
        m_sender m = c_self c /\ m_to m = lb_opponent (d_label d) /\
        m_ref m = lb_ref (d_label d) /\ m_perf m = perf /\
        m_id m = (if decide (lb_starter (d_label d) = c_self c) then 1 else -1) *
                 (Z.of_nat (length (messages_of Me h)) + 1) /\
        m_target m = match tm, tp with
                     | None, None => last_id h
                     | Some x, _ => m_id x
                     | None, Some x => x
                     end /\
        s_heap s' !! p = Some d' /\ represents d' (h ++ [Entry Me m])
  | Err _ => s' = s
  | Panic _ => True
  end.
Proof.
  intros He Hd Hs h. pose proof (transcript_some c tr s p d He Hd) as Hdi. fold h in Hdi.
  simpl in Hs. unfold api_reply in Hs. rewrite Hd in Hs.
  destruct (store_update c s p (dialogue_reply d perf tm tp)) as [s1 o] eqn:Eu.
  destruct (dialogue_reply d perf tm tp) as [[[d' m] t]|e|e] eqn:Er.
  2,3: injection Eu as <- <-; injection Hs as <- <-; done.
  destruct o as [m1|e|e]; injection Hs as <- <-; [| |done].
  - destruct (reply_result c d h perf tm tp d' m t Hdi Er) as (le & Hle & Hm & Ht & _ & _ & _ & Hd').
    assert (m1 = m /\ s_heap s1 !! p = Some d') as [-> Hh].
    { unfold store_update in Eu. destruct t.
      - destruct (run_callbacks _ _ _ _) as [s2|?|?] eqn:Ec; [|done..].
        injection Eu as <- <-. split; [done|].
        apply run_callbacks_heap in Ec as (-> & _). apply lookup_insert.
      - injection Eu as <- <-. split; [done|]. apply lookup_insert. }
    exists m, d'. split; [done|]. split; [done|].
    rewrite Hm at 1 2 3 4 5. cbn [m_sender m_to m_ref m_perf m_id].
    split; [done|]. split; [done|]. split; [done|]. split; [done|].
    split.
    { unfold protocol_id, id_sign.
      destruct (decide (started_by_me c (d_label d))) as [E|E]; unfold started_by_me in E;
        destruct (decide (lb_starter (d_label d) = c_self c)); done. }
    split.
    { rewrite Ht. destruct tm, tp; try done. unfold last_id. by rewrite Hle. }
    split; [done|]. apply Hd'.
  - exfalso. unfold store_update in Eu. destruct t; [|done].
    destruct (run_callbacks _ _ _ _) as [s2|?|?] eqn:Ec; [done| |done].
    clear -Ec. revert Ec. generalize (set_dialogue s p d'). generalize (d_callbacks d').
    intros n. induction n as [|n IH]; [done|]. intros s0. simpl.
    destruct (st_terminal_callback _ _ _) eqn:E; simpl; [apply IH| |done].
    unfold st_terminal_callback in E. destruct (c_keep c); [done|].
    by apply st_remove_no_err in E.
Qed.
Print Assumptions C09_reply.

(** When a reply is accepted. *)
Theorem C09_reply_accepted c tr s p d l perf tm tp :
  exec_clean c tr s -> s_by_label s !! l = Some p -> s_heap s !! p = Some d ->
  let h := transcript c p tr in
  h <> [] -> lb_opponent l <> c_self c ->
  (lb_starter l = c_self c -> messages_of Me h <> []) ->
  is_ok (step c s (OpReply p perf tm tp)).2 = true <->
  (forall x y, tm = Some x -> tp = Some y -> y = m_id x) /\
  target_ok c l h
    (Msg (lb_opponent l) (c_self c) (lb_ref l) (protocol_id c l Me h)
       (chosen_target h tm tp) perf).
Proof.
  intros He Hl Hd h Hne Hopp Hor.
  pose proof (reachable_inv c s (clean_reachable c tr s He)) as Hi.
  destruct (ia_label c s (iv_any c s Hi) l p Hl) as (d0 & Hd0 & Hdl).
  rewrite Hd in Hd0. injection Hd0 as <-.
  pose proof (transcript_some c tr s p d (clean_exec c tr s He) Hd) as Hdi. fold h in Hdi.
  rewrite <- Hdl in *. rewrite <- (reply_accept_iff c d h perf tm tp Hdi Hopp Hne Hor).
  simpl. unfold api_reply. rewrite Hd.
  destruct (dialogue_reply d perf tm tp) as [[[d' m] t]|e|e] eqn:Er; simpl; [|done..].
  destruct (reply_result c d h perf tm tp d' m t Hdi Er)
    as (le & Hle & Hm & Ht & _ & Hap & Hte & Hd').
  assert (m_perf m = perf) as Hpf by (by rewrite Hm).
  destruct (inv_store_update c s p d d' m t (h ++ [Entry Me m])) as (s1 & Hs1 & _); try done.
  - by rewrite Hap.
  - by rewrite Hap.
  - unfold store_update in Hs1. rewrite Hs1. done.
Qed.
Print Assumptions C09_reply_accepted.

Example C09_example :
  let c := demo "a" true in
  let s := store_of c (take 2 ops_self) in
  exists m, (step c s (OpReply 0%nat "say" None None)).2 = Ok (Some m, Some 0%nat) /\
    m = Msg "b" "a" abc 2 (-1) "say" /\
    is_err (step c s (OpReply 0%nat "open" None None)).2 = true.
Proof. eexists. vm_compute. repeat split. Qed.

(** C10. The accessors return the latest messages. *)
Theorem C10_last_message c tr s p d :
  exec c tr s -> s_heap s !! p = Some d ->
  let h := transcript c p tr in
  last_message d = e_msg <$> last h /\
  last_incoming d = last (messages_of Peer h) /\
  last_outgoing d = last (messages_of Me h).
Proof.
  intros He Hd h. pose proof (transcript_some c tr s p d He Hd) as Hdi. fold h in Hdi.
  split; [by apply (last_message_spec c d h)|].
  destruct (di_rep _ _ _ Hdi) as [Ho Hi _ _]. unfold last_incoming, last_outgoing.
  by rewrite Ho, Hi.
Qed.
Print Assumptions C10_last_message.

Example C10_example :
  let c := demo "a" true in
  let d := dialogue_at (store_of c ops_self) 0%nat in
  let d' := dialogue_at (store_of c ops_peer) 0%nat in
  (m_id <$> last_message d) = Some 2 /\ (m_id <$> last_incoming d) = Some (-1) /\
  (m_id <$> last_message d') = Some 2 /\ (m_id <$> last_outgoing d') = Some (-1).
Proof. vm_compute. repeat split. Qed.
