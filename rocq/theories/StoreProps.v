(** Properties C11-C18 and C56: the store of dialogues. *)
From Coq Require Import ZArith List String Lia.
From stdpp Require Import base tactics gmap strings list.
From Verif Require Import GoBase SetModel DialogueModel StoreModel DialogueSpec DialogueDemo
  DialogueProofs StoreProofs StoreInv TraceProofs TermProofs DialogueLemmas StoreLemmas
  DialogueProps.
Open Scope string_scope.
Open Scope list_scope.
Open Scope Z_scope.

(** C11. The two indexes agree with each other and with the labels. *)
Theorem C11_indexes_agree c s :
  reachable c s ->
  (forall a, NoDup (st_with_counterparty s a) /\
     forall p, p ∈ st_with_counterparty s a <->
               exists d, in_store s p /\ s_heap s !! p = Some d /\ lb_opponent (d_label d) = a) /\
  (forall l p, s_by_label s !! l = Some p -> exists d, s_heap s !! p = Some d /\ d_label d = l) /\
  (forall l l' p, s_by_label s !! l = Some p -> s_by_label s !! l' = Some p -> l = l').
Proof.
  intros Hr. pose proof (reachable_inv c s Hr) as Hi. pose proof (iv_any c s Hi) as Hia.
  split; [|split].
  - intros a. destruct (iv_addr c s Hi a) as [Hn He]. split; [done|].
    intros p. rewrite He. split.
    + intros (l & Hl & Ho). destruct (ia_label c s Hia l p Hl) as (d & Hd & Hdl).
      exists d. split; [by exists l|]. split; [done|]. congruence.
    + intros (d & [l Hl] & Hd & Ho). exists l. split; [done|].
      destruct (ia_label c s Hia l p Hl) as (d' & Hd' & Hdl). congruence.
  - intros l p Hl. by apply (ia_label c s Hia).
  - intros l l' p. by apply (inv_inj c s).
Qed.
Print Assumptions C11_indexes_agree.

(** A caller that goes on using a dialogue that has ended and left the store, and
    reuses references, breaks the indexes. *)
Definition open_with (r : string) : message := Msg "" "" (DRef r "") 1 0 "open".
Definition ops_stale : list op :=
  [OpCreateWith "b" (open_with "x");
   OpReply 0%nat "end" None None;
   OpCreateWith "b" (open_with "x");
   OpUpdate "n" (from_b abc (-1) 1 "say");
   OpReply 0%nat "end" None (Some 1);
   OpCreateWith "b" (open_with "x");
   OpUpdate "n" (from_b abc (-1) 1 "say")].

Theorem C11_stale_handle_refuted :
  exists c s p d,
    reachable_any c s /\ p ∈ st_with_counterparty s "b" /\ ~ in_store s p /\
    s_heap s !! p = Some d /\ s_by_label s !! d_label d <> None.
Proof.
  assert (match run (demo "a" false) false ops_stale with
          | Some (_, s) => st_with_counterparty s "b" = [1%nat : ptr; 2%nat] /\
                           stored_ptr s 1%nat = false /\
                           s_heap s !! (1%nat : ptr) = Some (dialogue_at s 1%nat) /\
                           s_by_label s !! d_label (dialogue_at s 1%nat) = Some (2%nat : ptr)
          | None => False end) as H by (vm_compute; repeat split).
  pose proof (run_exec (demo "a" false) false ops_stale) as Hrun.
  revert H Hrun. generalize (run (demo "a" false) false ops_stale).
  intros [[tr s]|]; [|done]. intros (H1 & H2 & H3 & H4) Hrun.
  exists (demo "a" false), s, 1%nat, (dialogue_at s 1%nat).
  split; [by eapply exec_reachable, Hrun|].
  split; [rewrite H1; set_solver|]. split; [|split; [done|by rewrite H4]].
  intros [l Hl]. unfold stored_ptr in H2.
  assert (existsb (fun kv => Nat.eqb kv.2 1%nat) (map_to_list (s_by_label s)) = true) as Ht;
    [|congruence].
  apply existsb_exists. exists (l, 1%nat). split; [|done].
  by apply elem_of_list_In, elem_of_map_to_list.
Qed.
Print Assumptions C11_stale_handle_refuted.

Example C11_example :
  let c := demo "a" true in
  let s := store_of c (ops_self ++ ops_peer) in
  reachable c (store_of c ops_self) /\ st_with_counterparty (store_of c ops_self) "b" = [0%nat : ptr].
Proof.
  split; [eapply clean_reachable, self_clean|]. vm_compute. reflexivity.
Qed.

(** C12. A stored dialogue stays in the store, under the same label up to the
    completion of its reference, until it receives a terminal message and
    terminal dialogues are not kept. *)
Theorem C12_never_overwritten c s o s' r l p :
  reachable c s -> reply_in_store s o -> step c s o = (s', r) -> is_panic r = false ->
  s_by_label s !! l = Some p ->
  (exists l', label_evolves l l' /\ s_by_label s' !! l' = Some p) \/
  (c_keep c = false /\ exists e, said c o r = Some (p, e) /\ In (m_perf (e_msg e)) (c_terminal c)).
Proof.
  intros Hr Hrs Hs Hp Hl. pose proof (reachable_inv c s Hr) as Hi.
  destruct (evo_step c s o s' r Hi Hrs Hs Hp) as (g & He & Hrep).
  destruct (ev_kept _ _ _ _ He l p Hl) as [H|(Hk & m & Hg & Ht)]; [by left|].
  right. split; [done|]. pose proof (reported_said c o r g Hrep) as Hsaid. rewrite Hg in Hsaid.
  simpl in Hsaid. by eexists.
Qed.
Print Assumptions C12_never_overwritten.

(** Creating a dialogue with a nonce that is in use does not disturb the stored
    dialogue. *)
Example C12_example :
  let c := demo "a" false in
  let s := store_of c [OpCreate "x" "b" "open"] in
  let o := OpCreate "x" "b" "open" in
  is_err (step c s o).2 = true /\ s_by_label s !! DLabel ab "b" "a" = Some (0%nat : ptr) /\
  s_by_label (step c s o).1 !! DLabel ab "b" "a" = Some (0%nat : ptr).
Proof. vm_compute. repeat split. Qed.

(** C13. The identity of a dialogue is stable during its whole life. *)
Theorem C13_identity_stable c tr s tr' s' p d :
  exec c tr s -> exec c (tr ++ tr') s' -> s_heap s !! p = Some d ->
  exists d', s_heap s' !! p = Some d' /\
    starter_ref (lb_ref (d_label d')) = starter_ref (lb_ref (d_label d)) /\
    lb_opponent (d_label d') = lb_opponent (d_label d) /\
    lb_starter (d_label d') = lb_starter (d_label d) /\
    (responder_ref (lb_ref (d_label d)) <> "" -> d_label d' = d_label d) /\
    d_role d' = d_role d /\ d_self d' = d_self d /\ d_rules d' = d_rules d.
Proof.
  intros H1 H2 Hd. destruct (exec_label c tr s tr' s' p d H1 H2 Hd) as (d' & Hd' & Hf & Hl).
  exists d'. split; [done|]. destruct Hf as (F1 & F2 & F3).
  destruct Hl as [Hl|((A & B & C) & D & E)].
  - rewrite Hl. by repeat split.
  - repeat split; try done.
Qed.
Print Assumptions C13_identity_stable.

Example C13_example :
  let c := demo "a" true in
  d_label (dialogue_at (store_of c (take 1 ops_self)) 0%nat) = DLabel ab "b" "a" /\
  d_label (dialogue_at (store_of c ops_self) 0%nat) = DLabel abc "b" "a" /\
  d_role (dialogue_at (store_of c ops_self) 0%nat) = "starter".
Proof. vm_compute. repeat split. Qed.

(** C14. A message of the counterparty completes the reference of a dialogue even
    when the message is rejected ... *)
Theorem C14_rejected_message_renames c s nonce m l p s1 e :
  reachable c s -> s_by_label s !! l = Some p ->
  lb_starter l = c_self c -> responder_ref (lb_ref l) = "" ->
  from_other c m -> m_sender m = lb_opponent l ->
  starter_ref (m_ref m) = starter_ref (lb_ref l) -> starter_ref (lb_ref l) <> "" ->
  responder_ref (m_ref m) <> "" ->
  step c s (OpUpdate nonce m) = (s1, Err e) ->
  let l' := DLabel (m_ref m) (lb_opponent l) (c_self c) in
  s_by_label s1 !! l = None /\ s_by_label s1 !! l' = Some p /\
  exists d, s_heap s1 !! p = Some d /\ d_label d = l'.
Proof.
  intros Hr Hl Hst Hre Ho Hs Hsr Hsne Hrr Hu l'.
  destruct (update_completes c s nonce m l p s1 (Err e) (reachable_inv c s Hr) Hl Hst Hre Ho Hs
    Hsr Hsne Hrr Hu eq_refl) as (H1 & H2 & H3 & H4).
  split; [done|]. split; [by apply H4|done].
Qed.
Print Assumptions C14_rejected_message_renames.

(** ... and from then on no message with another responder reference finds the
    dialogue. (The last hypothesis excludes an unrelated dialogue that the
    counterparty started itself with the very same pair of references.) *)
Theorem C14_other_references_lost c s nonce m l p s1 r s2 nonce' m' :
  reachable c s -> s_by_label s !! l = Some p ->
  lb_starter l = c_self c -> responder_ref (lb_ref l) = "" ->
  from_other c m -> m_sender m = lb_opponent l ->
  starter_ref (m_ref m) = starter_ref (lb_ref l) -> starter_ref (lb_ref l) <> "" ->
  responder_ref (m_ref m) <> "" ->
  step c s (OpUpdate nonce m) = (s1, r) -> is_panic r = false ->
  later c s1 s2 ->
  m_to m' = c_self c -> m_sender m' = lb_opponent l ->
  starter_ref (m_ref m') = starter_ref (lb_ref l) ->
  responder_ref (m_ref m') <> "" -> responder_ref (m_ref m') <> responder_ref (m_ref m) ->
  s_by_label s2 !! DLabel (m_ref m') (m_sender m') (m_sender m') = None ->
  step c s2 (OpUpdate nonce' m') = (s2, Ok (None, None)).
Proof.
  intros Hr Hl Hst Hre Ho Hs Hsr Hsne Hrr Hu Hp Hla Hto Hs' Hsr' Hre' Hneq Hnone.
  destruct (update_completes c s nonce m l p s1 r (reachable_inv c s Hr) Hl Hst Hre Ho Hs
    Hsr Hsne Hrr Hu Hp) as (H1 & H2 & H3 & H4).
  assert (reachable c s1) as Hr1 by (by eapply (r_step c s (OpUpdate nonce m))).
  pose proof (reachable_inv c s1 Hr1) as Hi1.
  pose proof (later_persist c s1 s2 _ _ Hi1 Hla H3 Hrr) as Hk.
  destruct Ho as (Ho1 & Ho2 & Ho3).
  apply (update_other_reference c s2 nonce' m' l (DLabel (m_ref m) (lb_opponent l) (c_self c)));
    try done.
  - by eapply later_inv.
  - repeat split; congruence.
  - congruence.
  - simpl. intros E. by rewrite E in Hneq.
Qed.
Print Assumptions C14_other_references_lost.

(** "b" answers with a forbidden performative: rejected, but the reference "y" is
    now fixed, and the proper answer with reference "z" finds nothing. *)
Example C14_example :
  let c := demo "a" true in
  let s := store_of c (take 1 ops_self) in
  let s1 := (step c s (OpUpdate "n" (from_b abc (-1) 1 "open"))).1 in
  s_by_label s !! DLabel ab "b" "a" = Some (0%nat : ptr) /\
  is_err (step c s (OpUpdate "n" (from_b abc (-1) 1 "open"))).2 = true /\
  d_label (dialogue_at s1 0%nat) = DLabel abc "b" "a" /\
  (step c s1 (OpUpdate "n" (from_b (DRef "x" "z") (-1) 1 "say"))).2 = Ok (None, None).
Proof. vm_compute. repeat split. Qed.

(** C15. Creating a dialogue with a forbidden opening reports no error and
    returns no dialogue, but leaves an empty one in the store. *)
Theorem C15_failed_create c s nonce cp p :
  reachable c s -> nonce <> "" -> unused_nonce c s nonce cp -> ~ In p (c_initial c) ->
  let l := DLabel (DRef nonce "") cp (c_self c) in
  exists s1 q d,
    step c s (OpCreate nonce cp p) =
      (s1, Ok (Some (Msg cp (c_self c) (DRef nonce "") 1 0 p), None)) /\
    s_heap s !! q = None /\ s_heap s1 !! q = Some d /\ s_by_label s1 !! l = Some q /\
    d_label d = l /\ d_out d = [] /\ d_in d = [] /\ q ∈ st_active_dialogues s1.
Proof.
  intros Hr Hn Hf Hp l. pose proof (reachable_inv c s Hr) as Hi.
  destruct (create_outcome c s nonce cp p Hi Hn Hf)
    as (s1 & d & b & H1 & H2 & H3 & H4 & H5 & H6 & H7 & H8 & H9).
  destruct b; [by destruct Hp; apply H2|]. destruct (H9 eq_refl) as [H10 H11].
  exists s1, (s_next s), d. done.
Qed.
Print Assumptions C15_failed_create.

(** With an allowed opening the dialogue is returned and holds the message. *)
Theorem C15_successful_create c s nonce cp p :
  reachable c s -> nonce <> "" -> unused_nonce c s nonce cp -> In p (c_initial c) ->
  let m := Msg cp (c_self c) (DRef nonce "") 1 0 p in
  exists s1 q d,
    step c s (OpCreate nonce cp p) = (s1, Ok (Some m, Some q)) /\
    s_heap s !! q = None /\ s_heap s1 !! q = Some d /\
    d_label d = DLabel (DRef nonce "") cp (c_self c) /\
    d_role d = c_role c m (c_self c) /\ d_out d = [m] /\ d_in d = [].
Proof.
  intros Hr Hn Hf Hp m. pose proof (reachable_inv c s Hr) as Hi.
  destruct (create_outcome c s nonce cp p Hi Hn Hf)
    as (s1 & d & b & H1 & H2 & H3 & H4 & H5 & H6 & H7 & H8 & H9).
  destruct b; [|by apply H2 in Hp]. exists s1, (s_next s), d. done.
Qed.
Print Assumptions C15_successful_create.

Example C15_example :
  let c := demo "a" true in
  unused_nonce c empty_store "x" "b" /\ ~ In "say" (c_initial c) /\ In "open" (c_initial c) /\
  is_ok (step c empty_store (OpCreate "x" "b" "say")).2 = true /\
  size (s_by_label (step c empty_store (OpCreate "x" "b" "say")).1) = 1%nat.
Proof.
  split; [done|]. split; [by intros [|[|[]]]|]. split; [by left|].
  split; vm_compute; reflexivity.
Qed.

(** C16. A rejected opening leaves no dialogue, but its reference is refused
    from then on, whatever the later opening says. *)
Theorem C16_rejected_opening_poisons c s nonce m s1 e s2 nonce' m' :
  reachable c s ->
  from_other c m -> starter_ref (m_ref m) <> "" -> responder_ref (m_ref m) = "" ->
  m_id m = 1 -> nonce <> "" ->
  s_incomplete s !! DLabel (DRef (starter_ref (m_ref m)) "") (m_sender m) (m_sender m) = None ->
  step c s (OpUpdate nonce m) = (s1, Err e) ->
  later c s1 s2 ->
  m_sender m' = m_sender m -> m_to m' = c_self c ->
  starter_ref (m_ref m') = starter_ref (m_ref m) -> responder_ref (m_ref m') = "" ->
  m_id m' = 1 ->
  s_by_label s1 = s_by_label s /\
  exists e', step c s2 (OpUpdate nonce' m') = (s2, Err e').
Proof.
  intros Hr Ho H1 H2 H3 Hn Hnone Hs Hl Hs' Hto Hst Hre Hid.
  pose proof (reachable_inv c s Hr) as Hi. simpl in Hs.
  split; [by eapply (rejected_opening_gone c s nonce m s1 (Err e))|].
  destruct (opening_remembered c s nonce m s1 (Err e) Hi Ho H1 H2 H3 Hn Hs eq_refl)
    as [(v & Hv & _)|Hk]; [by rewrite Hnone in Hv|].
  assert (inv c s1) as Hi1.
  { apply reachable_inv. by eapply (r_step c s (OpUpdate nonce m)). }
  pose proof (later_persist c s1 s2 _ _ Hi1 Hl Hk Hn) as Hk2.
  destruct Ho as (Ho1 & Ho2 & Ho3).
  eapply (opening_rejected c s2 nonce' m'); try done.
  - repeat split; congruence.
  - congruence.
  - rewrite Hst, Hs'. exact Hk2.
Qed.
Print Assumptions C16_rejected_opening_poisons.

Example C16_example :
  let c := demo "a" true in
  let s1 := (step c empty_store (OpUpdate "y" (from_b ab 1 0 "say"))).1 in
  from_other c (from_b ab 1 0 "say") /\
  is_err (step c empty_store (OpUpdate "y" (from_b ab 1 0 "say"))).2 = true /\
  is_ok (step c empty_store (OpUpdate "y" (from_b ab 1 0 "open"))).2 = true /\
  is_err (step c s1 (OpUpdate "y" (from_b ab 1 0 "open"))).2 = true.
Proof. split; [repeat split; done|]. vm_compute. repeat split. Qed.

(** C17. Active and terminal dialogues partition the store. *)
Theorem C17_partition c s :
  reachable c s ->
  NoDup (st_active_dialogues s ++ st_terminal_dialogues s) /\
  forall p, p ∈ st_active_dialogues s ++ st_terminal_dialogues s <-> in_store s p.
Proof.
  intros Hr. split; [|intros p; by apply (partition_all c)].
  apply (partition_nodup c); [by apply reachable_inv|by eapply term_true_reachable].
Qed.
Print Assumptions C17_partition.

(** A terminal message ends the dialogue: it is listed as terminal if such
    dialogues are kept, and otherwise gone from every index. Another message
    leaves it in the store. *)
Theorem C17_terminal_message c s o s' r p e :
  reachable c s -> reply_in_store s o -> step c s o = (s', r) -> is_panic r = false ->
  said c o r = Some (p, e) ->
  (In (m_perf (e_msg e)) (c_terminal c) ->
   if c_keep c then p ∈ st_terminal_dialogues s'
   else ~ in_store s' p /\ (forall a, p ∉ st_with_counterparty s' a) /\
        p ∉ st_active_dialogues s' /\ p ∉ st_terminal_dialogues s') /\
  (~ In (m_perf (e_msg e)) (c_terminal c) -> in_store s' p).
Proof.
  intros Hr Hrs Hs Hp Hsaid. pose proof (reachable_inv c s Hr) as Hi.
  assert (reachable c s') as Hr' by (by eapply (r_step c s o)).
  destruct (evo_step c s o s' r Hi Hrs Hs Hp) as (g & He & Hrep).
  pose proof (reported_said c o r g Hrep) as Hg. rewrite Hsaid in Hg.
  destruct g as [[q m]|]; [|done]. simpl in Hg. injection Hg as -> ->. simpl.
  split.
  - intros Ht. pose proof (ev_end _ _ _ _ He q m eq_refl Ht) as Hend.
    destruct (c_keep c).
    + apply terminal_elem; [by eapply term_true_reachable|]. exact Hend.
    + assert (~ in_store s' q) as Hn by (intros [l Hl]; by apply Hend in Hl).
      split; [done|]. split.
      { intros a Ha. apply (iv_addr c s' (reachable_inv c s' Hr')) in Ha as (l & Hl & _).
        apply Hn. by exists l. }
      pose proof (partition_all c s' q Hr') as Hall. rewrite elem_of_app in Hall. tauto.
  - intros Ht. exact (ev_live _ _ _ _ He q m eq_refl Ht).
Qed.
Print Assumptions C17_terminal_message.

(** Only a terminal message makes a dialogue terminal. *)
Theorem C17_only_terminal_messages c s o s' r p :
  reachable c s -> reply_in_store s o -> step c s o = (s', r) -> is_panic r = false ->
  p ∈ st_terminal_dialogues s' ->
  p ∈ st_terminal_dialogues s \/
  exists e, said c o r = Some (p, e) /\ In (m_perf (e_msg e)) (c_terminal c).
Proof.
  intros Hr Hrs Hs Hp Ht. pose proof (reachable_inv c s Hr) as Hi.
  assert (reachable c s') as Hr' by (by eapply (r_step c s o)).
  destruct (evo_step c s o s' r Hi Hrs Hs Hp) as (g & He & Hrep).
  apply terminal_elem in Ht as (l & Hl & Ht); [|by eapply term_true_reachable].
  destruct (ev_terminal _ _ _ _ He l Ht) as [Ht0|(q & m & -> & Hin & Hq)].
  - left. pose proof (iv_term c s Hi l Ht0) as [p0 Hp0].
    destruct (ev_kept _ _ _ _ He l p0 Hp0) as [(l' & Hev & Hl')|(Hk & _)].
    + apply terminal_elem; [by eapply term_true_reachable|].
      exists l. split; [|done].
      destruct Hev as [->|(Hc & Hr1 & Hr2)]; [congruence|].
      exfalso. pose proof (reachable_inv c s' Hr') as Hi'.
      pose proof (iv_complete c s' Hi' l' p0 Hl' Hr2) as Hk.
      assert (incomplete_version l' = l) as E.
      { destruct Hc as (A & B & C), l as [[a b] o1 st], l' as [[a' b'] o1' st'].
        simpl in *. unfold incomplete_version, unassigned. simpl. congruence. }
      rewrite E in Hk.
      destruct (iv_open c s' Hi' l p Hl Hr1) as [[_ Hx]|[_ Hx]]; [congruence|].
      rewrite Hk in Hx. injection Hx as ->. done.
    + exfalso. pose proof (iv_keep c s Hi Hk l). congruence.
  - right. pose proof (reported_said c o r _ Hrep) as Hsaid. simpl in Hsaid.
    assert (q = p) as -> by congruence. by eexists.
Qed.
Print Assumptions C17_only_terminal_messages.

(** A dialogue can leave the terminal state again: a kept dialogue that ended
    with its opening becomes active when its reference is completed. *)
Definition ops_revive : list op :=
  [OpCreate "x" "b" "ping"; OpUpdate "n" (from_b abc (-1) 1 "say")].

Theorem C17_terminal_forever_refuted :
  exists c s o s' r p,
    reachable c s /\ reply_in_store s o /\ step c s o = (s', r) /\ is_panic r = false /\
    c_keep c = true /\ p ∈ st_terminal_dialogues s /\ p ∉ st_terminal_dialogues s' /\
    p ∈ st_active_dialogues s'.
Proof.
  exists (demo "a" true), (store_of (demo "a" true) (take 1 ops_revive)),
    (OpUpdate "n" (from_b abc (-1) 1 "say")).
  eexists _, _, 0%nat.
  split; [eapply clean_reachable, demo_clean; vm_compute; reflexivity|].
  split; [done|]. split; [apply surjective_pairing|].
  split; [vm_compute; reflexivity|]. split; [done|].
  assert (st_terminal_dialogues (store_of (demo "a" true) (take 1 ops_revive)) = [0%nat : ptr])
    as -> by (vm_compute; reflexivity).
  assert (st_terminal_dialogues (step (demo "a" true)
     (store_of (demo "a" true) (take 1 ops_revive)) (OpUpdate "n" (from_b abc (-1) 1 "say"))).1
     = []) as -> by (vm_compute; reflexivity).
  assert (st_active_dialogues (step (demo "a" true)
     (store_of (demo "a" true) (take 1 ops_revive)) (OpUpdate "n" (from_b abc (-1) 1 "say"))).1
     = [0%nat : ptr]) as -> by (vm_compute; reflexivity).
  split; [set_solver|]. split; [apply not_elem_of_nil|]. set_solver.
Qed.
Print Assumptions C17_terminal_forever_refuted.

Example C17_example :
  let s k := store_of (demo "a" k) ops_self in
  let r k := step (demo "a" k) (s k) (OpReply 0%nat "end" None None) in
  is_ok (r true).2 = true /\ st_terminal_dialogues (r true).1 = [0%nat : ptr] /\
  st_active_dialogues (r true).1 = [] /\
  is_ok (r false).2 = true /\ st_terminal_dialogues (r false).1 = [] /\
  st_active_dialogues (r false).1 = [] /\ st_active_dialogues (s false) = [0%nat : ptr].
Proof. vm_compute. repeat split. Qed.

(** C18. No call crashes while the incoming messages of every dialogue are
    numbered without gaps and no argument is the least machine integer. *)
Theorem C18_no_crash c s o :
  reachable c s -> reply_in_store s o -> call_in_range o ->
  (forall p d, s_heap s !! p = Some d -> gap_free d) ->
  is_panic (step c s o).2 = false.
Proof.
  intros Hr Hrs Hc Hg. destruct (step c s o) as [s' r] eqn:E.
  destruct (inv_step c s o s' r (reachable_inv c s Hr) Hrs E) as [_ H]. by apply H.
Qed.
Print Assumptions C18_no_crash.

(** But when the latest message of a dialogue came from the counterparty and is
    numbered beyond the number of messages received, a reply with default
    target crashes. *)
Theorem C18_gap_crashes c tr s p d m perf :
  exec c tr s -> s_heap s !! p = Some d -> lb_opponent (d_label d) <> c_self c ->
  last (transcript c p tr) = Some (Entry Peer m) ->
  Z.of_nat (length (messages_of Peer (transcript c p tr))) < Z.abs (m_id m) ->
  m_id m <> min_int ->
  is_panic (step c s (OpReply p perf None None)).2 = true.
Proof.
  intros He Hd Ho Hl Hgap Hmin. pose proof (transcript_some c tr s p d He Hd) as Hdi.
  simpl. unfold api_reply. rewrite Hd.
  pose proof (gap_reply_panics c d _ m perf Hdi Ho Hl) as Hpan.
  rewrite (rep_in _ _ (di_rep _ _ _ Hdi)) in Hpan. specialize (Hpan Hgap Hmin).
  destruct (dialogue_reply d perf None None) as [[[? ?] ?]|?|?]; done.
Qed.
Print Assumptions C18_gap_crashes.

(** And the counterparty can produce such a gap: the library accepts -3 as its
    second message. *)
Definition ops_gap : list op := ops_self ++ [OpUpdate "n" (from_b abc (-3) 2 "say")].

Theorem C18_reply_crash_refuted :
  exists c tr s p perf,
    exec_clean c tr s /\ in_store s p /\
    is_panic (step c s (OpReply p perf None None)).2 = true.
Proof.
  exists (demo "a" true), (trace_of (demo "a" true) ops_gap), (store_of (demo "a" true) ops_gap),
    0%nat, "say".
  split; [apply demo_clean; vm_compute; reflexivity|].
  split; [exists (DLabel abc "b" "a")|]; vm_compute; reflexivity.
Qed.
Print Assumptions C18_reply_crash_refuted.

(** The least machine integer as a target crashes as well. *)
Theorem C18_least_target_refuted :
  exists c tr s o,
    exec_clean c tr s /\ reply_in_store s o /\
    (forall p d, s_heap s !! p = Some d -> gap_free d) /\
    is_panic (step c s o).2 = true.
Proof.
  exists (demo "a" true), (trace_of (demo "a" true) (take 2 ops_self)),
    (store_of (demo "a" true) (take 2 ops_self)),
    (OpUpdate "n" (from_b abc (-2) min_int "say")).
  split; [apply demo_clean; vm_compute; reflexivity|]. split; [done|].
  split; [|vm_compute; reflexivity].
  intros p d Hd.
  assert (map_to_list (s_heap (store_of (demo "a" true) (take 2 ops_self))) =
          [(0%nat : ptr, dialogue_at (store_of (demo "a" true) (take 2 ops_self)) 0%nat)]) as Hm
    by (vm_compute; reflexivity).
  apply elem_of_map_to_list in Hd. rewrite Hm in Hd.
  apply elem_of_list_singleton in Hd. injection Hd as -> ->.
  split; [intros lm Hl; vm_compute in Hl; injection Hl as <-; vm_compute; discriminate|]. vm_compute. reflexivity.
Qed.
Print Assumptions C18_least_target_refuted.

Example C18_example :
  let c := demo "a" true in
  reachable c (store_of c ops_self) /\ reply_in_store (store_of c ops_self) (OpReply 0%nat "say" None None) /\
  gap_free (dialogue_at (store_of c ops_self) 0%nat) /\
  size (s_heap (store_of c ops_self)) = 1%nat.
Proof.
  split; [eapply clean_reachable, self_clean|].
  split; [exists (DLabel abc "b" "a"); vm_compute; reflexivity|].
  split; [|vm_compute; reflexivity].
  split; [|vm_compute; reflexivity]. intros lm Hl. vm_compute in Hl. injection Hl as <-.
  vm_compute. discriminate.
Qed.

(** C56. Which openings are accepted: exactly the well-formed ones, when the
    reference is new. *)
Theorem C56_opening_accepted c s nonce m :
  reachable c s -> from_other c m ->
  starter_ref (m_ref m) <> "" -> responder_ref (m_ref m) = "" -> m_id m = 1 -> nonce <> "" ->
  s_incomplete s !! DLabel (DRef (starter_ref (m_ref m)) "") (m_sender m) (m_sender m) = None ->
  exists s1 r,
    step c s (OpUpdate nonce m) = (s1, r) /\
    (m_target m = 0 /\ In (m_perf m) (c_initial c) ->
       exists p d, r = Ok (None, Some p) /\ s_heap s !! p = None /\ s_heap s1 !! p = Some d /\
         d_label d = DLabel (DRef (starter_ref (m_ref m)) nonce) (m_sender m) (m_sender m) /\
         d_role d = c_role c m (c_self c) /\ d_in d = [m] /\ d_out d = []) /\
    (~ (m_target m = 0 /\ In (m_perf m) (c_initial c)) -> exists e, r = Err e).
Proof.
  intros Hr Ho H1 H2 H3 Hn Hk.
  exact (opening_outcome c s nonce m (reachable_inv c s Hr) Ho H1 H2 H3 Hn Hk).
Qed.
Print Assumptions C56_opening_accepted.

Example C56_example :
  let c := demo "a" true in
  from_other c (from_b ab 1 0 "open") /\
  (step c empty_store (OpUpdate "y" (from_b ab 1 0 "open"))).2 = Ok (None, Some 0%nat) /\
  d_role (dialogue_at (step c empty_store (OpUpdate "y" (from_b ab 1 0 "open"))).1 0%nat)
    = "responder" /\
  is_err (step c empty_store (OpUpdate "y" (from_b ab 1 1 "open"))).2 = true.
Proof. split; [repeat split; done|]. vm_compute. repeat split. Qed.
