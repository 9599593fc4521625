(** Property C97: what Create and CreateWithMessage do with any argument. *)
From Coq Require Import ZArith List String Lia.
From stdpp Require Import base tactics gmap strings list.
From Verif Require Import GoBase SetModel DialogueModel StoreModel DialogueSpec DialogueDemo
  DialogueProofs StoreProofs StoreInv TraceProofs DialogueLemmas StoreLemmas TermProofs DialogueProps.
Open Scope string_scope.
Open Scope list_scope.
Open Scope Z_scope.

(** The message is an opening the rules allow. *)
Definition opens (c : config) (m : message) : Prop :=
  m_id m = 1 /\ m_target m = 0 /\ In (m_perf m) (c_initial c).

(** The message as the agent sends it to [cp]. *)
Definition sent_to (c : config) (cp : address) (m : message) : message :=
  Msg cp (c_self c) (m_ref m) (m_id m) (m_target m) (m_perf m).

Lemma own_opening_update c d m :
  dinv c d [] -> m_sender m = c_self c -> m_to m = lb_opponent (d_label d) ->
  m_ref m = lb_ref (d_label d) ->
  responder_ref (lb_ref (d_label d)) = "" -> lb_starter (d_label d) = c_self c ->
  (exists t, opens c m /\ dialogue_update d m = Ok (append_message d m, m, t)) \/
  (~ opens c m /\ exists e, dialogue_update d m = Err e).
Proof.
  intros Hd Hs Hto Href Hr Hst. assert (presented c m) as Hpr by (by left).
  unfold dialogue_update, opens.
  rewrite (fill_sender_presented c d m (di_self _ _ _ Hd) Hpr).
  assert (is_belonging d m = true) as ->.
  { unfold is_belonging, check_label_belongs, counterparty_from_message, is_by_self,
      is_self_initiated, unassigned. rewrite Hs, Hto, Href.
    rewrite (di_self _ _ _ Hd). rewrite (bool_decide_eq_true_2 (c_self c = c_self c)) by done.
    apply orb_true_iff. left. apply bool_decide_eq_true.
    rewrite Hst. destruct (d_label d) as [[a b] o st]. simpl in *.
    case_bool_decide; congruence. }
  simpl. unfold validate_next_message.
  rewrite (proj2 (is_empty_rep d [] (di_rep _ _ _ Hd)) eq_refl).
  unfold basic_validation_initial, validate_message_target.
  rewrite (bool_decide_eq_true_2 (_ = _)) by (by rewrite Href). simpl.
  unfold starting_message_id, starting_target.
  destruct (Z.eqb_spec (m_id m) 1) as [Ei|Ei]; simpl; [|right; split; [tauto|by eexists]].
  destruct (Z.eqb_spec (m_target m) 0) as [Et|Et]; simpl; [|right; split; [tauto|by eexists]].
  pose proof (di_rules _ _ _ Hd) as Hru.
  destruct (hs_contains (r_initial (d_rules d)) (m_perf m)) eqn:E; simpl;
    rewrite Hru in E; unfold new_rules in E; simpl in E.
  - left. eexists. split; [|done]. by apply hs_contains_list in E.
  - right. split; [|by eexists]. intros (_ & _ & Hin). apply hs_contains_list in Hin. congruence.
Qed.

Lemma create_dialogue_outcome c s cp m :
  inv c s -> m_sender m = c_self c -> m_to m = cp ->
  starter_ref (m_ref m) <> "" -> responder_ref (m_ref m) = "" ->
  unused_nonce c s (starter_ref (m_ref m)) cp ->
  let l := DLabel (m_ref m) cp (c_self c) in
  exists s1 d b,
    create_dialogue c s cp m = (s1, Ok (if b : bool then Some (s_next s) else None)) /\
    (b = true <-> opens c m) /\
    s_heap s !! s_next s = None /\
    s_heap s1 !! s_next s = Some d /\ d_label d = l /\ d_role d = c_role c m (c_self c) /\
    d_out d = (if b then [m] else []) /\ d_in d = [] /\
    (b = false -> s_by_label s1 !! l = Some (s_next s) /\ s_next s ∈ st_active_dialogues s1).
Proof.
  intros Hi Hs Hto Hn Hre [Hf1 Hf2] l.
  assert (DRef (starter_ref (m_ref m)) "" = m_ref m) as Href.
  { destruct (m_ref m) as [a b]. simpl in *. congruence. }
  rewrite Href in Hf1, Hf2.
  unfold create_dialogue, create_self_initiated, unassigned.
  rewrite (bool_decide_eq_true_2 (starter_ref (m_ref m) <> "")) by done.
  rewrite (bool_decide_eq_true_2 (responder_ref (m_ref m) = "")) by done. simpl.
  destruct (create c s (DLabel (m_ref m) cp (c_self c)) (c_role c m (c_self c)) None)
    as [sc oc] eqn:Ec.
  edestruct (create_spec c s) as (Hic & Hec & Hoc); [apply Hi| | | |exact Ec|];
    [done|by left|done|].
  destruct (inv_create_self c s (m_ref m) cp (c_role c m (c_self c)) sc oc Hi)
    as [Hiv Hst]; [done|done|exact Ec|].
  assert (s_heap s !! s_next s = None) as Hfresh by (by apply (ia_fresh c s (iv_any c s Hi))).
  assert (oc = Ok (s_next s) /\ s_terminal sc = s_terminal s /\ exists d, s_heap sc !! s_next s = Some d
    /\ d_role d = c_role c m (c_self c)) as (-> & Hte & d1 & Hd1 & Hrole).
  { revert Ec. unfold create, st_is_in_incomplete, st_is_present. rewrite Hf1, Hf2. cbv iota.
    intros [= <- <-]. split; [done|]. split; [done|]. simpl. rewrite lookup_insert.
    by eexists. }
  destruct Hoc as (_ & _ & _ & d & Hd & Hdi & Hdl).
  rewrite Hd in Hd1. injection Hd1 as <-. rewrite Hd.
  simpl in Hdl. fold l in Hdl.
  destruct (own_opening_update c d m) as [(t & Hin & Hu)|(Hin & e & Hu)];
    try done; try (by rewrite Hdl).
  - assert (dinv c (append_message d m) ([] ++ [Entry (from_of c m) m])) as Hd'.
    { destruct (update_dinv c d [] m (append_message d m) m t Hdi) as (_ & _ & _ & Hd'); try done.
      - by left.
      - intros _ _. by rewrite Hdl. }
    rewrite Hu.
    destruct (inv_store_update c sc (s_next s) d (append_message d m) m t
                ([] ++ [Entry (from_of c m) m])) as (su & Hsu & Hisu); try done.
    { rewrite Hdl. exact Hst. }
    rewrite Hsu.
    assert (s_heap su = s_heap (set_dialogue sc (s_next s) (append_message d m))) as Hheap.
    { revert Hsu. unfold store_update. destruct t; [|by intros [= <-]].
      destruct (run_callbacks _ _ _ _) as [s2|?|?] eqn:Er; [|done..].
      intros [= <-]. by apply run_callbacks_heap in Er as (? & _). }
    exists su, (append_message d m), true. split; [done|]. split; [done|]. split; [done|].
    rewrite Hheap. unfold set_dialogue. cbn [s_heap]. rewrite lookup_insert.
    split; [done|]. split; [done|].
    split; [done|].
    destruct (di_rep _ _ _ Hd') as [Ho Hii _ _]. rewrite Ho, Hii.
    assert (from_of c m = Me) as -> by (unfold from_of; by rewrite decide_True).
    done.
  - rewrite Hu. simpl. exists sc, d, false.
    split; [done|]. split; [done|]. split; [done|]. split; [done|]. split; [done|].
    split; [done|]. destruct (di_rep _ _ _ Hdi) as [Ho Hii _ _]. split; [done|]. split; [done|].
    intros _. assert (s_by_label sc !! l = Some (s_next s)) as Hsl by (exact Hst).
    split; [done|]. apply active_spec. exists l. split; [done|].
    rewrite Hte. destruct (hs_contains (s_terminal s) l) eqn:E; [|done].
    apply (iv_term c s Hi) in E as [? E]. unfold l in E. by rewrite Hf1 in E.
Qed.

Lemma create_dialogue_refused c s cp m :
  starter_ref (m_ref m) = "" \/ responder_ref (m_ref m) <> "" \/
  ~ unused_nonce c s (starter_ref (m_ref m)) cp ->
  exists e, create_dialogue c s cp m = (s, Err e).
Proof.
  intros H. unfold create_dialogue, create_self_initiated, unassigned.
  destruct (decide (starter_ref (m_ref m) = "")) as [E1|E1].
  { rewrite (bool_decide_eq_false_2 (starter_ref (m_ref m) <> "")) by tauto. simpl. eauto. }
  rewrite (bool_decide_eq_true_2 (starter_ref (m_ref m) <> "")) by done.
  destruct (decide (responder_ref (m_ref m) = "")) as [E2|E2].
  2: { rewrite bool_decide_eq_false_2 by done. simpl. eauto. }
  rewrite bool_decide_eq_true_2 by done. simpl.
  destruct H as [?|[?|H]]; [done..|]. unfold unused_nonce in H.
  assert (DRef (starter_ref (m_ref m)) "" = m_ref m) as Href.
  { destruct (m_ref m) as [a b]. simpl in *. congruence. }
  rewrite Href in H. unfold create, st_is_in_incomplete, st_is_present.
  destruct (s_incomplete s !! _) as [x|]; [simpl; eauto|].
  destruct (s_by_label s !! _) as [x|]; [simpl; eauto|]. exfalso. by apply H.
Qed.

(** C97. CreateWithMessage refuses messages that are addressed already or whose
    reference is not a fresh starter reference alone, and nothing changes then. *)
Theorem C97_with_message_refused c s cp m :
  m_sender m <> "" \/ m_to m <> "" \/
  starter_ref (m_ref m) = "" \/ responder_ref (m_ref m) <> "" \/
  ~ unused_nonce c s (starter_ref (m_ref m)) cp ->
  exists e, step c s (OpCreateWith cp m) = (s, Err e).
Proof.
  intros H. simpl. unfold api_create_with, set_sender, set_to.
  destruct (decide (m_sender m = "")) as [E1|E1].
  2: { rewrite (bool_decide_eq_true_2 (m_sender m <> "")) by done. eauto. }
  rewrite (bool_decide_eq_false_2 (m_sender m <> "")) by tauto. cbn [m_to].
  destruct (decide (m_to m = "")) as [E2|E2].
  2: { rewrite (bool_decide_eq_true_2 (m_to m <> "")) by done. eauto. }
  rewrite (bool_decide_eq_false_2 (m_to m <> "")) by tauto. cbn [m_sender m_ref m_id m_target m_perf].
  destruct (create_dialogue_refused c s cp (sent_to c cp m)) as [e He].
  { destruct H as [?|[?|H]]; [done..|exact H]. }
  unfold sent_to in He. rewrite He. eauto.
Qed.
Print Assumptions C97_with_message_refused.

(** Otherwise a new dialogue is stored. It is returned, holding exactly the
    message, if the message is an allowed opening; else it is left empty and
    neither a dialogue nor an error is returned. *)
Theorem C97_with_message_created c s cp m :
  reachable c s -> m_sender m = "" -> m_to m = "" ->
  starter_ref (m_ref m) <> "" -> responder_ref (m_ref m) = "" ->
  unused_nonce c s (starter_ref (m_ref m)) cp ->
  let m' := sent_to c cp m in
  let l := DLabel (m_ref m) cp (c_self c) in
  exists s1 r q d,
    step c s (OpCreateWith cp m) = (s1, r) /\
    s_heap s !! q = None /\ s_heap s1 !! q = Some d /\ d_label d = l /\
    d_role d = c_role c m' (c_self c) /\ d_in d = [] /\
    (opens c m -> r = Ok (None, Some q) /\ d_out d = [m']) /\
    (~ opens c m -> r = Ok (None, None) /\ d_out d = [] /\
       s_by_label s1 !! l = Some q /\ q ∈ st_active_dialogues s1).
Proof.
  intros Hr Hs Hto Hsr Hrr Hu m' l. pose proof (reachable_inv c s Hr) as Hi.
  simpl. unfold api_create_with, set_sender, set_to.
  rewrite (bool_decide_eq_false_2 (m_sender m <> "")) by tauto. cbn [m_to].
  rewrite (bool_decide_eq_false_2 (m_to m <> "")) by tauto. cbn [m_sender m_ref m_id m_target m_perf].
  destruct (create_dialogue_outcome c s cp m' Hi eq_refl eq_refl Hsr Hrr Hu)
    as (s1 & d & b & H1 & H2 & H3 & H4 & H5 & H6 & H7 & H8 & H9).
  unfold m', sent_to in H1. rewrite H1.
  assert (opens c m' <-> opens c m) as Ho by done. rewrite Ho in H2.
  exists s1, (Ok (None, if b then Some (s_next s) else None)), (s_next s), d.
  split; [done|]. split; [done|]. split; [done|]. split; [done|]. split; [done|]. split; [done|].
  destruct b.
  - split; [done|]. intros Hn. by destruct Hn; apply H2.
  - split; [intros Hn; by apply H2 in Hn|]. intros _. split; [done|]. split; [done|]. by apply H9.
Qed.
Print Assumptions C97_with_message_created.

(** Create fails exactly if the random source failed or the reference is in
    use, and then nothing has changed. *)
Theorem C97_create_fails c s nonce cp p :
  reachable c s ->
  (is_ok (step c s (OpCreate nonce cp p)).2 = false <-> nonce = "" \/ ~ unused_nonce c s nonce cp) /\
  (is_ok (step c s (OpCreate nonce cp p)).2 = false ->
     exists e, step c s (OpCreate nonce cp p) = (s, Err e)).
Proof.
  intros Hr. pose proof (reachable_inv c s Hr) as Hi. simpl. unfold api_create.
  set (m := Msg cp (c_self c) (DRef nonce unassigned) starting_message_id starting_target p).
  assert (nonce = "" \/ ~ unused_nonce c s nonce cp \/ (nonce <> "" /\ unused_nonce c s nonce cp)) as H.
  { destruct (decide (nonce = "")) as [?|Hn]; [by left|]. right. unfold unused_nonce.
    destruct (s_by_label s !! _); [left; by intros []|]. destruct (s_incomplete s !! _); [left; by intros []|].
    right. done. }
  assert (nonce = "" \/ ~ unused_nonce c s nonce cp -> exists e, create_dialogue c s cp m = (s, Err e)) as Hf.
  { intros Hb. apply create_dialogue_refused. simpl. tauto. }
  destruct H as [H|[H|[Hn Hu]]].
  - destruct Hf as [e ->]; [by left|]. simpl. split; [|eauto]. tauto.
  - destruct Hf as [e ->]; [by right|]. simpl. split; [|eauto]. tauto.
  - destruct (create_dialogue_outcome c s cp m Hi eq_refl eq_refl Hn eq_refl Hu)
      as (s1 & d & b & H1 & _). rewrite H1. simpl. split; [|done]. split; [done|]. tauto.
Qed.
Print Assumptions C97_create_fails.

(** dialogues.go:122-135 CreateWithMessage with message.go:88-106 SetSender and
    SetTo: the message of the caller after the call, which gets its fields
    through a pointer. *)
Definition written c (cp : address) (m : message) : message :=
  match set_sender m (c_self c) with
  | Ok m1 => match set_to m1 cp with Ok m2 => m2 | _ => m1 end
  | _ => m
  end.

(** A message can be given to CreateWithMessage once only: afterwards it is
    refused, whatever the first call answered and whatever has happened since. *)
Theorem C97_message_used_up c cp m :
  c_self c <> "" ->
  (m_sender m = "" -> m_to m = "" -> written c cp m = sent_to c cp m) /\
  forall s cp', exists e, step c s (OpCreateWith cp' (written c cp m)) = (s, Err e).
Proof.
  intros Hc. unfold written, set_sender, set_to. split.
  - intros H1 H2. rewrite (bool_decide_eq_false_2 (m_sender m <> "")) by tauto. cbn [m_to].
    rewrite (bool_decide_eq_false_2 (m_to m <> "")) by tauto. done.
  - intros s cp'. apply C97_with_message_refused. left.
    destruct (bool_decide (m_sender m <> "")) eqn:E; [by apply bool_decide_eq_true in E|]. cbn [m_to].
    by destruct (bool_decide (m_to m <> "")).
Qed.
Print Assumptions C97_message_used_up.

(** The same message is refused for a second counterparty, although a copy of it
    is accepted. *)
Example C97_used_up_example :
  let c := demo "a" true in
  let m := Msg "" "" (DRef "x" "") 1 0 "open" in
  let s1 := (step c empty_store (OpCreateWith "b" m)).1 in
  is_err (step c s1 (OpCreateWith "d" (written c "b" m))).2 = true /\
  (step c s1 (OpCreateWith "d" m)).2 = Ok (None, Some 1%nat).
Proof. split; vm_compute; reflexivity. Qed.

(** A dialogue with the agent's own address can be created, but never gets past
    its opening. *)
Theorem C97_with_oneself c tr s p d :
  exec c tr s -> s_heap s !! p = Some d -> lb_opponent (d_label d) = c_self c ->
  (length (transcript c p tr) <= 1)%nat /\ (length (d_out d) <= 1)%nat /\ d_in d = [].
Proof.
  intros He Hd Ho. pose proof (transcript_some c tr s p d He Hd) as Hdi.
  destruct Hdi as [[Hout Hin _ _] _ _ _ Hc]. rewrite Hout, Hin. clear Hout Hin.
  destruct (transcript c p tr) as [|x h]; [simpl; split; [lia|split; [lia|done]]|].
  destruct h as [|y h].
  - destruct (Hc [] x [] eq_refl) as (Ha & _). unfold addressed, other in Ha.
    unfold messages_of. simpl. destruct (e_from x); [|by destruct Ha as (_ & _ & Ha)]. simpl.
    split; [lia|split; [lia|done]].
  - exfalso. destruct (Hc [x] y h eq_refl) as (_ & _ & _ & H).
    destruct (H ltac:(done)) as [Hn _]. by apply Hn.
Qed.
Print Assumptions C97_with_oneself.

Example C97_with_oneself_example :
  let c := demo "a" true in
  let ops := [OpCreate "x" "a" "open"] in
  exec_clean c (trace_of c ops) (store_of c ops) /\
  length (transcript c 0%nat (trace_of c ops)) = 1%nat /\
  lb_opponent (d_label (dialogue_at (store_of c ops) 0%nat)) = "a" /\
  is_ok (step c (store_of c ops) (OpReply 0%nat "say" None None)).2 = false /\
  is_err (step c (store_of c ops) (OpUpdate "n" (Msg "a" "a" abc (-1) 1 "say"))).2 = true.
Proof. split; [apply demo_clean; vm_compute; reflexivity|]. repeat split; vm_compute; reflexivity. Qed.

Example C97_example :
  let c := demo "a" true in
  let m := Msg "" "" (DRef "x" "") 1 0 "open" in
  unused_nonce c empty_store "x" "b" /\ opens c m /\
  ~ opens c (Msg "" "" (DRef "x" "") 2 0 "open") /\
  (step c empty_store (OpCreateWith "b" m)).2 = Ok (None, Some 0%nat) /\
  (step c empty_store (OpCreateWith "b" (Msg "" "" (DRef "x" "") 2 0 "open"))).2 = Ok (None, None) /\
  is_err (step c empty_store (OpCreateWith "b" (Msg "b" "" (DRef "x" "") 1 0 "open"))).2 = true /\
  is_err (step c (store_of c ops_self) (OpCreateWith "b" m)).2 = true /\
  is_err (step c (store_of c ops_self) (OpCreate "x" "b" "open")).2 = true /\
  is_ok (step c (store_of c ops_self) (OpCreate "z" "b" "open")).2 = true.
Proof.
  split; [done|]. split; [split; [done|split; [done|by left]]|].
  split; [by intros (H & _)|]. repeat split; vm_compute; reflexivity.
Qed.
