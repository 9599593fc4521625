(** Two agents that talk to each other agree on the reference of a dialogue (C94). *)
From Coq Require Import ZArith List String Lia.
From stdpp Require Import base tactics gmap strings list.
From Verif Require Import GoBase SetModel DialogueModel StoreModel DialogueSpec DialogueDemo
  DialogueProofs StoreProofs StoreInv TraceProofs DialogueLemmas StoreLemmas AgreeProps.
Open Scope string_scope.
Open Scope list_scope.
Open Scope Z_scope.

(** * Labels over a call *)

Lemma create_dialogue_ok c s cp m s1 op p l : create_dialogue c s cp m = (s1, op) -> lab s1 p = Some l ->
  (op = Ok (Some p) \/ lab s p <> Some l) -> l = DLabel (m_ref m) cp (c_self c) /\ responder_ref (m_ref m) = "".
Proof.
  intros H Hl Hor. unfold create_dialogue, create_self_initiated in H.
  destruct (bool_decide (responder_ref (m_ref m) = unassigned)) eqn:Eb.
  2: { rewrite andb_false_r in H. cbn in H. injection H as <- <-. by destruct Hor. }
  apply bool_decide_eq_true in Eb. destruct (negb _) eqn:E1; [injection H as <- <-; by destruct Hor|].
  destruct (create c s (DLabel (m_ref m) cp (c_self c)) (c_role c m (c_self c)) None) as [sc oc] eqn:Ec.
  pose proof (create_lab _ _ _ _ _ _ _ p Ec) as K.
  destruct oc as [q|e|e]; [|injection H as <- <-; destruct Hor; [done|congruence]|injection H as <- <-; destruct Hor; [done|congruence] ].
  destruct K as [_ K].
  assert (lab s1 p = lab sc p /\ (op = Ok (Some p) -> q = p)) as [K1 K2].
  { destruct (s_heap sc !! q) as [d|] eqn:Ed; [|by injection H as <- <-].
    destruct (store_update c sc q (dialogue_update d m)) as [su ou] eqn:Eu.
    assert (lab su p = lab sc p) as K2.
    { eapply store_update_lab; [done| |done]. intros d' m' t F. by apply dialogue_update_label in F. }
    destruct ou; injection H as <- <-; split; [done| |done|done|done|done]. by intros [= ->]. }
  rewrite K1, K in Hl. destruct (decide (p = q)) as [->|Hne]; [cbn in Hl; by injection Hl as <-|].
  destruct Hor as [Ho|Ho]; [by destruct (K2 Ho)|done].
Qed.

Lemma create_dialogue_lab_ok c s cp m s1 p : create_dialogue c s cp m = (s1, Ok (Some p)) ->
  lab s1 p = Some (DLabel (m_ref m) cp (c_self c)).
Proof.
  intros H. destruct (lab s1 p) as [l|] eqn:El.
  - by destruct (create_dialogue_ok _ _ _ _ _ _ _ _ H El (or_introl eq_refl)) as [-> _].
  - exfalso. unfold create_dialogue in H. destruct (create_self_initiated _ _ _ _ _) as [sc [q|e|e]]; [|done|done].
    destruct (s_heap sc !! q) as [d|] eqn:Ed; [|done]. destruct (store_update c sc q (dialogue_update d m)) as [su ou] eqn:Eu.
    destruct ou; [|done|done]. injection H as -> ->.
    erewrite store_update_lab in El; [|exact Ed| |exact Eu]; [unfold lab in El; by rewrite Ed in El|].
    intros d' m' t F. by apply dialogue_update_label in F.
Qed.

Lemma complete_relabel c s m s1 o p l l' : complete_dialogue_reference c s m = (s1, o) ->
  lab s p = Some l -> lab s1 p = Some l' -> l' = l \/ l' = DLabel (m_ref m) (m_sender m) (c_self c).
Proof.
  unfold complete_dialogue_reference. destruct (negb _); [intros [= <- _]; left; congruence|].
  destruct (_ && _); [|intros [= <- _]; left; congruence]. destruct (st_get s _) as [q|]; [|intros [= <- _]; left; congruence].
  destruct (s_heap s !! q) as [d|] eqn:Ed; [|intros [= <- _]; left; congruence].
  destruct (st_remove s _) as [sr|e|e] eqn:Er; [|intros [= <- _]; left; congruence|intros [= <- _]; left; congruence].
  apply st_remove_ok in Er as [H1 _].
  destruct (update_dialogue_label d _) as [d'|e|e] eqn:Eu; intros [= <- _]; unfold lab; cbn; rewrite ?H1;
    [|intros; left; congruence|intros; left; congruence].
  unfold update_dialogue_label in Eu. destruct (_ && _); [done|]. injection Eu as <-.
  destruct (decide (p = q)) as [->|Hne].
  - rewrite lookup_insert. cbn. intros _ [= <-]. by right.
  - rewrite lookup_insert_ne by done. intros; left; congruence.
Qed.

Lemma create_fresh c s l role complete s1 q : create c s l role complete = (s1, Ok q) -> q = s_next s.
Proof.
  unfold create, st_is_in_incomplete. destruct (s_incomplete s !! l); [done|].
  destruct (st_is_present _ _); intros [= _ <-]. by destruct complete.
Qed.

(** Which calls change the label of a dialogue, and to what. *)
Lemma relabel c s o s' r p l l' : inv_any c s -> step c s o = (s', r) -> label_evolves l l' -> lab s p = Some l -> lab s' p = Some l' ->
  l' = l \/ exists n m, o = OpUpdate n m /\ l' = DLabel (m_ref m) (m_sender m) (c_self c).
Proof.
  intros Hi Hs Hev Hl Hl'. destruct (decide (l' = l)) as [->|Hne]; [by left|right].
  destruct Hev as [->|(_ & _ & Hresp)]; [done|].
  assert (lab s p <> Some l') as Hch by congruence.
  destruct o as [n cp pf|cp m|n m|q pf tm tp]; cbn [step] in Hs.
  - exfalso. unfold api_create in Hs. destruct (create_dialogue c s cp _) as [sc oc] eqn:Ec.
    assert (s' = sc) as -> by (by destruct oc; injection Hs as <- _).
    destruct (create_dialogue_ok _ _ _ _ _ _ _ _ Ec Hl' (or_intror Hch)) as [-> H]. by apply Hresp.
  - exfalso. unfold api_create_with in Hs. unfold set_sender in Hs.
    destruct (bool_decide _); [injection Hs as <- _; congruence|]. unfold set_to in Hs. cbn [m_to] in Hs.
    destruct (bool_decide _); [injection Hs as <- _; congruence|].
    destruct (create_dialogue c s cp _) as [sc oc] eqn:Ec.
    assert (s' = sc) as -> by (by destruct oc; injection Hs as <- _).
    destruct (create_dialogue_ok _ _ _ _ _ _ _ _ Ec Hl' (or_intror Hch)) as [-> H]. by apply Hresp.
  - exists n, m. split; [done|]. unfold api_update in Hs.
    destruct (negb (has_sender m && _)); [injection Hs as <- _; congruence|].
    destruct (negb (has_to m)); [injection Hs as <- _; congruence|].
    destruct (negb (bool_decide (m_to m = c_self c))); [injection Hs as <- _; congruence|]. cbv zeta in Hs.
    destruct (negb _ && _); [rewrite (update_found_lab _ _ _ _ _ _ _ Hs) in Hl'; congruence|].
    destruct (_ && _ && (m_id m =? _)).
    { unfold create_opponent_initiated in Hs. destruct (negb _); [injection Hs as <- _; congruence|].
      destruct (create c s _ _ _) as [sc oc] eqn:Ec. pose proof (create_lab _ _ _ _ _ _ _ p Ec) as K.
      destruct oc as [q|e|e]; [|injection Hs as <- _; congruence|injection Hs as <- _; congruence].
      destruct K as [_ K]. rewrite (update_found_lab _ _ _ _ _ _ _ Hs), K in Hl'.
      destruct (decide (p = q)) as [->|Hn]; [|congruence]. apply create_fresh in Ec as ->.
      unfold lab in Hl. by rewrite (ia_fresh _ _ Hi) in Hl. }
    destruct (_ && _); [rewrite (update_found_lab _ _ _ _ _ _ _ Hs) in Hl'; congruence|].
    destruct (complete_dialogue_reference c s m) as [s1 oc] eqn:Ec.
    assert (lab s1 p = Some l') as Hl1.
    { destruct oc; [by rewrite <- (update_found_lab _ _ _ _ _ _ _ Hs)|by injection Hs as -> _|by injection Hs as -> _]. }
    by destruct (complete_relabel _ _ _ _ _ _ _ _ Ec Hl Hl1).
  - exfalso. unfold api_reply in Hs. destruct (s_heap s !! q) as [d|] eqn:Ed; [|injection Hs as <- _; congruence].
    destruct (store_update c s q _) as [su ou] eqn:Eu.
    assert (lab su p = lab s p) as K.
    { eapply store_update_lab; [done| |done]. intros d' m' t H. by apply dialogue_reply_label in H. }
    assert (s' = su) as -> by (by destruct ou; injection Hs as <- _). congruence.
Qed.

Lemma lab_evolves c s o s' r p l : inv_any c s -> step c s o = (s', r) -> is_panic r = false -> lab s p = Some l ->
  exists l', lab s' p = Some l' /\ label_evolves l l'.
Proof.
  intros Hi Hs Hp Hl. destruct (step_any c s o s' r Hi Hs Hp) as (_ & g & Hef & _).
  unfold lab in Hl. destruct (s_heap s !! p) as [d|] eqn:Ed; [|done]. injection Hl as <-.
  destruct (ef_old _ _ _ _ _ Hef p d Ed) as (d' & Hd' & _ & Hlev & _). exists (d_label d'). unfold lab. by rewrite Hd'.
Qed.

(** * Labels over an execution *)

(** The label of a dialogue the agent started is completed from a message of the peer; that of another one is complete at once. *)
Lemma label_source c tr s : exec c tr s -> (forall n m r, In (OpUpdate n m, r) tr -> n <> "") ->
  forall p l, lab s p = Some l ->
    (lb_starter l <> c_self c -> responder_ref (lb_ref l) <> "") /\
    (lb_starter l = c_self c -> responder_ref (lb_ref l) <> "" ->
       exists m, In m (received (lb_opponent l) tr) /\ m_ref m = lb_ref l).
Proof.
  induction 1 as [|tr s o s' r He IH Hs Hp]; intros Hn p l'.
  { unfold lab. cbn. by rewrite lookup_empty. }
  assert (forall n m r, In (OpUpdate n m, r) tr -> n <> "") as Hn0.
  { intros n m r' Hin. apply (Hn n m r'), in_app_iff. by left. }
  specialize (IH Hn0). intros Hl'.
  assert (inv_any c s) as Hi by (apply reachable_any_inv; by eapply exec_reachable).
  assert (forall x m, In m (received x tr) -> In m (received x (tr ++ [(o, r)]))) as Hrec.
  { intros x m Hin. unfold received. rewrite omap_app. apply in_app_iff. by left. }
  destruct (lab s p) as [l|] eqn:El.
  - destruct (lab_evolves c s o s' r p l Hi Hs Hp El) as (l1 & Hl1 & Hev). assert (l1 = l') as -> by congruence.
    destruct (relabel c s o s' r p l l' Hi Hs Hev El Hl') as [->|(n & m & -> & ->)].
    + destruct (IH p l El) as [I1 I2]. split; [done|]. intros H1 H2. destruct (I2 H1 H2) as (m & Hm & Hr). eauto.
    + cbn. split; [done|]. intros _ _. exists m. split; [|done]. unfold received. rewrite omap_app. apply in_app_iff. right. cbn.
      rewrite bool_decide_true by done. by left.
  - pose proof (born c s o s' r p l' Hs El Hl') as B. destruct o as [n cp pf|cp m|n m|q pf tm tp]; [| | |done].
    + subst l'. cbn. by split.
    + assert (responder_ref (m_ref m) = "") as Hr; [|subst l'; cbn; by rewrite Hr].
      cbn in Hs. unfold api_create_with in Hs. unfold set_sender in Hs.
      destruct (bool_decide _); [injection Hs as <- _; congruence|]. unfold set_to in Hs. cbn [m_to] in Hs.
      destruct (bool_decide _); [injection Hs as <- _; congruence|].
      destruct (create_dialogue c s cp _) as [sc oc] eqn:Ec.
      assert (s' = sc) as -> by (by destruct oc; injection Hs as <- _).
      by destruct (create_dialogue_ok _ _ _ _ _ _ _ l' Ec Hl') as [_ Hr]; [right; congruence|].
    + destruct B as (-> & ((B1 & B2 & B3) & _) & _). cbn. split; [|congruence]. intros _.
      apply (Hn n m r), in_app_iff. right. by left.
Qed.

Lemma exec_split_evolves c tr s : exec c tr s -> forall t1 o r t2, tr = t1 ++ (o, r) :: t2 ->
  exists s1 s2, exec c t1 s1 /\ step c s1 o = (s2, r) /\ is_panic r = false /\
    forall p l, lab s2 p = Some l -> exists l', lab s p = Some l' /\ label_evolves l l'.
Proof.
  induction 1 as [|tr s o s' r He IH Hs Hp]; intros t1 o1 r1 t2 E; [by destruct t1|].
  destruct t2 as [|x t2 _] using rev_ind.
  - apply app_inj_tail in E as [-> E]. injection E as <- <-. exists s, s'. split; [done|]. split; [done|]. split; [done|].
    intros p l Hl. exists l. split; [done|by left].
  - rewrite app_comm_cons, app_assoc in E. apply app_inj_tail in E as [-> <-].
    destruct (IH t1 o1 r1 t2 eq_refl) as (s1 & s2 & A & B & C & D). exists s1, s2. split; [done|]. split; [done|]. split; [done|].
    intros p l Hl. destruct (D p l Hl) as (l1 & Hl1 & Hc1).
    destruct (lab_evolves c s o s' r p l1) as (l2 & Hl2 & Hc2); [|done|done|done|].
    { apply reachable_any_inv. by eapply exec_reachable. }
    exists l2. split; [done|]. by eapply label_evolves_trans.
Qed.

(** What is sent in a dialogue the peer started carries its reference. *)
Lemma reply_ref c tr s p d m : exec c tr s -> (forall n m r, In (OpUpdate n m, r) tr -> n <> "") ->
  s_heap s !! p = Some d -> lb_starter (d_label d) <> c_self c -> In m (d_out d) -> m_ref m = lb_ref (d_label d).
Proof.
  intros He Hn Hd Hst Hm. pose proof (transcript_some c tr s p d He Hd) as Hv.
  rewrite (rep_out _ _ (di_rep _ _ _ Hv)) in Hm. apply in_messages in Hm as (h1 & h2 & Eh).
  destruct (transcript_call c p tr _ h1 h2 Eh) as (t1 & o & r & t2 & Et & Es & Eh1).
  destruct (exec_split_evolves c tr s He _ _ _ _ Et) as (s1 & s2 & H1 & H2 & H3 & H4).
  assert (forall l, lab s2 p = Some l -> lb_starter l <> c_self c /\ label_evolves l (d_label d)) as Hl.
  { intros l Hl. destruct (H4 p l Hl) as (l' & Hl' & Hev). unfold lab in Hl'. rewrite Hd in Hl'. injection Hl' as <-.
    split; [|done]. apply core_evolves in Hev as (_ & _ & Hev). congruence. }
  destruct o as [n cp pf|cp m0|n m0|q pf tm tp].
  - exfalso. destruct r as [[[mo|] [po|]]|e|e]; try done; cbn in Es. injection Es as -> ->.
    cbn in H2. unfold api_create in H2. destruct (create_dialogue c s1 cp _) as [sc oc] eqn:Ec.
    destruct oc as [dd|e|e]; [|done|done]. injection H2 as -> _ ->.
    pose proof (create_dialogue_lab_ok _ _ _ _ _ _ Ec) as Hk. by destruct (Hl _ Hk).
  - exfalso. destruct r as [[mo [po|]]|e|e]; try done. cbn in Es. injection Es as -> _.
    cbn in H2. unfold api_create_with in H2. unfold set_sender in H2.
    destruct (bool_decide _); [done|]. unfold set_to in H2. cbn [m_to] in H2. destruct (bool_decide _); [done|].
    destruct (create_dialogue c s1 cp _) as [sc oc] eqn:Ec.
    destruct oc as [dd|e|e]; [|done|done]. injection H2 as -> _ ->.
    pose proof (create_dialogue_lab_ok _ _ _ _ _ _ Ec) as Hk. by destruct (Hl _ Hk).
  - destruct r as [[mo [po|]]|e|e]; done.
  - destruct r as [[[mo|] [po|]]|e|e]; try done; cbn in Es. injection Es as -> ->.
    cbn in H2. unfold api_reply in H2. destruct (s_heap s1 !! q) as [d1|] eqn:E1; [|done].
    destruct (store_update c s1 q (dialogue_reply d1 pf tm tp)) as [su ou] eqn:Eu.
    destruct ou as [m1|e|e]; [|done|done]. injection H2 as -> -> ->.
    assert (lab s2 p = Some (d_label d1)) as Hlab.
    { erewrite store_update_lab; [unfold lab; by rewrite E1|exact E1| |exact Eu]. intros d' m' t H. by apply dialogue_reply_label in H. }
    assert (m_ref m = lb_ref (d_label d1)) as ->.
    { unfold store_update in Eu. destruct (dialogue_reply d1 pf tm tp) as [[[d' m'] t]|e|e] eqn:Er; [|done|done].
      assert (m' = m) as ->. { destruct t; [destruct (run_callbacks _ _ _ _)|]; by injection Eu. }
      clear -Er. unfold dialogue_reply in Er. destruct (last_message d1); [|done]. apply rbind_ok in Er as (ch & _ & Er).
      destruct ch.1; [|done]. apply rbind_ok in Er as (f & _ & Er). destruct (negb f); [done|].
      unfold dialogue_update in Er. destruct (negb _); [done|]. apply rbind_ok in Er as (x & _ & Er). injection Er as _ Em _. subst m. unfold fill_sender, set_sender. by repeat destruct (bool_decide _) || destruct (has_sender _). }
    destruct (Hl _ Hlab) as [Hst1 [->|(_ & Hr & _)]]; [done|].
    destruct (label_source c t1 s1 H1) with (p := p) (l := d_label d1) as [K _].
    { intros n m' r' Hin. apply (Hn n m' r'). rewrite Et. apply in_app_iff. by left. }
    { unfold lab. by rewrite E1. }
    by destruct (K Hst1).
Qed.

(** * Agreement *)

Lemma reference_started ca cb trA sA trB sB pA dA pB dB :
  exec_clean ca trA sA -> exec_clean cb trB sB -> proper trA -> proper trB -> c_self ca <> c_self cb ->
  (forall x, In x (created trA) -> ~ In x (created trB)) ->
  (forall m, In m (received (c_self cb) trA) -> In m (sent cb (c_self ca) trB)) ->
  s_heap sA !! pA = Some dA -> s_heap sB !! pB = Some dB ->
  lb_opponent (d_label dA) = c_self cb -> lb_opponent (d_label dB) = c_self ca ->
  starter_ref (lb_ref (d_label dA)) = starter_ref (lb_ref (d_label dB)) -> lb_starter (d_label dA) = lb_starter (d_label dB) ->
  lb_starter (d_label dA) = c_self ca -> responder_ref (lb_ref (d_label dA)) <> "" ->
  lb_ref (d_label dA) = lb_ref (d_label dB).
Proof.
  intros HA HB PA PB Hab Hdis Hch HdA HdB OA OB Hr Hs Hst Hne.
  pose proof (clean_exec _ _ _ HA) as HA'. pose proof (clean_exec _ _ _ HB) as HB'.
  assert (lab sA pA = Some (d_label dA)) as LA by (unfold lab; by rewrite HdA).
  assert (lab sB pB = Some (d_label dB)) as LB by (unfold lab; by rewrite HdB).
  destruct (label_source ca trA sA HA' (proj2 PA) pA _ LA) as [_ K]. destruct (K Hst Hne) as (m & Hm & Em). rewrite OA in Hm.
  pose proof (Hch m Hm) as Hm0. unfold sent in Hm0. apply elem_of_list_In, elem_of_list_omap in Hm0 as ([o r] & Ho & Hm0). cbn in Hm0.
  destruct (said cb o r) as [[p [[] m']]|] eqn:Es; [|done|done].
  destruct (bool_decide (m_to m' = c_self ca)) eqn:Eto; [|done]. injection Hm0 as ->. apply bool_decide_eq_true in Eto.
  apply elem_of_list_In in Ho. destruct (said_dialogue cb trB sB o r p _ HB' Ho Es) as (d & Hd & HmB). cbn in HmB.
  pose proof (transcript_some cb trB sB p d HB' Hd) as Hv.
  assert (lb_opponent (d_label d) = c_self ca) as Hop.
  { pose proof HmB as HmB'. rewrite (rep_out _ _ (di_rep _ _ _ Hv)) in HmB'. apply in_messages in HmB' as (h1 & h2 & Eh).
    destruct (di_conv _ _ _ Hv h1 (Entry Me m) h2 Eh) as ([_ Ha] & _). cbn in Ha. unfold other in Ha. congruence. }
  destruct (out_key cb trB sB p d m HB' Hd ltac:(congruence) HmB) as (_ & B2 & _).
  assert (lab sB p = Some (d_label d)) as L by (unfold lab; by rewrite Hd).
  pose proof (settled_exec _ _ _ HA PA) as SA. pose proof (settled_exec _ _ _ HB PB) as SB.
  assert (lb_starter (d_label d) = c_self ca) as Hsd.
  { destruct (di_label _ _ _ Hv) as [M1|[M1 M2]]; [|congruence]. exfalso.
    apply (Hdis (starter_ref (lb_ref (d_label dA)))).
    - apply elem_of_list_In. by apply (se_own _ _ _ SA pA).
    - apply elem_of_list_In. rewrite <- Em, B2. by apply (se_own _ _ _ SB p). }
  assert (p = pB) as ->.
  { apply (se_one _ _ _ SB p pB _ _ L LB). repeat split; congruence. }
  assert (d = dB) as -> by congruence.
  rewrite <- Em. eapply reply_ref; [exact HB'|exact (proj2 PB)|done|congruence|done].
Qed.

(** Agents [a] and [b] work on their dialogues in any order and use different references for the dialogues they start. What each is
    given from the other was sent by it; messages may be lost, repeated and reordered. Then the labels of a dialogue at both ends have
    the same reference once both are complete. *)
Theorem C94_reference ca cb trA sA trB sB pA dA pB dB :
  exec_clean ca trA sA -> exec_clean cb trB sB -> proper trA -> proper trB -> c_self ca <> c_self cb ->
  (forall x, In x (created trA) -> ~ In x (created trB)) ->
  (forall m, In m (received (c_self cb) trA) -> In m (sent cb (c_self ca) trB)) ->
  (forall m, In m (received (c_self ca) trB) -> In m (sent ca (c_self cb) trA)) ->
  s_heap sA !! pA = Some dA -> s_heap sB !! pB = Some dB ->
  lb_opponent (d_label dA) = c_self cb -> lb_opponent (d_label dB) = c_self ca ->
  starter_ref (lb_ref (d_label dA)) = starter_ref (lb_ref (d_label dB)) -> lb_starter (d_label dA) = lb_starter (d_label dB) ->
  responder_ref (lb_ref (d_label dA)) <> "" -> responder_ref (lb_ref (d_label dB)) <> "" ->
  lb_ref (d_label dA) = lb_ref (d_label dB).
Proof.
  intros HA HB PA PB Hab Hdis HchA HchB HdA HdB OA OB Hr Hs NA NB.
  pose proof (transcript_some ca trA sA pA dA (clean_exec _ _ _ HA) HdA) as Hv.
  destruct (di_label _ _ _ Hv) as [L|[L _]].
  - eapply (reference_started ca cb); eauto.
  - symmetry. eapply (reference_started cb ca); eauto; [naive_solver|congruence].
Qed.
Print Assumptions C94_reference.

(** Both agents start a dialogue with each other under the same reference. *)
Definition clash_a : list op :=
  [OpCreate "x" "b" "open"; OpUpdate "n" (Msg "a" "b" (DRef "x" "") 1 0 "open"); OpReply 1%nat "say" None None;
   OpUpdate "z" (Msg "a" "b" (DRef "x" "n") 2 (-1) "say")].
Definition clash_b : list op :=
  [OpUpdate "y" (Msg "b" "a" (DRef "x" "") 1 0 "open"); OpCreate "x" "a" "open";
   OpUpdate "z" (Msg "b" "a" (DRef "x" "n") (-1) 1 "say"); OpReply 1%nat "say" None None].

(** Without different references the labels can differ, though nothing is lost, repeated or reordered: a message in the one dialogue
    completes the label of the other. *)
Theorem C94_reference_refuted :
  ~ (forall ca cb trA sA trB sB pA dA pB dB,
       exec_clean ca trA sA -> exec_clean cb trB sB -> proper trA -> proper trB -> c_self ca <> c_self cb ->
       received (c_self cb) trA = sent cb (c_self ca) trB -> received (c_self ca) trB = sent ca (c_self cb) trA ->
       s_heap sA !! pA = Some dA -> s_heap sB !! pB = Some dB ->
       lb_opponent (d_label dA) = c_self cb -> lb_opponent (d_label dB) = c_self ca ->
       starter_ref (lb_ref (d_label dA)) = starter_ref (lb_ref (d_label dB)) -> lb_starter (d_label dA) = lb_starter (d_label dB) ->
       responder_ref (lb_ref (d_label dA)) <> "" -> responder_ref (lb_ref (d_label dB)) <> "" ->
       lb_ref (d_label dA) = lb_ref (d_label dB)).
Proof.
  intros H.
  pose proof (demo_clean (demo "a" false) clash_a eq_refl) as HA. pose proof (demo_clean (demo "b" false) clash_b eq_refl) as HB.
  assert (lb_ref (d_label (dialogue_at (store_of (demo "a" false) clash_a) 0%nat)) =
          lb_ref (d_label (dialogue_at (store_of (demo "b" false) clash_b) 0%nat))) as Hk.
  { apply (H (demo "a" false) (demo "b" false) _ _ _ _ 0%nat _ 0%nat _ HA HB).
    - split; [vm_compute; repeat constructor; set_solver|]. intros n m r Hin. vm_compute in Hin. naive_solver.
    - split; [vm_compute; repeat constructor; set_solver|]. intros n m r Hin. vm_compute in Hin. naive_solver.
    - done.
    - vm_compute. done.
    - vm_compute. done.
    - vm_compute. done.
    - vm_compute. done.
    - vm_compute. done.
    - vm_compute. done.
    - vm_compute. done.
    - vm_compute. done.
    - vm_compute. done.
    - vm_compute. done. }
  vm_compute in Hk. discriminate Hk.
Qed.
Print Assumptions C94_reference_refuted.

(** Both ends of the dialogue of the runs of [C94_prefix_refuted]. *)
Example C94_reference_example :
  exec_clean (demo "a" false) (trace_of (demo "a" false) agree_a) (store_of (demo "a" false) agree_a) /\
  exec_clean (demo "b" false) (trace_of (demo "b" false) agree_b) (store_of (demo "b" false) agree_b) /\
  created (trace_of (demo "a" false) agree_a) = ["x"] /\ created (trace_of (demo "b" false) agree_b) = [] /\
  received "b" (trace_of (demo "a" false) agree_a) = sent (demo "b" false) "a" (trace_of (demo "b" false) agree_b) /\
  received "a" (trace_of (demo "b" false) agree_b) = take 1 (sent (demo "a" false) "b" (trace_of (demo "a" false) agree_a)) /\
  d_label (dialogue_at (store_of (demo "a" false) agree_a) 0%nat) = DLabel (DRef "x" "y") "b" "a" /\
  d_label (dialogue_at (store_of (demo "b" false) agree_b) 0%nat) = DLabel (DRef "x" "y") "a" "a".
Proof.
  split; [by apply demo_clean|]. split; [by apply demo_clean|].
  repeat (split; [vm_compute; reflexivity|]). vm_compute. reflexivity.
Qed.
