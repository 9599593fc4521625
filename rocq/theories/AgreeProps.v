(** Two agents that talk to each other: what each holds of the other's messages (C94). *)
From Coq Require Import ZArith List String Lia.
From stdpp Require Import base tactics gmap strings list.
From Verif Require Import GoBase SetModel DialogueModel StoreModel DialogueSpec DialogueDemo
  DialogueProofs StoreProofs StoreInv TraceProofs DialogueLemmas StoreLemmas.
Open Scope string_scope.
Open Scope list_scope.
Open Scope Z_scope.

(** * What the agents see of each other *)

(** The messages for agent [x] that the calls made with success, oldest first. *)
Definition sent (c : config) (x : address) (tr : list (op * res out)) : list message :=
  omap (fun or => match said c or.1 or.2 with
                  | Some (_, Entry Me m) => if bool_decide (m_to m = x) then Some m else None
                  | _ => None
                  end) tr.
(** The messages from agent [x] given to Update, accepted or not, oldest first. *)
Definition received (x : address) (tr : list (op * res out)) : list message :=
  omap (fun or => match or.1 with
                  | OpUpdate _ m => if bool_decide (m_sender m = x) then Some m else None
                  | _ => None
                  end) tr.
(** The references of the dialogues the agent tried to start. *)
Definition created (tr : list (op * res out)) : list string :=
  omap (fun or => match or.1 with
                  | OpCreate n _ _ => Some n
                  | OpCreateWith _ m => Some (starter_ref (m_ref m))
                  | _ => None
                  end) tr.
(** The random references are what they should be: no reference is used for two dialogues, none is empty. *)
Definition proper (tr : list (op * res out)) : Prop :=
  NoDup (created tr) /\ forall n m r, In (OpUpdate n m, r) tr -> n <> "".

(** * Labels of the dialogues in the heap *)

Definition lab (s : store) (p : ptr) : option dlabel := d_label <$> s_heap s !! p.

Lemma dialogue_update_label d m d' m' t : dialogue_update d m = Ok (d', m', t) -> d_label d' = d_label d.
Proof.
  unfold dialogue_update. destruct (negb _); [done|]. intros H. apply rbind_ok in H as (x & _ & H). by injection H as <- _ _.
Qed.
Lemma dialogue_reply_label d p tm tp d' m t : dialogue_reply d p tm tp = Ok (d', m, t) -> d_label d' = d_label d.
Proof.
  unfold dialogue_reply. destruct (last_message d); [|done]. intros H. apply rbind_ok in H as (ch & _ & H).
  destruct ch.1; [|done]. apply rbind_ok in H as (f & _ & H). destruct (negb f); [done|]. by apply dialogue_update_label in H.
Qed.

Lemma store_update_lab c s p d rr s1 o :
  s_heap s !! p = Some d -> (forall d' m t, rr = Ok (d', m, t) -> d_label d' = d_label d) ->
  store_update c s p rr = (s1, o) -> forall q, lab s1 q = lab s q.
Proof.
  intros Hp Hl. unfold store_update. destruct rr as [[[d' m] t]|e|e]; [|by intros [= <- _]|by intros [= <- _] ].
  assert (forall q, lab (set_dialogue s p d') q = lab s q) as K.
  { intros q. unfold lab, set_dialogue. cbn. destruct (decide (q = p)) as [->|Hne].
    - rewrite lookup_insert, Hp. cbn. f_equal. by eapply Hl.
    - by rewrite lookup_insert_ne. }
  destruct t; [|intros [= <- _]; exact K].
  destruct (run_callbacks _ _ _ _) as [s2|e|e] eqn:E; intros [= <- _]; [|exact K|exact K].
  apply run_callbacks_heap in E as [H1 _]. intros q. unfold lab. rewrite H1. apply K.
Qed.

Lemma update_found_lab c s m b found s1 r : update_found c s m b found = (s1, r) -> forall q, lab s1 q = lab s q.
Proof.
  unfold update_found. destruct found as [p|]; [|by intros [= <- _] ].
  destruct (s_heap s !! p) as [d|] eqn:Ed; [|by intros [= <- _] ].
  destruct (store_update c s p (dialogue_update d m)) as [su ou] eqn:Eu.
  assert (forall q, lab su q = lab s q) as K.
  { eapply store_update_lab; [done| |done]. intros d' m' t H. by apply dialogue_update_label in H. }
  destruct ou as [m'|e|e]; [by intros [= <- _]| |by intros [= <- _] ].
  destruct b; [|by intros [= <- _] ].
  destruct (st_remove su (d_label d)) as [s2|e'|e'] eqn:Er; intros [= <- _]; [|exact K|exact K].
  apply st_remove_ok in Er as [H1 _]. intros q. unfold lab. rewrite H1. apply K.
Qed.
Lemma update_found_ptr c s m b found s1 om p : update_found c s m b found = (s1, Ok (om, Some p)) -> found = Some p.
Proof.
  unfold update_found. destruct found as [q|]; [|done]. destruct (s_heap s !! q); [|done].
  destruct (store_update _ _ _ _) as [su [m'|e|e]]; [by intros [= _ _ <-]| |done].
  destruct b; [|done]. by destruct (st_remove _ _).
Qed.

Lemma create_lab c s l role complete s1 o q : create c s l role complete = (s1, o) ->
  match o with
  | Ok p => s_incomplete s !! l = None /\ lab s1 q = if decide (q = p) then Some (default l complete) else lab s q
  | _ => lab s1 q = lab s q
  end.
Proof.
  unfold create, st_is_in_incomplete. destruct (s_incomplete s !! l) eqn:Ei; [by intros [= <- <-]|].
  set (s0 := match complete with None => s | Some l0 => st_set_incomplete s l l0 end).
  assert (s_heap s0 = s_heap s) as H0 by (by destruct complete).
  destruct (st_is_present s0 _); intros [= <- <-]; [unfold lab; by rewrite H0|]. split; [done|].
  unfold lab. cbn. rewrite H0. destruct (decide (q = s_next s0)) as [->|Hne].
  - rewrite lookup_insert. cbn. by destruct complete.
  - by rewrite lookup_insert_ne.
Qed.

Lemma create_dialogue_lab c s cp m s1 o p l :
  create_dialogue c s cp m = (s1, o) -> lab s p = None -> lab s1 p = Some l -> l = DLabel (m_ref m) cp (c_self c).
Proof.
  intros H Hn. unfold create_dialogue, create_self_initiated in H. destruct (negb _) eqn:E1; [injection H as <- _; congruence|].
  destruct (create c s (DLabel (m_ref m) cp (c_self c)) (c_role c m (c_self c)) None) as [sc oc] eqn:Ec. pose proof (create_lab _ _ _ _ _ _ _ p Ec) as K.
  destruct oc as [q|e|e]; [|injection H as <- _; congruence|injection H as <- _; congruence].
  destruct K as [_ K].
  assert (forall p, lab s1 p = lab sc p) as K1.
  { destruct (s_heap sc !! q) as [d|] eqn:Ed; [|by injection H as <- _].
    destruct (store_update c sc q (dialogue_update d m)) as [su ou] eqn:Eu.
    assert (forall q, lab su q = lab sc q) as K2.
    { eapply store_update_lab; [done| |done]. intros d' m' t F. by apply dialogue_update_label in F. }
    by destruct ou; injection H as <- _. }
  rewrite K1, K. destruct (decide (p = q)); [|by rewrite Hn]. cbn. congruence.
Qed.

Lemma complete_lab c s m s1 o p : complete_dialogue_reference c s m = (s1, o) -> lab s p = None -> lab s1 p = None.
Proof.
  unfold complete_dialogue_reference. destruct (negb _); [by intros [= <- _]|].
  destruct (_ && _); [|by intros [= <- _] ]. destruct (st_get s _) as [q|]; [|by intros [= <- _] ].
  destruct (s_heap s !! q) as [d|] eqn:Ed; [|by intros [= <- _] ].
  destruct (st_remove s _) as [sr|e|e] eqn:Er; [|by intros [= <- _]|by intros [= <- _] ].
  apply st_remove_ok in Er as [H1 _].
  destruct (update_dialogue_label d _) as [d'|e|e]; intros [= <- _] Hn; [|unfold lab; by rewrite H1|unfold lab; by rewrite H1].
  unfold lab in *. cbn. rewrite lookup_insert_ne; [by rewrite H1|]. intros ->. by rewrite Ed in Hn.
Qed.

(** An opening as the peer has to send it. *)
Definition opening (c : config) (m : message) : Prop :=
  from_other c m /\ starter_ref (m_ref m) <> "" /\ responder_ref (m_ref m) = "" /\ m_id m = 1.

Lemma update_not_opening c s n m s' r : ~ opening c m -> api_update c s n m = (s', r) ->
  (forall p, lab s p = None -> lab s' p = None) /\
  (m_id m = 1 -> responder_ref (m_ref m) = "" -> forall om p, r <> Ok (om, Some p)).
Proof.
  intros Ho. unfold api_update.
  destruct (negb (has_sender m && negb (ds_is_by_self c m))) eqn:E1; [by intros [= <- <-]|].
  destruct (negb (has_to m)) eqn:E2; [by intros [= <- <-]|].
  destruct (negb (bool_decide (m_to m = c_self c))) eqn:E3; [by intros [= <- <-]|].
  apply negb_false_iff, andb_true_iff in E1 as [E1 E4]. apply bool_decide_eq_true in E1.
  apply negb_true_iff, bool_decide_eq_false in E4. apply negb_false_iff, bool_decide_eq_true in E3.
  unfold unassigned, starting_message_id, starting_target.
  destruct (decide (starter_ref (m_ref m) = "")) as [Hs|Hs], (decide (responder_ref (m_ref m) = "")) as [Hr|Hr];
    rewrite ?(bool_decide_eq_true_2 (starter_ref (m_ref m) <> "")) by done;
    rewrite ?(bool_decide_eq_true_2 (responder_ref (m_ref m) <> "")) by done;
    rewrite ?(bool_decide_eq_false_2 (starter_ref (m_ref m) <> "")) by tauto;
    rewrite ?(bool_decide_eq_false_2 (responder_ref (m_ref m) <> "")) by tauto; cbn [negb andb].
  - unfold complete_dialogue_reference. unfold unassigned. rewrite (bool_decide_eq_false_2 (starter_ref (m_ref m) <> "")) by tauto.
    cbn [negb andb]. by intros [= <- <-].
  - cbn [update_found]. by intros [= <- <-].
  - destruct (Z.eqb_spec (m_id m) 1) as [E5|E5]; [exfalso; apply Ho; repeat split; done|]. cbn [negb andb].
    destruct (negb (m_id m =? 0)).
    + intros H. split; [|done]. intros p Hn. by rewrite (update_found_lab _ _ _ _ _ _ _ H).
    + unfold complete_dialogue_reference. unfold unassigned. rewrite (bool_decide_eq_false_2 (responder_ref (m_ref m) <> "")) by tauto.
      rewrite andb_false_r. cbn [negb]. by intros [= <- <-].
  - destruct (complete_dialogue_reference c s m) as [s1 oc] eqn:Ec. intros H. split; [|done]. intros p Hn.
    pose proof (complete_lab _ _ _ _ _ _ Ec Hn) as Hn1.
    destruct oc; [by rewrite (update_found_lab _ _ _ _ _ _ _ H)|by injection H as <- _|by injection H as <- _].
Qed.

(** What a dialogue that is new after a call is called. *)
Lemma born c s o s' r p l : step c s o = (s', r) -> lab s p = None -> lab s' p = Some l ->
  match o with
  | OpCreate n cp _ => l = DLabel (DRef n "") cp (c_self c)
  | OpCreateWith cp m => l = DLabel (m_ref m) cp (c_self c)
  | OpUpdate n m => l = DLabel (DRef (starter_ref (m_ref m)) n) (m_sender m) (m_sender m) /\ opening c m /\
      s_incomplete s !! DLabel (DRef (starter_ref (m_ref m)) "") (m_sender m) (m_sender m) = None
  | OpReply _ _ _ _ => False
  end.
Proof.
  intros Hs Hn Hl. destruct o as [n cp pf|cp m|n m|q pf tm tp]; cbn [step] in Hs.
  - unfold api_create in Hs. destruct (create_dialogue c s cp _) as [sc oc] eqn:Ec.
    assert (s' = sc) as -> by (by destruct oc; injection Hs as <- _). by apply (create_dialogue_lab _ _ _ _ _ _ _ _ Ec Hn) in Hl.
  - unfold api_create_with in Hs. unfold set_sender in Hs.
    destruct (bool_decide _); [injection Hs as <- _; congruence|]. unfold set_to in Hs. cbn [m_to] in Hs.
    destruct (bool_decide _); [injection Hs as <- _; congruence|].
    destruct (create_dialogue c s cp _) as [sc oc] eqn:Ec.
    assert (s' = sc) as -> by (by destruct oc; injection Hs as <- _). by apply (create_dialogue_lab _ _ _ _ _ _ _ _ Ec Hn) in Hl.
  - assert (Decision (opening c m)) as Hdec by (unfold opening, from_other; apply _).
    destruct (decide (opening c m)) as [Ho|Ho].
    2: { apply (update_not_opening _ _ _ _ _ _ Ho) in Hs as [K _]. rewrite (K p Hn) in Hl. done. }
    pose proof Ho as (H1 & H2 & H3 & H4). rewrite api_update_opening in Hs by done.
    destruct (create c s _ _ _) as [sc oc] eqn:Ec. pose proof (create_lab _ _ _ _ _ _ _ p Ec) as K.
    destruct oc as [q|e|e]; [|injection Hs as <- _; congruence|injection Hs as <- _; congruence].
    destruct K as [K1 K]. rewrite (update_found_lab _ _ _ _ _ _ _ Hs), K in Hl.
    destruct (decide (p = q)); [|congruence]. cbn in Hl. injection Hl as <-. done.
  - unfold api_reply in Hs. destruct (s_heap s !! q) as [d|] eqn:Ed; [|injection Hs as <- _; congruence].
    destruct (store_update c s q _) as [su ou] eqn:Eu.
    assert (lab su p = lab s p) as K.
    { eapply store_update_lab; [done| |done]. intros d' m' t H. by apply dialogue_reply_label in H. }
    assert (s' = su) as -> by (by destruct ou; injection Hs as <- _). congruence.
Qed.

(** The dialogue into which an opening is accepted. *)
Lemma opened c s n m s' om p : api_update c s n m = (s', Ok (om, Some p)) -> m_id m = 1 -> responder_ref (m_ref m) = "" ->
  opening c m /\ lab s' p = Some (DLabel (DRef (starter_ref (m_ref m)) n) (m_sender m) (m_sender m)).
Proof.
  intros Hs Hid Hr. assert (Decision (opening c m)) as Hdec by (unfold opening, from_other; apply _).
  destruct (decide (opening c m)) as [Ho|Ho].
  2: { apply (update_not_opening _ _ _ _ _ _ Ho) in Hs as [_ K]. by destruct (K Hid Hr om p). }
  split; [done|]. pose proof Ho as (H1 & H2 & H3 & H4). rewrite api_update_opening in Hs by done.
  destruct (create c s _ _ _) as [sc oc] eqn:Ec. pose proof (create_lab _ _ _ _ _ _ _ p Ec) as K.
  destruct oc as [q|e|e]; [|done|done]. destruct K as [_ K].
  pose proof (update_found_ptr _ _ _ _ _ _ _ _ Hs) as Hq. injection Hq as ->.
  rewrite (update_found_lab _ _ _ _ _ _ _ Hs), K. by rewrite decide_True.
Qed.

(** * No two dialogues for one reference *)

Lemma created_app tr1 tr2 : created (tr1 ++ tr2) = created tr1 ++ created tr2.
Proof. apply omap_app. Qed.

Lemma proper_prefix tr x : proper (tr ++ [x]) -> proper tr.
Proof.
  intros [H1 H2]. split.
  - rewrite created_app in H1. by apply NoDup_app in H1 as [H1 _].
  - intros n m r Hin. apply (H2 n m r). apply in_app_iff. by left.
Qed.

Lemma core_evolves l l' : label_evolves l l' -> same_core l l'.
Proof. intros [->|[H _] ]; [done|exact H]. Qed.

Record settled (c : config) (tr : list (op * res out)) (s : store) : Prop := {
  se_peer : forall p l, lab s p = Some l -> lb_starter l <> c_self c -> exists v,
    s_incomplete s !! DLabel (DRef (starter_ref (lb_ref l)) "") (lb_opponent l) (lb_starter l) = Some v /\ responder_ref (lb_ref v) <> "";
  se_own : forall p l, lab s p = Some l -> lb_starter l = c_self c -> starter_ref (lb_ref l) ∈ created tr;
  se_one : forall p p' l l', lab s p = Some l -> lab s p' = Some l' -> same_core l l' -> p = p' }.

Lemma settled_exec c tr s : exec_clean c tr s -> proper tr -> settled c tr s.
Proof.
  induction 1 as [|tr s o s' r He IH Hrs Hs Hp]; intros Hpr.
  { split; intros p *; unfold lab; cbn; rewrite lookup_empty; done. }
  specialize (IH (proper_prefix _ _ Hpr)). destruct IH as [I1 I2 I3].
  pose proof (reachable_inv c s (clean_reachable c tr s He)) as Hi.
  destruct (step_any c s o s' r (iv_any c s Hi) Hs Hp) as (_ & g & Hef & _).
  destruct (evo_step c s o s' r Hi Hrs Hs Hp) as (g' & Hev & _).
  assert (forall p l', lab s' p = Some l' -> (exists l, lab s p = Some l /\ same_core l l') \/ lab s p = None) as Old.
  { intros p l' Hl. destruct (lab s p) as [l|] eqn:El; [left|by right]. exists l. split; [done|].
    unfold lab in El, Hl. destruct (s_heap s !! p) as [d|] eqn:Ed; [|done]. cbn in El. injection El as <-.
    destruct (ef_old _ _ _ _ _ Hef p d Ed) as (d' & Hd' & _ & Hlev & _). rewrite Hd' in Hl. cbn in Hl. injection Hl as <-.
    by apply core_evolves. }
  destruct Hpr as [Hnd Hne]. rewrite created_app in Hnd.
  split.
  - intros p l' Hl Hst. destruct (Old p l' Hl) as [(l & El & Hc1 & Hc2 & Hc3)|Hn].
    + rewrite <- Hc1, <- Hc2, <- Hc3. destruct (I1 p l El) as (v & Hv & Hvr); [congruence|]. exists v. split; [|done].
      by apply (ev_persist _ _ _ _ Hev).
    + pose proof (born c s o s' r p l' Hs Hn Hl) as B. destruct o as [n cp pf|cp m|n m|q pf tm tp]; [by subst l'|by subst l'| |done].
      destruct B as (-> & (B1 & B2 & B3 & B4) & B5). cbn in *.
      assert (n <> "") as Hnn by (apply (Hne n m r), in_app_iff; right; by left).
      destruct (opening_remembered c s n m s' r Hi B1 B2 B3 B4 Hnn Hs Hp) as [(v & Hv & _)|Hv]; [congruence|].
      eexists. split; [exact Hv|]. done.
  - intros p l' Hl Hst. rewrite created_app. apply elem_of_app. destruct (Old p l' Hl) as [(l & El & Hc1 & Hc2 & Hc3)|Hn].
    + left. rewrite <- Hc1. apply (I2 p l El). congruence.
    + right. pose proof (born c s o s' r p l' Hs Hn Hl) as B. destruct o as [n cp pf|cp m|n m|q pf tm tp]; [| | |done].
      * subst l'. cbn. by apply elem_of_list_singleton.
      * subst l'. cbn. by apply elem_of_list_singleton.
      * destruct B as (-> & ((B1 & B2 & B3) & _) & _). cbn in Hst. congruence.
  - assert (forall p p' l l', lab s p = Some l -> lab s p' = None -> lab s' p' = Some l' -> same_core l l' -> False) as K.
    { intros p p' l l' Hl Hn Hl' (C1 & C2 & C3). pose proof (born c s o s' r p' l' Hs Hn Hl') as B.
      destruct o as [n cp pf|cp m|n m|q pf tm tp]; [| | |done].
      - subst l'. cbn in *. pose proof (I2 p l Hl C3) as Hin. apply NoDup_app in Hnd as (_ & Hnd & _).
        apply (Hnd _ Hin). rewrite C1. cbn. by apply elem_of_list_singleton.
      - subst l'. cbn in *. pose proof (I2 p l Hl C3) as Hin. apply NoDup_app in Hnd as (_ & Hnd & _).
        apply (Hnd _ Hin). rewrite C1. cbn. by apply elem_of_list_singleton.
      - destruct B as (-> & ((B1 & B2 & B3) & _) & B5). cbn in *. destruct (I1 p l Hl) as (v & Hv & _); [congruence|].
        rewrite C1, C2, C3 in Hv. congruence. }
    intros p p' l l' Hl Hl' Hc.
    destruct (Old p l Hl) as [(l0 & E0 & Hc0)|Hn], (Old p' l' Hl') as [(l1 & E1 & Hc1)|Hn'].
    + apply (I3 p p' l0 l1 E0 E1). destruct Hc as (?&?&?), Hc0 as (?&?&?), Hc1 as (?&?&?). repeat split; congruence.
    + exfalso. apply (K p p' l0 l' E0 Hn' Hl'). destruct Hc as (?&?&?), Hc0 as (?&?&?). repeat split; congruence.
    + exfalso. apply (K p' p l1 l E1 Hn Hl). destruct Hc as (?&?&?), Hc1 as (?&?&?). repeat split; congruence.
    + unfold lab in Hn, Hn', Hl, Hl'.
      destruct (s_heap s !! p) eqn:F1; [done|]. destruct (s_heap s !! p') eqn:F2; [done|].
      destruct (s_heap s' !! p) eqn:F3; [|done]. destruct (s_heap s' !! p') eqn:F4; [|done].
      destruct (ef_new _ _ _ _ _ Hef p _ F1 F3) as [-> _]. by destruct (ef_new _ _ _ _ _ Hef p' _ F2 F4) as [-> _].
Qed.

(** * The messages of one dialogue *)

(** The message belongs to the dialogue with starter reference [r], sent by the party that started it or by the other one. *)
Definition of_dialogue (r : string) (by_starter : bool) (m : message) : Prop :=
  starter_ref (m_ref m) = r /\ (0 < m_id m <-> by_starter = true).
Global Instance of_dialogue_dec r b m : Decision (of_dialogue r b m).
Proof. unfold of_dialogue. apply _. Qed.

Lemma in_messages p h m : In m (messages_of p h) -> exists h1 h2, h = h1 ++ Entry p m :: h2.
Proof.
  unfold messages_of. intros H. apply in_map_iff in H as ([q m'] & <- & H). apply filter_In in H as [H Hq].
  apply bool_decide_eq_true in Hq. cbn in *. subst q. by apply in_split in H.
Qed.

Lemma out_key c tr s p d m : exec c tr s -> s_heap s !! p = Some d -> lb_opponent (d_label d) <> c_self c -> In m (d_out d) ->
  m_to m = lb_opponent (d_label d) /\
  of_dialogue (starter_ref (lb_ref (d_label d))) (bool_decide (lb_starter (d_label d) = c_self c)) m.
Proof.
  intros He Hd Ho Hm. pose proof (transcript_some c tr s p d He Hd) as Hv.
  rewrite (rep_out _ _ (di_rep _ _ _ Hv)) in Hm. apply in_messages in Hm as (h1 & h2 & Eh).
  destruct (di_conv _ _ _ Hv h1 (Entry Me m) h2 Eh) as ([_ Ha] & Hr & H0 & H1). cbn in *.
  split; [done|]. split; [done|]. rewrite bool_decide_eq_true.
  destruct h1 as [|e1 h1].
  - destruct (H0 eq_refl) as [(Hid & _) Hs]. specialize (Hs eq_refl). unfold started_by_me in Hs. rewrite Hid. split; [done|lia].
  - destruct H1 as (_ & Hid & _); [done|]. unfold demanded_id, protocol_id, id_sign, started_by_me in Hid.
    destruct (decide _); (split; [|intros]); try done; try tauto; nia.
Qed.

Lemma said_dialogue c tr s o r p e : exec c tr s -> In (o, r) tr -> said c o r = Some (p, e) ->
  exists d, s_heap s !! p = Some d /\ In (e_msg e) (match e_from e with Me => d_out d | Peer => d_in d end).
Proof.
  intros He Hin Hs. pose proof (transcript_dinv c tr s p He) as Hv.
  assert (In e (transcript c p tr)) as Ht.
  { apply in_split in Hin as (t1 & t2 & ->). rewrite transcript_app. apply in_app_iff. right. cbn. rewrite Hs.
    rewrite decide_True by done. by left. }
  destruct (s_heap s !! p) as [d|] eqn:Ed; [|by rewrite Hv in Ht]. exists d. split; [done|].
  destruct (di_rep _ _ _ Hv) as [R1 R2 _ _].
  assert (In (e_msg e) (messages_of (e_from e) (transcript c p tr))) as H.
  { unfold messages_of. apply in_map, filter_In. split; [done|]. by apply bool_decide_eq_true. }
  destruct (e_from e); congruence.
Qed.

Lemma transcript_messages c p q tr : messages_of q (transcript c p tr) =
  omap (fun or => match said c or.1 or.2 with
                  | Some (p', e) => if bool_decide (p' = p /\ e_from e = q) then Some (e_msg e) else None
                  | None => None
                  end) tr.
Proof.
  induction tr as [|[o r] tr IH]; [done|]. cbn [transcript omap list_omap fst snd].
  destruct (said c o r) as [[p' e]|]; [|exact IH].
  destruct (decide (p = p')) as [->|Hne].
  - change (e :: transcript c p' tr) with ([e] ++ transcript c p' tr). rewrite messages_of_app, messages_of_one, IH.
    destruct (decide (e_from e = q)); [by rewrite bool_decide_true|]. rewrite bool_decide_false by tauto. done.
  - rewrite bool_decide_false by (intros [-> _]; done). exact IH.
Qed.

(** What the agent has sent in a dialogue is all it has sent to the peer for this reference. *)
Lemma out_all c tr s p d : exec_clean c tr s -> proper tr -> s_heap s !! p = Some d -> lb_opponent (d_label d) <> c_self c ->
  d_out d = filter (of_dialogue (starter_ref (lb_ref (d_label d))) (bool_decide (lb_starter (d_label d) = c_self c)))
                   (sent c (lb_opponent (d_label d)) tr).
Proof.
  intros Hc Hp Hd Ho. pose proof (clean_exec _ _ _ Hc) as He. pose proof (settled_exec c tr s Hc Hp) as Hset.
  pose proof (transcript_some c tr s p d He Hd) as Hv. rewrite (rep_out _ _ (di_rep _ _ _ Hv)), transcript_messages.
  assert (forall or, In or tr -> In or tr) as Hall by done. unfold sent. revert Hall. generalize tr at 1 3 4 as t.
  induction t as [|[o r] t IH]; intros Hall; [done|].
  specialize (IH (fun or Hin => Hall or (or_intror Hin))). cbn [omap list_omap fst snd].
  assert (In (o, r) tr) as Hin by (apply Hall; by left).
  destruct (said c o r) as [[p' [[] m]]|] eqn:Es.
  - destruct (said_dialogue c tr s o r p' (Entry Me m) He Hin Es) as (d' & Hd' & Hm). cbn [e_from e_msg] in Hm |- *.
    destruct (decide (p' = p)) as [->|Hne].
    + rewrite bool_decide_true by done. assert (d' = d) as -> by congruence.
      destruct (out_key c tr s p d m He Hd Ho Hm) as [K1 K2]. rewrite (bool_decide_true (m_to m = _)) by done.
      rewrite filter_cons_True by done. f_equal. exact IH.
    + rewrite bool_decide_false by tauto. destruct (decide (m_to m = lb_opponent (d_label d))) as [Ht|Ht].
      2: { rewrite (bool_decide_false (m_to m = _)) by done. exact IH. }
      rewrite (bool_decide_true (m_to m = _)) by done. rewrite filter_cons_False; [exact IH|]. intros [K1 K2]. apply Hne.
      pose proof (transcript_some c tr s p' d' He Hd') as Hv'.
      assert (m_to m = lb_opponent (d_label d') /\ of_dialogue (starter_ref (lb_ref (d_label d'))) (bool_decide (lb_starter (d_label d') = c_self c)) m) as [K3 [K4 K5]].
      { apply (out_key c tr s p' d' m He Hd'); [|done].
        rewrite (rep_out _ _ (di_rep _ _ _ Hv')) in Hm. apply in_messages in Hm as (h1 & h2 & Eh).
        destruct (di_conv _ _ _ Hv' h1 (Entry Me m) h2 Eh) as ([_ Ha] & _). cbn in Ha. unfold other in Ha. congruence. }
      apply (se_one _ _ _ Hset p' p (d_label d') (d_label d)); [unfold lab; by rewrite Hd'|unfold lab; by rewrite Hd|].
      split; [congruence|]. split; [congruence|]. rewrite !bool_decide_eq_true in *.
      destruct (di_label _ _ _ Hv') as [L1|[L1 L2]], (di_label _ _ _ Hv) as [M1|[M1 M2]]; try congruence; exfalso; rewrite <- K3, Ht in L1 || idtac; intuition congruence.
  - rewrite bool_decide_false by (intros [_ ?]; done). exact IH.
  - exact IH.
Qed.

(** * Calls inside an execution *)

Lemma lab_step c s o s' r p l : inv_any c s -> step c s o = (s', r) -> is_panic r = false -> lab s p = Some l ->
  exists l', lab s' p = Some l' /\ same_core l l'.
Proof.
  intros Hi Hs Hp Hl. destruct (step_any c s o s' r Hi Hs Hp) as (_ & g & Hef & _).
  unfold lab in Hl. destruct (s_heap s !! p) as [d|] eqn:Ed; [|done]. injection Hl as <-.
  destruct (ef_old _ _ _ _ _ Hef p d Ed) as (d' & Hd' & _ & Hlev & _). exists (d_label d'). unfold lab. rewrite Hd'.
  split; [done|by apply core_evolves].
Qed.

Lemma exec_split c tr s : exec c tr s -> forall t1 o r t2, tr = t1 ++ (o, r) :: t2 ->
  exists s1 s2, exec c t1 s1 /\ step c s1 o = (s2, r) /\ is_panic r = false /\
    forall p l, lab s2 p = Some l -> exists l', lab s p = Some l' /\ same_core l l'.
Proof.
  induction 1 as [|tr s o s' r He IH Hs Hp]; intros t1 o1 r1 t2 E; [by destruct t1|].
  destruct t2 as [|x t2 _] using rev_ind.
  - apply app_inj_tail in E as [-> E]. injection E as <- <-. exists s, s'. split; [done|]. split; [done|]. split; [done|].
    intros p l Hl. by exists l.
  - rewrite app_comm_cons, app_assoc in E. apply app_inj_tail in E as [-> <-].
    destruct (IH t1 o1 r1 t2 eq_refl) as (s1 & s2 & A & B & C & D). exists s1, s2. split; [done|]. split; [done|]. split; [done|].
    intros p l Hl. destruct (D p l Hl) as (l1 & Hl1 & Hc1).
    destruct (lab_step c s o s' r p l1) as (l2 & Hl2 & Hc2); [|done|done|done|].
    { apply reachable_any_inv. by eapply exec_reachable. }
    exists l2. split; [done|]. destruct Hc1 as (?&?&?), Hc2 as (?&?&?). repeat split; congruence.
Qed.

Lemma transcript_call c p tr e : forall h1 h2, transcript c p tr = h1 ++ e :: h2 ->
  exists t1 o r t2, tr = t1 ++ (o, r) :: t2 /\ said c o r = Some (p, e) /\ transcript c p t1 = h1.
Proof.
  induction tr as [|[o r] tr IH]; intros h1 h2 E; [by destruct h1|]. cbn in E.
  destruct (said c o r) as [[q e1]|] eqn:Es; [destruct (decide (p = q)) as [<-|Hne]|].
  - destruct h1 as [|x h1].
    + injection E as -> E. by exists [], o, r, tr.
    + injection E as -> E. destruct (IH h1 h2 E) as (t1 & o1 & r1 & t2 & -> & H1 & H2).
      exists ((o, r) :: t1), o1, r1, t2. split; [done|]. split; [done|]. cbn. rewrite Es, decide_True by done. by f_equal.
  - destruct (IH h1 h2 E) as (t1 & o1 & r1 & t2 & -> & H1 & H2).
    exists ((o, r) :: t1), o1, r1, t2. split; [done|]. split; [done|]. cbn. by rewrite Es, decide_False.
  - destruct (IH h1 h2 E) as (t1 & o1 & r1 & t2 & -> & H1 & H2).
    exists ((o, r) :: t1), o1, r1, t2. split; [done|]. split; [done|]. cbn. by rewrite Es.
Qed.

(** An opening that was sent has no responder reference. *)
Lemma sent_opening c tr s x m : exec c tr s -> In m (sent c x tr) -> m_id m = 1 -> responder_ref (m_ref m) = "".
Proof.
  intros He Hm Hid. unfold sent in Hm. apply elem_of_list_In, elem_of_list_omap in Hm as ([o r] & Hin & Hm). cbn in Hm.
  destruct (said c o r) as [[p [[] m']]|] eqn:Es; [|done|done].
  destruct (bool_decide (m_to m' = x)); [|done]. injection Hm as ->.
  apply elem_of_list_In, in_split in Hin as (t1 & t2 & Et).
  destruct (exec_split c tr s He _ _ _ _ Et) as (s1 & s2 & H1 & H2 & H3 & _).
  destruct o as [n cp pf|cp m0|n m0|q pf tm tp], r as [[[mo|] [po|]]|e|e]; try done; cbn in Es.
  - injection Es as -> ->. cbn in H2. unfold api_create in H2.
    destruct (create_dialogue _ _ _ _) as [? [?|?|?]]; [|done|done]. by injection H2 as _ <- _.
  - injection Es as -> <-. cbn in H2 |- *. unfold api_create_with in H2.
    destruct (set_sender m0 (c_self c)) as [m1|e|e] eqn:E1; [|done|done].
    destruct (set_to m1 cp) as [m2|e|e] eqn:E2; [|done|done].
    destruct (create_dialogue c s1 cp m2) as [s3 [d|e|e]] eqn:E3; done.
  - injection Es as -> <-. cbn in H2 |- *. unfold api_create_with in H2.
    destruct (set_sender m0 (c_self c)) as [m1|e|e] eqn:E1; [|done|done].
    destruct (set_to m1 cp) as [m2|e|e] eqn:E2; [|done|done].
    assert (m_ref m2 = m_ref m0) as Er.
    { unfold set_sender in E1. unfold set_to in E2. repeat case_match; try done; simplify_eq/=; done. }
    unfold create_dialogue, create_self_initiated in H2.
    destruct (bool_decide (responder_ref (m_ref m2) = unassigned)) eqn:Eb.
    + apply bool_decide_eq_true in Eb. by rewrite <- Er.
    + by rewrite andb_false_r in H2.
  - injection Es as -> ->. exfalso.
    pose proof (transcript_dinv c tr s p He) as Hv. rewrite Et, transcript_app in Hv. cbn [transcript said] in Hv.
    rewrite decide_True in Hv by done.
    destruct (s_heap s !! p) as [d|] eqn:Ed; [|by destruct (transcript c p t1)].
    destruct (di_conv _ _ _ Hv _ _ _ eq_refl) as (_ & _ & _ & K). cbn in K.
    cbn in H2. unfold api_reply in H2. destruct (s_heap s1 !! q) as [d1|] eqn:E1; [|done].
    pose proof (transcript_some c t1 s1 q d1 H1 E1) as Hv1.
    assert (transcript c q t1 <> []) as Hne.
    { intros Et1. rewrite Et1 in Hv1. unfold dialogue_reply in H2. rewrite (last_message_spec c d1 [] Hv1) in H2. done. }
    assert (q = p) as -> by (by destruct (store_update _ _ _ _) as [? [?|?|?]]; injection H2).
    destruct (K Hne) as (_ & Ki & Km & _). rewrite Hid in Ki. unfold protocol_id, id_sign in Ki.
    destruct (decide (started_by_me c (d_label d))) as [Hst|Hst]; [|lia].
    specialize (Km eq_refl Hst). destruct (messages_of Me (transcript c p t1)); [done|]. cbn [length] in Ki. lia.
Qed.

(** * What the agent has received in a dialogue *)

Lemma in_key c tr s p d m : exec c tr s -> s_heap s !! p = Some d ->
  (forall m, In m (received (lb_opponent (d_label d)) tr) -> m_id m = 1 -> responder_ref (m_ref m) = "") ->
  In m (d_in d) ->
  m_sender m = lb_opponent (d_label d) /\ m_to m = c_self c /\ In m (received (lb_opponent (d_label d)) tr) /\
  of_dialogue (starter_ref (lb_ref (d_label d))) (negb (bool_decide (lb_starter (d_label d) = c_self c))) m.
Proof.
  intros He Hd Hop Hm. pose proof (transcript_some c tr s p d He Hd) as Hv.
  rewrite (rep_in _ _ (di_rep _ _ _ Hv)) in Hm. apply in_messages in Hm as (h1 & h2 & Eh).
  destruct (di_conv _ _ _ Hv h1 (Entry Peer m) h2 Eh) as ((Ha & Hto & Ho) & Hr & H0 & H1). cbn in Ha, Hto, Hr, H0, H1. unfold other in *.
  destruct (transcript_call c p tr _ h1 h2 Eh) as (t1 & o & r & t2 & Et & Es & Eh1).
  assert (exists n om, o = OpUpdate n m /\ r = Ok (om, Some p)) as (n & om & -> & ->).
  { destruct o as [n cp pf|cp m0|n m0|q pf tm tp], r as [[[mo|] [po|]]|e|e]; try done; cbn in Es; injection Es as -> ->; eauto. }
  assert (In m (received (lb_opponent (d_label d)) tr)) as Hrec.
  { unfold received. apply elem_of_list_In, elem_of_list_omap. eexists. split; [apply elem_of_list_In; rewrite Et; apply in_elt|].
    cbn. by rewrite bool_decide_true. }
  split; [done|]. split; [done|]. split; [done|]. split; [done|].
  destruct h1 as [|e1 h1].
  - destruct (H0 eq_refl) as [(Hid & _) _]. rewrite Hid. split; [|lia]. intros _.
    destruct (exec_split c tr s He _ _ _ _ Et) as (s1 & s2 & _ & Hs & _ & Hl). cbn in Hs.
    destruct (opened c s1 n m s2 om p Hs Hid (Hop m Hrec Hid)) as [_ Hlab].
    destruct (Hl p _ Hlab) as (l' & Hl' & _ & _ & Hst). cbn in Hst. unfold lab in Hl'. rewrite Hd in Hl'. injection Hl' as <-.
    rewrite bool_decide_false; [done|congruence].
  - destruct H1 as (_ & Hid & _); [done|]. unfold demanded_id, id_sign, started_by_me in Hid.
    destruct (decide (lb_starter (d_label d) = c_self c)) as [Hst|Hst].
    + rewrite bool_decide_true by done. split; [|done]. destruct (messages_of Peer _); lia.
    + rewrite bool_decide_false by done. split; [done|]. destruct (messages_of Peer _); lia.
Qed.

Lemma omap_sublist {A B} (f g : A -> option B) l : (forall x, In x l -> f x = None \/ f x = g x) -> omap f l `sublist_of` omap g l.
Proof.
  induction l as [|x l IH]; intros H; [done|]. cbn. specialize (IH (fun y Hy => H y (or_intror Hy))).
  destruct (H x (or_introl eq_refl)) as [-> | ->]; destruct (g x); [by apply sublist_cons|done|by apply sublist_skip|done].
Qed.

Lemma in_received c tr s p d : exec c tr s -> s_heap s !! p = Some d -> d_in d `sublist_of` received (lb_opponent (d_label d)) tr.
Proof.
  intros He Hd. pose proof (transcript_some c tr s p d He Hd) as Hv. rewrite (rep_in _ _ (di_rep _ _ _ Hv)), transcript_messages.
  apply omap_sublist. intros [o r] Hin. cbn [fst snd]. destruct (said c o r) as [[p' e]|] eqn:Es; [|by left].
  destruct (decide (p' = p /\ e_from e = Peer)) as [[-> Hf]|Hn]; [right|left; by rewrite bool_decide_false].
  rewrite bool_decide_true by done. destruct e as [q m]. cbn in Hf |- *. subst q.
  destruct (said_dialogue c tr s o r p _ He Hin Es) as (d' & Hd' & Hm). cbn in Hm. assert (d' = d) as -> by congruence.
  rewrite (rep_in _ _ (di_rep _ _ _ Hv)) in Hm. apply in_messages in Hm as (h1 & h2 & Eh).
  destruct (di_conv _ _ _ Hv h1 _ h2 Eh) as ((Ha & _) & _). cbn in Ha. unfold other in Ha.
  destruct o as [n cp pf|cp m0|n m0|q pf tm tp], r as [[[mo|] [po|]]|e|e]; try done; cbn in Es; injection Es as -> ->; cbn;
    by rewrite bool_decide_true.
Qed.

Lemma sublist_filter_all {A} (P : A -> Prop) `{forall x, Decision (P x)} l k :
  l `sublist_of` k -> Forall P l -> l `sublist_of` filter P k.
Proof.
  induction 1 as [|x l k Hs IH|x l k Hs IH]; intros HF; [done| |].
  - apply Forall_cons in HF as [Hx HF]. rewrite filter_cons_True by done. apply sublist_skip. by apply IH.
  - destruct (decide (P x)); [rewrite filter_cons_True by done; apply sublist_cons; by apply IH|rewrite filter_cons_False by done; by apply IH].
Qed.

(** * Agreement *)

(** Agents [a] and [b] work on their dialogues in any order. What [a] is given from [b] is what [b] sent to [a], in this order, with
    any messages lost. Then for every dialogue of [a] with [b] in which something was received, [b] has exactly one dialogue with [a] for
    the same starter reference, started by the same agent, and what [a] holds as received in its dialogue is, in this order, some
    of what [b] holds as sent in that one. *)
Theorem C94_agreement ca cb trA sA trB sB pA dA :
  exec ca trA sA -> exec_clean cb trB sB -> proper trB -> c_self ca <> c_self cb ->
  received (c_self cb) trA `sublist_of` sent cb (c_self ca) trB ->
  s_heap sA !! pA = Some dA -> lb_opponent (d_label dA) = c_self cb -> d_in dA <> [] ->
  exists pB dB, s_heap sB !! pB = Some dB /\ lb_opponent (d_label dB) = c_self ca /\
    starter_ref (lb_ref (d_label dB)) = starter_ref (lb_ref (d_label dA)) /\
    lb_starter (d_label dB) = lb_starter (d_label dA) /\
    d_in dA `sublist_of` d_out dB /\
    (forall p d, s_heap sB !! p = Some d -> lb_opponent (d_label d) = c_self ca ->
       starter_ref (lb_ref (d_label d)) = starter_ref (lb_ref (d_label dA)) ->
       lb_starter (d_label d) = lb_starter (d_label dA) -> p = pB).
Proof.
  intros HA HB Hpr Hab Hch HdA Hopp Hne. pose proof (clean_exec _ _ _ HB) as HB'.
  assert (forall m, In m (received (lb_opponent (d_label dA)) trA) -> In m (sent cb (c_self ca) trB)) as Hin.
  { intros m Hm. rewrite Hopp in Hm. apply elem_of_list_In. apply elem_of_list_In in Hm. by eapply elem_of_submseteq, sublist_submseteq, Hch. }
  assert (forall m, In m (received (lb_opponent (d_label dA)) trA) -> m_id m = 1 -> responder_ref (m_ref m) = "") as Hop.
  { intros m Hm. eapply sent_opening; [exact HB'|]. by apply Hin. }
  pose proof (fun m => in_key ca trA sA pA dA m HA HdA Hop) as KA.
  destruct (d_in dA) as [|m0 rest] eqn:Ein; [done|]. rewrite <- Ein in *.
  destruct (KA m0) as (A1 & A2 & A3 & A4 & A5); [rewrite Ein; by left|].
  pose proof (Hin m0 A3) as Hm0. unfold sent in Hm0. apply elem_of_list_In, elem_of_list_omap in Hm0 as ([o r] & Ho & Hm0). cbn in Hm0.
  destruct (said cb o r) as [[pB [[] m']]|] eqn:Es; [|done|done].
  destruct (bool_decide (m_to m' = c_self ca)) eqn:Eto; [|done]. injection Hm0 as ->. apply bool_decide_eq_true in Eto.
  apply elem_of_list_In in Ho. destruct (said_dialogue cb trB sB o r pB _ HB' Ho Es) as (dB & HdB & HmB). cbn in HmB.
  pose proof (transcript_some cb trB sB pB dB HB' HdB) as HvB. pose proof (transcript_some ca trA sA pA dA HA HdA) as HvA.
  assert (lb_opponent (d_label dB) = c_self ca) as HoB.
  { pose proof HmB as HmB'. rewrite (rep_out _ _ (di_rep _ _ _ HvB)) in HmB'. apply in_messages in HmB' as (h1 & h2 & Eh).
    destruct (di_conv _ _ _ HvB h1 (Entry Me m0) h2 Eh) as ([_ Ha] & _). cbn in Ha. unfold other in Ha. congruence. }
  assert (lb_opponent (d_label dB) <> c_self cb) as HoB' by congruence.
  destruct (out_key cb trB sB pB dB m0 HB' HdB HoB' HmB) as (B1 & B2 & B3).
  assert (bool_decide (lb_starter (d_label dB) = c_self cb) = negb (bool_decide (lb_starter (d_label dA) = c_self ca))) as Est.
  { destruct (bool_decide (lb_starter (d_label dB) = c_self cb)), (negb (bool_decide (lb_starter (d_label dA) = c_self ca))); try done; exfalso; intuition congruence. }
  assert (lb_starter (d_label dB) = lb_starter (d_label dA)) as Hst.
  { destruct (di_label _ _ _ HvA) as [L1|[L1 L2]], (di_label _ _ _ HvB) as [M1|[M1 M2]]; try congruence.
    - rewrite (bool_decide_true _ L1), (bool_decide_true _ M1) in Est. done.
    - rewrite !bool_decide_false in Est by congruence. done. }
  exists pB, dB. split; [done|]. split; [done|]. split; [congruence|]. split; [done|]. split.
  - rewrite (out_all cb trB sB pB dB HB Hpr HdB HoB'). apply sublist_filter_all.
    + rewrite HoB. etrans; [|exact Hch]. rewrite <- Hopp. by eapply in_received.
    + apply Forall_forall. intros m Hm. apply elem_of_list_In in Hm. destruct (KA m Hm) as (_ & _ & _ & K). by rewrite Est, <- B2, A4.
  - intros p d Hd D1 D2 D3. apply (se_one _ _ _ (settled_exec cb trB sB HB Hpr) p pB (d_label d) (d_label dB)).
    + unfold lab. by rewrite Hd.
    + unfold lab. by rewrite HdB.
    + repeat split; congruence.
Qed.
Print Assumptions C94_agreement.

(** Without losses [a] need not hold a prefix of what [b] sent: [b] answers twice in a row while [a] answers the first answer, so the
    second is rejected; the third is accepted. *)
Definition agree_a : list op :=
  [OpCreate "x" "b" "open"; OpUpdate "n" (Msg "a" "b" abc (-1) 1 "say"); OpReply 0%nat "say" None None;
   OpUpdate "n" (Msg "a" "b" abc (-2) 1 "say"); OpUpdate "n" (Msg "a" "b" abc (-3) 1 "say")].
Definition agree_b : list op :=
  [OpUpdate "y" (Msg "b" "a" ab 1 0 "open"); OpReply 0%nat "say" None (Some 1); OpReply 0%nat "say" None (Some 1);
   OpReply 0%nat "say" None (Some 1)].

Theorem C94_prefix_refuted :
  ~ (forall ca cb trA sA trB sB pA dA pB dB,
       exec_clean ca trA sA -> exec_clean cb trB sB -> proper trA -> proper trB -> c_self ca <> c_self cb ->
       received (c_self cb) trA = sent cb (c_self ca) trB ->
       s_heap sA !! pA = Some dA -> s_heap sB !! pB = Some dB ->
       lb_opponent (d_label dA) = c_self cb -> lb_opponent (d_label dB) = c_self ca ->
       starter_ref (lb_ref (d_label dA)) = starter_ref (lb_ref (d_label dB)) -> lb_starter (d_label dA) = lb_starter (d_label dB) ->
       exists k, d_in dA = take k (d_out dB)).
Proof.
  intros H.
  pose proof (demo_clean (demo "a" false) agree_a eq_refl) as HA. pose proof (demo_clean (demo "b" false) agree_b eq_refl) as HB.
  destruct (H (demo "a" false) (demo "b" false) _ _ _ _ 0%nat (dialogue_at (store_of (demo "a" false) agree_a) 0%nat) 0%nat
     (dialogue_at (store_of (demo "b" false) agree_b) 0%nat) HA HB) as [k Hk].
  - split; [vm_compute; repeat constructor; set_solver|]. intros n m r Hin. vm_compute in Hin. naive_solver.
  - split; [vm_compute; repeat constructor; set_solver|]. intros n m r Hin. vm_compute in Hin. naive_solver.
  - done.
  - vm_compute. done.
  - vm_compute. done.
  - vm_compute. done.
  - vm_compute. done.
  - vm_compute. done.
  - vm_compute. done.
  - vm_compute. done.
  - vm_compute in Hk. destruct k as [|[|[|k] ] ]; discriminate Hk.
Qed.
Print Assumptions C94_prefix_refuted.

(** Two messages of three arrive and are accepted. *)
Definition agree_lossy : list op :=
  [OpCreate "x" "b" "open"; OpUpdate "n" (Msg "a" "b" abc (-1) 1 "say"); OpUpdate "n" (Msg "a" "b" abc (-2) 1 "say")].
Example C94_example :
  exec_clean (demo "a" false) (trace_of (demo "a" false) agree_lossy) (store_of (demo "a" false) agree_lossy) /\
  exec_clean (demo "b" false) (trace_of (demo "b" false) agree_b) (store_of (demo "b" false) agree_b) /\
  proper (trace_of (demo "b" false) agree_b) /\
  received "b" (trace_of (demo "a" false) agree_lossy) `sublist_of` sent (demo "b" false) "a" (trace_of (demo "b" false) agree_b) /\
  map m_id (d_in (dialogue_at (store_of (demo "a" false) agree_lossy) 0%nat)) = [-1; -2] /\
  map m_id (d_out (dialogue_at (store_of (demo "b" false) agree_b) 0%nat)) = [-1; -2; -3].
Proof.
  split; [by apply demo_clean|]. split; [by apply demo_clean|].
  split. { split; [vm_compute; repeat constructor; set_solver|]. intros n m r Hin. vm_compute in Hin. naive_solver. }
  split. { vm_compute. apply sublist_skip, sublist_skip, sublist_cons. constructor. }
  split; vm_compute; reflexivity.
Qed.
