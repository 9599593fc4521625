(** Lemmas about the example seller: its dialogues are all opened by others, it answers
    at most once per message, and so the dialogue API never crashes under it. *)
From Coq Require Import ZArith NArith List String Ascii Lia.
From stdpp Require Import base tactics gmap list strings.
From Verif Require Import GoBase SetModel Bytes Utf8 WireModel ProtoModel DialogueModel StoreModel
  MessageModel MessageProofs SellerModel DialogueSpec DialogueProofs StoreProofs StoreInv TraceProofs TermProofs
  DialogueLemmas StoreLemmas DialogueProps StoreProps.
Open Scope string_scope.
Open Scope list_scope.
Open Scope Z_scope.

(** * Dialogues opened by others *)

Definition theirs (s : store) : Prop :=
  forall p d, s_heap s !! p = Some d -> lb_starter (d_label d) = lb_opponent (d_label d).

Lemma reply_label d p tm tp d' m t :
  dialogue_reply d p tm tp = Ok (d', m, t) -> d_label d' = d_label d.
Proof.
  unfold dialogue_reply. destruct (last_message d) as [lm|]; [|done]. intros H.
  apply rbind_ok in H as (ch & _ & H). destruct (ch.1); [|done].
  apply rbind_ok in H as (f & _ & H). destruct (negb f); [done|].
  by apply update_result in H as (_ & -> & _).
Qed.

Lemma update_label d m d' m' t :
  dialogue_update d m = Ok (d', m', t) -> d_label d' = d_label d.
Proof. intros H. by apply update_result in H as (_ & -> & _). Qed.

Lemma theirs_store_update c s p d r s1 o :
  theirs s -> s_heap s !! p = Some d ->
  (forall d' m t, r = Ok (d', m, t) -> d_label d' = d_label d) ->
  store_update c s p r = (s1, o) -> is_panic o = false ->
  theirs s1 /\ (forall k, s_incomplete s !! k = None -> s_incomplete s1 !! k = None).
Proof.
  intros Ht Hd Hr Hu Hp. apply store_update_cases in Hu; [|done].
  destruct r as [[[d' m] t]|e|e]; [|destruct Hu as [-> _]; done|done].
  destruct Hu as [_ Hu]. specialize (Hr d' m t eq_refl).
  assert (theirs (set_dialogue s p d')) as H1.
  { intros q e He. simpl in He. apply lookup_insert_Some in He as [[<- <-]|[_ He]]; [|by eapply Ht].
    rewrite Hr. by eapply Ht. }
  destruct t; [|by subst].
  pose proof (run_callbacks_heap _ _ _ _ _ Hu) as (R1 & _).
  split; [intros q e; rewrite R1; by apply H1|].
  destruct (d_callbacks d') as [|n]; [injection Hu as <-; done|]. destruct (c_keep c).
  - rewrite run_callbacks_keep in Hu. injection Hu as <-. done.
  - rewrite run_callbacks_remove in Hu. apply st_remove_ok in Hu as (_ & _ & _ & R & _).
    intros k Hk. rewrite R. simpl. by apply lookup_delete_None; right.
Qed.

Lemma theirs_found c s m is_new found s1 r :
  theirs s -> update_found c s m is_new found = (s1, r) -> is_panic r = false ->
  theirs s1 /\ (forall k, s_incomplete s !! k = None -> s_incomplete s1 !! k = None).
Proof.
  intros Ht. unfold update_found. destruct found as [p|]; [|by intros [= <- <-]].
  destruct (s_heap s !! p) as [d|] eqn:Hd; [|by intros [= <- <-]].
  destruct (store_update c s p (dialogue_update d m)) as [su ou] eqn:Eu. intros H Hp.
  assert (is_panic ou = false) as Hpu by (destruct ou; [done|done|by injection H as <- <-]).
  destruct (theirs_store_update c s p d _ su ou Ht Hd (update_label d m) Eu Hpu) as [T1 T2].
  destruct ou as [x|e|e]; [by injection H as <- <-| |done].
  destruct is_new; [|by injection H as <- <-].
  destruct (st_remove su (d_label d)) as [s2|e'|e'] eqn:Er;
    [|by injection H as <- <-|by injection H as <- <-].
  injection H as <- <-. apply st_remove_ok in Er as (R1 & _ & _ & R4 & _).
  split; [intros q e0; rewrite R1; apply T1|].
  intros k Hk. rewrite R4. apply lookup_delete_None. right. by apply T2.
Qed.

Lemma theirs_create c s l role v s1 o :
  theirs s -> lb_starter v = lb_opponent v -> create c s l role (Some v) = (s1, o) ->
  theirs s1 /\ (forall k, k <> l -> s_incomplete s !! k = None -> s_incomplete s1 !! k = None).
Proof.
  intros Ht Hv. unfold create. destruct (st_is_in_incomplete s l); [by intros [= <- <-]|].
  destruct (st_is_present _ v).
  - intros [= <- <-]. split; [done|]. intros k Hk Hn. simpl. by rewrite lookup_insert_ne.
  - intros [= <- <-]. split.
    + intros q d Hd. simpl in Hd. apply lookup_insert_Some in Hd as [[_ <-]|[_ Hd]]; [done|].
      by eapply Ht.
    + intros k Hk Hn. simpl. by rewrite lookup_insert_ne.
Qed.

(** No dialogue opened by the agent itself: nothing to complete. *)
Lemma theirs_complete c s m :
  inv c s -> theirs s -> m_sender m <> c_self c ->
  complete_dialogue_reference c s m = (s, Ok tt) \/
  exists e, complete_dialogue_reference c s m = (s, Err e).
Proof.
  intros Hi Ht Hs. unfold complete_dialogue_reference. destruct (negb _); [right; by eexists|].
  left. unfold st_is_present. destruct (s_by_label s !! _) as [p|] eqn:E; [|done]. exfalso.
  destruct (ia_label c s (iv_any c s Hi) _ p E) as (d & Hd & Hl). apply Ht in Hd.
  rewrite Hl in Hd. simpl in Hd. congruence.
Qed.

Lemma theirs_update c s nonce m s1 r :
  inv c s -> theirs s -> api_update c s nonce m = (s1, r) -> is_panic r = false ->
  theirs s1 /\
  (forall k, s_incomplete s !! k = None ->
     ~ (from_other c m /\ k = DLabel (m_ref m) (m_sender m) (m_sender m)) ->
     s_incomplete s1 !! k = None).
Proof.
  intros Hi Ht. unfold api_update.
  destruct (negb (has_sender m && negb (ds_is_by_self c m))) eqn:Hn; [by intros [= <- <-]|].
  apply negb_false_iff, andb_true_iff in Hn as [H1 H2].
  unfold has_sender in H1. apply bool_decide_eq_true in H1.
  unfold ds_is_by_self in H2. apply negb_true_iff, bool_decide_eq_false in H2.
  destruct (negb (has_to m)); [by intros [= <- <-]|].
  destruct (negb (bool_decide (m_to m = c_self c))) eqn:Hn; [by intros [= <- <-]|].
  apply negb_false_iff, bool_decide_eq_true in Hn.
  match goal with |- context [update_found c s m ?b None] => set (is_new := b) end.
  intros H Hp.
  destruct (_ && _) eqn:E1 in H.
  { destruct (theirs_found c s m is_new None s1 r Ht H Hp) as [T1 T2]. split; auto. }
  destruct is_new eqn:E2.
  { unfold create_opponent_initiated in H. destruct (negb _) eqn:Hn2 in H; [by injection H as <- <-|].
    destruct (create c s _ _ _) as [sc oc] eqn:Ec.
    destruct (theirs_create c s (DLabel (m_ref m) (m_sender m) (m_sender m)) _
      (DLabel (DRef (starter_ref (m_ref m)) nonce) (m_sender m) (m_sender m)) sc oc Ht eq_refl Ec) as [T1 T2].
    assert (forall k, s_incomplete s !! k = None ->
      ~ (from_other c m /\ k = DLabel (m_ref m) (m_sender m) (m_sender m)) -> s_incomplete sc !! k = None) as T3.
    { intros k Hk Hne. apply T2; [|done]. intros ->. by apply Hne. }
    destruct oc as [p|e|e]; [|by injection H as <- <-|by injection H as <- <-].
    destruct (theirs_found c sc m true (Some p) s1 r T1 H Hp) as [T4 T5]. split; auto. }
  destruct (_ && _) eqn:E3 in H.
  { destruct (theirs_found c s m false _ s1 r Ht H Hp) as [T1 T2]. split; auto. }
  destruct (theirs_complete c s m Hi Ht H2) as [E|[e E]]; rewrite E in H.
  - destruct (theirs_found c s m false _ s1 r Ht H Hp) as [T1 T2]. split; auto.
  - by injection H as <- <-.
Qed.

Lemma theirs_reply c s p perf tm tp s1 r :
  theirs s -> api_reply c s p perf tm tp = (s1, r) -> is_panic r = false ->
  theirs s1 /\ (forall k, s_incomplete s !! k = None -> s_incomplete s1 !! k = None).
Proof.
  intros Ht. unfold api_reply. destruct (s_heap s !! p) as [d|] eqn:Hd; [|by intros [= <- <-]].
  destruct (store_update c s p (dialogue_reply d perf tm tp)) as [su ou] eqn:Eu. intros H Hp.
  assert (is_panic ou = false) as Hpu by (destruct ou; [done|done|by injection H as <- <-]).
  destruct (theirs_store_update c s p d _ su ou Ht Hd (reply_label d perf tm tp) Eu Hpu) as [T1 T2].
  destruct ou as [x|e|e]; by injection H as <- <-.
Qed.

(** * The invariant of the seller *)

Definition counts (h : history) : Prop :=
  (length (messages_of Me h) <= length (messages_of Peer h))%nat /\
  Z.abs (last_id h) <= Z.of_nat (length (messages_of Peer h)) /\
  forall lm, last (messages_of Peer h) = Some lm -> Z.abs (m_id lm) <= Z.of_nat (length (messages_of Peer h)).

Section Seller.
  Context (struct_ok : bytes -> bytes -> bool) (self : address).
  Notation c := (seller_config self).

  Record sinv (tr : list (op * res out)) (s : store) : Prop := {
    si_exec : exec_clean c tr s;
    si_theirs : theirs s;
    si_counts : forall p, counts (transcript c p tr) }.

  Lemma sinv_empty : sinv [] empty_store.
  Proof.
    split; [constructor|done|]. intros p. split; [done|]. split; [done|]. done.
  Qed.

  Lemma length_parties h : (length (messages_of Me h) + length (messages_of Peer h))%nat = length h.
  Proof.
    induction h as [|[[] m] h IH]; [done|unfold messages_of in *; simpl in *; lia..].
  Qed.

  Lemma transcript_length p tr : (length (transcript c p tr) <= length tr)%nat.
  Proof.
    induction tr as [|[o r] tr IH]; [done|]. simpl. destruct (said c o r) as [[q e]|]; [|lia].
    destruct (decide (p = q)); simpl; lia.
  Qed.

  Lemma sinv_inv tr s : sinv tr s -> inv c s.
  Proof. intros H. eapply reachable_inv, clean_reachable, H. Qed.

  Lemma sinv_gap tr s p d :
    sinv tr s -> Z.of_nat (length tr) < 2 ^ 63 -> s_heap s !! p = Some d -> gap_free d.
  Proof.
    intros H Hl Hd. pose proof (transcript_some c tr s p d (clean_exec _ _ _ (si_exec _ _ H)) Hd) as Hi.
    destruct (si_counts _ _ H p) as (C1 & C2 & C3). destruct (di_rep _ _ _ Hi) as [R1 R2 _ _].
    split.
    - intros lm Hlm. rewrite R2 in Hlm |- *. by apply C3.
    - rewrite R1, R2. pose proof (transcript_length p tr). pose proof (length_parties (transcript c p tr)). lia.
  Qed.

  Lemma snoc_counts_peer h m :
    counts h -> (Z.abs (m_id m) <= Z.of_nat (length (messages_of Peer h)) + 1) ->
    counts (h ++ [Entry Peer m]) /\
    (length (messages_of Me (h ++ [Entry Peer m])) < length (messages_of Peer (h ++ [Entry Peer m])))%nat.
  Proof.
    intros (C1 & C2 & C3) Hm.
    assert (messages_of Peer (h ++ [Entry Peer m]) = messages_of Peer h ++ [m]) as E1 by by rewrite messages_of_app.
    assert (messages_of Me (h ++ [Entry Peer m]) = messages_of Me h) as E2
      by (rewrite messages_of_app; apply app_nil_r).
    unfold counts. rewrite E1, E2, last_id_snoc, app_length, last_snoc. cbn [e_msg length]. split; [|lia].
    split; [lia|]. split; [lia|]. intros lm [= <-]. lia.
  Qed.

  Lemma snoc_counts_me h m :
    counts h -> (length (messages_of Me h) < length (messages_of Peer h))%nat ->
    Z.abs (m_id m) = Z.of_nat (length (messages_of Me h)) + 1 ->
    counts (h ++ [Entry Me m]).
  Proof.
    intros (C1 & C2 & C3) Hlt Hm.
    assert (messages_of Peer (h ++ [Entry Me m]) = messages_of Peer h) as E1
      by (rewrite messages_of_app; apply app_nil_r).
    assert (messages_of Me (h ++ [Entry Me m]) = messages_of Me h ++ [m]) as E2 by by rewrite messages_of_app.
    unfold counts. rewrite E1, E2, last_id_snoc, app_length. cbn [e_msg length].
    split; [lia|]. split; [lia|]. done.
  Qed.

  (** The id of a message just accepted. *)
  Lemma accepted_id d h e :
    dinv c d (h ++ [e]) -> counts h ->
    Z.abs (m_id (e_msg e)) <=
      match e_from e with
      | Peer => Z.of_nat (length (messages_of Peer h)) + 1
      | Me => Z.of_nat (length (messages_of Me h)) + 1
      end.
  Proof.
    intros Hd (C1 & C2 & C3). destruct (di_conv _ _ _ Hd h e [] eq_refl) as (_ & _ & H0 & H1).
    destruct (decide (h = [])) as [->|Hne].
    - destruct (H0 eq_refl) as [(Hid & _) _]. rewrite Hid. destruct (e_from e); simpl; lia.
    - destruct (H1 Hne) as (_ & Hid & _). rewrite Hid. unfold demanded_id, protocol_id.
      destruct (id_sign_pm c (d_label d) (e_from e)) as [E|E]; destruct (e_from e); rewrite E;
        try destruct (messages_of Peer h) as [|x xs] eqn:Em; lia.
  Qed.

  Lemma own_id d h m :
    dinv c d (h ++ [Entry Me m]) -> h <> [] -> Z.abs (m_id m) = Z.of_nat (length (messages_of Me h)) + 1.
  Proof.
    intros Hd Hne. destruct (di_conv _ _ _ Hd h _ [] eq_refl) as (_ & _ & _ & H1).
    destruct (H1 Hne) as (_ & Hid & _). cbn [e_msg e_from] in Hid. rewrite Hid. unfold demanded_id, protocol_id.
    destruct (id_sign_pm c (d_label d) Me) as [E|E]; rewrite E; lia.
  Qed.

  (** One message handed to the dialogues. *)
  Lemma sinv_update tr s nonce m :
    sinv tr s -> Z.of_nat (length tr) < 2 ^ 63 -> m_target m <> min_int ->
    exists s1 r, api_update c s nonce m = (s1, r) /\ is_panic r = false /\
      sinv (tr ++ [(OpUpdate nonce m, r)]) s1 /\
      (forall om p, r = Ok (om, Some p) ->
         let h := transcript c p (tr ++ [(OpUpdate nonce m, r)]) in
         last h = Some (Entry Peer m) /\ (length (messages_of Me h) < length (messages_of Peer h))%nat).
  Proof.
    intros H Hl Hm. destruct (api_update c s nonce m) as [s1 r] eqn:E. exists s1, r. split; [done|].
    assert (step c s (OpUpdate nonce m) = (s1, r)) as Es by done.
    assert (is_panic r = false) as Hp.
    { pose proof (C18_no_crash c s (OpUpdate nonce m) (clean_reachable _ _ _ (si_exec _ _ H)) I Hm) as Hc.
      rewrite Es in Hc. apply Hc. intros p d Hd. by eapply sinv_gap. }
    split; [done|].
    assert (exec_clean c (tr ++ [(OpUpdate nonce m, r)]) s1) as He by (eapply ec_call; [apply H|done|done|done]).
    assert (forall p, transcript c p (tr ++ [(OpUpdate nonce m, r)]) =
              transcript c p tr ++ match r with
                                   | Ok (_, Some q) => if decide (p = q) then [Entry Peer m] else []
                                   | _ => [] end) as Ht.
    { intros p. rewrite transcript_app. f_equal. simpl. destruct r as [[om [q|]]|e|e]; done. }
    assert (forall om p, r = Ok (om, Some p) ->
      Z.abs (m_id m) <= Z.of_nat (length (messages_of Peer (transcript c p tr))) + 1) as Hid.
    { intros om p ->. pose proof (transcript_dinv c _ s1 p (clean_exec _ _ _ He)) as Hd.
      rewrite Ht, decide_True in Hd by done. destruct (s_heap s1 !! p) as [d|].
      - apply (accepted_id d _ _ Hd), H.
      - by destruct (transcript c p tr). }
    split.
    - split; [done| |].
      + by apply (theirs_update c s nonce m s1 r (sinv_inv _ _ H) (si_theirs _ _ H) E).
      + intros p. rewrite Ht. destruct r as [[om [q|]]|e|e]; rewrite ?app_nil_r; try apply H.
        destruct (decide (p = q)) as [->|]; rewrite ?app_nil_r; [|apply H].
        apply snoc_counts_peer; [apply H|by eapply Hid].
    - intros om p -> h. unfold h. rewrite Ht, decide_True by done. split; [by rewrite last_snoc|].
      apply snoc_counts_peer; [apply H|by eapply Hid].
  Qed.

  (** A reply to the message just taken. *)
  Lemma sinv_reply tr s p perf m :
    sinv tr s -> Z.of_nat (length tr) < 2 ^ 63 -> in_store s p -> m_id m <> min_int ->
    transcript c p tr <> [] ->
    (length (messages_of Me (transcript c p tr)) < length (messages_of Peer (transcript c p tr)))%nat ->
    exists s1 r, api_reply c s p perf (Some m) None = (s1, r) /\ is_panic r = false /\
      sinv (tr ++ [(OpReply p perf (Some m) None, r)]) s1.
  Proof.
    intros H Hl Hs Hm Hne Hlt. destruct (api_reply c s p perf (Some m) None) as [s1 r] eqn:E.
    exists s1, r. split; [done|]. set (o := OpReply p perf (Some m) None).
    assert (step c s o = (s1, r)) as Es by done.
    assert (is_panic r = false) as Hp.
    { pose proof (C18_no_crash c s o (clean_reachable _ _ _ (si_exec _ _ H)) Hs) as Hc.
      rewrite Es in Hc. apply Hc; [|intros q d Hd; by eapply sinv_gap].
      split; [done|]. by intros x [= <-]. }
    split; [done|].
    assert (exec_clean c (tr ++ [(o, r)]) s1) as He by (eapply ec_call; [apply H|done|done|done]).
    assert (forall q, transcript c q (tr ++ [(o, r)]) =
              transcript c q tr ++ match r with
                                   | Ok (Some x, Some q') => if decide (q = q') then [Entry Me x] else []
                                   | _ => [] end) as Ht.
    { intros q. rewrite transcript_app. f_equal. simpl. destruct r as [[[x|] [q'|]]|e|e]; done. }
    assert (forall om q, r = Ok (om, Some q) -> q = p) as Hq.
    { intros om q ->. unfold api_reply in E. destruct (s_heap s !! p) as [d|]; [|done].
      destruct (store_update c s p _) as [? [?|?|?]]; [|done..]. congruence. }
    split; [done| |].
    - by apply (theirs_reply c s p perf (Some m) None s1 r (si_theirs _ _ H) E).
    - intros q. rewrite Ht. destruct r as [[[x|] [q'|]]|e|e]; rewrite ?app_nil_r; try apply H.
      destruct (decide (q = q')) as [->|]; rewrite ?app_nil_r; [|apply H].
      pose proof (Hq _ _ eq_refl) as ->.
      apply snoc_counts_me; [apply H|done|].
      pose proof (transcript_dinv c _ s1 p (clean_exec _ _ _ He)) as Hd.
      rewrite Ht, decide_True in Hd by done. destruct (s_heap s1 !! p) as [d|].
      + by eapply own_id.
      + by destruct (transcript c p tr).
  Qed.

  (** * Messages without a dialogue *)

  Definition knows (s : store) (m : message) : Prop :=
    exists l p, s_by_label s !! l = Some p /\ lb_opponent l = m_sender m /\
      starter_ref (lb_ref l) = starter_ref (m_ref m) /\
      (responder_ref (m_ref m) = "" \/ responder_ref (lb_ref l) = responder_ref (m_ref m)).

  Lemma stored_theirs s l p :
    inv c s -> theirs s -> s_by_label s !! l = Some p ->
    lb_starter l = lb_opponent l /\ starter_ref (lb_ref l) <> "".
  Proof.
    intros Hi Ht Hl. destruct (ia_label c s (iv_any c s Hi) l p Hl) as (d & Hd & <-).
    split; [by eapply Ht|]. by apply (ia_cb c s (iv_any c s Hi) p d).
  Qed.

  Lemma found_some s m n p s1 om : update_found c s m n (Some p) <> (s1, Ok (om, None)).
  Proof.
    unfold update_found. destruct (s_heap s !! p) as [d|]; [|done].
    destruct (store_update c s p _) as [su [x|e|e]]; [done| |done].
    destruct n; [|done]. by destruct (st_remove su (d_label d)).
  Qed.

  Lemma get_none s m :
    inv c s -> theirs s -> m_sender m <> self ->
    starter_ref (m_ref m) <> "" ->
    get_dialogue c s m = None <-> ~ knows s m.
  Proof.
    intros Hi Ht Hs Hst. unfold get_dialogue, st_get, ds_counterparty, ds_is_by_self.
    rewrite bool_decide_eq_false_2 by done.
    set (ls := st_latest_label s (DLabel (m_ref m) (m_sender m) (c_self c))).
    set (lo := st_latest_label s (DLabel (m_ref m) (m_sender m) (m_sender m))).
    assert (forall x, st_latest_label s (DLabel (m_ref m) (m_sender m) x) =
      match s_incomplete s !! DLabel (m_ref m) (m_sender m) x with
      | Some v => v | None => DLabel (m_ref m) (m_sender m) x end) as Hlat by done.
    assert (forall x v, s_incomplete s !! DLabel (m_ref m) (m_sender m) x = Some v ->
      starter_ref (lb_ref v) = starter_ref (m_ref m) /\ lb_opponent v = m_sender m /\ lb_starter v = x /\
      responder_ref (m_ref m) = "") as Hinc.
    { intros x v Hv. apply (ia_incomplete c s (iv_any c s Hi)) in Hv. unfold incomplete_version in Hv.
      injection Hv as E1 -> ->. by rewrite E1. }
    assert (s_by_label s !! ls = None) as Els.
    { destruct (s_by_label s !! ls) as [p|] eqn:E; [|done]. exfalso.
      destruct (stored_theirs s ls p Hi Ht E) as [E1 _]. unfold ls in E1. rewrite Hlat in E1.
      destruct (s_incomplete s !! _) as [v|] eqn:Ev; [|simpl in E1; congruence].
      destruct (Hinc _ _ Ev) as (_ & H1 & H2 & _). simpl in H2. congruence. }
    rewrite Els. split.
    - intros Hn (l & p & Hl & Ho & Hsr & Hr).
      destruct (stored_theirs s l p Hi Ht Hl) as [E1 _].
      assert (lo = l) as E; [|rewrite E in Hn; congruence].
      unfold lo. rewrite Hlat.
      destruct (decide (responder_ref (m_ref m) = "")) as [Er|Er].
      + assert (s_incomplete s !! DLabel (m_ref m) (m_sender m) (m_sender m) = Some l) as ->; [|done].
        assert (incomplete_version l = DLabel (m_ref m) (m_sender m) (m_sender m)) as E2.
        { unfold incomplete_version, unassigned. rewrite Hsr, E1, Ho. f_equal. destruct (m_ref m). simpl in *. congruence. }
        destruct (decide (responder_ref (lb_ref l) = "")) as [El|El].
        * rewrite (incomplete_version_idem l El) in E2.
          destruct (iv_open c s Hi l p Hl El) as [[H1 _]|[_ H1]]; [|congruence].
          rewrite E1 in H1. simpl in H1. congruence.
        * rewrite <- E2. by eapply (iv_complete c s Hi).
      + destruct Hr as [Hr|Hr]; [done|].
        destruct (s_incomplete s !! _) as [v|] eqn:Ev; [by destruct (Hinc _ _ Ev) as (_ & _ & _ & ?)|].
        destruct l as [[a b] o st], (m_ref m) as [a' b']. simpl in *. congruence.
    - intros Hk. destruct (s_by_label s !! lo) as [p|] eqn:E; [|done]. exfalso. apply Hk. exists lo, p.
      split; [done|]. unfold lo. rewrite Hlat.
      destruct (s_incomplete s !! _) as [v|] eqn:Ev; [|simpl; tauto].
      destruct (Hinc _ _ Ev) as (H1 & H2 & H3 & H4). tauto.
  Qed.

  Lemma update_unknown_iff s nonce m :
    inv c s -> theirs s ->
    (exists om, (api_update c s nonce m).2 = Ok (om, None)) <->
    from_other c m /\ m_ref m <> DRef "" "" /\
    (responder_ref (m_ref m) = "" -> m_id m <> 1 /\ m_id m <> 0) /\ ~ knows s m.
  Proof.
    intros Hi Ht.
    assert (forall r : dref, r = DRef "" "" <-> starter_ref r = "" /\ responder_ref r = "") as Hempty.
    { intros [a b]. simpl. split; [by intros [= -> ->]|by intros [-> ->]]. }
    assert (forall st : store * res out, st.1 = s /\ (exists e, st.2 = Err e) ->
      ~ exists om, st.2 = Ok (om, None)) as Herr by (intros st [_ [e ->]]; by intros [? ?]).
    unfold api_update.
    destruct (negb (has_sender m && negb (ds_is_by_self c m))) eqn:Hn.
    { split; [intros [om Hom]; discriminate Hom|]. intros [(H1 & H2 & H3) _].
      unfold has_sender, ds_is_by_self in Hn.
      rewrite (bool_decide_eq_true_2 (m_sender m <> "")) in Hn by done.
      rewrite (bool_decide_eq_false_2 (m_sender m = c_self c)) in Hn by done. done. }
    apply negb_false_iff, andb_true_iff in Hn as [H1 H2].
    unfold has_to, has_sender in *. rewrite H1. apply bool_decide_eq_true in H1.
    unfold ds_is_by_self in H2. apply negb_true_iff, bool_decide_eq_false in H2. cbn [negb].
    destruct (negb (bool_decide (m_to m = c_self c))) eqn:Hn.
    { split; [intros [om Hom]; discriminate Hom|]. intros [(_ & _ & H3) _].
      by rewrite bool_decide_eq_true_2 in Hn. }
    apply negb_false_iff, bool_decide_eq_true in Hn. unfold unassigned.
    assert (from_other c m) as Hf by done.
    destruct (decide (starter_ref (m_ref m) = "")) as [Es|Es];
      [rewrite (bool_decide_eq_false_2 (starter_ref (m_ref m) <> "")) by tauto
      |rewrite (bool_decide_eq_true_2 (starter_ref (m_ref m) <> "")) by done];
    (destruct (decide (responder_ref (m_ref m) = "")) as [Er|Er];
      [rewrite (bool_decide_eq_false_2 (responder_ref (m_ref m) <> "")) by tauto
      |rewrite (bool_decide_eq_true_2 (responder_ref (m_ref m) <> "")) by done]); cbn [andb negb].
    - unfold complete_dialogue_reference, unassigned.
      rewrite (bool_decide_eq_false_2 (starter_ref (m_ref m) <> "")) by tauto. cbn [andb negb].
      split; [intros [om Hom]; discriminate Hom|]. intros (_ & H & _). exfalso. by apply H, Hempty.
    - cbn. split; [|intros _; by eexists]. intros _. split; [done|]. split; [intros E; by apply Hempty in E as [_ ?]|].
      split; [done|]. intros (l & p & Hl & _ & E & _). destruct (stored_theirs s l p Hi Ht Hl) as [_ E2]. congruence.
    - destruct (Z.eqb_spec (m_id m) starting_message_id) as [E1|E1]; cbn [andb negb].
      { split.
        - intros [om Hom]. exfalso. destruct (create_opponent_initiated c s nonce _ _ _) as [sc [p|e|e]]; [|done..].
          destruct (update_found c sc m true (Some p)) as [s1 r] eqn:E. simpl in Hom. subst r.
          by apply found_some in E.
        - intros (_ & _ & H & _). by destruct (H Er). }
      destruct (Z.eqb_spec (m_id m) starting_target) as [E0|E0]; cbn [andb negb].
      { unfold complete_dialogue_reference, unassigned.
        rewrite (bool_decide_eq_false_2 (responder_ref (m_ref m) <> "")) by tauto. rewrite andb_false_r. cbn [negb].
        split; [intros [om Hom]; discriminate Hom|]. intros (_ & _ & H & _). by destruct (H Er). }
      rewrite <- (get_none s m Hi Ht H2 Es).
      destruct (get_dialogue c s m) as [p|].
      + split; [|intros (_ & _ & _ & H); discriminate H]. intros [om Hom].
        destruct (update_found c s m false (Some p)) as [s1 r] eqn:E. simpl in Hom. subst r. by apply found_some in E.
      + cbn. split; [|intros _; by eexists]. intros _. split; [done|]. split; [intros E; by apply Hempty in E as [? _]|]. done.
    - destruct (theirs_complete c s m Hi Ht H2) as [E|[e E]].
      2:{ exfalso. revert E. unfold complete_dialogue_reference, unassigned.
          rewrite !bool_decide_eq_true_2 by done. cbn [andb negb]. unfold st_is_present.
          destruct (s_by_label s !! _) as [p|] eqn:Ep; [|done].
          destruct (stored_theirs s _ p Hi Ht Ep) as [E2 _]. simpl in E2. exfalso. apply H2. by symmetry. }
      rewrite E. rewrite <- (get_none s m Hi Ht H2 Es).
      destruct (get_dialogue c s m) as [p|].
      + split; [|intros (_ & _ & _ & H); discriminate H]. intros [om Hom].
        destruct (update_found c s m false (Some p)) as [s1 r] eqn:E'. simpl in Hom. subst r. by apply found_some in E'.
      + cbn. split; [|intros _; by eexists]. intros _. split; [done|]. split; [intros E'; by apply Hempty in E' as [? _]|]. done.
  Qed.

  (** * Reading *)

  Lemma fold_fields_inv {A} (P : A -> Prop) f a fs a' :
    (forall a n v a', P a -> f a n v = Some a' -> P a') ->
    P a -> fold_fields f a fs = Some a' -> P a'.
  Proof.
    intros Hf. revert a. induction fs as [|[n v] fs IH]; intros a Ha; [by intros [= <-]|].
    cbn. destruct (f a n v) as [a1|] eqn:E; [|done]. apply IH. by eapply Hf.
  Qed.

  Definition small (d : dmsg) : Prop :=
    - 2 ^ 31 <= dm_id d < 2 ^ 31 /\ - 2 ^ 31 <= dm_target d < 2 ^ 31 /\
    valid_text (dm_starter d) = true.

  Lemma text_valid b x : text_of b = Some x -> valid_text x = true.
  Proof. unfold text_of, valid_text. destruct (utf8_valid b) eqn:E; [|done]. intros [= <-]. by rewrite string_bytes. Qed.

  Lemma dmsg_small d b d' : small d -> decode_into dmsg_field d b = Some d' -> small d'.
  Proof.
    intros Hd. unfold decode_into. destruct (get_fields b) as [fs|]; [|done].
    apply fold_fields_inv; [|done]. clear d Hd. intros [i s r t k] n v d1 (H1 & H2 & H3). cbn in H1, H2, H3.
    unfold dmsg_field. repeat case_match; try done; intros [= <-]; unfold small; cbn;
      repeat split; try (done || lia); try apply wrap32_range. by eapply text_valid.
  Qed.

  Lemma read_small e m k : seller_read struct_ok e = Ok (m, k) ->
    (- 2 ^ 31 <= m_id m < 2 ^ 31) /\ (- 2 ^ 31 <= m_target m < 2 ^ 31) /\
    valid_text (starter_ref (m_ref m)) = true /\ m_sender m = e_sender e /\ m_to m = e_to e.
  Proof.
    intros H. pose proof (read_envelope_spec struct_ok decode_fipa fipa_field_name e) as Hs.
    unfold seller_read in H. rewrite H in Hs. destruct Hs as (d & Hd & _ & _ & ->).
    { intros x. unfold decode_fipa, decode_into. cbn. by intros [= <-]. }
    assert (small d) as (H1 & H2 & H3); [|by cbn].
    revert Hd. unfold decode_message, decode_into. destruct (get_fields _) as [fs|]; [|done].
    destruct (fold_fields _ MNone fs) as [st|] eqn:E; [|done]. destruct st as [|b|d0]; [done|done|].
    intros [= ->].
    assert (match MDialogue d with MDialogue x => small x | _ => True end) as Hx; [|done].
    apply (fold_fields_inv (fun st => match st with MDialogue x => small x | _ => True end)
      (message_field struct_ok) MNone fs (MDialogue d)); [|done|done].
    intros a n v a' Ha. unfold message_field. repeat case_match; try done; intros [= <-]; try done;
      (eapply dmsg_small; [|eassumption]); try done; unfold small; cbn; repeat split; (done || lia).
  Qed.

  (** * Handling an envelope *)

  Lemma read_no_panic e w : seller_read struct_ok e <> Panic w.
  Proof.
    pose proof (read_envelope_spec struct_ok decode_fipa fipa_field_name e) as Hs.
    unfold seller_read. intros H. rewrite H in Hs. apply Hs.
    intros x. unfold decode_fipa, decode_into. cbn. by intros [= <-].
  Qed.

  (** The reply of the seller to a message just taken into dialogue [p]. *)
  Lemma sinv_seller_reply tr s p m perf content :
    sinv tr s -> Z.of_nat (length tr) < 2 ^ 63 -> in_store s p -> m_id m <> min_int ->
    transcript c p tr <> [] ->
    (length (messages_of Me (transcript c p tr)) < length (messages_of Peer (transcript c p tr)))%nat ->
    exists s' a tr', seller_reply self s (Some p) m perf content = (s', Ok a) /\
      sinv (tr ++ tr') s' /\ (length tr' <= 1)%nat.
  Proof.
    intros H Hl Hs Hm Hne Hlt.
    destruct (sinv_reply tr s p perf m H Hl Hs Hm Hne Hlt) as (s1 & r & E & Hp & Hi).
    unfold seller_reply. rewrite E.
    assert (forall a : sact, exists s' a0 tr', (s1, Ok a) = (s', Ok a0) /\ sinv (tr ++ tr') s' /\ (length tr' <= 1)%nat) as Hx.
    { intros a. eexists s1, a, _. split; [done|]. split; [exact Hi|]. simpl. lia. }
    destruct r as [[[x|] q]|e|e]; try done.
    destruct (make_response_envelope x fipa_protocol content) as [env|e|e] eqn:Em; try done.
    pose proof (make_response_panic x fipa_protocol content) as Hmp. by rewrite Em in Hmp.
  Qed.

  Lemma taken_in_store tr s nonce m s1 om p :
    sinv tr s -> api_update c s nonce m = (s1, Ok (om, Some p)) ->
    m_perf m <> "decline" -> m_perf m <> "end" -> in_store s1 p.
  Proof.
    intros H E H1 H2.
    destruct (C17_terminal_message c s (OpUpdate nonce m) s1 (Ok (om, Some p)) p (Entry Peer m)
      (clean_reachable _ _ _ (si_exec _ _ H)) I E eq_refl eq_refl) as [_ Hin].
    apply Hin. simpl. intros [?|[?|[]]]; congruence.
  Qed.

  Lemma handle_cases tr s nonce oe :
    sinv tr s -> Z.of_nat (length tr) + 2 < 2 ^ 63 ->
    exists s' r, seller_handle struct_ok self s nonce oe = (s', r) /\
    ((exists a tr', r = Ok a /\ sinv (tr ++ tr') s' /\ (length tr' <= 2)%nat) \/
     (exists w e m k om, r = Panic w /\ oe = Some e /\ e_protocol e = fipa_protocol /\
        seller_read struct_ok e = Ok (m, k) /\ (m_perf m = "cfp" \/ m_perf m = "accept") /\
        (api_update c s nonce m).2 = Ok (om, None))).
  Proof.
    intros H Hl. unfold seller_handle.
    assert (forall a : sact, exists s' r, (s, Ok a) = (s', r) /\
      ((exists a tr', r = Ok a /\ sinv (tr ++ tr') s' /\ (length tr' <= 2)%nat) \/
       (exists w e m k om, r = Panic w /\ oe = Some e /\ e_protocol e = fipa_protocol /\
        seller_read struct_ok e = Ok (m, k) /\ (m_perf m = "cfp" \/ m_perf m = "accept") /\
        (api_update c s nonce m).2 = Ok (om, None)))) as Hstay.
    { intros a. exists s, (Ok a). split; [done|]. left. exists a, []. rewrite app_nil_r. simpl. split; [done|]. split; [done|lia]. }
    destruct oe as [e|]; [|apply Hstay].
    destruct (String.eqb_spec (e_protocol e) fipa_protocol) as [Epr|Epr]; cbn [negb]; [|apply Hstay].
    destruct (seller_read struct_ok e) as [[m k]|w|w] eqn:Er; [|apply Hstay|by apply read_no_panic in Er].
    destruct (read_small e m k Er) as (R1 & R2 & _).
    assert (m_target m <> min_int /\ m_id m <> min_int) as [M1 M2] by (unfold min_int; lia).
    destruct (sinv_update tr s nonce m H) as (s1 & r & E & Hp & Hi & Ht); [lia|done|].
    rewrite E. cbn [snd].
    assert (forall a : sact, exists s' r0, (s1, Ok a) = (s', r0) /\
      ((exists a tr', r0 = Ok a /\ sinv (tr ++ tr') s' /\ (length tr' <= 2)%nat) \/
       (exists w e0 m0 k0 om, r0 = Panic w /\ Some e = Some e0 /\ e_protocol e0 = fipa_protocol /\
        seller_read struct_ok e0 = Ok (m0, k0) /\ (m_perf m0 = "cfp" \/ m_perf m0 = "accept") /\
        (api_update c s nonce m0).2 = Ok (om, None)))) as Hstop.
    { intros a. exists s1, (Ok a). split; [done|]. left. eexists a, _. split; [done|]. split; [exact Hi|]. simpl. lia. }
    destruct r as [[om d]|w|w]; [|apply Hstop|done].
    assert (forall perf content, m_perf m = "cfp" \/ m_perf m = "accept" ->
      exists s' r0, seller_reply self s1 d m perf content = (s', r0) /\
      ((exists a tr', r0 = Ok a /\ sinv (tr ++ tr') s' /\ (length tr' <= 2)%nat) \/
       (exists w e0 m0 k0 om, r0 = Panic w /\ Some e = Some e0 /\ e_protocol e0 = fipa_protocol /\
        seller_read struct_ok e0 = Ok (m0, k0) /\ (m_perf m0 = "cfp" \/ m_perf m0 = "accept") /\
        (api_update c s nonce m0).2 = Ok (om, None)))) as Hrep.
    { intros perf content Hperf. destruct d as [p|].
      - pose proof (Ht om p eq_refl) as Hx. cbn zeta in Hx. destruct Hx as [Hlast Hlt].
        edestruct (sinv_seller_reply (tr ++ [(OpUpdate nonce m, Ok (om, Some p))]) s1 p m perf content)
          as (s' & a & tr' & E1 & E2 & E3).
        + done.
        + rewrite app_length. simpl. lia.
        + eapply taken_in_store; [exact H|exact E| |]; destruct Hperf; congruence.
        + done.
        + intros Hn. apply (f_equal last) in Hn. by pose proof (eq_trans (eq_sym Hlast) Hn).
        + done.
        + exists s', (Ok a). split; [done|]. left. exists a, ([(OpUpdate nonce m, Ok (om, Some p))] ++ tr').
          split; [done|]. rewrite app_assoc. split; [done|]. cbn [app length]. by apply le_n_S, E3.
      - exists s1. eexists. split; [done|]. right. eexists _, e, m, k, om. split; [done|].
        split; [done|]. split; [done|]. split; [done|]. split; [done|]. by rewrite E. }
    destruct (String.eqb_spec (m_perf m) "cfp"); [apply Hrep; tauto|].
    destruct (String.eqb_spec (m_perf m) "accept"); [apply Hrep; tauto|].
    destruct (String.eqb_spec (m_perf m) "end"); apply Hstop.
  Qed.

  Lemma run_sinv tr s es s' acts :
    sinv tr s -> Z.of_nat (length tr) + 2 * Z.of_nat (length es) + 2 < 2 ^ 63 ->
    seller_run struct_ok self s es = (s', Ok acts) ->
    length acts = length es /\
    exists tr', sinv (tr ++ tr') s' /\ (length tr' <= 2 * length es)%nat.
  Proof.
    revert tr s acts. induction es as [|[nonce oe] es IH]; intros tr s acts H Hl; cbn [seller_run].
    { intros [= <- <-]. split; [done|]. exists []. by rewrite app_nil_r. }
    cbn [length] in Hl.
    destruct (handle_cases tr s nonce oe H) as (s1 & r & E & Hc); [lia|]. rewrite E.
    destruct Hc as [(a & tr1 & -> & Hi & Ht)|(w & e & m & k & om & -> & _)]; [|done].
    destruct (seller_run struct_ok self s1 es) as [s2 [acts2|w|w]] eqn:E2; try done.
    intros [= <- <-].
    destruct (IH (tr ++ tr1) s1 acts2 Hi) as (L & tr2 & Hi2 & Ht2); [rewrite app_length; lia|done|].
    split; [simpl; lia|]. exists (tr1 ++ tr2). rewrite app_assoc. split; [done|]. rewrite app_length. simpl. lia.
  Qed.

  Lemma run_app s es1 es2 s' acts :
    seller_run struct_ok self s (es1 ++ es2) = (s', Ok acts) ->
    exists s1 a1 a2, seller_run struct_ok self s es1 = (s1, Ok a1) /\
      seller_run struct_ok self s1 es2 = (s', Ok a2) /\ acts = a1 ++ a2.
  Proof.
    revert s acts. induction es1 as [|[nonce oe] es1 IH]; intros s acts; cbn [app seller_run].
    { intros H. by exists s, [], acts. }
    destruct (seller_handle struct_ok self s nonce oe) as [s0 [a|w|w]]; try done.
    destruct (seller_run struct_ok self s0 (es1 ++ es2)) as [s2 [acts2|w|w]] eqn:E2; try done.
    intros [= <- <-]. destruct (IH s0 acts2 E2) as (s1 & a1 & a2 & -> & H2 & ->).
    by exists s1, (a :: a1), a2.
  Qed.

  (** * A dialogue in progress *)

  Definition talking (s : store) (p : ptr) (l : dlabel) (h : history) : Prop :=
    s_by_label s !! l = Some p /\ exists d, s_heap s !! p = Some d /\ d_label d = l /\ dinv c d h.

  Lemma talking_step s o s' r p l h m :
    reachable c s -> reply_in_store s o -> step c s o = (s', r) -> is_panic r = false ->
    talking s p l h -> responder_ref (lb_ref l) <> "" ->
    said c o r = Some (p, m) -> m_perf (e_msg m) <> "decline" -> m_perf (e_msg m) <> "end" ->
    talking s' p l (h ++ [m]).
  Proof.
    intros Hr Hrs Hs Hp (Hl & d & Hd & Hdl & Hdi) Hre Hsaid N1 N2.
    pose proof (reachable_inv c s Hr) as Hi.
    destruct (step_any c s o s' r (iv_any _ _ Hi) Hs Hp) as (_ & g & Hef & Hrep).
    destruct (ef_old _ _ _ _ _ Hef p d Hd) as (d' & Hd' & _ & Hev & Hv & _).
    pose proof (reported_said c o r g Hrep) as Hg. rewrite Hsaid in Hg.
    destruct g as [[q x]|]; [|done]. simpl in Hg. injection Hg as <- ->.
    specialize (Hv h Hdi). unfold suffix in Hv. rewrite decide_True in Hv by done.
    assert (d_label d' = l) as Hdl'.
    { destruct Hev as [E|(_ & E & _)]; [congruence|]. rewrite Hdl in E. by destruct Hre. }
    split.
    - destruct (C12_never_overwritten c s o s' r l p Hr Hrs Hs Hp Hl) as [(l' & He & Hl')|(_ & e & Hse & Hte)].
      + destruct He as [->|(_ & E & _)]; [done|by destruct Hre].
      + rewrite Hsaid in Hse. injection Hse as <-. destruct Hte as [Hte|[Hte|[]]]; cbn in *; congruence.
    - by exists d'.
  Qed.

  Lemma talking_other s o s' r p l h :
    inv c s -> step c s o = (s', r) -> is_panic r = false ->
    talking s p l h -> call_counterparty s o <> lb_opponent l -> talking s' p l h.
  Proof.
    intros Hi Hs Hp (Hl & d & Hd & Hdl & Hdi) Hne.
    destruct (step_any c s o s' r (iv_any _ _ Hi) Hs Hp) as (_ & g & Hef & Hrep).
    destruct (ef_old _ _ _ _ _ Hef p d Hd) as (d' & Hd' & _ & _ & _ & Hsame & _).
    rewrite Hsame in Hd' by congruence. split; [|by exists d].
    by rewrite (ef_labels _ _ _ _ _ Hef).
  Qed.

  (** The store calls that handling an envelope consists of. *)
  Lemma handle_steps s nonce oe s' a :
    seller_handle struct_ok self s nonce oe = (s', Ok a) ->
    s' = s \/
    exists e m k s1 r, oe = Some e /\ seller_read struct_ok e = Ok (m, k) /\
      api_update c s nonce m = (s1, r) /\ is_panic r = false /\
      (s' = s1 \/ exists p perf om r2, r = Ok (om, Some p) /\
         (m_perf m = "cfp" \/ m_perf m = "accept") /\
         api_reply c s1 p perf (Some m) None = (s', r2) /\ is_panic r2 = false).
  Proof.
    unfold seller_handle. destruct oe as [e|]; [|by intros [= -> _]; left].
    destruct (negb _); [by intros [= -> _]; left|].
    destruct (seller_read struct_ok e) as [[m k]|w|w] eqn:Er; [|by intros [= -> _]; left|done].
    destruct (api_update c s nonce m) as [s1 r] eqn:E. intros H. right.
    exists e, m, k, s1, r. split; [done|]. split; [done|]. split; [done|].
    destruct r as [[om d]|w|w]; [|injection H as <- _; by split; [|left]|done]. split; [done|].
    assert (forall perf content, (m_perf m = "cfp" \/ m_perf m = "accept") ->
      seller_reply self s1 d m perf content = (s', Ok a) ->
      s' = s1 \/ exists p perf0 om0 r2, Ok (om, d) = Ok (om0, Some p) /\
         (m_perf m = "cfp" \/ m_perf m = "accept") /\
         api_reply c s1 p perf0 (Some m) None = (s', r2) /\ is_panic r2 = false) as Hx.
    { intros perf content Hpf. unfold seller_reply. destruct d as [p|]; [|done].
      destruct (api_reply c s1 p perf (Some m) None) as [s2 r2] eqn:E2. intros Hres. right.
      exists p, perf, om, r2. split; [done|]. split; [done|].
      destruct r2 as [[[x|] q]|w|w]; [|by injection Hres as <- _|by injection Hres as <- _|done].
      destruct (make_response_envelope x fipa_protocol content); [by injection Hres as <- _|by injection Hres as <- _|done]. }
    destruct (String.eqb_spec (m_perf m) "cfp"); [by eapply Hx; [left|]|].
    destruct (String.eqb_spec (m_perf m) "accept"); [by eapply Hx; [right|]|].
    left. destruct (String.eqb (m_perf m) "end"); by injection H as <- _.
  Qed.

  Lemma reply_counterparty s nonce m s1 om p :
    inv c s -> api_update c s nonce m = (s1, Ok (om, Some p)) ->
    exists d, s_heap s1 !! p = Some d /\ lb_opponent (d_label d) = m_sender m.
  Proof.
    intros Hi E.
    destruct (step_any c s (OpUpdate nonce m) s1 (Ok (om, Some p)) (iv_any _ _ Hi) E eq_refl) as (Hi1 & g & Hef & Hrep).
    destruct Hrep as (x & -> & Hx). destruct Hx as (_ & -> & Hx).
    destruct (ef_grown _ _ _ _ _ Hef p m eq_refl) as [d Hd]. exists d. split; [done|].
    destruct (s_heap s !! p) as [d0|] eqn:E0.
    - destruct (ef_old _ _ _ _ _ Hef p d0 E0) as (d' & Hd' & _ & _ & Hv & _).
      rewrite Hd in Hd'. injection Hd' as <-.
      destruct (ia_dlg c s (iv_any _ _ Hi) p d0 E0) as [h Hh]. specialize (Hv h Hh).
      unfold suffix in Hv. rewrite decide_True in Hv by done.
      destruct (di_conv _ _ _ Hv h _ [] eq_refl) as [Ha _]. unfold addressed in Ha. cbn in Ha.
      unfold from_of in Ha. rewrite decide_False in Ha by tauto. by destruct Ha as [-> _].
    - by destruct (ef_new _ _ _ _ _ Hef p d E0 Hd) as (_ & H1 & _).
  Qed.

  Definition not_from (b : address) (x : string * option envelope) : Prop :=
    forall e, x.2 = Some e -> e_sender e <> b.

  Lemma handle_other tr s nonce oe s' a p l h :
    sinv tr s -> Z.of_nat (length tr) + 2 < 2 ^ 63 ->
    seller_handle struct_ok self s nonce oe = (s', Ok a) ->
    not_from (lb_opponent l) (nonce, oe) -> talking s p l h -> talking s' p l h.
  Proof.
    intros H Hl E Hn Ht.
    destruct (handle_steps s nonce oe s' a E) as [->|(e & m & k & s1 & r & -> & Er & Eu & Hp & Hs)]; [done|].
    destruct (read_small e m k Er) as (_ & _ & _ & Hsnd & _).
    assert (m_sender m <> lb_opponent l) as Hne by (rewrite Hsnd; by apply (Hn e)).
    pose proof (sinv_inv tr s H) as Hi.
    assert (talking s1 p l h) as Ht1.
    { by apply (talking_other s (OpUpdate nonce m) s1 r p l h Hi). }
    destruct Hs as [->|(q & perf & om & r2 & -> & _ & E2 & Hp2)]; [done|].
    destruct (reply_counterparty s nonce m s1 om q Hi Eu) as (d & Hd & Ho).
    assert (inv c s1) as Hi1 by (apply (reachable_inv c s1); eapply (r_step c s (OpUpdate nonce m)); [eapply clean_reachable, H|done|exact Eu|done]).
    eapply (talking_other s1 (OpReply q perf (Some m) None) s' r2); [done|done|done|done|].
    simpl. rewrite Hd. congruence.
  Qed.

  Lemma run_other tr s es s' acts p l h :
    sinv tr s -> Z.of_nat (length tr) + 2 * Z.of_nat (length es) + 2 < 2 ^ 63 ->
    seller_run struct_ok self s es = (s', Ok acts) ->
    Forall (not_from (lb_opponent l)) es -> talking s p l h -> talking s' p l h.
  Proof.
    revert tr s acts. induction es as [|[nonce oe] es IH]; intros tr s acts H Hl; cbn [seller_run].
    { by intros [= <- <-]. }
    cbn [length] in Hl.
    destruct (handle_cases tr s nonce oe H) as (s1 & r & E & Hc); [lia|]. rewrite E.
    destruct Hc as [(a & tr1 & -> & Hi & Ht1)|(w & e & m & k & om & -> & _)]; [|done].
    destruct (seller_run struct_ok self s1 es) as [s2 [acts2|w|w]] eqn:E2; try done.
    intros [= <- <-] Hf Ht. apply Forall_cons in Hf as [Hf1 Hf2].
    eapply (IH (tr ++ tr1) s1); [done|rewrite app_length; lia|exact E2|done|].
    eapply (handle_other tr s nonce oe s1 a); [done|lia|done|done|done].
  Qed.

  (** A reference that was not used stays free. *)
  Definition unused (b x : string) (y : string * option envelope) : Prop :=
    forall e m k, y.2 = Some e -> seller_read struct_ok e = Ok (m, k) ->
      ~ (m_sender m = b /\ m_ref m = DRef x "").

  Lemma run_unused tr s es s' acts b x :
    sinv tr s -> Z.of_nat (length tr) + 2 * Z.of_nat (length es) + 2 < 2 ^ 63 ->
    seller_run struct_ok self s es = (s', Ok acts) -> Forall (unused b x) es ->
    s_incomplete s !! DLabel (DRef x "") b b = None -> s_incomplete s' !! DLabel (DRef x "") b b = None.
  Proof.
    revert tr s acts. induction es as [|[nonce oe] es IH]; intros tr s acts H Hl; cbn [seller_run].
    { by intros [= <- <-]. }
    cbn [length] in Hl.
    destruct (handle_cases tr s nonce oe H) as (s1 & r & E & Hc); [lia|]. rewrite E.
    destruct Hc as [(a & tr1 & -> & Hi & Ht1)|(w & e & m & k & om & -> & _)]; [|done].
    destruct (seller_run struct_ok self s1 es) as [s2 [acts2|w|w]] eqn:E2; try done.
    intros [= <- <-] Hf Ht. apply Forall_cons in Hf as [Hf1 Hf2].
    eapply (IH (tr ++ tr1) s1); [done|rewrite app_length; lia|exact E2|done|].
    destruct (handle_steps s nonce oe s1 a E) as [->|(e & m & k & s0 & r & -> & Er & Eu & Hp & Hs)]; [done|].
    destruct (theirs_update c s nonce m s0 r (sinv_inv _ _ H) (si_theirs _ _ H) Eu Hp) as [T1 T2].
    assert (s_incomplete s0 !! DLabel (DRef x "") b b = None) as H0.
    { apply T2; [done|]. intros [_ E']. injection E' as E1 E3 _. by apply (Hf1 e m k eq_refl Er). }
    destruct Hs as [->|(q & perf & om & r2 & -> & _ & E4 & Hp2)]; [done|].
    by apply (theirs_reply c s0 q perf (Some m) None s1 r2 T1 E4 Hp2).
  Qed.

  Lemma open_talks tr s n m b x :
    sinv tr s -> Z.of_nat (length tr) < 2 ^ 63 -> m = Msg self b (DRef x "") 1 0 "cfp" ->
    b <> "" -> b <> self -> x <> "" -> n <> "" ->
    s_incomplete s !! DLabel (DRef x "") b b = None ->
    exists s1 p, api_update c s n m = (s1, Ok (None, Some p)) /\
      talking s1 p (DLabel (DRef x n) b b) [Entry Peer m].
  Proof.
    intros H Hl -> Hb1 Hb2 Hx Hn Hf. pose proof (sinv_inv tr s H) as Hi.
    set (m := Msg self b (DRef x "") 1 0 "cfp") in *.
    destruct (opening_outcome c s n m Hi) as (s1 & r & Es & Hok & _); [by repeat split|done..|].
    destruct Hok as (p & d & -> & Hno & Hd & Hdl & _); [split; [done|by left]|].
    exists s1, p. split; [done|].
    destruct (step_any c s (OpUpdate n m) s1 _ (iv_any _ _ Hi) Es eq_refl) as (Hi1 & g & Hef & Hrep).
    destruct Hrep as (y & -> & _ & -> & _).
    destruct (ef_new _ _ _ _ _ Hef p d Hno Hd) as (_ & _ & Hdi & _).
    unfold suffix in Hdi. rewrite decide_True in Hdi by done.
    unfold from_of in Hdi. rewrite decide_False in Hdi by done.
    destruct (taken_in_store tr s n m s1 None p H Es) as [l' Hl']; [done|done|].
    destruct (ia_label c s1 Hi1 l' p Hl') as (d0 & Hd0 & Hdl0).
    rewrite Hd in Hd0. injection Hd0 as <-. rewrite Hdl in Hdl0. subst l'.
    split; [exact Hl'|]. by exists d.
  Qed.

  Lemma update_talks tr s p l h n m :
    sinv tr s -> Z.of_nat (length tr) < 2 ^ 63 -> talking s p l h -> h <> [] ->
    from_other c m -> m_sender m = lb_opponent l -> m_ref m = lb_ref l ->
    starter_ref (lb_ref l) <> "" -> responder_ref (lb_ref l) <> "" ->
    m_id m = demanded_id c l Peer h -> target_ok c l h m ->
    exists s1, api_update c s n m = (s1, Ok (None, Some p)) /\
      (m_perf m <> "decline" -> m_perf m <> "end" -> talking s1 p l (h ++ [Entry Peer m])).
  Proof.
    intros H Hl Ht Hne Ho Hs Hr R1 R2 Hid Hta. pose proof (sinv_inv tr s H) as Hi.
    pose proof Ht as (Hlp & d & Hd & Hdl & Hdi).
    assert ((api_update c s n m).2 = Ok (None, Some p)) as E.
    { apply (update_accepts_iff c s n m l p d h); try done.
      intros _ l2 p2 H2 H3 H4. destruct (stored_theirs s l2 p2 Hi (si_theirs _ _ H) H2) as [H5 _].
      destruct Ho as (_ & Ho & _). congruence. }
    destruct (api_update c s n m) as [s1 r] eqn:Eu. cbn in E. subst r. exists s1. split; [done|].
    intros N1 N2.
    eapply (talking_step s (OpUpdate n m) s1 (Ok (None, Some p)) p l h (Entry Peer m));
      [eapply clean_reachable, H|done..].
  Qed.

  Lemma reply_talks tr s p l h perf m :
    sinv tr s -> talking s p l h -> h <> [] ->
    lb_opponent l <> self -> lb_starter l <> self -> responder_ref (lb_ref l) <> "" ->
    perf <> "decline" -> perf <> "end" ->
    let mr := Msg (lb_opponent l) self (lb_ref l) (protocol_id c l Me h) (m_id m) perf in
    target_ok c l h mr ->
    exists s1, api_reply c s p perf (Some m) None = (s1, Ok (Some mr, Some p)) /\
      talking s1 p l (h ++ [Entry Me mr]).
  Proof.
    intros H Ht Hne Ho Hst R2 N1 N2 mr Hta. pose proof (sinv_inv tr s H) as Hi.
    pose proof Ht as (Hlp & d & Hd & Hdl & Hdi).
    assert (is_ok (dialogue_reply d perf (Some m) None) = true) as Hok.
    { apply (reply_accept_iff c d h); rewrite ?Hdl; try done. }
    destruct (dialogue_reply d perf (Some m) None) as [[[d' m'] t]|e|e] eqn:Er; [|done..].
    destruct (reply_result c d h perf (Some m) None d' m' t Hdi Er)
      as (le & Hle & Hm & Htt & _ & Hap & Hte & Hd').
    assert (m' = mr) as -> by (rewrite Hm, Htt, Hdl; done).
    destruct (inv_store_update c s p d d' mr t (h ++ [Entry Me mr])) as (s1 & Hs1 & _); try done.
    { by rewrite Hdl. } { by rewrite Hap. } { by rewrite Hap. }
    exists s1.
    assert (api_reply c s p perf (Some m) None = (s1, Ok (Some mr, Some p))) as E.
    { unfold api_reply. rewrite Hd, Er. by rewrite Hs1. }
    split; [done|].
    eapply (talking_step s (OpReply p perf (Some m) None) s1 _ p l h (Entry Me mr));
      [eapply clean_reachable, H|by exists l|exact E|done..].
  Qed.
End Seller.
