(** Properties of the delegate service of a peer node (C31, C37-C39, C60). *)
From Coq Require Import ZArith NArith List String Ascii Lia.
From stdpp Require Import base tactics gmap list strings.
From Verif Require Import GoBase Bytes Utf8 WireModel ProtoModel CryptoModel PorModel CryptoProofs CryptoProps
  PorProps AcnModel DelegateModel DelegateProofs.
Open Scope string_scope.
Open Scope list_scope.
Open Scope Z_scope.

(** ** Data for the examples *)
Definition alice : record :=
  Record_ "s" "fetchai" "fetch1pg9scrg8qurswpc8qurswpc8qurswpc80ay04q" "0A0b0c0D"
    "peer" (string_of [z2b 10; z2b 11; z2b 12; z2b 13; "p"%char; "e"%char; "e"%char; "r"%char]) "" "".
Definition bob : record :=
  Record_ "s" "ethereum" "0x0909090909090909090909090909090909090909" "0x0A0b0c0D" "peer"
    (String.concat "" ("0X" :: replicate 64 "09" ++ ["1b"])) "" "".
Definition frame_of (m : acn_perf) : res bytes := Ok (default [] (encode_acn (Some m))).
Definition env (to from text : string) : envelope := Envelope to from "proto" (bytes_of text) "".
Definition send_frame (e : envelope) : res bytes :=
  frame_of (PEnvelope (default [] (encode_envelope e)) None).
(** The steps of a client that registers with record [r] on connection [c]. *)
Definition joins (c : nat) (r : record) : list event :=
  [ERead c (frame_of (PRegister (Some r))) true; EGo c true; EGo c true; EGo c true; EGo c true].
Definition leaves (c : nat) : list event := [ERead c (Err "EOF") true; EGo c true; EGo c true].
Definition toy_run := run toy "peer" "why" node0.

Lemma toy_digests : digests_ok toy.
Proof.
  split; intros x; unfold p_ripemd160, p_keccak256, toy; rewrite take_length, app_length, replicate_length; lia.
Qed.

(** ** C31: the registration phase *)

(** A frame on a new connection ends the process exactly if it is a register message
    without a record, or with a record on which the check of the proof crashes
    (see C30). *)
Theorem C31_registration P my_key why n c frame write_ok :
  phase_of n c = New ->
  is_panic (step P my_key why n (ERead c (Ok frame) write_ok)) = true <->
  exists rec, decode_acn frame = Some (Some (PRegister rec)) /\
    is_panic (por_check P rec (default "" (r_address <$> rec)) my_key) = true.
Proof.
  intros Hn. cbn [step]. rewrite Hn. unfold read_new, read_registration.
  destruct (decode_acn frame) as [[[| | |[r|]|]|]|]; cbn [is_panic]; try by split; [|intros (? & ? & ?)].
  - destruct (is_valid_por P r (r_address r) my_key) as [[code err]|e|p] eqn:Ep; cbn.
    + split; [|intros (rec & [= <-] & H); cbn in H; by rewrite Ep in H].
      destruct err; cbn; [done|]. destruct (Z.eqb_spec code SUCCESS) as [->|Hc]; [done|]. intros _. exfalso.
      assert (Hno : ~ represents P r (r_address r) my_key).
      { intros H%C29_accepted. rewrite Ep in H. injection H as H. done. }
      by destruct (C29_refused _ _ _ _ _ _ Ep Hno) as [? _].
    + split; [done|]. intros (rec & [= <-] & H). cbn in H. by rewrite Ep in H.
    + split; [|done]. intros _. exists (Some r). split; [done|]. cbn. by rewrite Ep.
  - split; [|done]. intros _. by exists None.
Qed.
Print Assumptions C31_registration.

Example C31_registration_example :
  decode_acn [z2b 66; z2b 0] = Some (Some (PRegister None)) /\
  is_panic (step toy "peer" "why" node0 (ERead 1 (Ok [z2b 66; z2b 0]) true)) = true /\
  is_panic (step toy "peer" "why" node0
    (ERead 1 (frame_of (PRegister (Some (Record_ "" "ethereum" "a" "" "peer" "" "" "")))) true)) = true /\
  is_panic (step toy "peer" "why" node0 (ERead 1 (frame_of (PRegister (Some alice))) true)) = false.
Proof. vm_compute. done. Qed.

(** ** C37 *)

(** Whatever the clients send and however their goroutines interleave: an envelope is
    handed to routing on behalf of a connection only if that connection opened with
    a registration whose record proves that the envelope's sender is represented by
    this node, and then sent that very envelope. *)
Theorem C37_attribution P my_key why evs n c e :
  run P my_key why node0 evs = Ok n -> In (c, e) (n_routed n) ->
  (exists frame r, first_read c evs = Some (Ok frame) /\
     decode_acn frame = Some (Some (PRegister (Some r))) /\ represents P r (e_sender e) my_key) /\
  (exists frame b rec, In (ERead c (Ok frame) true) evs /\
     decode_acn frame = Some (Some (PEnvelope b rec)) /\ decode_envelope b = Some e).
Proof.
  intros (_ & _ & _ & _ & H)%run_inv Hin. rewrite Forall_forall in H.
  apply elem_of_list_In, H in Hin as [(r & (f & H1 & H2 & H3) & Ha) Hr]. cbn in *.
  split; [|exact Hr]. exists f, r. rewrite <- Ha. done.
Qed.
Print Assumptions C37_attribution.

(** The records the node keeps for its clients (and hands out in answer to lookups)
    are proven, and stored under the address they prove. *)
Theorem C37_records P my_key why evs n a r :
  run P my_key why node0 evs = Ok n -> n_records n !! a = Some r ->
  represents P r a my_key /\
  exists c frame, first_read c evs = Some (Ok frame) /\
    decode_acn frame = Some (Some (PRegister (Some r))).
Proof.
  intros Hrun. revert evs n Hrun. 
  apply (run_ind P my_key why (fun evs n => n_records n !! a = Some r ->
    represents P r a my_key /\ exists c frame, first_read c evs = Some (Ok frame) /\
      decode_acn frame = Some (Some (PRegister (Some r))))); [done|].
  intros evs n ev n' Hrun IH Hs Hl.
  assert (Hold : n_records n !! a = Some r ->
    represents P r a my_key /\ exists c frame, first_read c (evs ++ [ev]) = Some (Ok frame) /\
      decode_acn frame = Some (Some (PRegister (Some r)))).
  { intros H. destruct (IH H) as (H1 & c & f & H2 & H3). split; [done|]. exists c, f.
    split; [|done]. by rewrite first_read_app, H2. }
  destruct ev as [c read w|c ok|w|w]; cbn [step] in Hs.
  - destruct (phase_of n c); try done.
    + apply read_new_cases in Hs as (sent & p & -> & _). by apply Hold.
    + apply read_loop_cases in Hs as
        (sent & [->|[[s ->]|(f & b & rec & e & -> & -> & Hd & He & -> & [[Hs ->]|[Hs ->]])]]); by apply Hold.
  - unfold go in Hs. destruct (run_inv _ _ _ _ _ Hrun) as (Hph & _). specialize (Hph c).
    destruct (phase_of n c) as [|r' k|b|b s|b q s| |b e|b e|b e|b k|b|] eqn:Ep; try done;
      try (injection Hs as <-; by apply Hold);
      try (destruct k as [|[|[|k]]]; injection Hs as <-; try (by apply Hold));
      try (destruct (_ <? _)%nat; try done; injection Hs as <-; by apply Hold).
    cbn in Hl. destruct (decide (r_address r' = a)) as [<-|]; [|rewrite lookup_insert_ne in Hl by done; by apply Hold].
    rewrite lookup_insert in Hl. injection Hl as <-. destruct Hph as (f & H1 & H2 & H3).
    split; [done|]. exists c, f. split; [|done]. by rewrite first_read_app, H1.
  - unfold start in Hs. destruct (n_workers n !! w) as [[p [ch|]]|]; try done. injection Hs as <-. by apply Hold.
  - unfold take_ in Hs. destruct (n_workers n !! w) as [[p [ch|]]|]; try done.
    destruct (n_chans n !! ch) as [[|x l]|]; try done. injection Hs as <-. by apply Hold.
Qed.
Print Assumptions C37_records.

(** Two clients; the first also tries to send in the name of the second. *)
Example C37_example :
  match toy_run (joins 1 alice ++ joins 2 bob ++
    [ERead 1 (send_frame (env "carol" (r_address alice) "one")) true; EGo 1 true; EGo 1 true; EGo 1 true;
     ERead 1 (send_frame (env "carol" (r_address bob) "forged")) true;
     ERead 2 (send_frame (env "carol" (r_address bob) "two")) true; EGo 2 true; EGo 2 true; EGo 2 true;
     EStart 0; EStart 1; ETake 1; ETake 0]) with
  | Ok n => n_routed n = [(2%nat, env "carol" (r_address bob) "two"); (1%nat, env "carol" (r_address alice) "one")] /\
      n_records n !! r_address bob = Some bob /\
      map fst (n_sent n) = [1; 2; 1; 1; 2]%nat /\ Forall (eq acn_success) (map snd (n_sent n))
  | _ => False
  end.
Proof. vm_compute. repeat constructor. Qed.

(** ** C38 *)

Definition sent_by (c : nat) (to : string) (l : list (nat * envelope)) : list (nat * envelope) :=
  List.filter (fun x => Nat.eqb (fst x) c && String.eqb (e_to (snd x)) to) l.

(** Only connection [c] ever registers address [a]. *)
Definition only_client P my_key (evs : list event) (c : nat) (a : string) : Prop :=
  registered_as P my_key evs c a /\ forall c', registered_as P my_key evs c' a -> c' = c.

Lemma only_sole P my_key evs c a : only_client P my_key evs c a -> sole_client P my_key evs a.
Proof. intros [_ H] c1 c2 H1 H2. by rewrite (H _ H1), (H _ H2). Qed.

Lemma sent_by_pair P my_key evs c a to l :
  digests_ok P -> only_client P my_key evs c a -> Forall (ok_entry P my_key evs) l ->
  of_pair (to ++ a)%string l = sent_by c to l.
Proof.
  intros Hd Ho Hl. unfold of_pair, sent_by. induction Hl as [|[c' e] l [Hx _] _ IH]; [done|]. cbn in *.
  replace (String.eqb (pair_key e) (to ++ a)) with (Nat.eqb c' c && String.eqb (e_to e) to); [by rewrite IH|].
  destruct (String.eqb_spec (pair_key e) (to ++ a)) as [E|E].
  - destruct (Ho) as [(r & (f & _ & _ & Hr) & Hra) Hsole].
    pose proof Hx as (r' & (f' & _ & _ & Hr') & Hra'). rewrite Hra in Hr. rewrite Hra' in Hr'.
    destruct (pair_inj P my_key r' r (e_to e) to (e_sender e) a Hd Hr' Hr E) as [-> Ea].
    rewrite Ea in Hx. rewrite (Hsole _ Hx), Nat.eqb_refl, String.eqb_refl. done.
  - apply andb_false_iff. destruct (Nat.eqb_spec c' c) as [->|]; [|by left]. right.
    apply String.eqb_neq. intros <-. apply E. unfold pair_key.
    by rewrite (registered_as_fun _ _ _ _ _ _ Hx (proj1 Ho)).
Qed.

Lemma sent_by_conn c to l : sent_by c to l = sent_by c to (of_conn c l).
Proof.
  unfold sent_by, of_conn. induction l as [|[c' e] l IH]; [done|]. cbn.
  destruct (Nat.eqb_spec c' c) as [->|]; cbn; [|done]. rewrite Nat.eqb_refl. cbn.
  destruct (String.eqb (e_to e) to); by rewrite IH.
Qed.

Lemma sent_by_app c to l1 l2 : sent_by c to (l1 ++ l2) = sent_by c to l1 ++ sent_by c to l2.
Proof. apply List.filter_app. Qed.

Lemma filter_sublist {A} (f : A -> bool) l : sublist (List.filter f l) l.
Proof. induction l as [|x l IH]; cbn; [done|]. destruct (f x); by constructor. Qed.

Lemma filter_sublist_mono {A} (f : A -> bool) l k : sublist l k -> sublist (List.filter f l) (List.filter f k).
Proof. induction 1 as [|x l k _ IH|x l k _ IH]; cbn; [done|..]; destruct (f x); try done; by constructor. Qed.

Lemma sublist_map_queued l : sublist (queued l) (map fst l).
Proof. unfold queued. induction l as [|[x b] l IH]; cbn; [done|]. destruct b; cbn; by constructor. Qed.

Lemma queued_ok P my_key evs n :
  inv P my_key evs n -> Forall (ok_entry P my_key evs) (queued (n_decided n)).
Proof.
  intros (_ & _ & _ & H & _). rewrite Forall_forall in *. intros x Hx. apply H.
  unfold queued in Hx. apply elem_of_list_In, in_map_iff in Hx as (y & <- & [Hy _]%filter_In).
  by apply elem_of_list_In, in_map.
Qed.

Lemma accepted_split P my_key why evs n c to :
  run P my_key why node0 evs = Ok n ->
  sent_by c to (n_accepted n) =
    sent_by c to (map fst (n_decided n)) ++ sent_by c to (in_hand c (phase_of n c)).
Proof.
  intros H%run_hand. rewrite sent_by_conn, (H c), sent_by_app. f_equal. by rewrite <- sent_by_conn.
Qed.

Lemma queued_split P my_key why evs n c a to :
  digests_ok P -> run P my_key why node0 evs = Ok n -> only_client P my_key evs c a ->
  sent_by c to (queued (n_decided n)) = sent_by c to (n_routed n) ++ waiting n (to ++ a).
Proof.
  intros Hd Hr Ho. pose proof (run_inv _ _ _ _ _ Hr) as Hi.
  pose proof Ho as [(r & (f & _ & _ & Hrep) & Hra) _]. rewrite Hra in Hrep.
  pose proof (run_queues _ _ _ _ _ _ _ Hd Hrep Hr (only_sole _ _ _ _ _ Ho)) as Hq.
  rewrite <- (sent_by_pair P my_key evs c a to _ Hd Ho (queued_ok _ _ _ _ Hi)).
  rewrite <- (sent_by_pair P my_key evs c a to _ Hd Ho (proj2 (proj2 (proj2 (proj2 Hi))))).
  apply (iq_fifo _ _ Hq). by exists to.
Qed.

(** Order and at most once: what is routed from a client to a recipient is a
    subsequence of what was accepted from it for that recipient. *)
Theorem C38_order P my_key why evs n c a to :
  digests_ok P -> run P my_key why node0 evs = Ok n -> only_client P my_key evs c a ->
  sublist (sent_by c to (n_routed n)) (sent_by c to (n_accepted n)).
Proof.
  intros Hd Hr Ho. rewrite (accepted_split _ _ _ _ _ _ _ Hr).
  transitivity (sent_by c to (queued (n_decided n))).
  { rewrite (queued_split _ _ _ _ _ _ _ _ Hd Hr Ho). by apply sublist_inserts_r. }
  transitivity (sent_by c to (map fst (n_decided n))); [apply filter_sublist_mono, sublist_map_queued|].
  by apply sublist_inserts_r.
Qed.
Print Assumptions C38_order.

(** Nothing is lost unless a queue was full: if no envelope of this client to this
    recipient was dropped, those accepted are those routed, then those waiting, then
    possibly one that the goroutine is about to queue; and the one that waits longest
    can be routed next. *)
Theorem C38_complete P my_key why evs n c a to :
  digests_ok P -> run P my_key why node0 evs = Ok n -> only_client P my_key evs c a ->
  (forall e, In (c, e, false) (n_decided n) -> e_to e <> to) ->
  exists wait hand,
    sent_by c to (n_accepted n) = sent_by c to (n_routed n) ++ wait ++ hand /\
    (length hand <= 1)%nat /\ (phase_of n c = Looping a -> hand = []) /\
    (forall x l, wait = x :: l ->
       exists evs' n', run P my_key why n evs' = Ok n' /\ n_routed n' = n_routed n ++ [x] /\
         exists w, evs' = [ETake w] \/ evs' = [EStart w; ETake w]).
Proof.
  intros Hd Hr Ho Hno. pose proof Ho as [(r & (f & _ & _ & Hrep) & Hra) _]. rewrite Hra in Hrep.
  pose proof (run_queues _ _ _ _ _ _ _ Hd Hrep Hr (only_sole _ _ _ _ _ Ho)) as Hq.
  exists (waiting n (to ++ a)), (sent_by c to (in_hand c (phase_of n c))). split; [|split; [|split]].
  - rewrite (accepted_split _ _ _ _ _ _ _ Hr), app_assoc. f_equal.
    rewrite <- (queued_split _ _ _ _ _ _ _ _ Hd Hr Ho). clear -Hno. revert Hno.
    induction (n_decided n) as [|[[c' e] b] l IH]; intros Hno; [done|].
    assert (IH' := IH (fun e' H => Hno e' (or_intror H))). clear IH.
    unfold queued, sent_by in *. cbn. destruct b; cbn; [by rewrite IH'|].
    destruct (Nat.eqb_spec c' c) as [->|]; cbn; [|done].
    destruct (String.eqb_spec (e_to e) to) as [E|]; [|done]. exfalso. by eapply Hno; [left|].
  - destruct (phase_of n c); cbn; try lia; unfold sent_by; cbn; destruct (_ && _); cbn; lia.
  - by intros ->.
  - intros x l Hw. unfold waiting in Hw. destruct (n_pairs n !! (to ++ a)%string) as [ch|] eqn:Ech; [|done].
    destruct (iq_served _ _ Hq _ _ Ech) as (w & o & Ew).
    assert (Hm : mine a (to ++ a)) by (by exists to).
    destruct (n_chans n !! ch) as [l'|] eqn:El; [|done]. cbn in Hw. subst l'.
    destruct o as [ch'|].
    + pose proof (iq_worker _ _ Hq _ _ _ Hm Ew) as E. rewrite Ech in E. injection E as <-.
      exists [ETake w]. cbn. unfold take_. rewrite Ew, El. cbn. eexists. split; [done|]. split; [done|]. eauto.
    + exists [EStart w; ETake w]. cbn. unfold start. rewrite Ew. cbn. unfold take_. cbn.
      rewrite list_lookup_insert by (by eapply lookup_lt_Some). rewrite Ech, El. cbn.
      eexists. split; [done|]. split; [done|]. eauto.
Qed.
Print Assumptions C38_complete.

(** An envelope is dropped exactly when 1000 envelopes of this client to this recipient
    are waiting (those its queue has taken and not yet given to routing). *)
Theorem C38_dropped P my_key why evs n c a e ok n' kept :
  digests_ok P -> run P my_key why node0 evs = Ok n -> only_client P my_key evs c a ->
  step P my_key why n (EGo c ok) = Ok n' -> n_decided n' = n_decided n ++ [(c, e, kept)] ->
  kept = false <->
  (1000 + length (sent_by c (e_to e) (n_routed n)) <=
     length (sent_by c (e_to e) (map fst (List.filter snd (n_decided n)))))%nat.
Proof.
  intros Hd Hr Ho Hs He. cbn in Hs. unfold go in Hs.
  pose proof (run_inv _ _ _ _ _ Hr) as (Hph & _). specialize (Hph c).
  assert (Hlen : forall {A} (l : list A) x, l <> l ++ [x]).
  { intros A l x E. apply (f_equal length) in E. rewrite app_length in E. cbn in E. lia. }
  destruct (phase_of n c) as [|r' k|b|b s|b q s| |b e'|b e'|b e'|b k|b|] eqn:Ep; try done;
    try (injection Hs as <-; by apply Hlen in He);
    try (destruct k as [|[|[|k]]]; injection Hs as <-; by apply Hlen in He).
  { destruct (_ <? _)%nat; try done; injection Hs as <-; by apply Hlen in He. }
  destruct Hph as (Hreg & <- & _).
  pose proof Ho as [(r & (f & _ & _ & Hrep) & Hra) _]. rewrite Hra in Hrep.
  pose proof (registered_as_fun _ _ _ _ _ _ Hreg (proj1 Ho)) as Ea.
  pose proof (run_queues _ _ _ _ _ _ _ Hd Hrep Hr (only_sole _ _ _ _ _ Ho)) as Hq.
  destruct (iq_enqueuing _ _ Hq _ _ _ Ep) as [ch Hch]. rewrite Hch in Hs. cbn [default id from_option] in Hs.
  destruct (iq_chan _ _ Hq _ _ Hch) as [_ [l Hl]]. rewrite Hl in Hs. cbn [default id from_option] in Hs.
  assert (Hw : waiting n (e_to e' ++ a) = l).
  { unfold waiting. rewrite <- Ea. unfold pair_key in Hch. by rewrite Hch, Hl. }
  assert (e' = e /\ kept = (length l <? pair_cap)%nat) as [-> ->].
  { destruct (length l <? pair_cap)%nat; injection Hs as <-; cbn in He;
      apply app_inj_tail in He as [_ [= -> <-]]; done. }
  change (map fst (List.filter snd (n_decided n))) with (queued (n_decided n)).
  rewrite (queued_split _ _ _ _ _ _ _ (e_to e) Hd Hr Ho), app_length, Hw.
  rewrite Nat.ltb_ge. unfold pair_cap. lia.
Qed.
Print Assumptions C38_dropped.

(** *** A second connection for the same address *)

(** An envelope that sits in channel 0, which no table entry or worker refers to, from
    a connection that is gone. *)
Definition lost (x : nat * envelope) (n : node) : Prop :=
  phase_of n (fst x) = Done /\ ~ In x (n_routed n) /\
  (forall ch l, n_chans n !! ch = Some l -> ch <> O -> ~ In x l) /\
  (forall p, n_pairs n !! p <> Some O) /\
  (forall w p o, n_workers n !! w = Some (Worker p o) -> o <> Some O) /\
  (0 < n_next n)%nat /\
  (forall c a e, phase_of n c = Enqueuing a e -> is_Some (n_pairs n !! pair_key e)).

Lemma lost_keep x n n' c p :
  lost x n -> (forall c', phase_of n' c' = if decide (c' = c) then p else phase_of n c') ->
  phase_of n c <> Done -> n_routed n' = n_routed n -> n_chans n' = n_chans n -> n_pairs n' = n_pairs n ->
  n_workers n' = n_workers n -> n_next n' = n_next n ->
  (forall a e, p = Enqueuing a e -> is_Some (n_pairs n !! pair_key e)) -> lost x n'.
Proof.
  intros (H1 & H2 & H3 & H4 & H5 & H6 & H7) Hp Hc E1 E2 E3 E4 E5 He. unfold lost.
  rewrite E1, E2, E3, E4, E5. rewrite Hp, decide_False by congruence. do 6 (split; [done|]).
  intros c' a e. rewrite Hp. destruct (decide (c' = c)); eauto.
Qed.

Lemma lost_step P my_key why x n ev n' : lost x n -> step P my_key why n ev = Ok n' -> lost x n'.
Proof.
  intros HL. destruct ev as [c read w|c ok|w|w]; cbn [step].
  - destruct (phase_of n c) eqn:Ep; try done.
    + intros (sent & p & -> & Hp)%read_new_cases. eapply (lost_keep x n _ c p); try done; [|congruence|].
      { intros c'. by rewrite (phase_of_set' n). }
      intros ? ? ->. destruct Hp as [?|(? & ? & ? & _)]; done.
    + intros (sent & [->|[[s ->]|(f & b & rec & e & -> & -> & Hd & He & -> & [[Hs ->]|[Hs ->]])]])%read_loop_cases.
      * eapply (lost_keep x n _ c (Closing a 0)); try done; [|congruence]. intros c'. by rewrite (phase_of_set' n).
      * eapply (lost_keep x n _ c (Delivering a s)); try done; [|congruence]. intros c'. by rewrite (phase_of_set' n).
      * exact HL.
      * eapply (lost_keep x n _ c (Checking a e)); try done; [|congruence]. intros c'. by rewrite (phase_of_set' n).
  - unfold go.
    destruct (phase_of n c) as [|r k|a|a s|a q s| |a e|a e|a e|a k|a|] eqn:Ep; try done.
    + destruct k as [|[|[|k]]]; intros [= <-]; (eapply (lost_keep x n _ c); [done|intros c'; rewrite (phase_of_set' n) by done; reflexivity|congruence|done..|]); intros ? ?; try done. by destruct ok.
    + intros [= <-]; (eapply (lost_keep x n _ c); [done|intros c'; rewrite (phase_of_set' n) by done; reflexivity|congruence|done..|]); intros ? ?. by destruct (n_stat n !! a).
    + destruct (_ <? _)%nat; intros [= <-]; (eapply (lost_keep x n _ c); [done|intros c'; rewrite (phase_of_set' n) by done; reflexivity|congruence|done..|]); done.
    + intros [= <-]; (eapply (lost_keep x n _ c); [done|intros c'; rewrite (phase_of_set' n) by done; reflexivity|congruence|done..|]); intros ? ?.
      destruct (n_pairs n !! pair_key e) eqn:E; intros [= <- <-]. rewrite E. eauto.
    + intros [= <-]. destruct HL as (H1 & H2 & H3 & H4 & H5 & H6 & H7). unfold lost. cbn.
      rewrite (phase_of_set' n) by done. rewrite decide_False by congruence.
      split; [done|]. split; [done|]. split; [|split; [|split; [|split]]].
      * intros ch l. destruct (decide (ch = n_next n)) as [->|].
        { rewrite lookup_insert. intros [= <-] _ []. } rewrite lookup_insert_ne by done. apply H3.
      * intros p. destruct (decide (pair_key e = p)) as [<-|].
        { rewrite lookup_insert. intros [= E]. lia. } rewrite lookup_insert_ne by done. apply H4.
      * intros w p o [Hw|[_ Hw]]%lookup_app_Some; [by eapply H5|].
        by apply list_lookup_singleton_Some in Hw as [_ [= _ <-]].
      * lia.
      * intros c' a' e'. rewrite (phase_of_set' n) by done. destruct (decide (c' = c)) as [->|].
        { intros [= <- <-]. rewrite lookup_insert. eauto. }
        intros Hp. destruct (decide (pair_key e = pair_key e')) as [->|]; [rewrite lookup_insert; eauto|].
        rewrite lookup_insert_ne by done. by eapply H7.
    + destruct HL as (H1 & H2 & H3 & H4 & H5 & H6 & H7). destruct (H7 _ _ _ Ep) as [ch Hch]. rewrite Hch. cbn [default id from_option].
      assert (ch <> O) by (intros ->; by eapply H4).
      destruct (_ <? _)%nat; intros [= <-]; unfold lost; cbn;
        rewrite (phase_of_set' n) by done; rewrite decide_False by congruence;
        (split; [done|]); (split; [done|]); (split; [|split; [done|split; [done|split; [done|]]]]).
      * intros ch' l. destruct (decide (ch = ch')) as [<-|].
        { rewrite lookup_insert. intros [= <-] _ [Hin|[Hin|[]]]%in_app_or.
          - destruct (n_chans n !! ch) eqn:El; [|done]. by eapply H3.
          - subst x. cbn in H1. congruence. }
        rewrite lookup_insert_ne by done. apply H3.
      * intros c' a' e'. rewrite (phase_of_set' n) by done. destruct (decide (c' = c)) as [->|]; [done|]. apply H7.
      * exact H3.
      * intros c' a' e'. rewrite (phase_of_set' n) by done. destruct (decide (c' = c)) as [->|]; [done|]. apply H7.
    + destruct k as [|k]; intros [= <-]; (eapply (lost_keep x n _ c); [done|intros c'; rewrite (phase_of_set' n) by done; reflexivity|congruence|done..|]); done.
  - unfold start. destruct (n_workers n !! w) as [[p [ch|]]|] eqn:Ew; try done. intros [= <-].
    destruct HL as (H1 & H2 & H3 & H4 & H5 & H6 & H7). unfold lost; cbn.
    do 4 (split; [done|]). split; [|done].
    intros w' p' o'. destruct (decide (w = w')) as [<-|].
    { rewrite list_lookup_insert by (by eapply lookup_lt_Some). intros [= <- <-]. apply H4. }
    rewrite list_lookup_insert_ne by done. apply H5.
  - unfold take_. destruct (n_workers n !! w) as [[p [ch|]]|] eqn:Ew; try done.
    destruct (n_chans n !! ch) as [[|y l]|] eqn:El; try done. intros [= <-].
    destruct HL as (H1 & H2 & H3 & H4 & H5 & H6 & H7). unfold lost; cbn.
    assert (ch <> O) by (intros ->; by eapply H5).
    assert (Hin : ~ In x (y :: l)) by (by eapply H3).
    split; [done|]. split; [|split; [|done]].
    + intros [?|[<-|[]]]%in_app_or; [done|]. apply Hin. by left.
    + intros ch' l'. destruct (decide (ch = ch')) as [<-|].
      { rewrite lookup_insert. intros [= <-] _ ?. apply Hin. by right. }
      rewrite lookup_insert_ne by done. apply H3.
Qed.

Definition first_env := env "carol" (r_address alice) "one".
Definition race : list event :=
  joins 1 alice ++ joins 2 alice ++
  [ERead 1 (send_frame first_env) true; EGo 1 true;
   ERead 2 (send_frame (env "carol" (r_address alice) "two")) true; EGo 2 true;
   EGo 1 true; EGo 1 true; EGo 2 true; EGo 2 true; EStart 0; EStart 1] ++ leaves 1 ++ leaves 2.

Definition lostb (x : nat * envelope) (n : node) : bool :=
  match phase_of n (fst x) with Done => true | _ => false end &&
  forallb (fun y => negb (Nat.eqb (fst y) (fst x))) (n_routed n) &&
  forallb (fun y => Nat.eqb (fst y) O || forallb (fun z => negb (Nat.eqb (fst z) (fst x))) (snd y))
    (map_to_list (n_chans n)) &&
  forallb (fun y => negb (Nat.eqb (snd y) O)) (map_to_list (n_pairs n)) &&
  forallb (fun w => match w_chan w with Some O => false | _ => true end) (n_workers n) &&
  Nat.ltb O (n_next n) &&
  forallb (fun y => match snd y with Enqueuing _ _ => false | _ => true end) (map_to_list (n_conns n)).

Lemma lostb_lost x n : lostb x n = true -> lost x n.
Proof.
  unfold lostb, lost. intros [[[[[[H1 H2]%andb_true_iff H3]%andb_true_iff H4]%andb_true_iff H5]%andb_true_iff
    H6]%andb_true_iff H7]%andb_true_iff.
  rewrite forallb_forall in H2, H3, H4, H5, H7.
  assert (Hx : forall l, (forall y, In y l -> negb (Nat.eqb (fst y) (fst x)) = true) -> ~ In x l).
  { intros l H Hin%H. by rewrite Nat.eqb_refl in Hin. }
  split; [by destruct (phase_of n x.1)|]. split; [by apply Hx|]. split; [|split; [|split; [|split]]].
  - intros ch l Hl%elem_of_map_to_list%elem_of_list_In%H3 Hz. cbn in Hl.
    rewrite (proj2 (Nat.eqb_neq _ _) Hz) in Hl. cbn in Hl. rewrite forallb_forall in Hl. by apply Hx.
  - intros p Hl%elem_of_map_to_list%elem_of_list_In%H4. done.
  - intros w p o Hw%elem_of_list_lookup_2%elem_of_list_In%H5 ->. done.
  - by apply Nat.ltb_lt.
  - intros c a e Hp. unfold phase_of in Hp. destruct (n_conns n !! c) as [p|] eqn:Hl; [|done]. cbn in Hp. subst p.
    by apply elem_of_map_to_list, elem_of_list_In, H7 in Hl.
Qed.

(** With two connections for the same address an acknowledged envelope can be lost for
    good: both goroutines find no queue for the pair and create one, the second
    replaces the first together with what is in it. *)
Theorem C38_two_connections_refuted :
  exists evs n x,
    run toy "peer" "why" node0 evs = Ok n /\ In x (n_accepted n) /\
    In (x, true) (n_decided n) /\
    forall evs' n', run toy "peer" "why" n evs' = Ok n' -> ~ In x (n_routed n').
Proof.
  exists race.
  assert (H : match run toy "peer" "why" node0 race with
              | Ok n => lostb (1%nat, first_env) n = true /\
                  hd_error (n_accepted n) = Some (1%nat, first_env) /\
                  hd_error (n_decided n) = Some (1%nat, first_env, true)
              | _ => False end) by (vm_compute; done).
  destruct (run toy "peer" "why" node0 race) as [n| |]; [|done..].
  destruct H as (HL%lostb_lost & Ha & Hd). exists n, (1%nat, first_env). split; [done|].
  assert (Hhd : forall {A} (l : list A) x, hd_error l = Some x -> In x l).
  { intros A [|y l] x; [done|]. intros [= ->]. by left. }
  do 2 (split; [by apply Hhd|]). clear Ha Hd.
  intros evs'. revert n HL. induction evs' as [|ev evs' IH]; intros n HL n'; cbn [run].
  - intros <-%Ok_inj. apply HL.
  - destruct (step toy "peer" "why" n ev) as [m| |] eqn:Es; try done. cbn [rbind]. apply IH. by eapply lost_step.
Qed.
Print Assumptions C38_two_connections_refuted.

(** A client whose envelopes are routed in order; the hypotheses of the theorems hold. *)
Definition ordered : list event :=
  joins 1 alice ++ joins 2 bob ++
  [ERead 1 (send_frame (env "carol" (r_address alice) "one")) true; EGo 1 true; EGo 1 true; EGo 1 true;
   ERead 1 (send_frame (env "dave" (r_address alice) "x")) true; EGo 1 true; EGo 1 true; EGo 1 true;
   ERead 1 (send_frame (env "carol" (r_address alice) "two")) true; EGo 1 true; EGo 1 true;
   ERead 1 (send_frame (env "carol" (r_address alice) "three")) true;
   EStart 0; ETake 0].

Example C38_example :
  only_client toy "peer" ordered 1 (r_address alice) /\
  match toy_run ordered with
  | Ok n =>
      map (fun x => string_of (e_message (snd x))) (sent_by 1 "carol" (n_accepted n)) = ["one"; "two"; "three"] /\
      map (fun x => string_of (e_message (snd x))) (sent_by 1 "carol" (n_routed n)) = ["one"]
  | _ => False
  end.
Proof.
  split.
  - assert (Hreg : registered_as toy "peer" ordered 1 (r_address alice)).
    { exists alice. split; [|done]. eexists. split; [vm_compute; done|]. split; [vm_compute; done|].
      apply C29_accepted. vm_compute. done. }
    split; [exact Hreg|].
    intros c (r & (f & H1 & H2 & _) & H3).
    destruct (decide (c = 1%nat)) as [->|Hc]; [done|]. exfalso.
    destruct (decide (c = 2%nat)) as [->|Hc2].
    + assert (E : first_read 2 ordered = Some (frame_of (PRegister (Some bob)))) by reflexivity.
      rewrite E in H1. apply (inj Some) in H1. unfold frame_of in H1. apply Ok_inj in H1. subst f.
      assert (E2 : decode_acn (default [] (encode_acn (Some (PRegister (Some bob))))) = Some (Some (PRegister (Some bob))))
        by (vm_compute; done).
      rewrite E2 in H2. injection H2 as <-. vm_compute in H3. done.
    + assert (E : first_read c ordered = None).
      { unfold ordered, joins. cbn [app first_read].
        rewrite (proj2 (Nat.eqb_neq c 1)), (proj2 (Nat.eqb_neq c 2)) by done. done. }
      by rewrite E in H1.
  - vm_compute. done.
Qed.

(** The 1001st envelope to a recipient for whom nothing is routed is dropped. *)
Definition one_send : list event :=
  [ERead 1 (send_frame first_env) true; EGo 1 true; EGo 1 true].

Lemma one_send_runs n l :
  phase_of n 1 = Looping (r_address alice) -> n_pairs n !! pair_key first_env = Some O ->
  n_chans n !! O = Some l ->
  exists n' l', run toy "peer" "why" n one_send = Ok n' /\
    phase_of n' 1 = Looping (r_address alice) /\ n_pairs n' = n_pairs n /\ n_chans n' !! O = Some l' /\
    length l' = (length l + if (length l <? pair_cap)%nat then 1 else 0)%nat /\
    n_decided n' = n_decided n ++ [(1%nat, first_env, (length l <? pair_cap)%nat)].
Proof.
  intros Hp Hk Hl.
  assert (Hd : exists frame b rec, send_frame first_env = Ok frame /\
    decode_acn frame = Some (Some (PEnvelope b rec)) /\ decode_envelope b = Some first_env).
  { exists (default [] (encode_acn (Some (PEnvelope (default [] (encode_envelope first_env)) None)))),
      (default [] (encode_envelope first_env)), None.
    split; [reflexivity|]. split; vm_compute; done. }
  destruct Hd as (frame & b & rec & Ef & Hd & He). unfold one_send. rewrite Ef. cbn [run step].
  rewrite Hp. unfold read_loop, handle_acn, decode_acn_message. rewrite Hd, He.
  change (String.eqb (e_sender first_env) (r_address alice)) with true. cbn [rbind].
  unfold go at 1. rewrite phase_of_set, decide_True by done. cbn [n_pairs set_phase add_sent]. rewrite Hk. cbn [rbind].
  unfold go at 1. rewrite phase_of_set, decide_True by done. cbn [n_pairs n_chans set_phase add_sent].
  rewrite Hk. cbn [default from_option id]. rewrite Hl. cbn [default from_option id].
  destruct (length l <? pair_cap)%nat eqn:E; cbn [rbind]; do 2 eexists; (split; [reflexivity|]);
    rewrite phase_of_set, decide_True by done; (split; [done|]); (split; [done|]).
  - cbn. rewrite lookup_insert. split; [done|]. rewrite app_length. done.
  - cbn. split; [exact Hl|]. split; [lia|done].
Qed.

Lemma fill k : (k <= pair_cap)%nat ->
  exists n l, toy_run (joins 1 alice ++ [ERead 1 (send_frame first_env) true; EGo 1 true; EGo 1 true]
                 ++ EGo 1 true :: concat (repeat one_send k)) = Ok n /\
    phase_of n 1 = Looping (r_address alice) /\ n_pairs n !! pair_key first_env = Some O /\
    n_chans n !! O = Some l /\ length l = Nat.min (S k) pair_cap /\
    map snd (n_decided n) = repeat true (Nat.min (S k) pair_cap) ++ repeat false (S k - pair_cap).
Proof.
  unfold toy_run. rewrite app_assoc, run_app.
  assert (H0 : match run toy "peer" "why" node0
      (joins 1 alice ++ [ERead 1 (send_frame first_env) true; EGo 1 true; EGo 1 true]) with
    | Ok n0 => match step toy "peer" "why" n0 (EGo 1 true) with
               | Ok n1 => (phase_of n1 1, n_pairs n1 !! pair_key first_env, n_chans n1 !! O, map snd (n_decided n1)) =
                          (Looping (r_address alice), Some O, Some [(1%nat, first_env)], [true])
               | _ => False end
    | _ => False end) by (vm_compute; done).
  destruct (run toy "peer" "why" node0 _) as [n0| |]; try done. cbn [rbind run].
  destruct (step toy "peer" "why" n0 (EGo 1 true)) as [n1| |]; try done. cbn [rbind].
  injection H0 as P1 P2 P3 P4.
  assert (Hc : exists c, pair_cap = S c) by (by eexists). destruct Hc as [cap Hc].
  induction k as [|k IH]; intros Hk.
  - exists n1, [(1%nat, first_env)]. cbn [repeat concat]. split; [done|]. do 3 (split; [done|]).
    rewrite Hc. split; [done|]. rewrite P4. done.
  - destruct IH as (n & l & Hr & Q1 & Q2 & Q3 & Q4 & Q5); [lia|].
    cbn [repeat]. rewrite repeat_cons, concat_app. cbn [concat]. rewrite app_nil_r, run_app, Hr. cbn [rbind].
    destruct (one_send_runs n l Q1 Q2 Q3) as (n' & l' & Hs & R1 & R2 & R3 & R4 & R5).
    exists n', l'. split; [done|]. split; [done|]. split; [by rewrite R2|]. split; [done|].
    rewrite R5, map_app, Q5. cbn [map snd]. rewrite R4, Q4.
    destruct (Nat.ltb_spec (Nat.min (S k) pair_cap) pair_cap) as [Hlt|Hge].
    + split; [lia|]. replace (S k - pair_cap)%nat with O by lia. replace (S (S k) - pair_cap)%nat with O by lia.
      cbn [repeat]. rewrite !app_nil_r. replace (Nat.min (S (S k)) pair_cap) with (Nat.min (S k) pair_cap + 1)%nat by lia.
      by rewrite repeat_app.
    + split; [lia|]. rewrite <- app_assoc. replace (Nat.min (S (S k)) pair_cap) with (Nat.min (S k) pair_cap) by lia.
      f_equal. replace (S (S k) - pair_cap)%nat with (S k - pair_cap + 1)%nat by lia. by rewrite repeat_app.
Qed.

Example C38_dropped_example :
  exists evs n, toy_run evs = Ok n /\ map snd (n_decided n) = repeat true pair_cap ++ [false].
Proof.
  destruct (fill pair_cap (le_n _)) as (n & l & Hr & _ & _ & _ & _ & H). do 2 eexists. split; [exact Hr|].
  rewrite H. replace (Nat.min (S pair_cap) pair_cap) with pair_cap by lia.
  by replace (S pair_cap - pair_cap)%nat with 1%nat by lia.
Qed.

(** ** C39 *)

(** If only one connection registers an address, the address is in the table of
    connected clients exactly while that connection's goroutine is between storing it
    and the clean-up after its loop; in particular all the time it serves the client. *)
Theorem C39_connected P my_key why evs n a c :
  run P my_key why node0 evs = Ok n -> sole_client P my_key evs a ->
  (n_tcp n !! a = Some c <-> registered_as P my_key evs c a /\ holds_tcp (phase_of n c)) /\
  (phase_of n c = Looping a -> n_tcp n !! a = Some c) /\
  (phase_of n c = Done -> n_tcp n !! a <> Some c).
Proof.
  intros Hr Hu. destruct (run_tables _ _ _ _ _ _ Hr Hu c) as (H1 & _).
  split; [exact H1|]. split.
  - intros E. apply H1. rewrite E. split; [|done]. pose proof (run_inv _ _ _ _ _ Hr) as (Hp & _).
    specialize (Hp c). by rewrite E in Hp.
  - intros E. rewrite H1, E. by intros [_ ?].
Qed.
Print Assumptions C39_connected.

(** ... and a status from the client reaches the queue of that client; the goroutine
    never blocks for want of one. *)
Theorem C39_never_stuck P my_key why evs n a c :
  run P my_key why node0 evs = Ok n -> sole_client P my_key evs a -> registered_as P my_key evs c a ->
  phase_of n c <> Stuck /\ (forall q s, phase_of n c = Putting a q s -> q = c).
Proof.
  intros Hr Hu Hc. destruct (run_tables _ _ _ _ _ _ Hr Hu c) as (_ & _ & H3 & H4).
  split; [|done]. intros E. by apply (H3 E).
Qed.
Print Assumptions C39_never_stuck.

(** A client that reconnects before its old connection is cleaned up ends up connected
    but not in the table: nothing can be delivered to it. *)
Theorem C39_reconnect_refuted :
  exists evs n a,
    run toy "peer" "why" node0 evs = Ok n /\
    registered_as toy "peer" evs 2 a /\ phase_of n 2 = Looping a /\ n_tcp n !! a = None.
Proof.
  exists (joins 1 alice ++ joins 2 alice ++ leaves 1).
  eexists. exists (r_address alice). split; [vm_compute; reflexivity|]. split; [|vm_compute; done].
  exists alice. split; [|done]. eexists. split; [vm_compute; done|]. split; [vm_compute; done|].
  apply C29_accepted. vm_compute. done.
Qed.
Print Assumptions C39_reconnect_refuted.

(** The first status it then sends blocks its goroutine for ever: no later step of any
    schedule moves it. *)
Theorem C39_reconnect_hangs_refuted :
  exists evs n,
    run toy "peer" "why" node0 evs = Ok n /\ phase_of n 2 = Stuck.
Proof.
  exists (joins 1 alice ++ joins 2 alice ++ leaves 1 ++ [ERead 2 (frame_of acn_success) true; EGo 2 true]).
  eexists. split; [vm_compute; reflexivity|]. vm_compute. done.
Qed.
Print Assumptions C39_reconnect_hangs_refuted.

Theorem C39_stuck_for_ever P my_key why evs n n' c :
  phase_of n c = Stuck -> run P my_key why n evs = Ok n' -> phase_of n' c = Stuck.
Proof.
  revert n. induction evs as [|ev evs IH]; intros n Hc; cbn [run]; [by intros <-%Ok_inj|].
  destruct (step P my_key why n ev) as [m| |] eqn:Es; try done. cbn [rbind]. apply IH.
  destruct ev as [c' read w|c' ok|w|w]; cbn [step] in Es.
  - destruct (phase_of n c') eqn:Ep; try done.
    + apply read_new_cases in Es as (sent & p & -> & _). rewrite (phase_of_set' n) by done.
      rewrite decide_False by congruence. done.
    + apply read_loop_cases in Es as
        (sent & [->|[[s ->]|(f & b & rec & e & -> & -> & Hd & He & -> & [[Hs ->]|[Hs ->]])]]);
        rewrite ?(phase_of_set' n) by done; rewrite ?decide_False by congruence; done.
  - unfold go in Es. destruct (phase_of n c') as [|r k|a|a s|a q s| |a e|a e|a e|a k|a|] eqn:Ep; try done;
      try destruct k as [|[|[|k]]]; try destruct (_ <? _)%nat; try done;
      injection Es as <-; rewrite (phase_of_set' n) by done; rewrite decide_False by congruence; done.
  - unfold start in Es. destruct (n_workers n !! w) as [[p [ch|]]|]; try done. by injection Es as <-.
  - unfold take_ in Es. destruct (n_workers n !! w) as [[p [ch|]]|]; try done.
    destruct (n_chans n !! ch) as [[|x l]|]; try done. by injection Es as <-.
Qed.
Print Assumptions C39_stuck_for_ever.

(** A failed announcement closes the connection but leaves the address in the table. *)
Theorem C39_failed_announcement_refuted :
  exists evs n a,
    run toy "peer" "why" node0 evs = Ok n /\ phase_of n 1 = Abandoned a /\ n_tcp n !! a = Some 1%nat.
Proof.
  exists [ERead 1 (frame_of (PRegister (Some alice))) true; EGo 1 true; EGo 1 true; EGo 1 true; EGo 1 false].
  eexists. exists (r_address alice). split; [vm_compute; reflexivity|]. vm_compute. done.
Qed.
Print Assumptions C39_failed_announcement_refuted.

Example C39_example :
  match toy_run (joins 1 alice ++ joins 2 bob), toy_run (joins 1 alice ++ joins 2 bob ++ leaves 1) with
  | Ok n, Ok n' =>
      phase_of n 1 = Looping (r_address alice) /\ n_tcp n !! r_address alice = Some 1%nat /\
      n_tcp n' !! r_address alice = None /\ n_tcp n' !! r_address bob = Some 2%nat
  | _, _ => False
  end.
Proof. vm_compute. done. Qed.

(** ** C60 *)

(** An envelope that names another sender is answered SUCCESS and then discarded: apart
    from the answer, the node is as before. *)
Theorem C60_foreign_sender P my_key why n c a frame b rec e :
  phase_of n c = Looping a -> decode_acn frame = Some (Some (PEnvelope b rec)) ->
  decode_envelope b = Some e -> e_sender e <> a ->
  exists n', step P my_key why n (ERead c (Ok frame) true) = Ok n' /\
    n_sent n' = n_sent n ++ [(c, PStatus (Some (StatusBody 0 [])))] /\
    n_accepted n' = n_accepted n /\ n_routed n' = n_routed n /\ n_chans n' = n_chans n /\
    n_conns n' = n_conns n /\ n_pairs n' = n_pairs n /\ n_tcp n' = n_tcp n.
Proof.
  intros Hp Hd He Hs. cbn [step]. rewrite Hp. unfold read_loop, handle_acn, decode_acn_message. rewrite Hd, He.
  rewrite (proj2 (String.eqb_neq _ _) Hs). eexists. split; [done|]. done.
Qed.
Print Assumptions C60_foreign_sender.

(** Everything a client is ever told is written when one of its frames is read; so
    what happens to an envelope afterwards, dropped or not routed, is never reported. *)
Theorem C60_silent P my_key why n ev n' c :
  step P my_key why n ev = Ok n' -> (forall read w, ev <> ERead c read w) ->
  List.filter (fun x => Nat.eqb (fst x) c) (n_sent n') = List.filter (fun x => Nat.eqb (fst x) c) (n_sent n).
Proof.
  assert (Hf : forall c' l (ms : list acn_perf), c' <> c ->
    List.filter (fun x => Nat.eqb (fst x) c) (l ++ map (pair c') ms) = List.filter (fun x => Nat.eqb (fst x) c) l).
  { intros c' l ms Hne. rewrite List.filter_app. induction ms as [|m ms IH]; cbn; [apply app_nil_r|].
    destruct (Nat.eqb_spec c' c); [done|]. apply IH. }
  destruct ev as [c' read w|c' ok|w|w]; cbn [step].
  - intros Hs Hne. assert (c' <> c) by (intros ->; by eapply Hne). destruct (phase_of n c'); try done.
    + apply read_new_cases in Hs as (sent & p & -> & _). by apply Hf.
    + apply read_loop_cases in Hs as
        (sent & [->|[[s ->]|(f & b & rec & e & -> & -> & Hd & He & -> & [[Hs ->]|[Hs ->]])]]); by apply Hf.
  - intros Hs _. unfold go in Hs. destruct (phase_of n c') as [|r k|a|a s|a q s| |a e|a e|a e|a k|a|]; try done;
      try destruct k as [|[|[|k]]]; try destruct (_ <? _)%nat; try done; by injection Hs as <-.
  - intros Hs _. unfold start in Hs. destruct (n_workers n !! w) as [[p [ch|]]|]; try done. by injection Hs as <-.
  - intros Hs _. unfold take_ in Hs. destruct (n_workers n !! w) as [[p [ch|]]|]; try done.
    destruct (n_chans n !! ch) as [[|x l]|]; try done. by injection Hs as <-.
Qed.
Print Assumptions C60_silent.

(** Each envelope accepted from a client has been answered SUCCESS already (one answer
    more is that to the registration). *)
Theorem C60_acknowledged P my_key why evs n c :
  run P my_key why node0 evs = Ok n ->
  (length (List.filter (fun x => Nat.eqb (fst x) c) (n_accepted n)) <=
   length (List.filter (fun x => Nat.eqb (fst x) c &&
             match snd x with PStatus (Some s) => Z.eqb (sb_code s) 0 | _ => false end) (n_sent n)))%nat.
Proof.
  intros Hrun. revert evs n Hrun. 
  apply (run_ind P my_key why (fun evs n =>
    (length (List.filter (fun x => Nat.eqb (fst x) c) (n_accepted n)) <=
     length (List.filter (fun x => Nat.eqb (fst x) c &&
             match snd x with PStatus (Some s) => Z.eqb (sb_code s) 0 | _ => false end) (n_sent n)))%nat)); [done|].
  intros evs n ev n' _ IH Hs.
  assert (Hmore : forall c' ms, (length (List.filter (fun x => Nat.eqb (fst x) c) (n_accepted n)) <=
   length (List.filter (fun x => Nat.eqb (fst x) c &&
             match snd x with PStatus (Some s) => Z.eqb (sb_code s) 0 | _ => false end) (n_sent n ++ map (pair c') ms)))%nat).
  { intros c' ms. rewrite List.filter_app, app_length. lia. }
  destruct ev as [c' read w|c' ok|w|w]; cbn [step] in Hs.
  - destruct (phase_of n c'); try done.
    + apply read_new_cases in Hs as (sent & p & -> & _). apply Hmore.
    + apply read_loop_cases in Hs as
        (sent & [->|[[s ->]|(f & b & rec & e & -> & -> & Hd & He & -> & [[Hs ->]|[Hs ->]])]]); try apply Hmore.
      cbn. rewrite !List.filter_app, !app_length. cbn. destruct (Nat.eqb c' c); cbn; lia.
  - unfold go in Hs. destruct (phase_of n c') as [|r k|a|a s|a q s| |a e|a e|a e|a k|a|]; try done;
      try destruct k as [|[|[|k]]]; try destruct (_ <? _)%nat; try done; by injection Hs as <-.
  - unfold start in Hs. destruct (n_workers n !! w) as [[p [ch|]]|]; try done. by injection Hs as <-.
  - unfold take_ in Hs. destruct (n_workers n !! w) as [[p [ch|]]|]; try done.
    destruct (n_chans n !! ch) as [[|x l]|]; try done. by injection Hs as <-.
Qed.
Print Assumptions C60_acknowledged.

Example C60_example :
  match toy_run (joins 1 alice ++ [ERead 1 (send_frame (env "carol" "mallory" "hi")) true]) with
  | Ok n => phase_of n 1 = Looping (r_address alice) /\ n_accepted n = [] /\
      n_sent n = [(1%nat, acn_success); (1%nat, acn_success)]
  | _ => False
  end.
Proof. vm_compute. done. Qed.
