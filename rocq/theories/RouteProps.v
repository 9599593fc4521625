(** Properties of routing (C40, C41). *)
From Coq Require Import ZArith NArith List String Ascii Lia.
From stdpp Require Import base tactics gmap list strings.
From Verif Require Import GoBase Bytes Utf8 WireModel ProtoModel WireProofs ProtoProofs ProtoProps CryptoModel PorModel
  CryptoProofs CryptoProps PorProps AcnModel DelegateProps RouteModel.
Open Scope string_scope.
Open Scope list_scope.
Open Scope Z_scope.

(** ** Vocabulary *)

(** The effects that carry the envelope further. *)
Definition carries_on (f : effect) : bool :=
  match f with ToMailbox _ | ToAgent _ | ToDelegate _ _ | ToPeer _ _ | ToSlowQueue _ => true | _ => false end.
Definition deliveries (fs : list effect) : list effect := List.filter carries_on fs.

(** The sender is the own agent, has a mailbox, or has registered a record. *)
Definition represented (v : view) (e : envelope) : Prop :=
  e_sender e = v_my_addr v \/ v_mailbox v = true /\ v_box_sender v = true \/ v_record v <> None.

(** Where an envelope has to go. *)
Inductive place := AtMailbox | AtAgent | AtDelegate (c : nat) | AtRelay | AtNetwork.
Definition takes (v : view) : Prop := v_mailbox v = true /\ v_box_target v = true.
Definition destined (v : view) (e : envelope) (p : place) : Prop :=
  match p with
  | AtMailbox => takes v
  | AtAgent => ~ takes v /\ e_to e = v_my_addr v
  | AtDelegate c => ~ takes v /\ e_to e <> v_my_addr v /\ v_delegate v = Some c
  | AtRelay => ~ takes v /\ e_to e <> v_my_addr v /\ v_delegate v = None /\ v_relay v <> None
  | AtNetwork => ~ takes v /\ e_to e <> v_my_addr v /\ v_delegate v = None /\ v_relay v = None
  end.

(** The frame is the ACN message with the envelope and the record. *)
Definition carries (frame : bytes) (e : envelope) (rec : option record) : Prop :=
  exists b, encode_envelope e = Some b /\ encode_acn (Some (PEnvelope b rec)) = Some frame.

(** The exchange with a peer: the envelope was sent and answered with SUCCESS. *)
Definition sent (e : envelope) (rec : option record) (o : stream_outcome) : Prop :=
  so_open o = true /\ so_write o = true /\ exists frame, carries frame e rec.
Definition answered (o : stream_outcome) (s : option status_body) : Prop :=
  exists b, so_reply o = Ok b /\ decode_acn b = Some (Some (PStatus s)).
Definition confirmed (e : envelope) (rec : option record) (o : stream_outcome) : Prop :=
  sent e rec o /\ exists s, answered o (Some s) /\ sb_code s = 0.

(** The gauge of ongoing routes: how much it changes. *)
Fixpoint net (fs : list effect) : Z :=
  match fs with
  | [] => 0
  | GaugeInc :: t => 1 + net t
  | GaugeDec :: t => -1 + net t
  | _ :: t => net t
  end.

Lemma deliveries_app l1 l2 : deliveries (l1 ++ l2) = deliveries l1 ++ deliveries l2.
Proof. apply List.filter_app. Qed.
Lemma net_app l1 l2 : net (l1 ++ l2) = net l1 + net l2.
Proof. induction l1 as [|[] l1 IH]; cbn; lia. Qed.

Lemma read_status_iff rd s : read_status rd = Ok s <-> exists b, rd = Ok b /\ decode_acn b = Some (Some (PStatus s)).
Proof.
  unfold read_status. destruct rd as [b|x|p]; [|by split; [|intros (? & ? & ?)]..].
  split.
  - destruct (decode_acn b) as [[[]|]|] eqn:E; try done. intros [= <-]. eauto.
  - intros (b' & [= <-] & ->). done.
Qed.
Lemma read_status_panic rd p : (forall p', rd <> Panic p') -> read_status rd <> Panic p.
Proof.
  unfold read_status. intros H. destruct rd as [b|x|p']; [|done|by destruct (H p')].
  by destruct (decode_acn b) as [[[]|]|].
Qed.

(** What an exchange with a peer comes to. *)
Lemma new_stream_cases e peer rec o :
  (forall p, so_reply o <> Panic p) ->
  let (fs, r) := route_new_stream e peer rec o in
  match r with
  | Ok _ => confirmed e rec o /\ (exists frame, carries frame e rec /\ deliveries fs = [ToPeer peer frame]) /\ net fs = -1
  | Err _ => ~ confirmed e rec o /\ ~ (sent e rec o /\ answered o None) /\
      (~ sent e rec o /\ deliveries fs = [] \/
       sent e rec o /\ exists frame, carries frame e rec /\ deliveries fs = [ToPeer peer frame]) /\ net fs = -1
  | Panic _ => sent e rec o /\ answered o None /\
      exists frame, carries frame e rec /\ deliveries fs = [ToPeer peer frame]
  end /\ ~ In CountSuccess fs /\ (forall x, ~ In (ToSlowQueue x) fs) /\ (forall x, ~ In (ToAgent x) fs).
Proof.
  intros Hp. unfold route_new_stream.
  destruct (so_open o) eqn:Eo; cbn [negb].
  2:{ split; [|split; [by intros [?|[]]|split; by intros ? [?|[]]]].
      assert (~ sent e rec o) by (intros (? & _); congruence).
      split; [by intros [? _]|]. split; [by intros [? _]|]. split; [by left|done]. }
  destruct (encode_envelope e) as [b|] eqn:Ee.
  2:{ split; [|split; [by intros [?|[]]|split; by intros ? [?|[]]]].
      assert (~ sent e rec o) by (intros (_ & _ & f & b & ? & _); congruence).
      split; [by intros [? _]|]. split; [by intros [? _]|]. split; [by left|done]. }
  destruct (encode_acn (Some (PEnvelope b rec))) as [frame|] eqn:Ea.
  2:{ split; [|split; [by intros [?|[]]|split; by intros ? [?|[]]]].
      assert (~ sent e rec o) by (intros (_ & _ & f & b' & ? & ?); congruence).
      split; [by intros [? _]|]. split; [by intros [? _]|]. split; [by left|done]. }
  destruct (so_write o) eqn:Ew; cbn [negb].
  2:{ split; [|split; [by intros [?|[]]|split; by intros ? [?|[]]]].
      assert (~ sent e rec o) by (intros (_ & ? & _); congruence).
      split; [by intros [? _]|]. split; [by intros [? _]|]. split; [by left|done]. }
  assert (Hc : carries frame e rec) by (by exists b).
  assert (Hs : sent e rec o) by (split; [done|]; split; [done|]; by exists frame).
  destruct (read_status (so_reply o)) as [[s|]|x|p] eqn:Er.
  - pose proof Er as Ha. apply read_status_iff in Ha.
    assert (Hu : forall s', answered o s' -> s' = Some s).
    { intros s' (b' & H1 & H2). destruct Ha as (b'' & H3 & H4). congruence. }
    destruct (Z.eqb_spec (sb_code s) SUCCESS) as [H0|H0].
    + split; [|split; [by intros [?|[?|[]]]|split; by intros ? [?|[?|[]]]]].
      split; [|by split; [eauto|]]. split; [done|]. by exists s.
    + split; [|split; [by intros [?|[?|[]]]|split; by intros ? [?|[?|[]]]]].
      split; [|split; [|by split; [right; eauto|]]].
      * intros [_ (s' & H%Hu & H')]. injection H as ->. done.
      * intros [_ H%Hu]. done.
  - split; [|split; [by intros [?|[]]|split; by intros ? [?|[]]]].
    split; [done|]. split; [by apply read_status_iff in Er|]. eauto.
  - split; [|split; [by intros [?|[?|[]]]|split; by intros ? [?|[?|[]]]]].
    assert (Hn : forall s', ~ answered o s').
    { intros s' H%read_status_iff. congruence. }
    split; [|split; [|by split; [right; eauto|]]].
    + intros [_ (s' & H & _)]. by apply Hn in H.
    + intros [_ H]. by apply Hn in H.
  - by apply read_status_panic in Er.
Qed.

Lemma record_found v e : represented v e <-> exists rec, envelope_record v e = Ok rec.
Proof.
  unfold represented, envelope_record.
  destruct (String.eqb_spec (e_sender e) (v_my_addr v)) as [->|Hne]; [split; eauto|].
  destruct (v_mailbox v && v_box_sender v) eqn:Em.
  { apply andb_prop in Em as [? ?]. split; [eauto|]. intros _. by right; left. }
  destruct (v_record v) as [r|]; [split; eauto; by right; right|].
  split; [|by intros (? & ?)]. intros [?|[[H1 H2]|?]]; [done| |done]. by rewrite H1, H2 in Em.
Qed.
Lemma record_total v e : exists x, envelope_record v e = x /\ (forall p, x <> Panic p).
Proof.
  eexists. split; [done|]. unfold envelope_record. repeat case_match; done.
Qed.

(** The record sent along is that of the address the envelope names as sender. *)
Definition sender_record (v : view) (e : envelope) (rec : option record) : Prop :=
  e_sender e = v_my_addr v /\ rec = v_my_record v \/
  e_sender e <> v_my_addr v /\ v_mailbox v = true /\ v_box_sender v = true /\ rec = v_box_record v \/
  e_sender e <> v_my_addr v /\ ~ (v_mailbox v = true /\ v_box_sender v = true) /\ rec = v_record v /\ rec <> None.
Lemma sender_record_iff v e rec : envelope_record v e = Ok rec <-> sender_record v e rec.
Proof.
  unfold sender_record, envelope_record.
  destruct (String.eqb_spec (e_sender e) (v_my_addr v)) as [E|Hne].
  { split; [by intros [= <-]; left|]. by intros [[_ ->]|[(? & _)|(? & _)]]. }
  destruct (v_mailbox v) eqn:E1; cbn [andb].
  - destruct (v_box_sender v) eqn:E2.
    + split; [by intros [= <-]; right; left|]. intros [[? _]|[(_ & _ & _ & ->)|(_ & H & _)]]; [done|done|].
      by destruct H.
    + destruct (v_record v) as [r|] eqn:Er.
      * split; [|intros [[? _]|[(_ & _ & ? & _)|(_ & _ & -> & _)]]; done].
        intros [= <-]. right; right. split; [done|]. split; [by intros [_ ?]|]. done.
      * split; [done|]. intros [[? _]|[(_ & _ & ? & _)|(_ & _ & -> & ?)]]; done.
  - destruct (v_record v) as [r|] eqn:Er.
    + split; [|intros [[? _]|[(_ & ? & _)|(_ & _ & -> & _)]]; done].
      intros [= <-]. right; right. split; [done|]. split; [by intros [? _]|]. done.
    + split; [done|]. intros [[? _]|[(_ & ? & _)|(_ & _ & -> & ?)]]; done.
Qed.

(** ** C40 *)

(** An envelope whose sender this node does not represent goes nowhere. *)
Theorem C40_refused v e o :
  ~ represented v e -> exists fs x, route v e o = (fs, Returns (Err x)) /\ deliveries fs = [].
Proof.
  intros Hn. unfold route. destruct (envelope_record v e) as [rec|x|p] eqn:Er.
  - exfalso. apply Hn, record_found. eauto.
  - by do 2 eexists.
  - destruct (record_total v e) as (? & <- & H). by apply H in Er.
Qed.
Print Assumptions C40_refused.

(** Exactly one place is in charge of an envelope. *)
Theorem C40_one_place v e : exists p, destined v e p /\ forall p', destined v e p' -> p' = p.
Proof.
  assert (Hd : takes v \/ ~ takes v).
  { unfold takes. destruct (v_mailbox v), (v_box_target v); intuition done. }
  destruct Hd as [Ht|Ht].
  { exists AtMailbox. split; [done|]. intros []; cbn; intuition done. }
  destruct (decide (e_to e = v_my_addr v)) as [E|E].
  { exists AtAgent. split; [done|]. intros []; cbn; intuition done. }
  destruct (v_delegate v) as [c|] eqn:Ed.
  { exists (AtDelegate c). split; [done|]. intros []; cbn; rewrite ?Ed; intuition congruence. }
  destruct (v_relay v) as [i|] eqn:Ei.
  { exists AtRelay. cbn. rewrite Ei. split; [done|]. intros []; cbn; rewrite ?Ed, ?Ei; intuition congruence. }
  exists AtNetwork. split; [done|]. intros []; cbn; rewrite ?Ed, ?Ei; intuition congruence.
Qed.
Print Assumptions C40_one_place.

(** What is done with an envelope of a represented sender, and what the caller is
    told, by the place in charge. [rec] is the sender's record when first looked up,
    [rec2] when looked up again on the way to the network. *)
Definition at_place (v : view) (e : envelope) (o : outcome) (rec : option record) (p : place)
    (d : list effect) (r : ret unit) : Prop :=
  match p with
  | AtMailbox => d = [ToMailbox e] /\ r = Returns (Ok tt)
  | AtAgent =>
      oc_ready o = false /\ d = [] /\ r = Hangs \/
      oc_ready o = true /\ v_has_handler v = false /\ d = [] /\ (exists x, r = Returns (Err x)) \/
      oc_ready o = true /\ v_has_handler v = true /\ d = [ToAgent e] /\ r = Returns (oc_agent o)
  | AtDelegate c =>
      d = [] /\ (exists x, r = Returns (Err x)) /\ (oc_write o = false \/ ~ exists frame, carries frame e None) \/
      oc_write o = true /\ (exists frame, carries frame e None /\ d = [ToDelegate c frame]) /\ r = Returns (oc_ack o)
  | AtRelay =>
      oc_peer o = None /\ d = [] /\ (exists x, r = Returns (Err x)) \/
      exists peer, oc_peer o = Some peer /\
        (~ sent e rec (oc_stream o) /\ d = [] /\ (exists x, r = Returns (Err x)) \/
         sent e rec (oc_stream o) /\ (exists frame, carries frame e rec /\ d = [ToPeer peer frame]) /\
         (confirmed e rec (oc_stream o) <-> r = Returns (Ok tt)) /\
         (answered (oc_stream o) None <-> exists x, r = Returns (Panic x)))
  | AtNetwork =>
      let retry := if oc_closing o then [] else [ToSlowQueue e] in
      ~ represented (oc_view2 o) e /\ d = retry /\ r = Returns (Ok tt) \/
      exists rec2, sender_record (oc_view2 o) e rec2 /\
        (oc_found o = Hangs /\ d = [] /\ r = Hangs \/
         (exists x, oc_found o = Returns (Panic x) /\ d = [] /\ r = Returns (Panic x)) \/
         (exists x, oc_found o = Returns (Err x)) /\ d = retry /\ r = Returns (Ok tt) \/
         exists peer pr, oc_found o = Returns (Ok (peer, pr)) /\
           (~ sent e rec2 (oc_stream o) /\ d = retry /\ r = Returns (Ok tt) \/
            exists frame, sent e rec2 (oc_stream o) /\ carries frame e rec2 /\
              (confirmed e rec2 (oc_stream o) /\ d = [ToPeer peer frame] /\ r = Returns (Ok tt) \/
               answered (oc_stream o) None /\ d = [ToPeer peer frame] /\ (exists x, r = Returns (Panic x)) \/
               ~ confirmed e rec2 (oc_stream o) /\ ~ answered (oc_stream o) None /\
               d = ToPeer peer frame :: retry /\ r = Returns (Ok tt))))
  end.

Lemma takes_true v : takes v <-> v_mailbox v && v_box_target v = true.
Proof. unfold takes. by rewrite andb_true_iff. Qed.

Lemma no_frame e rec : envelope_frame e rec = None -> ~ exists frame, carries frame e rec.
Proof. unfold envelope_frame. intros H (f & b & H1 & H2). by rewrite H1, H2 in H. Qed.
Lemma some_frame e rec frame : envelope_frame e rec = Some frame -> carries frame e rec.
Proof. unfold envelope_frame. destruct (encode_envelope e) as [b|] eqn:E; [|done]. intros H. by exists b. Qed.

Theorem C40_route v e o rec p :
  (forall x, so_reply (oc_stream o) <> Panic x) ->
  sender_record v e rec -> destined v e p ->
  let (fs, r) := route v e o in at_place v e o rec p (deliveries fs) r.
Proof.
  intros Hrp Hrec Hp. apply sender_record_iff in Hrec. unfold route. rewrite Hrec.
  destruct (v_mailbox v && v_box_target v) eqn:Et.
  { apply takes_true in Et. destruct p; cbn in Hp; try tauto. done. }
  assert (Ht : ~ takes v) by (rewrite takes_true; congruence).
  destruct (String.eqb_spec (e_to e) (v_my_addr v)) as [E|E].
  { destruct p; cbn in Hp; try tauto.
    destruct (oc_ready o) eqn:E1; cbn [negb]; [|by left].
    destruct (v_has_handler v) eqn:E2; cbn [negb]; [|by right; left; eauto].
    destruct (oc_agent o) as [[]|x|x] eqn:E3; right; right; rewrite E3; done. }
  destruct (v_delegate v) as [c|] eqn:Ed.
  { destruct p as [| |c'| |]; cbn in Hp; rewrite ?Ed in Hp; try tauto; try (by destruct Hp as (_ & _ & ? & _)).
    destruct Hp as (_ & _ & [= <-]).
    destruct (envelope_frame e None) as [frame|] eqn:Ef.
    - apply some_frame in Ef. destruct (oc_write o) eqn:Ew; cbn [negb].
      + right. split; [done|]. split; [|done]. exists frame. done.
      + left. split; [done|]. split; [eauto|by left].
    - apply no_frame in Ef. left. split; [done|]. split; [eauto|by right]. }
  destruct (v_relay v) as [i|] eqn:Ei.
  { destruct p as [| |c'| |]; cbn in Hp; rewrite ?Ed, ?Ei in Hp; try tauto; try (by destruct Hp as (_ & _ & ?)).
    2:{ by destruct Hp as (_ & _ & _ & ?). }
    destruct (oc_peer o) as [peer|] eqn:Ep; [|by left; eauto].
    pose proof (new_stream_cases e peer rec (oc_stream o) Hrp) as Hc.
    destruct (route_new_stream e peer rec (oc_stream o)) as [fs r].
    right. exists peer. split; [done|].
    rewrite deliveries_app. destruct Hc as [Hc _]. destruct r as [[]|x|x].
    - destruct Hc as (Hc & (frame & Hf & Hd) & _). right. split; [apply Hc|].
      split; [exists frame; by rewrite Hd|]. split; [done|].
      split; [|by intros (? & ?)]. destruct Hc as [_ (s & (b & H1 & H2) & _)].
      intros (b' & H3 & H4). congruence.
    - destruct Hc as (Hc & Ha & [[Hs Hd]|(Hs & frame & Hf & Hd)] & _); rewrite Hd.
      + left. eauto.
      + right. split; [done|]. split; [by exists frame|]. split; [done|].
        split; [intros H; by destruct Ha|by intros (? & ?)].
    - destruct Hc as (Hs & Ha & frame & Hf & Hd). rewrite Hd. right. split; [done|]. split; [by exists frame|].
      split; [|split; [eauto|done]]. split; [|done]. intros [_ (s & (b & H1 & H2) & _)].
      destruct Ha as (b' & H3 & H4). congruence. }
  destruct p as [| |c'| |]; cbn in Hp; rewrite ?Ed, ?Ei in Hp; try tauto; try (by destruct Hp as (_ & _ & ?)).
  unfold route_dht. cbn [at_place].
  destruct (envelope_record (oc_view2 o) e) as [rec2|x|x] eqn:E2.
  2:{ left. split; [intros (? & H)%record_found; congruence|]. destruct (oc_closing o); done. }
  2:{ destruct (record_total (oc_view2 o) e) as (? & <- & H). by apply H in E2. }
  apply sender_record_iff in E2.
  destruct (oc_found o) as [[[peer pr]|x|x]|] eqn:Ef.
  - pose proof (new_stream_cases e peer rec2 (oc_stream o) Hrp) as Hc.
    destruct (route_new_stream e peer rec2 (oc_stream o)) as [fs r]. destruct Hc as [Hc _].
    destruct r as [[]|x|x]; right; exists rec2; (split; [done|]); right; right; right; exists peer, pr; (split; [done|]).
    + destruct Hc as (Hc & (frame & Hf & Hd) & _). right. exists frame. split; [apply Hc|]. split; [done|].
      left. split; [done|]. split; [|done]. by rewrite deliveries_app, Hd.
    + destruct Hc as (Hc & Ha & [[Hs Hd]|(Hs & frame & Hf & Hd)] & _).
      * left. split; [done|]. split; [|done]. rewrite !deliveries_app, Hd. by destruct (oc_closing o).
      * right. exists frame. split; [done|]. split; [done|]. right; right. split; [done|].
        split; [intros H; by apply Ha|]. split; [|done]. rewrite !deliveries_app, Hd. by destruct (oc_closing o).
    + destruct Hc as (Hs & Ha & frame & Hf & Hd). right. exists frame. split; [done|]. split; [done|].
      right; left. split; [done|]. split; [|eauto]. by rewrite deliveries_app, Hd.
  - right. exists rec2. split; [done|]. right; right; left. split; [eauto|]. split; [|done]. by destruct (oc_closing o).
  - right. exists rec2. split; [done|]. right; left. exists x. done.
  - right. exists rec2. split; [done|]. by left.
Qed.
Print Assumptions C40_route.

(** The frames are read back as what was sent. *)
Theorem C40_frame frame e rec b :
  carries frame e rec -> encode_envelope e = Some b ->
  Z.of_nat (length frame) < 2 ^ 63 -> Z.of_nat (length b) < 2 ^ 63 ->
  exists b', decode_acn frame = Some (Some (PEnvelope b' rec)) /\ decode_envelope b' = Some e.
Proof.
  intros (b' & H1 & H2) H3 Hf Hb. exists b. rewrite H1 in H3. injection H3 as ->.
  split; [|by apply (proj2 (C23_envelope e))]. by apply (proj2 (C23_acn _)).
Qed.
Print Assumptions C40_frame.

(** The data of an example: alice is a delegate client, carol is elsewhere. *)
Definition from_alice (to : string) : envelope := env to (r_address alice) "hi".
Definition view0 : view := View "me" (Some bob) true true false None false (Some alice) None None.
Definition status_reply (code : Z) : res bytes := frame_of (PStatus (Some (StatusBody code []))).
Definition outcome0 : outcome :=
  Outcome true (Ok tt) true (Ok tt) (Some "Qm1") view0 (Returns (Ok ("Qm2", None)))
    (StreamOutcome true true (status_reply 0)) false.

Example C40_example :
  sender_record view0 (from_alice "carol") (Some alice) /\ destined view0 (from_alice "carol") AtNetwork /\
  ~ represented (View "me" (Some bob) true true false None false None None None) (env "carol" "mallory" "hi") /\ confirmed (from_alice "carol") (Some alice) (oc_stream outcome0) /\
  exists frame, carries frame (from_alice "carol") (Some alice) /\
    route view0 (from_alice "carol") outcome0 =
      ([GaugeInc; CountAll; ToPeer "Qm2" frame; GaugeDec], Returns (Ok tt)).
Proof.
  split; [right; right; split; [done|]; split; [by intros [_ ?]|done]|].
  split; [split; [by intros [_ ?]|done]|].
  split.
  { intros [H|[[_ H]|H]]; try done. }
  assert (Hc : carries (default [] (envelope_frame (from_alice "carol") (Some alice))) (from_alice "carol") (Some alice)).
  { apply some_frame. vm_compute. done. }
  split.
  { split; [split; [done|]; split; [done|]; by eexists|]. exists (StatusBody 0 []). split; [|done].
    eexists. split; [done|]. vm_compute. done. }
  eexists. split; [exact Hc|]. vm_compute. done.
Qed.

(** Expected but false: an envelope accepted for routing reaches the peer of its
    recipient at most once. An answer that gets lost makes the node send it again. *)
Theorem C40_at_most_once_refuted :
  exists v e o frame fs fs', sender_record v e (Some alice) /\ carries frame e (Some alice) /\
    route v e o = (fs, Returns (Ok tt)) /\ deliveries fs = [ToPeer "Qm2" frame; ToSlowQueue e] /\
    slow_send v e (oc_found o) (StreamOutcome true true (status_reply 0)) = (fs', Returns (Ok tt)) /\
    deliveries fs' = [ToPeer "Qm2" frame].
Proof.
  exists view0, (from_alice "carol"),
    (Outcome true (Ok tt) true (Ok tt) None view0 (Returns (Ok ("Qm2", None)))
       (StreamOutcome true true (Err "timeout")) false).
  do 3 eexists. split; [right; right; split; [done|]; split; [by intros [_ ?]|done]|].
  split; [apply some_frame; vm_compute; done|]. vm_compute. done.
Qed.
Print Assumptions C40_at_most_once_refuted.

(** ** C41 *)

(** How much a call that returns changes the gauge of ongoing routes. *)
Definition uncounted (v : view) (e : envelope) : Prop :=
  ~ represented v e \/ destined v e AtMailbox \/ destined v e AtAgent /\ v_has_handler v = false.
Definition counted_twice (v : view) (e : envelope) (o : outcome) : Prop :=
  represented v e /\ destined v e AtNetwork /\
  exists rec2 peer pr, sender_record (oc_view2 o) e rec2 /\ oc_found o = Returns (Ok (peer, pr)) /\
    ~ confirmed e rec2 (oc_stream o).

Theorem C41_gauge v e o fs r :
  (forall x, so_reply (oc_stream o) <> Panic x) ->
  route v e o = (fs, Returns r) -> is_panic r = false ->
  (uncounted v e /\ net fs = 1) \/ (counted_twice v e o /\ net fs = -1) \/
  (~ uncounted v e /\ ~ counted_twice v e o /\ net fs = 0).
Proof.
  intros Hrp. unfold route. destruct (envelope_record v e) as [rec|x|x] eqn:Er.
  2:{ intros [= <- <-] _. left. split; [|done]. left. intros (? & H)%record_found. congruence. }
  2:{ destruct (record_total v e) as (? & <- & H). by apply H in Er. }
  assert (Hrep : represented v e) by (apply record_found; eauto).
  destruct (v_mailbox v && v_box_target v) eqn:Et.
  { apply takes_true in Et. intros [= <- <-] _. left. split; [|done]. by right; left. }
  assert (Ht : ~ takes v) by (rewrite takes_true; congruence).
  destruct (String.eqb_spec (e_to e) (v_my_addr v)) as [E|E].
  { assert (Hn : ~ counted_twice v e o) by (intros (_ & (_ & ? & _) & _); done).
    destruct (oc_ready o); cbn [negb]; [|done].
    destruct (v_has_handler v) eqn:E2; cbn [negb].
    - intros H Hp. right; right. split; [intros [?|[?|[_ ?]]]; [done|done|congruence]|]. split; [done|].
      destruct (oc_agent o) as [[]|x|x]; by injection H as <- <-.
    - intros [= <- <-] _. left. split; [|done]. by right; right. }
  assert (Hu : ~ uncounted v e) by (intros [?|[?|[[_ ?] _]]]; done).
  destruct (v_delegate v) as [c|] eqn:Ed.
  { assert (Hn : ~ counted_twice v e o) by (intros (_ & (_ & _ & ? & _) & _); congruence).
    intros H _. right; right. split; [done|]. split; [done|].
    destruct (envelope_frame e None); [destruct (oc_write o)|]; cbn [negb] in H; by injection H as <- <-. }
  destruct (v_relay v) as [i|] eqn:Ei.
  { assert (Hn : ~ counted_twice v e o) by (intros (_ & (_ & _ & _ & ?) & _); congruence).
    intros H Hp. right; right. split; [done|]. split; [done|].
    destruct (oc_peer o) as [peer|]; [|by injection H as <- <-].
    pose proof (new_stream_cases e peer rec (oc_stream o) Hrp) as Hc.
    destruct (route_new_stream e peer rec (oc_stream o)) as [fs' r']. injection H as <- <-. cbn [net app].
    destruct Hc as [Hc _]. destruct r' as [[]|x|x].
    - destruct Hc as (_ & _ & ->). done.
    - destruct Hc as (_ & _ & _ & ->). done.
    - done. }
  unfold route_dht. destruct (envelope_record (oc_view2 o) e) as [rec2|x|x] eqn:E2.
  2:{ intros [= <- <-] _. right; right. split; [done|]. split; [|by destruct (oc_closing o)].
      intros (_ & _ & ? & ? & ? & H%sender_record_iff & _). congruence. }
  2:{ destruct (record_total (oc_view2 o) e) as (? & <- & H). by apply H in E2. }
  destruct (oc_found o) as [[[peer pr]|x|x]|] eqn:Ef; [| |by intros [= <- <-]|done].
  - pose proof (new_stream_cases e peer rec2 (oc_stream o) Hrp) as Hc.
    destruct (route_new_stream e peer rec2 (oc_stream o)) as [fs' r']. destruct Hc as [Hc _].
    destruct r' as [[]|x|x]; intros [= <- <-] Hp; [| |done].
    + destruct Hc as (Hc & _ & Hnet). right; right. split; [done|]. split; [|cbn [net app]; lia].
      intros (_ & _ & rec' & ? & ? & H%sender_record_iff & _ & Hn). apply Hn. congruence.
    + destruct Hc as (Hc & _ & _ & Hnet). right; left. split; [|cbn [net app]; rewrite !net_app, Hnet; by destruct (oc_closing o)].
      split; [done|]. split; [done|]. exists rec2, peer, pr. split; [by apply sender_record_iff|]. done.
  - intros [= <- <-] _. right; right. split; [done|]. split; [|by destruct (oc_closing o)].
    intros (_ & _ & ? & ? & ? & _ & ? & _). congruence.
Qed.
Print Assumptions C41_gauge.

(** Sending an envelope from the slow queue decrements a gauge that was settled when
    the envelope was queued, once the lookup found a peer; else it leaves it alone. *)
Theorem C41_slow v e found o fs r :
  (forall x, so_reply o <> Panic x) ->
  slow_send v e found o = (fs, Returns r) -> is_panic r = false ->
  net fs = -1 /\ (represented v e /\ exists peer pr, found = Returns (Ok (peer, pr))) \/
  net fs = 0 /\ ~ (represented v e /\ exists peer pr, found = Returns (Ok (peer, pr))).
Proof.
  intros Hrp. unfold slow_send, route_dht. destruct (envelope_record v e) as [rec|x|x] eqn:Er.
  2:{ intros [= <- <-] _. right. split; [done|]. intros [(? & H)%record_found _]. congruence. }
  2:{ destruct (record_total v e) as (? & <- & H). by apply H in Er. }
  assert (Hrep : represented v e) by (apply record_found; eauto).
  destruct found as [[[peer pr]|x|x]|]; [| |by intros [= <- <-]|done].
  - pose proof (new_stream_cases e peer rec o Hrp) as Hc.
    destruct (route_new_stream e peer rec o) as [fs' r']. destruct Hc as [Hc _].
    destruct r' as [[]|x|x]; intros [= <- <-] Hp; [| |done].
    + left. split; [apply Hc|]. eauto.
    + left. split; [apply Hc|]. eauto.
  - intros [= <- <-] _. right. split; [done|]. by intros (_ & ? & ? & ?).
Qed.
Print Assumptions C41_slow.

(** What is counted as a success: every envelope for a delegate client, delivered or
    not, and what the own agent took; nothing else. *)
Theorem C41_success v e o fs r :
  (forall x, so_reply (oc_stream o) <> Panic x) ->
  route v e o = (fs, r) ->
  In CountSuccess fs <->
  represented v e /\
  ((exists c, destined v e (AtDelegate c)) \/
   destined v e AtAgent /\ oc_ready o = true /\ v_has_handler v = true /\ oc_agent o = Ok tt).
Proof.
  intros Hrp. unfold route. destruct (envelope_record v e) as [rec|x|x] eqn:Er.
  2:{ intros [= <- <-]. split; [by intros [?|[?|[]]]|]. intros [(? & H)%record_found _]. congruence. }
  2:{ destruct (record_total v e) as (? & <- & H). by apply H in Er. }
  assert (Hrep : represented v e) by (apply record_found; eauto).
  destruct (v_mailbox v && v_box_target v) eqn:Et.
  { apply takes_true in Et. intros [= <- <-]. split; [by intros [?|[?|[?|[]]]]|].
    intros [_ [(? & ? & _)|[[? _] _]]]; done. }
  assert (Ht : ~ takes v) by (rewrite takes_true; congruence).
  destruct (String.eqb_spec (e_to e) (v_my_addr v)) as [E|E].
  { destruct (oc_ready o) eqn:E1; cbn [negb].
    2:{ intros [= <- <-]. split; [by intros [?|[?|[]]]|]. intros [_ [(? & _ & ? & _)|(_ & ? & _)]]; done. }
    destruct (v_has_handler v) eqn:E2; cbn [negb].
    2:{ intros [= <- <-]. split; [by intros [?|[?|[]]]|]. intros [_ [(? & _ & ? & _)|(_ & _ & ? & _)]]; done. }
    destruct (oc_agent o) as [[]|x|x] eqn:E3; intros [= <- <-].
    - split; [|cbn; tauto]. intros _. split; [done|]. by right.
    - split; [by intros [?|[?|[?|[?|[]]]]]|]. intros [_ [(? & _ & ? & _)|(_ & _ & _ & ?)]]; done.
    - split; [by intros [?|[?|[?|[]]]]|]. intros [_ [(? & _ & ? & _)|(_ & _ & _ & ?)]]; done. }
  assert (Hcount : forall l, ~ In CountSuccess l -> ~ In CountSuccess (GaugeInc :: CountAll :: l)).
  { intros l H [?|[?|?]]; done. }
  destruct (v_delegate v) as [c|] eqn:Ed.
  { intros H. split; [|destruct (envelope_frame e None); [destruct (oc_write o)|]; cbn [negb] in H;
      injection H as <- <-; intros _; cbn; tauto].
    intros _. split; [done|]. left. by exists c. }
  assert (Hno : ~ ((exists c, destined v e (AtDelegate c)) \/
    destined v e AtAgent /\ oc_ready o = true /\ v_has_handler v = true /\ oc_agent o = Ok tt)).
  { intros [(c & _ & _ & ?)|[[_ ?] _]]; congruence. }
  destruct (v_relay v) as [i|] eqn:Ei.
  { intros H. split; [|by intros [_ ?]]. intros Hin. exfalso. revert Hin.
    destruct (oc_peer o) as [peer|]; [|injection H as <- <-; by intros [?|[?|[?|[]]]]].
    pose proof (new_stream_cases e peer rec (oc_stream o) Hrp) as Hc.
    destruct (route_new_stream e peer rec (oc_stream o)) as [fs' r']. destruct Hc as (_ & Hc & _).
    injection H as <- <-. by apply Hcount. }
  intros H. split; [|by intros [_ ?]]. intros Hin. exfalso. revert Hin. revert H.
  unfold route_dht. destruct (envelope_record (oc_view2 o) e) as [rec2|x|x].
  2:{ intros [= <- <-]. destruct (oc_closing o); cbn; intuition done. }
  2:{ intros [= <- <-]. apply Hcount. by intros []. }
  destruct (oc_found o) as [[[peer pr]|x|x]|]; [| |intros [= <- <-]; apply Hcount; by intros []..].
  - pose proof (new_stream_cases e peer rec2 (oc_stream o) Hrp) as Hc.
    destruct (route_new_stream e peer rec2 (oc_stream o)) as [fs' r']. destruct Hc as (_ & Hc & _).
    destruct r' as [[]|x|x]; intros [= <- <-]; apply Hcount; [done| |done].
    intros [?|Hin]%in_app_or; [done|]. destruct (oc_closing o); cbn in Hin; intuition done.
  - intros [= <- <-]. destruct (oc_closing o); cbn; intuition done.
Qed.
Print Assumptions C41_success.

Example C41_example :
  net (fst (route (View "me" None true true false None true (Some alice) None None) (from_alice "carol") outcome0)) = 1 /\
  net (fst (route view0 (from_alice "carol") outcome0)) = 0 /\
  net (fst (route view0 (from_alice "carol")
    (Outcome true (Ok tt) true (Ok tt) None view0 (Returns (Ok ("Qm2", None))) (StreamOutcome false true (Err "")) false))) = -1 /\
  net (fst (slow_send view0 (from_alice "carol") (Returns (Ok ("Qm2", None))) (oc_stream outcome0))) = -1 /\
  counted_twice view0 (from_alice "carol")
    (Outcome true (Ok tt) true (Ok tt) None view0 (Returns (Ok ("Qm2", None))) (StreamOutcome false true (Err "")) false).
Proof.
  do 4 (split; [vm_compute; done|]).
  split; [right; right; done|]. split; [split; [by intros [_ ?]|done]|].
  exists (Some alice), "Qm2", None.
  split; [right; right; split; [done|]; split; [by intros [_ ?]|done]|]. split; [done|]. by intros [[? _] _].
Qed.
