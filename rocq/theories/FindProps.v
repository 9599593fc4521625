(** C72: an agent registered at some node can be found and reached from every other node
    whose lookup gets to it, directly or through nodes that ask on. The theorems put
    together the models of registration, lookup and routing. *)
From Coq Require Import ZArith NArith List String Ascii Lia.
From stdpp Require Import base tactics gmap list strings.
From Verif Require Import GoBase Bytes Utf8 WireModel ProtoModel WireProofs ProtoProofs ProtoProps CryptoModel PorModel
  CryptoProofs CryptoProps PorProps FrameModel FrameProofs FrameProps AcnModel DelegateModel DelegateProofs DelegateProps
  RouteModel RouteProps PeerProps AgentModel AgentProps EndProps.
Open Scope string_scope.
Open Scope list_scope.
Open Scope Z_scope.

(** ** What was decoded can be written again *)

Lemma fold_keeps {A} (I : A -> Prop) (f : A -> Z -> wval -> option A) :
  (forall a n v a', I a -> f a n v = Some a' -> I a') ->
  forall b a a', I a -> decode_into f a b = Some a' -> I a'.
Proof.
  intros Hf b a a' Ha. unfold decode_into. destruct (get_fields b) as [fs|]; [|done]. revert a Ha.
  induction fs as [|[n v] fs IH]; intros a Ha; cbn [fold_fields]; [by intros [= <-]|].
  destruct (f a n v) as [a1|] eqn:E; [|done]. apply IH. by eapply Hf.
Qed.

Definition texts_ok (l : list string) : Prop := Forall (fun s => valid_text s = true) l.

Lemma text_of_ok b s : text_of b = Some s -> valid_text s = true.
Proof.
  unfold text_of, valid_text. destruct (utf8_valid b) eqn:E; [|done]. intros [= <-]. by rewrite string_bytes.
Qed.

Lemma record_field_ok r n v r' :
  texts_ok (record_texts r) -> record_field r n v = Some r' -> texts_ok (record_texts r').
Proof.
  destruct r as [a1 a2 a3 a4 a5 a6 a7 a8], v; cbn [record_field]; try (by intros ? [= <-]).
  unfold texts_ok, record_texts. cbn. rewrite !Forall_cons. intros (H1 & H2 & H3 & H4 & H5 & H6 & H7 & H8 & _) E.
  repeat case_match; try done; injection E as <-; cbn;
    repeat match goal with H : text_of _ = Some _ |- _ => apply text_of_ok in H end; repeat (constructor; try done).
Qed.

Lemma merge_record_ok r b r' :
  texts_ok (opt_texts r) -> merge_message record_field record0 r b = Some r' -> texts_ok (opt_texts r').
Proof.
  unfold merge_message. intros Hr. destruct (decode_into _ _ b) as [x|] eqn:E; [|done]. intros [= <-].
  cbn. eapply (fold_keeps (fun r => texts_ok (record_texts r))); [apply record_field_ok| |exact E].
  destruct r; [exact Hr|]. repeat constructor.
Qed.

Lemma acn_field_ok m n v m' : texts_ok (acn_texts m) -> acn_field m n v = Some m' -> texts_ok (acn_texts m').
Proof.
  intros Hm. destruct v as [z| |b| |];
    try (cbv beta iota delta [acn_field]; repeat case_match; intros E; try discriminate E; injection E as <-; exact Hm).
  assert (Hrec : forall cur r, texts_ok (opt_texts cur) -> decode_into (opt_record_field 1) cur b = Some r ->
    texts_ok (opt_texts r)).
  { intros cur r. apply (fold_keeps (fun r => texts_ok (opt_texts r))). clear. intros r n v r' Hr. unfold opt_record_field.
    destruct v; try (by intros [= <-]). destruct (n =? 1); [|by intros [= <-]]. by apply merge_record_ok. }
  destruct (decide (n = 5)) as [->|H5].
  { cbn [acn_field]. set (cur := match m with Some (PEnvelope e r) => (e, r) | _ => ([], None) end).
    assert (texts_ok (opt_texts cur.2)) as Hc.
    { unfold cur. destruct m as [[]|]; try exact Hm; constructor. }
    destruct (decode_into aea_envelope_field cur b) as [[e r]|] eqn:E; [|done]. intros [= <-]. cbn [acn_texts].
    change r with ((e, r).2). revert Hc E. apply (fold_keeps (fun x => texts_ok (opt_texts x.2))). clear.
    intros a n v a' Ha. unfold aea_envelope_field.
    repeat case_match; intros E; try discriminate E; injection E as <-; try exact Ha; cbn [snd]; by eapply merge_record_ok. }
  destruct (decide (n = 6)) as [->|H6].
  { cbn [acn_field]. set (cur := match m with Some (PLookupRequest a) => a | _ => "" end).
    assert (valid_text cur = true) as Hc.
    { unfold cur. destruct m as [[]|]; try done. by inversion Hm. }
    destruct (decode_into lookup_request_field cur b) as [x|] eqn:E; [|done]. intros [= <-]. cbn [acn_texts].
    constructor; [|constructor]. revert Hc E. apply (fold_keeps (fun x => valid_text x = true)). clear.
    intros a n v a' Ha. unfold lookup_request_field.
    repeat case_match; intros E; try (injection E as <-; exact Ha); by eapply text_of_ok. }
  destruct (decide (n = 7)) as [->|H7].
  { cbn [acn_field]. destruct (decode_into (opt_record_field 1) _ b) as [x|] eqn:E; [|done]. intros [= <-].
    cbn [acn_texts]. revert E. apply Hrec. destruct m as [[]|]; try exact Hm; constructor. }
  destruct (decide (n = 8)) as [->|H8].
  { cbn [acn_field]. destruct (decode_into (opt_record_field 1) _ b) as [x|] eqn:E; [|done]. intros [= <-].
    cbn [acn_texts]. revert E. apply Hrec. destruct m as [[]|]; try exact Hm; constructor. }
  destruct (decide (n = 9)) as [->|H9].
  { cbn [acn_field]. set (cur := match m with Some (PStatus s) => s | _ => None end).
    set (I := fun s : option status_body => texts_ok (match s with Some x => sb_msgs x | None => [] end)).
    assert (I cur) as Hc. { unfold cur, I. destruct m as [[| | | |[]]|]; try exact Hm; constructor. }
    destruct (decode_into status_performative_field cur b) as [x|] eqn:E; [|done]. intros [= <-].
    assert (I x) as Hx; [|by destruct x].
    revert Hc E. apply (fold_keeps I). clear. intros a n v a' Ha. unfold status_performative_field.
    repeat case_match; intros E; try (injection E as <-; exact Ha). revert E. unfold merge_message.
    destruct (decode_into _ _ b) as [y|] eqn:E; [|done]. intros [= <-]. unfold I.
    revert E. apply (fold_keeps (fun s => texts_ok (sb_msgs s))); [|destruct a; [exact Ha|constructor]].
    clear. intros a n v a' Ha. unfold status_field.
    repeat case_match; intros E; try discriminate E; injection E as <-; try exact Ha; cbn [sb_msgs].
    apply Forall_app. split; [exact Ha|]. constructor; [|constructor]. by eapply text_of_ok. }
  intros E. assert (acn_field m n (WBytes b) = Some m) as E'; [|rewrite E' in E; by injection E as <-].
  destruct n as [|p|p]; [done| |done]. do 4 (destruct p; try done).
Qed.

Lemma decoded_acn_encodable b m : decode_acn b = Some m -> exists out, encode_acn m = Some out.
Proof.
  intros H. destruct (encode_acn m) as [out|] eqn:E; [eauto|]. exfalso.
  apply acn_none in E as (s & Hs & Hv).
  assert (Hm : texts_ok (acn_texts m)).
  { revert H. apply (fold_keeps (fun m => texts_ok (acn_texts m))); [exact acn_field_ok|constructor]. }
  unfold texts_ok in Hm. rewrite Forall_forall in Hm. apply elem_of_list_In, Hm in Hs. congruence.
Qed.

(** ** The tables of the node of the agent *)

Section Tables.
Context (P : prims) (my_key why : string).
Notation step := (step P my_key why).
Notation run := (run P my_key why).

Lemma step_records n ev n' a :
  step n ev = Ok n' -> is_Some (n_records n !! a) -> is_Some (n_records n' !! a).
Proof.
  intros Hs Ha. destruct ev as [c read w|c ok|w|w]; cbn [DelegateModel.step] in Hs.
  - destruct (phase_of n c); try done.
    + by apply read_new_cases in Hs as (sent & p & -> & _).
    + by apply read_loop_cases in Hs as
        (sent & [->|[[s ->]|(f & b & rec & e & -> & -> & Hd & He & -> & [[Hs ->]|[Hs ->]])]]).
  - unfold go in Hs. destruct (phase_of n c) as [|r' k|b|b s|b q s| |b e|b e|b e|b k|b|]; try done;
      try destruct k as [|[|[|k]]]; try destruct (_ <? _)%nat; try done; injection Hs as <-; try exact Ha.
    cbn. destruct (decide (r_address r' = a)) as [->|]; [by rewrite lookup_insert|by rewrite lookup_insert_ne].
  - unfold start in Hs. destruct (n_workers n !! w) as [[p [ch|]]|]; try done. by injection Hs as <-.
  - unfold take_ in Hs. destruct (n_workers n !! w) as [[p [ch|]]|]; try done.
    destruct (n_chans n !! ch) as [[|x l]|]; try done. by injection Hs as <-.
Qed.

(** A record is never removed. *)
Lemma run_records evs n n' a :
  run n evs = Ok n' -> is_Some (n_records n !! a) -> is_Some (n_records n' !! a).
Proof.
  revert n. induction evs as [|ev evs IH]; intros n; cbn [DelegateModel.run]; [by intros <-%Ok_inj|].
  destruct (step n ev) as [m| |] eqn:Es; try done. cbn [rbind]. intros Hr Ha. eapply IH; [exact Hr|].
  by eapply step_records.
Qed.

(** Whoever is in the table of connected clients has a record. *)
Lemma tcp_record evs n :
  run node0 evs = Ok n ->
  (forall a, is_Some (n_tcp n !! a) -> is_Some (n_records n !! a)) /\
  (forall c r k, phase_of n c = Storing r (S k) -> is_Some (n_records n !! r_address r)).
Proof.
  revert evs n. apply (run_ind P my_key why (fun _ n =>
    (forall a, is_Some (n_tcp n !! a) -> is_Some (n_records n !! a)) /\
    (forall c r k, phase_of n c = Storing r (S k) -> is_Some (n_records n !! r_address r)))).
  { split; [by intros a [? ?]|done]. }
  intros evs n ev n' _ [IH1 IH2] Hs. pose proof (fun a => step_records n ev n' a Hs) as Hkeep.
  destruct ev as [c read w|c ok|w|w]; cbn [DelegateModel.step] in Hs.
  - destruct (phase_of n c) eqn:Ep; try done.
    + apply read_new_cases in Hs as (sent & p & -> & Hp). split; [exact IH1|]. intros c' r k.
      rewrite (phase_of_set' n) by done. destruct (decide (c' = c)); [|apply IH2].
      by destruct Hp as [->|(f & r' & -> & _)].
    + apply read_loop_cases in Hs as
        (sent & [->|[[s ->]|(f & b & rec & e & -> & -> & Hd & He & -> & [[Hs ->]|[Hs ->]])]]);
        (split; [exact IH1|]; intros c' r k; rewrite ?(phase_of_set' n) by done;
         try destruct (decide (c' = c)); [done|apply IH2]) || (split; [exact IH1|exact IH2]).
  - unfold go in Hs. destruct (phase_of n c) as [|r' k|b|b s|b q s| |b e|b e|b e|b k|b|] eqn:Ep; try done;
      try destruct k as [|[|[|k]]]; try destruct (_ <? _)%nat; try done; injection Hs as <-;
      (split; [intros a Ht; apply Hkeep|intros c' r0 k0; rewrite (phase_of_set' n) by done;
        destruct (decide (c' = c)) as [->|]; [intros E|intros E%IH2; by apply Hkeep]]);
      try (by apply IH1); try done; try (by destruct (n_pairs n !! _)); try (by destruct (n_stat n !! _));
      try (by destruct ok).
    all: try (injection E as <- <-).
    + cbn. by rewrite lookup_insert.
    + cbn in Ht. destruct (decide (r_address r' = a)) as [<-|]; [by eapply IH2|].
      rewrite lookup_insert_ne in Ht by done. by apply IH1.
    + apply Hkeep. by eapply IH2.
    + apply Hkeep. by eapply IH2.
    + cbn in Ht. destruct (decide (b = a)) as [<-|]; [rewrite lookup_delete in Ht; by destruct Ht|].
      rewrite lookup_delete_ne in Ht by done. by apply IH1.
  - unfold start in Hs. destruct (n_workers n !! w) as [[p [ch|]]|]; try done. by injection Hs as <-.
  - unfold take_ in Hs. destruct (n_workers n !! w) as [[p [ch|]]|]; try done.
    destruct (n_chans n !! ch) as [[|x l]|]; try done. by injection Hs as <-.
Qed.
End Tables.

(** Every ACN message a node has read can be written again, by any node, in an answer or
    on its way. *)
Theorem C72_rewritable b m : decode_acn b = Some m -> exists out, encode_acn m = Some out.
Proof. apply decoded_acn_encodable. Qed.
Print Assumptions C72_rewritable.

(** ** Being found *)

(** What the handler of a lookup request for [a] reads at the node with key [key] where
    the agent is connected on [c]: neither the node's own agent nor a relayed client nor
    the mailbox service has the address; the table of connections is read first, the
    records after any further steps of the node (dhtpeer.go:1546-1592). *)
Definition home (P : prims) (key a : string) (c : nat) (v : view) : Prop :=
  v_my_addr v <> a /\ v_relay v = None /\ (v_mailbox v = false \/ v_box_sender v = false) /\
  exists why evs n evs' n',
    run P key why node0 evs = Ok n /\ n_tcp n !! a = Some c /\ v_delegate v = Some c /\
    run P key why n evs' = Ok n' /\ v_record v = n_records n' !! a.

(** A node that knows nothing of [a] itself. *)
Definition stranger (a : string) (v : view) : Prop :=
  v_my_addr v <> a /\ v_relay v = None /\ (v_mailbox v = false \/ v_box_sender v = false) /\ v_delegate v = None.

(** The frame the node of [v] answers to a lookup request for [a], and the asking node
    reads; [found] is the outcome of the lookup of its own. *)
Definition replies (v : view) (a : string) (found : ret (string * option record)) (p : provider) : Prop :=
  pv_open p = true /\ exists q why m b,
    decode_acn q = Some (Some (PLookupRequest a)) /\
    address_stream why (fun x => address_request v x true found) (Ok q) = Returns (Ok [m]) /\
    encode_acn (Some m) = Some b /\ Z.of_nat (length b) < 2 ^ 63 /\ pv_reply p = Ok b.

(** The home of an agent answers a lookup request with a record that proves that it
    represents the agent, and this answer can be written. *)
Theorem C72_answer P key a c v found q why :
  home P key a c v -> decode_acn q = Some (Some (PLookupRequest a)) ->
  exists r b, address_stream why (fun x => address_request v x true found) (Ok q) =
      Returns (Ok [PLookupResponse (Some r)]) /\
    encode_acn (Some (PLookupResponse (Some r))) = Some b /\ represents P r a key.
Proof.
  intros (Hm & Hre & Hb & why' & evs & n & evs' & n' & Hrun & Ht & Hv & Hrun' & Hrec) Hq.
  destruct (tcp_record _ _ _ _ _ Hrun) as [Hr _].
  destruct (run_records _ _ _ _ _ _ a Hrun' (Hr a ltac:(by rewrite Ht))) as [r Er].
  assert (Hall : run P key why' node0 (evs ++ evs') = Ok n') by (by rewrite run_app, Hrun).
  destruct (C37_records _ _ _ _ _ _ _ Hall Er) as [Hrep (c' & f & _ & Hf)].
  destruct (decoded_acn_encodable _ _ Hf) as [out Ho].
  assert (exists b, encode_acn (Some (PLookupResponse (Some r))) = Some b) as [b Eb].
  { destruct (encode_acn (Some (PLookupResponse (Some r)))) as [b|] eqn:E; [eauto|]. apply acn_none in E.
    assert (encode_acn (Some (PRegister (Some r))) = None) by (by apply acn_none). congruence. }
  exists r, b. split; [|done]. unfold address_stream, read_lookup_request. rewrite Hq. cbn [app].
  unfold address_request. rewrite (proj2 (String.eqb_neq _ _)) by done. rewrite Hre.
  replace (v_mailbox v && v_box_sender v) with false by (destruct Hb as [-> | ->]; [|rewrite andb_comm]; done).
  by rewrite Hv, Hrec, Er.
Qed.
Print Assumptions C72_answer.

(** The agent's node is its home all the time it serves the agent's connection, if no
    other connection registers the same address. *)
Theorem C72_served P key why evs n a c v :
  run P key why node0 evs = Ok n -> sole_client P key evs a -> phase_of n c = Looping a ->
  v_my_addr v <> a -> v_relay v = None -> v_mailbox v = false \/ v_box_sender v = false ->
  v_delegate v = n_tcp n !! a -> v_record v = n_records n !! a ->
  home P key a c v.
Proof.
  intros Hrun Hs Hp Hm Hr Hb Hd Hrec. do 3 (split; [done|]). exists why, evs, n, [], n.
  destruct (C39_connected _ _ _ _ _ a c Hrun Hs) as (_ & H & _). specialize (H Hp).
  rewrite Hd, H. done.
Qed.
Print Assumptions C72_served.

Section Find.
Context (P : prims) (id_of_key : string -> option string).

(** A provider whose answer comes from the agent's home: its own if it is the home, or
    what its own lookup found, if that got to such a provider before any other that
    gives an answer or crashes it. *)
Inductive asked (a key : string) : provider -> Prop :=
| AskedHome p c v found : home P key a c v -> replies v a found p -> asked a key p
| AskedOn p v rs ps1 p' ps2 d rest :
    stranger a v -> first_round rs (ps1 ++ p' :: ps2) d rest -> Forall real (ps1 ++ p' :: ps2) ->
    Forall (useless P a) ps1 -> asked a key p' ->
    replies v a (lookup_dht P id_of_key true a rs) p -> asked a key p.

(** Through however many nodes the question went: the answer is a record with a proof
    that the home represents the agent. *)
Theorem C72_found a key id p :
  id_of_key key = Some id -> asked a key p -> exists r, gives P a p r /\ r_peer_key r = key.
Proof.
  intros Hid. induction 1 as [p c v found Hh (Ho & q & why & m & b & Hq & Ha & He & Hl & Hp)
    |p v rs ps1 p' ps2 d rest (Hm & Hre & Hb & Hd) Hf Hreal Hu _ IH (Ho & q & why & m & b & Hq & Ha & He & Hl & Hp)].
  - destruct (C72_answer P key a c v found q why Hh Hq) as (r & b' & Ha' & _ & Hr). rewrite Ha in Ha'.
    injection Ha' as ->. exists r. destruct Hr as (Hr1 & Hr2 & Hr3).
    split; [|done]. split; [done|]. split; [|by rewrite Hr2].
    exists b. split; [done|]. by apply (proj2 (C23_acn (Some (PLookupResponse (Some r))))).
  - destruct IH as (r & Hg & Hk). exists r. split; [|done].
    pose proof (C45_found P id_of_key a rs ps1 p' ps2 d rest r Hf Hreal Hu Hg) as E. rewrite Hk, Hid in E. 
    assert (m = PLookupResponse (Some r)) as ->.
    { revert Ha. unfold address_stream, read_lookup_request. rewrite Hq. unfold address_request.
      rewrite (proj2 (String.eqb_neq _ _)) by done. rewrite Hre.
      replace (v_mailbox v && v_box_sender v) with false by (destruct Hb as [-> | ->]; [|rewrite andb_comm]; done).
      rewrite Hd, E. by intros [= <-]. }
    split; [done|]. split; [|apply Hg]. exists b. split; [done|].
    by apply (proj2 (C23_acn (Some (PLookupResponse (Some r))))).
Qed.

Theorem C72_lookup a key id rs ps1 p ps2 d rest :
  id_of_key key = Some id -> first_round rs (ps1 ++ p :: ps2) d rest -> Forall real (ps1 ++ p :: ps2) ->
  Forall (useless P a) ps1 -> asked a key p ->
  exists r, lookup_dht P id_of_key true a rs = Returns (Ok (id, Some r)) /\ represents P r a key.
Proof.
  intros Hid Hf Hr Hu Ha. destruct (C72_found a key id p Hid Ha) as (r & Hg & Hk). exists r.
  rewrite (C45_found _ _ _ _ _ _ _ _ _ _ Hf Hr Hu Hg), Hk, Hid. split; [done|]. rewrite <- Hk. apply Hg.
Qed.

(** ** Being reached *)

(** What the node at the other end of a stream answers to the frame it reads there. *)
Definition answered (x : list effect * res (list acn_perf)) : res bytes :=
  match x.2 with
  | Ok [m] => match encode_acn (Some m) with Some b => Ok b | None => Err "" end
  | _ => Err ""
  end.

(** An agent of the node with key [key1] sends to one registered at the node with key
    [key2], which takes the envelope and whose agent acknowledges it: it is written once
    to the stream to that node and once to the agent's connection, and the sender's node
    reports success. *)
Theorem C72_reach key1 key2 id v e o rec f rs ps1 p ps2 d rest v2 c agent why2 :
  looks P key1 (oc_view2 o) e -> represented v e -> destined v e AtNetwork ->
  sender_record (oc_view2 o) e rec -> carries f e rec -> Z.of_nat (length f) < 2 ^ 31 ->
  id_of_key key2 = Some id -> first_round rs (ps1 ++ p :: ps2) d rest -> Forall real (ps1 ++ p :: ps2) ->
  Forall (useless P (e_to e)) ps1 -> asked (e_to e) key2 p ->
  oc_found o = lookup_dht P id_of_key true (e_to e) rs ->
  v_mailbox v2 = false \/ v_box_target v2 = false -> v_delegate v2 = Some c ->
  let there := envelope_stream P why2 key1 (fun e => handle_envelope v2 e agent true (Ok tt)) (Ok f) in
  oc_stream o = StreamOutcome true true (answered there) ->
  exists f2,
    route v e o = ([GaugeInc; CountAll; ToPeer id f; GaugeDec], Returns (Ok tt)) /\
    there = ([ToDelegate c f2], Ok [PStatus (Some (StatusBody 0 []))]) /\
    carries f2 e None /\ (Z.of_nat (length f2) < 2 ^ 32 -> brings f2 e None).
Proof.
  intros L Hrep (Ht & Hto & Hdel & Hrel) Hrec Hc Hl Hid Hf Hreal Hu Ha Hfound Hb Hv2 there Hs.
  destruct (C72_lookup (e_to e) key2 id rs ps1 p ps2 d rest Hid Hf Hreal Hu Ha) as (r & Hlook & _).
  apply sender_record_iff in Hrec.
  destruct (looks_record _ _ _ _ _ L Hrec) as (x & -> & Hx).
  destruct (carries_frame _ _ _ Hc) as [_ (b & H1 & H2)]; [lia|].
  destruct Hc as (be & Hbe & Hfe).
  assert (exists f2, encode_acn (Some (PEnvelope be None)) = Some f2) as [f2 Hf2].
  { destruct (encode_acn (Some (PEnvelope be None))) eqn:E; [eauto|].
    apply acn_none in E as (s & [] & _). }
  assert (Hthere : there = ([ToDelegate c f2], Ok [PStatus (Some (StatusBody 0 []))])).
  { unfold there, envelope_stream, receive_envelope, read_envelope_message, decode_acn_message. rewrite H1, H2.
    apply C29_accepted in Hx. rewrite Hx. cbn [orb]. change (0 =? SUCCESS) with true. cbn [negb].
    unfold handle_envelope.
    replace (v_mailbox v2 && v_box_target v2) with false by (destruct Hb as [-> | ->]; [|rewrite andb_comm]; done).
    rewrite Hv2. unfold envelope_frame. by rewrite Hbe, Hf2. }
  exists f2. split; [|split; [done|]].
  - unfold route. assert (exists rec0, envelope_record v e = Ok rec0) as [rec0 ->].
    { unfold envelope_record. destruct (String.eqb_spec (e_sender e) (v_my_addr v)); [eauto|].
      destruct (v_mailbox v && v_box_sender v) eqn:Eb; [eauto|].
      destruct (v_record v) eqn:Er; [eauto|]. exfalso. destruct Hrep as [?|[[H3 H4]|?]]; try done.
      by rewrite H3, H4 in Eb. }
    replace (v_mailbox v && v_box_target v) with false.
    2:{ unfold takes in Ht. destruct (v_mailbox v), (v_box_target v); try done. by destruct Ht. }
    rewrite (proj2 (String.eqb_neq _ _)) by done. rewrite Hdel, Hrel.
    unfold route_dht. rewrite Hrec, Hfound, Hlook. unfold route_new_stream. rewrite Hs. cbn [so_open so_write so_reply negb].
    rewrite Hbe, Hfe, Hthere. cbn [answered snd].
    replace (read_status (answered ([ToDelegate c f2], Ok [PStatus (Some (StatusBody 0 []))])))
      with (Ok (Some (StatusBody 0 [])) : res (option status_body)) by (vm_compute; done).
    done.
  - assert (Hc2 : carries f2 e None) by (by exists be). split; [done|]. intros Hl2.
    by destruct (carries_frame _ _ _ Hc2 Hl2) as [_ ?].
Qed.
End Find.
Print Assumptions C72_found.
Print Assumptions C72_lookup.
Print Assumptions C72_reach.

(** ** What does not hold *)

(** Expected but false: an agent that is connected and served can be found at its node.
    After a reconnect that overlaps the clean-up of the old connection (C39), its node
    answers that it does not know the address, if its own lookup finds nothing else. *)
Theorem C72_reconnect_refuted : exists evs n a q,
  run toy "peer" "why" node0 evs = Ok n /\ registered_as toy "peer" evs 2 a /\ phase_of n 2 = Looping a /\
  decode_acn q = Some (Some (PLookupRequest a)) /\
  forall v found, v_my_addr v <> a -> v_relay v = None -> v_mailbox v = false ->
    v_delegate v = n_tcp n !! a -> v_record v = n_records n !! a ->
    (exists x, found = Returns (Err x)) \/ found = Returns (Ok ("", None)) ->
    address_stream "why" (fun x => address_request v x true found) (Ok q) =
      Returns (Ok [PStatus (Some (StatusBody 20 ["why"]))]).
Proof.
  exists (joins 1 alice ++ joins 2 alice ++ leaves 1).
  assert (H : match toy_run (joins 1 alice ++ joins 2 alice ++ leaves 1) with
              | Ok n => phase_of n 2 = Looping (r_address alice) /\ n_tcp n !! r_address alice = None
              | _ => False end) by (vm_compute; done).
  destruct (toy_run (joins 1 alice ++ joins 2 alice ++ leaves 1)) as [n| |] eqn:E; [|contradiction..].
  destruct H as [H1 H2].
  exists n, (r_address alice), (default [] (encode_acn (Some (PLookupRequest (r_address alice))))).
  split; [exact E|]. split.
  { clear. exists alice. split; [|done]. eexists. split; [vm_compute; done|]. split; [vm_compute; done|].
    apply C29_accepted. vm_compute. done. }
  split; [exact H1|]. clear E H1. split; [vm_compute; done|].
  intros v found Hm Hr Hb Hd _ Hf. unfold address_stream.
  replace (read_lookup_request "why" (Ok (default [] (encode_acn (Some (PLookupRequest (r_address alice)))))))
    with (([], Ok (r_address alice)) : list acn_perf * res string) by (vm_compute; done).
  unfold address_request. rewrite (proj2 (String.eqb_neq _ _)) by congruence. rewrite Hr, Hb. cbn [andb].
  rewrite Hd, H2. by destruct Hf as [[x ->] | ->].
Qed.
Print Assumptions C72_reconnect_refuted.

(** Expected but false: what the node answers is an agent that is connected. After a
    failed announcement the connection is closed, but lookups go on to be answered with
    the record. *)
Theorem C72_abandoned_refuted : exists evs n a q,
  run toy "peer" "why" node0 evs = Ok n /\ phase_of n 1 = Abandoned a /\ (forall c, c <> 1%nat -> phase_of n c = New) /\
  decode_acn q = Some (Some (PLookupRequest a)) /\
  forall v found, v_my_addr v <> a -> v_relay v = None -> v_mailbox v = false ->
    v_delegate v = n_tcp n !! a -> v_record v = n_records n !! a ->
    address_stream "why" (fun x => address_request v x true found) (Ok q) =
      Returns (Ok [PLookupResponse (Some alice)]).
Proof.
  set (evs := [ERead 1 (frame_of (PRegister (Some alice))) true; EGo 1 true; EGo 1 true; EGo 1 true; EGo 1 false]).
  exists evs.
  assert (H : match toy_run evs with
              | Ok n => map_to_list (n_conns n) = [(1%nat, Abandoned (r_address alice))] /\
                  n_tcp n !! r_address alice = Some 1%nat /\ n_records n !! r_address alice = Some alice
              | _ => False end) by (vm_compute; done).
  destruct (toy_run evs) as [n| |] eqn:E; [|contradiction..]. destruct H as (H1 & H2 & H3).
  exists n, (r_address alice), (default [] (encode_acn (Some (PLookupRequest (r_address alice))))).
  split; [exact E|]. clear E.
  assert (Hc : forall c p, n_conns n !! c = Some p <-> c = 1%nat /\ p = Abandoned (r_address alice)).
  { intros c p. rewrite <- elem_of_map_to_list, H1, elem_of_list_singleton. split; [by intros [= -> ->]|by intros [-> ->]]. }
  split. { unfold phase_of. by rewrite (proj2 (Hc 1%nat _) (conj eq_refl eq_refl)). }
  split. { intros c Hne. unfold phase_of. destruct (n_conns n !! c) as [p|] eqn:Ep; [|done]. by apply Hc in Ep as [? _]. }
  split; [vm_compute; done|].
  intros v found Hm Hr Hb Hd Hrec. unfold address_stream.
  replace (read_lookup_request "why" (Ok (default [] (encode_acn (Some (PLookupRequest (r_address alice)))))))
    with (([], Ok (r_address alice)) : list acn_perf * res string) by (vm_compute; done).
  unfold address_request. rewrite (proj2 (String.eqb_neq _ _)) by congruence. rewrite Hr, Hb. cbn [andb].
  rewrite Hd, H2, Hrec, H3. reflexivity.
Qed.
Print Assumptions C72_abandoned_refuted.

(** Carol is connected to the node with key "home". A third node asked for them asks on.
    Bob, connected to the node with key "peer", sends them an envelope: the first
    provider the lookup tries is down, the second is the third node. *)
Definition carol : record :=
  Record_ "s" "fetchai" (r_address alice) "0A0b0c0D" "home"
    (string_of [z2b 10; z2b 11; z2b 12; z2b 13; "h"%char; "o"%char; "m"%char; "e"%char]) "" "".
Definition at_home : view := View "x" None true false false None false (Some carol) (Some 1%nat) None.
Definition elsewhere : view := View "y" None true false false None false None None None.
Definition home_id (k : string) : option string := if String.eqb k "home" then Some "Qm2" else None.
Definition to_carol : envelope := env (r_address carol) (r_address bob) "hi".
Definition down : provider := Provider "Qm8" false (Err "").
Definition home_provider : provider := Provider "Qm2" true (frame_of (PLookupResponse (Some carol))).
Definition third_provider : provider := Provider "Qm3" true (frame_of (PLookupResponse (Some carol))).
Definition bob_sends (o : stream_outcome) : outcome :=
  Outcome true (Ok tt) true (Ok tt) None (View "z" None true false false None false (Some bob) None None)
    (lookup_dht toy home_id true (r_address carol) [Round [] false; Round [down; third_provider] false]) o false.

Lemma carol_asked : asked toy home_id (r_address carol) "home" third_provider.
Proof.
  assert (Hd : forall x, useless toy x down) by (intros x; split; [by intros r [? _]|by intros [? _]]).
  assert (Hhome : home toy "home" (r_address carol) 1 at_home).
  { do 3 (split; [by (left || vm_compute)|]).
    assert (H : match run toy "home" "why" node0 (joins 1 carol) with
      | Ok n => n_tcp n !! r_address carol = Some 1%nat /\ n_records n !! r_address carol = Some carol
      | _ => False end) by (vm_compute; done).
    destruct (run toy "home" "why" node0 (joins 1 carol)) as [n| |] eqn:E; [|contradiction..]. destruct H as [H1 H2].
    exists "why", (joins 1 carol), n, [], n. split; [exact E|]. split; [exact H1|]. split; [reflexivity|].
    split; [reflexivity|]. symmetry. exact H2. }
  apply (AskedOn toy home_id _ _ third_provider elsewhere [Round [home_provider] false] [] home_provider [] false []).
  - split; [by vm_compute|]. split; [done|]. split; [by left|done].
  - exists []. split; [constructor|]. done.
  - constructor; [|constructor]. by split.
  - constructor.
  - apply (AskedHome toy home_id _ _ home_provider 1%nat at_home Hangs Hhome). split; [done|].
    exists (default [] (encode_acn (Some (PLookupRequest (r_address carol))))), "why",
      (PLookupResponse (Some carol)), (default [] (encode_acn (Some (PLookupResponse (Some carol))))).
    do 3 (split; [vm_compute; done|]). split; [vm_compute; done|]. vm_compute. done.
  - split; [done|].
    exists (default [] (encode_acn (Some (PLookupRequest (r_address carol))))), "why",
      (PLookupResponse (Some carol)), (default [] (encode_acn (Some (PLookupResponse (Some carol))))).
    do 3 (split; [vm_compute; done|]). split; [vm_compute; done|]. vm_compute. done.
Qed.

Example C72_example :
  let f := default [] (envelope_frame to_carol (Some bob)) in
  let there := envelope_stream toy "why" "peer" (fun e => handle_envelope at_home e (Ok tt) true (Ok tt)) (Ok f) in
  let o := bob_sends (StreamOutcome true true (answered there)) in
  asked toy home_id (e_to to_carol) "home" third_provider /\ useless toy (e_to to_carol) down /\
  looks toy "peer" (oc_view2 o) to_carol /\ represented (oc_view2 o) to_carol /\
  destined (oc_view2 o) to_carol AtNetwork /\ sender_record (oc_view2 o) to_carol (Some bob) /\
  carries f to_carol (Some bob) /\ (length f <= 400)%nat /\
  route (oc_view2 o) to_carol o = ([GaugeInc; CountAll; ToPeer "Qm2" f; GaugeDec], Returns (Ok tt)).
Proof.
  cbv zeta. split; [exact carol_asked|]. split; [split; [by intros r [? _]|by intros [? _]]|]. split.
  { split; [by left|]. split; [intros H; exfalso; change (e_sender to_carol = "z") in H; by vm_compute in H|].
    assert (H : match toy_run (joins 2 bob) with
      | Ok n => n_records n !! r_address bob = Some bob | _ => False end) by (vm_compute; done).
    destruct (toy_run (joins 2 bob)) as [n| |] eqn:E; [|contradiction..].
    exists (joins 2 bob), n, "why". split; [exact E|]. symmetry. exact H. }
  split; [right; right; by vm_compute|]. split; [|split; [|split; [|split]]].
  - split; [by intros [? _]|]. split; [by vm_compute|]. done.
  - right; right. split; [by vm_compute|]. split; [by intros [? _]|]. done.
  - apply some_frame. vm_compute. done.
  - apply Nat.leb_le. vm_compute. done.
  - vm_compute. done.
Qed.
