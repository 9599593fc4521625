(** C70: an envelope on its whole way, from one agent's Put through one or two nodes to
    the other agent's Get. The theorems put together what the models of the single parts
    say. *)
From Coq Require Import ZArith NArith List String Ascii Lia.
From stdpp Require Import base tactics gmap list strings.
From Verif Require Import GoBase Bytes Utf8 WireModel ProtoModel ProtoProofs ProtoProps CryptoModel PorModel CryptoProofs
  CryptoProps PorProps FrameModel FrameProofs FrameProps AcnModel DelegateModel DelegateProofs DelegateProps
  RouteModel RouteProps PeerProps AgentModel AgentProps.
Open Scope string_scope.
Open Scope list_scope.
Open Scope Z_scope.

(** The transport brings the frame of [m], followed by [rest], without cutting it: the
    header comes in one piece, with or without the body behind it, and so does the body
    (C25 says what happens otherwise). *)
Definition arrives (m rest : bytes) (c : conn) : Prop :=
  exists b c1, b ++ concat c1 = m ++ rest /\ (length m <= length b)%nat /\
    (c = (be_bytes 4 (Z.of_nat (length m)) ++ b) :: c1 \/ c = be_bytes 4 (Z.of_nat (length m)) :: b :: c1).

Lemma arrives_read limit m rest c :
  arrives m rest c -> m <> [] -> Z.of_nat (length m) < 2 ^ 32 ->
  match limit with Some lim => Z.of_nat (length m) <= lim | None => True end ->
  exists c', read_conn limit c = (Ok m, c') /\ concat c' = rest.
Proof.
  intros (b & c1 & Hb & Hl & Hc) Hm Hz Hlim.
  destruct (C25_body limit m rest b c1 c) as (msg & c' & E & _ & _ & Hiff & Hrest); try done.
  { intros ->. destruct m; [done|]. cbn in Hl. lia. }
  exists c'. split; [|].
  - rewrite E. do 2 f_equal. apply Hiff. by left.
  - rewrite Hrest. apply (f_equal (drop (length m))) in Hb. rewrite drop_app in Hb.
    rewrite drop_app_le in Hb by done. done.
Qed.

Lemma put_bytes_length num b :
  Z.of_nat (length (put_fields [(num, WBytes b)])) =
  Z.of_nat (length (put_varint (8 * num + 2))) + Z.of_nat (length (put_varint (Z.of_nat (length b)))) + Z.of_nat (length b).
Proof. unfold put_fields. cbn [map concat]. unfold put_field. cbn [fst snd]. rewrite app_nil_r, !app_length. lia. Qed.

(** What carries an envelope is not empty and brings it. *)
Lemma carries_frame f e rec :
  carries f e rec -> Z.of_nat (length f) < 2 ^ 32 -> f <> [] /\ brings f e rec.
Proof.
  intros (b & He & Hf) Hl. 
  assert (Hb : (length b <= length f)%nat).
  { cbn [encode_acn encode_performative] in Hf.
    destruct (encode_parts [w_bytes 1 b; w_message 2 encode_record rec]) as [x|] eqn:Ex; [|done]. injection Hf as <-.
    etransitivity; [|apply put_one_length]. unfold encode_parts in Ex. cbn [w_all] in Ex.
    destruct (w_message 2 encode_record rec) as [gs|]; [|by destruct (w_bytes 1 b)].
    destruct b as [|y b]; [cbn; lia|]. cbn [w_bytes] in Ex. injection Ex as <-.
    change ((1, WBytes (y :: b)) :: gs ++ []) with ([(1, WBytes (y :: b))] ++ (gs ++ [])).
    rewrite (put_fields_app_length [(1, WBytes (y :: b))]). pose proof (put_one_length 1 (y :: b)). lia. }
  split.
  - intros ->. cbn [encode_acn encode_performative] in Hf.
    destruct (encode_parts _) as [x|]; [|done]. injection Hf as Hf.
    apply (f_equal (fun l => Z.of_nat (length l))) in Hf. rewrite put_bytes_length in Hf.
    replace (length (put_varint (8 * 5 + 2))) with 1%nat in Hf by (vm_compute; done). cbn [length] in Hf. lia.
  - destruct (C40_frame f e rec b) as (b' & H1 & H2); [by exists b|done|lia|lia|]. by exists b'.
Qed.

(** Agent to node. What Put writes (p2pclient.go:135-144) is read by the node as exactly
    that envelope and acknowledged. *)
Theorem C70_first_hop e f rest c why :
  carries f e None -> Z.of_nat (length f) <= 1024 * 1024 * 3 -> arrives f rest c ->
  write_agent f = Ok (be_bytes 4 (Z.of_nat (length f)) ++ f) /\
  exists c', read_conn (Some max_delegate_message) c = (Ok f, c') /\ concat c' = rest /\
    handle_acn why true (Ok f) = ([PStatus (Some (StatusBody 0 []))], Ok (HEnvelope e)).
Proof.
  intros Hc Hl Ha. destruct (carries_frame _ _ _ Hc) as [Hne (b & H1 & H2)]; [lia|].
  split.
  - by apply C26_writers; lia.
  - destruct (arrives_read (Some max_delegate_message) f rest c) as (c' & E & Hr); try done; [lia|].
    exists c'. split; [done|]. split; [done|]. unfold handle_acn, decode_acn_message. by rewrite H1, H2.
Qed.
Print Assumptions C70_first_hop.

(** Every frame a node writes to a delegate client when routing, whatever the state, is
    read by the agent at the other end as the envelope that was routed; Get returns it if
    it is for that agent. *)
Lemma route_delegate v e o fs r c f :
  route v e o = (fs, r) -> In (ToDelegate c f) fs -> carries f e None.
Proof.
  unfold route. destruct (envelope_record v e) as [rec|x|x]; [|intros [= <- <-] [?|[?|[]]]; done..].
  destruct (v_mailbox v && v_box_target v); [intros [= <- <-] [?|[?|[?|[]]]]; done|].
  destruct (String.eqb (e_to e) (v_my_addr v)).
  { destruct (oc_ready o); cbn [negb]; [|intros [= <- <-] [?|[?|[]]]; done].
    destruct (v_has_handler v); cbn [negb]; [|intros [= <- <-] [?|[?|[]]]; done].
    destruct (oc_agent o); intros [= <- <-]; cbn; intuition done. }
  destruct (v_delegate v) as [c'|].
  { unfold envelope_frame. destruct (encode_envelope e) as [b|] eqn:Eb; [|intros [= <- <-]; cbn; intuition done].
    destruct (encode_acn (Some (PEnvelope b None))) as [f'|] eqn:Ef; [|intros [= <- <-]; cbn; intuition done].
    destruct (oc_write o); cbn [negb]; intros [= <- <-]; cbn; [|intuition done].
    intros [?|[?|[?|[?|[H|[]]]]]]; try done. injection H as <- <-. by exists b. }
  assert (Hns : forall peer rec so fs r, route_new_stream e peer rec so = (fs, r) -> ~ In (ToDelegate c f) fs).
  { intros peer rec0 so fs0 r0. unfold route_new_stream.
    destruct (so_open so); cbn [negb]; [|intros [= <- <-]; cbn; intuition done].
    destruct (encode_envelope e) as [b|]; [|intros [= <- <-]; cbn; intuition done].
    destruct (encode_acn (Some (PEnvelope b rec0))) as [g|]; [|intros [= <- <-]; cbn; intuition done].
    destruct (so_write so); cbn [negb]; [|intros [= <- <-]; cbn; intuition done].
    destruct (read_status (so_reply so)) as [[s|]| |]; intros [= <- <-]; cbn; intuition done. }
  destruct (v_relay v).
  { destruct (oc_peer o) as [peer|]; [|intros [= <- <-]; cbn; intuition done].
    destruct (route_new_stream e peer rec (oc_stream o)) as [fs' r'] eqn:En. intros [= <- <-] [?|[?|H]]; try done.
    by apply Hns in En. }
  unfold route_dht. destruct (envelope_record (oc_view2 o) e) as [rec'|x|x].
  2:{ intros [= <- <-]. cbn. destruct (oc_closing o); cbn; intuition done. }
  2:{ intros [= <- <-]. cbn. intuition done. }
  destruct (oc_found o) as [[[peer pr]|x|x]|].
  2:{ intros [= <- <-]. cbn. destruct (oc_closing o); cbn; intuition done. }
  2:{ intros [= <- <-]. cbn. intuition done. }
  2:{ intros [= <- <-]. cbn. intuition done. }
  destruct (route_new_stream e peer rec' (oc_stream o)) as [fs' r'] eqn:En. pose proof (Hns _ _ _ _ _ En) as Hn.
  destruct r' as [u|x|x]; intros [= <- <-]; cbn; rewrite ?in_app_iff; cbn; intros H; intuition (try done);
    destruct (oc_closing o); cbn in *; intuition done.
Qed.

Theorem C70_last_hop v e o fs r c f rest conn why :
  route v e o = (fs, r) -> In (ToDelegate c f) fs -> Z.of_nat (length f) < 2 ^ 31 -> arrives f rest conn ->
  write_node f = Ok (be_bytes 4 (Z.of_nat (length f)) ++ f) /\
  (exists conn', read_conn None conn = (Ok f, conn') /\ concat conn' = rest) /\
  handle_acn why true (Ok f) = ([PStatus (Some (StatusBody 0 []))], Ok (HEnvelope e)) /\
  exists a, agent_run (agent0 (e_to e)) [ARead false (Some e); APut; AGet] = Some (Ok a) /\ ag_got a = [Some e].
Proof.
  intros Hr Hin Hl Ha. pose proof (route_delegate _ _ _ _ _ _ _ Hr Hin) as Hc.
  destruct (carries_frame _ _ _ Hc) as [Hne (b & H1 & H2)]; [lia|]. split; [|split; [|split]].
  - apply C26_writers; [done|lia].
  - destruct (arrives_read None f rest conn) as (c' & E & Hr'); try done; [lia|]. by exists c'.
  - unfold handle_acn, decode_acn_message. by rewrite H1, H2.
  - cbn. rewrite String.eqb_refl. by eexists.
Qed.
Print Assumptions C70_last_hop.

(** What an agent reads from its node because another delegate client's envelope was
    routed to it is that very envelope, and it was sent on a connection that had
    registered with a proof for the address named as its sender. *)
Theorem C70_one_node P my_key why evs n c e v o fs r c2 f :
  run P my_key why node0 evs = Ok n -> In (c, e) (n_routed n) ->
  route v e o = (fs, r) -> In (ToDelegate c2 f) fs -> Z.of_nat (length f) < 2 ^ 31 ->
  (exists b, decode_acn f = Some (Some (PEnvelope b None)) /\ decode_envelope b = Some e) /\
  (exists reg rec, first_read c evs = Some (Ok reg) /\ decode_acn reg = Some (Some (PRegister (Some rec))) /\
     represents P rec (e_sender e) my_key) /\
  (exists g b rec, In (ERead c (Ok g) true) evs /\ decode_acn g = Some (Some (PEnvelope b rec)) /\ decode_envelope b = Some e).
Proof.
  intros Hrun Hin Hr Hd Hl. split; [|by eapply C37_attribution].
  apply (carries_frame f e None); [by eapply route_delegate|lia].
Qed.
Print Assumptions C70_one_node.

(** The view of a routing call that looks the sender up among the delegate clients of a
    node with key [my_key], or is made for the node's own agent, whose record was checked
    when the node was started (dhtpeer.go:233-252). *)
Definition looks (P : prims) (my_key : string) (v : view) (e : envelope) : Prop :=
  (v_mailbox v = false \/ v_box_sender v = false) /\
  (e_sender e = v_my_addr v -> exists r, v_my_record v = Some r /\ represents P r (v_my_addr v) my_key) /\
  exists evs n why, run P my_key why node0 evs = Ok n /\ v_record v = n_records n !! e_sender e.

Lemma looks_record P my_key v e rec :
  looks P my_key v e -> envelope_record v e = Ok rec -> exists r, rec = Some r /\ represents P r (r_address r) my_key.
Proof.
  intros (Hb & Ho & evs & n & why & Hrun & Hv). unfold envelope_record.
  destruct (String.eqb_spec (e_sender e) (v_my_addr v)) as [E|_].
  - intros [= <-]. destruct (Ho E) as (r & -> & Hr). exists r. split; [done|]. by rewrite (proj1 Hr).
  - replace (v_mailbox v && v_box_sender v) with false by (destruct Hb as [-> | ->]; [|rewrite andb_comm]; done).
    destruct (v_record v) as [r|]; [|done]. intros [= <-]. exists r. split; [done|].
    destruct (C37_records P my_key why evs n _ r Hrun ltac:(done)) as [Hr _]. by rewrite (proj1 Hr).
Qed.

Lemma route_peer v e o fs r peer f :
  route v e o = (fs, r) -> In (ToPeer peer f) fs ->
  exists rec, carries f e rec /\ (envelope_record v e = Ok rec \/ envelope_record (oc_view2 o) e = Ok rec).
Proof.
  assert (Hns : forall p rec so fs r, route_new_stream e p rec so = (fs, r) -> In (ToPeer peer f) fs -> carries f e rec).
  { intros p rec0 so fs0 r0. unfold route_new_stream.
    destruct (so_open so); cbn [negb]; [|intros [= <- <-]; cbn; intuition done].
    destruct (encode_envelope e) as [b|] eqn:Eb; [|intros [= <- <-]; cbn; intuition done].
    destruct (encode_acn (Some (PEnvelope b rec0))) as [g|] eqn:Eg; [|intros [= <- <-]; cbn; intuition done].
    destruct (so_write so); cbn [negb]; [|intros [= <- <-]; cbn; intuition done].
    destruct (read_status (so_reply so)) as [[s|]| |]; intros [= <- <-]; cbn; intros H;
      repeat (destruct H as [H|H]; [try done; injection H as <- <-; by exists b|]); done. }
  unfold route. destruct (envelope_record v e) as [rec|x|x]; [|intros [= <- <-] [?|[?|[]]]; done..].
  destruct (v_mailbox v && v_box_target v); [intros [= <- <-] [?|[?|[?|[]]]]; done|].
  destruct (String.eqb (e_to e) (v_my_addr v)).
  { destruct (oc_ready o); cbn [negb]; [|intros [= <- <-] [?|[?|[]]]; done].
    destruct (v_has_handler v); cbn [negb]; [|intros [= <- <-] [?|[?|[]]]; done].
    destruct (oc_agent o); intros [= <- <-]; cbn; intuition done. }
  destruct (v_delegate v) as [c'|].
  { destruct (envelope_frame e None); [|intros [= <- <-]; cbn; intuition done].
    destruct (oc_write o); cbn [negb]; intros [= <- <-]; cbn; intuition done. }
  destruct (v_relay v).
  { destruct (oc_peer o) as [p|]; [|intros [= <- <-]; cbn; intuition done].
    destruct (route_new_stream e p rec (oc_stream o)) as [fs' r'] eqn:En. intros [= <- <-] [?|[?|H]]; try done.
    exists rec. split; [|by left]. by eapply Hns. }
  unfold route_dht. destruct (envelope_record (oc_view2 o) e) as [rec'|x|x].
  2:{ intros [= <- <-]. cbn. destruct (oc_closing o); cbn; intuition done. }
  2:{ intros [= <- <-]. cbn. intuition done. }
  destruct (oc_found o) as [[[p pr]|x|x]|].
  2:{ intros [= <- <-]. cbn. destruct (oc_closing o); cbn; intuition done. }
  2:{ intros [= <- <-]. cbn. intuition done. }
  2:{ intros [= <- <-]. cbn. intuition done. }
  destruct (route_new_stream e p rec' (oc_stream o)) as [fs' r'] eqn:En. pose proof (Hns _ _ _ _ _ En) as Hn.
  intros Hr Hin. exists rec'. split; [|by right]. apply Hn.
  destruct r' as [u|x|x]; injection Hr as <- <-; cbn in Hin; rewrite ?in_app_iff in Hin; cbn in Hin; intuition (try done);
    destruct (oc_closing o); cbn in *; intuition done.
Qed.

(** Two nodes. What the first node sends to the second is read there, however the stream
    is cut, passes the check of the proof, and exactly the envelope routed is handed to
    the second node's handler, whose verdict is the answer. *)
Theorem C70_two_nodes P key1 v e o fs r peer f pieces why2 :
  looks P key1 v e -> looks P key1 (oc_view2 o) e ->
  route v e o = (fs, r) -> In (ToPeer peer f) fs ->
  Z.of_nat (length f) <= 1024 * 1024 * 3 -> delivers pieces (be_bytes 4 (Z.of_nat (length f)) ++ f) ->
  read_stream pieces = (Ok f, []) /\
  receive_envelope P why2 key1 (Ok f) = ([], Ok e) /\
  (forall handle fs2 code, handle e = (fs2, Ok code) ->
     envelope_stream P why2 key1 handle (Ok f) =
       (fs2, Ok [match code with None => PStatus (Some (StatusBody 0 [])) | Some x => PStatus (Some (StatusBody x [why2])) end])) /\
  (forall v2 agent write ack x, In x (fst (handle_envelope v2 e agent write ack)) ->
     x = ToMailbox e \/ x = ToAgent e \/ exists c2 f2, x = ToDelegate c2 f2 /\ carries f2 e None).
Proof.
  intros L1 L2 Hr Hin Hl Hd. destruct (route_peer _ _ _ _ _ _ _ Hr Hin) as (rec & Hc & Hrec).
  assert (exists x, rec = Some x /\ represents P x (r_address x) key1) as (x & -> & Hx).
  { destruct Hrec as [Hrec|Hrec]; [exact (looks_record _ _ _ _ _ L1 Hrec)|exact (looks_record _ _ _ _ _ L2 Hrec)]. }
  destruct (carries_frame _ _ _ Hc) as [_ (b & H1 & H2)]; [lia|].
  assert (Hre : receive_envelope P why2 key1 (Ok f) = ([], Ok e)).
  { unfold receive_envelope, read_envelope_message, decode_acn_message. rewrite H1, H2.
    apply C29_accepted in Hx. rewrite Hx. done. }
  split; [|split; [done|split]].
  - rewrite <- (app_nil_r pieces). by apply C24_separate.
  - intros handle fs2 code Hh. unfold envelope_stream. rewrite Hre, Hh. by destruct code.
  - intros v2 agent write ack y. unfold handle_envelope.
    destruct (v_mailbox v2 && v_box_target v2); [intros [<-|[]]; by left|].
    destruct (v_delegate v2) as [c2|].
    { unfold envelope_frame. destruct (encode_envelope e) as [b'|] eqn:Eb; [|done].
      destruct (encode_acn (Some (PEnvelope b' None))) as [f2|] eqn:Ef; [|done]. destruct write; cbn [negb]; [|done].
      intros [<-|[]]. right. right. exists c2, f2. split; [done|]. by exists b'. }
    destruct (String.eqb (e_to e) (v_my_addr v2)); [|done]. destruct (v_has_handler v2); [|done].
    intros [<-|[]]. right. by left.
Qed.
Print Assumptions C70_two_nodes.

(** Expected but false: an envelope that the node of its sender has read and acknowledged
    is not too large for the next node. The record the first node attaches counts
    against the same limit of 3 MiB: this envelope's frame is as large as the first node
    allows; the frame it then writes is refused however it is delivered. *)
Theorem C70_size_refuted : exists e f g fs r,
  represents toy alice (e_sender e) "peer" /\
  carries f e None /\ Z.of_nat (length f) <= 1024 * 1024 * 3 /\
  (forall c rest why, arrives f rest c -> exists c', read_conn (Some max_delegate_message) c = (Ok f, c') /\
     handle_acn why true (Ok f) = ([PStatus (Some (StatusBody 0 []))], Ok (HEnvelope e))) /\
  route view0 e outcome0 = (fs, r) /\ In (ToPeer "Qm2" g) fs /\
  (forall c rest, delivers c (be_bytes 4 (Z.of_nat (length g)) ++ g ++ rest) -> is_err (read_stream c).1 = true).
Proof.
  assert (exists m : bytes, Z.of_nat (length m) = 3145659) as [m Hm].
  { exists (replicate (Z.to_nat 3145659) (z2b 0)). rewrite replicate_length. by rewrite Z2Nat.id. }
  set (e := Envelope "bob" (r_address alice) "p" m "").
  set (head := [(1, WBytes (bytes_of "bob")); (2, WBytes (bytes_of (r_address alice))); (3, WBytes (bytes_of "p"))]).
  set (b := put_fields head ++ put_fields [(4, WBytes m)]).
  assert (Hb : encode_envelope e = Some b).
  { unfold encode_envelope, encode_parts, b, e. cbn [e_to e_sender e_protocol e_message e_uri].
    destruct m as [|y m]; [done|].
    change (w_bytes 4 (y :: m)) with (Some [(4, WBytes (y :: m))]). 
    change (w_string 1 "bob") with (Some [(1, WBytes (bytes_of "bob"))]).
    change (w_string 3 "p") with (Some [(3, WBytes (bytes_of "p"))]). change (w_string 5 "") with (Some (@nil (Z * wval))).
    replace (w_string 2 (r_address alice)) with (Some [(2, WBytes (bytes_of (r_address alice)))]) by (vm_compute; done).
    cbn [w_all app]. reflexivity. }
  assert (Lb : Z.of_nat (length b) = 3145718).
  { unfold b. rewrite app_length, Nat2Z.inj_add, put_bytes_length, Hm. 
    replace (Z.of_nat (length (put_fields head))) with 54 by (vm_compute; done).
    replace (length (put_varint (8 * 4 + 2))) with 1%nat by (vm_compute; done).
    replace (length (put_varint 3145659)) with 4%nat by (vm_compute; done). done. }
  set (x := put_fields [(1, WBytes b)]).
  assert (Lx : Z.of_nat (length x) = 3145723).
  { unfold x. rewrite put_bytes_length, Lb. 
    replace (length (put_varint (8 * 1 + 2))) with 1%nat by (vm_compute; done).
    replace (length (put_varint 3145718)) with 4%nat by (vm_compute; done). done. }
  set (f := put_fields [(5, WBytes x)]).
  assert (Lf : Z.of_nat (length f) = 1024 * 1024 * 3).
  { unfold f. rewrite put_bytes_length, Lx. 
    replace (length (put_varint (8 * 5 + 2))) with 1%nat by (vm_compute; done).
    replace (length (put_varint 3145723)) with 4%nat by (vm_compute; done). done. }
  assert (Hwb : w_bytes 1 b = Some [(1, WBytes b)]) by (destruct b; [done|reflexivity]).
  assert (Hf : carries f e None).
  { exists b. split; [done|]. unfold encode_acn, encode_performative, encode_parts. rewrite Hwb. done. }
  destruct (encode_record alice) as [a|] eqn:Ea; [|by vm_compute in Ea].
  assert (La : Z.of_nat (length a) = 84).
  { cut (option_map (fun l => Z.of_nat (length l)) (encode_record alice) = Some 84); [rewrite Ea; by intros [= ->]|vm_compute; done]. }
  set (y := put_fields [(1, WBytes b)] ++ put_fields [(2, WBytes a)]).
  assert (Ly : Z.of_nat (length y) = 3145809).
  { unfold y. rewrite app_length, Nat2Z.inj_add. fold x. rewrite Lx, put_bytes_length, La.
    replace (length (put_varint (8 * 2 + 2))) with 1%nat by (vm_compute; done).
    replace (length (put_varint 84)) with 1%nat by (vm_compute; done). done. }
  set (g := put_fields [(5, WBytes y)]).
  assert (Lg : Z.of_nat (length g) = 3145814).
  { unfold g. rewrite put_bytes_length, Ly.
    replace (length (put_varint (8 * 5 + 2))) with 1%nat by (vm_compute; done).
    replace (length (put_varint 3145809)) with 4%nat by (vm_compute; done). done. }
  assert (Hg : encode_acn (Some (PEnvelope b (Some alice))) = Some g).
  { unfold encode_acn, encode_performative, encode_parts. rewrite Hwb. unfold w_message. rewrite Ea. cbn [w_all app].
    unfold g, y. do 5 f_equal. unfold put_fields. rewrite <- concat_app, <- map_app. done. }
  exists e, f, g. do 2 eexists.
  split; [apply C29_accepted; vm_compute; done|].
  split; [done|]. split; [lia|]. split; [|split; [|split]].
  - intros c rest why Ha. destruct (C70_first_hop e f rest c why Hf ltac:(lia) Ha) as (_ & c' & E & _ & H). by exists c'.
  - unfold route. change (envelope_record view0 e) with (Ok (Some alice) : res (option record)).
    cbn [v_mailbox v_box_target v_my_addr v_delegate v_relay view0 e_to e andb].
    change ("bob" =? "me")%string with false. cbn iota.
    unfold route_dht. cbn [oc_view2 oc_found oc_stream outcome0]. 
    change (envelope_record view0 e) with (Ok (Some alice) : res (option record)).
    unfold route_new_stream. cbn [so_open so_write so_reply negb]. rewrite Hb, Hg.
    replace (read_status (status_reply 0)) with (Ok (Some (StatusBody 0 [])) : res (option status_body)) by (vm_compute; done).
    reflexivity.
  - right. right. left. reflexivity.
  - intros c rest Hd. destruct (C26_sent_but_refused g) as (_ & H & _); [lia|]. apply (H c rest).
    unfold frame. by rewrite <- app_assoc.
Qed.
Print Assumptions C70_size_refuted.

(** Alice registers at the node with key "peer" and sends to carol, who is at another
    node; the first node's table holds alice's record. *)
Definition alice_sends : list event :=
  joins 1 alice ++ [ERead 1 (send_frame (from_alice "carol")) true; EGo 1 true; EGo 1 true; EGo 1 true; EStart 0; ETake 0].
Example C70_example :
  looks toy "peer" view0 (from_alice "carol") /\
  (exists n, toy_run alice_sends = Ok n /\ In (1%nat, from_alice "carol") (n_routed n)) /\
  (exists f fs r, carries f (from_alice "carol") (Some alice) /\ (length f <= 200)%nat /\
     route view0 (from_alice "carol") outcome0 = (fs, r) /\ In (ToPeer "Qm2" f) fs /\
     delivers [be_bytes 4 (Z.of_nat (length f)) ++ f] (be_bytes 4 (Z.of_nat (length f)) ++ f)) /\
  (exists f fs r, let v := View "me" (Some bob) true false false None false (Some alice) (Some 7%nat) None in
     carries f (from_alice "carol") None /\ route v (from_alice "carol") outcome0 = (fs, r) /\
     In (ToDelegate 7 f) fs /\ arrives f [] [be_bytes 4 (Z.of_nat (length f)) ++ f]).
Proof.
  assert (Hrun : match toy_run alice_sends with
                 | Ok n => n_records n !! r_address alice = Some alice /\ n_routed n = [(1%nat, from_alice "carol")]
                 | _ => False end) by (vm_compute; done).
  destruct (toy_run alice_sends) as [n|x|x] eqn:E; [|contradiction..]. destruct Hrun as [H1 H2].
  split; [|split; [|split]].
  - split; [right; reflexivity|]. split; [clear; by intros|]. exists alice_sends, n, "why". split; [exact E|]. symmetry. exact H1.
  - exists n. split; [reflexivity|]. rewrite H2. left. reflexivity.
  - clear. exists (default [] (envelope_frame (from_alice "carol") (Some alice))). do 2 eexists.
    split; [apply some_frame; vm_compute; done|]. split; [apply Nat.leb_le; vm_compute; done|].
    split; [vm_compute; done|]. split; [right; right; left; vm_compute; done|].
    split; [|cbn [concat]; by rewrite app_nil_r]. constructor; [|done]. vm_compute. done.
  - clear. exists (default [] (envelope_frame (from_alice "carol") None)). do 2 eexists.
    split; [apply some_frame; vm_compute; done|]. split; [vm_compute; done|].
    split; [do 4 right; left; vm_compute; done|].
    exists (default [] (envelope_frame (from_alice "carol") None)), []. split; [done|]. split; [done|]. by left.
Qed.
