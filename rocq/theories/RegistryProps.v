(** Properties of the tables of a peer node: lookup answers (C44) and announcements
    (C46). *)
From Coq Require Import ZArith NArith List String Ascii Lia.
From stdpp Require Import base tactics gmap list strings.
From Verif Require Import GoBase Bytes Utf8 WireModel ProtoModel WireProofs ProtoProofs ProtoProps CryptoModel PorModel
  CryptoProofs CryptoProps PorProps AcnModel RecordFileModel RecordFileProofs RecordFileProps DelegateProps RouteModel
  RouteProps PeerProps RegistryModel.
Open Scope string_scope.
Open Scope list_scope.
Open Scope Z_scope.

(** A record that proves that its address is represented by the peer it names. *)
Definition genuine (P : prims) (r : record) : Prop := represents P r (r_address r) (r_peer_key r).

(** The event presents record [r], which proves that its address is represented by the
    one who is entitled to say so: the client itself for a relay client, this node for
    the clients of the delegate and mailbox services. *)
Definition presents (P : prims) (my_key : string) (v : revent) (r : record) : Prop :=
  match v with
  | VRelay key _ (Ok b) _ => decode_acn b = Some (Some (PRegister (Some r))) /\ represents P r (r_address r) key
  | VDelegate (Ok b) _ => decode_acn b = Some (Some (PRegister (Some r))) /\ represents P r (r_address r) my_key
  | VBox b => decode_record b = Some r /\ represents P r (r_address r) my_key
  | _ => False
  end.

Lemma presents_genuine P k v r : presents P k v r -> genuine P r.
Proof.
  assert (H : forall k', represents P r (r_address r) k' -> genuine P r).
  { intros k' Hr. unfold genuine. assert (r_peer_key r = k') as -> by apply Hr. done. }
  destruct v; cbn; try done; try (destruct read; [|done|done]); intros [_ ?]; eauto.
Qed.

Section Invariant.
Context (P : prims) (cf : config) (my_key why : string).

(** [known r]: from the record file or presented. [named a]: an address that may be
    announced. *)
Definition known (rs : list record) (vs : list revent) (r : record) : Prop :=
  In r rs \/ exists v, In v vs /\ presents P my_key v r.
Definition named (rs : list record) (vs : list revent) (a : string) : Prop :=
  a = cf_my_addr cf \/ exists r, known rs vs r /\ r_address r = a.

Definition op_ok rs vs (o : op) : Prop :=
  match o with
  | OStoreRecord r | OStoreRelay r _ | OStoreBox r => known rs vs r
  | OStoreTcp a => named rs vs a
  | OAnnounce a _ _ => named rs vs a
  | _ => True
  end.

Record good rs vs (g : registry) : Prop := {
  good_records : forall a r, g_records g !! a = Some r -> r_address r = a /\ known rs vs r;
  good_box : forall a r, g_box g !! a = Some r -> r_address r = a /\ known rs vs r;
  good_relay : forall a id, g_relay g !! a = Some id -> named rs vs a;
  good_tcp : forall a, a ∈ g_tcp g -> named rs vs a;
  good_file : Forall (known rs vs) (g_file g);
  good_provided : Forall (fun p => named rs vs (fst p)) (g_provided g);
  good_jobs : Forall (Forall (op_ok rs vs)) (g_jobs g);
}.

Lemma known_snoc rs vs v r : known rs vs r -> known rs (vs ++ [v]) r.
Proof. intros [?|(w & ? & ?)]; [by left|]. right. exists w. split; [apply in_app_iff; by left|done]. Qed.
Lemma named_snoc rs vs v a : named rs vs a -> named rs (vs ++ [v]) a.
Proof. intros [?|(r & ? & ?)]; [by left|]. right. exists r. split; [by apply known_snoc|done]. Qed.
Lemma op_ok_snoc rs vs v o : op_ok rs vs o -> op_ok rs (vs ++ [v]) o.
Proof. destruct o; cbn; try done; first [apply known_snoc|apply named_snoc]. Qed.
Lemma good_snoc rs vs v g : good rs vs g -> good rs (vs ++ [v]) g.
Proof.
  intros []. split.
  - intros a r H. destruct (good_records0 a r H). split; [done|by apply known_snoc].
  - intros a r H. destruct (good_box0 a r H). split; [done|by apply known_snoc].
  - intros a id H. eapply named_snoc, good_relay0, H.
  - intros a H. by apply named_snoc, good_tcp0.
  - eapply Forall_impl; [exact good_file0|]. intros r. apply known_snoc.
  - eapply Forall_impl; [exact good_provided0|]. intros r. apply named_snoc.
  - eapply Forall_impl; [exact good_jobs0|]. intros l H. eapply Forall_impl; [exact H|]. intros o. apply op_ok_snoc.
Qed.

Lemma good_left rs vs g j k : good rs vs g -> Forall (op_ok rs vs) k -> good rs vs (left_ g j k).
Proof. intros [] Hk. split; cbn; try done. apply Forall_insert; done. Qed.
Lemma good_spawn rs vs g k : good rs vs g -> Forall (op_ok rs vs) k -> good rs vs (spawn g k).
Proof. intros [] Hk. split; cbn; try done. apply Forall_app. split; [done|]. by constructor. Qed.

(** The registrations that go on. *)
Lemma por_ok r a k code err :
  is_valid_por P r a k = Ok (code, err) -> err || negb (code =? SUCCESS) = false -> represents P r a k.
Proof.
  intros E Hb. apply orb_false_iff in Hb as [-> Hb]. apply negb_false_iff, Z.eqb_eq in Hb as ->.
  by apply C29_accepted.
Qed.

Lemma read_registration_ok read sent r :
  read_registration why read = (sent, Ok (Some r)) ->
  exists b, read = Ok b /\ decode_acn b = Some (Some (PRegister (Some r))).
Proof.
  unfold read_registration. destruct read as [b|x|x]; try done.
  destruct (decode_acn b) as [[[| | |rr| ]|]|] eqn:E; try done. intros [= _ ->]. eauto.
Qed.

Lemma relay_register_ok key id read w ops rs vs :
  snd (relay_register P why key id read w) = Ok ops -> In (VRelay key id read w) vs ->
  Forall (op_ok rs vs) ops.
Proof.
  unfold relay_register. intros H Hin.
  destruct (read_registration why read) as [sent [[r|]|x|x]] eqn:Er; cbn in H; try (by injection H as <-); try done.
  apply read_registration_ok in Er as (b & -> & Hd).
  destruct (is_valid_por P r (r_address r) key) as [[code err]|x|x] eqn:Ev; cbn in H; try done.
  destruct (err || _) eqn:Eb; cbn in H; [by injection H as <-|].
  destruct w; cbn in H; injection H as <-; [|done].
  assert (Hk : known rs vs r).
  { right. eexists. split; [exact Hin|]. split; [done|]. by eapply por_ok. }
  repeat apply Forall_cons_2; try apply Forall_nil_2; cbn; try done; right; eauto.
Qed.

Lemma delegate_register_ok read w ops rs vs :
  snd (delegate_register P my_key why read w) = Ok ops -> In (VDelegate read w) vs ->
  Forall (op_ok rs vs) ops.
Proof.
  unfold delegate_register. intros H Hin.
  destruct (read_registration why read) as [sent [[r|]|x|x]] eqn:Er; cbn in H; try (by injection H as <-); try done.
  apply read_registration_ok in Er as (b & -> & Hd).
  destruct (is_valid_por P r (r_address r) my_key) as [[code err]|x|x] eqn:Ev; cbn in H; try done.
  destruct (err || _) eqn:Eb; cbn in H; [by injection H as <-|].
  destruct w; cbn in H; injection H as <-; [|done].
  assert (Hk : known rs vs r).
  { right. eexists. split; [exact Hin|]. split; [done|]. by eapply por_ok. }
  repeat apply Forall_cons_2; try apply Forall_nil_2; cbn; try done; right; eauto.
Qed.

Lemma box_register_ok body ops rs vs :
  box_register P my_key body = Ok ops -> In (VBox body) vs -> Forall (op_ok rs vs) ops.
Proof.
  unfold box_register. intros H Hin. destruct (Nat.eqb (length body) 0); [by injection H as <-|].
  destruct (decode_record body) as [r|] eqn:Er; [|by injection H as <-].
  destruct (is_valid_por P r (r_address r) my_key) as [[code err]|x|x] eqn:Ev; cbn in H; try done.
  destruct (err || _) eqn:Eb; cbn in H; injection H as <-; [done|].
  assert (Hk : known rs vs r).
  { right. eexists. split; [exact Hin|]. split; [done|]. by eapply por_ok. }
  repeat apply Forall_cons_2; try apply Forall_nil_2; cbn; try done; right; eauto.
Qed.

Lemma own_ops_ok rs vs n :
  Forall (op_ok rs vs) (if String.eqb (cf_my_addr cf) "" then []
    else [OIfNew (cf_my_addr cf) 1; OAnnounce (cf_my_addr cf) SCheck n]).
Proof. destruct (String.eqb _ _); [apply Forall_nil_2|].
  repeat apply Forall_cons_2; try apply Forall_nil_2; cbn; try done. by left. Qed.

Lemma notif_ok rs vs : Forall (op_ok rs vs) (notif cf).
Proof.
  unfold notif. constructor; [done|]. apply Forall_app. split; [apply own_ops_ok|].
  destruct (cf_relay cf), (cf_delegate cf); repeat constructor; done.
Qed.

Lemma joining_ok rs vs : Forall (op_ok rs vs) (joining cf).
Proof.
  unfold joining. destruct (cf_bootstrap cf); [|done]. constructor; [done|]. constructor; [done|]. apply own_ops_ok.
Qed.

Lemma step_op_good rs vs g j o k w g' :
  good rs vs g -> op_ok rs vs o -> Forall (op_ok rs vs) k -> step_op g j o k w = Ok g' -> good rs vs g'.
Proof.
  intros Hg Ho Hk H. pose proof Hg as [].
  assert (Hdrop : forall n, Forall (op_ok rs vs) (drop n k)) by (intros; by apply Forall_drop).
  unfold step_op in H. destruct o.
  - destruct w; try done. injection H as <-. apply good_left; [|done]. split; cbn; try done.
    intros a r' [[<- <-]|[_ H]]%lookup_insert_Some; [by cbn in Ho|by apply good_records0].
  - destruct w; try done. injection H as <-. apply good_left; [|done]. split; cbn; try done.
    + intros a id' [[<- <-]|[_ H]]%lookup_insert_Some; [|by eapply good_relay0]. right. by exists r.
    + destruct (is_ok (save_line r)); [|done]. apply Forall_app. split; [done|]. by constructor.
  - destruct w; try done. injection H as <-. apply good_left; [|done]. split; cbn; try done.
    intros a' [->%elem_of_singleton|H]%elem_of_union; [done|by apply good_tcp0].
  - destruct w; try done. injection H as <-. apply good_left; [|done]. split; cbn; try done.
    intros a r' [[<- <-]|[_ H]]%lookup_insert_Some; [by cbn in Ho|by apply good_box0].
  - destruct w; try done. injection H as <-. apply good_left; [done|]. by destruct b.
  - destruct w; try done. destruct (Nat.eqb _ _); [|done]. injection H as <-. by apply good_left.
  - destruct w; try done. injection H as <-. apply good_left; [done|]. by destruct (g_enabled g).
  - destruct w; try done. injection H as <-. apply good_left; [done|]. by destruct (decide _).
  - destruct s.
    + destruct w; try done. injection H as <-. apply good_left; [done|]. destruct (decide _); [done|]. by constructor.
    + destruct w; try done. injection H as <-. apply good_left; [|by constructor]. by split.
    + destruct w as [| |p|]; try done.
      destruct p; injection H as <-; (apply good_left; [|done]); [done|..];
        (split; cbn; try done; apply Forall_app; split; [done|]; by constructor).
  - destruct w as [| | |l]; try done. destruct (decide _) as [Hp|]; [|done]. injection H as <-. apply good_left; [done|].
    apply Forall_app. split; [|done]. unfold loop. apply Forall_map. apply Forall_forall. intros a Ha. cbn.
    rewrite Hp in Ha. apply elem_of_list_fmap in Ha as ([a' id] & -> & Ha%elem_of_map_to_list).
    by eapply good_relay0.
  - destruct w as [| | |l]; try done. destruct (decide _) as [Hp|]; [|done]. injection H as <-. apply good_left; [done|].
    apply Forall_app. split; [|done]. unfold loop. apply Forall_map. apply Forall_forall. intros a Ha. cbn.
    rewrite Hp in Ha. by apply elem_of_elements, good_tcp0 in Ha.
  - destruct w; try done. injection H as <-. apply good_left; [|done]. by split.
  - destruct w; try done. injection H as <-. apply good_left; [|done]. by split.
Qed.

Lemma rstep_good rs vs g v g' :
  good rs vs g -> rstep P cf my_key why g v = Ok g' -> good rs (vs ++ [v]) g'.
Proof.
  intros Hg%(good_snoc _ _ v) H.
  assert (Hin : In v (vs ++ [v])) by (apply in_app_iff; right; by left).
  destruct v; cbn [rstep] in H.
  - destruct (cf_relay cf); [|done]. destruct (snd _) as [ops|x|x] eqn:E; try done. injection H as <-.
    apply good_spawn; [done|]. by eapply relay_register_ok.
  - destruct (cf_delegate cf); [|done]. destruct (snd _) as [ops|x|x] eqn:E; try done. injection H as <-.
    apply good_spawn; [done|]. by eapply delegate_register_ok.
  - destruct (box_register P my_key body) as [ops|x|x] eqn:E; try done. injection H as <-.
    apply good_spawn; [done|]. by eapply box_register_ok.
  - injection H as <-. destruct Hg. split; cbn; try done.
    intros b r [_ H]%lookup_delete_Some. by apply good_box0.
  - injection H as <-. destruct Hg. split; cbn; try done.
    intros b [H _]%elem_of_difference. by apply good_tcp0.
  - injection H as <-. apply good_spawn; [|apply notif_ok]. destruct Hg. by split.
  - destruct (g_jobs g !! j) as [[|o k]|] eqn:Ej; try done.
    assert (Hj : Forall (op_ok rs (vs ++ [VStep j w])) (o :: k)).
    { destruct Hg. eapply Forall_lookup_1; [exact good_jobs0|exact Ej]. }
    inversion Hj; subst. by eapply step_op_good.
Qed.

Lemma rrun_app g vs1 vs2 :
  rrun P cf my_key why g (vs1 ++ vs2) =
  match rrun P cf my_key why g vs1 with Ok g1 => rrun P cf my_key why g1 vs2 | Err x => Err x | Panic p => Panic p end.
Proof.
  revert g. induction vs1 as [|v vs1 IH]; intros g; cbn; [done|]. by destruct (rstep P cf my_key why g v).
Qed.

Lemma rrun_good rs vs0 g vs g' :
  good rs vs0 g -> rrun P cf my_key why g vs = Ok g' -> good rs (vs0 ++ vs) g'.
Proof.
  revert vs0 g. induction vs as [|v vs IH]; intros vs0 g Hg; cbn.
  - intros [= <-]. by rewrite app_nil_r.
  - destruct (rstep P cf my_key why g v) as [g1|x|x] eqn:E; try done. intros H.
    replace (vs0 ++ v :: vs) with ((vs0 ++ [v]) ++ vs) by (by rewrite <- app_assoc).
    eapply IH; [|exact H]. by eapply rstep_good.
Qed.

(** The maps loaded from a record file with the records [rs]. *)
Definition loads (rs : list record) (l : loaded) : Prop :=
  (forall a, l_records l !! a = latest a rs) /\
  (forall a id, l_addresses l !! a = Some id -> exists r, In r rs /\ r_address r = a).

Lemma started_good rs l : loads rs l -> (forall a r, latest a rs = Some r -> In r rs /\ r_address r = a) ->
  good rs [] (started cf l rs).
Proof.
  intros [Hr Ha] Hl. split; cbn.
  - intros a r H. rewrite Hr in H. apply Hl in H as [? ?]. split; [done|by left].
  - intros a r H. by rewrite lookup_empty in H.
  - intros a id (r & ? & ?)%Ha. right. exists r. split; [by left|done].
  - intros a H. by apply elem_of_empty in H.
  - apply Forall_forall. intros r H%elem_of_list_In. by left.
  - constructor.
  - constructor; [apply joining_ok|constructor].
Qed.
End Invariant.

(** ** C44 *)

Lemma latest_spec a rs r : latest a rs = Some r -> In r rs /\ r_address r = a.
Proof.
  unfold latest. intros H. apply List.find_some in H as [H1 H2]. apply in_rev in H1. by apply String.eqb_eq in H2.
Qed.

Lemma start_loads peer_id rs file l :
  saved rs file -> Forall (wellformed peer_id) rs -> load peer_id file = Ok l -> loads rs l.
Proof.
  intros Hs Hw Hl. destruct (C27_reload peer_id rs file Hs Hw) as (st & Hst & _ & H).
  rewrite Hl in Hst. injection Hst as <-. split; [intros a; apply H|].
  intros a id Ha. destruct (H a) as [_ Ha']. rewrite Ha' in Ha. destruct (latest a rs) as [r|] eqn:E; [|done].
  exists r. by apply latest_spec.
Qed.

(** Reachable: from the start with a record file that holds the records [rs]. *)
Definition reached (P : prims) cf my_key why peer_id rs vs g : Prop :=
  exists file l, saved rs file /\ Forall (wellformed peer_id) rs /\ load peer_id file = Ok l /\
    rrun P cf my_key why (started cf l rs) vs = Ok g.

Lemma reached_good P cf my_key why peer_id rs vs g :
  reached P cf my_key why peer_id rs vs g -> good P cf my_key rs vs g.
Proof.
  intros (file & l & Hs & Hw & Hl & H). change vs with ([] ++ vs).
  eapply rrun_good; [|exact H]. apply started_good; [by eapply start_loads|intros; by apply latest_spec].
Qed.

(** Every answer to a lookup: where its record comes from. The tables may be read in
    different states. *)
Theorem C44_source P cf my_key why peer_id rs vs1 vs2 g1 g2 id_of_key v a pub_ok cid_ok rounds r :
  reached P cf my_key why peer_id rs vs1 g1 -> reached P cf my_key why peer_id rs vs2 g2 ->
  v_record v = g_records g1 !! a -> v_box_record v = g_box g2 !! a ->
  address_request v a pub_ok (lookup_dht P id_of_key cid_ok a rounds) = Returns (Ok (Some r)) ->
  (a = v_my_addr v /\ v_my_record v = Some r) \/
  ((is_Some (v_relay v) \/ is_Some (v_delegate v)) /\ known P my_key rs vs1 r /\ r_address r = a) \/
  (v_mailbox v = true /\ v_box_sender v = true /\ known P my_key rs vs2 r /\ r_address r = a) \/
  (v_relay v = None /\ v_delegate v = None /\
    exists rd p, In rd rounds /\ In p (rd_providers rd) /\ gives P a p r).
Proof.
  intros H1%reached_good H2%reached_good Hr Hb. unfold address_request.
  destruct (String.eqb_spec a (v_my_addr v)) as [E|E].
  { destruct pub_ok; [|done]. intros [= Hx]. by left. }
  destruct (v_relay v) as [id|] eqn:Er.
  { rewrite Hr. intros [= Hx]. apply H1 in Hx as [? ?]. right; left. split; [left; eauto|done]. }
  destruct (v_mailbox v && v_box_sender v) eqn:Em.
  { apply andb_true_iff in Em as [??]. rewrite Hb. intros [= Hx]. apply H2 in Hx as [? ?]. right; right; left. done. }
  destruct (v_delegate v) as [c|] eqn:Ed.
  { destruct pub_ok; [|done]. rewrite Hr. intros [= Hx]. apply H1 in Hx as [? ?]. right; left. split; [right; eauto|done]. }
  destruct (lookup_dht P id_of_key cid_ok a rounds) as [[[peer rec]|x|x]|] eqn:El; try done.
  intros [= ->]. apply C45_sound in El as [(r' & [= <-] & _ & _ & rd & p & ? & ? & ?)|[? _]]; [|done].
  right; right; right. split; [done|]. split; [done|]. by exists rd, p.
Qed.
Print Assumptions C44_source.

(** So the record proves that the address asked for is represented by the peer named
    in it, provided this held for the record file at start and for the own record,
    which [New] checks (dhtpeer.go:233-251). *)
Theorem C44_valid P cf my_key why peer_id rs vs1 vs2 g1 g2 id_of_key v a pub_ok cid_ok rounds r :
  reached P cf my_key why peer_id rs vs1 g1 -> reached P cf my_key why peer_id rs vs2 g2 ->
  Forall (genuine P) rs ->
  (forall r0, v_my_record v = Some r0 -> r_address r0 = v_my_addr v /\ is_valid_por P r0 (r_address r0) my_key = Ok (0, false)) ->
  v_record v = g_records g1 !! a -> v_box_record v = g_box g2 !! a ->
  address_request v a pub_ok (lookup_dht P id_of_key cid_ok a rounds) = Returns (Ok (Some r)) ->
  represents P r a (r_peer_key r).
Proof.
  intros H1 H2 Hg Hmy Hr Hb H.
  assert (Hk : forall vs, known P my_key rs vs r -> r_address r = a -> represents P r a (r_peer_key r)).
  { intros vs [Hin|(w & _ & Hp)] <-; [|by eapply presents_genuine]. rewrite Forall_forall in Hg.
    apply Hg. by apply elem_of_list_In. }
  destruct (C44_source _ _ _ _ _ _ _ _ _ _ _ _ _ _ _ _ _ H1 H2 Hr Hb H)
    as [[-> E]|[(_ & ? & ?)|[(_ & _ & ? & ?)|(_ & _ & rd & p & _ & _ & Hgv)]]]; eauto.
  - destruct (Hmy r E) as [<- Hp]. apply C29_accepted in Hp. assert (r_peer_key r = my_key) as -> by apply Hp. done.
  - apply Hgv.
Qed.
Print Assumptions C44_valid.

(** What the peer who asks sees. *)
Theorem C44_stream why request frame out r :
  address_stream why request (Ok frame) = Returns (Ok out) ->
  In (PLookupResponse (Some r)) out <->
  exists a, decode_acn frame = Some (Some (PLookupRequest a)) /\ request a = Returns (Ok (Some r)) /\
    address_stream why request (Ok frame) = Returns (Ok [PLookupResponse (Some r)]).
Proof.
  unfold address_stream, read_lookup_request.
  destruct (decode_acn frame) as [[[|a| | | ]|]|]; cbn; intros H.
  2:{ destruct (request a) as [[[r'|]|x|x]|] eqn:Er; cbn in *; try done; injection H as <-; split.
    - intros [[= ->]|[]]. by exists a.
    - intros (a' & [= <-] & Hq & _). rewrite Er in Hq. injection Hq as ->. by left.
    - by intros [?|[]].
    - intros (a' & [= <-] & Hq & _). by rewrite Er in Hq. }
  all: injection H as <-; split; [by intros [?|[]]|by intros (? & ? & _)].
Qed.
Print Assumptions C44_stream.

(** Every frame is answered by one message: the record, a status saying that the address
    is unknown, or one naming what is wrong with the frame. *)
Theorem C44_answered why request frame out :
  address_stream why request (Ok frame) = Returns (Ok out) ->
  match decode_acn frame with
  | Some (Some (PLookupRequest a)) =>
      exists o, request a = Returns (Ok o) /\
        out = [match o with
               | Some r => PLookupResponse (Some r)
               | None => PStatus (Some (StatusBody 20 [why]))
               end]
  | Some _ => out = [PStatus (Some (StatusBody 2 [why]))]
  | None => out = [PStatus (Some (StatusBody 4 [why]))]
  end.
Proof.
  unfold address_stream, read_lookup_request.
  destruct (decode_acn frame) as [[[|a| | | ]|]|]; cbn; intros H; try by injection H as <-.
  destruct (request a) as [[[r'|]|x|x]|] eqn:Er; cbn in *; try done; injection H as <-; by eexists.
Qed.
Print Assumptions C44_answered.

(** The tables of relay clients and of records only grow: an address once registered
    is answered for ever after, also when the client is gone. *)
Definition grows (g g' : registry) : Prop :=
  forall a, (is_Some (g_records g !! a) -> is_Some (g_records g' !! a)) /\
            (is_Some (g_relay g !! a) -> is_Some (g_relay g' !! a)).

Lemma insert_grows {A} (m : gmap string A) k x a : is_Some (m !! a) -> is_Some (<[k := x]> m !! a).
Proof. intros H. apply lookup_insert_is_Some'. by right. Qed.

Theorem C44_kept P cf my_key why g vs g' :
  rrun P cf my_key why g vs = Ok g' -> grows g g'.
Proof.
  revert g. induction vs as [|v vs IH]; intros g; cbn; [intros [= <-]; by split|].
  destruct (rstep P cf my_key why g v) as [g1|x|x] eqn:E; try done. intros H%IH.
  assert (H1 : grows g g1).
  { clear H IH. destruct v; cbn in E.
    - destruct (cf_relay cf); [|done]. destruct (snd _); try done. injection E as <-. by split.
    - destruct (cf_delegate cf); [|done]. destruct (snd _); try done. injection E as <-. by split.
    - destruct (box_register P my_key body); try done. injection E as <-. by split.
    - injection E as <-. by split.
    - injection E as <-. by split.
    - injection E as <-. by split.
    - destruct (g_jobs g !! j) as [[|o k]|]; try done. unfold step_op in E.
      repeat match type of E with
      | match ?x with _ => _ end = Ok _ => destruct x; try done
      | (if ?x then _ else _) = Ok _ => destruct x; try done
      end; injection E as <-; split; cbn; intros; try done; by apply insert_grows. }
  intros a. destruct (H a) as [Ha Hb]. destruct (H1 a). auto.
Qed.
Print Assumptions C44_kept.

(** What is in the record file stays genuine, so the next start can rely on it. *)
Theorem C44_file P cf my_key why peer_id rs vs g :
  reached P cf my_key why peer_id rs vs g -> Forall (genuine P) rs -> Forall (genuine P) (g_file g).
Proof.
  intros H%reached_good Hg. eapply Forall_impl; [apply H|]. intros r [Hin|(w & _ & Hp)].
  - rewrite Forall_forall in Hg. apply Hg. by apply elem_of_list_In.
  - by eapply presents_genuine.
Qed.
Print Assumptions C44_file.

Definition cfg1 : config := Config "me" false true true.
Definition relay_join : list revent :=
  VRelay "peer" "Qm7" (frame_of (PRegister (Some alice))) true :: replicate 4 (VStep 1 ANone).

Example C44_example :
  reached toy cfg1 "me" "why" (fun k => Some k) [] relay_join
    (Registry {[r_address alice := alice]} {[r_address alice := "Qm7"]} ∅ ∅ [alice] ∅ false 0 [] [[]; []]) /\
  address_request (View "me" None true false false None false (Some alice) None (Some "Qm7")) (r_address alice) true
    (Returns (Err "")) = Returns (Ok (Some alice)).
Proof.
  split; [|done]. exists [], (Loaded 0 ∅ ∅). split; [constructor|]. split; [constructor|]. split; [done|].
  vm_compute. done.
Qed.

(** ** C46 *)

(** How often the address was put on the network. *)
Definition provides (a : string) (g : registry) : nat :=
  length (List.filter (fun p => String.eqb (fst p) a) (g_provided g)).
(** How many goroutines are inside RegisterAgentAddress for the address, past the
    check. *)
Definition passed (a : string) (ops : list op) : bool :=
  match ops with
  | OAnnounce b SMark _ :: _ | OAnnounce b SProvide _ :: _ => String.eqb b a
  | _ => false
  end.
Definition inside (a : string) (g : registry) : nat := length (List.filter (passed a) (g_jobs g)).

(** Only the first step of a goroutine can be past the check. *)
Definition fresh_op (o : op) : Prop :=
  match o with OAnnounce _ SMark _ | OAnnounce _ SProvide _ => False | _ => True end.
Definition fresh_tail (ops : list op) : Prop := Forall fresh_op (tail ops).

Lemma fresh_not_passed a k : Forall fresh_op k -> passed a k = false.
Proof. intros H. destruct H as [|o k Ho H]; [done|]. destruct o; try done. by destruct s. Qed.

Lemma inside_left a g j ops k :
  g_jobs g !! j = Some ops ->
  (inside a (left_ g j k) + (if passed a ops then 1 else 0) = inside a g + (if passed a k then 1 else 0))%nat.
Proof.
  unfold inside. cbn. generalize (g_jobs g). intros l. revert j.
  induction l as [|x l IH]; intros j H; [done|]. destruct j as [|j]; cbn in H.
  - injection H as ->. cbn. destruct (passed a k), (passed a ops); cbn; lia.
  - change (<[S j := k]> (x :: l)) with (x :: <[j := k]> l). cbn [List.filter]. specialize (IH j H). destruct (passed a x); cbn [length]; lia.
Qed.

Lemma inside_spawn a g k : passed a k = false -> inside a (spawn g k) = inside a g.
Proof.
  intros H. unfold inside, spawn. cbn. rewrite List.filter_app. cbn. rewrite H. by rewrite app_nil_r.
Qed.

Section Announce.
Context (P : prims) (cf : config) (my_key why : string).

Lemma spawned_fresh ops :
  ((exists key id read w, snd (relay_register P why key id read w) = Ok ops) \/
   (exists read w, snd (delegate_register P my_key why read w) = Ok ops) \/
   (exists body, box_register P my_key body = Ok ops) \/ ops = notif cf) -> Forall fresh_op ops.
Proof.
  intros [(key & id & read & w & H)|[(read & w & H)|[(body & H)| ->]]].
  - unfold relay_register in H. destruct (read_registration why read) as [sent [[r|]|x|x]]; cbn in H; try done;
      [|by injection H as <-].
    destruct (is_valid_por P r (r_address r) key) as [[code err]|x|x]; cbn in H; try done.
    destruct (err || _); cbn in H; [by injection H as <-|]. destruct w; cbn in H; injection H as <-; [|done].
    repeat apply Forall_cons_2; try apply Forall_nil_2; done.
  - unfold delegate_register in H. destruct (read_registration why read) as [sent [[r|]|x|x]]; cbn in H; try done;
      [|by injection H as <-].
    destruct (is_valid_por P r (r_address r) my_key) as [[code err]|x|x]; cbn in H; try done.
    destruct (err || _); cbn in H; [by injection H as <-|]. destruct w; cbn in H; injection H as <-; [|done].
    repeat apply Forall_cons_2; try apply Forall_nil_2; done.
  - unfold box_register in H. destruct (Nat.eqb (length body) 0); [by injection H as <-|].
    destruct (decode_record body) as [r|]; [|by injection H as <-].
    destruct (is_valid_por P r (r_address r) my_key) as [[code err]|x|x]; cbn in H; try done.
    destruct (err || _); cbn in H; injection H as <-; [done|].
    repeat apply Forall_cons_2; try apply Forall_nil_2; done.
  - unfold notif. apply Forall_cons_2; [done|].
    destruct (String.eqb _ _), (cf_relay cf), (cf_delegate cf); cbn;
      repeat apply Forall_cons_2; try apply Forall_nil_2; done.
Qed.

Lemma joining_fresh : Forall fresh_op (joining cf).
Proof.
  unfold joining. destruct (cf_bootstrap cf); [|done]. destruct (String.eqb _ _);
    repeat apply Forall_cons_2; try apply Forall_nil_2; done.
Qed.

Lemma step_op_cases g j o k w g' :
  step_op g j o k w = Ok g' -> Forall fresh_op k ->
  exists k', g_jobs g' = <[j := k']> (g_jobs g) /\
   ((Forall fresh_op k' /\ g_announced g' = g_announced g /\ g_provided g' = g_provided g) \/
    (exists a n, o = OAnnounce a SCheck n /\ k' = OAnnounce a SMark n :: k /\ a ∉ g_announced g /\
       g_announced g' = g_announced g /\ g_provided g' = g_provided g) \/
    (exists a n, o = OAnnounce a SMark n /\ k' = OAnnounce a SProvide n :: k /\
       g_announced g' = {[a]} ∪ g_announced g /\ g_provided g' = g_provided g) \/
    (exists a n b, o = OAnnounce a SProvide n /\ Forall fresh_op k' /\
       g_announced g' = g_announced g /\ g_provided g' = g_provided g ++ [(a, b)])).
Proof.
  intros H Hk.
  assert (Hdrop : forall n, Forall fresh_op (drop n k)) by (intros; by apply Forall_drop).
  assert (Hloop : forall l, Forall fresh_op (loop l ++ k)).
  { intros l. apply Forall_app. split; [|done]. apply Forall_map, Forall_forall. done. }
  unfold step_op in H. destruct o.
  9:{ destruct s.
    - destruct w; try done. destruct (decide _) as [|Hn]; injection H as <-; eexists; (split; [done|]); [by left|].
      right; left. by exists a, skip.
    - destruct w; try done. injection H as <-. eexists. split; [done|]. right; right; left. by exists a, skip.
    - destruct w as [| |p|]; try done. destruct p; injection H as <-; eexists; (split; [done|]); [by left|..];
        right; right; right; exists a, skip; eexists; (split; [done|]); done. }
  all: destruct w as [| b| |l]; try done.
  all: repeat match type of H with (if ?x then _ else _) = Ok _ => destruct x; [|done] end.
  all: injection H as <-; eexists; (split; [done|]); left; (split; [|done]).
  all: try done; repeat match goal with |- context [if ?x then _ else _] => destruct x end; done.
Qed.

(** No goroutine is about to put the address on the network. *)
Definition about (a : string) (ops : list op) : bool :=
  match ops with OAnnounce b SProvide _ :: _ => String.eqb b a | _ => false end.
Definition untouched (a : string) (g : registry) : Prop :=
  provides a g = 0%nat /\ Forall (fun ops => about a ops = false) (g_jobs g).

Lemma fresh_not_about a k : Forall fresh_op k -> about a k = false.
Proof. intros H. destruct H as [|o k Ho H]; [done|]. destruct o; try done. by destruct s. Qed.

Lemma inside_jobs a g g' j ops k :
  g_jobs g !! j = Some ops -> g_jobs g' = <[j := k]> (g_jobs g) ->
  (inside a g' + (if passed a ops then 1 else 0) = inside a g + (if passed a k then 1 else 0))%nat.
Proof.
  intros H E. rewrite <- (inside_left a g j ops k H). unfold inside. by rewrite E.
Qed.

Lemma rstep_effect a g v g' :
  Forall fresh_tail (g_jobs g) -> rstep P cf my_key why g v = Ok g' ->
  Forall fresh_tail (g_jobs g') /\
  (a ∈ g_announced g -> a ∈ g_announced g' /\ (provides a g' + inside a g' <= provides a g + inside a g)%nat) /\
  (untouched a g -> a ∉ g_announced g -> provides a g' = 0%nat /\ (a ∉ g_announced g' -> untouched a g')).
Proof.
  intros Hw H.
  assert (Hspawn : forall g0 ops, g_jobs g0 = g_jobs g -> g_announced g0 = g_announced g -> g_provided g0 = g_provided g ->
    g' = spawn g0 ops -> Forall fresh_op ops ->
    Forall fresh_tail (g_jobs g') /\
    (a ∈ g_announced g -> a ∈ g_announced g' /\ (provides a g' + inside a g' <= provides a g + inside a g)%nat) /\
    (untouched a g -> a ∉ g_announced g -> provides a g' = 0%nat /\ (a ∉ g_announced g' -> untouched a g'))).
  { intros g0 ops E1 E2 E3 -> Ho. split; [|split].
    - cbn. rewrite E1. apply Forall_app. split; [done|]. constructor; [|done]. unfold fresh_tail. by destruct ops; inversion Ho.
    - intros Ha. split; [cbn; by rewrite E2|]. rewrite inside_spawn by (by apply fresh_not_passed).
      unfold provides, inside. cbn. rewrite E1, E3. lia.
    - intros [Hu1 Hu2] Ha. unfold provides in *. cbn. rewrite E3. split; [done|]. intros _.
      split; [unfold provides; cbn; by rewrite E3|]. cbn. rewrite E1. apply Forall_app. split; [done|].
      constructor; [|done]. by apply fresh_not_about. }
  destruct v; cbn [rstep] in H.
  - destruct (cf_relay cf); [|done]. destruct (snd _) as [ops|x|x] eqn:E; try done. injection H as <-.
    apply (Hspawn g ops); try done. apply spawned_fresh. left. eauto.
  - destruct (cf_delegate cf); [|done]. destruct (snd _) as [ops|x|x] eqn:E; try done. injection H as <-.
    apply (Hspawn g ops); try done. apply spawned_fresh. right; left. eauto.
  - destruct (box_register P my_key body) as [ops|x|x] eqn:E; try done. injection H as <-.
    apply (Hspawn g ops); try done. apply spawned_fresh. right; right; left. eauto.
  - injection H as <-. split; [done|]. split; [done|]. by intros [? ?].
  - injection H as <-. split; [done|]. split; [done|]. by intros [? ?].
  - injection H as <-. match goal with |- context [spawn ?g0 ?o] => apply (Hspawn g0 o) end; try done. apply spawned_fresh. auto.
  - clear Hspawn. destruct (g_jobs g !! j) as [[|o k]|] eqn:Ej; try done.
    assert (Hk : Forall fresh_op k) by (by apply (Forall_lookup_1 _ _ _ _ Hw Ej)).
    destruct (step_op_cases _ _ _ _ _ _ H Hk) as (k' & Ej' & Hc).
    pose proof (inside_jobs a g g' j _ k' Ej Ej') as Hi.
    destruct Hc as [(Hk' & Ea & Ep)|[(b & n & -> & -> & Hn & Ea & Ep)|[(b & n & -> & -> & Ea & Ep)
                   |(b & n & ok & -> & Hk' & Ea & Ep)]]].
    + split; [|split].
      * rewrite Ej'. apply Forall_insert; [done|]. unfold fresh_tail. by destruct k'; inversion Hk'.
      * intros Ha. rewrite Ea. split; [done|]. rewrite (fresh_not_passed a k' Hk') in Hi.
        unfold provides. rewrite Ep. destruct (passed a _); lia.
      * intros [Hu1 Hu2] Ha. unfold untouched, provides in *. rewrite Ep. split; [done|]. intros _. split; [done|].
        rewrite Ej'. apply Forall_insert; [done|]. by apply fresh_not_about.
    + split; [|split].
      * rewrite Ej'. by apply Forall_insert.
      * intros Ha. rewrite Ea. split; [done|]. cbn in Hi. destruct (String.eqb_spec b a) as [->|]; [done|].
        unfold provides. rewrite Ep. lia.
      * intros [Hu1 Hu2] Ha. unfold untouched, provides in *. rewrite Ep. split; [done|]. intros _. split; [done|].
        rewrite Ej'. by apply Forall_insert.
    + split; [|split].
      * rewrite Ej'. by apply Forall_insert.
      * intros Ha. rewrite Ea. split; [set_solver|]. cbn in Hi. unfold provides. rewrite Ep.
        destruct (String.eqb b a); lia.
      * intros [Hu1 Hu2] Ha. unfold untouched, provides in *. rewrite Ep, Ea. split; [done|]. intros Hn. split; [done|].
        rewrite Ej'. apply Forall_insert; [done|]. cbn. apply String.eqb_neq. set_solver.
    + assert (Hpr : provides a g' = (provides a g + if String.eqb b a then 1 else 0)%nat).
      { unfold provides. rewrite Ep, List.filter_app, app_length. cbn. by destruct (String.eqb b a). }
      split; [|split].
      * rewrite Ej'. apply Forall_insert; [done|]. unfold fresh_tail. by destruct k'; inversion Hk'.
      * intros Ha. rewrite Ea. split; [done|]. rewrite Hpr. rewrite (fresh_not_passed a k' Hk') in Hi. cbn in Hi.
        destruct (String.eqb b a); lia.
      * intros [Hu1 Hu2] Ha. pose proof (Forall_lookup_1 _ _ _ _ Hu2 Ej) as Hb. cbn in Hb.
        rewrite Hpr, Hu1, Hb. split; [done|]. intros _. split; [by rewrite Hpr, Hu1, Hb|].
        rewrite Ej'. apply Forall_insert; [done|]. by apply fresh_not_about.
Qed.

Lemma rrun_fresh g vs g' :
  Forall fresh_tail (g_jobs g) -> rrun P cf my_key why g vs = Ok g' -> Forall fresh_tail (g_jobs g').
Proof.
  revert g. induction vs as [|v vs IH]; intros g Hw; cbn; [by intros [= <-]|].
  destruct (rstep P cf my_key why g v) as [g1|x|x] eqn:E; try done. apply IH. by eapply (rstep_effect "").
Qed.

Lemma started_fresh l rs : Forall fresh_tail (g_jobs (started cf l rs)).
Proof.
  constructor; [|done]. pose proof joining_fresh as H. unfold fresh_tail. by destruct (joining cf); inversion H.
Qed.
End Announce.

(** Once an address is marked, it is put on the network only by goroutines that were
    already past the check, whatever comes of the attempts. *)
Theorem C46_marked P cf my_key why peer_id rs vs g vs' g' a :
  reached P cf my_key why peer_id rs vs g -> a ∈ g_announced g ->
  rrun P cf my_key why g vs' = Ok g' ->
  a ∈ g_announced g' /\ (provides a g' <= provides a g + inside a g)%nat.
Proof.
  intros (file & l & _ & _ & _ & H) Ha Hr.
  assert (Hw : Forall fresh_tail (g_jobs g)) by (eapply rrun_fresh; [|exact H]; apply started_fresh).
  clear H. assert (Hx : a ∈ g_announced g' /\ (provides a g' + inside a g' <= provides a g + inside a g)%nat); [|destruct Hx; split; [done|lia]].
  revert g Ha Hw Hr. induction vs' as [|v vs' IH]; intros g Ha Hw; cbn; [intros [= <-]; done|].
  destruct (rstep P cf my_key why g v) as [g1|x|x] eqn:E; try done. intros Hr.
  destruct (rstep_effect P cf my_key why a g v g1 Hw E) as (Hw1 & H1 & _).
  destruct (H1 Ha) as [Ha1 Hc]. destruct (IH g1 Ha1 Hw1 Hr). split; [done|]. lia.
Qed.
Print Assumptions C46_marked.

(** In particular a failed announcement is never repeated. *)
Theorem C46_sticky P cf my_key why peer_id rs vs g vs' g' a :
  reached P cf my_key why peer_id rs vs g -> a ∈ g_announced g -> inside a g = 0%nat ->
  rrun P cf my_key why g vs' = Ok g' ->
  List.filter (fun p => String.eqb (fst p) a) (g_provided g') = List.filter (fun p => String.eqb (fst p) a) (g_provided g).
Proof.
  intros Hg Ha Hi Hr. pose proof (C46_marked _ _ _ _ _ _ _ _ _ _ _ Hg Ha Hr) as [_ Hc]. rewrite Hi in Hc.
  assert (Hp : exists l, g_provided g' = g_provided g ++ l).
  { clear -Hr. revert g Hr. induction vs' as [|v vs' IH]; intros g; cbn; [intros [= <-]; exists []; by rewrite app_nil_r|].
    destruct (rstep P cf my_key why g v) as [g1|x|x] eqn:E; try done. intros [l ->]%IH.
    assert (exists l1, g_provided g1 = g_provided g ++ l1) as [l1 ->]; [|exists (l1 ++ l); by rewrite app_assoc].
    destruct v; cbn in E.
    - destruct (cf_relay cf); [|done]. destruct (snd _); try done. injection E as <-. exists []. by rewrite app_nil_r.
    - destruct (cf_delegate cf); [|done]. destruct (snd _); try done. injection E as <-. exists []. by rewrite app_nil_r.
    - destruct (box_register P my_key body); try done. injection E as <-. exists []. by rewrite app_nil_r.
    - injection E as <-. exists []. by rewrite app_nil_r.
    - injection E as <-. exists []. by rewrite app_nil_r.
    - injection E as <-. exists []. by rewrite app_nil_r.
    - destruct (g_jobs g !! j) as [[|o k]|]; try done. unfold step_op in E.
      repeat match type of E with
      | match ?x with _ => _ end = Ok _ => destruct x; try done
      | (if ?x then _ else _) = Ok _ => destruct x; try done
      end; injection E as <-; first [by eexists | exists []; by rewrite app_nil_r]. }
  destruct Hp as [l Hp]. unfold provides in Hc. rewrite Hp, List.filter_app, app_length in Hc. rewrite Hp, List.filter_app.
  destruct (List.filter _ l); [by rewrite app_nil_r|cbn in Hc; lia].
Qed.
Print Assumptions C46_sticky.

(** An address is put on the network at most once, unless two goroutines pass the
    check for it before either of them has marked it. *)
Theorem C46_once P cf my_key why peer_id rs vs g a :
  reached P cf my_key why peer_id rs vs g ->
  (forall vs1 vs2 g1, vs = vs1 ++ vs2 -> reached P cf my_key why peer_id rs vs1 g1 -> (inside a g1 <= 1)%nat) ->
  (provides a g <= 1)%nat.
Proof.
  intros (file & l & Hs & Hw & Hl & H) Hi.
  assert (Hx : forall vs1 vs2 g1, vs = vs1 ++ vs2 -> rrun P cf my_key why (started cf l rs) vs1 = Ok g1 ->
    Forall fresh_tail (g_jobs g1) /\
    (a ∈ g_announced g1 -> (provides a g1 + inside a g1 <= 1)%nat) /\ (a ∉ g_announced g1 -> untouched a g1)).
  { induction vs1 as [|v vs1 IH] using rev_ind; intros vs2 g1 Hv Hr.
    - injection Hr as <-. split; [apply started_fresh|]. split; [cbn; set_solver|]. intros _. split; [done|].
      constructor; [|done]. apply fresh_not_about, joining_fresh.
    - rewrite rrun_app in Hr. destruct (rrun P cf my_key why (started cf l rs) vs1) as [g0|x|x] eqn:E0; try done.
      cbn in Hr. destruct (rstep P cf my_key why g0 v) as [g1'|x|x] eqn:E1; try done. injection Hr as ->.
      destruct (IH (v :: vs2) g0) as (Hf & Hm & Hu); [by rewrite Hv, <- app_assoc|done|].
      destruct (rstep_effect P cf my_key why a g0 v g1 Hf E1) as (Hf1 & Hm1 & Hu1).
      split; [done|]. destruct (decide (a ∈ g_announced g0)) as [Ha|Ha].
      + destruct (Hm1 Ha) as [Ha1 Hc]. split; [|done]. intros _. specialize (Hm Ha). lia.
      + destruct (Hu1 (Hu Ha) Ha) as [Hp Hn]. split; [|done]. intros _. rewrite Hp. cbn.
        apply (Hi (vs1 ++ [v]) vs2); [done|]. exists file, l. do 3 (split; [done|]). rewrite rrun_app, E0. cbn. by rewrite E1. }
  destruct (Hx vs [] g) as (_ & Hm & Hu); [by rewrite app_nil_r|done|].
  destruct (decide (a ∈ g_announced g)) as [Ha|Ha]; [specialize (Hm Ha); lia|]. destruct (Hu Ha). lia.
Qed.
Print Assumptions C46_once.

(** Only the own address, and addresses with a proof of representation presented to
    this node or found in the record file, are put on the network. *)
Theorem C46_represented P cf my_key why peer_id rs vs g a ok :
  reached P cf my_key why peer_id rs vs g -> In (a, ok) (g_provided g) ->
  a = cf_my_addr cf \/ exists r, known P my_key rs vs r /\ r_address r = a.
Proof.
  intros H%reached_good Hin. destruct H. rewrite Forall_forall in good_provided0.
  apply (good_provided0 (a, ok)). by apply elem_of_list_In.
Qed.
Print Assumptions C46_represented.

(** A node that joined no network, and that no peer has notified, announces nothing. *)
Definition plain (o : op) : Prop :=
  match o with OStoreRecord _ | OStoreRelay _ _ | OStoreTcp _ | OStoreBox _ | OWait => True | _ => False end.
Definition quiet (ops : list op) : Prop :=
  exists pre post, Forall plain pre /\ ops = pre ++ post /\
    match post with [] => True | OIfEnabled n :: k => Forall plain (drop n k) | _ => False end.

Theorem C46_isolated P cf my_key why peer_id rs vs g :
  reached P cf my_key why peer_id rs vs g -> cf_bootstrap cf = false -> ~ In VNotif vs ->
  g_provided g = [] /\ g_announced g = ∅.
Proof.
  intros (file & l & _ & _ & _ & H) Hb Hn.
  assert (Hq0 : Forall quiet (g_jobs (started cf l rs))).
  { cbn. unfold joining. rewrite Hb. constructor; [|done]. by exists [], []. }
  assert (Hx : g_enabled (started cf l rs) = false /\ g_provided (started cf l rs) = [] /\ g_announced (started cf l rs) = ∅)
    by done.
  revert H Hq0 Hx. generalize (started cf l rs). intros g0. revert g0.
  assert (Hplain : forall k, Forall plain k -> quiet k).
  { intros k Hk. exists k, []. split; [done|]. by rewrite app_nil_r. }
  induction vs as [|v vs IH]; intros g0 H Hq (He & Hp & Ha); cbn in H; [by injection H as <-|].
  destruct (rstep P cf my_key why g0 v) as [g1|x|x] eqn:E; try done.
  assert (Hv : v <> VNotif) by (intros ->; apply Hn; by left).
  assert (Hn' : ~ In VNotif vs) by (intros ?; apply Hn; by right).
  apply (IH Hn' g1 H).
  - destruct v; cbn in E; try done.
    + destruct (cf_relay cf); [|done]. destruct (snd _) as [ops|x|x] eqn:Eo; try done. injection E as <-.
      apply Forall_app. split; [done|]. constructor; [|done].
      unfold relay_register in Eo. destruct (read_registration why read) as [sent [[r|]|x|x]]; cbn in Eo; try done;
        [|injection Eo as <-; by apply Hplain].
      destruct (is_valid_por P r (r_address r) key) as [[code err]|x|x]; cbn in Eo; try done.
      destruct (err || _); cbn in Eo; [injection Eo as <-; by apply Hplain|].
      destruct write_ok; cbn in Eo; injection Eo as <-; [|by apply Hplain].
      exists [OStoreRecord r; OStoreRelay r id; OWait]. eexists. split; [|split; [done|cbn; constructor]].
      repeat apply Forall_cons_2; try apply Forall_nil_2; done.
    + destruct (cf_delegate cf); [|done]. destruct (snd _) as [ops|x|x] eqn:Eo; try done. injection E as <-.
      apply Forall_app. split; [done|]. constructor; [|done].
      unfold delegate_register in Eo. destruct (read_registration why read) as [sent [[r|]|x|x]]; cbn in Eo; try done;
        [|injection Eo as <-; by apply Hplain].
      destruct (is_valid_por P r (r_address r) my_key) as [[code err]|x|x]; cbn in Eo; try done.
      destruct (err || _); cbn in Eo; [injection Eo as <-; by apply Hplain|].
      destruct write_ok; cbn in Eo; injection Eo as <-; [|by apply Hplain].
      exists [OStoreRecord r; OStoreTcp (r_address r); OWait]. eexists. split; [|split; [done|cbn; constructor]].
      repeat apply Forall_cons_2; try apply Forall_nil_2; done.
    + destruct (box_register P my_key body) as [ops|x|x] eqn:Eo; try done. injection E as <-.
      apply Forall_app. split; [done|]. constructor; [|done].
      unfold box_register in Eo. destruct (Nat.eqb (length body) 0); [injection Eo as <-; by apply Hplain|].
      destruct (decode_record body) as [r|]; [|injection Eo as <-; by apply Hplain].
      destruct (is_valid_por P r (r_address r) my_key) as [[code err]|x|x]; cbn in Eo; try done.
      destruct (err || _); cbn in Eo; injection Eo as <-; [by apply Hplain|].
      exists [OWait]. eexists. split; [by constructor|]. split; [done|]. cbn. by constructor.
    + by injection E as <-.
    + by injection E as <-.
    + destruct (g_jobs g0 !! j) as [[|o k]|] eqn:Ej; try done.
      destruct (Forall_lookup_1 _ _ _ _ Hq Ej) as (pre & post & Hpre & Eo & Hpost).
      destruct pre as [|o' pre].
      * cbn in Eo. subst post. destruct o; try done. cbn in E. destruct w; try done. rewrite He in E.
        injection E as <-. cbn. apply Forall_insert; [done|]. by apply Hplain.
      * injection Eo as <- ->. inversion Hpre as [|? ? Ho Hpre']; subst.
        assert (quiet (pre ++ post)) by (by exists pre, post).
        destruct o; try done; cbn in E; destruct w; try done;
          try (destruct (Nat.eqb _ _); [|done]); injection E as <-; cbn; by apply Forall_insert.
  - destruct v; cbn in E; try done.
    + destruct (cf_relay cf); [|done]. destruct (snd _) as [ops|x|x] eqn:Eo; try done. by injection E as <-.
    + destruct (cf_delegate cf); [|done]. destruct (snd _) as [ops|x|x] eqn:Eo; try done. by injection E as <-.
    + destruct (box_register P my_key body) as [ops|x|x] eqn:Eo; try done. by injection E as <-.
    + by injection E as <-.
    + by injection E as <-.
    + destruct (g_jobs g0 !! j) as [[|o k]|] eqn:Ej; try done.
      destruct (Forall_lookup_1 _ _ _ _ Hq Ej) as (pre & post & Hpre & Eo & Hpost).
      assert (Ho : plain o \/ exists n, o = OIfEnabled n).
      { destruct pre as [|o' pre]; cbn in Eo.
        - subst post. destruct o; try done. right. eauto.
        - injection Eo as <- _. left. by inversion Hpre. }
      destruct Ho as [Ho|[n ->]]; [destruct o; try done|]; cbn in E; destruct w; try done;
        try (destruct (Nat.eqb _ _); [|done]); by injection E as <-.
Qed.
Print Assumptions C46_isolated.

(** A notification, then two delegate clients that register the same address at the
    same time. *)
Definition enabling : list revent :=
  [VNotif; VStep 1 (AFound true); VStep 1 ANone; VStep 1 ANone; VStep 1 ANone; VStep 1 (AProvide Provided);
   VStep 1 (AOrder []); VStep 1 (AOrder []); VStep 1 ANone; VStep 1 ANone].
Definition twice : list revent :=
  let reg := VDelegate (frame_of (PRegister (Some alice))) true in
  enabling ++ [reg; reg] ++ replicate 5 (VStep 2 ANone) ++ replicate 5 (VStep 3 ANone) ++
  [VStep 2 ANone; VStep 2 (AProvide Provided); VStep 3 ANone; VStep 3 (AProvide Provided)].

Theorem C46_once_refuted :
  exists vs g, reached toy cfg1 "peer" "why" (fun k => Some k) [] vs g /\
    provides (r_address alice) g = 2%nat.
Proof.
  exists twice. assert (H : match rrun toy cfg1 "peer" "why" (started cfg1 (Loaded 0 ∅ ∅) []) twice with
    | Ok g => provides (r_address alice) g = 2%nat | _ => False end) by (vm_compute; done).
  destruct (rrun toy cfg1 "peer" "why" (started cfg1 (Loaded 0 ∅ ∅) []) twice) as [g| |] eqn:E; [|destruct H..].
  exists g. split; [|exact H]. exists [], (Loaded 0 ∅ ∅). split; [constructor|]. split; [constructor|].
  split; [vm_compute; reflexivity|exact E].
Qed.
Print Assumptions C46_once_refuted.

(** One client whose announcement fails, and who registers again. *)
Definition failing : list revent :=
  let reg := VDelegate (frame_of (PRegister (Some alice))) true in
  enabling ++ reg :: replicate 6 (VStep 2 ANone) ++ [VStep 2 (AProvide Failed)] ++
  reg :: replicate 5 (VStep 3 ANone).

Example C46_example :
  match rrun toy cfg1 "peer" "why" (started cfg1 (Loaded 0 ∅ ∅) []) failing with
  | Ok g => g_provided g = [("me", true); (r_address alice, false)] /\ g_jobs g = [[]; []; []; []]
  | _ => False
  end.
Proof. vm_compute. done. Qed.
