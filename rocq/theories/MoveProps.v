(** C86: an agent that changes how it is attached to a node (MoveModel.v). *)
From Coq Require Import ZArith List String Lia.
From stdpp Require Import base list strings.
From Verif Require Import GoBase Bytes Utf8 WireModel ProtoModel CryptoModel CryptoProps PorModel PorProps AcnModel RecordFileModel RouteModel MoveModel DelegateProps FindProps.
Import MoveModel.
Open Scope string_scope.
Open Scope list_scope.
Open Scope nat_scope.

(** Where an envelope was put (No counterpart in /repo: names in the statements). *)
Inductive dest := InBox | ToConn (c : nat) | ToClient (peer : string) | InQueue.

(** The places in what a call did (No counterpart in /repo: names in the statements). *)
Definition put (fs : list effect) : list dest :=
  omap (fun f => match f with
    | ToMailbox _ => Some InBox
    | ToDelegate c _ => Some (ToConn c)
    | ToPeer p _ => Some (ToClient p)
    | ToSlowQueue _ => Some InQueue
    | _ => None end) fs.

(** Nothing outside fails for an envelope routed here: it can be encoded, connections and streams take it, the relay client has its peer id, no other node knows the agent (No
    counterpart in /repo: names in the statements). *)
Definition well (m : entry) (e : envelope) (rec : option record) (o : outcome) : Prop :=
  envelope_frame e None <> None /\ envelope_frame e rec <> None /\ oc_write o = true /\ oc_peer o = en_relay m /\
  so_open (oc_stream o) = true /\ so_write (oc_stream o) = true /\
  (exists why, oc_found o = Returns (Err why)) /\ oc_closing o = false /\
  match envelope_record (oc_view2 o) e with Panic _ => False | _ => True end.

Section Move.
Context (P : prims) (id_of_key : string -> option string) (my_key agent : string).
Notation run := (run P id_of_key my_key agent).
Notation step := (step P id_of_key my_key agent).
Notation accepted := (accepted P agent).

Lemma accepted_iff r key : accepted r key = true <-> represents P r agent key.
Proof.
  unfold MoveModel.accepted. rewrite andb_true_iff, String.eqb_eq. split.
  - intros [<- H]. apply C29_accepted. destruct (is_valid_por P r (r_address r) key) as [[code err]| |]; try done.
    apply andb_true_iff in H as [H1 H2]. apply Z.eqb_eq in H2. unfold SUCCESS in H2. subst code. by destruct err.
  - intros H. assert (r_address r = agent) as <- by apply H. split; [done|]. apply C29_accepted in H. by rewrite H.
Qed.

Lemma run_app a b m : run m (a ++ b) = match run m a with Some m' => run m' b | None => None end.
Proof. revert m. induction a as [|e a IH]; intros m; cbn; [done|]. destruct (step m e); [apply IH|done]. Qed.

Lemma run_snoc h e m m' : run m (h ++ [e]) = Some m' -> exists m1, run m h = Some m1 /\ step m1 e = Some m'.
Proof. rewrite run_app. destruct (run m h) as [m1|]; [|done]. cbn. destruct (step m1 e) eqn:E; [|done]. intros [= ->]. eauto. Qed.

(** Events that end a delegate connection or replace it; that touch the registration at the mailbox; that store a record or load them (No counterpart in /repo: names in the statements). *)
Definition ends_conn (e : event) : bool := match e with MConnect _ _ | MGone | MRestart _ => true | _ => false end.
Definition ends_box (e : event) : bool := match e with MBox _ | MUnbox | MRestart _ => true | _ => false end.
Definition registers (e : event) : bool := match e with MRelay _ _ _ _ | MConnect _ _ => true | _ => false end.
Definition restarts (e : event) : bool := match e with MRestart _ => true | _ => false end.
Definition loses (e : event) : bool := match e with MRestart false => true | _ => false end.
Definition is_put (e : event) : bool := match e with MPut => true | _ => false end.
Definition is_get (e : event) : bool := match e with MGet => true | _ => false end.
Definition count (f : event -> bool) (h : list event) : nat := length (List.filter f h).
Definition none (f : event -> bool) (h : list event) : Prop := forall e, In e h -> f e = false.

Lemma none_nil f : none f []. Proof. intros e []. Qed.
Lemma none_snoc f h e : none f (h ++ [e]) <-> none f h /\ f e = false.
Proof.
  unfold none. split.
  - intros H. split; [intros x Hx|]; apply H, in_or_app; cbn; tauto.
  - intros [H1 H2] x [Hx|[<-|[]]]%in_app_or; auto.
Qed.
Lemma count_snoc f h e : count f (h ++ [e]) = count f h + (if f e then 1 else 0).
Proof. unfold count. rewrite List.filter_app, app_length. cbn. by destruct (f e). Qed.

(** The agent is in the table of delegate clients exactly while its last delegate connection since the start lasts. *)
Theorem C86_connected h m c :
  run nowhere h = Some m ->
  en_tcp m = Some c <-> exists h1 r h2, h = h1 ++ MConnect c r :: h2 /\ none ends_conn h2.
Proof.
  revert m. induction h as [|e h IH] using rev_ind; intros m Hrun.
  { injection Hrun as <-. split; [done|]. intros (h1 & r & h2 & H & _). by destruct h1. }
  destruct (run_snoc _ _ _ _ Hrun) as (m1 & H1 & Hs). specialize (IH _ H1).
  assert (forall P' : Prop, (ends_conn e = false /\ (exists h1 r h2, h = h1 ++ MConnect c r :: h2 /\ none ends_conn h2) \/ (exists r, e = MConnect c r) <-> P') ->
    ((exists h1 r h2, h ++ [e] = h1 ++ MConnect c r :: h2 /\ none ends_conn h2) <-> P')) as Hsplit.
  { intros P' <-. split.
    - intros (h1 & r & h2 & Heq & Hn). destruct h2 as [|x h2 _] using rev_ind.
      + apply app_inj_tail in Heq as [_ ->]. right. eauto.
      + rewrite app_comm_cons, app_assoc in Heq. apply app_inj_tail in Heq as [-> ->]. apply none_snoc in Hn as [Hn He]. left. eauto 10.
    - intros [(He & h1 & r & h2 & -> & Hn)|(r & ->)].
      + exists h1, r, (h2 ++ [e]). rewrite <- app_assoc. split; [done|]. by apply none_snoc.
      + exists h, r, []. split; [done|]. apply none_nil. }
  symmetry. apply Hsplit. rewrite <- IH. clear -Hs.
  destruct e; cbn in Hs |- *; repeat case_match; try done; injection Hs as <-; cbn; try naive_solver.
  all: unfold loaded_entry in *; repeat case_match; cbn; naive_solver.
Qed.

Lemma boxed_forward h m r n :
  run nowhere h = Some m -> en_box m = Some (r, n) ->
  exists h1 h2, h = h1 ++ MBox r :: h2 /\ none ends_box h2 /\ count is_put h2 = n + count is_get h2.
Proof.
  revert m n. induction h as [|e h IH] using rev_ind; intros m n Hrun Hm.
  { injection Hrun as <-. done. }
  destruct (run_snoc _ _ _ _ Hrun) as (m1 & H1 & Hs).
  assert (forall k, en_box m1 = Some (r, k) -> ends_box e = false -> k + (if is_put e then 1 else 0) = n + (if is_get e then 1 else 0) ->
    exists h1 h2, h ++ [e] = h1 ++ MBox r :: h2 /\ none ends_box h2 /\ count is_put h2 = n + count is_get h2) as Hold.
  { intros k Hk He Hc. destruct (IH _ _ H1 Hk) as (h1 & h2 & -> & Hn & Hc'). exists h1, (h2 ++ [e]). rewrite <- app_assoc.
    split; [done|]. split; [by apply none_snoc|]. rewrite !count_snoc. lia. }
  destruct e; cbn [MoveModel.step] in Hs.
  - destruct (_ && _); [|done]. injection Hs as <-. eapply Hold; [done|done|done].
  - match type of Hs with (if ?b then _ else _) = _ => destruct b | match ?b with _ => _ end = _ => destruct b end; [|done]. injection Hs as <-. eapply Hold; [done|done|done].
  - match type of Hs with (if ?b then _ else _) = _ => destruct b | match ?b with _ => _ end = _ => destruct b end; [|done]. injection Hs as <-. eapply Hold; [done|done|done].
  - match type of Hs with (if ?b then _ else _) = _ => destruct b | match ?b with _ => _ end = _ => destruct b end; [|done]. injection Hs as <-. injection Hm as -> <-. exists h, []. split; [done|]. split; [apply none_nil|done].
  - destruct (en_box m1); [|done]. by injection Hs as <-.
  - destruct (en_box m1) as [[r1 k]|] eqn:Eb; [|done]. match type of Hs with (if ?b then _ else _) = _ => destruct b | match ?b with _ => _ end = _ => destruct b end; [|done]. injection Hs as <-. injection Hm as -> <-.
    eapply Hold; [done|done|]. cbn. lia.
  - destruct (en_box m1) as [[r1 [|k]]|] eqn:Eb; try done. injection Hs as <-. injection Hm as -> <-.
    eapply Hold; [done|done|]. cbn. lia.
  - injection Hs as <-. revert Hm. unfold loaded_entry. by destruct (last _).
Qed.

Lemma stays_boxed h m m' r k :
  run m h = Some m' -> en_box m = Some (r, k) -> none ends_box h -> exists k', en_box m' = Some (r, k').
Proof.
  revert m k. induction h as [|e h IH]; intros m k Hrun Hm Hn.
  { injection Hrun as <-. eauto. }
  cbn in Hrun. destruct (step m e) as [m1|] eqn:Hs; [|done].
  assert (exists k1, en_box m1 = Some (r, k1)) as [k1 Hk1].
  { pose proof (Hn e (or_introl eq_refl)) as He. destruct e; try done; cbn [MoveModel.step] in Hs; rewrite ?Hm in Hs; repeat case_match; try done;
      injection Hs as <-; cbn; eauto. }
  apply (IH _ _ Hrun Hk1). intros x Hx. apply Hn. by right.
Qed.

Lemma last_box a1 r1 a2 b1 r2 b2 :
  a1 ++ MBox r1 :: a2 = b1 ++ MBox r2 :: b2 -> none ends_box a2 -> none ends_box b2 -> a2 = b2.
Proof.
  revert b1. induction a1 as [|x a1 IH]; intros [|y b1] Heq Ha Hb; cbn in Heq.
  - by injection Heq.
  - injection Heq as _ Heq. exfalso. specialize (Ha (MBox r2)). rewrite Heq in Ha. cbn in Ha.
    discriminate Ha. apply in_or_app. right. by left.
  - injection Heq as _ Heq. exfalso. specialize (Hb (MBox r1)). rewrite <- Heq in Hb. cbn in Hb.
    discriminate Hb. apply in_or_app. right. by left.
  - injection Heq as _ Heq. by eapply IH.
Qed.

(** The mailbox has the agent exactly while it has not left since it last registered, with as many envelopes waiting as were put and not taken. *)
Theorem C86_boxed h m r n :
  run nowhere h = Some m ->
  en_box m = Some (r, n) <->
  exists h1 h2, h = h1 ++ MBox r :: h2 /\ none ends_box h2 /\ count is_put h2 = n + count is_get h2.
Proof.
  intros Hrun. split; [by apply boxed_forward|]. intros (h1 & h2 & -> & Hn & Hc).
  pose proof Hrun as Hrun'. rewrite run_app in Hrun'. destruct (run nowhere h1) as [m1|] eqn:H1; [|done]. cbn in Hrun'.
  destruct (accepted r my_key); [|done].
  destruct (stays_boxed _ _ _ _ _ Hrun' eq_refl Hn) as [k Hk]. rewrite Hk.
  destruct (boxed_forward _ _ _ _ Hrun Hk) as (b1 & b2 & Heq & Hb & Hcb).
  rewrite (last_box _ _ _ _ _ _ Heq Hn Hb) in Hc. do 2 f_equal. lia.
Qed.

(** What the record file has for the agent, the record that is given out and the client it is relayed to: *)
Definition saved_of (e : event) : list record := match e with MRelay _ _ r true => [r] | _ => [] end.

Lemma file_after h m m' :
  run m h = Some m' -> none loses h -> en_file m' = en_file m ++ concat (map saved_of h).
Proof.
  revert m. induction h as [|e h IH]; intros m Hrun Hn.
  { injection Hrun as <-. cbn. by rewrite app_nil_r. }
  cbn in Hrun. destruct (step m e) as [m1|] eqn:Hs; [|done].
  rewrite (IH _ Hrun) by (intros x Hx; apply Hn; by right). cbn. rewrite app_assoc. f_equal.
  pose proof (Hn e (or_introl eq_refl)) as He.
  destruct e; cbn [MoveModel.step] in Hs; repeat case_match; try done; injection Hs as <-; cbn; try (by rewrite app_nil_r); try done.
  all: try (destruct kept; [|done]; unfold loaded_entry; destruct (last (en_file m)) eqn:El; cbn; rewrite app_nil_r; [done|]; by apply last_None in El).
Qed.

(** Every record the node keeps of the agent proves that the key in it represents the agent; the client it relays to has that of the last relayed
    registration. *)
Lemma invariant h m :
  run nowhere h = Some m ->
  (forall r, en_record m = Some r -> represents P r agent (r_peer_key r)) /\
  (forall r, In r (en_file m) -> represents P r agent (r_peer_key r) /\ r_peer_key r <> my_key /\ id_of_key (r_peer_key r) <> None) /\
  (forall r n, en_box m = Some (r, n) -> represents P r agent my_key /\ n <= 1000) /\
  (en_relay m <> None \/ en_tcp m <> None -> en_record m <> None) /\
  (en_relay m = None -> forall r, en_record m = Some r -> r_peer_key r = my_key) /\
  (forall r id, en_record m = Some r -> en_relay m = Some id -> r_peer_key r = my_key \/ id_of_key (r_peer_key r) = Some id).
Proof.
  revert m. induction h as [|e h IH] using rev_ind; intros m Hrun.
  { injection Hrun as <-. cbn. split; [done|]. split; [done|]. split; [done|]. split; [naive_solver|]. done. }
  destruct (run_snoc _ _ _ _ Hrun) as (m1 & H1 & Hs). destruct (IH _ H1) as (I1 & I2 & I3 & I4 & I5 & I6). clear IH H1 Hrun.
  destruct e; cbn [MoveModel.step] in Hs.
  - destruct (accepted r key && _ && _) eqn:Ha; [|done]. injection Hs as <-. cbn.
    apply andb_true_iff in Ha as [Ha Hk]. apply andb_true_iff in Ha as [Ha Hid]. apply accepted_iff in Ha. apply bool_decide_eq_true in Hid.
    apply negb_true_iff, String.eqb_neq in Hk. assert (r_peer_key r = key) as Hkey by apply Ha. subst key.
    split; [naive_solver|]. split.
    { intros x Hx. assert (In x (en_file m1) \/ x = r) as [Hx'| ->].
      { destruct saved; [|by left]. apply in_app_or in Hx as [?|[?|[]]]; auto. }
      - by apply I2.
      - split; [done|]. split; [done|]. congruence. }
    split; [done|]. split; [done|]. split; [done|]. intros x id' [= <-] [= <-]. by right.
  - destruct (accepted r my_key) eqn:Ha; [|done]. injection Hs as <-. cbn. apply accepted_iff in Ha.
    assert (r_peer_key r = my_key) as Hkey by apply Ha.
    split; [intros x [= <-]; by rewrite Hkey|]. split; [done|]. split; [done|]. split; [done|]. split; [naive_solver|]. naive_solver.
  - case_match; [|done]. injection Hs as <-. cbn. split; [done|]. split; [done|]. split; [done|]. split; [naive_solver|]. done.
  - destruct (accepted r my_key) eqn:Ha; [|done]. injection Hs as <-. cbn. apply accepted_iff in Ha.
    split; [done|]. split; [done|]. split; [intros x n [= <- <-]; split; [done|lia]|]. done.
  - case_match; [|done]. injection Hs as <-. cbn. split; [done|]. split; [done|]. split; [done|]. done.
  - destruct (en_box m1) as [[r1 k]|] eqn:Eb; [|done]. destruct (k <? 1000) eqn:Hk; [|done]. apply Nat.ltb_lt in Hk. injection Hs as <-. cbn.
    split; [done|]. split; [done|]. split; [intros x n [= <- <-]; split; [by eapply I3|lia]|]. done.
  - destruct (en_box m1) as [[r1 [|k]]|] eqn:Eb; try done. injection Hs as <-. cbn.
    split; [done|]. split; [done|]. split; [|done]. intros x n [= <- <-]. destruct (I3 _ _ eq_refl). split; [done|lia].
  - injection Hs as <-. unfold loaded_entry. destruct (last (if kept then en_file m1 else [])) as [r|] eqn:El; cbn.
    + destruct kept; [|done].
      assert (In r (en_file m1)) as Hr. { apply elem_of_list_In. by apply last_Some_elem_of. }
      destruct (I2 _ Hr) as (Hr1 & Hr2 & Hr3). split; [naive_solver|]. split; [done|]. split; [done|]. split; [naive_solver|].
      split; [congruence|]. intros x id [= <-] ?. by right.
    + split; [done|]. split; [done|]. split; [done|]. split; [naive_solver|]. done.
Qed.

(** Whether the mailbox takes an envelope for the agent (No counterpart in /repo: names in the statements). *)
Definition box_takes (m : entry) : bool := match en_box m with Some (_, n) => n <? 1000 | None => false end.

(** Where an envelope to the agent goes that comes from an agent of this node (RouteEnvelope). *)
Definition here (v : view) (m : entry) (e : envelope) (o : outcome) : list dest := put (route (target_view v m) e o).1.

(** Where an envelope goes that comes from another node which asks this one: the node is told a record and sends to the peer named in it, which
    takes it (HandleAeaEnvelope) if that is this node; [[]]: it is refused. If this node asks on and finds nothing the envelope stays in a queue there. *)
Definition others (v : view) (m : entry) (e : envelope) : list dest :=
  match address_request (subject_view v m) agent true (Returns (Err "not found")) with
  | Returns (Ok (Some r)) =>
      if String.eqb (r_peer_key r) my_key then put (handle_envelope (target_view v m) e (Ok tt) true (Ok tt)).1
      else match id_of_key (r_peer_key r) with Some id => [ToClient id] | None => [] end
  | _ => [InQueue]
  end.

(** The calls these are about (No counterpart in /repo: names in the statements). *)
Definition asked_about (v : view) (m : entry) (e : envelope) (o : outcome) : Prop :=
  v_my_addr v <> agent /\ e_to e = agent /\ exists rec, envelope_record (target_view v m) e = Ok rec /\ well m e rec o.

(** From this node: to the mailbox while it takes envelopes, else to the delegate connection, else to the client last relayed to. *)
Theorem C86_here h m v e o :
  run nowhere h = Some m -> asked_about v m e o ->
  (box_takes m = true -> here v m e o = [InBox]) /\
  (forall c, box_takes m = false -> en_tcp m = Some c -> here v m e o = [ToConn c]) /\
  (forall id, box_takes m = false -> en_tcp m = None -> en_relay m = Some id -> here v m e o = [ToClient id]) /\
  (box_takes m = false -> en_tcp m = None -> en_relay m = None -> here v m e o = [InQueue]).
Proof.
  intros _ (Hv & He & rec & Hrec & Hf1 & Hf2 & Hw & Hp & Ho & Hw' & (why & Hfound) & Hc & H2). unfold here, route. rewrite Hrec.
  cbn [v_mailbox target_view v_box_target v_my_addr v_delegate v_relay andb]. fold (box_takes m).
  rewrite (proj2 (String.eqb_neq (e_to e) (v_my_addr v))) by congruence.
  split; [by intros ->|]. split; [|split].
  - intros c -> ->. destruct (envelope_frame e None) as [f|]; [|done]. rewrite Hw. done.
  - intros id -> -> Hr. rewrite Hp, Hr. unfold route_new_stream. rewrite Ho, Hw'. cbn [negb].
    unfold envelope_frame in Hf2. destruct (encode_envelope e) as [b|]; [|done]. destruct (encode_acn _) as [f|]; [|done].
    destruct (read_status _) as [[st|]| |]; done.
  - intros -> -> ->. rewrite Hfound, Hc. unfold route_dht. destruct (envelope_record (oc_view2 o) e); done.
Qed.

(** What the other nodes are told depends on the newest registration with the node itself or its relay: *)
Lemma others_cases h m v e o :
  run nowhere h = Some m -> asked_about v m e o ->
  (forall id r, en_relay m = Some id -> en_record m = Some r -> r_peer_key r <> my_key -> others v m e = [ToClient id]) /\
  ((en_relay m = None /\ (en_box m <> None \/ en_tcp m <> None) \/ exists r, en_record m = Some r /\ en_relay m <> None /\ r_peer_key r = my_key) ->
   (box_takes m = true -> others v m e = [InBox]) /\
   (forall c, box_takes m = false -> en_tcp m = Some c -> others v m e = [ToConn c]) /\
   (box_takes m = false -> en_tcp m = None -> others v m e = [])) /\
  (en_relay m = None -> en_box m = None -> en_tcp m = None -> others v m e = [InQueue]).
Proof.
  intros Hrun (Hv & He & rec & Hrec & Hf1 & _).
  destruct (invariant _ _ Hrun) as (I1 & I2 & I3 & I4 & I5 & I6).
  unfold others, address_request. cbn [subject_view v_my_addr v_relay v_mailbox v_box_sender v_box_record v_delegate v_record andb].
  rewrite (proj2 (String.eqb_neq agent (v_my_addr v))) by congruence.
  split; [|split].
  - intros id r Hre Hr Hk. rewrite Hre, Hr. rewrite (proj2 (String.eqb_neq _ _)) by done. destruct (I6 _ _ Hr Hre) as [?|Hid]; [done|]. by rewrite Hid.
  - intros Hcase.
    assert (exists r, r_peer_key r = my_key /\
      match en_relay m with
      | Some _ => Returns (Ok (en_record m))
      | None => if match en_box m with Some _ => true | None => false end
                then Returns (Ok match en_box m with Some (r, _) => Some r | None => None end)
                else match en_tcp m with Some _ => Returns (Ok (en_record m)) | None => Returns (Ok None) end
      end = Returns (Ok (Some r))) as (r & Hk & ->).
    { destruct Hcase as [[Hre Hb]|(r & Hr & Hre & Hk)].
      - rewrite Hre. destruct (en_box m) as [[r n]|] eqn:Eb; [exists r; split; [by apply (I3 _ _ eq_refl)|done]|].
        destruct Hb as [?|Ht]; [done|]. destruct (en_tcp m) as [c|]; [|done].
        destruct (en_record m) as [r|] eqn:Er; [|exfalso; apply I4; [by right|done]]. exists r. split; [by apply (I5 Hre _ eq_refl)|done].
      - destruct (en_relay m); [|done]. exists r. by rewrite Hr. }
    rewrite Hk, String.eqb_refl. unfold handle_envelope. cbn [target_view v_mailbox v_box_target v_delegate v_my_addr andb]. fold (box_takes m).
    rewrite (proj2 (String.eqb_neq (e_to e) (v_my_addr v))) by congruence.
    split; [by intros ->|]. split; [|by intros -> ->].
    intros c -> ->. destruct (envelope_frame e None) as [f|]; done.
  - by intros -> -> ->.
Qed.

(** An agent that was never a client of the node's relay: other nodes reach it where this one does, except that with a full mailbox and no connection they are refused. *)
Theorem C86_never_relayed h m v e o :
  run nowhere h = Some m -> asked_about v m e o ->
  (forall key id r saved, ~ In (MRelay key id r saved) h) ->
  others v m e = (if match en_box m with Some (_, n) => (n =? 1000) | None => false end then match en_tcp m with None => [] | _ => here v m e o end else here v m e o).
Proof.
  intros Hrun Ha Hn. destruct (C86_here _ _ _ _ _ Hrun Ha) as (L1 & L2 & L3 & L4). destruct (others_cases _ _ _ _ _ Hrun Ha) as (O1 & O2 & O3).
  destruct (invariant _ _ Hrun) as (I1 & I2 & I3 & I4 & I5 & I6).
  assert (en_relay m = None /\ en_file m = []) as [Hre _].
  { clear -Hrun Hn. revert m Hrun. induction h as [|x h IH] using rev_ind; intros m Hrun; [by injection Hrun as <-|].
    destruct (run_snoc _ _ _ _ Hrun) as (m1 & H1 & Hs). 
    assert (forall key id r saved, ~ In (MRelay key id r saved) h) as Hn' by (intros key id r saved Hi; eapply Hn, in_or_app; by left).
    destruct (IH Hn' _ H1) as [Hr Hf]. destruct x; cbn [MoveModel.step] in Hs.
    - exfalso. eapply Hn, in_or_app. right. by left.
    - destruct (accepted r my_key); [|done]. by injection Hs as <-.
    - destruct (en_tcp m1); [|done]. by injection Hs as <-.
    - destruct (accepted r my_key); [|done]. by injection Hs as <-.
    - destruct (en_box m1); [|done]. by injection Hs as <-.
    - destruct (en_box m1) as [[r n]|]; [|done]. destruct (n <? 1000); [|done]. by injection Hs as <-.
    - destruct (en_box m1) as [[r [|n]]|]; try done. by injection Hs as <-.
    - injection Hs as <-. rewrite Hf. by destruct kept. }
  unfold box_takes in *. destruct (en_box m) as [[r n]|] eqn:Eb.
  - destruct (O2 (or_introl (conj Hre (or_introl (ltac:(done) : Some (r, n) <> None))))) as (P1 & P2 & P3).
    destruct (I3 _ _ eq_refl) as [_ Hle].
    destruct (Nat.eqb_spec n 1000) as [->|Hne].
    + destruct (en_tcp m) as [c|]; [|by apply P3]. rewrite (P2 c), (L2 c); done.
    + assert (n <? 1000 = true) as Hlt by (apply Nat.ltb_lt; lia). rewrite P1, L1; done.
  - destruct (en_tcp m) as [c|] eqn:Et.
    + destruct (O2 (or_introl (conj Hre (or_intror (ltac:(done) : Some c <> None))))) as (P1 & P2 & P3). rewrite (P2 c), (L2 c); done.
    + rewrite O3, L4; done.
Qed.

(** An agent whose newest registration is one as client of the relay: other nodes are always told that client, whatever the agent does with the
    mailbox, however often the node is started again. *)
Theorem C86_relay_newest h1 key id r saved h2 m v e o :
  run nowhere (h1 ++ MRelay key id r saved :: h2) = Some m -> asked_about v m e o ->
  none registers h2 -> none restarts h2 \/ (saved = true /\ none loses h2) ->
  others v m e = [ToClient id] /\ represents P r agent key /\
  forall found, address_request (subject_view v m) agent true found = Returns (Ok (Some r)).
Proof.
  intros Hrun Ha Hn Hk. destruct (others_cases _ _ _ _ _ Hrun Ha) as (O1 & _).
  pose proof Hrun as Hrun'. rewrite run_app in Hrun'. destruct (run nowhere h1) as [m0|] eqn:H0; [|done].
  cbn [MoveModel.run MoveModel.step] in Hrun'. destruct (accepted r key && _ && _) eqn:Hacc; [|done].
  apply andb_true_iff in Hacc as [Hacc Hne]. apply andb_true_iff in Hacc as [Hacc Hid]. apply accepted_iff in Hacc. apply bool_decide_eq_true in Hid.
  apply negb_true_iff, String.eqb_neq in Hne. assert (r_peer_key r = key) as Hkey by apply Hacc.
  set (ms := Entry (Some r) (Some id) (en_tcp m0) (en_box m0) (if saved then en_file m0 ++ [r] else en_file m0)) in *.
  assert (en_record m = Some r /\ en_relay m = Some id /\ (saved = true -> last (en_file m) = Some r)) as (Hr & Hre & _).
  { assert (en_record ms = Some r /\ en_relay ms = Some id /\ (saved = true -> last (en_file ms) = Some r)) as Hms.
    { unfold ms. cbn. split; [done|]. split; [done|]. intros ->. by rewrite last_snoc. }
    clearbody ms. clear -Hrun' Hms Hn Hk Hid Hkey. revert ms Hrun' Hms. induction h2 as [|x h2 IH]; intros ms Hrun (M1 & M2 & M3); [by injection Hrun as <-|].
    cbn [MoveModel.run] in Hrun. destruct (step ms x) as [m1|] eqn:Hs; [|done].
    assert (none registers h2 /\ registers x = false) as [Hn' Hx] by (split; [intros y Hy; apply Hn; by right|apply Hn; by left]).
    apply (IH Hn') with m1; [|done|].
    { destruct Hk as [Hk|[-> Hk]]; [left; intros y Hy; apply Hk; by right|right]. split; [done|]. intros y Hy. apply Hk. by right. }
    destruct x; cbn [MoveModel.step] in Hs; try done.
    - destruct (en_tcp ms); [|done]. by injection Hs as <-.
    - destruct (accepted r0 my_key); [|done]. by injection Hs as <-.
    - destruct (en_box ms); [|done]. by injection Hs as <-.
    - destruct (en_box ms) as [[r' n]|]; [|done]. destruct (n <? 1000); [|done]. by injection Hs as <-.
    - destruct (en_box ms) as [[r' [|n]]|]; try done. by injection Hs as <-.
    - destruct Hk as [Hk|[Hsv Hk]]; [specialize (Hk (MRestart kept) (or_introl eq_refl)); done|].
      pose proof (Hk (MRestart kept) (or_introl eq_refl)) as Hl. destruct kept; [|done].
      injection Hs as <-. unfold loaded_entry. rewrite (M3 Hsv). cbn. rewrite Hkey. by rewrite (M3 Hsv). }
  split; [by apply (O1 _ _ Hre Hr); rewrite Hkey|]. split; [done|].
  intros found. unfold address_request. cbn [subject_view v_my_addr v_relay v_record].
  destruct Ha as (Hv & _). rewrite (proj2 (String.eqb_neq agent (v_my_addr v))) by congruence. by rewrite Hre, Hr.
Qed.

(** An agent whose newest registration is one as delegate client: other nodes are told this node, which refuses their envelopes once the connection is gone, even
    if it relays its own to the client it knows from before. *)
Theorem C86_delegate_newest h1 c r h2 m v e o :
  run nowhere (h1 ++ MConnect c r :: h2) = Some m -> asked_about v m e o ->
  none registers h2 -> none restarts h2 ->
  en_record m = Some r /\ represents P r agent my_key /\
  (box_takes m = true -> others v m e = [InBox]) /\
  (forall c', box_takes m = false -> en_tcp m = Some c' -> c' = c /\ others v m e = [ToConn c]) /\
  (forall id, box_takes m = false -> en_tcp m = None -> en_relay m = Some id -> others v m e = [] /\ here v m e o = [ToClient id]) /\
  (en_box m = None -> en_tcp m = None -> en_relay m = None -> others v m e = [InQueue] /\ here v m e o = [InQueue]).
Proof.
  intros Hrun Ha Hn Hk. destruct (C86_here _ _ _ _ _ Hrun Ha) as (L1 & L2 & L3 & L4). destruct (others_cases _ _ _ _ _ Hrun Ha) as (O1 & O2 & O3).
  destruct (invariant _ _ Hrun) as (_ & _ & _ & I4 & _ & _).
  pose proof Hrun as Hrun'. rewrite run_app in Hrun'. destruct (run nowhere h1) as [m0|] eqn:H0; [|done].
  cbn [MoveModel.run MoveModel.step] in Hrun'. destruct (accepted r my_key) eqn:Hacc; [|done]. apply accepted_iff in Hacc.
  assert (r_peer_key r = my_key) as Hkey by apply Hacc.
  assert (en_record m = Some r /\ (en_tcp m = None \/ en_tcp m = Some c)) as (Hr & Ht).
  { set (ms := Entry (Some r) (en_relay m0) (Some c) (en_box m0) (en_file m0)) in *.
    assert (en_record ms = Some r /\ (en_tcp ms = None \/ en_tcp ms = Some c)) as Hms by (split; [done|by right]).
    clearbody ms. clear -Hrun' Hms Hn Hk. revert ms Hrun' Hms. induction h2 as [|x h2 IH]; intros ms Hrun (M1 & M2); [by injection Hrun as <-|].
    cbn [MoveModel.run] in Hrun. destruct (step ms x) as [m1|] eqn:Hs; [|done].
    apply IH with m1; [intros y Hy; apply Hn; by right|intros y Hy; apply Hk; by right|done|].
    pose proof (Hn x (or_introl eq_refl)) as Hx. pose proof (Hk x (or_introl eq_refl)) as Hx'.
    destruct x; cbn [MoveModel.step] in Hs; try done.
    - destruct (en_tcp ms); [|done]. injection Hs as <-. cbn. auto.
    - destruct (accepted r0 my_key); [|done]. by injection Hs as <-.
    - destruct (en_box ms); [|done]. by injection Hs as <-.
    - destruct (en_box ms) as [[r' n]|]; [|done]. destruct (n <? 1000); [|done]. by injection Hs as <-.
    - destruct (en_box ms) as [[r' [|n]]|]; try done. by injection Hs as <-. }
  assert (forall Q : Prop, (box_takes m = true \/ (exists c', en_tcp m = Some c') \/ (exists id, en_relay m = Some id)) ->
    (((box_takes m = true -> others v m e = [InBox]) /\
     (forall c, box_takes m = false -> en_tcp m = Some c -> others v m e = [ToConn c]) /\
     (box_takes m = false -> en_tcp m = None -> others v m e = [])) -> Q) -> Q) as Hin.
  { intros Q Hany HQ. apply HQ, O2. destruct (en_relay m) eqn:Er; [right; eauto|left]. split; [done|].
    destruct Hany as [Hb|[[c' Hc]|[? ?]]]; [left|right|done].
    - unfold box_takes in Hb. by destruct (en_box m).
    - by rewrite Hc. }
  split; [done|]. split; [done|]. split; [|split; [|split]].
  - intros Hb. apply Hin; [by left|]. by intros (H & _); apply H.
  - intros c' Hb Hc. assert (c' = c) as -> by (destruct Ht; congruence). split; [done|]. apply Hin; [right; left; eauto|]. intros (_ & H & _). by apply H.
  - intros id Hb Hc Hi. split; [|by apply L3]. apply Hin; [right; right; eauto|]. intros (_ & _ & H). by apply H.
  - intros Hb Hc Hi. split; [by apply O3|]. apply L4; [|done|done]. unfold box_takes. by rewrite Hb.
Qed.

(** After a start the agent is at the client of its last registration in the record file for everyone, or nowhere. *)
Theorem C86_restarted h0 h kept m v e o :
  run nowhere (h0 ++ h ++ [MRestart kept]) = Some m -> asked_about v m e o ->
  h0 = [] \/ (exists h0', h0 = h0' ++ [MRestart false]) -> none loses h ->
  here v m e o = others v m e /\
  others v m e = match last (if kept then concat (map saved_of h) else []) with
                 | Some r => match id_of_key (r_peer_key r) with Some id => [ToClient id] | None => [] end
                 | None => [InQueue]
                 end.
Proof.
  intros Hrun Ha H0 Hn. destruct (C86_here _ _ _ _ _ Hrun Ha) as (L1 & L2 & L3 & L4). destruct (others_cases _ _ _ _ _ Hrun Ha) as (O1 & _ & O3).
  rewrite app_assoc in Hrun. destruct (run_snoc _ _ _ _ Hrun) as (m2 & H2 & Hs). destruct (invariant _ _ H2) as (_ & I2 & _).
  rewrite run_app in H2. destruct (run nowhere h0) as [m0|] eqn:E0; [|done].
  assert (en_file m0 = []) as Hf0.
  { destruct H0 as [->|(h0' & ->)]; [by injection E0 as <-|]. destruct (run_snoc _ _ _ _ E0) as (mx & _ & Hx). by injection Hx as <-. }
  pose proof (file_after _ _ _ H2 Hn) as Hf. rewrite Hf0 in Hf. cbn [app] in Hf. rewrite <- Hf.
  cbn [MoveModel.step] in Hs. injection Hs as <-. unfold loaded_entry in *.
  destruct (last (if kept then en_file m2 else [])) as [r|] eqn:El.
  - destruct kept; [|done]. assert (In r (en_file m2)) as Hr by (by apply elem_of_list_In, last_Some_elem_of).
    destruct (I2 _ Hr) as (_ & Hk & Hid). destruct (id_of_key (r_peer_key r)) as [id|] eqn:Ei; [|done].
    rewrite (L3 id), (O1 id r) by done. done.
  - rewrite L4, O3 by done. done.
Qed.

(** Exactly when other nodes reach the agent where this one does. *)
Theorem C86_agree h m v e o :
  run nowhere h = Some m -> asked_about v m e o ->
  others v m e = here v m e o <->
  (if box_takes m || match en_tcp m with Some _ => true | None => false end
   then en_relay m = None \/ exists r, en_record m = Some r /\ r_peer_key r = my_key
   else (en_relay m = None /\ en_box m = None) \/ exists r, en_record m = Some r /\ en_relay m <> None /\ r_peer_key r <> my_key).
Proof.
  intros Hrun Ha. destruct (C86_here _ _ _ _ _ Hrun Ha) as (L1 & L2 & L3 & L4). destruct (others_cases _ _ _ _ _ Hrun Ha) as (O1 & O2 & O3).
  destruct (invariant _ _ Hrun) as (_ & _ & _ & I4 & _ & _). clear Hrun Ha.
  destruct (en_relay m) as [id|] eqn:Er.
  - destruct (en_record m) as [r|] eqn:Ere; [|exfalso; apply I4; [by left|done]].
    destruct (decide (r_peer_key r = my_key)) as [Hk|Hk].
    + destruct (O2 (or_intror (ex_intro _ r (conj eq_refl (conj (ltac:(done) : Some id <> None) Hk))))) as (P1 & P2 & P3).
      destruct (box_takes m) eqn:Eb; cbn [orb].
      * rewrite P1, L1 by done. naive_solver.
      * destruct (en_tcp m) as [c|] eqn:Et; [rewrite (P2 c), (L2 c) by done; naive_solver|]. rewrite P3, (L3 id) by done. naive_solver.
    + rewrite (O1 id r) by done. destruct (box_takes m) eqn:Eb; cbn [orb].
      * rewrite L1 by done. naive_solver.
      * destruct (en_tcp m) as [c|] eqn:Et; [rewrite (L2 c) by done; naive_solver|]. rewrite (L3 id) by done. naive_solver.
  - destruct (en_box m) as [[r n]|] eqn:Eb.
    + destruct (O2 (or_introl (conj eq_refl (or_introl (ltac:(done) : Some (r, n) <> None))))) as (P1 & P2 & P3).
      destruct (box_takes m) eqn:Ebt; cbn [orb]; [rewrite P1, L1 by done; naive_solver|].
      destruct (en_tcp m) as [c|] eqn:Et; [rewrite (P2 c), (L2 c) by done; naive_solver|]. rewrite P3, L4 by done. naive_solver.
    + assert (box_takes m = false) as Hbt by (unfold box_takes; by rewrite Eb). rewrite Hbt. cbn [orb].
      destruct (en_tcp m) as [c|] eqn:Et.
      * destruct (O2 (or_introl (conj eq_refl (or_intror (ltac:(done) : Some c <> None))))) as (P1 & P2 & P3).
        rewrite (P2 c), (L2 c) by done. naive_solver.
      * rewrite O3, L4 by done. naive_solver.
Qed.

(** What goes with an envelope that the agent sends through this node: a proof for this node exactly if the agent is registered with the mailbox or its newest record names this
    node; if not, every other node refuses the envelope. *)
Theorem C86_sender h m v e :
  run nowhere h = Some m -> v_my_addr v <> agent -> e_sender e = agent -> en_tcp m <> None \/ en_box m <> None ->
  exists r, envelope_record (subject_view v m) e = Ok (Some r) /\
    (represents P r agent my_key <-> en_box m <> None \/ exists r', en_record m = Some r' /\ r_peer_key r' = my_key).
Proof.
  intros Hrun Hv He Hany. destruct (invariant _ _ Hrun) as (I1 & I2 & I3 & I4 & I5 & I6).
  unfold envelope_record. cbn [subject_view v_my_addr v_mailbox v_box_sender v_box_record v_record andb].
  rewrite (proj2 (String.eqb_neq (e_sender e) (v_my_addr v))) by congruence.
  destruct (en_box m) as [[r n]|] eqn:Eb.
  - exists r. split; [done|]. split; [by left|]. intros _. by apply (I3 _ _ eq_refl).
  - destruct Hany as [Ht|?]; [|done]. destruct (en_record m) as [r|] eqn:Er; [|exfalso; apply I4; [by right|done]].
    exists r. split; [done|]. specialize (I1 _ eq_refl). split.
    + intros H. right. exists r. split; [done|apply H].
    + intros [?|(r' & [= <-] & Hk)]; [done|]. by rewrite Hk in I1.
Qed.
End Move.
Print Assumptions C86_connected.
Print Assumptions C86_boxed.
Print Assumptions C86_here.
Print Assumptions C86_never_relayed.
Print Assumptions C86_relay_newest.
Print Assumptions C86_delegate_newest.
Print Assumptions C86_restarted.
Print Assumptions C86_agree.
Print Assumptions C86_sender.

(** The node of the examples has the key "peer", the agent the address of [alice]: [alice] is its record for this node, [carol] its record for the node with the key "home". *)
Definition toy_entry (h : list event) : entry := default nowhere (run toy home_id "peer" (r_address alice) nowhere h).
Definition happens (h : list event) : bool := match run toy home_id "peer" (r_address alice) nowhere h with Some _ => true | None => false end.
Definition to_alice : envelope := env (r_address alice) (r_address bob) "hi".
Definition from_alice : envelope := env (r_address bob) (r_address alice) "hi".
Definition node_view : view := View "me" None true true false None false (Some bob) None None.
Definition all_well (m : entry) : outcome :=
  Outcome true (Ok tt) true (Ok tt) (en_relay m) node_view (Returns (Err "not found")) (StreamOutcome true true (Err "")) false.
Definition places (h : list event) : list dest * list dest :=
  let m := toy_entry h in (here node_view m to_alice (all_well m), others home_id "peer" (r_address alice) node_view m to_alice).

Lemma toy_asked h : asked_about (r_address alice) node_view (toy_entry h) to_alice (all_well (toy_entry h)).
Proof.
  split; [by vm_compute|]. split; [done|]. exists (Some bob). split; [done|].
  unfold well. cbn [all_well oc_write oc_peer oc_stream so_open so_write oc_found oc_closing oc_view2].
  split; [by vm_compute|]. split; [by vm_compute|]. do 4 (split; [done|]). split; [by eexists|]. split; [done|]. done.
Qed.

(** Agents can move to the mailbox of the node and be reached there: no, if they were clients of its relay. Other nodes are told the old client, and are told it still after the
    node was started again. Nor does a delegate client stay one for others if it also registers through the relay. *)
Theorem C86_refuted :
  ~ (forall h m v e o, run toy home_id "peer" (r_address alice) nowhere h = Some m -> asked_about (r_address alice) v m e o ->
       others home_id "peer" (r_address alice) v m e = here v m e o) /\
  (let h := [MRelay "home" "Qm2" carol true; MBox alice] in happens h = true /\ places h = ([InBox], [ToClient "Qm2"])) /\
  (let h := [MConnect 4 alice; MRelay "home" "Qm2" carol true] in happens h = true /\ places h = ([ToConn 4], [ToClient "Qm2"]) /\
     envelope_record (subject_view node_view (toy_entry h)) from_alice = Ok (Some carol) /\ r_peer_key carol <> "peer").
Proof.
  split.
  - intros H. pose (h := [MRelay "home" "Qm2" carol true; MBox alice]).
    assert (run toy home_id "peer" (r_address alice) nowhere h = Some (toy_entry h)) as Hr by (vm_compute; done).
    specialize (H h _ _ _ _ Hr (toy_asked h)). vm_compute in H. discriminate H.
  - split; [by vm_compute|]. cbv zeta. split; [by vm_compute|]. split; [by vm_compute|]. split; by vm_compute.
Qed.
Print Assumptions C86_refuted.

(** The agent registers through the relay, then connects as delegate client, goes, comes to the mailbox, and the node is started again. *)
Example C86_example :
  let h := [MRelay "home" "Qm2" carol true; MConnect 4 alice; MGone; MBox alice; MPut; MRestart true] in
  happens h = true /\
  places (take 1 h) = ([ToClient "Qm2"], [ToClient "Qm2"]) /\
  places (take 2 h) = ([ToConn 4], [ToConn 4]) /\
  places (take 3 h) = ([ToClient "Qm2"], []) /\
  places (take 5 h) = ([InBox], [InBox]) /\
  places h = ([ToClient "Qm2"], [ToClient "Qm2"]) /\
  places [MBox alice] = ([InBox], [InBox]) /\ places [] = ([InQueue], [InQueue]) /\
  happens [MBox carol] = false /\ happens [MRelay "peer" "Qm2" alice true] = false /\ happens [MConnect 4 bob] = false.
Proof. vm_compute. done. Qed.
