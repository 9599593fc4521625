(** C84: questions for the address of an agent that are passed on from node to node (AskModel.v). *)
From Coq Require Import ZArith NArith List String Ascii Lia.
From stdpp Require Import base tactics gmap list strings.
From Verif Require Import GoBase Bytes Utf8 WireModel ProtoModel WireProofs ProtoProofs ProtoProps CryptoModel PorModel
  CryptoProofs CryptoProps PorProps FrameModel FrameProofs FrameProps AcnModel DelegateModel DelegateProps
  RouteModel RouteProps PeerProps EndProps FindProps AskModel.
Open Scope string_scope.
Open Scope list_scope.
Open Scope nat_scope.

(** The tables a handler reads give record [r] for [a] (dhtpeer.go:1546-1592). *)
Definition has_record (a : string) (v : view) (r : record) : Prop :=
  a = v_my_addr v /\ v_my_record v = Some r \/
  a <> v_my_addr v /\ v_relay v <> None /\ v_record v = Some r \/
  a <> v_my_addr v /\ v_relay v = None /\ v_mailbox v = true /\ v_box_sender v = true /\ v_box_record v = Some r \/
  a <> v_my_addr v /\ v_relay v = None /\ (v_mailbox v = false \/ v_box_sender v = false) /\ v_delegate v <> None /\ v_record v = Some r.

(** Sizes a Go slice can have (needed to decode what was encoded). *)
Definition short (m : acn_perf) : Prop := forall b, encode_acn (Some m) = Some b -> (Z.of_nat (length b) < 2 ^ 63)%Z.

Definition event_ok (e : event) : Prop :=
  match e with
  | EProvider p _ v => p <> "" /\ forall r, v_my_record v = Some r \/ v_record v = Some r \/ v_box_record v = Some r -> short (PLookupResponse (Some r))
  | EEnd _ => True
  end.

Section Ask.
Context (P : prims) (id_of_key : string -> option string) (a : string).
Notation step := (step P id_of_key a).
Notation run := (run P id_of_key a).
Notation back := (back P id_of_key a).
Notation handled := (handled a).
Notation try := (try_providers P id_of_key a "" false).

Definition sendable : Prop := exists q, encode_acn (Some (PLookupRequest a)) = Some q /\ (Z.of_nat (length q) < 2 ^ 63)%Z.
Hypothesis Hsend : sendable.

(** ** What a handler answers *)

Definition local (v : view) (x : option record) : Prop := forall found, address_request v a true found = Returns (Ok x).

Lemma request_cases v :
  (stranger a v /\ forall found, address_request v a true found =
     match found with Hangs => Hangs | Returns (Panic p) => Returns (Panic p) | Returns (Err _) => Returns (Ok None) | Returns (Ok (_, rec)) => Returns (Ok rec) end) \/
  (~ stranger a v /\ ((local v None /\ forall r, ~ has_record a v r) \/ exists r, local v (Some r) /\ has_record a v r)).
Proof.
  unfold local, address_request, stranger. destruct (String.eqb_spec a (v_my_addr v)) as [He|He].
  { right. split; [intros [H _]; congruence|]. destruct (v_my_record v) as [r|] eqn:E; [right; exists r; split; [done|left; by split]|].
    left. split; [done|]. unfold has_record. intros r [[_ ?]|[(? & _)|[(? & _)|(? & _)]]]; congruence. }
  destruct (v_relay v) as [i|] eqn:Er.
  { right. split; [by intros (_ & ? & _)|]. destruct (v_record v) as [r|] eqn:E.
    - right. exists r. split; [done|]. right; left. by rewrite Er, E.
    - left. split; [done|]. unfold has_record. rewrite Er, E. intros r [[? _]|[(_ & _ & ?)|[(_ & ? & _)|(_ & ? & _)]]]; congruence. }
  destruct (v_mailbox v && v_box_sender v) eqn:Eb.
  { apply andb_true_iff in Eb as [E1 E2]. right. split; [intros (_ & _ & [?|?] & _); congruence|].
    destruct (v_box_record v) as [r|] eqn:E.
    - right. exists r. split; [done|]. right; right; left. by rewrite Er, E1, E2, E.
    - left. split; [done|]. unfold has_record. rewrite Er, E, E1, E2. intros r [[? _]|[(_ & ? & _)|[(_ & _ & _ & _ & ?)|(_ & _ & [?|?] & _)]]]; congruence. }
  assert (v_mailbox v = false \/ v_box_sender v = false) as Hb by (apply andb_false_iff in Eb; exact Eb).
  destruct (v_delegate v) as [c|] eqn:Ed.
  - right. split; [by intros (_ & _ & _ & ?)|]. destruct (v_record v) as [r|] eqn:E.
    + right. exists r. split; [done|]. right; right; right. rewrite Er, Ed, E. done.
    + left. split; [done|]. unfold has_record. rewrite Er, Ed, E. intros r [[? _]|[(_ & ? & _)|[(_ & _ & ? & ? & _)|(_ & _ & _ & _ & ?)]]]; try congruence. destruct Hb; congruence.
  - left. split; [|done]. split; [congruence|]. done.
Qed.

(** The reply that carries record [r], and the one that says that the agent is unknown. *)
Definition carries (reply : res bytes) (r : record) : Prop :=
  exists b, encode_acn (Some (PLookupResponse (Some r))) = Some b /\ reply = Ok b.
Definition refused : bytes := default [] (encode_acn (Some (acn_error ERROR_UNKNOWN_AGENT_ADDRESS "unknown agent address"))).
Definition refusal : res bytes := Ok refused.

Lemma handled_eq v found :
  handled v found =
  match address_request v a true found with
  | Hangs => Hangs
  | Returns (Panic x) => Returns (Panic x)
  | Returns (Err x) => Returns (Err "closed")
  | Returns (Ok None) => Returns refusal
  | Returns (Ok (Some r)) =>
      match encode_acn (Some (PLookupResponse (Some r))) with Some b => Returns (Ok b) | None => Returns (Err "closed") end
  end.
Proof.
  destruct Hsend as (q & Hq & Hl). unfold AskModel.handled. rewrite Hq. unfold address_stream, read_lookup_request.
  rewrite (proj2 (C23_acn (Some (PLookupRequest a))) q Hq Hl I). cbn [app].
  destruct (address_request v a true found) as [[[r|]|x|x]|]; try done.
Qed.

Lemma refusal_useless p : useless P a (Provider p true refusal).
Proof.
  assert (decode_acn refused = Some (Some (acn_error ERROR_UNKNOWN_AGENT_ADDRESS "unknown agent address"))) as Hd by (vm_compute; reflexivity).
  assert (forall b, pv_reply (Provider p true refusal) = Ok b -> b = refused) as Hb by (intros b H; change (Ok refused = Ok b) in H; congruence).
  split.
  - intros r (_ & (b & H & Hx) & _). rewrite (Hb b H), Hd in Hx. done.
  - intros (_ & b & H & Hx). rewrite (Hb b H), Hd in Hx. destruct Hx as [?|[?|(r & ? & _)]]; done.
Qed.

Lemma err_useless p x : useless P a (Provider p true (Err x)).
Proof.
  split.
  - intros r (_ & (b & Hb & _) & _). done.
  - intros (_ & b & Hb & _). done.
Qed.

Lemma closed_useless p x : useless P a (Provider p false x).
Proof. split; [by intros r (? & _)|by intros (? & _)]. Qed.

Definition calm (p : provider) : Prop := pv_id p <> "" /\ (forall x, pv_reply p <> Panic x) /\ useless P a p.

Lemma calm_skip ps : Forall calm ps -> Forall (fun p => (forall x, pv_reply p <> Panic x) /\ useless P a p) ps.
Proof. intros H. eapply Forall_impl; [exact H|]. by intros p [_ ?]. Qed.

Lemma try_calm ps : Forall calm ps -> exists id f, try ps = LEnd id f /\ (ps = [] -> id = "" /\ f = false) /\
  (forall q, last ps = Some q -> id = pv_id q /\ f = negb (pv_open q)).
Proof.
  intros H. pose proof (try_skip P id_of_key a "" false ps [] (calm_skip ps H)) as E. rewrite app_nil_r in E. rewrite E.
  destruct (last ps) as [q|] eqn:El; cbn; eexists _, _; (split; [reflexivity|]); split; auto; try done.
  - intros ->. done.
  - intros q' H'. by injection H' as ->.
Qed.

Lemma try_snoc ps p : Forall calm ps ->
  exists id f, try (ps ++ [p]) = try_providers P id_of_key a id f [p].
Proof. intros H. rewrite (try_skip P id_of_key a "" false ps [p] (calm_skip ps H)). destruct (last ps) as [q|]; eauto. Qed.

(** The calls that wait: all but the first come from handlers of strangers; what was seen did not help. *)
Inductive chain : list frame -> Prop :=
| ChainOne w ps : Forall calm ps -> chain [Frame w None ps]
| ChainMore w v ps f fs : w <> "" -> Forall calm ps -> stranger a v -> chain (f :: fs) -> chain (Frame w (Some v) ps :: f :: fs).

Lemma chain_seen f fs : chain (f :: fs) -> Forall calm (f_seen f).
Proof. by inversion 1. Qed.

Lemma chain_see f fs p : chain (f :: fs) -> calm p -> chain (Frame (f_node f) (f_for f) (f_seen f ++ [p]) :: fs).
Proof.
  intros H Hp. inversion H as [w ps Hc|w v ps g gs Hw Hc Hs Hch]; subst; cbn; constructor; auto; apply Forall_app; auto.
Qed.

(** A useless answer. *)
Lemma back_useless f fs p reply :
  chain (f :: fs) -> calm (Provider p true reply) ->
  back (f :: fs) p reply = Asking (Frame (f_node f) (f_for f) (f_seen f ++ [Provider p true reply]) :: fs).
Proof.
  intros Hc Hp. cbn [AskModel.back].
  destruct (try_calm (f_seen f ++ [Provider p true reply])) as (id & g & -> & _); [|done].
  apply Forall_app. split; [by apply chain_seen in Hc|auto].
Qed.

(** An answer that helps goes through to the first call. *)
Lemma back_gives fs p b r id :
  chain fs -> encode_acn (Some (PLookupResponse (Some r))) = Some b -> (Z.of_nat (length b) < 2 ^ 63)%Z ->
  represents P r a (r_peer_key r) -> id_of_key (r_peer_key r) = Some id ->
  back fs p (Ok b) = Done (Ok (id, Some r)).
Proof.
  intros Hc Hb Hl Hr Hid. revert p. induction Hc as [w ps Hps|w v ps f fs Hw Hps Hv Hc IH]; intros p.
  all: assert (gives P a (Provider p true (Ok b)) r) as Hg
    by (split; [done|]; split; [|done]; exists b; split; [done|]; by apply (proj2 (C23_acn (Some (PLookupResponse (Some r)))))).
  all: cbn [AskModel.back f_seen f_for f_node].
  all: destruct (try_snoc ps (Provider p true (Ok b)) Hps) as (i & g & ->); rewrite (try_cons_gives P id_of_key a i g _ [] r Hg), Hid. { done. }
  rewrite handled_eq. destruct (request_cases v) as [[_ ->]|[Hn _]]; [|done]. rewrite Hb. apply IH.
Qed.

(** A record of a node whose key has no peer id. *)
Lemma back_nokey f fs p b r :
  chain (f :: fs) -> encode_acn (Some (PLookupResponse (Some r))) = Some b -> (Z.of_nat (length b) < 2 ^ 63)%Z ->
  represents P r a (r_peer_key r) -> id_of_key (r_peer_key r) = None ->
  match fs with
  | [] => back (f :: fs) p (Ok b) = Done (Err "couldn't get peer ID from message")
  | g :: below => f_node f <> "" -> exists reply, calm (Provider (f_node f) true reply) /\
      back (f :: fs) p (Ok b) = Asking (Frame (f_node g) (f_for g) (f_seen g ++ [Provider (f_node f) true reply]) :: below)
  end.
Proof.
  intros Hc Hb Hl Hr Hid.
  assert (gives P a (Provider p true (Ok b)) r) as Hg
    by (split; [done|]; split; [|done]; exists b; split; [done|]; by apply (proj2 (C23_acn (Some (PLookupResponse (Some r)))))).
  cbn [AskModel.back]. destruct (try_snoc (f_seen f) (Provider p true (Ok b)) (chain_seen _ _ Hc)) as (i & x & ->).
  rewrite (try_cons_gives P id_of_key a i x _ [] r Hg), Hid. inversion Hc as [w ps Hps|w v ps g gs Hw Hps Hv Hch]; subst; cbn [f_for f_node].
  - done.
  - rewrite handled_eq. destruct (request_cases v) as [[_ ->]|[Hn _]]; [|done]. intros _. exists refusal.
    assert (calm (Provider w true refusal)) as Hcalm by (split; [done|]; split; [done|apply refusal_useless]). split; [done|]. by apply back_useless.
Qed.

Lemma back_crashes f fs p reply : chain (f :: fs) -> crashes P a (Provider p true reply) -> back (f :: fs) p reply = Down (f_node f).
Proof.
  intros Hc Hp. cbn [AskModel.back]. destruct (try_snoc (f_seen f) (Provider p true reply) (chain_seen _ _ Hc)) as (i & x & ->).
  by destruct (try_cons_crashes P id_of_key a i x _ [] Hp) as [y ->].
Qed.

(** The innermost call ends without result. *)
Lemma returns_none f fs x :
  chain (f :: fs) -> (exists e, x = Err e) \/ x = Ok ("", None) ->
  match fs with
  | [] => returns P id_of_key a f fs x = Done x
  | g :: below => f_node f <> "" -> exists reply, calm (Provider (f_node f) true reply) /\
      returns P id_of_key a f fs x = Asking (Frame (f_node g) (f_for g) (f_seen g ++ [Provider (f_node f) true reply]) :: below)
  end.
Proof.
  intros Hc Hx. unfold returns. inversion Hc as [w ps Hps|w v ps g gs Hw Hps Hv Hch]; subst; cbn [f_for f_node].
  - destruct Hx as [[e ->] | ->]; done.
  - assert (handled v (Returns x) = Returns refusal) as E.
    { rewrite handled_eq. destruct (request_cases v) as [[_ ->]|[Hn _]]; [|done]. destruct Hx as [[e ->] | ->]; done. }
    assert (calm (Provider w true refusal)) as Hcalm by (split; [done|]; split; [done|apply refusal_useless]).
    intros _. exists refusal. split; [done|]. destruct Hx as [[e ->] | ->]; rewrite E; by apply back_useless.
Qed.

Definition see (f : frame) (p : provider) : frame := Frame (f_node f) (f_for f) (f_seen f ++ [p]).

(** What one event comes to. *)
Lemma step_cases f fs e s :
  chain (f :: fs) -> event_ok e -> step (Asking (f :: fs)) e = Some s ->
  (exists p o v q, e = EProvider p o v /\ ~ (o = true /\ stranger a v) /\ s = Asking (see f q :: fs) /\ calm q) \/
  (exists p v, e = EProvider p true v /\ stranger a v /\ s = Asking (Frame p (Some v) [] :: f :: fs)) \/
  (exists g below q, fs = g :: below /\ s = Asking (see g q :: below) /\ calm q) \/
  (e = EEnd false /\ f_seen f = [] /\ s = Asking (f :: fs)) \/
  (exists p v r b, e = EProvider p true v /\ has_record a v r /\ encode_acn (Some (PLookupResponse (Some r))) = Some b /\
     is_panic (is_valid_por P r a (r_peer_key r)) = true /\ s = Down (f_node f)) \/
  (fs = [] /\ exists x, s = Done x /\ ((exists y, x = Err y) \/ x = Ok ("", None))) \/
  (exists p v r id, e = EProvider p true v /\ has_record a v r /\ represents P r a (r_peer_key r) /\
     id_of_key (r_peer_key r) = Some id /\ s = Done (Ok (id, Some r))).
Proof.
  intros Hc He Hs.
  assert (forall g below, fs = g :: below -> f_node f <> "") as Hfn.
  { intros g below ->. by inversion Hc. }
  destruct e as [p [] v|d]; cbn [AskModel.step] in Hs.
  - rewrite handled_eq in Hs. destruct (request_cases v) as [[Hv Er]|[Hns [[Hl _]|(r & Hl & Hr)]]].
    + rewrite Er in Hs. injection Hs as <-. right; left. eauto.
    + rewrite (Hl Hangs) in Hs. assert (s = back (f :: fs) p refusal) as -> by congruence.
      left. exists p, true, v, (Provider p true refusal). split; [done|]. split; [by intros [_ ?]|].
      assert (calm (Provider p true refusal)) as Hcalm by (split; [apply He|]; split; [done|apply refusal_useless]).
      by rewrite (back_useless _ _ _ _ Hc Hcalm).
    + rewrite (Hl Hangs) in Hs.
      assert (short (PLookupResponse (Some r))) as Hsh. { apply He. destruct Hr as [(_ & ?)|[(_ & _ & ?)|[(_ & _ & _ & _ & ?)|(_ & _ & _ & _ & ?)]]]; auto. }
      destruct (encode_acn (Some (PLookupResponse (Some r)))) as [b|] eqn:Eb.
      2:{ assert (s = back (f :: fs) p (Err "closed")) as -> by congruence. left.
          exists p, true, v, (Provider p true (Err "closed")). split; [done|]. split; [by intros [_ ?]|].
          assert (calm (Provider p true (Err "closed"))) as Hcalm by (split; [apply He|]; split; [done|apply err_useless]).
          by rewrite (back_useless _ _ _ _ Hc Hcalm). }
      specialize (Hsh b Eb). assert (s = back (f :: fs) p (Ok b)) as -> by congruence.
      destruct (provider_cases P a (Provider p true (Ok b))) as [Hu|[Hx|(r' & Hg)]]; [done|..].
      * left. exists p, true, v, (Provider p true (Ok b)). split; [done|]. split; [by intros [_ ?]|].
        assert (calm (Provider p true (Ok b))) as Hcalm by (split; [apply He|]; by split).
        by rewrite (back_useless _ _ _ _ Hc Hcalm).
      * do 4 right; left. exists p, v, r, b. split; [done|]. split; [done|]. split; [done|]. split; [|by apply back_crashes].
        destruct Hx as (_ & b' & Hb' & Hx). cbn in Hb'. injection Hb' as <-.
        rewrite (proj2 (C23_acn (Some (PLookupResponse (Some r)))) b Eb Hsh I) in Hx. destruct Hx as [?|[?|(r' & E & H)]]; [done..|]. by injection E as <-.
      * assert (r' = r) as ->.
        { destruct Hg as (_ & (b' & Hb' & Hd) & _). cbn in Hb'. injection Hb' as <-.
          rewrite (proj2 (C23_acn (Some (PLookupResponse (Some r)))) b Eb Hsh I) in Hd. by injection Hd. }
        destruct Hg as (_ & _ & Hrep). destruct (id_of_key (r_peer_key r)) as [id|] eqn:Eid.
        -- do 6 right. exists p, v, r, id. do 4 (split; [done|]). by apply back_gives.
        -- pose proof (back_nokey f fs p b r Hc Eb Hsh Hrep Eid) as H. destruct fs as [|g below].
           ++ do 5 right; left. split; [done|]. eexists. split; [exact H|]. eauto.
           ++ destruct (H (Hfn g below eq_refl)) as (reply & Hcalm & ->). right; right; left. by eexists g, below, _.
  - injection Hs as <-. left. exists p, false, v, (Provider p false (Err "")). split; [done|]. split; [by intros [? _]|]. split; [done|].
    split; [apply He|]. split; [done|apply closed_useless].
  - unfold lookup_dht in Hs. cbn [lookup_rounds rd_providers rd_deadline] in Hs.
    pose proof (chain_seen _ _ Hc) as Hse.
    destruct (try_calm (f_seen f) Hse) as (id & g & Et & _ & Hid). rewrite Et in Hs.
    assert (id = "" -> f_seen f = []) as Hemp.
    { intros ->. destruct (f_seen f) as [|q ps _] using rev_ind; [done|]. rewrite last_snoc in Hid. destruct (Hid q eq_refl) as [Hq _].
      apply Forall_app in Hse as [_ Hse]. apply Forall_singleton in Hse as [Hq' _]. congruence. }
    assert (forall x, (exists y, x = Err y) \/ x = Ok ("", None) -> returns P id_of_key a f fs x = s ->
      (exists g below q, fs = g :: below /\ s = Asking (see g q :: below) /\ calm q) \/
      (fs = [] /\ exists x, s = Done x /\ ((exists y, x = Err y) \/ x = Ok ("", None)))) as Hret.
    { intros x Hx <-. pose proof (returns_none f fs x Hc Hx) as H. destruct fs as [|h below].
      - right. split; [done|]. eauto.
      - destruct (H (Hfn h below eq_refl)) as (reply & Hcalm & ->). left. by eexists h, below, _. }
    destruct (String.eqb_spec id "") as [->|]; [destruct d|destruct g].
    2:{ injection Hs as <-. do 3 right; left. auto. }
    all: match type of Hs with Some (returns _ _ _ _ _ ?x) = _ => assert (returns P id_of_key a f fs x = s) as Hs' by congruence end.
    all: apply Hret in Hs'; eauto; destruct Hs' as [?|?]; auto 8.
Qed.

Lemma step_chain f fs e gs :
  chain (f :: fs) -> event_ok e -> step (Asking (f :: fs)) e = Some (Asking gs) -> exists g below, gs = g :: below /\ chain gs.
Proof.
  intros Hc He Hs. destruct (step_cases f fs e _ Hc He Hs) as [(p & o & v & q & _ & _ & E & Hq)|[(p & v & -> & Hv & E)|[(g & below & q & -> & E & Hq)|[(_ & _ & E)|[(p & v & r & b & _ & _ & _ & _ & E)|[(_ & x & E & _)|(p & v & r & id & _ & _ & _ & _ & E)]]]]]]; try done; injection E as ->.
  - eexists _, _. split; [done|]. by apply chain_see.
  - eexists _, _. split; [done|]. constructor; auto. apply He.
  - eexists _, _. split; [done|]. apply chain_see; [|done]. by inversion Hc.
  - eauto.
Qed.

(** Sequences of events in which each is one that [may] happen to the innermost call. *)
Inductive path (may : frame -> event -> Prop) (w : string) : list event -> state -> Prop :=
| PathNil : path may w [] (ask w)
| PathSnoc es f fs e s : path may w es (Asking (f :: fs)) -> event_ok e -> may f e -> step (Asking (f :: fs)) e = Some s -> path may w (es ++ [e]) s.

Lemma path_chain may w es s : path may w es s -> forall fs, s = Asking fs -> exists f below, fs = f :: below /\ chain fs.
Proof.
  induction 1 as [|es f fs e s Hp IH He Hm Hs]; intros gs E.
  - injection E as <-. eexists _, _. split; [done|]. constructor. constructor.
  - subst s. destruct (IH _ eq_refl) as (f' & below & Ef & Hc). eapply step_chain; eauto.
Qed.

Lemma request_record v r found : has_record a v r -> address_request v a true found = Returns (Ok (Some r)).
Proof.
  intros Hr. destruct (request_cases v) as [[(H1 & H2 & H3 & H4) _]|[_ [[_ Hn]|(r' & Hl & Hr')]]].
  - exfalso. destruct Hr as [(? & ?)|[(_ & ? & ?)|[(_ & _ & ? & ? & ?)|(_ & _ & _ & ? & ?)]]]; try congruence. destruct H3; congruence.
  - by destruct (Hn r).
  - rewrite Hl. do 3 f_equal.
    destruct Hr as [(? & ?)|[(? & ? & ?)|[(? & ? & ? & ? & ?)|(? & ? & ? & ? & ?)]]], Hr' as [(? & ?)|[(? & ? & ?)|[(? & ? & ? & ? & ?)|(? & ? & ? & ? & ?)]]]; try congruence;
      destruct_or?; congruence.
Qed.

Lemma event_short p v r : event_ok (EProvider p true v) -> has_record a v r -> short (PLookupResponse (Some r)).
Proof. intros He Hr. apply He. destruct Hr as [(_ & ?)|[(_ & _ & ?)|[(_ & _ & _ & _ & ?)|(_ & _ & _ & _ & ?)]]]; auto. Qed.

Lemma step_found f fs p v r b id :
  chain (f :: fs) -> event_ok (EProvider p true v) -> has_record a v r ->
  encode_acn (Some (PLookupResponse (Some r))) = Some b -> represents P r a (r_peer_key r) -> id_of_key (r_peer_key r) = Some id ->
  step (Asking (f :: fs)) (EProvider p true v) = Some (Done (Ok (id, Some r))).
Proof.
  intros Hc He Hr Hb Hrep Hid. cbn [AskModel.step]. rewrite handled_eq, (request_record v r _ Hr), Hb. f_equal.
  apply back_gives; auto. by apply (event_short p v r He Hr).
Qed.

Definition anything (f : frame) (e : event) : Prop := True.

(** * The theorems *)

(** Whatever node asks and however far the question was passed on: as soon as one node is asked that has a
    record for the address with a proof, all calls return at once and the first has the peer and the record. *)
Theorem C84_found w es fs p v r id b :
  path anything w es (Asking fs) -> event_ok (EProvider p true v) -> has_record a v r ->
  encode_acn (Some (PLookupResponse (Some r))) = Some b -> represents P r a (r_peer_key r) -> id_of_key (r_peer_key r) = Some id ->
  step (Asking fs) (EProvider p true v) = Some (Done (Ok (id, Some r))).
Proof.
  intros Hp He Hr Hb Hrep Hid. destruct (path_chain _ _ _ _ Hp fs eq_refl) as (f & below & -> & Hc).
  by eapply step_found.
Qed.

(** And it is found in no other way: the last node asked has the record, with a proof; in all other cases a question that ends
    comes to nothing. *)
Theorem C84_sound w es x :
  path anything w es (Done x) ->
  (exists y, x = Err y) \/ x = Ok ("", None) \/
  exists es' p v r id, es = es' ++ [EProvider p true v] /\ has_record a v r /\ represents P r a (r_peer_key r) /\
    id_of_key (r_peer_key r) = Some id /\ x = Ok (id, Some r).
Proof.
  intros Hp. inversion Hp as [|es' f fs e s Hp' He _ Hs]; subst. destruct (path_chain _ _ _ _ Hp' _ eq_refl) as (f' & below & Ef & Hc).
  destruct (step_cases f fs e _ Hc He Hs) as [(p & o & v & q & _ & _ & E & Hq)|[(p & v & -> & Hv & E)|[(g & below' & q & -> & E & Hq)|[(_ & _ & E)|[(p & v & r & b & _ & _ & _ & _ & E)|[(_ & y & E & Hx)|(p & v & r & id & -> & H1 & H2 & H3 & E)]]]]]]; try done; injection E as ->.
  - destruct Hx; auto.
  - right; right. by exists es', p, v, r, id.
Qed.

(** A node crashes exactly if it is the innermost that asks and the node it asks has a record whose check crashes (C30 says which those are). *)
Theorem C84_crash w es f fs e x :
  path anything w es (Asking (f :: fs)) -> event_ok e ->
  step (Asking (f :: fs)) e = Some (Down x) <->
  x = f_node f /\ exists p v r b, e = EProvider p true v /\ has_record a v r /\ encode_acn (Some (PLookupResponse (Some r))) = Some b /\
    is_panic (is_valid_por P r a (r_peer_key r)) = true.
Proof.
  intros Hp He. destruct (path_chain _ _ _ _ Hp _ eq_refl) as (f' & below & Ef & Hc). injection Ef as <- <-. split.
  - intros Hs. destruct (step_cases f fs e _ Hc He Hs) as [(p & o & v & q & _ & _ & E & Hq)|[(p & v & -> & Hv & E)|[(g & below' & q & -> & E & Hq)|[(_ & _ & E)|[(p & v & r & b & H1 & H2 & H3 & H4 & E)|[(_ & y & E & Hx)|(p & v & r & id & -> & H1 & H2 & H3 & E)]]]]]]; try done.
    injection E as ->. split; [done|]. by exists p, v, r, b.
  - intros (-> & p & v & r & b & -> & Hr & Hb & Hpan). cbn [AskModel.step]. rewrite handled_eq, (request_record v r _ Hr), Hb. f_equal.
    apply back_crashes; [done|]. split; [done|]. exists b. split; [done|]. right; right. exists r. split; [|done].
    apply (proj2 (C23_acn (Some (PLookupResponse (Some r))))); [done| |done]. by apply (event_short p v r He Hr).
Qed.

(** A question ends if it is only passed on to nodes of lower rank and every call tries at most [k] providers: after at most
    as many events as the rank of the first node allows. *)
Fixpoint cost (k r : nat) : nat := k * (1 + match r with 0 => 0 | S r' => cost k r' end) + 1.

Definition ranked (rank : string -> nat) (k : nat) (f : frame) (e : event) : Prop :=
  match e with
  | EProvider p o v => length (f_seen f) < k /\ (o = true -> stranger a v -> rank p < rank (f_node f))
  | EEnd d => d = true \/ f_seen f <> []
  end.

Definition share (k r : nat) : nat := 1 + match r with 0 => 0 | S r' => cost k r' end.

Lemma cost_eq k r : cost k r = k * share k r + 1.
Proof. by destruct r. Qed.

Lemma cost_mono k r r' : r <= r' -> cost k r <= cost k r'.
Proof.
  induction 1 as [|r' Hle IH]; [done|]. etransitivity; [exact IH|]. clear. rewrite !cost_eq. apply Nat.add_le_mono_r, Nat.mul_le_mono_l.
  induction r' as [|r' IH]; unfold share; [lia|]. apply le_n_S. rewrite !cost_eq. apply Nat.add_le_mono_r, Nat.mul_le_mono_l. exact IH.
Qed.

Definition top_cost (rank : string -> nat) (k : nat) (f : frame) : nat := (k - length (f_seen f)) * share k (rank (f_node f)) + 1.
Definition wait_cost (rank : string -> nat) (k : nat) (f : frame) : nat := (k - S (length (f_seen f))) * share k (rank (f_node f)) + 1.
Definition stack_cost (rank : string -> nat) (k : nat) (fs : list frame) : nat :=
  match fs with [] => 0 | f :: below => top_cost rank k f + list_sum (map (wait_cost rank k) below) end.

Lemma top_see rank k f q : top_cost rank k (see f q) = wait_cost rank k f.
Proof. unfold top_cost, wait_cost, see. cbn [f_seen f_node]. rewrite app_length. cbn [length]. by rewrite (Nat.add_1_r (length (f_seen f))). Qed.

Lemma wait_top rank k f : length (f_seen f) < k -> wait_cost rank k f + share k (rank (f_node f)) = top_cost rank k f.
Proof.
  intros H. unfold wait_cost, top_cost. replace (k - length (f_seen f)) with (S (k - S (length (f_seen f)))) by lia. cbn [Nat.mul]. lia.
Qed.

Theorem C84_ranked rank k w es s : path (ranked rank k) w es s -> length es <= cost k (rank w).
Proof.
  intros Hp. assert (match s with Asking fs => length es + stack_cost rank k fs <= cost k (rank w) | _ => length es <= cost k (rank w) end) as H; [|destruct s; lia].
  induction Hp as [|es f fs e s Hp IH He Hm Hs].
  - cbn [ask stack_cost map length]. unfold top_cost. cbn [f_seen f_node length list_sum fold_right]. rewrite cost_eq, Nat.sub_0_r. change (list_sum []) with 0. lia.
  - destruct (path_chain _ _ _ _ Hp _ eq_refl) as (f' & below & Ef & Hc). rewrite app_length. cbn [length stack_cost] in *.
    assert (1 <= top_cost rank k f) as Hone by (unfold top_cost; rewrite Nat.add_1_r; apply le_n_S, Nat.le_0_l).
    destruct (step_cases f fs e _ Hc He Hs) as [(p & o & v & q & -> & Hn & -> & Hq)|[(p & v & -> & Hv & ->)|[(g & below' & q & -> & -> & Hq)|[(-> & Hem & ->)|[(p & v & r & b & _ & _ & _ & _ & ->)|[(_ & y & -> & Hx)|(p & v & r & id & -> & H1 & H2 & H3 & ->)]]]]]]; try lia.
    + destruct Hm as [Hm _]. cbn [stack_cost]. rewrite top_see. pose proof (wait_top rank k f Hm). unfold share in *. lia.
    + destruct Hm as [Hm Hr]. specialize (Hr eq_refl Hv). cbn [stack_cost map list_sum]. change (list_sum (wait_cost rank k f :: map (wait_cost rank k) fs)) with (wait_cost rank k f + list_sum (map (wait_cost rank k) fs)).
      pose proof (wait_top rank k f Hm) as H.
      assert (top_cost rank k (Frame p (Some v) []) = cost k (rank p)) as -> by (unfold top_cost; cbn; by rewrite cost_eq, Nat.sub_0_r).
      destruct (rank (f_node f)) as [|r] eqn:Er; [exfalso; lia|]. assert (cost k (rank p) <= cost k r) by (apply cost_mono; lia). unfold share in H. lia.
    + cbn [stack_cost map]. rewrite top_see. change (list_sum (map (wait_cost rank k) (g :: below'))) with (wait_cost rank k g + list_sum (map (wait_cost rank k) below')) in IH. lia.
    + destruct Hm as [?|?]; done.
Qed.

(** ** Nodes that all run this program, with settled tables

    [order w]: the providers the DHT yields at node [w], in order; [home p]: the record node [p] has for the address, if it is not a
    stranger to it. A node cannot open a stream to itself (go-libp2p does not dial itself) and can to all others. Rounds without any provider before the
    deadline (they are repeated) are left out. *)
Section Settled.
Context (order : string -> list string) (home : string -> option record).

Definition follows (f : frame) (e : event) : Prop :=
  match e with
  | EProvider p o v =>
      order (f_node f) !! length (f_seen f) = Some p /\ o = negb (String.eqb p (f_node f)) /\
      match home p with Some r => has_record a v r | None => stranger a v end
  | EEnd d => length (order (f_node f)) <= length (f_seen f) /\ (f_seen f = [] -> d = true)
  end.

Lemma step_push f fs p v : stranger a v -> step (Asking (f :: fs)) (EProvider p true v) = Some (Asking (Frame p (Some v) [] :: f :: fs)).
Proof. intros Hv. cbn [AskModel.step]. rewrite handled_eq. destruct (request_cases v) as [[_ ->]|[Hn _]]; done. Qed.

Fixpoint seens (fs : list frame) : nat := match fs with [] => 0 | f :: fs' => length (f_seen f) + seens fs' end.

Lemma seens_le fs : Forall (fun f => length (f_seen f) <= 1) fs -> seens fs <= length fs.
Proof. induction 1; cbn; lia. Qed.

(** At node [w] the first provider that is not [w] itself is [p]. *)
Definition first_other (w p : string) : Prop := p <> w /\ exists rest, order w = p :: rest \/ order w = w :: p :: rest.

(** Each of some nodes asks another of them first and none of them knows the address: a question to one of them never comes to an end and
    more and more calls wait. *)
Theorem C84_loop (among : string -> Prop) :
  (forall w, among w -> home w = None /\ w <> "" /\ exists p, first_other w p /\ among p) ->
  (exists v, stranger a v /\ event_ok (EProvider "p" true v)) ->
  forall w, among w ->
  (forall es s, path follows w es s -> exists fs, s = Asking fs /\ length es + 1 <= 2 * length fs) /\
  (forall n, exists es s, path follows w es s /\ length es = n).
Proof.
  intros Ha (v0 & Hv0 & Hv0ok) w Hw.
  set (I := fun f : frame => among (f_node f) /\ (f_seen f = [] \/ length (f_seen f) = 1 /\ exists p rest, order (f_node f) = f_node f :: p :: rest /\ p <> f_node f /\ among p)).
  assert (forall f, I f -> exists q, order (f_node f) !! length (f_seen f) = Some q /\ among q /\
    (q = f_node f /\ f_seen f = [] /\ (exists p rest, order (f_node f) = f_node f :: p :: rest /\ p <> f_node f /\ among p) \/ q <> f_node f)) as HI.
  { intros f [Hf [Es|(El & p & rest & Ho & Hp & Hpa)]].
    - destruct (Ha _ Hf) as (_ & _ & p & (Hpf & rest & Ho) & Hp). rewrite Es. cbn [length]. destruct Ho as [Ho|Ho]; rewrite Ho; cbn; eexists; (split; [reflexivity|]).
      + auto.
      + split; [done|]. left. split; [done|]. split; [done|]. eauto.
    - exists p. rewrite El, Ho. auto. }
  assert (forall es s, path follows w es s -> exists fs, s = Asking fs /\ Forall I fs /\ length es + 1 = seens fs + length fs /\ seens fs <= length fs) as Hinv.
  { induction 1 as [|es f fs e s Hp IH He Hm Hs].
    - eexists. split; [reflexivity|]. split; [|cbn; lia]. constructor; [|constructor]. split; [done|by left].
    - destruct IH as (gs & E & HF & Hlen & Hsm). injection E as <-. apply Forall_cons in HF as [Hf HF].
      destruct (HI f Hf) as (q' & Hq' & Hqa & Hcase). rewrite app_length. cbn [length seens] in *.
      destruct e as [q o v|d]; cbn [follows] in Hm.
      + destruct Hm as (Hq & -> & Hh). assert (q' = q) as -> by congruence.
        destruct Hcase as [(-> & Es & Ho)|Hqf].
        * rewrite String.eqb_refl in Hs. cbn [AskModel.step negb] in Hs. injection Hs as <-. eexists. split; [reflexivity|]. split.
          -- constructor; [|done]. split; [by destruct Hf|]. right. cbn [f_seen f_node]. rewrite Es. split; [done|exact Ho].
          -- rewrite Es in *. cbn [seens f_seen length app] in *. 
             assert (seens fs <= length fs); [|lia]. apply seens_le. eapply Forall_impl; [exact HF|]. intros g [_ [-> | [-> _] ]]; cbn; lia.
        * rewrite (proj2 (String.eqb_neq q (f_node f)) Hqf) in Hs. cbn [negb] in Hs. rewrite (proj1 (Ha _ Hqa)) in Hh.
          rewrite (step_push f fs q v Hh) in Hs. injection Hs as <-. eexists. split; [reflexivity|]. split.
          -- constructor; [|by constructor]. split; [done|by left].
          -- cbn [seens f_seen length]. lia.
      + exfalso. destruct Hm as [Hm _]. apply lookup_lt_Some in Hq'. lia. }
  split.
  - intros es s Hp. destruct (Hinv es s Hp) as (fs & -> & _ & H1 & H2). exists fs. split; [done|]. lia.
  - induction n as [|n (es & s & Hp & Hn)]; [exists [], (ask w); split; [constructor|done]|].
    destruct (Hinv es s Hp) as (fs & -> & HF & _). destruct (path_chain _ _ _ _ Hp _ eq_refl) as (f & below & -> & Hc).
    apply Forall_cons in HF as [Hf _]. destruct (HI f Hf) as (q & Hq & Hqa & _). destruct (Ha q Hqa) as (Hh & Hqn & _).
    set (e := EProvider q (negb (String.eqb q (f_node f))) v0).
    assert (exists s, step (Asking (f :: below)) e = Some s) as [s Hs].
    { unfold e. destruct (String.eqb q (f_node f)); cbn [negb]; [by eexists|]. rewrite (step_push f below q v0 Hv0). eauto. }
    exists (es ++ [e]), s. rewrite app_length. cbn [length]. split; [|lia]. eapply PathSnoc; [exact Hp|split; [done|apply Hv0ok]|..|exact Hs].
    unfold e, follows. split; [done|]. split; [done|]. by rewrite Hh.
Qed.
End Settled.

(** ** All nodes are given the same providers in the same order *)

(** What comes of a question of node [w]; nothing if the first two providers are both strangers to the address. *)
Definition comes_to (L : list string) (home : string -> option record) (w : string) (x : res (string * option record)) : Prop :=
  match L with
  | [] => x = Err "didn't find any provider for address"
  | p :: rest =>
      match home p, rest with
      | Some r, _ => exists id, id_of_key (r_peer_key r) = Some id /\ x = Ok (id, Some r)
      | None, [] => x = if String.eqb p w then Err "couldn't open stream" else Ok ("", None)
      | None, q :: _ => exists r id, home q = Some r /\ id_of_key (r_peer_key r) = Some id /\ x = Ok (id, Some r)
      end
  end.

(** No more providers. *)
Lemma step_end f fs d q :
  chain (f :: fs) -> last (f_seen f) = Some q ->
  step (Asking (f :: fs)) (EEnd d) = Some (returns P id_of_key a f fs (if pv_open q then Ok ("", None) else Err "couldn't open stream")).
Proof.
  intros Hc Hq. cbn [AskModel.step]. unfold lookup_dht. cbn [lookup_rounds rd_providers rd_deadline].
  pose proof (chain_seen _ _ Hc) as Hse. destruct (try_calm (f_seen f) Hse) as (id & g & -> & _ & Hid). destruct (Hid q Hq) as [-> ->].
  assert (pv_id q <> "") as Hn. { apply last_Some_elem_of in Hq. rewrite Forall_forall in Hse. by destruct (Hse q Hq). }
  rewrite (proj2 (String.eqb_neq _ _) Hn). by destruct (pv_open q).
Qed.

Theorem C84_order L home w :
  home w = None -> w <> "" -> NoDup L -> "" ∉ L ->
  (forall p r, home p = Some r -> represents P r a (r_peer_key r) /\ (exists id, id_of_key (r_peer_key r) = Some id) /\ exists b, encode_acn (Some (PLookupResponse (Some r))) = Some b) ->
  (forall p, exists v, (p <> "" -> event_ok (EProvider p true v)) /\ match home p with Some r => has_record a v r | None => stranger a v end) ->
  forall es s, path (follows (fun _ => L) home) w es s ->
  match s with
  | Done x => comes_to L home w x
  | Down _ => False
  | Asking fs =>
      ((exists p q rest, L = p :: q :: rest /\ home p = None /\ home q = None) \/ length es <= 3) /\
      exists e s', path (follows (fun _ => L) home) w (es ++ [e]) s'
  end.
Proof.
  intros Hw Hwn HN HL Hhome Hviews es s Hp0.
  assert (match s with Asking fs => exists e s', path (follows (fun _ => L) home) w (es ++ [e]) s' | _ => True end) as Hnext.
  { destruct s as [fs| |]; try done. destruct (path_chain _ _ _ _ Hp0 _ eq_refl) as (f & below & -> & Hc).
    destruct (L !! length (f_seen f)) as [p|] eqn:El.
    - assert (p <> "") as Hpn by (intros ->; by apply elem_of_list_lookup_2 in El). destruct (Hviews p) as (v & Hv & Hh).
      set (e := EProvider p (negb (String.eqb p (f_node f))) v).
      assert (exists s, step (Asking (f :: below)) e = Some s) as [s Hs].
      { unfold e. cbn [AskModel.step]. destruct (String.eqb p (f_node f)); cbn [negb]; [by eexists|]. destruct (handled v Hangs); eauto. }
      exists e, s. eapply PathSnoc; [exact Hp0|apply (Hv Hpn)|done|exact Hs].
    - apply lookup_ge_None in El.
      assert (exists s, step (Asking (f :: below)) (EEnd true) = Some s) as [s Hs].
      { cbn [AskModel.step]. destruct (lookup_dht _ _ _ _ _); eauto. }
      exists (EEnd true), s. eapply PathSnoc; [exact Hp0|done|done|exact Hs]. }
  assert ((exists p q rest, L = p :: q :: rest /\ home p = None /\ home q = None) \/ ~ (exists p q rest, L = p :: q :: rest /\ home p = None /\ home q = None)) as [Hloop|Hno].
  { destruct L as [|p [|q rest]]; [right; by intros (? & ? & ? & ? & _)..|].
    destruct (home p) eqn:E1; [right; intros (? & ? & ? & [= <- <- <-] & ? & ?); congruence|].
    destruct (home q) eqn:E2; [right; intros (? & ? & ? & [= <- <- <-] & ? & ?); congruence|]. left. eauto 8. }
  { destruct Hloop as (p & q & rest & -> & Hp & Hq). apply not_elem_of_cons in HL as [Hpn HL]. apply not_elem_of_cons in HL as [Hqn _].
    assert (p <> q) as Hpq by (intros ->; apply NoDup_cons in HN as [HN _]; apply HN; by left).
    destruct (C84_loop (fun _ => p :: q :: rest) home (fun w => home w = None /\ w <> "")) with (w := w) as [Hl _]; [..|done|].
    - intros x [Hx Hxn]. split; [done|]. split; [done|]. destruct (decide (x = p)) as [->|Hxp].
      + exists q. split; [|done]. split; [done|]. eauto.
      + exists p. split; [|done]. split; [done|]. eauto.
    - destruct (Hviews p) as (v & Hv & Hh). rewrite Hp in Hh. exists v. split; [done|]. destruct (Hv (not_eq_sym Hpn)) as [_ H]. by split.
    - destruct (Hl es s Hp0) as (fs & -> & _). split; [left; eauto 8|done]. }
  assert (s = ask w /\ es = [] \/ (exists x, s = Done x /\ comes_to L home w x) \/
    exists p rest, L = p :: rest /\ home p = None /\
      (w = p /\ length es = 1 /\ s = Asking [Frame w None [Provider p false (Err "")]] \/
       w <> p /\ exists v, stranger a v /\
         (length es = 1 /\ s = Asking [Frame p (Some v) []; Frame w None []] \/
          length es = 2 /\ s = Asking [Frame p (Some v) [Provider p false (Err "")]; Frame w None []] \/
          rest = [] /\ length es = 3 /\ exists reply, calm (Provider p true reply) /\ s = Asking [Frame w None [Provider p true reply]]))) as Hinv.
  { clear Hnext. induction Hp0 as [|es f fs e s Hp IH He Hm Hs]; [by left|]. right.
    destruct (path_chain _ _ _ _ Hp _ eq_refl) as (f' & below & Ef & Hc). injection Ef as <- <-. rewrite app_length. cbn [length].
    assert (forall q v r, home q = Some r -> e = EProvider q true v -> has_record a v r -> exists id, id_of_key (r_peer_key r) = Some id /\ s = Done (Ok (id, Some r))) as Hgive.
    { intros q v r Hq -> Hr. destruct (Hhome q r Hq) as (H1 & (id & H2) & b & H3). exists id. split; [done|].
      rewrite (step_found f fs q v r b id Hc He Hr H3 H1 H2) in Hs. by injection Hs. }
    destruct IH as [[E ->]|[(x & E & _)|(p & rest & -> & Hhp & IH)]]; [|done|].
    - injection E as -> ->. destruct e as [q o v|d]; cbn [follows f_seen f_node length] in Hm.
      + destruct Hm as (Hq & -> & Hh). destruct L as [|p rest]; [done|]. cbn in Hq. injection Hq as ->.
        destruct (String.eqb_spec q w) as [->|Hqw]; cbn [negb] in *.
        * right. exists w, rest. split; [done|]. split; [done|]. left. split; [done|]. split; [done|]. cbn [AskModel.step f_node f_for f_seen app] in Hs. by injection Hs as <-.
        * destruct (home q) as [r|] eqn:Eq.
          -- left. destruct (Hgive q v r Eq eq_refl Hh) as (id & Hid & ->). eexists. split; [reflexivity|]. cbn. rewrite Eq. eauto.
          -- rewrite (step_push _ _ q v Hh) in Hs. injection Hs as <-. right. exists q, rest. split; [done|]. split; [done|]. right. split; [done|]. exists v. split; [done|]. by left.
      + left. destruct Hm as [Hm Hd]. rewrite (Hd eq_refl) in Hs. destruct L; [|cbn in Hm; lia]. cbn in Hs. injection Hs as <-. eexists. split; [reflexivity|]. done.
    - assert (forall q, rest !! 0 = Some q -> q <> p /\ q <> w /\ exists r, home q = Some r /\ forall id, id_of_key (r_peer_key r) = Some id -> comes_to (p :: rest) home w (Ok (id, Some r))) as Hsecond.
      { intros q Hq. destruct rest as [|q' rest]; [done|]. cbn in Hq. injection Hq as ->. destruct (home q) as [r|] eqn:Eq; [|by destruct Hno; eauto 8].
        split; [congruence|]. split; [congruence|]. exists r. split; [done|]. intros id Hid. cbn. rewrite Hhp. eauto. }
      assert (p <> "") as Hpn by (apply not_elem_of_cons in HL as [H _]; congruence).
      destruct IH as [(-> & Hlen & E)|(Hwp & v & Hv & [(Hlen & E)|[(Hlen & E)|(-> & Hlen & reply & Hcalm & E)]])]; injection E as -> ->.
      + left. destruct e as [q o v|d]; cbn [follows f_seen f_node length] in Hm.
        * destruct Hm as (Hq & -> & Hh). cbn in Hq. destruct (Hsecond q Hq) as (Hqp & _ & r & Hr & Hx). rewrite Hr in Hh. rewrite (proj2 (String.eqb_neq _ _) Hqp) in *.
          destruct (Hgive q v r Hr eq_refl Hh) as (id & Hid & ->). eauto.
        * destruct Hm as [Hm _]. destruct rest; [|cbn in Hm; lia]. rewrite (step_end _ _ d (Provider p false (Err "")) Hc eq_refl) in Hs. cbn in Hs. injection Hs as <-.
          eexists. split; [reflexivity|]. cbn. by rewrite Hhp, String.eqb_refl.
      + right. exists p, rest. split; [done|]. split; [done|]. right. split; [done|]. exists v. split; [done|]. right; left.
        destruct e as [q o v'|d]; cbn [follows f_seen f_node length] in Hm; [|destruct Hm as [Hm _]; cbn in Hm; lia].
        destruct Hm as (Hq & -> & Hh). cbn in Hq. injection Hq as <-. rewrite String.eqb_refl in Hs. cbn in Hs. injection Hs as <-. split; [lia|done].
      + destruct e as [q o v'|d]; cbn [follows f_seen f_node length] in Hm.
        * left. destruct Hm as (Hq & -> & Hh). cbn in Hq. destruct (Hsecond q Hq) as (Hqp & _ & r & Hr & Hx). rewrite Hr in Hh. rewrite (proj2 (String.eqb_neq _ _) Hqp) in *.
          destruct (Hgive q v' r Hr eq_refl Hh) as (id & Hid & ->). eauto.
        * right. destruct Hm as [Hm _]. destruct rest; [|cbn in Hm; lia]. rewrite (step_end _ _ d (Provider p false (Err "")) Hc eq_refl) in Hs. cbn [pv_open] in Hs.
          destruct (returns_none _ _ (Err "couldn't open stream") Hc (or_introl (ex_intro _ _ eq_refl)) Hpn) as (reply & Hcalm & Er). cbn [f_node f_for f_seen app] in *. rewrite Er in Hs.
          exists p, []. split; [done|]. split; [done|]. right. split; [done|]. exists v. split; [done|]. right; right. split; [done|]. split; [lia|]. exists reply. split; [done|congruence].
      + left. destruct e as [q o v'|d]; cbn [follows f_seen f_node length] in Hm; [by destruct Hm as [Hm _]|].
        rewrite (step_end _ _ d (Provider p true reply) Hc eq_refl) in Hs. cbn in Hs. injection Hs as <-.
        eexists. split; [reflexivity|]. cbn. rewrite Hhp. by rewrite (proj2 (String.eqb_neq p w) (not_eq_sym Hwp)). }
  destruct Hinv as [[-> ->]|[(x & -> & Hx)|(p & rest & _ & _ & [(_ & Hl & ->)|(_ & v & _ & [(Hl & ->)|[(Hl & ->)|(_ & Hl & reply & _ & ->)]])])]]; try done.
  all: split; [right; rewrite ?Hl; cbn; lia|done].
Qed.
End Ask.
Print Assumptions C84_found.
Print Assumptions C84_sound.
Print Assumptions C84_crash.
Print Assumptions C84_ranked.
Print Assumptions C84_loop.
Print Assumptions C84_order.

(** ** Examples *)

Definition carols : string := r_address carol.
Definition knows_carol (p : string) : option record := if String.eqb p "Qm2" then Some carol else None.

Lemma carol_sendable : sendable carols.
Proof. exists (default [] (encode_acn (Some (PLookupRequest carols)))). vm_compute. auto. Qed.

Lemma carol_short : short (PLookupResponse (Some carol)).
Proof.
  intros b H. assert (b = default [] (encode_acn (Some (PLookupResponse (Some carol))))) as -> by (by rewrite H). by vm_compute.
Qed.

Lemma elsewhere_ok p : p <> "" -> event_ok (EProvider p true elsewhere).
Proof. intros Hp. split; [done|]. by intros r [?|[?|?]]. Qed.

Lemma at_home_ok p : p <> "" -> event_ok (EProvider p true at_home).
Proof. intros Hp. split; [done|]. intros r [?|[H|?]]; [done| |done]. injection H as <-. apply carol_short. Qed.

Lemma elsewhere_stranger : stranger carols elsewhere.
Proof. split; [by vm_compute|]. auto. Qed.

Lemma at_home_has : has_record carols at_home carol.
Proof. right; right; right. split; [by vm_compute|]. repeat split; auto. Qed.

Lemma carol_represented : represents toy carol carols (r_peer_key carol) /\ (exists id, home_id (r_peer_key carol) = Some id) /\ exists b, encode_acn (Some (PLookupResponse (Some carol))) = Some b.
Proof.
  split; [|split; [exists "Qm2"; by vm_compute|eexists; by vm_compute]].
  apply C29_accepted. vm_compute; done.
Qed.

(** That an agent is found if the node it is connected to is among the providers and up, or that a question ends, does not hold: two nodes
    it was connected to before, listed first, ask each other for ever. *)
Theorem C84_found_refuted :
  let L := ["Qm1"; "Qm3"; "Qm2"] in
  (forall p r, knows_carol p = Some r -> represents toy r carols (r_peer_key r)) /\ knows_carol "Qm2" = Some carol /\ In "Qm2" L /\
  (forall es s, path toy home_id carols (follows carols (fun _ => L) knows_carol) "Qm9" es s -> exists fs, s = Asking fs /\ length es + 1 <= 2 * length fs) /\
  (forall n, exists es s, path toy home_id carols (follows carols (fun _ => L) knows_carol) "Qm9" es s /\ length es = n).
Proof.
  intros L. split. { intros p r. unfold knows_carol. destruct (String.eqb p "Qm2"); [|done]. intros [= <-]. apply carol_represented. }
  split; [done|]. split; [cbn; auto|].
  apply (C84_loop toy home_id carols carol_sendable (fun _ => L) knows_carol (fun w => knows_carol w = None /\ w <> "")).
  - intros w [Hw Hn]. split; [done|]. split; [done|]. destruct (decide (w = "Qm1")) as [->|H1].
    + exists "Qm3". split; [|done]. split; [done|]. eexists. by right.
    + exists "Qm1". split; [|done]. split; [done|]. eexists. by left.
  - exists elsewhere. split; [apply elsewhere_stranger|by apply elsewhere_ok].
  - done.
Qed.
Print Assumptions C84_found_refuted.

Definition outcome (s : option state) : option (nat + option string) :=
  match s with
  | Some (Asking fs) => Some (inl (length fs))
  | Some (Done (Ok (id, Some r))) => Some (inr (Some id))
  | Some (Done _) => Some (inr None)
  | _ => None
  end.

Definition asks_carol (es : list event) : option (nat + option string) := outcome (run toy home_id carols (ask "Qm9") es).

(** Found through a node that does not know the agent; two nodes that ask each other; a former node alone; no provider. *)
Example C84_example :
  asks_carol [EProvider "Qm1" true elsewhere; EProvider "Qm1" false elsewhere; EProvider "Qm2" true at_home] = Some (inr (Some "Qm2")) /\
  asks_carol [EProvider "Qm1" true elsewhere; EProvider "Qm1" false elsewhere; EProvider "Qm3" true elsewhere; EProvider "Qm1" true elsewhere;
              EProvider "Qm1" false elsewhere; EProvider "Qm3" true elsewhere; EProvider "Qm1" true elsewhere] = Some (inl 6) /\
  asks_carol [EProvider "Qm1" true elsewhere; EProvider "Qm1" false elsewhere; EEnd false; EEnd false] = Some (inr None) /\
  asks_carol [EEnd false; EEnd true] = Some (inr None) /\
  (* the hypotheses of C84_order hold *)
  knows_carol "Qm9" = None /\
  (forall p r, knows_carol p = Some r -> represents toy r carols (r_peer_key r) /\ (exists id, home_id (r_peer_key r) = Some id) /\ exists b, encode_acn (Some (PLookupResponse (Some r))) = Some b) /\
  (forall p, exists v, (p <> "" -> event_ok (EProvider p true v)) /\ match knows_carol p with Some r => has_record carols v r | None => stranger carols v end).
Proof.
  do 4 (split; [vm_compute; reflexivity|]). split; [done|]. unfold knows_carol. split.
  - intros p r. destruct (String.eqb p "Qm2"); [|done]. intros [= <-]. apply carol_represented.
  - intros p. destruct (String.eqb p "Qm2"); [exists at_home|exists elsewhere]; (split; [|auto using at_home_has, elsewhere_stranger]).
    + apply at_home_ok.
    + apply elsewhere_ok.
Qed.
