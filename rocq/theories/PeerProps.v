(** Properties of envelopes from other peers and of lookups (C42, C43, C45). *)
From Coq Require Import ZArith NArith List String Ascii Lia.
From stdpp Require Import base tactics gmap list strings.
From Verif Require Import GoBase Bytes Utf8 WireModel ProtoModel WireProofs ProtoProofs ProtoProps CryptoModel PorModel
  CryptoProofs CryptoProps PorProps AcnModel DelegateProps RouteModel RouteProps.
Open Scope string_scope.
Open Scope list_scope.
Open Scope Z_scope.

(** The three outcomes of the check. *)
Lemma por_cases P r a k :
  represents P r a k /\ is_valid_por P r a k = Ok (0, false) \/
  ~ represents P r a k /\ (exists code, is_valid_por P r a k = Ok (code, true)) \/
  ~ represents P r a k /\ (exists p, is_valid_por P r a k = Panic p).
Proof.
  pose proof (C29_accepted P r a k) as Ha.
  destruct (is_valid_por P r a k) as [[code err]|x|p] eqn:E.
  - destruct err.
    + right; left. split; [|eauto]. intros H%Ha. done.
    + destruct (decide (code = 0)) as [->|Hc]; [left; split; [by apply Ha|done]|].
      assert (Hn : ~ represents P r a k) by (intros [= ?]%Ha; done).
      by destruct (C29_refused _ _ _ _ _ _ E Hn) as [? _].
  - exfalso. unfold is_valid_por in E.
    repeat match type of E with context [match ?x with _ => _ end] => destruct x; try done end.
  - right; right. split; [|eauto]. intros H%Ha. done.
Qed.

(** ** C42 *)

(** The frame is an envelope message with envelope [e] and record [r]. *)
Definition brings (frame : bytes) (e : envelope) (r : option record) : Prop :=
  exists b, decode_acn frame = Some (Some (PEnvelope b r)) /\ decode_envelope b = Some e.

(** An envelope from a peer is passed on exactly if it comes with a record that proves
    that its own address is represented by that peer. *)
Theorem C42_accepted P why remote_key frame e :
  snd (receive_envelope P why remote_key (Ok frame)) = Ok e <->
  exists r, brings frame e (Some r) /\ represents P r (r_address r) remote_key.
Proof.
  unfold receive_envelope, read_envelope_message, decode_acn_message, brings.
  destruct (decode_acn frame) as [[[b0 rec| | | | ]|]|] eqn:Ed; cbn [snd];
    try (split; [done|]; by intros (? & (? & ? & ?) & ?)).
  destruct (decode_envelope b0) as [e'|] eqn:Ee; cbn [snd].
  2:{ split; [done|]. intros (? & (? & H & ?) & ?). congruence. }
  destruct rec as [r|]; cbn [snd].
  2:{ split; [done|]. intros (? & (? & H & ?) & ?). congruence. }
  destruct (por_cases P r (r_address r) remote_key) as [[Hr ->]|[[Hr (code & ->)]|[Hr (p & ->)]]]; cbn [snd orb negb].
  - change (0 =? SUCCESS) with true. cbn [negb snd]. split.
    + intros [= <-]. exists r. split; [|done]. eauto.
    + intros (r' & (b & [= <- <-] & H) & _). congruence.
  - split; [done|]. by intros (r' & (b & [= <- <-] & H) & ?).
  - split; [done|]. by intros (r' & (b & [= <- <-] & H) & ?).
Qed.
Print Assumptions C42_accepted.

(** So a peer with one valid record can deliver envelopes that name any sender. *)
Theorem C42_any_sender P why remote_key r e b frame :
  represents P r (r_address r) remote_key ->
  encode_envelope e = Some b -> Z.of_nat (length b) < 2 ^ 63 ->
  encode_acn (Some (PEnvelope b (Some r))) = Some frame -> Z.of_nat (length frame) < 2 ^ 63 ->
  receive_envelope P why remote_key (Ok frame) = ([], Ok e).
Proof.
  intros Hr He Hb Hf Hl.
  assert (Hd : decode_acn frame = Some (Some (PEnvelope b (Some r)))) by (by apply (proj2 (C23_acn _))).
  assert (Hd' : decode_envelope b = Some e) by (by apply (proj2 (C23_envelope _))).
  unfold receive_envelope, read_envelope_message, decode_acn_message. rewrite Hd, Hd'.
  apply C29_accepted in Hr. by rewrite Hr.
Qed.
Print Assumptions C42_any_sender.

Theorem C42_sender_is_proved_refuted :
  exists frame e r, brings frame e (Some r) /\ represents toy r (r_address r) "peer" /\
    e_sender e <> r_address r /\ receive_envelope toy "why" "peer" (Ok frame) = ([], Ok e).
Proof.
  exists (match frame_of (PEnvelope (default [] (encode_envelope (env "carol" "mallory" "x"))) (Some alice)) with
          | Ok b => b | _ => [] end), (env "carol" "mallory" "x"), alice.
  split; [eexists; split; [vm_compute; done|vm_compute; done]|].
  split; [apply C29_accepted; vm_compute; done|]. split; [done|]. vm_compute. done.
Qed.
Print Assumptions C42_sender_is_proved_refuted.

(** A peer can crash the node with an envelope message without record, or one on whose
    record the check crashes, and in no other way. *)
Theorem C42_crash P why remote_key frame :
  is_panic (snd (receive_envelope P why remote_key (Ok frame))) = true <->
  exists e rec, brings frame e rec /\ is_panic (por_check P rec (default "" (r_address <$> rec)) remote_key) = true.
Proof.
  unfold receive_envelope, read_envelope_message, decode_acn_message, brings.
  destruct (decode_acn frame) as [[[b0 rec| | | | ]|]|] eqn:Ed; cbn [snd is_panic];
    try (split; [done|]; by intros (? & ? & (? & ? & ?) & ?)).
  destruct (decode_envelope b0) as [e'|] eqn:Ee; cbn [snd is_panic].
  2:{ split; [done|]. intros (? & ? & (? & H & ?) & ?). congruence. }
  destruct rec as [r|]; cbn [snd is_panic].
  2:{ split; [|done]. intros _. exists e', None. split; [eauto|done]. }
  destruct (por_cases P r (r_address r) remote_key) as [[Hr E]|[[Hr (code & E)]|[Hr (p & E)]]]; rewrite E; cbn [orb negb].
  - change (0 =? SUCCESS) with true. cbn [negb snd is_panic]. split; [done|].
    intros (e & rec & (b & [= <- <-] & H) & Hp). cbn in Hp. by rewrite E in Hp.
  - cbn [snd is_panic]. split; [done|].
    intros (e & rec & (b & [= <- <-] & H) & Hp). cbn in Hp. by rewrite E in Hp.
  - cbn [snd is_panic]. split; [|done]. intros _. exists e', (Some r). split; [eauto|]. cbn. by rewrite E.
Qed.
Print Assumptions C42_crash.

Example C42_example :
  is_panic (snd (receive_envelope toy "why" "peer" (Ok [z2b 42; z2b 0]))) = true /\
  snd (receive_envelope toy "why" "other" (frame_of (PEnvelope [] (Some alice)))) = Err "incoming envelope PoR is not valid" /\
  fst (receive_envelope toy "why" "other" (frame_of (PEnvelope [] (Some alice)))) = [acn_error 11 "why"].
Proof. vm_compute. done. Qed.

(** ** C43 *)

(** An envelope from a peer is answered with SUCCESS exactly if the mailbox service
    took it; else a delegate client is in charge and acknowledged it; else it is for
    the own agent and its handler was called, whatever came of that. *)
Definition served (v : view) (e : envelope) (write : bool) (ack : res unit) (fs : list effect) : Prop :=
  takes v /\ fs = [ToMailbox e] \/
  ~ takes v /\ (exists c frame, v_delegate v = Some c /\ carries frame e None /\ write = true /\ ack = Ok tt /\
    fs = [ToDelegate c frame]) \/
  ~ takes v /\ v_delegate v = None /\ e_to e = v_my_addr v /\ v_has_handler v = true /\ fs = [ToAgent e].

Theorem C43_success v e agent write ack fs code :
  (forall p, agent <> Panic p) -> (forall p, ack <> Panic p) ->
  handle_envelope v e agent write ack = (fs, Ok code) ->
  (code = None <-> served v e write ack fs) /\
  (code = Some ERROR_UNKNOWN_AGENT_ADDRESS <-> ~ takes v /\ v_delegate v = None /\ e_to e <> v_my_addr v) /\
  (code <> None -> forall c, In c [ToMailbox e; ToAgent e] -> ~ In c fs).
Proof.
  intros Ha Hk. unfold handle_envelope. destruct (v_mailbox v && v_box_target v) eqn:Et.
  { apply takes_true in Et. intros [= <- <-]. split; [split; [intros _; by left|done]|]. split; [|done].
    split; [done|]. by intros [? _]. }
  assert (Ht : ~ takes v) by (rewrite takes_true; congruence).
  destruct (v_delegate v) as [c|] eqn:Ed.
  { destruct (envelope_frame e None) as [frame|] eqn:Ef.
    - apply some_frame in Ef. destruct write; cbn [negb].
      + destruct ack as [[]|x|p] eqn:Ek; [| |by destruct (Hk p)]; intros [= <- <-].
        * split; [split; [|done]|].
          { intros _. right; left. split; [done|]. exists c, frame. done. }
          split; [split; [done|by intros (_ & ? & _)]|done].
        * split; [split; [done|]|].
          { intros [[? _]|[(_ & ? & ? & _ & _ & _ & ? & _)|(_ & ? & _)]]; congruence. }
          split; [split; [done|by intros (_ & ? & _)]|].
          intros _ c' [<-|[<-|[]]] [?|[]]; done.
      + intros [= <- <-]. split; [split; [done|]|].
        { intros [[? _]|[(_ & ? & ? & _ & _ & ? & _)|(_ & ? & _)]]; congruence. }
        split; [split; [done|by intros (_ & ? & _)]|]. by intros _ c' _ [].
    - apply no_frame in Ef. intros [= <- <-]. split; [split; [done|]|].
      { intros [[? _]|[(_ & ? & f & _ & ? & _)|(_ & ? & _)]]; [done| |congruence]. destruct Ef. by exists f. }
      split; [split; [done|by intros (_ & ? & _)]|]. by intros _ c' _ []. }
  destruct (String.eqb_spec (e_to e) (v_my_addr v)) as [E|E].
  { destruct (v_has_handler v) eqn:Eh; cbn [negb].
    - destruct agent as [[]|x|p]; [| |by destruct (Ha p)]; intros [= <- <-];
        (split; [split; [intros _; right; right; done|done]|]); (split; [split; [done|by intros (_ & _ & ?)]|done]).
    - intros [= <- <-]. split; [split; [done|]|].
      { intros [[? _]|[(_ & ? & ? & ? & _)|(_ & _ & _ & ? & _)]]; congruence. }
      split; [split; [done|by intros (_ & _ & ?)]|]. by intros _ c' _ []. }
  intros [= <- <-]. split; [split; [done|]|].
  { intros [[? _]|[(_ & ? & ? & ? & _)|(_ & _ & ? & _)]]; congruence. }
  split; [done|]. by intros _ c' _ [].
Qed.
Print Assumptions C43_success.

(** On the stream: an accepted envelope is answered with exactly one status, which is
    SUCCESS exactly if handling it gave no error; what is not accepted is not handled
    and never answered with SUCCESS. *)
Theorem C43_stream P why remote_key handle frame fs out :
  envelope_stream P why remote_key handle (Ok frame) = (fs, Ok out) ->
  (exists e r, brings frame e (Some r) /\ represents P r (r_address r) remote_key /\
     exists code, handle e = (fs, Ok code) /\
       out = [match code with None => acn_success | Some c => acn_error c why end]) \/
  (~ (exists e r, brings frame e (Some r) /\ represents P r (r_address r) remote_key)) /\ fs = [] /\
    (out = [] \/ exists c, out = [acn_error c why] /\ c <> 0).
Proof.
  unfold envelope_stream. pose proof (C42_accepted P why remote_key frame) as Ha.
  assert (Hs : forall m r, receive_envelope P why remote_key (Ok frame) = (m, r) ->
     (is_ok r = true -> m = []) /\ (is_err r = true -> m = [] \/ exists c, m = [acn_error c why] /\ c <> 0)).
  { clear. intros m r. unfold receive_envelope, read_envelope_message, decode_acn_message.
    destruct (decode_acn frame) as [[[b0 rec| | | | ]|]|]; try (intros [= <- <-]; split; [done|]; eauto; fail);
      try (intros [= <- <-]; split; [done|]; intros _; right; eexists; split; [done|done]).
    destruct (decode_envelope b0) as [e'|];
      [|intros [= <- <-]; split; [done|]; intros _; right; eexists; split; [done|done]].
    destruct rec as [r'|]; [|intros [= <- <-]; done].
    destruct (is_valid_por P r' (r_address r') remote_key) as [[code err]|x|p] eqn:E.
    - destruct (err || negb (code =? SUCCESS)) eqn:Eb; intros [= <- <-]; [|done].
      split; [done|]. intros _. right. eexists. split; [done|]. intros ->.
      assert (Hn : ~ represents P r' (r_address r') remote_key).
      { intros H%C29_accepted. rewrite E in H. by injection H as ->. }
      destruct (C29_refused _ _ _ _ _ _ E Hn) as [_ H]. decompose [or and] H; done.
    - intros [= <- <-]. split; [done|]. by left.
    - intros [= <- <-]. done. }
  destruct (receive_envelope P why remote_key (Ok frame)) as [m r] eqn:E. destruct (Hs m r eq_refl) as [H1 H2].
  destruct r as [e|x|p]; [| |done].
  - destruct (proj1 (Ha e) eq_refl) as (r & Hb & Hr). rewrite (H1 eq_refl). intros H. left. exists e, r.
    split; [done|]. split; [done|].
    destruct (handle e) as [fs' [[code|]|y|p]]; try done; injection H as <- <-; eauto.
  - intros [= <- <-]. right. split; [|split; [done|by apply H2]]. intros (e & r & H). 
    assert (Err x = Ok e) by (apply Ha; eauto). done.
Qed.
Print Assumptions C43_stream.

(** Expected but false: SUCCESS means that the agent has the envelope. *)
Theorem C43_agent_failed_refuted :
  exists v e fs, handle_envelope v e (Err "pipe closed") true (Ok tt) = (fs, Ok None) /\ e_to e = v_my_addr v.
Proof. by exists view0, (env "me" "x" "y"), [ToAgent (env "me" "x" "y")]. Qed.
Print Assumptions C43_agent_failed_refuted.

Example C43_example :
  envelope_stream toy "why" "peer" (fun e => handle_envelope view0 e (Ok tt) true (Ok tt))
    (frame_of (PEnvelope (default [] (encode_envelope (env "me" "x" "y"))) (Some alice))) =
    ([ToAgent (env "me" "x" "y")], Ok [acn_success]) /\
  envelope_stream toy "why" "peer" (fun e => handle_envelope view0 e (Ok tt) true (Ok tt))
    (frame_of (PEnvelope (default [] (encode_envelope (env "you" "x" "y"))) (Some alice))) =
    ([], Ok [acn_error 20 "why"]).
Proof. vm_compute. done. Qed.

(** ** C45 *)

(** What a provider's answer comes to. *)
Definition gives (P : prims) (address : string) (p : provider) (r : record) : Prop :=
  pv_open p = true /\ (exists b, pv_reply p = Ok b /\ decode_acn b = Some (Some (PLookupResponse (Some r)))) /\
  represents P r address (r_peer_key r).
Definition crashes (P : prims) (address : string) (p : provider) : Prop :=
  pv_open p = true /\ exists b, pv_reply p = Ok b /\
    (decode_acn b = Some (Some (PStatus None)) \/ decode_acn b = Some (Some (PLookupResponse None)) \/
     exists r, decode_acn b = Some (Some (PLookupResponse (Some r))) /\
       is_panic (is_valid_por P r address (r_peer_key r)) = true).
(** None of the above: the loop goes on to the next provider. *)
Definition useless (P : prims) (address : string) (p : provider) : Prop :=
  (forall r, ~ gives P address p r) /\ ~ crashes P address p.

Section Lookups.
Context (P : prims) (id_of_key : string -> option string).

Lemma provider_cases address p :
  (forall x, pv_reply p <> Panic x) ->
  useless P address p \/ crashes P address p \/ exists r, gives P address p r.
Proof.
  intros Hp. unfold useless, crashes, gives.
  destruct (pv_open p) eqn:Eo; [|left; split; [by intros r [? _]|by intros [? _]]].
  destruct (pv_reply p) as [b|x|x] eqn:Er; [| |by destruct (Hp x)].
  2:{ left. split; [by intros r (_ & (b & ? & _) & _)|by intros (_ & b & ? & _)]. }
  destruct (decode_acn b) as [[m|]|] eqn:Ed.
  2,3: left; split; [by intros r (_ & (b' & [= <-] & ?) & _); congruence
    |by intros (_ & b' & [= <-] & [?|[?|(? & ? & _)]]); congruence].
  assert (Hother : (forall r, m <> PLookupResponse r) -> m <> PStatus None ->
    (forall r, ~ (true = true /\ (exists b0, Ok b = Ok b0 /\ decode_acn b0 = Some (Some (PLookupResponse (Some r)))) /\
      represents P r address (r_peer_key r))) /\
    ~ (true = true /\ exists b0, Ok b = Ok b0 /\ (decode_acn b0 = Some (Some (PStatus None)) \/
       decode_acn b0 = Some (Some (PLookupResponse None)) \/
       exists r, decode_acn b0 = Some (Some (PLookupResponse (Some r))) /\
       is_panic (is_valid_por P r address (r_peer_key r)) = true))).
  { intros H1 H2. split.
    - intros r (_ & (b' & [= <-] & H) & _). rewrite Ed in H. injection H as ->. by destruct (H1 (Some r)).
    - intros (_ & b' & [= <-] & H). rewrite Ed in H. destruct H as [[= ->]|[[= ->]|(r & [= ->] & _)]]; [done| |].
      + by destruct (H1 None).
      + by destruct (H1 (Some r)). }
  destruct m as [| |[r|]| |[s|]]; try (left; by apply Hother).
  - destruct (por_cases P r address (r_peer_key r)) as [[Hr E]|[[Hr (code & E)]|[Hr (x & E)]]].
    + right; right. exists r. split; [done|]. split; [eauto|done].
    + left. split.
      * intros r' (_ & (b' & [= <-] & H) & Hr'). rewrite Ed in H. injection H as ->. done.
      * intros (_ & b' & [= <-] & [H|[H|(r' & H & Hpn)]]); rewrite Ed in H; try done.
        injection H as ->. by rewrite E in Hpn.
    + right; left. split; [done|]. exists b. split; [done|]. right; right. exists r. split; [done|]. by rewrite E.
  - right; left. split; [done|]. exists b. split; [done|]. by right; left.
  - right; left. split; [done|]. exists b. split; [done|]. by left.
Qed.

Lemma try_cons_useless address id f p ps :
  (forall x, pv_reply p <> Panic x) -> useless P address p ->
  try_providers P id_of_key address id f (p :: ps) =
  try_providers P id_of_key address (pv_id p) (negb (pv_open p)) ps.
Proof.
  intros Hp [Hg Hc]. cbn. destruct (pv_open p) eqn:Eo; cbn [negb]; [|done].
  unfold read_lookup_response. destruct (pv_reply p) as [b|x|x] eqn:Er; [|done|by destruct (Hp x)].
  destruct (decode_acn b) as [[[| |[r|]| |[s|]]|]|] eqn:Ed; try done.
  - destruct (por_cases P r address (r_peer_key r)) as [[Hr E]|[[Hr (code & E)]|[Hr (x & E)]]]; rewrite E; cbn [orb]; [|done|].
    + destruct (Hg r). split; [done|]. split; [eauto|done].
    + destruct Hc. split; [done|]. exists b. split; [done|]. right; right. exists r. split; [done|]. by rewrite E.
  - destruct Hc. split; [done|]. exists b. split; [done|]. by right; left.
  - destruct Hc. split; [done|]. exists b. split; [done|]. by left.
Qed.

Lemma try_cons_gives address id f p ps r :
  gives P address p r ->
  try_providers P id_of_key address id f (p :: ps) =
  LReturn (match id_of_key (r_peer_key r) with
           | Some peer => Ok (peer, Some r) | None => Err "couldn't get peer ID from message" end).
Proof.
  intros (Ho & (b & Hb & Hd) & Hr). cbn. rewrite Ho. cbn [negb]. unfold read_lookup_response. rewrite Hb, Hd.
  apply C29_accepted in Hr. rewrite Hr. cbn [orb]. change (0 =? SUCCESS) with true. cbn [negb].
  by destruct (id_of_key (r_peer_key r)).
Qed.

Lemma try_cons_crashes address id f p ps :
  crashes P address p -> exists x, try_providers P id_of_key address id f (p :: ps) = LReturn (Panic x).
Proof.
  intros (Ho & b & Hb & Hd). cbn. rewrite Ho. cbn [negb]. unfold read_lookup_response. rewrite Hb.
  destruct Hd as [->|[->|(r & -> & Hp)]]; [by eexists..|].
  destruct (is_valid_por P r address (r_peer_key r)) as [[]| |]; try done. by eexists.
Qed.

Lemma try_skip address id f ps1 ps2 :
  Forall (fun p => (forall x, pv_reply p <> Panic x) /\ useless P address p) ps1 ->
  try_providers P id_of_key address id f (ps1 ++ ps2) =
  match last ps1 with
  | None => try_providers P id_of_key address id f ps2
  | Some p => try_providers P id_of_key address (pv_id p) (negb (pv_open p)) ps2
  end.
Proof.
  intros H. revert id f. induction H as [|p ps1 [Hp Hu] H IH]; intros id f; [done|].
  cbn [app]. rewrite try_cons_useless by done. rewrite IH. destruct ps1 as [|q ps1]; [done|].
  rewrite last_cons_cons. destruct (last (q :: ps1)) eqn:E; [done|]. by apply last_None in E.
Qed.
End Lookups.

(** The lookup goes through the providers of the first round that finds any. *)
Definition first_round (rs : list round) (ps : list provider) (deadline : bool) (rest : list round) : Prop :=
  exists empty, Forall (fun r => rd_providers r = [] /\ rd_deadline r = false) empty /\
    rs = empty ++ Round ps deadline :: rest /\ ps <> [].

Lemma lookup_first P id_of_key address rs ps d rest :
  first_round rs ps d rest -> Forall (fun p => pv_id p <> "") ps ->
  lookup_dht P id_of_key true address rs =
  match try_providers P id_of_key address "" false ps with
  | LReturn x => Returns x
  | LEnd _ true => Returns (Err "couldn't open stream")
  | LEnd _ false => Returns (Ok ("", None))
  end.
Proof.
  intros (empty & He & -> & Hne) Hid. unfold lookup_dht.
  induction He as [|r empty [H1 H2] He IH].
  - cbn. assert (H : forall id f, ps <> [] \/ id <> "" -> match try_providers P id_of_key address id f ps with
      | LEnd id' _ => id' <> "" | _ => True end).
    { clear Hne. induction Hid as [|p ps Hp Hid IH]; intros id f [H|H]; cbn; try done.
      all: destruct (pv_open p); cbn [negb]; [|apply IH; by right].
      all: destruct (read_lookup_response (pv_reply p)) as [[r|]|x|x]; [|done|apply IH; by right|done].
      all: destruct (is_valid_por P r address (r_peer_key r)) as [[code err]|x|x]; [|apply IH; by right|done].
      all: destruct (err || _); [apply IH; by right|]; by destruct (id_of_key _). }
    specialize (H "" false (or_introl Hne)).
    destruct (try_providers P id_of_key address "" false ps) as [x|id' f]; [done|].
    destruct (String.eqb_spec id' ""); [done|]. by destruct f.
  - cbn. rewrite H1, H2. cbn. exact IH.
Qed.

Section C45.
Context (P : prims) (id_of_key : string -> option string).

(** The providers' ids are not empty and their answers are bytes or errors. *)
Definition real (p : provider) : Prop := pv_id p <> "" /\ forall x, pv_reply p <> Panic x.

(** The first provider that gives a record for the address decides; providers before
    it that do neither that nor crash the node are skipped. *)
Theorem C45_found address rs ps1 p ps2 d rest r :
  first_round rs (ps1 ++ p :: ps2) d rest -> Forall real (ps1 ++ p :: ps2) ->
  Forall (useless P address) ps1 -> gives P address p r ->
  lookup_dht P id_of_key true address rs =
  Returns (match id_of_key (r_peer_key r) with
           | Some peer => Ok (peer, Some r) | None => Err "couldn't get peer ID from message" end).
Proof.
  intros Hf Hr Hu Hg. rewrite (lookup_first _ _ _ _ _ _ _ Hf).
  2:{ eapply Forall_impl; [exact Hr|]. by intros q [? _]. }
  rewrite try_skip.
  - by destruct (last ps1); rewrite (try_cons_gives _ _ _ _ _ _ _ r).
  - apply Forall_app in Hr as [Hr _]. apply Forall_and. split; [|done].
    eapply Forall_impl; [exact Hr|]. by intros q [_ ?].
Qed.

(** What a lookup that returns a peer returns. *)
Theorem C45_sound address cid_ok rs peer rec :
  lookup_dht P id_of_key cid_ok address rs = Returns (Ok (peer, rec)) ->
  (exists r, rec = Some r /\ represents P r address (r_peer_key r) /\ id_of_key (r_peer_key r) = Some peer /\
     exists rd p, In rd rs /\ In p (rd_providers rd) /\ gives P address p r) \/
  (rec = None /\ peer = "").
Proof.
  unfold lookup_dht. destruct cid_ok; [|done]. generalize "" at 1; generalize false.
  induction rs as [|rd rs IH]; intros f id; cbn; [done|].
  assert (Ht : forall ps id f x, try_providers P id_of_key address id f ps = LReturn (Ok x) ->
    exists r p peer, x = (peer, Some r) /\ In p ps /\ gives P address p r /\ id_of_key (r_peer_key r) = Some peer).
  { clear. induction ps as [|p ps IH]; intros id f x; cbn; [done|].
    assert (Hrec : forall id f, try_providers P id_of_key address id f ps = LReturn (Ok x) ->
      exists r p' peer, x = (peer, Some r) /\ (p = p' \/ In p' ps) /\ gives P address p' r /\
        id_of_key (r_peer_key r) = Some peer).
    { intros id' f' H%IH. destruct H as (r & p' & peer & ? & ? & ? & ?). eauto 10. }
    destruct (pv_open p) eqn:Eo; cbn [negb]; [|apply Hrec].
    destruct (read_lookup_response (pv_reply p)) as [[r|]|y|y] eqn:Er; [|done|apply Hrec|done].
    destruct (is_valid_por P r address (r_peer_key r)) as [[code err]|y|y] eqn:Ev; [|apply Hrec|done].
    destruct err; cbn [orb]; [apply Hrec|].
    destruct (Z.eqb_spec code SUCCESS) as [->|]; cbn [negb]; [|apply Hrec].
    destruct (id_of_key (r_peer_key r)) as [peer|] eqn:Ei; [|done]. intros [= <-].
    exists r, p, peer. split; [done|]. split; [by left|]. split; [|done]. split; [done|].
    split; [|by apply C29_accepted]. revert Er. unfold read_lookup_response.
    destruct (pv_reply p) as [b|y|y]; try done.
    destruct (decode_acn b) as [[[| |r'| |[s|]]|]|] eqn:Ed; try done. intros [= ->]. eauto. }
  destruct (try_providers P id_of_key address id f (rd_providers rd)) as [x|id' f'] eqn:Et.
  - intros [= ->]. apply Ht in Et as (r & p & peer' & [= <- ->] & Hin & Hg & Hi). left. exists r.
    split; [done|]. split; [apply Hg|]. split; [done|]. exists rd, p. split; [by left|]. done.
  - destruct (String.eqb id' "").
    + destruct (rd_deadline rd); [done|]. intros H%IH. destruct H as [(r & H1 & H2 & H3 & rd' & p & H4 & H5)|H]; [|by right].
      left. exists r. do 3 (split; [done|]). exists rd', p. split; [by right|]. done.
    + destruct f'; [done|]. intros [= <- <-]. by right.
Qed.

(** If no provider gives a record and none crashes the node, the lookup reports an
    error exactly if no stream could be opened to the last provider. Otherwise it
    returns no error, no peer and no record. *)
Theorem C45_none address rs ps p d rest :
  first_round rs (ps ++ [p]) d rest -> Forall real (ps ++ [p]) -> Forall (useless P address) (ps ++ [p]) ->
  lookup_dht P id_of_key true address rs =
  Returns (if pv_open p then Ok ("", None) else Err "couldn't open stream").
Proof.
  intros Hf Hr Hu. rewrite (lookup_first _ _ _ _ _ _ _ Hf).
  2:{ eapply Forall_impl; [exact Hr|]. by intros q [? _]. }
  rewrite <- (app_nil_r (ps ++ [p])). rewrite try_skip.
  - rewrite last_snoc. cbn. by destruct (pv_open p).
  - apply Forall_and. split; [|done]. eapply Forall_impl; [exact Hr|]. by intros q [_ ?].
Qed.

(** A provider can crash the node that looks an address up. *)
Theorem C45_crash address rs ps1 p ps2 d rest :
  first_round rs (ps1 ++ p :: ps2) d rest -> Forall real (ps1 ++ p :: ps2) ->
  Forall (useless P address) ps1 -> crashes P address p ->
  exists x, lookup_dht P id_of_key true address rs = Returns (Panic x).
Proof.
  intros Hf Hr Hu Hg. rewrite (lookup_first _ _ _ _ _ _ _ Hf).
  2:{ eapply Forall_impl; [exact Hr|]. by intros q [? _]. }
  rewrite try_skip.
  - destruct (last ps1) as [q|];
      [destruct (try_cons_crashes P id_of_key address (pv_id q) (negb (pv_open q)) p ps2 Hg) as [x ->]
      |destruct (try_cons_crashes P id_of_key address "" false p ps2 Hg) as [x ->]]; by exists x.
  - apply Forall_app in Hr as [Hr _]. apply Forall_and. split; [|done].
    eapply Forall_impl; [exact Hr|]. by intros q [_ ?].
Qed.

(** Without providers the lookup ends at the deadline, with an error. *)
Theorem C45_deadline address rs d :
  Forall (fun r => rd_providers r = []) rs ->
  lookup_dht P id_of_key true address (rs ++ [Round [] d]) =
  if existsb rd_deadline rs || d then Returns (Err "didn't find any provider for address") else Hangs.
Proof.
  intros H. unfold lookup_dht. induction H as [|r rs H1 H IH]; cbn.
  - by destruct d.
  - rewrite H1. cbn. destruct (rd_deadline r); [done|]. exact IH.
Qed.
End C45.
Print Assumptions C45_found.
Print Assumptions C45_sound.
Print Assumptions C45_none.
Print Assumptions C45_crash.
Print Assumptions C45_deadline.

Definition toy_id (k : string) : option string := if String.eqb k "peer" then Some "Qm2" else None.
Definition answers (m : acn_perf) : provider := Provider "Qm9" true (frame_of m).

Example C45_example :
  let good := answers (PLookupResponse (Some alice)) in
  let wrong := answers (PLookupResponse (Some bob)) in
  let unknown := answers (PStatus (Some (StatusBody 20 ["unknown"]))) in
  let down := Provider "Qm8" false (Err "") in
  let a := r_address alice in
  lookup_dht toy toy_id true a [Round [] false; Round [wrong; down; unknown; good] false] = Returns (Ok ("Qm2", Some alice)) /\
  lookup_dht toy toy_id true a [Round [down; unknown] false] = Returns (Ok ("", None)) /\
  lookup_dht toy toy_id true a [Round [unknown; down] false] = Returns (Err "couldn't open stream") /\
  is_panic (match lookup_dht toy toy_id true a [Round [unknown; answers (PLookupResponse None); good] false] with
            | Returns x => x | Hangs => Ok ("", None) end) = true /\
  gives toy a good alice /\ useless toy a wrong.
Proof.
  cbv zeta. do 4 (split; [vm_compute; done|]). split.
  - split; [done|]. split; [eexists; split; [done|vm_compute; done]|]. apply C29_accepted. vm_compute. done.
  - assert (Hd : forall b, frame_of (PLookupResponse (Some bob)) = Ok b ->
      decode_acn b = Some (Some (PLookupResponse (Some bob)))).
    { intros b Hb. vm_compute in Hb. injection Hb as <-. vm_compute. done. }
    split.
    + intros r (_ & (b & Hb%Hd & H) & [Ha _]). rewrite Hb in H. injection H as <-. by vm_compute in Ha.
    + intros (_ & b & Hb%Hd & H). rewrite Hb in H.
      destruct H as [?|[?|(r & [= <-] & H)]]; [done|done|]. by vm_compute in H.
Qed.
