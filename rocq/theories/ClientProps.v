(** Properties of a client node: C47, C48 and the client parts of C43 and C44. *)
From Coq Require Import ZArith NArith List String Ascii Lia.
From stdpp Require Import base tactics list strings.
From Verif Require Import GoBase Bytes Utf8 WireModel ProtoModel WireProofs ProtoProofs ProtoProps CryptoModel PorModel
  CryptoProofs CryptoProps PorProps AcnModel DelegateProps RouteModel RouteProps PeerProps ClientModel.
Open Scope string_scope.
Open Scope list_scope.
Open Scope Z_scope.

(** ** C43 and C44, on a client node *)

(** A client node answers SUCCESS exactly if the envelope is for its agent and the
    agent's handler took it. *)
Theorem C43_client c e agent fs code :
  client_handle c e agent = (fs, Ok code) ->
  (code = None <-> e_to e = c_addr c /\ c_handler c = true /\ agent = Ok tt) /\
  (fs = [ToAgent e] /\ e_to e = c_addr c /\ c_handler c = true \/
   fs = [] /\ code = Some ERROR_UNKNOWN_AGENT_ADDRESS /\ (e_to e <> c_addr c \/ c_handler c = false)).
Proof.
  unfold client_handle. destruct (String.eqb_spec (e_to e) (c_addr c)) as [E|E]; cbn.
  2:{ intros [= <- <-]. split; [split; [done|by intros [? _]]|]. right. auto. }
  destruct (c_handler c); cbn.
  2:{ intros [= <- <-]. split; [split; [done|by intros (_ & ? & _)]|]. right. auto. }
  destruct agent as [[]|x|p]; intros [= <- <-].
  - split; [done|]. by left.
  - split; [split; [done|by intros (_ & _ & ?)]|]. by left.
Qed.
Print Assumptions C43_client.

Example C43_client_example :
  let c := Client "me" alice true in
  envelope_stream toy "why" "peer" (fun e => client_handle c e (Err "pipe"))
    (frame_of (PEnvelope (default [] (encode_envelope (env "me" "x" "y"))) (Some alice))) =
    ([ToAgent (env "me" "x" "y")], Ok [acn_error 21 "why"]) /\
  envelope_stream toy "why" "peer" (fun e => client_handle c e (Ok tt))
    (frame_of (PEnvelope (default [] (encode_envelope (env "me" "x" "y"))) (Some alice))) =
    ([ToAgent (env "me" "x" "y")], Ok [acn_success]).
Proof. vm_compute. done. Qed.

(** A client node answers lookups for its own address only, with its own record. *)
Theorem C44_client why c frame out r :
  address_stream why (client_address c) (Ok frame) = Returns (Ok out) ->
  In (PLookupResponse (Some r)) out <->
  decode_acn frame = Some (Some (PLookupRequest (c_addr c))) /\ r = c_record c.
Proof.
  unfold address_stream, read_lookup_request, client_address.
  destruct (decode_acn frame) as [[[|a| | | ]|]|]; cbn; intros H.
  2:{ destruct (String.eqb_spec a (c_addr c)) as [E|E]; injection H as <-; cbn; split.
    - intros [[= <-]|[]]. by rewrite E.
    - intros [_ ->]. by left.
    - by intros [?|[]].
    - by intros [[= ?] _]. }
  all: injection H as <-; split; [by intros [?|[]]|by intros [? _]].
Qed.
Print Assumptions C44_client.

(** ** C47 *)

(** The relay peer's answer gives record [r] for the target. *)
Definition resolves (P : prims) (o : client_outcome) (target : string) (r : record) : Prop :=
  (exists b, co_found o = Ok b /\ decode_acn b = Some (Some (PLookupResponse (Some r)))) /\
  represents P r target (r_peer_key r).
(** A stream opens, after a new registration if not at once. *)
Definition registered_again (c : client) (o : stream_outcome) : Prop :=
  so_open o = true /\ so_write o = true /\ (exists b, encode_acn (Some (PRegister (Some (c_record c)))) = Some b) /\
  exists b s, so_reply o = Ok b /\ decode_acn b = Some (Some (PStatus (Some s))) /\ sb_code s = 0.
Definition opens (c : client) (o : loop_outcome) : Prop :=
  lo_first o = true \/ retry_rounds (lo_rounds o) = Returns (Ok tt) /\ registered_again c (lo_register o).
(** The peer confirms the envelope. *)
Definition client_confirmed (o : client_outcome) : Prop :=
  exists b s, co_reply o = Ok b /\ decode_acn b = Some (Some (PStatus (Some s))) /\ sb_code s = 0.

Lemma retry_returns rounds r : retry_rounds rounds = Returns r -> r = Ok tt.
Proof.
  induction rounds as [|a rounds IH]; cbn; [done|]. destruct (at_expired a); [done|]. destruct (at_ok a); [|done]. by intros [= <-].
Qed.

Lemma status_ok rd :
  match read_status rd with Ok (Some s) => if sb_code s =? SUCCESS then Ok tt else Err "" | _ => Err "" end = Ok tt <->
  exists b s, rd = Ok b /\ decode_acn b = Some (Some (PStatus (Some s))) /\ sb_code s = 0.
Proof.
  unfold read_status. destruct rd as [b|x|x]; [|by split; [|intros (? & ? & ? & _)]..].
  destruct (decode_acn b) as [[[| | | |[s|]]|]|] eqn:E;
    try (split; [done|]; intros (b' & s' & [= <-] & H & _); congruence).
  destruct (Z.eqb_spec (sb_code s) SUCCESS) as [Ec|Ec].
  - split; [|done]. intros _. by exists b, s.
  - split; [done|]. intros (b' & s' & [= <-] & H & ?). rewrite E in H. injection H as <-. done.
Qed.

Lemma register_ok c o fs :
  client_register c o = (fs, Ok tt) -> registered_again c o.
Proof.
  unfold client_register, registered_again. destruct (so_open o); [|done]. cbn [negb].
  destruct (encode_acn (Some (PRegister (Some (c_record c))))) as [b|]; [|done].
  destruct (so_write o); [|done]. cbn [negb]. intros [= _ H]. split; [done|]. split; [done|]. split; [by exists b|].
  apply status_ok. revert H. destruct (read_status (so_reply o)) as [[s|]|x|x]; try done. by destruct (sb_code s =? SUCCESS).
Qed.

Lemma register_ok' c o : registered_again c o -> exists b, client_register c o = ([CRegister b], Ok tt).
Proof.
  intros (H1 & H2 & (b & H3) & H4%status_ok). exists b. unfold client_register. rewrite H1, H2, H3. cbn [negb].
  f_equal. revert H4. destruct (read_status (so_reply o)) as [[s|]|x|x]; try done. by destruct (sb_code s =? SUCCESS).
Qed.

Lemma register_effects c o fs r : client_register c o = (fs, r) -> forall f, In f fs -> exists b, f = CRegister b.
Proof.
  unfold client_register. destruct (so_open o); cbn [negb]; [|by intros [= <- _] f []].
  destruct (encode_acn (Some (PRegister (Some (c_record c))))) as [b|]; [|by intros [= <- _] f []].
  destruct (so_write o); cbn [negb]; [|by intros [= <- _] f []]. intros [= <- _] f [<-|[]]. eauto.
Qed.

Lemma loop_spec c o fs r :
  new_stream_loop c o = (fs, r) ->
  (r = Returns (Ok tt) <-> opens c o) /\ (forall f, In f fs -> exists b, f = CRegister b).
Proof.
  unfold new_stream_loop, opens. destruct (lo_first o).
  { intros [= <- <-]. split; [by split; [left|]|]. by intros f []. }
  destruct (retry_rounds (lo_rounds o)) as [x|] eqn:E.
  2:{ intros [= <- <-]. split; [split; [done|]; by intros [?|[? _]]|]. by intros f []. }
  apply retry_returns in E as ->. destruct (client_register c (lo_register o)) as [fs' r'] eqn:Er.
  intros [= <- <-]. split; [|by eapply register_effects]. split.
  - intros [= ->]. right. split; [done|]. by eapply register_ok.
  - intros [?|[_ H%register_ok']]; [done|]. destruct H as [b H]. congruence.
Qed.

Section C47.
Context (P : prims) (id_of_key : string -> option string).

(** The relay peer is asked. *)
Definition asked (o : client_outcome) (target : string) : Prop :=
  co_ask o = true /\ exists b, encode_acn (Some (PLookupRequest target)) = Some b.

Lemma lookup_spec c target o fs r :
  client_lookup P id_of_key c target o = (fs, r) ->
  (forall peer, r = Returns (Ok peer) <->
     opens c (co_relay o) /\ asked o target /\
     exists rec, resolves P o target rec /\ id_of_key (r_peer_key rec) = Some peer) /\
  (forall f, In f fs -> (exists b, f = CRegister b) \/ exists b, f = CLookup b).
Proof.
  unfold client_lookup, asked. destruct (new_stream_loop c (co_relay o)) as [fs0 r0] eqn:E0.
  destruct (loop_spec _ _ _ _ E0) as [Ho Hf].
  assert (Hno : r0 <> Returns (Ok tt) -> forall peer, ~
     (opens c (co_relay o) /\ (co_ask o = true /\ exists b, encode_acn (Some (PLookupRequest target)) = Some b) /\
     exists rec, resolves P o target rec /\ id_of_key (r_peer_key rec) = Some peer)).
  { intros H1 peer [?%Ho _]. done. }
  destruct r0 as [[[]|x|x]|];
    try (intros [= <- <-]; split; [intros peer; split; [done|]; intros H; by apply Hno in H|left; by apply Hf]).
  assert (Hop : opens c (co_relay o)) by (by apply Ho). clear Ho Hno.
  destruct (encode_acn (Some (PLookupRequest target))) as [b|] eqn:Eb.
  2:{ intros [= <- <-]. split; [|left; by apply Hf]. intros peer. split; [done|]. by intros (_ & (_ & ? & ?) & _). }
  destruct (co_ask o) eqn:Ea; cbn [negb].
  2:{ intros [= <- <-]. split; [|left; by apply Hf]. intros peer. split; [done|]. by intros (_ & (? & _) & _). }
  intros [= <- <-]. split.
  2:{ intros f [H|[<-|[]]]%in_app_iff; [left; by apply Hf|right; by exists b]. }
  intros peer.
  assert (Heq : forall x, (Returns x = Returns (Ok peer) <-> x = Ok peer)) by (split; congruence).
  rewrite Heq. clear Heq.
  assert (Hgoal : forall x, (x = Ok peer <-> exists rec, resolves P o target rec /\ id_of_key (r_peer_key rec) = Some peer) ->
    (x = Ok peer <-> opens c (co_relay o) /\ (true = true /\ exists b0, Some b = Some b0) /\
      exists rec, resolves P o target rec /\ id_of_key (r_peer_key rec) = Some peer)).
  { intros x Hx. rewrite Hx. split; [|by intros (_ & _ & ?)]. intros H. split; [done|]. split; [|done]. split; [done|]. by exists b. }
  apply Hgoal. clear Hgoal. unfold read_lookup_response, resolves.
  destruct (co_found o) as [bf|x|x]; [|by split; [|intros (? & [(? & ? & _) _] & _)]..].
  destruct (decode_acn bf) as [[[| |[rec|]| |[s|]]|]|] eqn:Ed;
    try (split; [done|]; intros (rec' & [(b' & [= <-] & H) _] & _); congruence).
  assert (Hsame : forall rec' b', Ok bf = Ok b' -> decode_acn b' = Some (Some (PLookupResponse (Some rec'))) -> rec' = rec).
  { intros rec' b' [= <-] H. congruence. }
  destruct (por_cases P rec target (r_peer_key rec)) as [[Hr ->]|[[Hr (code & ->)]|[Hr (p & ->)]]]; cbn [orb negb].
  - change (0 =? SUCCESS) with true. cbn [negb]. destruct (id_of_key (r_peer_key rec)) as [pe|] eqn:Ei.
    + split.
      * intros [= ->]. exists rec. split; [|done]. split; [by exists bf|done].
      * intros (rec' & [(b' & Hb & Hd) _] & Hi). rewrite (Hsame _ _ Hb Hd) in Hi. congruence.
    + split; [done|]. intros (rec' & [(b' & Hb & Hd) _] & Hi). rewrite (Hsame _ _ Hb Hd) in Hi. congruence.
  - split; [done|]. intros (rec' & [(b' & Hb & Hd) Hr'] & Hi). by rewrite (Hsame _ _ Hb Hd) in Hr'.
  - split; [done|]. intros (rec' & [(b' & Hb & Hd) Hr'] & Hi). by rewrite (Hsame _ _ Hb Hd) in Hr'.
Qed.

(** The envelope is sent to the peer. *)
Definition sends (c : client) (e : envelope) (o : client_outcome) : Prop :=
  co_multiaddr o = true /\ co_connect o = true /\ opens c (co_peer o) /\ co_write o = true /\
  exists frame, carries frame e (Some (c_record c)).

Lemma send_spec c e peer o fs r :
  client_send c e peer o = (fs, r) ->
  (r = Returns (Ok tt) <-> sends c e o /\ client_confirmed o) /\
  (forall p frame, In (CPeer p frame) fs <-> sends c e o /\ p = peer /\ carries frame e (Some (c_record c))) /\
  (forall f, In f fs -> (exists b, f = CRegister b) \/ (exists p b, f = CPeer p b)) /\
  (length (List.filter (fun f => match f with CPeer _ _ => true | _ => false end) fs) <= 1)%nat.
Proof.
  unfold client_send, sends, client_confirmed. 
  destruct (co_multiaddr o); cbn [negb].
  2:{ intros [= <- <-]. repeat split; try done; try (by intros [(? & _) _]); try (by intros []); cbn; lia. }
  destruct (co_connect o); cbn [negb].
  2:{ intros [= <- <-]. repeat split; try done; try (by intros [(_ & ? & _) _]); try (by intros []); cbn; lia. }
  destruct (new_stream_loop c (co_peer o)) as [fs0 r0] eqn:E0. destruct (loop_spec _ _ _ _ E0) as [Ho Hf].
  assert (Hnil : List.filter (fun f => match f with CPeer _ _ => true | _ => false end) fs0 = []).
  { clear -Hf. induction fs0 as [|f fs0 IH]; [done|]. cbn. destruct (Hf f (or_introl eq_refl)) as [b ->].
    apply IH. intros f H. apply Hf. by right. }
  assert (Hnot : forall p b, ~ In (CPeer p b) fs0) by (intros p b [? ?]%Hf; done).
  assert (Hreg : forall f, In f fs0 -> (exists b, f = CRegister b) \/ exists p b, f = CPeer p b) by (left; by apply Hf).
  destruct r0 as [[[]|x|x]|].
  2-4: intros [= <- <-]; (split; [split; [done|]; by intros [(_ & _ & ?%Ho & _) _]|]);
      (split; [intros p b; split; [by intros ?%Hnot|by intros [(_ & _ & ?%Ho & _) _]]|]);
      (split; [done|]); rewrite Hnil; cbn; lia.
  assert (Hop : opens c (co_peer o)) by (by apply Ho). clear Ho.
  destruct (envelope_frame e (Some (c_record c))) as [frame|] eqn:Ef.
  2:{ apply no_frame in Ef. intros [= <- <-].
      split; [split; [done|]; by intros [(_ & _ & _ & _ & ?) _]|].
      split; [intros p b; split; [by intros ?%Hnot|by intros [(_ & _ & _ & _ & ?) _]]|].
      split; [done|]. rewrite Hnil. cbn. lia. }
  apply some_frame in Ef as Hc.
  destruct (co_write o); cbn [negb].
  2:{ intros [= <- <-].
      split; [split; [done|]; by intros [(_ & _ & _ & ? & _) _]|].
      split; [intros p b; split; [by intros ?%Hnot|by intros [(_ & _ & _ & ? & _) _]]|].
      split; [done|]. rewrite Hnil. cbn. lia. }
  intros [= <- <-].
  assert (Hs : true = true /\ true = true /\ opens c (co_peer o) /\ true = true /\ exists fr, carries fr e (Some (c_record c)))
    by eauto 10.
  split; [|split; [|split]].
  - rewrite <- status_ok. destruct (read_status (co_reply o)) as [[s|]|x|x]; try (by split; [|intros [_ ?]]).
    destruct (sb_code s =? SUCCESS); [done|]. by split; [|intros [_ ?]].
  - intros p b. rewrite in_app_iff. split.
    + intros [?%Hnot|[[= <- <-]|[]]]; [done|]. done.
    + intros (_ & -> & Hb). right. left. f_equal. destruct Hc as (b1 & ? & ?), Hb as (b2 & ? & ?). congruence.
  - intros f [H|[<-|[]]]%in_app_iff; [by apply Hreg|]. right. eauto.
  - rewrite List.filter_app, Hnil. cbn. lia.
Qed.

Lemma network_spec c e o fs r :
  client_network P id_of_key c e o = (fs, r) ->
  (r = Returns (Ok tt) <->
     opens c (co_relay o) /\ asked o (e_to e) /\
     (exists rec peer, resolves P o (e_to e) rec /\ id_of_key (r_peer_key rec) = Some peer) /\
     sends c e o /\ client_confirmed o) /\
  (forall p frame, In (CPeer p frame) fs <->
     opens c (co_relay o) /\ asked o (e_to e) /\
     (exists rec, resolves P o (e_to e) rec /\ id_of_key (r_peer_key rec) = Some p) /\
     sends c e o /\ carries frame e (Some (c_record c))) /\
  (forall e', ~ In (CAgent e') fs) /\
  (length (List.filter (fun f => match f with CPeer _ _ => true | _ => false end) fs) <= 1)%nat.
Proof.
  unfold client_network. destruct (client_lookup P id_of_key c (e_to e) o) as [fs0 r0] eqn:E0.
  destruct (lookup_spec _ _ _ _ _ E0) as [Hl Hf].
  assert (Hnil : List.filter (fun f => match f with CPeer _ _ => true | _ => false end) fs0 = []).
  { clear -Hf. induction fs0 as [|f fs0 IH]; [done|]. cbn.
    destruct (Hf f (or_introl eq_refl)) as [[b ->]|[b ->]]; apply IH; intros f H; apply Hf; by right. }
  assert (Hnot : forall p b, ~ In (CPeer p b) fs0) by (intros p b [[? ?]|[? ?]]%Hf; done).
  assert (Hag : forall e', ~ In (CAgent e') fs0) by (intros e' [[? ?]|[? ?]]%Hf; done).
  destruct r0 as [[peer|x|x]|].
  2-4: intros [= <- <-]; (split; [split; [done|]; intros (H1 & H2 & (rec & peer & H3 & H4) & _);
        assert (Hx := proj2 (Hl peer) (conj H1 (conj H2 (ex_intro _ rec (conj H3 H4))))); done|]);
      (split; [intros p b; split; [by intros ?%Hnot|]; intros (H1 & H2 & (rec & H3 & H4) & _);
        assert (Hx := proj2 (Hl p) (conj H1 (conj H2 (ex_intro _ rec (conj H3 H4))))); done|]);
      (split; [done|]); rewrite Hnil; cbn; lia.
  destruct (client_send c e peer o) as [fs1 r1] eqn:E1. destruct (send_spec _ _ _ _ _ _ E1) as (Hr & Hp & Hf1 & Hc).
  intros [= <- <-]. destruct (proj1 (Hl peer) eq_refl) as (H1 & H2 & (rec & H3 & H4)).
  split; [|split; [|split]].
  - rewrite Hr. split; [|by intros (_ & _ & _ & ?)]. intros [? ?]. split; [done|]. split; [done|]. split; [by exists rec, peer|done].
  - intros p b. rewrite in_app_iff. split.
    + intros [?%Hnot|(Hs & -> & Hb)%Hp]; [done|]. split; [done|]. split; [done|]. split; [by exists rec|done].
    + intros (_ & _ & (rec' & H5 & H6) & Hs & Hb). right. apply Hp. split; [done|]. split; [|done].
      assert (Hx := proj2 (Hl p) (conj H1 (conj H2 (ex_intro _ rec' (conj H5 H6))))). by injection Hx as ->.
  - intros e' [?%Hag|[[? ?]|(? & ? & ?)]%Hf1]%in_app_iff; done.
  - by rewrite List.filter_app, Hnil.
Qed.
End C47.

(** The route through the network succeeds exactly if the relay peer gave a proof of
    representation for the recipient, the peer named in it was reached, and that peer
    confirmed the envelope. *)
Definition delivered (P : prims) (id_of_key : string -> option string) (c : client) (e : envelope) (o : client_outcome) : Prop :=
  opens c (co_relay o) /\ asked o (e_to e) /\
  (exists rec peer, resolves P o (e_to e) rec /\ id_of_key (r_peer_key rec) = Some peer) /\
  sends c e o /\ client_confirmed o.

(** When RouteEnvelope of a client node returns nil. *)
Theorem C47_success P id_of_key c e o fs :
  client_route P id_of_key c e o = (fs, Returns (Ok tt)) <->
  e_sender e = c_addr c /\
  ((e_to e = c_addr c /\ co_ready o = true /\ c_handler c = false /\ fs = []) \/
   (e_to e = c_addr c /\ co_ready o = true /\ c_handler c = true /\ co_agent o = Ok tt /\
      delivered P id_of_key c e o /\ fs = CAgent e :: fst (client_network P id_of_key c e o)) \/
   (e_to e <> c_addr c /\ delivered P id_of_key c e o /\ fs = fst (client_network P id_of_key c e o))).
Proof.
  unfold client_route. destruct (client_network P id_of_key c e o) as [fs1 r1] eqn:En.
  destruct (network_spec _ _ _ _ _ _ _ En) as (Hr & _). fold (delivered P id_of_key c e o) in Hr.
  destruct (String.eqb_spec (e_sender e) (c_addr c)) as [Es|Es]; cbn [negb].
  2:{ split; [done|]. by intros [? _]. }
  destruct (String.eqb_spec (e_to e) (c_addr c)) as [Et|Et].
  - destruct (co_ready o); cbn [negb].
    2:{ split; [done|]. by intros (_ & [(_ & ? & _)|[(_ & ? & _)|(? & _)]]). }
    destruct (c_handler c).
    + destruct (co_agent o) as [[]|x|x].
      2,3: split; [done|]; by intros (_ & [(_ & _ & ? & _)|[(_ & _ & _ & ? & _)|(? & _)]]).
      cbn [fst]. split.
      * intros [= <- ->]. split; [done|]. right; left. do 4 (split; [done|]). split; [by apply Hr|done].
      * intros (_ & [(_ & _ & ? & _)|[(_ & _ & _ & _ & ->%Hr & ->)|(? & _)]]); done.
    + split.
      * intros [= <-]. split; [done|]. by left.
      * by intros (_ & [(_ & _ & _ & ->)|[(_ & _ & ? & _)|(? & _)]]).
  - cbn [fst]. split.
    + intros [= <- ->]. split; [done|]. right; right. split; [done|]. split; [by apply Hr|done].
    + intros (_ & [(? & _)|[(? & _)|(_ & ->%Hr & ->)]]); done.
Qed.
Print Assumptions C47_success.

(** So an envelope to the own agent that was taken by it and reported as delivered was
    also sent to, and confirmed by, a peer in the network. *)
Theorem C47_twice P id_of_key c e o fs :
  client_route P id_of_key c e o = (fs, Returns (Ok tt)) -> e_to e = c_addr c -> c_handler c = true ->
  exists rec peer frame, In (CAgent e) fs /\ In (CPeer peer frame) fs /\ carries frame e (Some (c_record c)) /\
    represents P rec (e_to e) (r_peer_key rec) /\ id_of_key (r_peer_key rec) = Some peer.
Proof.
  intros (_ & [(_ & _ & ? & _)|[(_ & _ & _ & _ & Hd & ->)|(? & _)]])%C47_success Ht Hh; [congruence| |done].
  destruct (client_network P id_of_key c e o) as [fs1 r1] eqn:En.
  destruct (network_spec _ _ _ _ _ _ _ En) as (_ & Hp & _).
  destruct Hd as (H1 & H2 & (rec & peer & H3 & H4) & Hs & Hc). pose proof Hs as (_ & _ & _ & _ & frame & Hf).
  exists rec, peer, frame. cbn [fst]. split; [by left|]. split.
  - right. apply Hp. do 2 (split; [done|]). split; [by exists rec|done].
  - split; [done|]. split; [apply H3|done].
Qed.
Print Assumptions C47_twice.

(** An envelope leaves the client only under its own address, only to the peer proved
    to represent the recipient, and at most once per call. *)
Theorem C47_sent P id_of_key c e o fs r p frame :
  client_route P id_of_key c e o = (fs, r) -> In (CPeer p frame) fs ->
  e_sender e = c_addr c /\ carries frame e (Some (c_record c)) /\
  (exists rec, resolves P o (e_to e) rec /\ id_of_key (r_peer_key rec) = Some p) /\
  length (List.filter (fun f => match f with CPeer _ _ => true | _ => false end) fs) = 1%nat.
Proof.
  unfold client_route. destruct (client_network P id_of_key c e o) as [fs1 r1] eqn:En.
  destruct (network_spec _ _ _ _ _ _ _ En) as (_ & Hp & _ & Hc).
  assert (Hone : forall p frame, In (CPeer p frame) fs1 ->
    carries frame e (Some (c_record c)) /\ (exists rec, resolves P o (e_to e) rec /\ id_of_key (r_peer_key rec) = Some p) /\
    length (List.filter (fun f => match f with CPeer _ _ => true | _ => false end) fs1) = 1%nat).
  { intros p' f' Hin. pose proof Hin as (_ & _ & Hx & _ & Hy)%Hp. split; [done|]. split; [done|].
    assert (Hf : In (CPeer p' f') (List.filter (fun f => match f with CPeer _ _ => true | _ => false end) fs1))
      by (by apply filter_In).
    destruct (List.filter _ fs1) as [|f1 [|f2 l]]; [done|done|cbn in Hc; lia]. }
  destruct (String.eqb_spec (e_sender e) (c_addr c)) as [Es|Es]; cbn [negb]; [|by intros [= <- _] []].
  destruct (String.eqb (e_to e) (c_addr c)).
  - destruct (co_ready o); cbn [negb]; [|by intros [= <- _] []].
    destruct (c_handler c); [|by intros [= <- _] []].
    destruct (co_agent o); [|by intros [= <- _] [?|[]]..].
    intros [= <- _] [?|Hin]; [done|]. destruct (Hone _ _ Hin) as (? & ? & ?). done.
  - intros [= <- _] Hin. destruct (Hone _ _ Hin) as (? & ? & ?). done.
Qed.
Print Assumptions C47_sent.

(** Envelopes under another sender are refused without effect. *)
Theorem C47_refused P id_of_key c e o :
  e_sender e <> c_addr c -> exists x, client_route P id_of_key c e o = ([], Returns (Err x)).
Proof.
  intros H. unfold client_route. destruct (String.eqb_spec (e_sender e) (c_addr c)); [done|]. cbn [negb]. eauto.
Qed.
Print Assumptions C47_refused.

(** An answer without content, of the relay peer or of the peer written to, crashes the
    client. *)
Theorem C47_crash P id_of_key c e o :
  e_sender e = c_addr c -> e_to e <> c_addr c -> opens c (co_relay o) -> asked o (e_to e) ->
  (forall b, co_found o = Ok b -> decode_acn b = Some (Some (PLookupResponse None)) \/ decode_acn b = Some (Some (PStatus None)) ->
     exists fs x, client_route P id_of_key c e o = (fs, Returns (Panic x))) /\
  (forall b rec peer, resolves P o (e_to e) rec -> id_of_key (r_peer_key rec) = Some peer -> sends c e o ->
     co_reply o = Ok b -> decode_acn b = Some (Some (PStatus None)) ->
     exists fs x, client_route P id_of_key c e o = (fs, Returns (Panic x))).
Proof.
  intros Hs Ht Hop [Ha (q & Hq)]. unfold client_route. rewrite (proj2 (String.eqb_eq _ _) Hs). cbn [negb].
  destruct (String.eqb_spec (e_to e) (c_addr c)) as [?|_]; [done|]. unfold client_network. split.
  - intros b Hb Hd. unfold client_lookup. destruct (new_stream_loop c (co_relay o)) as [fs0 r0] eqn:E0.
    destruct (loop_spec _ _ _ _ E0) as [Ho _]. rewrite (proj2 Ho Hop), Hq, Ha. cbn [negb].
    unfold read_lookup_response. rewrite Hb. destruct Hd as [-> | ->]; eauto.
  - intros b rec peer Hr Hi Hse Hb Hd. destruct (client_lookup P id_of_key c (e_to e) o) as [fs0 r0] eqn:E0.
    destruct (lookup_spec _ _ _ _ _ _ _ E0) as [Hl _].
    assert (Hx : r0 = Returns (Ok peer)).
    { apply Hl. split; [done|]. split; [split; [done|by exists q]|]. by exists rec. }
    rewrite Hx. clear Hx Hl E0. destruct (client_send c e peer o) as [fs1 r1] eqn:E1.
    destruct Hse as (H1 & H2 & H3 & H4 & frame & H5). revert E1. unfold client_send. rewrite H1, H2. cbn [negb].
    destruct (new_stream_loop c (co_peer o)) as [fs2 r2] eqn:E2. destruct (loop_spec _ _ _ _ E2) as [Ho _].
    rewrite (proj2 Ho H3). destruct (envelope_frame e (Some (c_record c))) as [fr|] eqn:Ef; [|apply no_frame in Ef; destruct Ef; by exists frame].
    rewrite H4. cbn [negb].
    unfold read_status. rewrite Hb, Hd. intros [= <- <-]. eauto.
Qed.
Print Assumptions C47_crash.

(** Expected but false: an envelope to the own agent is delivered exactly once; the
    error of the network part is reported though the agent has the envelope. *)
Definition open_now : loop_outcome := LoopOutcome true [] (StreamOutcome false false (Err "")).
Definition self_outcome (reply : res bytes) : client_outcome :=
  ClientOutcome true (Ok tt) open_now true (frame_of (PLookupResponse (Some alice))) true true open_now true reply.
Definition me : client := Client (r_address alice) alice true.
Definition to_self : envelope := env (r_address alice) (r_address alice) "hello".

Theorem C47_own_once_refuted :
  (exists fs x, client_route toy toy_id me to_self (self_outcome (Err "timeout")) = (fs, Returns (Err x)) /\ In (CAgent to_self) fs) /\
  (exists fs frame, client_route toy toy_id me to_self (self_outcome (status_reply 0)) = (fs, Returns (Ok tt)) /\
     In (CAgent to_self) fs /\ In (CPeer "Qm2" frame) fs /\ carries frame to_self (Some alice)).
Proof.
  split.
  - eexists _, _. split; [vm_compute; reflexivity|]. by left.
  - eexists _, _. split; [vm_compute; reflexivity|]. split; [by left|]. split; [right; right; by left|].
    apply some_frame. vm_compute. reflexivity.
Qed.
Print Assumptions C47_own_once_refuted.

Example C47_example :
  let e := env (r_address alice) "bob" "hello" in
  let c := Client "bob" bob false in
  (match client_route toy toy_id c e (self_outcome (status_reply 0)) with
   | ([CLookup _; CPeer "Qm2" _], Returns (Ok tt)) => true | _ => false end) = true /\
  client_route toy toy_id c (env "bob" "eve" "hello") (self_outcome (status_reply 0)) =
    ([], Returns (Err "Sender must match registered address")).
Proof. vm_compute. done. Qed.

(** ** C48 *)

(** The retry loops return exactly if an attempt succeeds that was made before they
    found the deadline past; attempts before it failed. *)
Theorem C48_returns rounds :
  retry_rounds rounds = Returns (Ok tt) <->
  exists n a, rounds !! n = Some a /\ at_expired a = false /\ at_ok a = true.
Proof.
  induction rounds as [|a rounds IH]; cbn.
  - split; [done|]. intros (n & a & H & _). by rewrite lookup_nil in H.
  - assert (Hrec : (exists n b, (a :: rounds) !! n = Some b /\ at_expired b = false /\ at_ok b = true) <->
      (at_expired a = false /\ at_ok a = true) \/ exists n b, rounds !! n = Some b /\ at_expired b = false /\ at_ok b = true).
    { split.
      - intros ([|n] & b & H & ?); [injection H as ->; by left|]. right. by exists n, b.
      - intros [H|(n & b & H)]; [by exists 0%nat, a|]. by exists (S n), b. }
    rewrite Hrec. destruct (at_expired a).
    + rewrite IH. split; [by right|]. by intros [[? _]|?].
    + destruct (at_ok a).
      * split; [by left|done].
      * rewrite IH. split; [by right|]. by intros [[_ ?]|?].
Qed.
Print Assumptions C48_returns.

(** A deadline that has passed stays past. *)
Definition monotone (rounds : list attempt) : Prop :=
  forall i j a b, (i <= j)%nat -> rounds !! i = Some a -> rounds !! j = Some b -> at_expired a = true -> at_expired b = true.

(** Once the deadline has passed without success the loops never return, however long
    they run. *)
Theorem C48_never rounds more :
  monotone (rounds ++ more) -> retry_rounds rounds = Hangs -> (exists a, In a rounds /\ at_expired a = true) ->
  retry_rounds (rounds ++ more) = Hangs /\ bootstrap_loop false (rounds ++ more) = Hangs.
Proof.
  intros Hm Hh (a & Ha & He).
  assert (H : retry_rounds (rounds ++ more) = Hangs); [|by split].
  assert (Hall : Forall (fun b => at_expired b = true) more).
  { apply Forall_lookup. intros j b Hb. apply elem_of_list_In, elem_of_list_lookup in Ha as [i Hi].
    apply (Hm i (length rounds + j)%nat a b); [|by apply lookup_app_l_Some| |done].
    - apply lookup_lt_Some in Hi. lia.
    - rewrite lookup_app_r by lia. by replace (length rounds + j - length rounds)%nat with j by lia. }
  destruct (retry_rounds (rounds ++ more)) as [r|] eqn:E; [|done].
  pose proof (retry_returns _ _ E) as ->. apply C48_returns in E as (n & b & Hb & Hx & Ho).
  exfalso. destruct (decide (n < length rounds)%nat) as [Hl|Hl].
  - rewrite lookup_app_l in Hb by done.
    assert (retry_rounds rounds = Returns (Ok tt)) by (apply C48_returns; by exists n, b). congruence.
  - rewrite lookup_app_r in Hb by lia. rewrite Forall_lookup in Hall. specialize (Hall _ _ Hb). congruence.
Qed.
Print Assumptions C48_never.

(** The loops never report an error of their own; a stream that opened after a retry
    is thrown away if registering again fails. *)
Theorem C48_stream c o fs r :
  new_stream_loop c o = (fs, Returns r) -> r <> Ok tt ->
  lo_first o = false /\ retry_rounds (lo_rounds o) = Returns (Ok tt) /\ ~ registered_again c (lo_register o).
Proof.
  intros H Hr. pose proof (loop_spec _ _ _ _ H) as [Ho _]. revert H. unfold new_stream_loop.
  destruct (lo_first o) eqn:Ef; [by intros [= _ <-]|].
  destruct (retry_rounds (lo_rounds o)) as [x|] eqn:E; [|done]. apply retry_returns in E as Ex. subst x.
  intros _. split; [done|]. split; [done|]. intros Hg.
  assert (Hx : Returns r = Returns (Ok tt)) by (apply Ho; right; done). congruence.
Qed.
Print Assumptions C48_stream.

(** The loop that reconnects to the relay peer does stop: exactly when it connects or
    finds the client closing. *)
Theorem C48_reconnect rounds b :
  reconnect rounds = Returns (Ok b) <->
  exists before a after, rounds = before ++ a :: after /\
    Forall (fun x => at_expired x = false /\ at_ok x = false) before /\
    (at_expired a = true /\ b = false \/ at_expired a = false /\ at_ok a = true /\ b = true).
Proof.
  induction rounds as [|a rounds IH]; cbn.
  - split; [done|]. by intros ([] & ? & ? & ? & _).
  - split.
    + destruct (at_expired a) eqn:Ee; [intros [= <-]; exists [], a, rounds; split; [done|]; split; [constructor|]; tauto|].
      destruct (at_ok a) eqn:Eo; [intros [= <-]; exists [], a, rounds; split; [done|]; split; [constructor|]; tauto|].
      intros (before & a' & after & -> & Hb & Ha)%IH. exists (a :: before), a', after. split; [done|]. split; [|done].
      by constructor.
    + intros (before & a' & after & E & Hb & Ha). destruct before as [|x before].
      * injection E as <- <-. destruct Ha as [[-> ->]|(-> & -> & ->)]; done.
      * injection E as <- ->. inversion Hb as [|? ? [H1 H2] Hb']; subst. rewrite H1, H2. apply IH. by exists before, a', after.
Qed.
Print Assumptions C48_reconnect.

Example C48_example :
  retry_rounds [Attempt false false; Attempt false true; Attempt true false] = Returns (Ok tt) /\
  retry_rounds (replicate 100 (Attempt false false) ++ replicate 1000 (Attempt true true)) = Hangs /\
  bootstrap_loop true [] = Returns (Ok tt) /\
  reconnect [Attempt false false; Attempt true true] = Returns (Ok false).
Proof. vm_compute. done. Qed.
