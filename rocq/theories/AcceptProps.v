(** Properties of taking delegate connections (C77). *)
From Coq Require Import ZArith NArith List String Ascii Lia.
From stdpp Require Import base tactics gmap list strings.
From Verif Require Import GoBase Bytes HexModel FrameModel FrameProofs FrameProps CryptoModel CryptoProofs CryptoProps
  AgentModel AgentProps KeyModel KeyProps AcceptModel.
Open Scope string_scope.
Open Scope list_scope.
Open Scope Z_scope.

(** The connections in the log, in order, and those with a handler. *)
Definition settled (l : list aentry) : list nat :=
  omap (fun x => match x with Handled c | Left_ c => Some c | Refused => None end) l.
Definition handled (l : list aentry) : list nat := omap (fun x => match x with Handled c => Some c | _ => None end) l.
(** The connection whose signature is being written. *)
Definition current (s : acceptor) : list nat := match ac_at s with SWrite c => [c] | _ => [] end.

Lemma settled_app l1 l2 : settled (l1 ++ l2) = settled l1 ++ settled l2.
Proof. apply omap_app. Qed.
Lemma handled_app l1 l2 : handled (l1 ++ l2) = handled l1 ++ handled l2.
Proof. apply omap_app. Qed.

Lemma run_inv (I : acceptor -> Prop) :
  (forall s v s', I s -> accept_step s v = Some s' -> I s') ->
  forall vs s s', I s -> accept_run s vs = Some s' -> I s'.
Proof.
  intros H. induction vs as [|v vs IH]; intros s s' Hs; cbn [accept_run].
  - by intros [= <-].
  - destruct (accept_step s v) as [s1|] eqn:E; [|done]. apply IH. eapply H; eauto.
Qed.

(** All steps, with their conditions. *)
Ltac steps :=
  repeat match goal with
  | H : accept_step ?s ?v = Some _ |- _ => destruct s as [at_ rd bl ar rs cl sh lg], v; cbn in H
  | H : context [match ?x with _ => _ end] |- _ => destruct x eqn:?; try done
  | H : Some _ = Some _ |- _ => injection H as <-
  end; cbn in *; subst.

(** Every connection is taken at most once, in the order of arrival, by the one loop. *)
Theorem C77_order vs s :
  accept_run acceptor0 vs = Some s ->
  ac_arrived s = settled (ac_log s) ++ current s ++ ac_reset s ++ ac_backlog s /\
  (ac_reset s = [] \/ ac_backlog s = []) /\
  (NoDup (ac_arrived s) -> NoDup (handled (ac_log s))).
Proof.
  intros H.
  assert (Hi : ac_arrived s = settled (ac_log s) ++ current s ++ ac_reset s ++ ac_backlog s /\
    (ac_shut s = false -> ac_reset s = []) /\ (ac_shut s = true -> ac_backlog s = [])).
  { revert H. apply (run_inv (fun s => ac_arrived s = settled (ac_log s) ++ current s ++ ac_reset s ++ ac_backlog s /\
      (ac_shut s = false -> ac_reset s = []) /\ (ac_shut s = true -> ac_backlog s = []))); [|by split_and!].
    clear. intros s v s' (H & H1 & H2) E. steps; unfold current in *; cbn in *; rewrite ?settled_app, ?app_nil_r;
      rewrite ?H1, ?H2 in * by done; cbn in *; rewrite ?app_nil_r in *; split_and!; try done;
      rewrite <- ?app_assoc; cbn; rewrite ?app_assoc; try done.
    by rewrite H, !app_assoc. }
  destruct Hi as (Ha & H1 & H2). split; [done|]. split; [destruct (ac_shut s); [right; auto|left; auto]|].
  intros Hn. rewrite Ha in Hn. apply NoDup_app in Hn as (Hn & _).
  clear -Hn. induction (ac_log s) as [|[c|c|] l IH]; cbn in *; [constructor| | |by apply IH].
  - apply NoDup_cons in Hn as [H1 H2]. constructor; [|by apply IH]. intros Hin. apply H1.
    change (c ∈ handled l) in Hin. apply elem_of_list_omap in Hin as ([c'|c'|] & Hx & [= ->]).
    apply elem_of_list_omap. by exists (Handled c).
  - apply NoDup_cons in Hn as [_ H2]. by apply IH.
Qed.
Print Assumptions C77_order.

(** New is told once, before the first connection is taken, that the service listens. *)
Theorem C77_ready vs s :
  accept_run acceptor0 vs = Some s ->
  (ac_ready s <= 1)%nat /\ (ac_log s <> [] \/ current s <> [] \/ ac_at s = SAccept -> ac_ready s = 1%nat).
Proof.
  intros H. revert H.
  apply (run_inv (fun s => (ac_ready s <= 1)%nat /\ (ac_log s <> [] \/ current s <> [] \/ ac_at s = SAccept -> ac_ready s = 1%nat)));
    [|cbn; split; [lia|]; by intros [?|[?|?]]].
  clear. intros s v s' [H1 H2] E. steps; unfold current in *; cbn in *; split; try lia; intros; apply H2 || lia; eauto.
  all: try (by right; left). all: try (by right; right). naive_solver.
Qed.
Print Assumptions C77_ready.

(** While a client leaves the handshake open nobody else is served, whatever happens, and
    the loop does not end even when the node is closed. *)
Theorem C77_blocked s c vs s' :
  ac_at s = SWrite c -> (forall ok, ~ In (VWritten ok) vs) -> accept_run s vs = Some s' ->
  ac_at s' = SWrite c /\ ac_log s' = ac_log s.
Proof.
  revert s. induction vs as [|v vs IH]; intros s Hs Hv; cbn [accept_run].
  - by intros [= <-].
  - destruct (accept_step s v) as [s1|] eqn:E; [|done].
    assert (H : ac_at s1 = SWrite c /\ ac_log s1 = ac_log s).
    { assert (Hw : forall ok, v <> VWritten ok) by (intros ok ->; apply (Hv ok); by left).
      clear Hv IH. steps; try done; try congruence. all: by edestruct Hw. }
    destruct H as [H1 H2]. intros Hrun. destruct (IH s1 H1) as [H3 H4]; [intros ok Hin; apply (Hv ok); by right|done|].
    split; [done|]. congruence.
Qed.
Print Assumptions C77_blocked.

(** The next connection served is the first that waits: if clients do their handshakes and
    the node runs, all who wait are served in order. *)
Theorem C77_served s :
  ac_at s = STop -> ac_closing s = false -> ac_shut s = false ->
  exists s', accept_run s (flat_map (fun _ => [VLoop; VLoop; VWritten true]) (ac_backlog s)) = Some s' /\
    ac_log s' = ac_log s ++ map Handled (ac_backlog s) /\ ac_backlog s' = [] /\ ac_at s' = STop.
Proof.
  destruct s as [at_ rd bl ar rs cl sh lg]. cbn. intros -> -> ->. revert rd ar lg.
  induction bl as [|c bl IH]; intros rd ar lg; cbn.
  - eexists. split; [done|]. by rewrite app_nil_r.
  - destruct (IH (match rd with O => 1 | S n => S n end)%nat ar (lg ++ [Handled c])) as (s' & H1 & H2 & H3 & H4).
    exists s'. split; [exact H1|]. by rewrite H2, <- app_assoc.
Qed.
Print Assumptions C77_served.

(** A failed Accept, or a client that goes away during the handshake, does not stop the
    service: only Close does. *)
Theorem C77_ends vs s :
  accept_run acceptor0 vs = Some s -> ac_at s = SEnd -> In VClose vs.
Proof.
  intros H Hs.
  enough (Hc : ac_closing s = true).
  { assert (Hg : forall vs s0 s1, accept_run s0 vs = Some s1 -> ac_closing s0 = false -> ac_closing s1 = true -> In VClose vs).
    { clear. induction vs as [|v vs IH]; intros s0 s1; cbn [accept_run].
      - intros [= <-]. congruence.
      - destruct (accept_step s0 v) as [s2|] eqn:E; [|done]. intros Hr H0 H1.
        destruct (ac_closing s2) eqn:E2; [|right; by eapply IH].
        left. steps; congruence. }
    by apply (Hg vs acceptor0 s). }
  revert Hs. revert H.
  apply (run_inv (fun s => ac_at s = SEnd -> ac_closing s = true)); [|done].
  clear. intros s v s' IH E. steps; try done; auto.
Qed.
Print Assumptions C77_ends.

(** At most one connection is served after Close has begun, and none after the loop ended. *)
Theorem C77_last s vs s' :
  ac_closing s = true -> accept_run s vs = Some s' ->
  (length (handled (ac_log s')) <= length (handled (ac_log s)) + match ac_at s with SEnd | STop => 0 | _ => 1 end)%nat.
Proof.
  revert s. induction vs as [|v vs IH]; intros s Hs; cbn [accept_run].
  - intros [= <-]. lia.
  - destruct (accept_step s v) as [s1|] eqn:E; [|done]. intros Hrun.
    assert (Hc : ac_closing s1 = true) by (steps; congruence).
    specialize (IH s1 Hc Hrun).
    assert (H : (length (handled (ac_log s1)) + match ac_at s1 with SEnd | STop => 0 | _ => 1 end <=
      length (handled (ac_log s)) + match ac_at s with SEnd | STop => 0 | _ => 1 end)%nat).
    { clear -E Hs. steps; try congruence; rewrite ?handled_app, ?app_length, ?app_nil_r; cbn; unfold handled; try lia. }
    lia.
Qed.
Print Assumptions C77_last.

(** Once the listener is closed the loop ends with its next steps, unless a client leaves
    its handshake open. *)
Theorem C77_stops s :
  ac_closing s = true -> ac_shut s = true ->
  match ac_at s with
  | SEnd => True
  | STop => exists s', accept_run s [VLoop] = Some s' /\ ac_at s' = SEnd
  | SAccept => exists s', accept_run s [VLoop; VLoop] = Some s' /\ ac_at s' = SEnd
  | SWrite c => forall ok, exists s', accept_run s [VWritten ok; VLoop] = Some s' /\ ac_at s' = SEnd
  end.
Proof.
  destruct s as [at_ rd bl ar rs cl sh lg]. cbn. intros -> ->. destruct at_; cbn; [by eexists..|]. done.
Qed.
Print Assumptions C77_stops.

(** A connection is served although Close has begun; a failed Accept is retried at once and
    for ever; a client that went away during the handshake is neither served nor closed. *)
Theorem C77_late_refuted :
  exists vs1 vs2 s, accept_run acceptor0 (vs1 ++ VClose :: vs2) = Some s /\ handled (ac_log s) = [7%nat] /\
    forall s1, accept_run acceptor0 vs1 = Some s1 -> ac_log s1 = [].
Proof.
  exists [VLoop], [VArrive 7; VLoop; VWritten true; VShut; VLoop]. eexists. split; [vm_compute; reflexivity|].
  split; [reflexivity|]. intros s1 H. vm_compute in H. by injection H as <-.
Qed.
Print Assumptions C77_late_refuted.

Theorem C77_spin_refuted n :
  exists s, accept_run acceptor0 (flat_map (fun _ => [VLoop; VFails]) (replicate n tt)) = Some s /\
    ac_at s = STop /\ ac_log s = replicate n Refused.
Proof.
  assert (H : forall n s, ac_at s = STop -> ac_closing s = false -> ac_shut s = false ->
    exists s', accept_run s (flat_map (fun _ => [VLoop; VFails]) (replicate n tt)) = Some s' /\
      ac_at s' = STop /\ ac_log s' = ac_log s ++ replicate n Refused).
  { clear. induction n as [|n IH]; intros [at_ rd bl ar rs cl sh lg]; cbn; intros -> -> ->.
    - eexists. split; [done|]. by rewrite app_nil_r.
    - destruct (IH (Acceptor STop (match rd with O => 1 | S n => S n end)%nat bl ar rs false false (lg ++ [Refused]))) as (s' & H1 & H2 & H3); [done..|].
      exists s'. split; [exact H1|]. split; [done|]. rewrite H3. cbn [ac_log]. by rewrite <- app_assoc. }
  exact (H n acceptor0 eq_refl eq_refl eq_refl).
Qed.
Print Assumptions C77_spin_refuted.

Theorem C77_left_refuted c :
  exists vs s, accept_run acceptor0 vs = Some s /\ ac_arrived s = [c] /\ settled (ac_log s) = [c] /\ handled (ac_log s) = [] /\
    ac_at s = SEnd.
Proof.
  exists [VArrive c; VLoop; VLoop; VWritten false; VClose; VShut; VLoop]. eexists. split; [cbn; reflexivity|]. done.
Qed.
Print Assumptions C77_left_refuted.

Example C77_example :
  (match accept_run acceptor0 [VLoop; VArrive 1; VArrive 2; VLoop; VArrive 3; VWritten true; VLoop; VFails; VLoop; VLoop; VWritten false;
           VLoop; VLoop; VClose; VArrive 4; VShut; VArrive 5; VWritten true; VLoop] with
   | Some s => ac_log s = [Handled 1; Refused; Left_ 2; Handled 3] /\ ac_reset s = [4%nat] /\ ac_ready s = 1%nat /\ ac_at s = SEnd
   | None => False end) /\
  (match accept_run acceptor0 [VArrive 1; VArrive 2; VLoop; VLoop; VClose; VShut] with
   | Some s => ac_at s = SWrite 1 /\ ac_reset s = [2%nat] /\ accept_step s VLoop = None
   | None => False end).
Proof. vm_compute. done. Qed.

(** ** Who the node is *)

Section Greeting.
  Context (pt : Type) (P : prims).
  Context (parse : bytes -> option pt) (compress : pt -> bytes) (pub_of : bytes -> pt).
  Context (check : pt -> Z -> Z -> bytes -> bool) (sign : bytes -> bytes -> option bytes) (peer_id : pt -> string).

  (** The agent reads the greeting from the connection and checks it against the last
      certificate, for the node whose key it was given. *)
  Definition agent_connects (key : string) (certs : list (option bytes)) (c : conn) : res unit :=
    socket_connect
      (fun t => match lenient_key pt parse t with Ok p => Some (compress p) | _ => None end)
      (fun k data sig => match parse k with Some p => libp2p_verify pt P check p data sig | None => Err "" end)
      key (Dial true certs (fst (read_conn None c))).

  Lemma der_of_length r s : 0 < r < curve_n -> 0 < s < curve_n ->
    (8 <= length (der_of r s) <= 72)%nat.
  Proof.
    intros Hr Hs. pose proof curve_n_256.
    destruct (der_int_spec r) as (_ & _ & ?); [lia|]. destruct (der_int_spec s) as (_ & _ & ?); [lia|].
    unfold der_of. rewrite !app_length. cbn [length]. lia.
  Qed.

  (** What a node sends first to every connection makes an agent that was given the node's
      key connect if it arrives with the certificate it was made for. With another
      certificate the agent connects only if the signature is one for that as well; an agent
      that was given another key only if it is a signature under that key. *)
  Theorem C77_greeting d cert r s :
    signs pt P pub_of check sign d cert r s ->
    exists g, greeting (sign d) cert = Ok g /\
      forall p cert' certs rest, readable pt parse compress p ->
        (agent_connects (key_text pt compress p) (certs ++ [Some cert']) ((g ++ rest) :: nil) = Ok tt <->
         check p r s (p_sha256 P cert') = true).
  Proof.
    intros (Hr & Hs & Hd & Hc). unfold greeting. rewrite Hd. pose proof (der_of_length r s Hr Hs) as Hl.
    assert (Hne : der_of r s <> []) by (intros E; rewrite E in Hl; cbn in Hl; lia).
    exists (frame (der_of r s)). split; [by apply C26_writers; [done|lia]|].
    intros p cert' certs rest Hp. unfold agent_connects. rewrite C62_pinned. cbn [dl_ok dl_certs dl_signature].
    destruct (C25_body None (der_of r s) rest (der_of r s ++ rest) [] [frame (der_of r s) ++ rest]) as (msg & c' & E & _ & _ & Hmsg & _).
    { done. } { lia. } { done. } { by destruct (der_of r s). } { by rewrite app_nil_r. }
    { left. unfold frame. by rewrite app_assoc. }
    rewrite E. cbn [fst].
    assert (msg = der_of r s) as ->. { apply Hmsg. left. rewrite app_length. lia. }
    destruct (C73_round_trip pt parse compress peer_id p Hp) as (_ & Hlen & _). rewrite Hlen.
    unfold libp2p_verify. split.
    - intros (_ & cs & pub & pk & sg & Hcs & [= <-] & [= <-] & Hv). apply app_inj_tail in Hcs as [_ [= <-]].
      rewrite Hp, (der_of_parse r s Hr Hs) in Hv. by injection Hv.
    - intros Hv. split; [done|]. exists certs, cert', (compress p), (der_of r s). split_and!; try done.
      by rewrite Hp, (der_of_parse r s Hr Hs), Hv.
  Qed.
End Greeting.
Print Assumptions C77_greeting.

(** In particular the agent of the node connects. *)
Example C77_greeting_example :
  signs bytes (tiny 7 9) tiny_pub (tiny_check 7 9) (tiny_sign 7 9) (bytes_of "secret") (bytes_of "cert") 7 9 /\
  (match greeting (tiny_sign 7 9 (bytes_of "secret")) (bytes_of "cert") with
   | Ok g => g = map z2b [0; 0; 0; 8; 48; 6; 2; 1; 7; 2; 1; 9] /\
       agent_connects bytes (tiny 7 9) tiny_parse id (tiny_check 7 9) (key_text bytes id (tiny_pub (bytes_of "secret")))
         [Some (bytes_of "cert")] [g] = Ok tt /\
       agent_connects bytes (tiny 7 9) tiny_parse id (fun p x y h => tiny_check 7 9 p x y h && bool_decide (h = bytes_of "cert"))
         (key_text bytes id (tiny_pub (bytes_of "secret"))) [Some (bytes_of "mine")] [g] = Err "tls signature check failed"
   | _ => False end).
Proof. vm_compute. split_and!; try reflexivity; try done; intros [=]. Qed.
