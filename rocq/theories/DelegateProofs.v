(** Proofs about the delegate service. *)
From Coq Require Import ZArith NArith List String Ascii Lia.
From stdpp Require Import base tactics gmap list strings.
From Verif Require Import GoBase Bytes Utf8 WireModel ProtoModel CryptoModel PorModel CryptoProofs CryptoProps
  PorProps AcnModel DelegateModel.
Open Scope string_scope.
Open Scope list_scope.
Open Scope Z_scope.

(** The first thing read from a connection in a schedule. *)
Fixpoint first_read (c : nat) (evs : list event) : option (res bytes) :=
  match evs with
  | [] => None
  | ERead c' r _ :: t => if Nat.eqb c c' then Some r else first_read c t
  | _ :: t => first_read c t
  end.

(** The client on connection [c] opened with a registration that carries a valid proof
    that the agent [r] describes has chosen this node as its representative. *)
Definition registered (P : prims) (my_key : string) (evs : list event) (c : nat) (r : record) : Prop :=
  exists frame, first_read c evs = Some (Ok frame) /\
    decode_acn frame = Some (Some (PRegister (Some r))) /\
    represents P r (r_address r) my_key.

Definition registered_as P my_key evs c a : Prop :=
  exists r, registered P my_key evs c r /\ r_address r = a.

(** A frame with the envelope [e] was read from connection [c]. *)
Definition received (evs : list event) (c : nat) (e : envelope) : Prop :=
  exists frame b rec, In (ERead c (Ok frame) true) evs /\
    decode_acn frame = Some (Some (PEnvelope b rec)) /\ decode_envelope b = Some e.

Lemma first_read_app c l ev :
  first_read c (l ++ [ev]) =
  match first_read c l with
  | Some r => Some r
  | None => first_read c [ev]
  end.
Proof.
  induction l as [|x l IH]; [done|]. destruct x as [c' r w| | |]; cbn; [|apply IH..].
  destruct (Nat.eqb c c'); [done|apply IH].
Qed.

Section Runs.
Context (P : prims) (my_key why : string).
Notation registered := (registered P my_key).
Notation registered_as := (registered_as P my_key).
Notation step := (step P my_key why).
Notation run := (run P my_key why).

Lemma run_app n l1 l2 : run n (l1 ++ l2) = let* m := run n l1 in run m l2.
Proof.
  revert n. induction l1 as [|ev l1 IH]; intros n; [done|]. cbn.
  destruct (step n ev); cbn; [apply IH|done..].
Qed.

(** Induction over schedules from the start. *)
Lemma run_ind (I : list event -> node -> Prop) :
  I [] node0 ->
  (forall evs n ev n', run node0 evs = Ok n -> I evs n -> step n ev = Ok n' -> I (evs ++ [ev]) n') ->
  forall evs n, run node0 evs = Ok n -> I evs n.
Proof.
  intros H0 HS evs. induction evs as [|ev evs IH] using rev_ind; intros n Hr.
  { by injection Hr as <-. }
  rewrite run_app in Hr. destruct (run node0 evs) as [m| |] eqn:Em; try done. cbn in Hr.
  destruct (step m ev) as [m'| |] eqn:Es; try done. injection Hr as <-.
  eapply HS; eauto.
Qed.

Lemma registered_mono evs ev c r : registered evs c r -> registered (evs ++ [ev]) c r.
Proof. intros (f & H1 & H2). exists f. split; [|done]. by rewrite first_read_app, H1. Qed.

Lemma registered_as_mono evs ev c a : registered_as evs c a -> registered_as (evs ++ [ev]) c a.
Proof. intros (r & H & ?). exists r. split; [by apply registered_mono|done]. Qed.

Lemma registered_fun evs c r r' : registered evs c r -> registered evs c r' -> r = r'.
Proof. intros (f & H1 & H2 & _) (f' & H1' & H2' & _). congruence. Qed.

Lemma received_mono evs ev c e : received evs c e -> received (evs ++ [ev]) c e.
Proof. intros (f & b & r & H & ?). exists f, b, r. split; [apply in_or_app; by left|done]. Qed.

Lemma phase_of_set n c p c' :
  phase_of (set_phase n c p) c' = if decide (c' = c) then p else phase_of n c'.
Proof.
  unfold phase_of, set_phase. cbn. destruct (decide (c' = c)) as [->|].
  - by rewrite lookup_insert.
  - by rewrite lookup_insert_ne.
Qed.

Lemma phase_of_set' n m c p c' :
  n_conns m = n_conns n ->
  phase_of (set_phase m c p) c' = if decide (c' = c) then p else phase_of n c'.
Proof. intros E. rewrite phase_of_set. unfold phase_of. by rewrite E. Qed.

(** What the phase of a connection tells about it. *)
Definition phase_ok (evs : list event) (c : nat) (p : phase) : Prop :=
  match p with
  | New => first_read c evs = None
  | Storing r _ => registered evs c r
  | Looping a | Delivering a _ | Putting a _ _ | Closing a _ | Abandoned a => registered_as evs c a
  | Checking a e | Creating a e | Enqueuing a e =>
      registered_as evs c a /\ e_sender e = a /\ received evs c e
  | Stuck | Done => True
  end.

Definition ok_entry (evs : list event) (x : nat * envelope) : Prop :=
  registered_as evs (fst x) (e_sender (snd x)) /\ received evs (fst x) (snd x).

Definition inv (evs : list event) (n : node) : Prop :=
  (forall c, phase_ok evs c (phase_of n c)) /\
  (forall ch l, n_chans n !! ch = Some l -> Forall (ok_entry evs) l) /\
  Forall (ok_entry evs) (n_accepted n) /\
  Forall (ok_entry evs) (map fst (n_decided n)) /\
  Forall (ok_entry evs) (n_routed n).

Lemma ok_entry_mono evs ev x : ok_entry evs x -> ok_entry (evs ++ [ev]) x.
Proof. intros [? ?]. split; [by apply registered_as_mono|by apply received_mono]. Qed.

Lemma ok_entries_mono evs ev l : Forall (ok_entry evs) l -> Forall (ok_entry (evs ++ [ev])) l.
Proof. intros H. eapply Forall_impl; [exact H|]. intros; by apply ok_entry_mono. Qed.

(** The connection whose goroutine an event is a step of. *)
Definition event_conn (ev : event) : option nat :=
  match ev with ERead c _ _ | EGo c _ => Some c | _ => None end.

Lemma phase_ok_mono evs ev c p :
  (p = New -> forall r w, ev <> ERead c r w) ->
  phase_ok evs c p -> phase_ok (evs ++ [ev]) c p.
Proof.
  intros Hne. destruct p; cbn; try done; try apply registered_mono; try apply registered_as_mono.
  - intros H. rewrite first_read_app, H. destruct ev as [c' r' w'| | |]; cbn; try done.
    destruct (Nat.eqb_spec c c') as [->|]; [|done]. exfalso. by eapply Hne.
  - intros (? & ? & ?). repeat split; [by apply registered_as_mono|done|by apply received_mono].
  - intros (? & ? & ?). repeat split; [by apply registered_as_mono|done|by apply received_mono].
  - intros (? & ? & ?). repeat split; [by apply registered_as_mono|done|by apply received_mono].
Qed.

Lemma registered_now evs c frame w r :
  first_read c evs = None -> decode_acn frame = Some (Some (PRegister (Some r))) ->
  represents P r (r_address r) my_key -> registered (evs ++ [ERead c (Ok frame) w]) c r.
Proof.
  intros H1 H2 H3. exists frame. split; [|done]. rewrite first_read_app, H1. cbn. by rewrite Nat.eqb_refl.
Qed.

(** What reading does, in terms of the frame. *)
Lemma read_new_cases n c read w n' :
  read_new P my_key why n c read w = Ok n' ->
  exists sent p, n' = set_phase (add_sent n c sent) c p /\
    (p = Done \/
     exists frame r, p = Storing r 0 /\ read = Ok frame /\ w = true /\
       decode_acn frame = Some (Some (PRegister (Some r))) /\ represents P r (r_address r) my_key).
Proof.
  unfold read_new, read_registration. intros H.
  destruct read as [frame|e|p]; [|injection H as <-; eauto 10|done].
  destruct (decode_acn frame) as [m|] eqn:Ed; [|injection H as <-; eauto 10].
  destruct m as [m|]; [|injection H as <-; eauto 10].
  destruct m as [| | |rec|]; try (injection H as <-; eauto 10).
  destruct rec as [r|]; [|done].
  destruct (is_valid_por P r (r_address r) my_key) as [[code err]|e|p] eqn:Ep; try done.
  destruct (negb err && negb (code =? SUCCESS)) eqn:Eb; [done|].
  destruct err; cbn in H, Eb.
  { injection H as <-. eauto 10. }
  injection H as <-. do 2 eexists. split; [done|]. destruct w; [|by left]. right.
  exists frame, r. do 4 (split; [done|]). apply C29_accepted. rewrite Ep. f_equal.
  apply negb_false_iff, Z.eqb_eq in Eb. by rewrite Eb.
Qed.

Lemma read_loop_cases n c a read w n' :
  read_loop why n c a read w = Ok n' ->
  exists sent, 
    n' = set_phase (add_sent n c sent) c (Closing a 0) \/
    (exists s, n' = set_phase (add_sent n c sent) c (Delivering a s)) \/
    (exists frame b rec e, read = Ok frame /\ w = true /\
       decode_acn frame = Some (Some (PEnvelope b rec)) /\ decode_envelope b = Some e /\
       sent = [acn_success] /\
       (e_sender e <> a /\ n' = add_sent n c sent \/
        e_sender e = a /\
        n' = set_phase (Node (n_conns n) (n_records n) (n_tcp n) (n_stat n) (n_queues n) (n_pairs n)
                     (n_chans n) (n_next n) (n_workers n) (n_sent n ++ map (pair c) sent)
                     (n_accepted n ++ [(c, e)]) (n_decided n) (n_routed n)) c (Checking a e))).
Proof.
  unfold read_loop, handle_acn. intros H.
  destruct read as [frame|x|p]; [|injection H as <-; eauto|done].
  unfold decode_acn_message in H.
  destruct (decode_acn frame) as [m|] eqn:Ed; [|injection H as <-; eauto].
  destruct m as [m|]; [|injection H as <-; eauto].
  destruct m as [b rec| | | |s]; try (injection H as <-; eauto).
  - destruct (decode_envelope b) as [e|] eqn:Ee; [|injection H as <-; eauto].
    destruct w; [|injection H as <-; eauto].
    exists [acn_success]. right; right. exists frame, b, rec, e. do 5 (split; [done|]).
    destruct (String.eqb_spec (e_sender e) a); injection H as <-; [right|left]; done.
  - destruct s as [s|]; [|done]. injection H as <-. exists []. right; left. by exists s.
Qed.

Lemma add_sent_phase n c l c' : phase_of (add_sent n c l) c' = phase_of n c'.
Proof. done. Qed.

Lemma inv_keep evs ev n n' c p :
  inv evs n -> event_conn ev = Some c ->
  (forall c', phase_of n' c' = if decide (c' = c) then p else phase_of n c') ->
  phase_ok (evs ++ [ev]) c p ->
  n_chans n' = n_chans n -> n_accepted n' = n_accepted n -> n_decided n' = n_decided n ->
  n_routed n' = n_routed n ->
  inv (evs ++ [ev]) n'.
Proof.
  intros (H1 & H2 & H3 & H4 & H5) He Hp Hok Ec Ea Ed Er. repeat split.
  - intros c'. rewrite Hp. destruct (decide (c' = c)) as [->|Hne]; [done|].
    apply phase_ok_mono; [|done]. intros _ r w ->. cbn in He. congruence.
  - intros ch l. rewrite Ec. intros Hl. by eapply ok_entries_mono, H2.
  - rewrite Ea. by apply ok_entries_mono.
  - rewrite Ed. by apply ok_entries_mono.
  - rewrite Er. by apply ok_entries_mono.
Qed.

Lemma inv_step evs n ev n' : inv evs n -> step n ev = Ok n' -> inv (evs ++ [ev]) n'.
Proof.
  intros Hi. pose proof Hi as (H1 & H2 & H3 & H4 & H5).
  destruct ev as [c read w|c ok|w|w]; cbn [DelegateModel.step].
  - pose proof (H1 c) as Hc. destruct (phase_of n c) eqn:Ep; try done.
    + intros (sent & p & -> & Hp)%read_new_cases.
      eapply (inv_keep _ _ n _ c p); try done.
      { intros c'. by rewrite phase_of_set, add_sent_phase. }
      destruct Hp as [->|(f & r & -> & -> & -> & Hd & Hr)]; [done|]. by apply registered_now.
    + intros (sent & [->|[[s ->]|(f & b & rec & e & -> & -> & Hd & He & -> & [[Hs ->]|[Hs ->]])]])%read_loop_cases.
      * eapply (inv_keep _ _ n _ c); try done.
        { intros c'. by rewrite phase_of_set, add_sent_phase. } by apply registered_as_mono.
      * eapply (inv_keep _ _ n _ c); try done.
        { intros c'. by rewrite phase_of_set, add_sent_phase. } by apply registered_as_mono.
      * eapply (inv_keep _ _ n _ c (Looping a)); try done.
        { intros c'. rewrite add_sent_phase. by destruct (decide (c' = c)) as [->|]. }
        by apply registered_as_mono.
      * assert (Hrec : received (evs ++ [ERead c (Ok f) true]) c e).
        { exists f, b, rec. split; [apply in_or_app; right; by left|done]. }
        cbn in Hc. repeat split.
        -- intros c'. rewrite phase_of_set. destruct (decide (c' = c)) as [->|Hne].
           ++ split; [by apply registered_as_mono|done].
           ++ apply phase_ok_mono; [|apply H1]. intros _ r w' [= ? ? ?]. congruence.
        -- intros ch l Hl. by eapply ok_entries_mono, H2.
        -- cbn. apply Forall_app. split; [by apply ok_entries_mono|]. constructor; [|done].
           split; [|done]. cbn. rewrite Hs. by apply registered_as_mono.
        -- by apply ok_entries_mono.
        -- by apply ok_entries_mono.
  - pose proof (H1 c) as Hc. unfold go.
    destruct (phase_of n c) as [|r k|a|a s|a q s| |a e|a e|a e|a k|a|] eqn:Ep; try done.
    + destruct k as [|[|[|k]]]; intros [= <-]; eapply (inv_keep _ _ n _ c); try done;
        try (intros c'; rewrite phase_of_set; reflexivity); try by apply registered_mono.
      destruct ok; (exists r; split; [by apply registered_mono|done]).
    + intros [= <-]. eapply (inv_keep _ _ n _ c); try done; [intros c'; rewrite phase_of_set; reflexivity|].
      destruct (n_stat n !! a); [by apply registered_as_mono|done].
    + destruct (_ <? _)%nat; intros [= <-]. eapply (inv_keep _ _ n _ c); try done; [intros c'; rewrite phase_of_set; reflexivity|].
      by apply registered_as_mono.
    + intros [= <-]. eapply (inv_keep _ _ n _ c); try done; [intros c'; rewrite phase_of_set; reflexivity|].
      apply (phase_ok_mono evs (EGo c ok) c) in Hc; [|done].
      by destruct (n_pairs n !! pair_key e).
    + intros [= <-]. destruct Hc as (Ha & Hs & Hrc). repeat split; cbn.
      * intros c'. rewrite phase_of_set. destruct (decide (c' = c)) as [->|Hne].
        { split; [by apply registered_as_mono|]. split; [done|by apply received_mono]. }
        apply phase_ok_mono; [done|apply H1].
      * intros ch l. destruct (decide (ch = n_next n)) as [->|].
        { rewrite lookup_insert. intros [= <-]. done. }
        rewrite lookup_insert_ne by done. intros Hl. by eapply ok_entries_mono, H2.
      * by apply ok_entries_mono.
      * by apply ok_entries_mono.
      * by apply ok_entries_mono.
    + destruct Hc as (Ha & Hs & Hrc).
      assert (Hen : ok_entry (evs ++ [EGo c ok]) (c, e)).
      { split; cbn; [rewrite Hs; by apply registered_as_mono|by apply received_mono]. }
      destruct (_ <? _)%nat; intros [= <-]; repeat split; cbn.
      * intros c'. rewrite phase_of_set. destruct (decide (c' = c)) as [->|Hne].
        { by apply registered_as_mono. }
        apply phase_ok_mono; [done|apply H1].
      * set (ch0 := default O (n_pairs n !! pair_key e)). intros ch l. destruct (decide (ch = ch0)) as [->|].
        { rewrite lookup_insert. intros [= <-]. apply Forall_app. split; [|by constructor].
          destruct (n_chans n !! ch0) eqn:El; [|by constructor]. by eapply ok_entries_mono, H2. }
        rewrite lookup_insert_ne by done. intros Hl. by eapply ok_entries_mono, H2.
      * by apply ok_entries_mono.
      * rewrite map_app. apply Forall_app. split; [by apply ok_entries_mono|by constructor].
      * by apply ok_entries_mono.
      * intros c'. rewrite phase_of_set. destruct (decide (c' = c)) as [->|Hne].
        { by apply registered_as_mono. }
        apply phase_ok_mono; [done|apply H1].
      * intros ch l Hl. by eapply ok_entries_mono, H2.
      * by apply ok_entries_mono.
      * rewrite map_app. apply Forall_app. split; [by apply ok_entries_mono|by constructor].
      * by apply ok_entries_mono.
    + destruct k as [|k]; intros [= <-]; eapply (inv_keep _ _ n _ c); try done;
        try (intros c'; rewrite phase_of_set; reflexivity); try done. by apply registered_as_mono.
  - unfold start. destruct (n_workers n !! w) as [[p [ch|]]|]; try done. intros [= <-].
    repeat split; cbn; try by apply ok_entries_mono.
    + intros c. apply phase_ok_mono; [done|apply H1].
    + intros ch l Hl. by eapply ok_entries_mono, H2.
  - unfold take_. destruct (n_workers n !! w) as [[p [ch|]]|]; try done.
    destruct (n_chans n !! ch) as [[|x l]|] eqn:El; try done. intros [= <-].
    pose proof (H2 _ _ El) as Hl. inversion Hl as [|? ? Hx Hl']; subst.
    repeat split; cbn; try by apply ok_entries_mono.
    + intros c. apply phase_ok_mono; [done|apply H1].
    + intros ch' l'. destruct (decide (ch' = ch)) as [->|].
      { rewrite lookup_insert. intros [= <-]. by apply ok_entries_mono. }
      rewrite lookup_insert_ne by done. intros Hl2. by eapply ok_entries_mono, H2.
    + apply Forall_app. split; [by apply ok_entries_mono|]. constructor; [by apply ok_entry_mono|done].
Qed.

Lemma run_inv evs n : run node0 evs = Ok n -> inv evs n.
Proof.
  apply run_ind.
  - repeat split; cbn; try done.
  - intros evs' n1 ev n2 _. apply inv_step.
Qed.

(** ** Envelopes in the hands of a connection *)
Definition of_conn {A} (c : nat) (l : list (nat * A)) : list (nat * A) :=
  List.filter (fun x => Nat.eqb (fst x) c) l.

Definition in_hand (c : nat) (p : phase) : list (nat * envelope) :=
  match p with
  | Checking _ e | Creating _ e | Enqueuing _ e => [(c, e)]
  | _ => []
  end.

Definition inv_hand (n : node) : Prop :=
  forall c, of_conn c (n_accepted n) = of_conn c (map fst (n_decided n)) ++ in_hand c (phase_of n c).

Lemma of_conn_app {A} c (l1 l2 : list (nat * A)) : of_conn c (l1 ++ l2) = of_conn c l1 ++ of_conn c l2.
Proof. apply List.filter_app. Qed.

Lemma of_conn_one {A} c c' (e : A) : of_conn c [(c', e)] = if decide (c = c') then [(c', e)] else [].
Proof.
  unfold of_conn. cbn. destruct (Nat.eqb_spec c' c), (decide (c = c')); congruence.
Qed.
Local Arguments of_conn : simpl never.

Lemma inv_hand_keep n n' c p :
  inv_hand n ->
  (forall c', phase_of n' c' = if decide (c' = c) then p else phase_of n c') ->
  n_accepted n' = n_accepted n -> n_decided n' = n_decided n ->
  in_hand c p = in_hand c (phase_of n c) -> inv_hand n'.
Proof.
  intros H Hp Ea Ed He c'. rewrite Ea, Ed, Hp, H. f_equal.
  destruct (decide (c' = c)) as [->|]; [by rewrite He|done].
Qed.

Ltac hkeep n c :=
  eapply (inv_hand_keep n _ c);
    [assumption|intros c'; rewrite phase_of_set; reflexivity|reflexivity|reflexivity|].

Lemma inv_hand_step n ev n' : inv_hand n -> step n ev = Ok n' -> inv_hand n'.
Proof.
  intros H. destruct ev as [c read w|c ok|w|w]; cbn [DelegateModel.step].
  - destruct (phase_of n c) eqn:Ep; try done.
    + intros (sent & p & -> & Hp)%read_new_cases.
      eapply (inv_hand_keep n _ c p); try done.
      { intros c'. by rewrite phase_of_set, add_sent_phase. }
      rewrite Ep. by destruct Hp as [->|(f & r & -> & _)].
    + intros (sent & [->|[[s ->]|(f & b & rec & e & -> & -> & Hd & He & -> & [[Hs ->]|[Hs ->]])]])%read_loop_cases.
      * hkeep n c. by rewrite Ep.
      * hkeep n c. by rewrite Ep.
      * apply H.
      * intros c'. rewrite phase_of_set. cbn. rewrite of_conn_app, H, of_conn_one.
        destruct (decide (c' = c)) as [->|]; [by rewrite Ep; cbn; rewrite app_nil_r|by rewrite app_nil_r].
  - unfold go.
    destruct (phase_of n c) as [|r k|a|a s|a q s| |a e|a e|a e|a k|a|] eqn:Ep; try done.
    + destruct k as [|[|[|k]]]; intros [= <-]; hkeep n c; rewrite Ep; try done. by destruct ok.
    + intros [= <-]. hkeep n c.
      rewrite Ep. by destruct (n_stat n !! a).
    + destruct (_ <? _)%nat; intros [= <-]. hkeep n c.
      by rewrite Ep.
    + intros [= <-]. hkeep n c.
      rewrite Ep. by destruct (n_pairs n !! pair_key e).
    + intros [= <-]. hkeep n c.
      by rewrite Ep.
    + destruct (_ <? _)%nat; intros [= <-]; intros c'; rewrite phase_of_set; cbn;
        rewrite map_app, of_conn_app; cbn [map fst]; rewrite of_conn_one, H;
        (destruct (decide (c' = c)) as [->|]; [rewrite Ep; cbn; by rewrite app_nil_r|by rewrite app_nil_r]).
    + destruct k as [|k]; intros [= <-]; hkeep n c; by rewrite Ep.
  - unfold start. destruct (n_workers n !! w) as [[p [ch|]]|]; try done. by intros [= <-].
  - unfold take_. destruct (n_workers n !! w) as [[p [ch|]]|]; try done.
    destruct (n_chans n !! ch) as [[|x l]|] eqn:El; try done. by intros [= <-].
Qed.

Lemma run_hand evs n : run node0 evs = Ok n -> inv_hand n.
Proof.
  intros H. revert evs n H. apply (run_ind (fun _ n => inv_hand n)); [by intros c|].
  intros evs n ev n' _. apply inv_hand_step.
Qed.

(** ** Queues, when no address is registered twice *)
Definition sole_client (evs : list event) (a : string) : Prop :=
  forall c1 c2, registered_as evs c1 a -> registered_as evs c2 a -> c1 = c2.

Lemma sole_prefix evs ev a : sole_client (evs ++ [ev]) a -> sole_client evs a.
Proof. intros H c1 c2 H1 H2. eapply H; by apply registered_as_mono. Qed.

Lemma prefix_bytes p s : String.prefix p s = true -> exists t, bytes_of s = bytes_of p ++ t.
Proof.
  revert s. induction p as [|x p IH]; intros s; [by exists (bytes_of s)|].
  destruct s as [|y s]; [done|]. cbn. destruct (ascii_dec x y) as [->|]; [|done].
  intros (t & ->)%IH. by exists t.
Qed.

(** Two proven addresses at the end of one text are the same. *)
Lemma pair_inj r1 r2 to1 to2 a1 a2 :
  digests_ok P -> represents P r1 a1 my_key -> represents P r2 a2 my_key ->
  (to1 ++ a1)%string = (to2 ++ a2)%string -> to1 = to2 /\ a1 = a2.
Proof.
  intros Hd R1 R2 H.
  assert (r_address r1 = a1) as <- by apply R1. assert (r_address r2 = a2) as <- by apply R2.
  apply represents_iff in R1 as (_ & _ & _ & R1 & _). apply represents_iff in R2 as (_ & _ & _ & R2 & _).
  apply (C58_shape P _ _ _ Hd) in R1, R2. revert H R1 R2.
  generalize (r_address r1) (r_address r2) (r_ledger r1) (r_ledger r2). intros a1 a2 l1 l2 H R1 R2.
  apply (f_equal bytes_of) in H. rewrite !bytes_of_app in H.
  assert (Hlen : forall s, String.length s = length (bytes_of s)) by apply string_length.
  rewrite !Hlen in R1, R2.
  assert (Hsame : length (bytes_of a1) = length (bytes_of a2) -> to1 = to2 /\ a1 = a2).
  { intros E. apply app_inj_2 in H as [H1 H2]; [|done].
    split; [apply bytes_of_inj|apply bytes_of_inj]; done. }
  assert (Hne : forall k b1 b2 to p1 t1 x2 t2 m,
    bytes_of b1 = bytes_of p1 ++ t1 -> bytes_of b2 = x2 :: t2 ->
    length (bytes_of b1) = (m + length (bytes_of b2))%nat ->
    (m < length (bytes_of p1))%nat -> bytes_of p1 !! m <> Some x2 ->
    k ++ bytes_of b1 = bytes_of to ++ bytes_of b2 -> False).
  { intros k b1 b2 to p1 t1 x2 t2 m E1 E2 El Hm Hx E.
    assert (Hk : Nat.add (length k) m = length (bytes_of to)).
    { apply (f_equal length) in E. rewrite !app_length in E. lia. }
    apply (f_equal (lookup (length k + m)%nat)) in E.
    rewrite lookup_app_r in E by lia. rewrite (lookup_app_r (bytes_of to)) in E by lia.
    rewrite E1, E2, lookup_app_l in E by lia.
    replace (length k + m - length k)%nat with m in E by lia.
    rewrite Hk, Nat.sub_diag in E. done. }
  assert (Hp : forall s x t, String.prefix (String x t) s = true -> exists u, bytes_of s = x :: u).
  { intros s x t (u & ->)%prefix_bytes. cbn. eauto. }
  destruct R1 as [(_ & L1 & P1)|[(_ & L1 & P1)|(_ & L1 & P1)]];
    destruct R2 as [(_ & L2 & P2)|[(_ & L2 & P2)|(_ & L2 & P2)]]; try (apply Hsame; congruence); exfalso;
    destruct (prefix_bytes _ _ P1) as [t1 E1]; destruct (prefix_bytes _ _ P2) as [t2 E2].
  - by eapply (Hne (bytes_of to2) a2 a1 to1 "cosmos1" t2 _ _ 1%nat E2 E1); [lia|cbn; lia| |].
  - by eapply (Hne (bytes_of to1) a1 a2 to2 "fetch1" t1 _ _ 2%nat E1 E2); [lia|cbn; lia| |].
  - by eapply (Hne (bytes_of to1) a1 a2 to2 "cosmos1" t1 _ _ 1%nat E1 E2); [lia|cbn; lia| |].
  - by eapply (Hne (bytes_of to1) a1 a2 to2 "cosmos1" t1 _ _ 3%nat E1 E2); [lia|cbn; lia| |].
  - by eapply (Hne (bytes_of to2) a2 a1 to1 "fetch1" t2 _ _ 2%nat E2 E1); [lia|cbn; lia| |].
  - by eapply (Hne (bytes_of to2) a2 a1 to1 "cosmos1" t2 _ _ 3%nat E2 E1); [lia|cbn; lia| |].
Qed.

Definition of_pair (p : string) (l : list (nat * envelope)) : list (nat * envelope) :=
  List.filter (fun x => String.eqb (pair_key (snd x)) p) l.

(** The envelopes a queue has taken. *)
Definition queued (l : list (nat * envelope * bool)) : list (nat * envelope) :=
  map fst (List.filter snd l).

Definition waiting (n : node) (p : string) : list (nat * envelope) :=
  match n_pairs n !! p with Some ch => default [] (n_chans n !! ch) | None => [] end.

Lemma of_pair_app p l1 l2 : of_pair p (l1 ++ l2) = of_pair p l1 ++ of_pair p l2.
Proof. apply List.filter_app. Qed.

Lemma of_pair_one p x : of_pair p [x] = if decide (p = pair_key (snd x)) then [x] else [].
Proof.
  unfold of_pair. cbn. destruct (String.eqb_spec (pair_key (snd x)) p), (decide (p = pair_key (snd x))); congruence.
Qed.
Local Arguments of_pair : simpl never.

Lemma queued_app l1 l2 : queued (l1 ++ l2) = queued l1 ++ queued l2.
Proof. unfold queued. by rewrite List.filter_app, map_app. Qed.
Local Arguments queued : simpl never.

(** The keys of the queues of sender [a]. *)
Definition mine (a p : string) : Prop := exists to, p = (to ++ a)%string.

Record inv_queues (a : string) (n : node) : Prop := InvQ {
  iq_creating c e : phase_of n c = Creating a e -> n_pairs n !! pair_key e = None;
  iq_enqueuing c a' e : phase_of n c = Enqueuing a' e -> is_Some (n_pairs n !! pair_key e);
  iq_pair w p o : n_workers n !! w = Some (Worker p o) -> is_Some (n_pairs n !! p);
  iq_worker w p ch : mine a p -> n_workers n !! w = Some (Worker p (Some ch)) -> n_pairs n !! p = Some ch;
  iq_wchan w p ch : n_workers n !! w = Some (Worker p (Some ch)) ->
    (ch < n_next n)%nat /\ forall p', n_pairs n !! p' = Some ch -> p' = p;
  iq_wkeys w p ch l : n_workers n !! w = Some (Worker p (Some ch)) -> n_chans n !! ch = Some l ->
    Forall (fun x => pair_key (snd x) = p) l;
  iq_served p ch : n_pairs n !! p = Some ch -> exists w o, n_workers n !! w = Some (Worker p o);
  iq_once w1 w2 p o1 o2 : mine a p ->
    n_workers n !! w1 = Some (Worker p o1) -> n_workers n !! w2 = Some (Worker p o2) -> w1 = w2;
  iq_chan p ch : n_pairs n !! p = Some ch -> (ch < n_next n)%nat /\ is_Some (n_chans n !! ch);
  iq_own p p' ch : n_pairs n !! p = Some ch -> n_pairs n !! p' = Some ch -> p = p';
  iq_fifo p : mine a p -> of_pair p (queued (n_decided n)) = of_pair p (n_routed n) ++ waiting n p;
  iq_keys p : Forall (fun x => pair_key (snd x) = p) (waiting n p)
}.

Lemma inv_queues_keep a n n' c p :
  inv_queues a n ->
  (forall c', phase_of n' c' = if decide (c' = c) then p else phase_of n c') ->
  n_workers n' = n_workers n -> n_pairs n' = n_pairs n -> n_chans n' = n_chans n ->
  n_next n' = n_next n -> n_decided n' = n_decided n -> n_routed n' = n_routed n ->
  (forall e, p = Creating a e -> n_pairs n !! pair_key e = None) ->
  (forall a e, p = Enqueuing a e -> is_Some (n_pairs n !! pair_key e)) ->
  inv_queues a n'.
Proof.
  intros [] Hp Ew Epp Ec En Ed Er H1 H2.
  split; rewrite ?Ew, ?Epp, ?Ec, ?En, ?Ed, ?Er; try done.
  - intros c' e. rewrite Hp. destruct (decide (c' = c)); eauto.
  - intros c' a' e. rewrite Hp. destruct (decide (c' = c)); eauto.
  - intros q. unfold waiting. rewrite Epp, Ec. apply iq_fifo0.
  - intros q. unfold waiting. rewrite Epp, Ec. apply iq_keys0.
Qed.

Ltac qkeep n c :=
  eapply (inv_queues_keep _ n _ c);
    [assumption|intros c'; rewrite phase_of_set; reflexivity|reflexivity..| |].

Lemma inv_queues_step r0 a0 evs n ev n' :
  digests_ok P -> represents P r0 a0 my_key -> sole_client evs a0 -> inv evs n ->
  inv_queues a0 n -> step n ev = Ok n' -> inv_queues a0 n'.
Proof.
  intros Hdig Hr0 Hu (Hph & _) Hq.
  assert (Hmine : forall c a e, registered_as evs c a -> e_sender e = a -> mine a0 (pair_key e) -> a = a0).
  { intros c a e (r & (f & _ & _ & Hr) & Hra) <- [to E].
    rewrite Hra in Hr. by eapply (pair_inj r r0) in E as [_ E]. }
  destruct ev as [c read w|c ok|w|w]; cbn [DelegateModel.step].
  - destruct (phase_of n c) eqn:Ep; try done.
    + intros (sent & p & -> & Hp)%read_new_cases. qkeep n c; [intros ? ->|intros ? ? ->];
        destruct Hp as [|(f & r & ? & _)]; done.
    + intros (sent & [->|[[s ->]|(f & b & rec & e & -> & -> & Hd & He & -> & [[Hs ->]|[Hs ->]])]])%read_loop_cases.
      * by qkeep n c.
      * by qkeep n c.
      * by destruct Hq; split.
      * by qkeep n c.
  - unfold go.
    destruct (phase_of n c) as [|r k|a|a s|a q s| |a e|a e|a e|a k|a|] eqn:Ep; try done.
    + destruct k as [|[|[|k]]]; intros [= <-]; qkeep n c; try done; by destruct ok.
    + intros [= <-]. qkeep n c; by destruct (n_stat n !! a).
    + destruct (_ <? _)%nat; intros [= <-]. by qkeep n c.
    + intros [= <-]. qkeep n c; [intros e'|intros a' e']; destruct (n_pairs n !! pair_key e) eqn:Epp; try done.
      { intros [= <- <-]. done. }
      { intros [= <- <-]. eauto. }
    + (* a new queue *)
      intros [= <-]. pose proof (Hph c) as Hc. rewrite Ep in Hc. destruct Hc as (Hreg & Hse & _).
      assert (Hnone : mine a0 (pair_key e) -> n_pairs n !! pair_key e = None).
      { intros Hm. pose proof (Hmine _ _ _ Hreg Hse Hm) as ->. by eapply iq_creating. }
      destruct Hq. split; cbn.
      * intros c' e'. rewrite (phase_of_set' n) by done. destruct (decide (c' = c)) as [->|Hne]; [done|].
        intros Ep'. rewrite lookup_insert_ne; [by eapply iq_creating0|].
        intros E. pose proof (Hph c') as Hc'. rewrite Ep' in Hc'. destruct Hc' as (Hreg' & He' & _).
        apply Hne. assert (a = a0) as ->; [|by apply Hu].
        eapply Hmine; [done..|]. rewrite E. exists (e_to e'). by rewrite <- He'.
      * intros c' a' e'. rewrite (phase_of_set' n) by done. destruct (decide (c' = c)) as [->|Hne].
        { intros [= <- <-]. rewrite lookup_insert. eauto. }
        intros Ep'. destruct (decide (pair_key e = pair_key e')) as [->|].
        { rewrite lookup_insert. eauto. }
        rewrite lookup_insert_ne by done. by eapply iq_enqueuing0.
      * intros w p o Hw. destruct (decide (pair_key e = p)) as [<-|].
        { rewrite lookup_insert. eauto. }
        rewrite lookup_insert_ne by done. apply lookup_app_Some in Hw as [Hw|[_ Hw]]; [by eapply iq_pair0|].
        apply list_lookup_singleton_Some in Hw as [_ [= ? ?]]. done.
      * intros w p ch Hm [Hw|[_ Hw]]%lookup_app_Some; [|by apply list_lookup_singleton_Some in Hw as [_ [= ? ?]]].
        destruct (decide (pair_key e = p)) as [<-|].
        { destruct (iq_pair0 _ _ _ Hw) as [? ?]. rewrite Hnone in *; done. }
        rewrite lookup_insert_ne by done. by eapply iq_worker0.
      * intros w p ch [Hw|[_ Hw]]%lookup_app_Some; [|by apply list_lookup_singleton_Some in Hw as [_ [= ? ?]]].
        destruct (iq_wchan0 _ _ _ Hw) as [Hlt Hp]. split; [lia|]. intros p'.
        destruct (decide (pair_key e = p')) as [<-|].
        { rewrite lookup_insert. intros [= <-]. lia. }
        rewrite lookup_insert_ne by done. apply Hp.
      * intros w p ch l [Hw|[_ Hw]]%lookup_app_Some; [|by apply list_lookup_singleton_Some in Hw as [_ [= ? ?]]].
        destruct (iq_wchan0 _ _ _ Hw) as [Hlt Hp]. rewrite lookup_insert_ne by lia. by eapply iq_wkeys0.
      * intros p ch. destruct (decide (pair_key e = p)) as [<-|].
        { intros _. exists (length (n_workers n)), None. rewrite lookup_app_r, Nat.sub_diag by lia. done. }
        rewrite lookup_insert_ne by done. intros (w & o & Hw)%iq_served0. exists w, o. by apply lookup_app_l_Some.
      * assert (Hold : forall w o, mine a0 (pair_key e) -> n_workers n !! w = Some (Worker (pair_key e) o) -> False).
        { intros w o Hm Hw. destruct (iq_pair0 _ _ _ Hw) as [? ?]. rewrite Hnone in *; done. }
        intros w1 w2 p o1 o2 Hm [H1|[L1 H1]]%lookup_app_Some [H2|[L2 H2]]%lookup_app_Some; [by eapply iq_once0|..].
        -- apply list_lookup_singleton_Some in H2 as [_ [= <- <-]]. exfalso. by eapply Hold.
        -- apply list_lookup_singleton_Some in H1 as [_ [= <- <-]]. exfalso. by eapply Hold.
        -- apply list_lookup_singleton_Some in H1 as [? _]. apply list_lookup_singleton_Some in H2 as [? _]. lia.
      * intros p ch. destruct (decide (pair_key e = p)) as [<-|].
        { rewrite lookup_insert. intros [= <-]. rewrite lookup_insert. split; [lia|eauto]. }
        rewrite lookup_insert_ne by done. intros [Hlt His]%iq_chan0. split; [lia|].
        rewrite lookup_insert_ne by lia. done.
      * intros p p' ch. destruct (decide (pair_key e = p)) as [<-|], (decide (pair_key e = p')) as [<-|]; try done.
        { rewrite lookup_insert, lookup_insert_ne by done. intros [= <-] [Hlt _]%iq_chan0. lia. }
        { rewrite lookup_insert, lookup_insert_ne by done. intros [Hlt _]%iq_chan0 [= <-]. lia. }
        rewrite !lookup_insert_ne by done. apply iq_own0.
      * intros p Hm. rewrite iq_fifo0 by done. f_equal. unfold waiting. cbn.
        destruct (decide (pair_key e = p)) as [<-|].
        { by rewrite Hnone, !lookup_insert by done. }
        rewrite lookup_insert_ne by done. destruct (n_pairs n !! p) as [ch|] eqn:Ech; [|done].
        apply iq_chan0 in Ech as [Hlt _]. rewrite lookup_insert_ne by lia. done.
      * intros p. unfold waiting. cbn. destruct (decide (pair_key e = p)) as [<-|].
        { rewrite !lookup_insert. by constructor. }
        rewrite lookup_insert_ne by done. specialize (iq_keys0 p). unfold waiting in iq_keys0.
        destruct (n_pairs n !! p) as [ch|] eqn:Ech; [|done].
        apply iq_chan0 in Ech as [Hlt _]. rewrite lookup_insert_ne by lia. done.
    + (* into the queue *)
      destruct (iq_enqueuing _ _ Hq _ _ _ Ep) as [ch Hch]. rewrite Hch. cbn [default id from_option].
      destruct (iq_chan _ _ Hq _ _ Hch) as [Hlt [l Hl]]. rewrite Hl. cbn [default id from_option].
      destruct (_ <? _)%nat; intros [= <-].
      * destruct Hq. split; cbn; try done.
        -- intros c' e'. rewrite (phase_of_set' n) by done. destruct (decide (c' = c)) as [->|Hne]; [done|].
           apply iq_creating0.
        -- intros c' a' e'. rewrite (phase_of_set' n) by done. destruct (decide (c' = c)) as [->|Hne]; [done|].
           apply iq_enqueuing0.
        -- intros w p ch' l' Hw. destruct (decide (ch = ch')) as [<-|].
           { rewrite lookup_insert. intros [= <-]. apply Forall_app. split; [by eapply iq_wkeys0|].
             constructor; [|done]. cbn. by eapply iq_wchan0. }
           rewrite lookup_insert_ne by done. by eapply iq_wkeys0.
        -- intros p ch' [? ?]%iq_chan0. split; [done|]. destruct (decide (ch = ch')) as [<-|].
           { rewrite lookup_insert. eauto. } by rewrite lookup_insert_ne.
        -- intros p Hm. rewrite queued_app, of_pair_app, iq_fifo0 by done.
           unfold queued at 1. cbn [map List.filter snd fst].
           rewrite of_pair_one. cbn [snd]. unfold waiting. cbn. rewrite <- app_assoc. f_equal.
           destruct (decide (p = pair_key e)) as [->|].
           { rewrite Hch. by rewrite lookup_insert, Hl. }
           rewrite app_nil_r. destruct (n_pairs n !! p) as [ch'|] eqn:Ech; [|done].
           rewrite lookup_insert_ne; [done|]. intros <-. by eapply n0, iq_own0.
        -- intros p. specialize (iq_keys0 p). unfold waiting in *. cbn.
           destruct (n_pairs n !! p) as [ch'|] eqn:Ech; [|done].
           destruct (decide (ch = ch')) as [<-|].
           { rewrite lookup_insert. rewrite Hl in iq_keys0. cbn in *. apply Forall_app. split; [done|].
             constructor; [|done]. cbn. by eapply iq_own0. }
           by rewrite lookup_insert_ne.
      * destruct Hq. split; cbn; try done.
        -- intros c' e'. rewrite (phase_of_set' n) by done. destruct (decide (c' = c)) as [->|Hne]; [done|].
           apply iq_creating0.
        -- intros c' a' e'. rewrite (phase_of_set' n) by done. destruct (decide (c' = c)) as [->|Hne]; [done|].
           apply iq_enqueuing0.
        -- intros p Hm. rewrite queued_app, of_pair_app, iq_fifo0 by done.
           unfold queued at 1. cbn [map List.filter snd fst].
           unfold of_pair at 2. cbn. by rewrite app_nil_r.
    + destruct k as [|k]; intros [= <-]; by qkeep n c.
  - unfold start. destruct (n_workers n !! w) as [[p [ch|]]|] eqn:Ew; try done. intros [= <-].
    assert (Hlk : forall w' p' o', <[w:=Worker p (n_pairs n !! p)]> (n_workers n) !! w' = Some (Worker p' o') ->
      exists o'', n_workers n !! w' = Some (Worker p' o'') /\ (o' = o'' \/ p' = p /\ o' = n_pairs n !! p)).
    { intros w' p' o'. destruct (decide (w = w')) as [<-|].
      { rewrite list_lookup_insert by (by eapply lookup_lt_Some). intros [= <- <-]. eauto. }
      rewrite list_lookup_insert_ne by done. eauto. }
    destruct Hq. split; cbn; try done.
    + intros w' p' o' (o'' & Hw & _)%Hlk. by eapply iq_pair0.
    + intros w' p' ch Hm (o'' & Hw & [<-|[-> Ho]])%Hlk; [by eapply iq_worker0|done].
    + intros w' p' ch (o'' & Hw & [<-|[-> Ho]])%Hlk; [by eapply iq_wchan0|].
      symmetry in Ho. split; [by eapply iq_chan0|]. intros p' Hp'. by eapply iq_own0.
    + intros w' p' ch l (o'' & Hw & [<-|[-> Ho]])%Hlk Hl; [by eapply iq_wkeys0|].
      specialize (iq_keys0 p). unfold waiting in iq_keys0. by rewrite <- Ho, Hl in iq_keys0.
    + intros p' ch' (w' & o & Hw)%iq_served0. destruct (decide (w = w')) as [<-|].
      { exists w, (n_pairs n !! p). rewrite list_lookup_insert by (by eapply lookup_lt_Some). congruence. }
      exists w', o. by rewrite list_lookup_insert_ne.
    + intros w1 w2 p' o1 o2 Hm (o1' & H1 & _)%Hlk (o2' & H2 & _)%Hlk. by eapply iq_once0.
  - unfold take_. destruct (n_workers n !! w) as [[p [ch|]]|] eqn:Ew; try done.
    destruct (n_chans n !! ch) as [[|x l]|] eqn:El; try done. intros [= <-].
    destruct Hq. destruct (iq_wchan0 _ _ _ Ew) as [Hlt Hp].
    pose proof (iq_wkeys0 _ _ _ _ Ew El) as Hk. inversion Hk as [|? ? Hx Hl]; subst.
    split; cbn; try done.
    + intros w' p' ch' l' Hw. destruct (decide (ch = ch')) as [<-|].
      { rewrite lookup_insert. intros [= <-]. pose proof (iq_wkeys0 _ _ _ _ Hw El) as Hk'. by inversion Hk'. }
      rewrite lookup_insert_ne by done. by eapply iq_wkeys0.
    + intros p' ch' [? ?]%iq_chan0. split; [done|]. destruct (decide (ch = ch')) as [<-|].
      { rewrite lookup_insert. eauto. } by rewrite lookup_insert_ne.
    + intros p' Hm. rewrite iq_fifo0 by done. rewrite of_pair_app, of_pair_one, <- app_assoc. f_equal.
      unfold waiting. cbn.
      destruct (n_pairs n !! p') as [ch'|] eqn:Ech.
      * destruct (decide (ch = ch')) as [<-|].
        -- rewrite (Hp _ Ech), decide_True by done. by rewrite El, lookup_insert.
        -- rewrite lookup_insert_ne by done. rewrite decide_False; [done|]. intros ->.
           pose proof (iq_worker0 _ _ _ Hm Ew). congruence.
      * rewrite decide_False; [done|]. intros ->. pose proof (iq_worker0 _ _ _ Hm Ew). congruence.
    + intros p'. specialize (iq_keys0 p'). unfold waiting in *. cbn.
      destruct (n_pairs n !! p') as [ch'|] eqn:Ech; [|done].
      destruct (decide (ch = ch')) as [<-|].
      { rewrite lookup_insert. cbn. rewrite El in iq_keys0. cbn in iq_keys0. by inversion iq_keys0. }
      by rewrite lookup_insert_ne.
Qed.

Lemma run_queues r0 a evs n :
  digests_ok P -> represents P r0 a my_key -> run node0 evs = Ok n -> sole_client evs a -> inv_queues a n.
Proof.
  intros Hd Hr0. revert evs n. apply (run_ind (fun evs n => sole_client evs a -> inv_queues a n)).
  - intros _. split; cbn; try done. intros p. by constructor.
  - intros evs n ev n' Hr IH Hs Hu. apply sole_prefix in Hu.
    eapply (inv_queues_step r0 a evs); eauto. by apply run_inv.
Qed.

(** ** The tables of connected clients *)
Definition holds_tcp (p : phase) : Prop :=
  match p with
  | New | Done => False
  | Storing _ k => (2 <= k)%nat
  | Closing _ k => k = O
  | _ => True
  end.

Definition holds_stat (p : phase) : Prop :=
  match p with
  | New | Done => False
  | Storing _ k => (3 <= k)%nat
  | _ => True
  end.

Lemma registered_as_fun evs c a b : registered_as evs c a -> registered_as evs c b -> a = b.
Proof. intros (r & H & <-) (r' & H' & <-). by rewrite (registered_fun _ _ _ _ H H'). Qed.

Lemma registered_as_back evs ev c a :
  first_read c evs <> None -> registered_as (evs ++ [ev]) c a -> registered_as evs c a.
Proof.
  intros Hn (r & (f & H1 & H2) & H3). exists r. split; [|done]. exists f. split; [|done].
  rewrite first_read_app in H1. by destruct (first_read c evs).
Qed.

Lemma read_seen evs n : run node0 evs = Ok n -> forall c, phase_of n c <> New -> first_read c evs <> None.
Proof.
  revert evs n. apply (run_ind (fun evs n => forall c, phase_of n c <> New -> first_read c evs <> None)).
  { by intros c. }
  intros evs n ev n' Hr IH Hs c Hc.
  assert (Hkeep : phase_of n c <> New -> first_read c (evs ++ [ev]) <> None).
  { intros H. specialize (IH c H). rewrite first_read_app. by destruct (first_read c evs). }
  destruct (phase_of n c) eqn:Ep; try (by apply Hkeep).
  (* it was new *)
  destruct ev as [c' read w|c' ok|w|w]; cbn [DelegateModel.step] in Hs.
  - destruct (decide (c = c')) as [<-|Hne].
    { rewrite first_read_app. destruct (first_read c evs); [done|]. cbn. by rewrite Nat.eqb_refl. }
    exfalso. apply Hc. destruct (phase_of n c'); try done.
    + apply read_new_cases in Hs as (sent & p & -> & _).
      rewrite (phase_of_set' n) by done. by rewrite decide_False.
    + apply read_loop_cases in Hs as
        (sent & [->|[[s ->]|(f & b & rec & e & -> & -> & Hd & He & -> & [[Hs ->]|[Hs ->]])]]);
        rewrite ?(phase_of_set' n) by done; by rewrite ?decide_False.
  - exfalso. apply Hc. unfold go in Hs. destruct (decide (c = c')) as [<-|Hne].
    { by rewrite Ep in Hs. }
    destruct (phase_of n c') as [|r k|a|a s|a q s| |a e|a e|a e|a k|a|]; try done;
      try destruct k as [|[|[|k]]]; try destruct (_ <? _)%nat; try done;
      injection Hs as <-; rewrite (phase_of_set' n) by done; by rewrite decide_False.
  - exfalso. apply Hc. unfold start in Hs. destruct (n_workers n !! w) as [[p [ch|]]|]; try done.
    injection Hs as <-. done.
  - exfalso. apply Hc. unfold take_ in Hs. destruct (n_workers n !! w) as [[p [ch|]]|]; try done.
    destruct (n_chans n !! ch) as [[|x l]|] eqn:El; try done. injection Hs as <-. done.
Qed.

Definition inv_tables (a : string) (evs : list event) (n : node) : Prop :=
  forall c,
    (n_tcp n !! a = Some c <-> registered_as evs c a /\ holds_tcp (phase_of n c)) /\
    (n_stat n !! a = Some c <-> registered_as evs c a /\ holds_stat (phase_of n c)) /\
    (phase_of n c = Stuck -> ~ registered_as evs c a) /\
    (forall q s, phase_of n c = Putting a q s -> q = c).

(** When the tables do not change and the acting connection keeps its standing. *)
Lemma tables_keep a evs ev n n' c p :
  inv_tables a evs n ->
  (forall c', phase_of n c' <> New -> first_read c' evs <> None) ->
  (forall c', phase_of n' c' = if decide (c' = c) then p else phase_of n c') ->
  n_tcp n' = n_tcp n -> n_stat n' = n_stat n ->
  (holds_tcp p <-> holds_tcp (phase_of n c)) -> (holds_stat p <-> holds_stat (phase_of n c)) ->
  (p = Stuck -> ~ registered_as (evs ++ [ev]) c a) ->
  (forall q s, p = Putting a q s -> q = c) ->
  inv_tables a (evs ++ [ev]) n'.
Proof.
  intros H Hr Hp Et Es Ht Hs Hst Hpu c'. rewrite Et, Es, Hp.
  destruct (H c') as (H1 & H2 & H3 & H4).
  assert (Hback : phase_of n c' <> New -> registered_as (evs ++ [ev]) c' a <-> registered_as evs c' a).
  { intros Hn. split; [apply registered_as_back; by apply Hr|apply registered_as_mono]. }
  assert (B1 : registered_as (evs ++ [ev]) c' a /\ holds_tcp (phase_of n c') <->
               registered_as evs c' a /\ holds_tcp (phase_of n c')).
  { destruct (phase_of n c') eqn:E; try (rewrite Hback; done). cbn. tauto. }
  assert (B2 : registered_as (evs ++ [ev]) c' a /\ holds_stat (phase_of n c') <->
               registered_as evs c' a /\ holds_stat (phase_of n c')).
  { destruct (phase_of n c') eqn:E; try (rewrite Hback; done). cbn. tauto. }
  destruct (decide (c' = c)) as [->|].
  - rewrite Ht, Hs. rewrite B1, B2. done.
  - rewrite B1, B2. split; [exact H1|split; [exact H2|split; [|exact H4]]].
    intros E. rewrite Hback by (by rewrite E). by apply H3.
Qed.

Ltac tkeep n c :=
  eapply (tables_keep _ _ _ n _ c);
    [eassumption|assumption|intros c'; rewrite (phase_of_set' n) by reflexivity; reflexivity
    |reflexivity|reflexivity| | | |].

Lemma inv_tables_step a evs n ev n' :
  run node0 evs = Ok n -> sole_client evs a ->
  inv_tables a evs n -> step n ev = Ok n' -> inv_tables a (evs ++ [ev]) n'.
Proof.
  intros Hrun Hu Ht. pose proof (run_inv _ _ Hrun) as (Hph & _). pose proof (read_seen _ _ Hrun) as Hseen.
  destruct ev as [c read w|c ok|w|w]; cbn [DelegateModel.step].
  - pose proof (Hph c) as Hc. destruct (phase_of n c) eqn:Ep; try done.
    + intros (sent & p & -> & Hp)%read_new_cases. tkeep n c;
        destruct Hp as [->|(f & r & -> & _)]; rewrite ?Ep; cbn; try done; lia.
    + intros (sent & [->|[[s ->]|(f & b & rec & e & -> & -> & Hd & He & -> & [[Hs ->]|[Hs ->]])]])%read_loop_cases.
      * tkeep n c; by rewrite ?Ep.
      * tkeep n c; by rewrite ?Ep.
      * eapply (tables_keep _ _ _ n _ c (Looping a0)); rewrite ?Ep; try done.
        intros c'. by destruct (decide (c' = c)) as [->|].
      * tkeep n c; by rewrite ?Ep.
  - pose proof (Hph c) as Hc. unfold go.
    destruct (phase_of n c) as [|r k|b|b s|b q s| |b e|b e|b e|b k|b|] eqn:Ep; try done.
    + destruct k as [|[|[|k]]].
      * intros [= <-]. tkeep n c; rewrite ?Ep; cbn; try done; lia.
      * (* tcpAddresses *)
        intros [= <-] c'. rewrite (phase_of_set' n) by done. cbn [n_tcp n_stat set_phase].
        destruct (Ht c') as (H1 & H2 & H3 & H4).
        assert (Hregc : registered_as (evs ++ [EGo c ok]) c (r_address r)).
        { exists r. split; [by apply registered_mono|done]. }
        destruct (decide (c' = c)) as [->|Hne].
        -- destruct (decide (r_address r = a)) as [<-|Hna].
           ++ rewrite lookup_insert. split; [split; [intros _; split; [done|cbn; lia]|done]|].
              split; [|done]. rewrite H2, Ep. cbn. split; [intros [_ ?]; lia|intros [_ ?]; lia].
           ++ rewrite lookup_insert_ne by done. rewrite H1, H2, Ep. cbn.
              assert (Hn : ~ registered_as (evs ++ [EGo c ok]) c a).
              { intros Hx. by apply Hna, (registered_as_fun _ _ _ _ Hregc). }
              assert (Hn' : ~ registered_as evs c a).
              { intros Hx. by apply Hn, registered_as_mono. }
              split; [tauto|split; [tauto|split; intros; discriminate]].
        -- assert (Hb : phase_of n c' <> New ->
             registered_as (evs ++ [EGo c ok]) c' a <-> registered_as evs c' a).
           { intros Hn. split; [apply registered_as_back; by apply Hseen|apply registered_as_mono]. }
           assert (B2 : registered_as (evs ++ [EGo c ok]) c' a /\ holds_stat (phase_of n c') <->
               registered_as evs c' a /\ holds_stat (phase_of n c')).
           { destruct (phase_of n c') eqn:E; try (rewrite Hb; done). cbn. tauto. }
           assert (B1 : registered_as (evs ++ [EGo c ok]) c' a /\ holds_tcp (phase_of n c') <->
               registered_as evs c' a /\ holds_tcp (phase_of n c')).
           { destruct (phase_of n c') eqn:E; try (rewrite Hb; done). cbn. tauto. }
           rewrite B1, B2. split; [|split; [done|split; [|done]]].
           ++ destruct (decide (r_address r = a)) as [<-|Hna].
              ** rewrite lookup_insert. split; [intros [= ->]; done|].
                 intros [Hx _]. exfalso. apply Hne. apply Hu; [done|]. by exists r.
              ** by rewrite lookup_insert_ne.
           ++ intros E. rewrite Hb by (by rewrite E). by apply H3.
      * (* acnStatuses *)
        intros [= <-] c'. rewrite (phase_of_set' n) by done. cbn [n_tcp n_stat set_phase].
        destruct (Ht c') as (H1 & H2 & H3 & H4).
        assert (Hregc : registered_as (evs ++ [EGo c ok]) c (r_address r)).
        { exists r. split; [by apply registered_mono|done]. }
        destruct (decide (c' = c)) as [->|Hne].
        -- destruct (decide (r_address r = a)) as [<-|Hna].
           ++ rewrite lookup_insert. split; [|split; [split; [intros _; split; [done|cbn; lia]|done]|done]].
              rewrite H1, Ep. cbn. split; intros [_ ?]; (split; [|lia]); [done|by exists r].
           ++ rewrite lookup_insert_ne by done. rewrite H1, H2, Ep. cbn.
              assert (Hn : ~ registered_as (evs ++ [EGo c ok]) c a).
              { intros Hx. by apply Hna, (registered_as_fun _ _ _ _ Hregc). }
              assert (Hn' : ~ registered_as evs c a).
              { intros Hx. by apply Hn, registered_as_mono. }
              split; [tauto|split; [tauto|split; intros; discriminate]].
        -- assert (Hb : phase_of n c' <> New ->
             registered_as (evs ++ [EGo c ok]) c' a <-> registered_as evs c' a).
           { intros Hn. split; [apply registered_as_back; by apply Hseen|apply registered_as_mono]. }
           assert (B2 : registered_as (evs ++ [EGo c ok]) c' a /\ holds_stat (phase_of n c') <->
               registered_as evs c' a /\ holds_stat (phase_of n c')).
           { destruct (phase_of n c') eqn:E; try (rewrite Hb; done). cbn. tauto. }
           assert (B1 : registered_as (evs ++ [EGo c ok]) c' a /\ holds_tcp (phase_of n c') <->
               registered_as evs c' a /\ holds_tcp (phase_of n c')).
           { destruct (phase_of n c') eqn:E; try (rewrite Hb; done). cbn. tauto. }
           rewrite B1, B2. split; [done|split; [|split; [|done]]].
           ++ destruct (decide (r_address r = a)) as [<-|Hna].
              ** rewrite lookup_insert. split; [intros [= ->]; done|].
                 intros [Hx _]. exfalso. apply Hne. apply Hu; [done|]. by exists r.
              ** by rewrite lookup_insert_ne.
           ++ intros E. rewrite Hb by (by rewrite E). by apply H3.
      * intros [= <-]. tkeep n c; rewrite ?Ep; destruct ok; cbn; try done; lia.
    + intros [= <-].
      destruct (decide (b = a)) as [->|Hna].
      * assert (Hst : n_stat n !! a = Some c).
        { apply Ht. rewrite Ep. done. }
        rewrite Hst. tkeep n c; rewrite ?Ep; try done. by intros ? ? [= <- _].
      * assert (Hn : ~ registered_as (evs ++ [EGo c ok]) c a).
        { intros Hx. apply Hna. eapply registered_as_fun; [|exact Hx]. by apply registered_as_mono. }
        destruct (n_stat n !! b); tkeep n c; rewrite ?Ep; try done. by intros ? ? [= ? _].
    + destruct (_ <? _)%nat; intros [= <-]. tkeep n c; by rewrite ?Ep.
    + intros [= <-]. destruct (n_pairs n !! pair_key e); tkeep n c; by rewrite ?Ep.
    + intros [= <-]. tkeep n c; by rewrite ?Ep.
    + destruct (_ <? _)%nat; intros [= <-]; tkeep n c; by rewrite ?Ep.
    + assert (Hb : forall c', phase_of n c' <> New ->
         registered_as (evs ++ [EGo c ok]) c' a <-> registered_as evs c' a).
      { intros c' Hn. split; [apply registered_as_back; by apply Hseen|apply registered_as_mono]. }
      assert (B2 : forall c', registered_as (evs ++ [EGo c ok]) c' a /\ holds_stat (phase_of n c') <->
          registered_as evs c' a /\ holds_stat (phase_of n c')).
      { intros c'. destruct (phase_of n c') eqn:E; try (rewrite Hb; [done|by rewrite E]). cbn. tauto. }
      assert (B1 : forall c', registered_as (evs ++ [EGo c ok]) c' a /\ holds_tcp (phase_of n c') <->
          registered_as evs c' a /\ holds_tcp (phase_of n c')).
      { intros c'. destruct (phase_of n c') eqn:E; try (rewrite Hb; [done|by rewrite E]). cbn. tauto. }
      cbn in Hc. destruct k as [|k]; intros [= <-] c'; rewrite (phase_of_set' n) by done; cbn [n_tcp n_stat set_phase];
        destruct (Ht c') as (H1 & H2 & H3 & H4);
        (destruct (decide (b = a)) as [->|Hna]; [rewrite lookup_delete|rewrite lookup_delete_ne by done]).
      * (* own address, first table *)
        destruct (decide (c' = c)) as [->|Hne].
        -- split; [split; [done|intros [_ ?]; done]|]. split; [|done]. rewrite H2, Ep. cbn.
           rewrite Hb by (by rewrite Ep). done.
        -- rewrite B2. split; [|split; [done|split; [|done]]].
           ++ split; [done|]. intros [Hx Hy]. exfalso. apply Hne. apply Hu; [|done].
              apply Hb; [|done]. intros E. by rewrite E in Hy.
           ++ intros E. rewrite Hb by (by rewrite E). by apply H3.
      * destruct (decide (c' = c)) as [->|Hne].
        -- assert (Hn : ~ registered_as (evs ++ [EGo c ok]) c a).
           { intros Hx. apply Hna. eapply registered_as_fun; [|exact Hx]. by apply registered_as_mono. }
           assert (Hn' : ~ registered_as evs c a).
           { intros Hx. by apply Hn, registered_as_mono. }
           rewrite H1, H2. split; [tauto|split; [tauto|split; intros; discriminate]].
        -- rewrite B1, B2. split; [done|split; [done|split; [|done]]].
           intros E. rewrite Hb by (by rewrite E). by apply H3.
      * destruct (decide (c' = c)) as [->|Hne].
        -- split; [|split; [split; [done|by intros [_ ?]]|done]]. rewrite H1, Ep. cbn.
           split; [intros [_ ?]; done|intros [_ ?]; done].
        -- rewrite B1. split; [done|split; [|split; [|done]]].
           ++ split; [done|]. intros [Hx Hy]. exfalso. apply Hne. apply Hu; [|done].
              apply Hb; [|done]. intros E. by rewrite E in Hy.
           ++ intros E. rewrite Hb by (by rewrite E). by apply H3.
      * destruct (decide (c' = c)) as [->|Hne].
        -- assert (Hn : ~ registered_as (evs ++ [EGo c ok]) c a).
           { intros Hx. apply Hna. eapply registered_as_fun; [|exact Hx]. by apply registered_as_mono. }
           assert (Hn' : ~ registered_as evs c a).
           { intros Hx. by apply Hn, registered_as_mono. }
           rewrite H1, H2. split; [tauto|split; [tauto|split; intros; discriminate]].
        -- rewrite B1, B2. split; [done|split; [done|split; [|done]]].
           intros E. rewrite Hb by (by rewrite E). by apply H3.
  - unfold start. destruct (n_workers n !! w) as [[p [ch|]]|] eqn:Ew; try done. intros [= <-].
    eapply (tables_keep _ _ _ n _ 0 (phase_of n 0)); try done.
    + intros c'. by destruct (decide (c' = O)) as [->|].
    + intros E. pose proof (Ht O) as (_ & _ & H3 & _). intros Hx. apply H3; [done|].
      eapply registered_as_back; [|done]. apply Hseen. by rewrite E.
    + apply Ht.
  - unfold take_. destruct (n_workers n !! w) as [[p [ch|]]|] eqn:Ew; try done.
    destruct (n_chans n !! ch) as [[|x l]|] eqn:El; try done. intros [= <-].
    eapply (tables_keep _ _ _ n _ 0 (phase_of n 0)); try done.
    + intros c'. by destruct (decide (c' = O)) as [->|].
    + intros E. pose proof (Ht O) as (_ & _ & H3 & _). intros Hx. apply H3; [done|].
      eapply registered_as_back; [|done]. apply Hseen. by rewrite E.
    + apply Ht.
Qed.

Lemma run_tables evs n a : run node0 evs = Ok n -> sole_client evs a -> inv_tables a evs n.
Proof.
  revert evs n. apply (run_ind (fun evs n => sole_client evs a -> inv_tables a evs n)).
  - intros _ c. repeat split; try done; by intros [_ ?].
  - intros evs n ev n' Hr IH Hs Hu. apply sole_prefix in Hu. eapply inv_tables_step; eauto.
Qed.
End Runs.
