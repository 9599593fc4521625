(** Properties of starting a client node (C75) and of its life beside its relay peer
    (C76). *)
From Coq Require Import ZArith NArith List String Ascii Lia.
From stdpp Require Import base tactics gmap list strings.
From Verif Require Import GoBase Bytes Utf8 WireModel ProtoModel ProtoProofs HexModel CryptoModel CryptoProofs
  CryptoProps PorModel PorProps AcnModel RouteModel RecordFileModel RecordFileProofs RecordFileProps RegistryModel
  ConfigModel StartModel StartProps ClientModel ClientProps FindProps LifeModel.
Open Scope string_scope.
Open Scope list_scope.
Open Scope Z_scope.

(** ** C75 *)

Section New.
  Context (P : prims) (derive : bytes -> bytes).

  Notation usable := (usable (fun _ => true) (fun _ => true)).
  Notation client_settings := (client_settings P derive).
  Notation client_new := (client_new P derive).

  (** The options are good for a client whose key pair has public key [key], whose record is
      [r] and which has [n] entry peers. The last option of a kind counts. *)
  Definition fit (opts : list opt) (key : string) (r : record) (n : nat) : Prop :=
    Forall usable opts /\
    (exists k b, given key_of opts = Some k /\ hex_text (bytes_of k) b /\ key = string_of (hex_encode (derive b))) /\
    given agent_of opts = Some r /\ r_address r <> "" /\ represents P r (r_address r) key /\
    exists es, given entries_of opts = Some es /\ length es = n /\ (0 < n)%nat.

  Lemma peers_of_length es : Forall (fun e => exists a b c, e = EPeer a b c) es -> length (peers_of es) = length es.
  Proof. induction 1 as [|e es (a & b & c & ->) H IH]; [done|]. change (S (length (peers_of es)) = S (length es)). by rewrite IH. Qed.

  Lemma given_usable opts es : Forall usable opts -> given entries_of opts = Some es ->
    Forall (fun e => exists a b c, e = EPeer a b c) es.
  Proof.
    intros HF. induction HF as [|o l Ho HF IH]; [done|]. rewrite given_cons.
    destruct (given entries_of l); [intros [= <-]; by apply IH|]. destruct o; try done. intros [= <-]. exact Ho.
  Qed.

  Theorem C75_settings opts key r' n :
    client_settings opts = Ok (key, r', n) <-> exists r, fit opts key r n /\ r' = undated r.
  Proof.
    unfold LifeModel.client_settings. split.
    - destruct (apply_opts derive (fun _ => true) (fun _ => true) settings0 opts) as [s|e|e] eqn:E; [|done..]. cbn [rbind].
      apply apply_opts_ok in E as [HF ->]. cbn [st_key st_addr st_record st_peers settings0].
      destruct (given key_of opts) as [k|] eqn:Ek; [|done].
      destruct (public_text derive k) as [key'|] eqn:Epk; [|done].
      destruct (given agent_of opts) as [r|] eqn:Ea; [|by destruct (String.eqb _ _)].
      destruct (String.eqb_spec (r_address r) ""); [done|].
      destruct (is_valid_por P (undated r) (r_address (undated r)) key') as [[code err]|x|x] eqn:Ev; [|done..].
      destruct (err || negb (code =? SUCCESS)) eqn:Eb; [done|].
      apply orb_false_iff in Eb as [-> Eb]. apply negb_false_iff, Z.eqb_eq in Eb. subst code.
      apply C29_accepted, undated_represents in Ev.
      destruct (given entries_of opts) as [es|] eqn:Ee; [|done].
      pose proof (peers_of_length _ (given_usable _ _ HF Ee)) as L.
      destruct (peers_of es) as [|q ps] eqn:Ep; [done|]. intros [= <- <- <-]. exists r. split; [|done].
      split; [done|]. split.
      { unfold public_text in Epk. destruct (hex_decode _) as [b|] eqn:Eh; [|done]. injection Epk as <-.
        exists k, b. split; [done|]. split; [by apply hex_decode_iff|done]. }
      split; [done|]. split; [done|]. split; [done|]. exists es. cbn [length] in L. rewrite <- L. cbn. split; [done|]. split; [done|lia].
    - intros (r & (HF & (k & b & Ek & Hb & ->) & Ea & Hn & Hr & es & Ee & Hl & Hp) & ->).
      rewrite (proj2 (apply_opts_ok derive (fun _ => true) (fun _ => true) settings0 opts _) (conj HF eq_refl)).
      cbn [rbind st_key st_addr st_record st_peers settings0]. rewrite Ek, Ea, Ee.
      unfold public_text. rewrite (proj2 (hex_decode_iff _ _) Hb).
      destruct (String.eqb_spec (r_address r) ""); [done|].
      rewrite (proj2 (C29_accepted P (undated r) (r_address (undated r)) _)) by (by apply undated_represents).
      change (false || negb (0 =? SUCCESS)) with false.
      pose proof (peers_of_length _ (given_usable _ _ HF Ee)) as L.
      destruct (peers_of es) as [|q ps] eqn:Ep; [cbn in L; lia|]. by rewrite L, Hl.
  Qed.

  (** The client came to know its entry peers before the deadline. *)
  Definition joined (w : cworld) : Prop :=
    cw_first w = true \/ exists n a, cw_rounds w !! n = Some a /\ at_expired a = false /\ at_ok a = true.

  Lemma joined_iff w : bootstrap_loop (cw_first w) (cw_rounds w) = Returns (Ok tt) <-> joined w.
  Proof.
    unfold bootstrap_loop, joined. destruct (cw_first w); [by split; [left|]|].
    rewrite C48_returns. split; [by right|]. intros [?|?]; done.
  Qed.

  Lemma bootstrap_cases w :
    bootstrap_loop (cw_first w) (cw_rounds w) = Returns (Ok tt) \/ bootstrap_loop (cw_first w) (cw_rounds w) = Hangs.
  Proof.
    unfold bootstrap_loop. destruct (cw_first w); [by left|].
    destruct (retry_rounds (cw_rounds w)) as [r|] eqn:E; [|by right]. left. by rewrite (retry_returns _ _ E).
  Qed.

  (** The relay peer confirms the registration. *)
  Definition confirmed (r : record) (o : stream_outcome) : Prop :=
    so_open o = true /\ so_write o = true /\
    (forall s, In s (record_texts r) -> valid_text s = true) /\
    exists b s, so_reply o = Ok b /\ decode_acn b = Some (Some (PStatus (Some s))) /\ sb_code s = 0.

  Lemma register_encodable r :
    (exists b, encode_acn (Some (PRegister (Some r))) = Some b) <->
    forall s, In s (record_texts r) -> valid_text s = true.
  Proof.
    split.
    - intros [b Hb] s Hs. destruct (valid_text s) eqn:E; [done|].
      assert (encode_acn (Some (PRegister (Some r))) = None); [|congruence]. apply acn_none. exists s. by split.
    - intros H. destruct (encode_acn (Some (PRegister (Some r)))) as [b|] eqn:E; [eauto|].
      apply acn_none in E as (s & Hs & Hv). specialize (H s Hs). congruence.
  Qed.

  Lemma confirmed_iff a r h o : confirmed r o <-> registered_again (Client a r h) o.
  Proof. unfold confirmed, registered_again. cbn [c_record]. by rewrite register_encodable. Qed.

  (** New succeeds exactly if the options are good, host and table can be made, the entry
      peers are joined before the deadline, and the relay peer, one of them, confirms the
      registration. What it did then is always the same, in one order: the agent is
      registered, so that others may find it, before the client listens to anyone. *)
  Theorem C75_result w opts acts c i :
    client_new w opts = (acts, Returns (Ok (c, i))) <->
    exists key r n b, fit opts key r n /\ cw_host w = true /\ cw_dht w = true /\ joined w /\ cw_boot w = true /\
      confirmed (undated r) (cw_register w) /\
      encode_acn (Some (PRegister (Some (undated r)))) = Some b /\
      c = Client (r_address r) (undated r) false /\ i = (cw_pick w mod n)%nat /\ (i < n)%nat /\
      acts = [AHost; ATable; AJoined; ABooted; AWrote b; ANotify; AAddress; AEnvelope].
  Proof.
    unfold LifeModel.client_new. split.
    - destruct (client_settings opts) as [[[key r'] n]|e|e] eqn:Es; [|done..].
      apply C75_settings in Es as (r & Hf & ->).
      destruct (cw_host w); [|done]. destruct (cw_dht w); [|done]. cbn [negb].
      destruct (bootstrap_cases w) as [E|E]; rewrite E; [|done]. apply joined_iff in E.
      destruct (cw_boot w); [|done]. cbn [negb].
      destruct (client_register _ (cw_register w)) as [fs reg] eqn:Er. destruct reg as [[]|e|e]; [|done..].
      intros [= <- <- <-]. apply register_ok in Er as Hc.
      destruct (register_ok' _ _ Hc) as [b Hb]. rewrite Hb in Er. injection Er as <-.
      exists key, r, n, b. split; [done|]. split; [done|]. split; [done|]. split; [done|]. split; [done|].
      split; [by apply confirmed_iff in Hc|]. split.
      { revert Hb. unfold client_register. destruct Hc as (-> & -> & _). cbn [negb c_record].
        destruct (encode_acn _); [|done]. by intros [= -> _]. }
      split; [done|]. split; [done|]. split; [|done].
      destruct Hf as (_ & _ & _ & _ & _ & es & _ & _ & Hn). apply Nat.mod_upper_bound. lia.
    - intros (key & r & n & b & Hf & -> & -> & Hj & -> & Hc & Hb & -> & -> & _ & ->).
      rewrite (proj2 (C75_settings opts key (undated r) n)) by eauto. cbn [negb].
      rewrite (proj2 (joined_iff w) Hj). apply (confirmed_iff (r_address r) _ false) in Hc.
      change (r_address (undated r)) with (r_address r).
      destruct (register_ok' _ _ Hc) as [b' Hb']. rewrite Hb'.
      assert (b' = b) as ->; [|done].
      revert Hb'. unfold client_register. destruct Hc as (-> & -> & _). cbn [negb c_record]. rewrite Hb. by intros [= -> _].
  Qed.

  (** It never returns exactly if the entry peers were not joined before the deadline. *)
  Theorem C75_hangs w opts :
    snd (client_new w opts) = Hangs <->
    (exists key r n, fit opts key r n) /\ cw_host w = true /\ cw_dht w = true /\ ~ joined w.
  Proof.
    unfold LifeModel.client_new. split.
    - destruct (client_settings opts) as [[[key r'] n]|e|e] eqn:Es; [|done..].
      apply C75_settings in Es as (r & Hf & ->).
      destruct (cw_host w); [|done]. destruct (cw_dht w); [|done]. cbn [negb].
      destruct (bootstrap_cases w) as [E|E]; rewrite E.
      + destruct (cw_boot w); [|done]. cbn [negb]. destruct (client_register _ _) as [fs [| |]]; done.
      + intros _. split; [eauto|]. split; [done|]. split; [done|]. intros Hj%joined_iff. congruence.
    - intros ((key & r & n & Hf) & -> & -> & Hj).
      rewrite (proj2 (C75_settings opts key (undated r) n)) by eauto. cbn [negb].
      destruct (bootstrap_cases w) as [E|E]; rewrite E; [|done]. by apply joined_iff in E.
  Qed.

  (** A host is left running after New failed exactly if only the table could not be made. *)
  Theorem C75_leak w opts e :
    snd (client_new w opts) = Returns (Err e) ->
    (In AHost (fst (client_new w opts)) /\ ~ In AClosed (fst (client_new w opts)) <->
     (exists key r n, fit opts key r n) /\ cw_host w = true /\ cw_dht w = false).
  Proof.
    unfold LifeModel.client_new.
    destruct (client_settings opts) as [[[key r'] n]|x|x] eqn:Es.
    2,3: intros _; cbn [fst]; split; [by intros [[] _]|]; intros [(key & r & n & Hf) _];
      rewrite (proj2 (C75_settings opts key (undated r) n)) in Es by eauto; done.
    apply C75_settings in Es as (r & Hf & ->).
    destruct (cw_host w) eqn:Eh; cbn [negb]; [|intros _; cbn; split; [by intros [[] _]|by intros (_ & ? & _)]].
    destruct (cw_dht w) eqn:Ed; cbn [negb].
    2:{ intros _. cbn. split; [intros _; split; [eauto|done]|]. intros _. split; [by left|]. by intros [?|[]]. }
    destruct (bootstrap_cases w) as [E|E]; rewrite E; [|done].
    destruct (cw_boot w); cbn [negb]; [|intros _; cbn; split; [intros [_ H]; exfalso; apply H; tauto|by intros (_ & _ & ?)]].
    destruct (client_register _ _) as [fs [| |]]; try done. intros _. cbn [fst]. split; [|by intros (_ & _ & ?)].
    intros [_ H]. exfalso. apply H. rewrite !in_app_iff. right. by left.
  Qed.

  (** It crashes exactly on an entry address that is not a multiaddress, if the proof check
      crashes on the record, or if the relay peer answers with a status without content. *)
  Theorem C75_crash w opts :
    (exists p, snd (client_new w opts) = Returns (Panic p)) <->
    malformed (fun _ => true) (fun _ => true) opts \/
    (exists k b r p, Forall usable opts /\ given key_of opts = Some k /\ hex_text (bytes_of k) b /\
       given agent_of opts = Some r /\ r_address r <> "" /\
       is_valid_por P (undated r) (r_address r) (string_of (hex_encode (derive b))) = Panic p) \/
    exists key r n, fit opts key r n /\ cw_host w = true /\ cw_dht w = true /\ joined w /\ cw_boot w = true /\
      (forall s, In s (record_texts (undated r)) -> valid_text s = true) /\
      so_open (cw_register w) = true /\ so_write (cw_register w) = true /\
      ((exists b, so_reply (cw_register w) = Ok b /\ decode_acn b = Some (Some (PStatus None))) \/
       exists p, so_reply (cw_register w) = Panic p).
  Proof.
    assert (Hset : (exists p, client_settings opts = Panic p) <->
      malformed (fun _ => true) (fun _ => true) opts \/
      (exists k b r p, Forall usable opts /\ given key_of opts = Some k /\ hex_text (bytes_of k) b /\
         given agent_of opts = Some r /\ r_address r <> "" /\
         is_valid_por P (undated r) (r_address r) (string_of (hex_encode (derive b))) = Panic p)).
    { unfold LifeModel.client_settings.
      pose proof (apply_opts_panic derive (fun _ => true) (fun _ => true) settings0 opts) as HP.
      destruct (apply_opts derive (fun _ => true) (fun _ => true) settings0 opts) as [s|e|e] eqn:E; cbn [rbind].
      - apply apply_opts_ok in E as [HF ->]. cbn [st_key st_addr st_record st_peers settings0]. split.
        + intros [p H]. right.
          destruct (given key_of opts) as [k|] eqn:Ek; [|done].
          unfold public_text in H. destruct (hex_decode (bytes_of k)) as [b|] eqn:Eh; [|done].
          destruct (given agent_of opts) as [r|] eqn:Ea; [|by destruct (String.eqb _ _)].
          destruct (String.eqb_spec (r_address r) ""); [done|].
          change (r_address (undated r)) with (r_address r) in H.
          destruct (is_valid_por P (undated r) (r_address r) _) as [[code err]|x|x] eqn:Ev.
          * destruct (err || negb (code =? SUCCESS)); [done|]. by destruct (given entries_of opts) as [es|]; [destruct (peers_of es)|].
          * done.
          * exists k, b, r, x. apply hex_decode_iff in Eh. done.
        + intros [H|(k & b & r & p & _ & Ek & Hb & Ea & Hn & Hv)].
          { apply HP in H as [? ?]. done. }
          rewrite Ek, Ea. unfold public_text. rewrite (proj2 (hex_decode_iff _ _) Hb).
          destruct (String.eqb_spec (r_address r) ""); [done|].
          change (r_address (undated r)) with (r_address r). rewrite Hv. by eexists.
      - split; [by intros [? ?]|]. intros [[? ?]%HP|(k & b & r & p & HF & _)]; [done|].
        by rewrite (proj2 (apply_opts_ok derive (fun _ => true) (fun _ => true) settings0 opts _) (conj HF eq_refl)) in E.
      - split; [|eauto]. intros _. left. apply HP. eauto. }
    unfold LifeModel.client_new.
    destruct (client_settings opts) as [[[key r'] n]|x|x] eqn:Es.
    2:{ cbn [snd]. split; [by intros [? ?]|]. intros H. exfalso.
        assert (exists p, Err (A:=string * record * nat) x = Panic p) as [? ?]; [|done]. apply Hset. destruct H as [H|[H|H]]; [by left|by right|].
        destruct H as (key & r & n & Hf & _). rewrite (proj2 (C75_settings opts key (undated r) n)) in Es by eauto. done. }
    2:{ cbn [snd]. split; [|eauto]. intros _. destruct (proj1 Hset) as [?|?]; [eauto|by left|by right; left]. }
    assert (Hno : forall Q, (malformed (fun _ => true) (fun _ => true) opts \/
      (exists k b r p, Forall usable opts /\ given key_of opts = Some k /\ hex_text (bytes_of k) b /\
         given agent_of opts = Some r /\ r_address r <> "" /\
         is_valid_por P (undated r) (r_address r) (string_of (hex_encode (derive b))) = Panic p) \/ Q) <-> Q).
    { intros Q. split; [|by right; right]. intros [H|[H|H]]; [| |done].
      - destruct (proj2 Hset) as [? ?]; [by left|done].
      - destruct (proj2 Hset) as [? ?]; [by right|done]. }
    rewrite Hno. clear Hno Hset. pose proof Es as Es0. apply C75_settings in Es as (r & Hf & ->).
    assert (Huniq : forall key2 r2 n2, fit opts key2 r2 n2 -> r2 = r).
    { intros key2 r2 n2 (_ & _ & H2 & _). destruct Hf as (_ & _ & H1 & _). congruence. }
    destruct (cw_host w); cbn [negb]; [|cbn; split; [by intros [? ?]|by intros (? & ? & ? & ? & ? & _)]].
    destruct (cw_dht w); cbn [negb]; [|cbn; split; [by intros [? ?]|by intros (? & ? & ? & ? & ? & ? & _)]].
    destruct (bootstrap_cases w) as [E|E]; rewrite E.
    2:{ cbn. split; [by intros [? ?]|]. intros (? & ? & ? & _ & _ & _ & Hj & _). apply joined_iff in Hj. congruence. }
    apply joined_iff in E.
    destruct (cw_boot w); cbn [negb]; [|cbn; split; [by intros [? ?]|by intros (? & ? & ? & ? & ? & ? & ? & ? & _)]].
    unfold client_register. cbn [c_record].
    assert (Hout : forall fs reg, (exists p, snd (let acts := [AHost; ATable; AJoined; ABooted] ++ wrote fs in
              match reg with
              | Panic p => (acts, Returns (Panic p))
              | Err x => (acts ++ [AClosed], Returns (Err x))
              | Ok _ => (acts ++ [ANotify; AAddress; AEnvelope], Returns (Ok (Client (r_address (undated r)) (undated r) false, (cw_pick w mod n)%nat)))
              end) = Returns (Panic p)) <-> exists p, reg = Panic (A:=unit) p).
    { intros fs [u|e|e]; cbn; split; intros [? H]; try done; injection H as <-; eauto. }
    destruct (so_open (cw_register w)) eqn:Eo; cbn [negb].
    2:{ rewrite (Hout [] (Err _)). split; [by intros [? ?]|]. by intros (? & ? & ? & _ & _ & _ & _ & _ & _ & ? & _). }
    pose proof (register_encodable (undated r)) as Henc.
    destruct (encode_acn (Some (PRegister (Some (undated r))))) as [b|] eqn:Eb.
    2:{ rewrite (Hout [] (Err _)). split; [by intros [? ?]|]. intros (? & r2 & ? & H2 & _ & _ & _ & _ & Ht & _).
        rewrite (Huniq _ _ _ H2) in Ht. apply Henc in Ht as [? ?]. done. }
    assert (Ht : forall s, In s (record_texts (undated r)) -> valid_text s = true) by (apply Henc; eauto).
    destruct (so_write (cw_register w)) eqn:Ew; cbn [negb].
    2:{ rewrite (Hout [] (Err _)). split; [by intros [? ?]|]. by intros (? & ? & ? & _ & _ & _ & _ & _ & _ & _ & ? & _). }
    rewrite Hout.
    assert (Hgoal : forall Q : Prop, (exists key0 r0 n0, fit opts key0 r0 n0 /\ true = true /\ true = true /\ joined w /\ true = true /\
      (forall s, In s (record_texts (undated r0)) -> valid_text s = true) /\ true = true /\ true = true /\ Q) <-> Q).
    { intros Q. split; [by intros (? & ? & ? & _ & _ & _ & _ & _ & _ & _ & _ & H)|]. intros HQ. exists key, r, n. done. }
    rewrite Hgoal. unfold read_status.
    destruct (so_reply (cw_register w)) as [rb|x|x].
    - destruct (decode_acn rb) as [[[| | | |[s|]]|]|] eqn:Ed;
        try (split; [intros [? ?]; done|]; intros [(b' & [= <-] & H)|[? ?]]; congruence).
      + destruct (sb_code s =? SUCCESS); split; try (intros [? ?]; done); intros [(b' & [= <-] & H)|[? ?]]; congruence.
      + split; [|eauto]. intros _. left. by exists rb.
    - split; [intros [? ?]; done|]. intros [(b' & ? & _)|[? ?]]; done.
    - split; [|eauto]. intros _. right. by exists x.
  Qed.

  (** Close reports each failure, and closes both whatever becomes of one of them; a second
      Close crashes the process. *)
  Theorem C75_close table host :
    (forall p, table <> Panic p) -> (forall p, host <> Panic p) ->
    (exists errs, client_close false table host = Ok errs /\
       forall x, In x errs <-> table = Err x \/ host = Err x) /\
    exists p, client_close true table host = Panic p.
  Proof.
    intros Ht Hh. split; [|by eexists].
    destruct table as [[]|x|p], host as [[]|y|q]; try (by destruct (Ht p)); try (by destruct (Hh q)).
    - exists []. split; [done|]. intros z. split; [done|]. by intros [?|?].
    - exists [y]. split; [done|]. intros z. split; [intros [<-|[]]; by right|]. intros [?|[= ->]]; [done|by left].
    - exists [x]. split; [done|]. intros z. split; [intros [<-|[]]; by left|]. intros [[= ->]|?]; [by left|done].
    - exists [x; y]. split; [done|]. intros z. split; [intros [<-|[<-|[]]]; [by left|by right]|]. intros [[= ->]|[= ->]]; [by left|by right; left].
  Qed.
End New.
Print Assumptions C75_settings.
Print Assumptions C75_result.
Print Assumptions C75_hangs.
Print Assumptions C75_leak.
Print Assumptions C75_crash.
Print Assumptions C75_close.

Notation me := StartProps.me.
Definition client_opts : list opt := [OptKey "0304"; OptEntries [EPeer true true true; EPeer false true true]; OptAgent me; OptKey "0102"].
Definition well (first : bool) (rounds : list attempt) (reply : res bytes) : cworld :=
  CWorld 3 true true first rounds true (StreamOutcome true true reply).
Definition success_frame : res bytes := match encode_acn (Some acn_success) with Some b => Ok b | None => Err "" end.

Lemma client_opts_fit : fit toy keep client_opts "0102" me 2.
Proof.
  split; [repeat constructor; cbn; eauto|]. split.
  - exists "0102", [z2b 1; z2b 2]. split; [reflexivity|]. split; [apply hex_decode_iff; reflexivity|reflexivity].
  - split; [reflexivity|]. split; [done|]. split; [apply C29_accepted; vm_compute; reflexivity|].
    eexists. split; [reflexivity|]. split; [reflexivity|lia].
Qed.

Example C75_example :
  (match client_new toy keep (well false [Attempt false false; Attempt false true] success_frame) client_opts with
   | ([AHost; ATable; AJoined; ABooted; AWrote b; ANotify; AAddress; AEnvelope], Returns (Ok (c, i))) =>
       c = Client (r_address me) (undated me) false /\ i = 1%nat /\
       decode_acn b = Some (Some (PRegister (Some (undated me))))
   | _ => False end) /\
  client_new toy keep (well false [Attempt false false; Attempt true false; Attempt true true] success_frame) client_opts =
    ([AHost; ATable], Hangs) /\
  (match client_new toy keep (well true [] (Err "EOF")) client_opts with
   | (AHost :: l, Returns (Err _)) => last l = Some AClosed
   | _ => False end) /\
  fst (client_new toy keep (CWorld 0 true false true [] true (StreamOutcome true true success_frame)) client_opts) = [AHost] /\
  snd (client_new toy keep (well true [] success_frame) [OptKey "0102"; OptAgent me]) = Returns (Err "at least one boostrap peer should be provided").
Proof. split_and!; vm_compute; try reflexivity. split_and!; reflexivity. Qed.

(** Once New has succeeded the agent was announced at the relay peer while the client could
    not yet take an envelope for it. *)
Theorem C75_ready_refuted :
  exists w opts acts c i b before after, client_new toy keep w opts = (acts, Returns (Ok (c, i))) /\
    acts = before ++ AWrote b :: after /\ ~ In AEnvelope before /\ In AEnvelope after.
Proof.
  exists (well true [] success_frame), client_opts.
  destruct (encode_acn (Some (PRegister (Some (undated me))))) as [b|] eqn:Eb; [|vm_compute in Eb; discriminate Eb].
  eexists _, _, _, b, [AHost; ATable; AJoined; ABooted], [ANotify; AAddress; AEnvelope].
  split; [|split; [reflexivity|]; split; [cbn; intuition discriminate|cbn; tauto]].
  apply C75_result. exists "0102", me, 2%nat, b. split; [exact client_opts_fit|].
  split; [reflexivity|]. split; [reflexivity|]. split; [left; reflexivity|]. split; [reflexivity|]. split.
  { split; [reflexivity|]. split; [reflexivity|]. split; [apply register_encodable; eauto|].
    assert (H : match success_frame with Ok f => decode_acn f = Some (Some acn_success) | _ => False end) by (vm_compute; reflexivity).
    cbn [well cw_register so_reply]. destruct success_frame as [f|?|?]; [|destruct H..].
    exists f, (StatusBody SUCCESS []). split; [reflexivity|]. split; [exact H|reflexivity]. }
  split; [exact Eb|]. split; [reflexivity|]. split; [reflexivity|]. split; [cbn; lia|reflexivity].
Qed.
Print Assumptions C75_ready_refuted.

(** ** C76 *)

(** The tables agree with the record file: reading it gives them again. *)
Definition in_step (peer_id : string -> option string) (s : site) : Prop :=
  exists rs, saved rs (si_file s) /\ Forall (wellformed peer_id) rs /\
    forall a, si_records s !! a = RecordFileProps.latest a rs /\
      si_relay s !! a = match RecordFileProps.latest a rs with Some r => peer_id (r_peer_key r) | None => None end.

Section Beside.
  Context (P : prims) (peer_id : string -> option string) (why : string).

  (** The relay peer accepts [frame] from the node with key [key] as the registration of the
      agent of [r]. *)
  Definition accepted (key : string) (frame : bytes) (r : record) : Prop :=
    decode_acn frame = Some (Some (PRegister (Some r))) /\ represents P r (r_address r) key.
  (** The relay peer after the registration. *)
  Definition stored (s s' : site) (r : record) (id : string) : Prop :=
    si_records s' = <[r_address r := r]> (si_records s) /\
    si_relay s' = <[r_address r := id]> (si_relay s) /\
    exists line, save_line r = Ok line /\ si_file s' = si_file s ++ line.

  Lemma represents_saveable r key frame : accepted key frame r -> exists line, save_line r = Ok line.
  Proof.
    intros [Hd Hr]. assert (H : is_ok (save_line r) = true).
    { apply saving_iff. split.
      - intros ->. destruct Hr as (_ & _ & [[? _]|[[? _]|[? _]]]); done.
      - intros s Hs. apply decoded_acn_encodable in Hd as Hd'. by apply (proj1 (register_encodable r) Hd'). }
    destruct (save_line r); try done. eauto.
  Qed.

  (** The handler: exactly the accepted registrations whose answer could be written change
      anything. *)
  Theorem C76_serve s key id frame answered s' sent :
    serve P why s key id frame answered = Ok (s', sent) ->
    (answered = true /\ exists r, accepted key frame r /\ stored s s' r id /\ sent = [acn_success]) \/
    (s' = s /\ ~ (answered = true /\ exists r, accepted key frame r)).
  Proof.
    unfold serve, relay_register, read_registration.
    destruct (decode_acn frame) as [[[| | |[r|]| ]|]|] eqn:Ed;
      try (intros [= <- <-]; right; split; [done|]; intros [_ (r' & Hd & _)]; congruence); [|done].
    destruct (is_valid_por P r (r_address r) key) as [[code err]|x|x] eqn:Ev; [|done..].
    destruct (err || negb (code =? SUCCESS)) eqn:Eb.
    { intros [= <- <-]. right. split; [done|]. intros [_ (r' & Hd & Hr)]. rewrite Ed in Hd. injection Hd as <-.
      apply C29_accepted in Hr. rewrite Ev in Hr. injection Hr as -> ->. done. }
    apply orb_false_iff in Eb as [-> Eb]. apply negb_false_iff, Z.eqb_eq in Eb as ->. apply C29_accepted in Ev.
    destruct answered.
    - intros [= <- <-]. left. split; [done|]. exists r. assert (Ha : accepted key frame r) by (by split).
      split; [done|]. destruct (represents_saveable _ _ _ Ha) as [line Hl]. rewrite Hl. unfold append.
      split; [|done]. split; [done|]. split; [done|]. exists line. cbn [si_file]. by rewrite firstn_all.
    - intros [= <- <-]. right. split; [done|]. by intros [? _].
  Qed.

  Theorem C76_serve_total s key id frame answered :
    is_ok (serve P why s key id frame answered) = true <->
    decode_acn frame <> Some (Some (PRegister None)) /\
    forall r, decode_acn frame = Some (Some (PRegister (Some r))) -> is_ok (is_valid_por P r (r_address r) key) = true.
  Proof.
    unfold serve, relay_register, read_registration.
    destruct (decode_acn frame) as [[[| | |[r|]| ]|]|] eqn:Ed; try (split; [intros _; split; done|done]).
    - destruct (is_valid_por P r (r_address r) key) as [[code err]|x|x] eqn:Ev.
      + split; [intros _; split; [done|]; intros r' [= <-]; by rewrite Ev|]. intros _.
        destruct (err || negb (code =? SUCCESS)); [done|]. by destruct answered.
      + split; [done|]. intros [_ H]. specialize (H r eq_refl). by rewrite Ev in H.
      + split; [done|]. intros [_ H]. specialize (H r eq_refl). by rewrite Ev in H.
    - split; [done|]. by intros [? _].
  Qed.

  (** ** The client and its relay peer *)

  Context (c : client) (key id : string) (frame : bytes).
  (** What New makes sure of (C75): the record is the agent's, for the key of the node, and
      has a frame. *)
  Context (Hrep : represents P (c_record c) (r_address (c_record c)) key)
          (Hframe : encode_acn (Some (PRegister (Some (c_record c)))) = Some frame)
          (Hlen : Z.of_nat (length frame) < 2 ^ 32).

  Lemma own_accepted : accepted key frame (c_record c).
  Proof. split; [|done]. apply acn_roundtrip; [done|lia|done]. Qed.

  Lemma own_serve s answered : exists s' sent,
    serve P why s key id frame answered = Ok (s', sent) /\
    if answered then stored s s' (c_record c) id /\ sent = [acn_success] else s' = s.
  Proof.
    destruct (serve P why s key id frame answered) as [[s' sent]|x|x] eqn:E.
    - exists s', sent. split; [done|]. apply C76_serve in E as [(-> & r & [Hd _] & Hs & ->)|[-> Hn]].
      + rewrite (proj1 own_accepted) in Hd. injection Hd as <-. done.
      + destruct answered; [|done]. exfalso. apply Hn. split; [done|]. eexists. exact own_accepted.
    - exfalso. assert (H : is_ok (serve P why s key id frame answered) = true); [|by rewrite E in H].
      apply C76_serve_total. rewrite (proj1 own_accepted). split; [done|]. intros r [= <-].
      by rewrite (proj2 (C29_accepted _ _ _ _) Hrep).
    - exfalso. assert (H : is_ok (serve P why s key id frame answered) = true); [|by rewrite E in H].
      apply C76_serve_total. rewrite (proj1 own_accepted). split; [done|]. intros r [= <-].
      by rewrite (proj2 (C29_accepted _ _ _ _) Hrep).
  Qed.

  (** An exchange never crashes the relay peer. It registers the agent exactly if the stream
      opened, the frame was written and the answer could be written; the client learns of it
      exactly if the answer also arrived. *)
  Theorem C76_meets s m :
    exists s' fs res, client_meets P why c key id s m = Ok (s', fs, res) /\
      fs = (if mt_open m && mt_write m then [CRegister frame] else []) /\
      (if mt_open m && mt_write m && mt_answered m then stored s s' (c_record c) id else s' = s) /\
      (forall p, res <> Panic p) /\
      (res = Ok tt <-> mt_open m = true /\ mt_write m = true /\ mt_answered m = true /\ mt_arrives m = true).
  Proof.
    unfold client_meets. rewrite Hframe. destruct m as [op wr an ar]. cbn [mt_open mt_write mt_answered mt_arrives].
    destruct op; cbn [andb].
    2:{ exists s, [], (Err "couldn't open stream to relay peer"). split_and!; try done. split; [done|]. by intros [? _]. }
    destruct wr; cbn [andb].
    2:{ unfold client_register. cbn [so_open negb so_write]. rewrite Hframe. exists s, [], (Err "write"). split_and!; try done. split; [done|]. by intros (_ & ? & _). }
    destruct (own_serve s an) as (s' & sent & -> & Hs). cbn [rbind].
    unfold client_register. cbn [so_open negb so_write so_reply fst snd]. rewrite Hframe.
    destruct an; cbn [andb].
    - destruct Hs as [Hs ->]. destruct ar.
      + cbn [last]. exists s', [CRegister frame], (Ok tt). split; [|split_and!; try done].
        destruct (encode_acn (Some acn_success)) as [a|] eqn:Ea; [|vm_compute in Ea; done].
        assert (Hd : decode_acn a = Some (Some acn_success)).
        { vm_compute in Ea. injection Ea as <-. vm_compute. reflexivity. }
        unfold read_status. rewrite Hd. reflexivity.
      + exists s', [CRegister frame], (Err "EOF"). split_and!; try done. split; [done|]. by intros (_ & _ & _ & ?).
    - subst s'. exists s, [CRegister frame], (Err "EOF"). split_and!; try done. split; [done|]. by intros (_ & _ & ? & _).
  Qed.

  Context (Hid : peer_id key = Some id).

  (** Registrations of others come from nodes with the peer id of their key, and carry
      records with a length that fits the record file. *)
  Definition fair (v : lifevent) : Prop :=
    match v with
    | LOther k i b _ =>
        peer_id k = Some i /\
        forall r msg, decode_acn b = Some (Some (PRegister (Some r))) -> encode_record r = Some msg -> Z.of_nat (length msg) < 2 ^ 32
    | _ => True
    end.
  (** Registrations of others do not crash the relay peer. *)
  Definition harmless (v : lifevent) : Prop :=
    match v with
    | LOther k _ b _ =>
        decode_acn b <> Some (Some (PRegister None)) /\
        forall r, decode_acn b = Some (Some (PRegister (Some r))) -> is_ok (is_valid_por P r (r_address r) k) = true
    | _ => True
    end.
  (** No one else registers the agent of the client. *)
  Definition spares (v : lifevent) : Prop :=
    match v with
    | LOther k _ b _ => forall r, accepted k b r -> r_address r <> r_address (c_record c)
    | _ => True
    end.
  (** The client registers: its first attempt failed, a later one succeeded, and the exchange
      got as far as the answer. *)
  Definition registers (v : lifevent) : Prop :=
    match v with
    | LStream false rounds m =>
        (exists n a, rounds !! n = Some a /\ at_expired a = false /\ at_ok a = true) /\
        mt_open m = true /\ mt_write m = true /\ mt_answered m = true
    | _ => False
    end.
  (** The relay peer loses its record file. *)
  Definition loses (v : lifevent) : Prop := v = LRestart false.
  (** The relay peer knows the agent, under the peer id of the client. *)
  Definition registered (s : site) : Prop :=
    si_records s !! r_address (c_record c) = Some (c_record c) /\ si_relay s !! r_address (c_record c) = Some id.

  Lemma latest_snoc a rs r : RecordFileProps.latest a (rs ++ [r]) = if String.eqb (r_address r) a then Some r else RecordFileProps.latest a rs.
  Proof. unfold RecordFileProps.latest. rewrite rev_app_distr. reflexivity. Qed.

  Lemma stored_in_step s s' r k i :
    in_step peer_id s -> stored s s' r i -> r_peer_key r = k -> peer_id k = Some i ->
    (forall msg, encode_record r = Some msg -> Z.of_nat (length msg) < 2 ^ 32) -> in_step peer_id s'.
  Proof.
    intros (rs & Hs & Hw & Ht) (H1 & H2 & line & Hl & H3) <- Hk Hm. exists (rs ++ [r]).
    split; [rewrite H3; by apply saved_snoc|]. split.
    - apply Forall_app. split; [done|]. constructor; [|constructor]. split; [by eexists|done].
    - intros a. rewrite latest_snoc, H1, H2. destruct (Ht a) as [Ha Hb].
      destruct (String.eqb_spec (r_address r) a) as [->|Hne].
      + by rewrite !lookup_insert, Hk.
      + by rewrite !lookup_insert_ne.
  Qed.

  Lemma own_record_length msg : encode_record (c_record c) = Some msg -> Z.of_nat (length msg) < 2 ^ 32.
  Proof.
    intros Hm. pose proof Hframe as H. unfold encode_acn, encode_performative, encode_parts in H. cbn [w_all w_message] in H.
    unfold w_message in H. rewrite Hm in H. cbn [app] in H. injection H as H.
    pose proof (put_one_length 1 msg). pose proof (put_one_length 8 (put_fields [(1, WBytes msg)])).
    rewrite H in *. lia.
  Qed.

  (** Reading the record file again changes nothing. *)
  Theorem C76_restart f :
    in_step peer_id (lf_site f) -> life_step P peer_id why c key id f (LRestart true) = Ok f.
  Proof.
    intros (rs & Hs & Hw & Ht). cbn [life_step]. destruct (C27_reload peer_id rs _ Hs Hw) as (st & -> & _ & H). cbn [rbind].
    destruct f as [[rec rel file] w rr]. cbn [lf_site lf_wrote lf_results si_file si_records si_relay] in *. f_equal. f_equal. f_equal.
    - apply map_eq. intros a. rewrite (proj1 (H a)). symmetry. apply Ht.
    - apply map_eq. intros a. rewrite (proj2 (H a)). symmetry. apply Ht.
  Qed.

  Lemma lost_file : exists st, load peer_id [] = Ok st /\ l_records st = ∅ /\ l_addresses st = ∅.
  Proof.
    destruct (C27_reload peer_id [] [] saved_nil ltac:(constructor)) as (st & H & _ & Ht). exists st. split; [done|].
    split; apply map_eq; intros a; rewrite lookup_empty; apply (Ht a).
  Qed.

  Lemma retry_cases rounds :
    (retry_rounds rounds = Returns (Ok tt) /\ exists n a, rounds !! n = Some a /\ at_expired a = false /\ at_ok a = true) \/
    (retry_rounds rounds = Hangs /\ ~ exists n a, rounds !! n = Some a /\ at_expired a = false /\ at_ok a = true).
  Proof.
    destruct (retry_rounds rounds) as [r|] eqn:E.
    - left. rewrite (retry_returns _ _ E) in E |- *. split; [done|]. by apply C48_returns.
    - right. split; [done|]. intros H%C48_returns. congruence.
  Qed.

  (** One event: whether the agent is registered afterwards, and what the client wrote. *)
  Lemma step_spec f v :
    in_step peer_id (lf_site f) -> fair v -> harmless v ->
    exists f', life_step P peer_id why c key id f v = Ok f' /\ in_step peer_id (lf_site f') /\
      lf_wrote f' = lf_wrote f ++
        match v with
        | LStream false rounds m => if retry_rounds rounds then if mt_open m && mt_write m then [CRegister frame] else [] else []
        | _ => []
        end /\
      (spares v -> (registered (lf_site f') <-> registers v \/ registered (lf_site f) /\ ~ loses v)).
  Proof.
    intros Hstep Hfair Hsafe.
    assert (Hsame : forall s : site, ~ registers v -> ~ loses v -> (registered s <-> registers v \/ registered s /\ ~ loses v)) by tauto.
    destruct v as [[|] rounds m|rounds|k i b an|[|]]; cbn [life_step].
    - eexists. split; [done|]. cbn [lf_site lf_wrote]. rewrite app_nil_r. split; [done|]. split; [done|]. intros _. apply Hsame; [intros []|discriminate].
    - destruct (retry_cases rounds) as [[-> Hr]|[-> Hr]].
      + destruct (C76_meets (lf_site f) m) as (s' & fs & res & -> & -> & Hs & _). cbn [rbind].
        eexists. split; [done|]. cbn [lf_site lf_wrote].
        destruct m as [op wr an ar]. cbn [mt_open mt_write mt_answered] in *.
        destruct (op && wr && an) eqn:E.
        * split; [|split; [done|]].
          { eapply stored_in_step; [done|exact Hs| |exact Hid|exact own_record_length]. apply Hrep. }
          intros _. apply andb_true_iff in E as [E ->]. apply andb_true_iff in E as [-> ->].
          split; [intros _; left; done|]. intros _. destruct Hs as (H1 & H2 & _). split; [rewrite H1|rewrite H2]; apply lookup_insert.
        * subst s'. split; [done|]. split; [done|]. intros _. apply Hsame; [|discriminate].
          cbn. intros (_ & -> & -> & ->). done.
      + eexists. split; [done|]. cbn [lf_site lf_wrote]. rewrite app_nil_r. split; [done|]. split; [done|].
        intros _. apply Hsame; [|discriminate]. cbn. by intros [? _].
    - eexists. split; [done|]. cbn [lf_site lf_wrote]. rewrite app_nil_r. split; [done|]. split; [done|]. intros _. apply Hsame; [intros []|discriminate].
    - apply (proj2 (C76_serve_total (lf_site f) k i b an)) in Hsafe.
      destruct (serve P why (lf_site f) k i b an) as [[s' sent]|x|x] eqn:E; [|done..]. cbn [rbind fst].
      eexists. split; [done|]. cbn [lf_site lf_wrote]. rewrite app_nil_r. apply C76_serve in E as [(-> & r & Ha & Hs & _)|[-> _]].
      + destruct Hfair as [Hk Hm]. split; [|split; [done|]].
        { eapply stored_in_step; [done|exact Hs| |exact Hk|intros msg; apply Hm, Ha]. apply Ha. }
        intros Hsp. specialize (Hsp r Ha). unfold registered. destruct Hs as (-> & -> & _).
        rewrite !lookup_insert_ne by done. apply Hsame; [intros []|discriminate].
      + split; [done|]. split; [done|]. intros _. apply Hsame; [intros []|discriminate].
    - pose proof (C76_restart f Hstep) as H. cbn [life_step] in H. rewrite H. exists f. split; [done|]. split; [done|].
      split; [by rewrite app_nil_r|]. intros _. apply Hsame; [intros []|discriminate].
    - destruct lost_file as (st & -> & H1 & H2). cbn [rbind]. eexists. split; [done|]. cbn [lf_site lf_wrote]. rewrite app_nil_r, H1, H2.
      split; [|split; [done|]].
      { exists []. split; [constructor|]. split; [constructor|]. intros a. cbn [si_records si_relay]. by rewrite !lookup_empty. }
      intros _. split; [intros [H _]; cbn [si_records] in H; by rewrite lookup_empty in H|]. intros [[]|[_ H]]. by destruct H.
  Qed.

  (** The registrations the client writes in the course of [vs]. *)
  Definition written (vs : list lifevent) : list ceffect :=
    flat_map (fun v => match v with
      | LStream false rounds m => if retry_rounds rounds then if mt_open m && mt_write m then [CRegister frame] else [] else []
      | _ => []
      end) vs.

  (** Whatever happens, the relay peer keeps running unless another node crashes it, and its
      tables stay those its record file gives. *)
  Theorem C76_runs f vs :
    in_step peer_id (lf_site f) -> Forall fair vs -> Forall harmless vs ->
    exists f', life_run P peer_id why c key id f vs = Ok f' /\ in_step peer_id (lf_site f').
  Proof.
    revert f. induction vs as [|v vs IH]; intros f Hs Hf Hh; [by exists f|].
    apply Forall_cons in Hf as [Hv Hf]. apply Forall_cons in Hh as [Hw Hh].
    destruct (step_spec f v Hs Hv Hw) as (f1 & H1 & H2 & _). cbn [life_run]. rewrite H1. cbn [rbind]. by apply IH.
  Qed.

  (** The agent is registered in the end exactly if the client registered it, or it was
      registered from the start, and the relay peer has not lost its file since. *)
  Theorem C76_registered f vs f' :
    in_step peer_id (lf_site f) -> Forall fair vs -> Forall harmless vs -> Forall spares vs ->
    life_run P peer_id why c key id f vs = Ok f' ->
    (registered (lf_site f') <->
     (exists vs1 v vs2, vs = vs1 ++ v :: vs2 /\ registers v /\ ~ In (LRestart false) vs2) \/
     registered (lf_site f) /\ ~ In (LRestart false) vs).
  Proof.
    revert f. induction vs as [|v vs IH]; intros f Hs Hf Hh Hp.
    - intros [= <-]. cbn. split; [tauto|]. intros [([] & ? & ? & ? & _)|[? _]]; done.
    - apply Forall_cons in Hf as [Hv Hf]. apply Forall_cons in Hh as [Hw Hh]. apply Forall_cons in Hp as [Hu Hp].
      destruct (step_spec f v Hs Hv Hw) as (f1 & H1 & H2 & _ & H3). cbn [life_run]. rewrite H1. cbn [rbind].
      intros Hrun. rewrite (IH f1 H2 Hf Hh Hp Hrun), (H3 Hu). cbn [In]. unfold loses. split.
      + intros [(vs1 & w & vs2 & -> & Hr & Hn)|[[Hr|[Hr Hl]] Hn]].
        * left. exists (v :: vs1), w, vs2. done.
        * left. exists [], v, vs. done.
        * right. split; [done|]. intros [?|?]; done.
      + intros [([|v' vs1] & w & vs2 & E & Hr & Hn)|[Hr Hn]].
        * injection E as -> ->. right. split; [by left|done].
        * injection E as <- ->. left. exists vs1, w, vs2. done.
        * right. split; [right; split; [done|]|]; tauto.
  Qed.

  (** The client writes its registration only after a failed first attempt to open a stream:
      losing and restoring the connection does not make it register. *)
  Theorem C76_written f vs f' :
    in_step peer_id (lf_site f) -> Forall fair vs -> Forall harmless vs ->
    life_run P peer_id why c key id f vs = Ok f' -> lf_wrote f' = lf_wrote f ++ written vs.
  Proof.
    revert f. induction vs as [|v vs IH]; intros f Hs Hf Hh.
    - intros [= <-]. cbn. by rewrite app_nil_r.
    - apply Forall_cons in Hf as [Hv Hf]. apply Forall_cons in Hh as [Hw Hh].
      destruct (step_spec f v Hs Hv Hw) as (f1 & H1 & H2 & H3 & _). cbn [life_run]. rewrite H1. cbn [rbind].
      intros Hrun. rewrite (IH f1 H2 Hf Hh Hrun), H3. cbn [written flat_map]. by rewrite app_assoc.
  Qed.

  (** A client whose relay peer has lost its file stays unknown there for as long as its
      streams open at the first attempt, whatever it loses and restores in between. *)
  Theorem C76_forgotten f vs f' :
    in_step peer_id (lf_site f) -> Forall fair vs -> Forall harmless vs -> Forall spares vs ->
    (forall rounds m, ~ In (LStream false rounds m) vs) ->
    life_run P peer_id why c key id f (LRestart false :: vs) = Ok f' ->
    ~ registered (lf_site f') /\ lf_wrote f' = lf_wrote f.
  Proof.
    intros Hs Hf Hh Hp Hno Hrun. split.
    - intros Hreg. apply (C76_registered f (LRestart false :: vs) f') in Hreg; try done; try (by constructor).
      destruct Hreg as [(vs1 & v & vs2 & E & Hr & _)|[_ H]]; [|apply H; by left].
      destruct vs1 as [|v1 vs1]; injection E as <- ->; [done|].
      destruct v as [[|] rounds m|?|? ? ? ?|?]; try done. apply (Hno rounds m), in_app_iff. right. by left.
    - rewrite (C76_written f (LRestart false :: vs) f') by (try done; by constructor).
      assert (written (LRestart false :: vs) = []) as ->; [|by rewrite app_nil_r]. cbn [written flat_map app].
      clear -Hno. induction vs as [|v vs IH]; [done|]. cbn [flat_map]. rewrite IH by (intros r m H; apply (Hno r m); by right).
      destruct v as [[|] rounds m|?|? ? ? ?|?]; try done. destruct (Hno rounds m). by left.
  Qed.
End Beside.
Print Assumptions C76_serve.
Print Assumptions C76_serve_total.
Print Assumptions C76_meets.
Print Assumptions C76_restart.
Print Assumptions C76_runs.
Print Assumptions C76_registered.
Print Assumptions C76_written.
Print Assumptions C76_forgotten.

(** A client that New returned meets the conditions: its record is the agent's for the key
    of the node, and the frame it wrote carries that record. *)
Theorem C76_started P derive w opts acts c i :
  client_new P derive w opts = (acts, Returns (Ok (c, i))) ->
  exists frame, In (AWrote frame) acts /\ encode_acn (Some (PRegister (Some (c_record c)))) = Some frame /\
    represents P (c_record c) (r_address (c_record c)) (r_peer_key (c_record c)) /\ c_addr c = r_address (c_record c).
Proof.
  intros (key & r & n & b & Hf & _ & _ & _ & _ & _ & Hb & -> & _ & _ & ->)%C75_result. exists b.
  split; [cbn; tauto|]. split; [done|]. split; [|done]. cbn [c_record].
  destruct Hf as (_ & _ & _ & _ & Hr & _). apply undated_represents. destruct Hr as (H1 & H2 & H3).
  split; [done|]. split; [done|exact H3].
Qed.
Print Assumptions C76_started.

Definition my_client : ClientModel.client := Client (r_address me) (undated me) false.
Definition id_of (k : string) : option string := if String.eqb k "0102" then Some "Qm1" else None.
Definition nobody : life := Life (Site ∅ ∅ []) [] [].
Definition good_meeting : meeting := Meeting true true true true.
Definition my_run (vs : list lifevent) : res life := life_run toy id_of "why" my_client "0102" "Qm1" nobody vs.
Definition sees (vs : list lifevent) : option (option string * option string * nat * list (ret unit)) :=
  match my_run vs with
  | Ok f => Some (option_map r_service (si_records (lf_site f) !! r_address me), si_relay (lf_site f) !! r_address me,
                  length (lf_wrote f), lf_results f)
  | _ => None
  end.

Example C76_example :
  (** Registered after a retry; still after the connection was lost and the peer restarted. *)
  sees [LStream false [Attempt false false; Attempt false true] good_meeting; LLost [Attempt false false; Attempt false true];
        LRestart true; LStream true [] good_meeting] =
    Some (Some "s", Some "Qm1", 1%nat, [Returns (Ok tt); Returns (Ok tt); Returns (Ok tt)]) /\
  (** Registered although the client was told nothing. *)
  sees [LStream false [Attempt false true] (Meeting true true true false)] =
    Some (Some "s", Some "Qm1", 1%nat, [Returns (Err "EOF")]) /\
  (** Not registered: the relay peer could not answer. *)
  sees [LStream false [Attempt false true] (Meeting true true false true)] =
    Some (None, None, 1%nat, [Returns (Err "EOF")]) /\
  (** Another node cannot register the agent as its own, but can be refused. *)
  sees [LStream false [Attempt false true] good_meeting;
        LOther "0304" "Qm2" (match encode_acn (Some (PRegister (Some (undated me)))) with Some b => b | None => [] end) true] =
    Some (Some "s", Some "Qm1", 1%nat, [Returns (Ok tt)]).
Proof. split_and!; vm_compute; reflexivity. Qed.

(** Every call of the client succeeds and it is connected again, but its relay peer does not
    know its agent. *)
Theorem C76_forgotten_refuted :
  exists vs f, my_run vs = Ok f /\ Forall (fun r => r = Returns (Ok tt)) (lf_results f) /\ last (lf_results f) <> None /\
    In (LRestart false) vs /\ si_records (lf_site f) !! r_address me = None.
Proof.
  set (vs := [LStream false [Attempt false true] good_meeting; LRestart false; LLost [Attempt false true]; LStream true [] good_meeting]).
  assert (H : sees vs = Some (None, None, 1%nat, [Returns (Ok tt); Returns (Ok tt); Returns (Ok tt)])) by (vm_compute; reflexivity).
  exists vs. unfold sees in H. destruct (my_run vs) as [f|x|x]; [|discriminate H..].
  exists f. split; [reflexivity|].
  injection H as H1 _ _ H2. rewrite H2. split; [repeat constructor|]. split; [done|].
  split; [cbn; tauto|]. by destruct (si_records _ !! _).
Qed.
Print Assumptions C76_forgotten_refuted.
