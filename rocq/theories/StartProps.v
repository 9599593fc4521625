(** Properties of starting a peer node (C71). *)
From Coq Require Import ZArith NArith List String Ascii Lia.
From stdpp Require Import base tactics gmap list strings.
From Verif Require Import GoBase Bytes Utf8 WireModel ProtoModel HexModel CryptoModel PorModel CryptoProofs CryptoProps PorProps
  RecordFileModel RecordFileProofs RecordFileProps RegistryModel RegistryProps ConfigModel ConfigProps StartModel.
Open Scope string_scope.
Open Scope list_scope.
Open Scope Z_scope.

(** ** What the options say *)

Definition key_of (o : opt) : option string := match o with OptKey k => Some k | _ => None end.
Definition agent_of (o : opt) : option record := match o with OptAgent r => Some r | _ => None end.
Definition entries_of (o : opt) : option (list entry) := match o with OptEntries l => Some l | _ => None end.
Definition local_of (o : opt) : option (string * Z) := match o with OptLocal h p => Some (h, p) | _ => None end.
Definition public_of (o : opt) : option (string * Z) := match o with OptPublic h p => Some (h, p) | _ => None end.
Definition delegate_of (o : opt) : option Z := match o with OptDelegate p => Some p | _ => None end.
Definition mailbox_of (o : opt) : option string := match o with OptMailbox u => Some u | _ => None end.
Definition monitoring_of (o : opt) : option Z := match o with OptMonitoring p => Some p | _ => None end.
Definition delay_of (o : opt) : option Z := match o with OptDelay n => Some n | _ => None end.
Definition store_of (o : opt) : option string := match o with OptStore f => Some f | _ => None end.
Definition is_relay (o : opt) : bool := match o with OptRelay => true | _ => false end.
(** The last option of a kind counts. *)
Definition given {A} (f : opt -> option A) (opts : list opt) : option A := last (omap f opts).

Lemma given_nil {A} (f : opt -> option A) : given f [] = None.
Proof. done. Qed.
Lemma given_cons {A} (f : opt -> option A) o l :
  given f (o :: l) = match given f l with Some x => Some x | None => f o end.
Proof.
  unfold given. cbn [omap list_omap]. destruct (f o) as [x|]; [|by destruct (last _)]. cbn. rewrite last_cons. done.
Qed.

Ltac given_cases := repeat match goal with |- context [given ?f ?l] => destruct (given f l) end.

Section Start.
Context (P : prims) (derive : bytes -> bytes) (ip4 dns4 : string -> bool).

(** An option that can be used. *)
Definition usable (o : opt) : Prop :=
  match o with
  | OptKey k => is_Some (hex_decode (bytes_of k))
  | OptLocal h _ => ip4 h = true
  | OptPublic h _ => dns4 h = true
  | OptEntries l => Forall (fun e => exists a b c, e = EPeer a b c) l
  | _ => True
  end.

Definition public_text (k : string) : option string :=
  match hex_decode (bytes_of k) with Some b => Some (string_of (hex_encode (derive b))) | None => None end.
Definition peers_of (l : list entry) : list (bool * bool * bool) :=
  omap (fun e => match e with EPeer a b c => Some (a, b, c) | _ => None end) l.
(** The record without the two texts that limit its validity. *)
Definition undated (r : record) : record :=
  Record_ (r_service r) (r_ledger r) (r_address r) (r_public_key r) (r_peer_key r) (r_signature r) "" "".

Lemma entry_infos_ok l ps : entry_infos l = Ok ps <-> Forall (fun e => exists a b c, e = EPeer a b c) l /\ ps = peers_of l.
Proof.
  revert ps. induction l as [|e l IH]; intros ps.
  - cbn. split; [intros [= <-]; by split|]. intros [_ ->]. done.
  - destruct e as [| |a b c]; [cbn; split; [done|]; intros [(? & ? & ? & ?)%Forall_inv _]; done..|].
    change (peers_of (EPeer a b c :: l)) with ((a, b, c) :: peers_of l). cbn [entry_infos].
    rewrite Forall_cons. destruct (entry_infos l) as [qs|x|x]; cbn [rbind].
    + destruct (proj1 (IH qs) eq_refl) as [H1 H2]. rewrite <- H2. split.
      * intros [= <-]. split; [split; [eauto|done]|done].
      * intros [_ ->]. done.
    + split; [done|]. intros [[_ H] _]. by discriminate (proj2 (IH (peers_of l)) (conj H eq_refl)).
    + split; [done|]. intros [[_ H] _]. by discriminate (proj2 (IH (peers_of l)) (conj H eq_refl)).
Qed.

Lemma apply_opts_ok s l s' :
  apply_opts derive ip4 dns4 s l = Ok s' <->
  Forall usable l /\
  s' = Settings
    (match given key_of l with Some k => public_text k | None => st_key s end)
    (match given agent_of l with Some r => Some (undated r) | None => st_record s end)
    (match given agent_of l with Some r => r_address r | None => st_addr s end)
    (match given entries_of l with Some es => peers_of es | None => st_peers s end)
    (match given local_of l with Some x => Some x | None => st_local s end)
    (match given public_of l with Some x => Some x | None => st_public s end)
    (default (st_delegate s) (given delegate_of l))
    (default (st_mailbox s) (given mailbox_of l))
    (existsb is_relay l || st_relay s)
    (default (st_monitoring s) (given monitoring_of l))
    (default (st_delay s) (given delay_of l))
    (default (st_path s) (given store_of l)).
Proof.
  revert s s'. induction l as [|o l IH]; intros s s'.
  - cbn. destruct s. split; [intros [= <-]; by split|]. by intros [_ ->].
  - cbn [apply_opts]. rewrite Forall_cons.
    destruct (apply_opt derive ip4 dns4 s o) as [s1|x|x] eqn:E; cbn [rbind].
    + rewrite IH. rewrite !given_cons.
      assert (Hu : usable o /\ (forall R : settings -> Prop, R s1 <-> R s1)).
      { split; [|done]. destruct s, o; cbn in E |- *; try done.
        - destruct (hex_decode _); [by eexists|done].
        - destruct (entry_infos l0) eqn:Ee; [|done..]. by apply entry_infos_ok in Ee as [? _].
        - by destruct (ip4 host).
        - by destruct (dns4 host). }
      destruct Hu as [Hu _].
      enough (Heq : forall A B : settings, A = B -> (Forall usable l /\ s' = A) <-> ((usable o /\ Forall usable l) /\ s' = B)); [apply Heq; clear Heq|intros A B ->; tauto].
      destruct s as [k r a ps lo pu de mb re mo dl pa], o; cbn in E;
        try (injection E as <-; cbn; f_equal; rewrite ?orb_true_r; try done; by given_cases).
      * destruct (hex_decode (bytes_of key)) eqn:Eh; [|done]. injection E as <-. cbn. unfold public_text.
        f_equal; try done; given_cases; try done. by rewrite Eh.
      * destruct (entry_infos l0) as [ps'|x|x] eqn:Ee; [|done..]. apply entry_infos_ok in Ee as [_ ->]. injection E as <-. cbn.
        f_equal; try done; by given_cases.
      * destruct (ip4 host); [|done]. injection E as <-. cbn. f_equal; try done; by given_cases.
      * destruct (dns4 host); [|done]. injection E as <-. cbn. f_equal; try done; by given_cases.
    + split; [done|]. intros [[Hu _] _]. exfalso. destruct s, o; cbn in E, Hu; try done.
      * destruct Hu as [? Hu]. by rewrite Hu in E.
      * by rewrite (proj2 (entry_infos_ok l0 _) (conj Hu eq_refl)) in E.
      * by rewrite Hu in E.
      * by rewrite Hu in E.
    + split; [done|]. intros [[Hu _] _]. exfalso. destruct s, o; cbn in E, Hu; try done.
      * destruct Hu as [? Hu]. by rewrite Hu in E.
      * by rewrite (proj2 (entry_infos_ok l0 _) (conj Hu eq_refl)) in E.
      * by rewrite Hu in E.
      * by rewrite Hu in E.
Qed.

(** ** The way to a result *)

(** What New checks before it creates a host. *)
Definition sound (opts : list opt) (key : string) : Prop :=
  Forall usable opts /\ (exists k, given key_of opts = Some k /\ public_text k = Some key) /\
  is_Some (given local_of opts) /\ is_Some (given public_of opts) /\
  (forall r, given agent_of opts = Some r -> represents P r (r_address r) key).

Lemma undated_represents r key : represents P (undated r) (r_address (undated r)) key <-> represents P r (r_address r) key.
Proof. done. Qed.

Lemma prepare_ok opts s :
  prepare P derive ip4 dns4 opts = Ok s <->
  exists key, sound opts key /\
  s = Settings (Some key)
    (option_map undated (given agent_of opts))
    (match given agent_of opts with Some r => r_address r | None => "" end)
    (match given entries_of opts with Some es => peers_of es | None => [] end)
    (given local_of opts) (given public_of opts)
    (default 0 (given delegate_of opts)) (default "" (given mailbox_of opts)) (existsb is_relay opts)
    (default 0 (given monitoring_of opts)) (default 0 (given delay_of opts))
    (default "./agent_records_store" (given store_of opts)).
Proof.
  unfold prepare.
  assert (Hpk : Forall usable opts -> forall k, given key_of opts = Some k -> is_Some (public_text k)).
  { intros HF. induction HF as [|o l Ho HF IH]; [done|]. intros k. rewrite given_cons.
    destruct (given key_of l); [intros [= <-]; by apply IH|]. destruct o; try done. intros [= <-].
    destruct Ho as [b Hb]. unfold public_text. rewrite Hb. by eexists. }
  split.
  - destruct (apply_opts derive ip4 dns4 settings0 opts) as [s1|x|x] eqn:E; [|done..]. cbn [rbind].
    apply apply_opts_ok in E as [HF ->]. unfold check_settings. cbn [st_key st_local st_public st_record settings0].
    destruct (given key_of opts) as [k|] eqn:Ek; [|done]. destruct (Hpk HF k eq_refl) as [key Hk]. rewrite Hk.
    destruct (given local_of opts) as [lo|] eqn:El; [|done]. destruct (given public_of opts) as [pu|] eqn:Ep; [|done].
    intros H. exists key.
    assert (Hs : forall r, given agent_of opts = Some r -> represents P r (r_address r) key).
    { intros r Hr. rewrite Hr in H. apply undated_represents. apply C29_accepted. cbn [rbind] in H.
      destruct (is_valid_por P (undated r) (r_address (undated r)) key) as [[code err]|x|x] eqn:Ev; [|done..].
      cbn [rbind fst snd] in H. destruct err; [done|]. cbn [orb] in H. by destruct (Z.eqb_spec code SUCCESS) as [->|]. }
    split.
    { split; [done|]. split; [by exists k|]. split; [by eexists|]. split; [by eexists|]. done. }
    destruct (given agent_of opts) as [r|]; cbn [option_map] in *.
    + destruct (is_valid_por P (undated r) (r_address (undated r)) key) as [[code err]|x|x]; [|done..].
      cbn [rbind fst snd] in H. destruct (err || negb (code =? SUCCESS)); [done|]. cbn [rbind] in H. injection H as <-.
      by rewrite orb_false_r.
    + cbn [rbind] in H. injection H as <-. by rewrite orb_false_r.
  - intros (key & (HF & (k & Hk & Hkey) & [lo Hlo] & [pu Hpu] & Hr) & ->).
    rewrite (proj2 (apply_opts_ok settings0 opts _) (conj HF eq_refl)). cbn [rbind].
    unfold check_settings. cbn [st_key st_local st_public st_record settings0]. rewrite Hk, Hkey, Hlo, Hpu, orb_false_r.
    destruct (given agent_of opts) as [r|] eqn:Ea; cbn [option_map].
    + rewrite (proj2 (C29_accepted P (undated r) (r_address (undated r)) key)); [done|]. by apply undated_represents, Hr.
    + done.
Qed.

Section Run.
Context (w : world) (s : settings).

(** Some connection was made and every entry peer came into the routing table. *)
Definition joined : Prop := st_peers s = [] \/ existsb up (st_peers s) && forallb in_table (st_peers s) = true.
Definition notified : Prop := forallb snd (st_peers s) = true.
Definition readable : Prop := exists file l, w_file w = Some file /\ load (w_id w) file = Ok l.
(** The own address is among those of the record file. *)
Definition filed (a : string) : Prop :=
  exists file l, w_file w = Some file /\ load (w_id w) file = Ok l /\ is_Some (l_addresses l !! a).
Definition provided (a : string) : Prop := w_provide w a = Provided \/ w_provide w a = Deadline.
Definition own_known : Prop := st_peers s = [] \/ st_addr s = "" \/ provided (st_addr s) \/ filed (st_addr s).
Definition listens : Prop := st_delegate s = 0 \/ w_listen w = true.

(** The conditions in the order in which New meets them. *)
Definition conds : list Prop :=
  [w_host w = true; w_dht w = true; w_cert w = true; joined; w_boot w = true; notified; readable; own_known; listens].
Definition upto (n : nat) : Prop := Forall (fun p => p) (take n conds).
Definition fails (n : nat) : Prop := upto n /\ match conds !! n with Some p => ~ p | None => False end.
Definition need (k : stage) : nat :=
  match k with
  | KHost => 0 | KDht => 1 | KCert => 2 | KJoin => 3 | KBoot => 4 | KRelay | KNotif | KNotify => 5 | KLoad => 6
  | KStored | KLoop _ | KOwn => 7 | KLookup | KEnvelope | KDelegate => 8 | KMailbox | KServices | KDone _ => 9
  end.
Definition open_ (x : start) : Prop := AHost ∈ x_log x /\ AClosed ∉ x_log x.

Definition way (x : start) : Prop :=
  match x_stage x with
  | KDone (Ok _) => upto 9 /\ open_ x
  | KDone (Panic _) => fails 8
  | KDone (Err _) =>
      exists n, (n < 8)%nat /\ fails n /\ (open_ x <-> n = 1%nat \/ n = 2%nat \/ n = 6%nat)
  | KHost => x_log x = []
  | k => upto (need k) /\ open_ x
  end.

(** What is known about the own address. *)
Definition about_own (x : start) : Prop :=
  (st_addr s ∈ x_announced x -> filed (st_addr s) \/ (8 <= need (x_stage x))%nat) /\
  match x_stage x with
  | KStored => is_Some (x_relay x !! st_addr s) <-> filed (st_addr s)
  | KLoop l => (st_addr s ∈ l -> filed (st_addr s)) /\ (filed (st_addr s) -> st_addr s ∈ l \/ st_addr s ∈ x_announced x)
  | KOwn => st_peers s = [] \/ (filed (st_addr s) -> st_addr s ∈ x_announced x)
  | KHost | KDht | KCert | KJoin | KBoot | KRelay | KNotif | KNotify | KLoad => x_relay x !! st_addr s = None
  | _ => True
  end.

Lemma load_from fuel c1 m1 n1 c2 m2 n2 file :
  load_n (w_id w) fuel (Loaded (c1 + c2) (m1 ∪ m2) (n1 ∪ n2)) file =
  match load_n (w_id w) fuel (Loaded c1 m1 n1) file with
  | Ok l => Ok (Loaded (l_count l + c2) (l_records l ∪ m2) (l_addresses l ∪ n2))
  | Err e => Err e | Panic p => Panic p
  end.
Proof.
  revert c1 m1 n1 file. induction fuel as [|fuel IH]; intros c1 m1 n1 file; destruct file as [|b file]; cbn [load_n]; try done.
  destruct (length (b :: file) <? 4)%nat; [done|].
  set (rest := drop 4 (b :: file)). set (size := Z.to_nat _).
  destruct (length rest <? size)%nat; [done|]. destruct (decode_record (take size rest)) as [r|]; [|done].
  destruct (w_id w (r_peer_key r)) as [id|]; [|done]. cbn [l_count l_records l_addresses].
  rewrite <- IH. f_equal. rewrite <- !insert_union_l. f_equal. lia.
Qed.

Lemma load_over m n file :
  load_n (w_id w) (length file) (Loaded 0 m n) file =
  match load (w_id w) file with
  | Ok l => Ok (Loaded (l_count l) (l_records l ∪ m) (l_addresses l ∪ n))
  | Err e => Err e | Panic p => Panic p
  end.
Proof.
  pose proof (load_from (length file) 0 ∅ ∅ 0 m n file) as H. rewrite !map_empty_union in H. change (0 + 0) with 0 in H. rewrite H. unfold load.
  match goal with |- match ?a with _ => _ end = _ => destruct a end; [|reflexivity..]. by rewrite Z.add_0_r.
Qed.

Lemma upto_S n (p : Prop) : conds !! n = Some p -> upto n -> p -> upto (S n).
Proof. intros Hn H Hp. unfold upto. rewrite (take_S_r _ _ _ Hn). apply Forall_app. split; [done|]. by constructor. Qed.

Lemma open_go x l : open_ x -> AClosed ∉ l -> AHost ∈ x_log x ++ l /\ AClosed ∉ x_log x ++ l.
Proof. intros [H1 H2] H. rewrite !elem_of_app. tauto. Qed.

Lemma way_done x k e n :
  x_stage x = k -> (0 < n < 8)%nat -> fails n -> open_ x ->
  (n = 1%nat \/ n = 2%nat \/ n = 6%nat -> way (go x (KDone (Err e)) [])) /\
  (n <> 1%nat -> n <> 2%nat -> n <> 6%nat -> way (closed x e)).
Proof.
  intros Ek Hn Hf Hop. split.
  - intros H. exists n. split; [lia|]. split; [done|]. split; [done|]. intros _. apply open_go; [done|set_solver].
  - intros H1 H2 H6. exists n. split; [lia|]. split; [done|]. split; [|by intros [?|[?|?]]].
    intros [_ H]. destruct H. cbn. set_solver.
Qed.

Lemma new_step_way x order x' :
  way x -> about_own x -> new_step w s x order = Some x' -> way x' /\ about_own x'.
Proof.
  intros Hw [Ha Ho]. unfold new_step. unfold way in Hw. destruct (x_stage x) as [| | | | | | | | | |left| | | | | | |r] eqn:Ek; cbn [need] in *.
  - assert (Ha' : st_addr s ∉ x_announced x \/ filed (st_addr s)) by (destruct (decide (st_addr s ∈ x_announced x)) as [H|H]; [destruct (Ha H); [auto|lia]|auto]).
    destruct (w_host w) eqn:E; intros [= <-].
    + split; [|split; [intros H; destruct (Ha H); [by left|lia]|done]]. split; [apply (upto_S 0 _ eq_refl); [by constructor|done]|].
      unfold open_. cbn. rewrite Hw. set_solver.
    + split; [|split; [intros H; cbn; right; lia|done]]. exists 0%nat. cbn. split; [lia|]. split; [split; [by constructor|]; cbn; by rewrite E|].
      unfold open_. cbn. rewrite Hw. split; [set_solver|lia].
  - destruct Hw as [Hu Hop]. destruct (w_dht w) eqn:E; intros [= <-].
    + split; [split; [by apply (upto_S 1 _ eq_refl)|apply open_go; [done|set_solver]]|]. split; [|done]. intros H; destruct (Ha H); [by left|lia].
    + split; [|split; [intros H; cbn; right; lia|done]]. eapply (way_done x _ _ 1); try done; [lia| |auto]. split; [done|]. cbn. by rewrite E.
  - destruct Hw as [Hu Hop]. destruct (w_cert w) eqn:E; intros [= <-].
    + split; [split; [by apply (upto_S 2 _ eq_refl)|apply open_go; [done|set_solver]]|]. split; [|done]. intros H; destruct (Ha H); [by left|lia].
    + split; [|split; [intros H; cbn; right; lia|done]]. eapply (way_done x _ _ 2); try done; [lia| |auto]. split; [done|]. cbn. by rewrite E.
  - destruct Hw as [Hu Hop].
    assert (HJ : (joined /\ x' = go x KBoot []) \/ (~ joined /\ x' = closed x "bootstrap") -> way x' /\ about_own x').
    { intros [[HJ ->]|[HJ ->]].
      - split; [split; [by apply (upto_S 3 _ eq_refl)|apply open_go; [done|set_solver]]|]. split; [|done]. intros H; destruct (Ha H); [by left|lia].
      - split; [|split; [intros H; cbn; right; lia|done]]. eapply (way_done x _ _ 3); try done; lia. }
    intros Hx. apply HJ. unfold joined. destruct (st_peers s) as [|p ps] eqn:Ep; [injection Hx as <-; auto|].
    pose proof (C68_bootstrap (p :: ps)) as Hb. destruct (existsb up (p :: ps) && forallb in_table (p :: ps)).
    + rewrite Hb in Hx. injection Hx as <-. auto.
    + destruct Hb as [y Hb]. rewrite Hb in Hx. injection Hx as <-. right. split; [|done]. by intros [?|?].
  - destruct Hw as [Hu Hop]. destruct (w_boot w) eqn:E; intros [= <-].
    + split; [split; [by apply (upto_S 4 _ eq_refl)|apply open_go; [done|set_solver]]|]. split; [|done]. intros H; destruct (Ha H); [by left|lia].
    + split; [|split; [intros H; cbn; right; lia|done]]. eapply (way_done x _ _ 4); try done; try lia. split; [done|]. cbn. by rewrite E.
  - destruct Hw as [Hu Hop]. intros [= <-].
    split; [split; [done|apply open_go; [done|destruct (st_relay s); set_solver]]|]. split; [|done]. intros H; destruct (Ha H); [by left|lia].
  - destruct Hw as [Hu Hop]. intros [= <-].
    split; [split; [done|apply open_go; [done|set_solver]]|]. split; [|done]. intros H; destruct (Ha H); [by left|lia].
  - destruct Hw as [Hu Hop].
    assert (HJ : (notified /\ x' = go x KLoad []) \/ (~ notified /\ x' = closed x "notify") -> way x' /\ about_own x').
    { intros [[HJ ->]|[HJ ->]].
      - split; [split; [by apply (upto_S 5 _ eq_refl)|apply open_go; [done|set_solver]]|]. split; [|done]. intros H; destruct (Ha H); [by left|lia].
      - split; [|split; [intros H; cbn; right; lia|done]]. eapply (way_done x _ _ 5); try done; lia. }
    intros Hx. apply HJ. unfold notified. pose proof (notify_spec (st_peers s)) as Hn.
    destruct (forallb snd (st_peers s)); [rewrite Hn in Hx|destruct Hn as [y Hn]; rewrite Hn in Hx]; injection Hx as <-; auto.
  - destruct Hw as [Hu Hop].
    assert (HF : ~ readable -> x' = go x (KDone (Err "while initializing agent record storage")) [] -> way x' /\ about_own x').
    { intros HR ->. split; [|split; [intros H; cbn; right; lia|done]]. eapply (way_done x _ _ 6); try done; [lia|auto]. }
    destruct (w_file w) as [file|] eqn:Ef.
    2:{ intros [= <-]. apply HF; [|done]. intros (f & l & H & _). by rewrite Ef in H. }
    rewrite load_over. destruct (load (w_id w) file) as [l|y|y] eqn:El; intros [= <-].
    2,3: apply HF; [|done]; intros (f & l & H & H'); rewrite Ef in H; injection H as <-; by rewrite El in H'.
    split; [split|split].
    + apply (upto_S 6 _ eq_refl); [done|]. by exists file, l.
    + apply open_go; [done|set_solver].
    + intros H; destruct (Ha H); [by left|lia].
    + cbn. rewrite lookup_union_is_Some, Ho. split.
      * intros [H|[? ?]]; [|done]. by exists file, l.
      * intros (f & l' & H & H' & H''). rewrite Ef in H. injection H as <-. rewrite El in H'. injection H' as <-. by left.
  - destruct Hw as [Hu Hop]. destruct (st_peers s) as [|p ps] eqn:Ep.
    + intros [= <-]. split; [split; [done|apply open_go; [done|set_solver]]|]. split; [intros H; destruct (Ha H); [by left|lia]|]. by left.
    + destruct (decide _) as [Hord|]; [|done]. intros [= <-].
      split; [split; [done|apply open_go; [done|set_solver]]|]. split; [intros H; destruct (Ha H); [by left|lia]|].
      cbn. rewrite <- Ho. rewrite Hord. rewrite elem_of_list_fmap.
      split.
      * intros ([a id] & E & Hin). apply elem_of_map_to_list in Hin. cbn in E. rewrite E, Hin. by eexists.
      * intros [id Hid]. left. exists (st_addr s, id). split; [done|]. by apply elem_of_map_to_list.
  - destruct Hw as [Hu Hop]. destruct Ho as [Ho1 Ho2]. destruct left as [|a left].
    + intros [= <-]. split; [split; [done|apply open_go; [done|set_solver]]|]. split; [intros H; destruct (Ha H); [by left|lia]|].
      right. intros H. destruct (Ho2 H) as [?%elem_of_nil|?]; done.
    + unfold announce. destruct (decide (a ∈ x_announced x)) as [Hin|Hin]; intros [= <-].
      * split; [split; [done|apply open_go; [done|set_solver]]|]. split; [intros H; destruct (Ha H); [by left|lia]|]. cbn. split.
        -- intros H. apply Ho1. by right.
        -- intros H. destruct (Ho2 H) as [[->|?]%elem_of_cons|?]; auto.
      * split; [split; [done|apply open_go; [done|set_solver]]|]. split.
        -- cbn. intros [<-%elem_of_singleton|H]%elem_of_union; [left; apply Ho1; by left|]. destruct (Ha H); [by left|lia].
        -- cbn. split; [intros H; apply Ho1; by right|].
           intros H. destruct (Ho2 H) as [[->|?]%elem_of_cons|?]; set_solver.
  - destruct Hw as [Hu Hop]. destruct (st_peers s) as [|p ps] eqn:Ep.
    { intros [= <-]. split; [|split; [intros H; cbn; right; lia|done]]. split; [|apply open_go; [done|set_solver]].
      apply (upto_S 7 _ eq_refl); [done|]. by left. }
    assert (HK : own_known -> forall y, x_stage y = KLookup -> open_ y -> way y /\ about_own y).
    { intros HK y Ey Hy. unfold way, about_own. rewrite Ey. split; [split; [by apply (upto_S 7 _ eq_refl)|done]|]. split; [|done].
      intros _. right. cbn. lia. }
    destruct (String.eqb_spec (st_addr s) "") as [E0|E0].
    { intros [= <-]. apply HK; [right; by left|done|done]. }
    unfold announce. cbn [x_announced go]. destruct (decide (st_addr s ∈ x_announced x)) as [Hin|Hin].
    { intros [= <-]. apply HK; [|done|apply open_go; [done|set_solver]].
      destruct (Ha Hin); [|lia]. unfold own_known. auto. }
    assert (HP : provided (st_addr s) \/ ~ own_known).
    { unfold own_known, provided. destruct (w_provide w (st_addr s)); auto; right; intros [?|[?|[[?|?]|H]]]; try done; [congruence| |congruence|];
      (destruct Ho as [?|Ho]; [congruence|]; by apply Hin, Ho). }
    destruct HP as [HP|HP].
    + intros Hx. assert (Hok : match w_provide w (st_addr s) with Provided | Deadline => true | _ => false end = true) by (by destruct HP as [-> | ->]).
      rewrite Hok in Hx. injection Hx as <-. apply HK; [unfold own_known; auto|done|]. apply open_go; [done|set_solver].
    + intros Hx. assert (Hok : match w_provide w (st_addr s) with Provided | Deadline => true | _ => false end = false).
      { destruct (w_provide w (st_addr s)) eqn:E; try done; destruct HP; right; right; left; unfold provided; auto. }
      rewrite Hok in Hx. injection Hx as <-. split; [|split; [intros H; cbn; right; lia|done]].
      eapply (way_done _ KLookup _ 7); try done; try lia. apply open_go; [done|set_solver].
  - destruct Hw as [Hu Hop]. intros [= <-]. split; [split; [done|apply open_go; [done|set_solver]]|]. split; [|done]. cbn. intros _. right. lia.
  - destruct Hw as [Hu Hop]. intros [= <-]. split; [split; [done|apply open_go; [done|set_solver]]|]. split; [|done]. cbn. intros _. right. lia.
  - destruct Hw as [Hu Hop].
    assert (HL : listens -> forall l, AClosed ∉ l -> way (go x KMailbox l) /\ about_own (go x KMailbox l)).
    { intros HL l Hl. split; [split; [by apply (upto_S 8 _ eq_refl)|by apply open_go]|]. split; [|done]. cbn. intros _. right. lia. }
    destruct (Z.eqb_spec (st_delegate s) 0) as [E0|E0].
    { intros [= <-]. apply HL; [by left|set_solver]. }
    destruct (w_listen w) eqn:El; intros [= <-]; [apply HL; [by right|set_solver]|].
    split; [|split; [cbn; intros _; right; lia|done]]. split; [done|]. cbn. unfold listens. rewrite El. by intros [?|?].
  - destruct Hw as [Hu Hop]. intros [= <-]. split; [split; [done|apply open_go; [done|destruct (st_mailbox s); set_solver]]|]. split; [|done]. cbn. intros _. right. lia.
  - destruct Hw as [Hu Hop]. intros [= <-]. split; [split; [done|apply open_go; [done|set_solver]]|]. split; [|done]. cbn. intros _. right. lia.
  - done.
Qed.

Lemma relay_client_way x r id x' :
  way x -> about_own x -> r_address r <> st_addr s -> relay_client x r id = Some x' -> way x' /\ about_own x'.
Proof.
  intros Hw [Ha Ho] Hne. unfold relay_client. destruct (is_crashed (x_stage x)) eqn:Ec; [done|].
  destruct (decide _) as [[Hh Hc]|]; [|done]. intros [= <-].
  assert (Hop : open_ x <-> AHost ∈ x_log x ++ [ARegistered r id] /\ AClosed ∉ x_log x ++ [ARegistered r id]).
  { unfold open_. rewrite !elem_of_app. set_solver. }
  split.
  - revert Hw. unfold way. cbn [x_stage].
    destruct (x_stage x) as [| | | | | | | | | |left| | | | | | |[]]; try (intros [? ?]; split; [done|by apply Hop]).
    + intros H. by rewrite H in Hh; apply elem_of_nil in Hh.
    + unfold open_ at 2. cbn [x_log]. by setoid_rewrite <- Hop.
    + done.
  - split; [done|]. cbn [x_stage x_relay x_announced].
    destruct (x_stage x); try done; by rewrite lookup_insert_ne.
Qed.

Lemma start_run_way l x x' :
  way x -> about_own x -> (forall r id, In (MRegister r id) l -> r_address r <> st_addr s) ->
  start_run w s x l = Some x' -> way x' /\ about_own x'.
Proof.
  revert x. induction l as [|m l IH]; intros x Hw Ha Hl; cbn [start_run]; [by intros [= <-]|].
  destruct (start_step w s x m) as [y|] eqn:E; [|done].
  assert (way y /\ about_own y) as [? ?].
  { destruct m as [order|r id]; [by eapply new_step_way|]. eapply relay_client_way; try done. apply (Hl r id). by left. }
  apply IH; try done. intros r id Hin. apply (Hl r id). by right.
Qed.

Lemma start0_way : way start0 /\ about_own start0.
Proof. split; [done|]. split; [set_solver|done]. Qed.

(** ** The order *)

Definition is_registration (x : action) : bool := match x with ARegistered _ _ => true | _ => false end.
(** What New itself did. *)
Definition told (l : list action) : list action := List.filter (fun x => negb (is_registration x)) l.
Definition registered (l : list action) : list (record * string) :=
  omap (fun x => match x with ARegistered r id => Some (r, id) | _ => None end) l.
Definition registers (l : list action) (a : string) : Prop := exists r id, ARegistered r id ∈ l /\ r_address r = a.
Definition announcing (l : list string) : list action := map (fun a => AAnnounced a (w_provide w a)) l.

Definition before_relay : list action := [AHost].
Definition before_notif : list action := AHost :: (if st_relay s then [AHandler "/aea-register/0.1.0"] else []).
Definition before_load : list action := before_notif ++ [AHandler "/aea-notif/0.1.0"].
Definition before_loop : list action := before_load ++ [ALoaded].
(** [l] are the addresses announced from the tables. *)
Definition own_too (l : list string) : list string :=
  match st_peers s with [] => [] | _ => l ++ (if decide (st_addr s = "" \/ st_addr s ∈ l) then [] else [st_addr s]) end.
Definition before_lookup (l : list string) : list action := before_loop ++ announcing (own_too l).
Definition before_delegate (l : list string) : list action :=
  before_lookup l ++ [AHandler "/aea-address/0.1.0"; AHandler "/aea/0.1.0"].
Definition before_mailbox (l : list string) : list action :=
  before_delegate l ++ (if decide (st_delegate s = 0) then [] else [AListen (st_delegate s)]).
Definition before_services (l : list string) : list action :=
  before_mailbox l ++ (if decide (st_mailbox s = "") then [] else [AMailbox (st_mailbox s)]).
Definition script (l : list string) : list action := before_services l ++ [AMonitor; ASlow].

(** The addresses of the tables. *)
Definition from_tables (log : list action) (l : list string) : Prop :=
  NoDup l /\
  match st_peers s with
  | [] => l = []
  | _ =>
      (forall a, a ∈ l -> filed a \/ registers log a) /\
      (forall a, filed a -> a ∈ l) /\
      (forall l1 l2, log = l1 ++ ALoaded :: l2 -> forall a, registers l1 a -> a ∈ l)
  end.

(** What the tables hold once the file is loaded. *)
Definition tabled (x : start) : Prop :=
  (forall a, is_Some (x_relay x !! a) -> filed a \/ registers (x_log x) a) /\
  (ALoaded ∈ x_log x -> forall a, filed a -> is_Some (x_relay x !! a)) /\
  (forall a, registers (x_log x) a -> is_Some (x_relay x !! a)).

Definition follows (x : start) : Prop :=
  match x_stage x with
  | KHost => x_log x = []
  | KDht | KCert | KJoin | KBoot | KRelay => told (x_log x) = before_relay
  | KNotif => told (x_log x) = before_notif
  | KNotify | KLoad => told (x_log x) = before_load
  | KStored => told (x_log x) = before_loop /\ x_announced x = ∅
  | KLoop l => exists l0, told (x_log x) = before_loop ++ announcing l0 /\ x_announced x = list_to_set l0 /\
                 from_tables (x_log x) (l0 ++ l) /\ st_peers s <> []
  | KOwn => exists l0, told (x_log x) = before_loop ++ announcing l0 /\ x_announced x = list_to_set l0 /\
                 from_tables (x_log x) l0
  | KLookup => exists l0, told (x_log x) = before_lookup l0 /\ from_tables (x_log x) l0
  | KEnvelope => exists l0, told (x_log x) = before_lookup l0 ++ [AHandler "/aea-address/0.1.0"] /\ from_tables (x_log x) l0
  | KDelegate => exists l0, told (x_log x) = before_delegate l0 /\ from_tables (x_log x) l0
  | KMailbox => exists l0, told (x_log x) = before_mailbox l0 /\ from_tables (x_log x) l0
  | KServices => exists l0, told (x_log x) = before_services l0 /\ from_tables (x_log x) l0
  | KDone (Ok _) => exists l0, told (x_log x) = script l0 /\ from_tables (x_log x) l0
  | KDone _ => True
  end.
Definition early (k : stage) : Prop :=
  match k with KHost | KDht | KCert | KJoin | KBoot | KRelay | KNotif | KNotify | KLoad => True | _ => False end.
Definition fresh (x : start) : Prop := early (x_stage x) -> x_announced x = ∅.

Lemma told_app l1 l2 : told (l1 ++ l2) = told l1 ++ told l2.
Proof. unfold told. apply List.filter_app. Qed.
Lemma elem_told x l : is_registration x = false -> x ∈ told l <-> x ∈ l.
Proof. intros H. unfold told. rewrite !elem_of_list_In, List.filter_In, H. cbn. tauto. Qed.
Lemma loaded_early x : follows x -> early (x_stage x) -> ALoaded ∉ x_log x.
Proof.
  intros H He. rewrite <- (elem_told ALoaded) by done. unfold follows in H.
  destruct (x_stage x); try done; rewrite H; unfold before_load, before_notif, before_relay; cbn; try set_solver;
  destruct (st_relay s); set_solver.
Qed.

Lemma registers_app l l' a : is_Some (head (registered l')) \/ registers (l ++ l') a <-> is_Some (head (registered l')) \/ registers l a.
Proof.
  unfold registers. split; (intros [H|(r & id & H & <-)]; [by left|]).
  - apply elem_of_app in H as [H|H]; [right; by exists r, id|].
    left. apply elem_of_list_split in H as (l1 & l2 & ->). unfold registered. rewrite omap_app. cbn.
    destruct (omap _ l1); cbn; by eexists.
  - right. exists r, id. rewrite elem_of_app. auto.
Qed.

Lemma registers_silent l l' a : registered l' = [] -> registers (l ++ l') a <-> registers l a.
Proof.
  intros H. pose proof (registers_app l l' a) as Hr. rewrite H in Hr. cbn in Hr.
  assert (~ is_Some (@None (record * string))) by (by intros [? ?]). tauto.
Qed.

Lemma split_loaded (l l' : list action) l1 l2 : l ++ l' = l1 ++ ALoaded :: l2 -> ALoaded ∉ l' ->
  exists l3, l = l1 ++ ALoaded :: l3.
Proof.
  revert l1. induction l as [|x l IH]; intros l1 H Hn.
  - cbn in H. subst l'. destruct Hn. rewrite elem_of_app, elem_of_cons. auto.
  - destruct l1 as [|y l1]; cbn in H; injection H as -> H; [by exists l|].
    destruct (IH _ H Hn) as [l3 ->]. by exists l3.
Qed.

Lemma from_tables_app log l l' : from_tables log l -> ALoaded ∉ l' -> from_tables (log ++ l') l.
Proof.
  intros [H1 H2] Hn. split; [done|]. destruct (st_peers s); [done|]. destruct H2 as (H2 & H3 & H4). split; [|split; [done|]].
  - intros a Ha. destruct (H2 a Ha) as [?|(r & id & H & <-)]; [by left|]. right. exists r, id. rewrite elem_of_app. auto.
  - intros l1 l2 E. apply split_loaded in E as [l3 ->]; [|done]. by eapply H4.
Qed.

Lemma tabled_go x k l : tabled x -> registered l = [] -> ALoaded ∉ l -> tabled (go x k l).
Proof.
  intros (H1 & H2 & H3) Hr Hn. unfold tabled. cbn [x_log x_relay go]. split; [|split].
  - intros a Ha. rewrite registers_silent by done. auto.
  - rewrite elem_of_app. intros [?|?]; [auto|done].
  - intros a. rewrite registers_silent by done. auto.
Qed.

Lemma new_step_follows x order x' :
  follows x -> fresh x -> tabled x -> new_step w s x order = Some x' -> follows x' /\ fresh x' /\ tabled x'.
Proof.
  intros Hf Hr Ht. pose proof (loaded_early x Hf) as Hearly. unfold new_step. unfold follows in Hf. unfold fresh in Hr.
  destruct (x_stage x) as [| | | | | | | | | |left| | | | | | |r] eqn:Ek; cbn [early] in Hr, Hearly.
  - destruct (w_host w); intros [= <-]; (split; [|split; [intros _; by apply Hr|apply tabled_go; [done|done|set_solver]]]); [|done].
    cbn. by rewrite Hf.
  - destruct (w_dht w); intros [= <-]; (split; [|split; [intros _; by apply Hr|apply tabled_go; [done|done|set_solver]]]); [|done].
    cbn. by rewrite app_nil_r.
  - destruct (w_cert w); intros [= <-]; (split; [|split; [intros _; by apply Hr|apply tabled_go; [done|done|set_solver]]]); [|done].
    cbn. by rewrite app_nil_r.
  - intros Hx. assert (x' = go x KBoot [] \/ exists e, x' = closed x e) as [->|[e ->]].
    { destruct (st_peers s) as [|p ps]; [injection Hx as <-; auto|]. destruct (bootstrap_connect (p :: ps)); injection Hx as <-; eauto. }
    + split; [|split; [intros _; by apply Hr|apply tabled_go; [done|done|set_solver]]]. cbn. by rewrite app_nil_r.
    + split; [done|split; [intros _; by apply Hr|apply tabled_go; [done|done|set_solver]]].
  - destruct (w_boot w); intros [= <-]; (split; [|split; [intros _; by apply Hr|apply tabled_go; [done|done|set_solver]]]); [|done].
    cbn. by rewrite app_nil_r.
  - intros [= <-]. split; [|split; [intros _; by apply Hr|apply tabled_go; [done|by destruct (st_relay s)|destruct (st_relay s); set_solver]]].
    cbn. rewrite told_app, Hf. unfold before_relay, before_notif; by destruct (st_relay s).
  - intros [= <-]. split; [|split; [intros _; by apply Hr|apply tabled_go; [done|done|set_solver]]].
    cbn. rewrite told_app, Hf. done.
  - intros Hx. assert (x' = go x KLoad [] \/ exists e, x' = closed x e) as [->|[e ->]].
    { destruct (notify_all (st_peers s)); injection Hx as <-; eauto. }
    + split; [|split; [intros _; by apply Hr|apply tabled_go; [done|done|set_solver]]]. cbn. by rewrite app_nil_r.
    + split; [done|split; [intros _; by apply Hr|apply tabled_go; [done|done|set_solver]]].
  - assert (HF : forall e, follows (go x (KDone (Err e)) []) /\ fresh (go x (KDone (Err e)) []) /\ tabled (go x (KDone (Err e)) [])).
    { intros e. split; [done|split; [intros []|apply tabled_go; [done|done|set_solver]]]. }
    destruct (w_file w) as [file|] eqn:Ef; [|intros [= <-]; apply HF].
    rewrite load_over. destruct (load (w_id w) file) as [l|y|y] eqn:El; intros [= <-]; [|apply HF..].
    split; [|split; [intros []|]].
    + cbn. rewrite told_app, Hf. split; [done|]. by apply Hr.
    + destruct Ht as (H1 & H2 & H3). unfold tabled. cbn [x_log x_relay]. split; [|split].
      * intros a. rewrite lookup_union_is_Some, registers_silent by done. intros [?|?]; [|auto]. left. by exists file, l.
      * intros _ a (f & l' & E1 & E2 & E3). rewrite lookup_union_is_Some. left. congruence.
      * intros a. rewrite lookup_union_is_Some, registers_silent by done. auto.
  - destruct Hf as [Hf Hann]. assert (HL : ALoaded ∈ x_log x).
    { rewrite <- elem_told by done. rewrite Hf. unfold before_loop. set_solver. }
    destruct (st_peers s) as [|p ps] eqn:Ep.
    + intros [= <-]. split; [|split; [intros []|apply tabled_go; [done|done|set_solver]]].
      exists []. cbn. rewrite !app_nil_r. split; [done|]. split; [done|]. split; [constructor|]. by rewrite Ep.
    + destruct (decide _) as [Hord|]; [|done]. intros [= <-].
      split; [|split; [intros []|apply tabled_go; [done|done|set_solver]]].
      assert (Hin : forall a, a ∈ order <-> is_Some (x_relay x !! a)).
      { intros a. rewrite Hord, elem_of_list_fmap. split.
        - intros ([b id] & E & Hin). apply elem_of_map_to_list in Hin. cbn in E. rewrite E, Hin. by eexists.
        - intros [id Hid]. exists (a, id). split; [done|]. by apply elem_of_map_to_list. }
      exists []. cbn [announcing map app list_to_set]. cbn [x_log x_announced go]. rewrite !app_nil_r.
      split; [done|]. split; [done|]. rewrite Ep. split; [|done]. split; [rewrite Hord; apply NoDup_fst_map_to_list|]. rewrite Ep.
      destruct Ht as (H1 & H2 & H3). split; [|split].
      * intros a Ha. by apply H1, Hin.
      * intros a Ha. by apply Hin, H2.
      * intros l1 l2 E a (r & id & H & <-). apply Hin, H3. exists r, id. rewrite E, elem_of_app. auto.
  - destruct Hf as (l0 & Hf & Hann & Hft & Hps). destruct left as [|a left].
    + intros [= <-]. split; [|split; [intros []|apply tabled_go; [done|done|set_solver]]].
      exists l0. cbn [x_log x_announced go]. rewrite app_nil_r in Hft. by rewrite app_nil_r.
    + pose proof Hft as [Hnd _].
      unfold announce. destruct (decide (a ∈ x_announced x)) as [Hin|Hin]; intros [= <-].
      * exfalso. rewrite Hann in Hin. apply elem_of_list_to_set in Hin.
        apply NoDup_app in Hnd as (_ & Hd & _). apply (Hd _ Hin). by left.
      * split; [|split; [intros []|]].
        -- exists (l0 ++ [a]). cbn [fst x_log x_announced x_stage]. rewrite told_app, Hf. unfold announcing. rewrite map_app.
           split; [by rewrite app_assoc|]. split.
           ++ rewrite Hann. rewrite list_to_set_app_L. cbn. set_solver.
           ++ rewrite <- app_assoc. cbn [app]. split; [|done]. apply from_tables_app; [done|set_solver].
        -- change (tabled (go x (KLoop left) [AAnnounced a (w_provide w a)])). apply tabled_go; [done|done|set_solver].
  - destruct Hf as (l0 & Hf & Hann & Hft). destruct (st_peers s) as [|p ps] eqn:Ep.
    { intros [= <-]. split; [|split; [intros []|apply tabled_go; [done|done|set_solver]]].
      pose proof Hft as [_ H0]. rewrite Ep in H0. subst l0.
      exists []. cbn [x_stage x_log go]. unfold before_lookup, own_too. rewrite Ep. change (announcing []) with (@nil action) in *. rewrite app_nil_r in *. by rewrite app_nil_r. }
    set (k := Start KLookup _ _ _ _ _ _).
    assert (Htab : tabled k) by (by apply Ht).
    assert (HO : forall y, x_stage y = KLookup -> told (x_log y) = before_lookup l0 -> from_tables (x_log y) l0 -> tabled y -> follows y /\ fresh y /\ tabled y).
    { intros y E1 E2 E3 E4. split; [unfold follows; rewrite E1; by exists l0|]. split; [|done]. unfold fresh. by rewrite E1. }
    destruct (String.eqb_spec (st_addr s) "") as [E0|E0].
    { intros [= <-]. apply HO; try done. cbn [x_log k]. rewrite Hf. unfold before_lookup, own_too. rewrite Ep.
      rewrite decide_True by auto. by rewrite app_nil_r. }
    unfold announce. cbn [x_announced k]. destruct (decide (st_addr s ∈ x_announced x)) as [Hin|Hin].
    { intros [= <-]. rewrite Hann in Hin. apply elem_of_list_to_set in Hin. apply HO; [done| | |apply tabled_go; [done|done|set_solver]].
      - cbn [x_log go k]. rewrite app_nil_r. rewrite Hf. unfold before_lookup, own_too. rewrite Ep. rewrite decide_True by auto. by rewrite app_nil_r.
      - cbn [x_log go k]. by rewrite app_nil_r. }
    rewrite Hann in Hin. rewrite elem_of_list_to_set in Hin.
    set (y := Start KLookup _ _ _ _ _ _). assert (Hy : tabled y).
    { change (tabled (go x KLookup [AAnnounced (st_addr s) (w_provide w (st_addr s))])). apply tabled_go; [done|done|set_solver]. }
    destruct (match w_provide w (st_addr s) with Provided | Deadline => true | _ => false end); intros [= <-].
    + apply HO; [done| | |done].
      * cbn [x_log y k]. rewrite told_app, Hf. unfold before_lookup, own_too. rewrite Ep.
        rewrite decide_False by (intros [?|?]; done). unfold announcing. rewrite map_app. by rewrite <- !app_assoc.
      * cbn [x_log y k]. apply from_tables_app; [done|set_solver].
    + split; [done|]. split; [intros []|]. apply tabled_go; [done|done|set_solver].
  - destruct Hf as (l0 & Hf & Hft). intros [= <-]. split; [|split; [intros []|apply tabled_go; [done|done|set_solver]]].
    exists l0. cbn [x_log go]. rewrite told_app, Hf. split; [done|]. apply from_tables_app; [done|set_solver].
  - destruct Hf as (l0 & Hf & Hft). intros [= <-]. split; [|split; [intros []|apply tabled_go; [done|done|set_solver]]].
    exists l0. cbn [x_log go]. rewrite told_app, Hf. split; [unfold before_delegate; by rewrite <- app_assoc|]. apply from_tables_app; [done|set_solver].
  - destruct Hf as (l0 & Hf & Hft). destruct (Z.eqb_spec (st_delegate s) 0) as [E0|E0].
    + intros [= <-]. split; [|split; [intros []|apply tabled_go; [done|done|set_solver]]].
      exists l0. cbn [x_log go]. rewrite told_app, Hf. unfold before_mailbox. rewrite decide_True by done. split; [done|]. apply from_tables_app; [done|set_solver].
    + destruct (w_listen w); intros [= <-]; (split; [|split; [intros []|apply tabled_go; [done|done|set_solver]]]); [|done].
      exists l0. cbn [x_log go]. rewrite told_app, Hf. unfold before_mailbox. rewrite decide_False by done. split; [done|]. apply from_tables_app; [done|set_solver].
  - destruct Hf as (l0 & Hf & Hft). intros [= <-].
    assert (HM : match st_mailbox s with "" => [] | u => [AMailbox u] end = if decide (st_mailbox s = "") then [] else [AMailbox (st_mailbox s)]).
    { destruct (st_mailbox s); [done|]. by rewrite decide_False. }
    rewrite HM. split; [|split; [intros []|apply tabled_go; [done|by destruct (decide _)|destruct (decide _); set_solver]]].
    exists l0. cbn [x_log go]. rewrite told_app, Hf. unfold before_services. split; [by destruct (decide _)|].
    apply from_tables_app; [done|destruct (decide _); set_solver].
  - destruct Hf as (l0 & Hf & Hft). intros [= <-]. split; [|split; [intros []|apply tabled_go; [done|done|set_solver]]].
    exists l0. cbn [x_log go]. rewrite told_app, Hf. split; [done|]. apply from_tables_app; [done|set_solver].
  - done.
Qed.

Lemma relay_client_follows x r id x' :
  follows x -> fresh x -> tabled x -> relay_client x r id = Some x' -> follows x' /\ fresh x' /\ tabled x'.
Proof.
  intros Hf Hr Ht. unfold relay_client. destruct (is_crashed (x_stage x)) eqn:Ec; [done|].
  destruct (decide _) as [[Hh Hc]|]; [|done]. intros [= <-]. split; [|split; [done|]].
  - assert (HT : told (x_log x ++ [ARegistered r id]) = told (x_log x)) by (by rewrite told_app, app_nil_r).
    assert (Hft : forall l, from_tables (x_log x) l -> from_tables (x_log x ++ [ARegistered r id]) l).
    { intros l H. apply from_tables_app; [done|set_solver]. }
    unfold follows in *. cbn [x_stage x_log x_announced].
    destruct (x_stage x) as [| | | | | | | | | |left| | | | | | |[]]; rewrite ?HT; try done;
      try (destruct Hf as (l0 & Hf); exists l0; naive_solver).
    by rewrite Hf in Hh; apply elem_of_nil in Hh.
  - destruct Ht as (H1 & H2 & H3). unfold tabled. cbn [x_log x_relay].
    assert (HR : forall a, registers (x_log x ++ [ARegistered r id]) a <-> registers (x_log x) a \/ a = r_address r).
    { intros a. unfold registers. split.
      - intros (r' & id' & H & <-). apply elem_of_app in H as [H|H%elem_of_list_singleton]; [left; by exists r', id'|].
        injection H as -> ->. by right.
      - intros [(r' & id' & H & <-)| ->]; [exists r', id'|exists r, id]; rewrite elem_of_app; set_solver. }
    split; [|split].
    + intros a. rewrite HR. destruct (decide (a = r_address r)) as [->|Hne]; [auto|]. rewrite lookup_insert_ne by done.
      intros H. destruct (H1 a H); auto.
    + rewrite elem_of_app. intros HL a Ha. destruct (decide (a = r_address r)) as [->|Hne]; [rewrite lookup_insert; by eexists|].
      rewrite lookup_insert_ne by done. apply H2; [|done]. destruct HL as [?|?%elem_of_list_singleton]; done.
    + intros a. rewrite HR. intros H. destruct (decide (a = r_address r)) as [->|Hne]; [rewrite lookup_insert; by eexists|].
      rewrite lookup_insert_ne by done. apply H3. by destruct H.
Qed.

(** ** The tables *)

(** The latest registration of an address. *)
Definition latest (l : list action) (a : string) : option (record * string) :=
  last (List.filter (fun p => String.eqb (r_address p.1) a) (registered l)).
Definition savable (p : record * string) : bool := is_ok (save_line p.1).

(** The tables as the registrations and the file leave them. *)
Definition kept (log : list action) (x : start) : Prop :=
  if decide (ALoaded ∈ log) then
    exists l1 l2 file l, log = l1 ++ ALoaded :: l2 /\ ALoaded ∉ l1 /\ ALoaded ∉ l2 /\
      w_file w = Some file /\ load (w_id w) file = Ok l /\
      (forall a, x_records x !! a =
         match latest l2 a with
         | Some p => Some p.1
         | None => match l_records l !! a with Some r => Some r | None => fst <$> latest l1 a end
         end) /\
      (forall a, x_relay x !! a =
         match latest l2 a with
         | Some p => Some p.2
         | None => match l_addresses l !! a with Some r => Some r | None => snd <$> latest l1 a end
         end) /\
      x_saved x = (List.filter savable (registered l2)).*1
  else
    (forall a, x_records x !! a = fst <$> latest log a) /\ (forall a, x_relay x !! a = snd <$> latest log a) /\
    x_saved x = [].

Lemma registered_app l1 l2 : registered (l1 ++ l2) = registered l1 ++ registered l2.
Proof. apply omap_app. Qed.
Lemma latest_silent l l' a : registered l' = [] -> latest (l ++ l') a = latest l a.
Proof. intros H. unfold latest. by rewrite registered_app, H, app_nil_r. Qed.
Lemma latest_snoc l r id a : latest (l ++ [ARegistered r id]) a = if String.eqb (r_address r) a then Some (r, id) else latest l a.
Proof.
  unfold latest. rewrite registered_app, List.filter_app. cbn. destruct (String.eqb (r_address r) a); [by rewrite last_snoc|by rewrite app_nil_r].
Qed.

Lemma kept_silent x y l : kept (x_log x) x -> registered l = [] -> ALoaded ∉ l ->
  x_log y = x_log x ++ l -> x_records y = x_records x -> x_relay y = x_relay x -> x_saved y = x_saved x -> kept (x_log y) y.
Proof.
  intros H Hr Hn E1 E2 E3 E4. unfold kept in *. rewrite E1, E2, E3, E4. destruct (decide (ALoaded ∈ x_log x)) as [HL|HL].
  - rewrite decide_True by (rewrite elem_of_app; auto). destruct H as (l1 & l2 & file & l0 & H1 & H2 & H3 & H4 & H5 & H6 & H7 & H8).
    exists l1, (l2 ++ l), file, l0. rewrite H1, <- app_assoc. split; [done|]. split; [done|]. split; [rewrite elem_of_app; tauto|].
    split; [done|]. split; [done|]. split; [intros a; by rewrite latest_silent|]. split; [intros a; by rewrite latest_silent|].
    by rewrite registered_app, Hr, app_nil_r.
  - rewrite decide_False by (rewrite elem_of_app; tauto). destruct H as (H1 & H2 & H3).
    split; [intros a; by rewrite latest_silent|]. split; [intros a; by rewrite latest_silent|]. done.
Qed.

Lemma new_step_cases x order x' : new_step w s x order = Some x' ->
  (exists l, x_log x' = x_log x ++ l /\ registered l = [] /\ ALoaded ∉ l /\
     x_records x' = x_records x /\ x_relay x' = x_relay x /\ x_saved x' = x_saved x) \/
  (x_stage x = KLoad /\ x_log x' = x_log x ++ [ALoaded] /\ x_saved x' = x_saved x /\
   exists file l, w_file w = Some file /\ load (w_id w) file = Ok l /\
     x_records x' = l_records l ∪ x_records x /\ x_relay x' = l_addresses l ∪ x_relay x).
Proof.
  intros H.
  assert (HG : forall k l, x' = go x k l -> registered l = [] -> ALoaded ∉ l ->
    exists l, x_log x' = x_log x ++ l /\ registered l = [] /\ ALoaded ∉ l /\
     x_records x' = x_records x /\ x_relay x' = x_relay x /\ x_saved x' = x_saved x).
  { intros k l -> H1 H2. exists l. done. }
  assert (HL : ALoaded ∉ (@nil action)) by set_solver.
  assert (HC : ALoaded ∉ [AClosed]) by set_solver.
  unfold new_step, closed in H. destruct (x_stage x) as [| | | | | | | | | |left| | | | | | |r] eqn:Ek.
  - left. destruct (w_host w); injection H as H; eapply HG; [by symmetry|done|set_solver|by symmetry|done|set_solver].
  - left. destruct (w_dht w); injection H as H; eapply HG; try (by symmetry); done.
  - left. destruct (w_cert w); injection H as H; eapply HG; try (by symmetry); done.
  - left. destruct (st_peers s) as [|p ps]; [injection H as H; eapply HG; try (by symmetry); done|].
    destruct (bootstrap_connect (p :: ps)); injection H as H; eapply HG; try (by symmetry); done.
  - left. destruct (w_boot w); injection H as H; eapply HG; try (by symmetry); done.
  - left. injection H as H. eapply HG; [by symmetry|by destruct (st_relay s)|destruct (st_relay s); set_solver].
  - left. injection H as H. eapply HG; [by symmetry|done|set_solver].
  - left. destruct (notify_all (st_peers s)); injection H as H; eapply HG; try (by symmetry); done.
  - destruct (w_file w) as [file|] eqn:Ef; [|left; injection H as H; eapply HG; try (by symmetry); done].
    rewrite load_over in H. destruct (load (w_id w) file) as [l|y|y] eqn:El; injection H as H;
      [right|left; eapply HG; try (by symmetry); done..].
    subst x'. cbn. split; [done|]. split; [done|]. split; [done|]. by exists file, l.
  - left. destruct (st_peers s) as [|p ps]; [injection H as H; eapply HG; try (by symmetry); done|].
    destruct (decide _); [|done]. injection H as H; eapply HG; try (by symmetry); done.
  - left. destruct left as [|a left]; [injection H as H; eapply HG; try (by symmetry); done|]. injection H as H.
    unfold announce in H. destruct (decide _); subst x'; cbn.
    + exists []. done.
    + eexists. split; [done|]. split; [done|]. split; [set_solver|done].
  - left. destruct (st_peers s) as [|p ps]; [injection H as H; eapply HG; try (by symmetry); done|].
    destruct (String.eqb _ _).
    { injection H as <-. exists []. cbn. by rewrite app_nil_r. }
    unfold announce in H. cbn [x_announced] in H. destruct (decide _).
    + injection H as <-. exists []. done.
    + destruct (match w_provide w (st_addr s) with Provided | Deadline => true | _ => false end); injection H as <-.
      * eexists. split; [done|]. split; [done|]. split; [set_solver|done].
      * eexists. cbn. split; [by rewrite <- app_assoc|]. split; [done|]. split; [set_solver|done].
  - left. injection H as H. eapply HG; [by symmetry|done|set_solver].
  - left. injection H as H. eapply HG; [by symmetry|done|set_solver].
  - left. destruct (st_delegate s =? 0); [injection H as H; eapply HG; try (by symmetry); done|].
    destruct (w_listen w); injection H as H; eapply HG; [by symmetry|done|set_solver|by symmetry|done|done].
  - left. injection H as H. eapply HG; [by symmetry|by destruct (st_mailbox s)|destruct (st_mailbox s); set_solver].
  - left. injection H as H. eapply HG; [by symmetry|done|set_solver].
  - done.
Qed.

Lemma new_step_kept x order x' :
  follows x -> kept (x_log x) x -> new_step w s x order = Some x' -> kept (x_log x') x'.
Proof.
  intros Hf Hk [(l & E1 & E2 & E3 & E4 & E5 & E6)|(Ek & E1 & E2 & file & l & E3 & E4 & E5 & E6)]%new_step_cases.
  - by eapply kept_silent.
  - pose proof (loaded_early x Hf) as Hn. rewrite Ek in Hn. specialize (Hn I).
    unfold kept in *. rewrite decide_False in Hk by done. destruct Hk as (H1 & H2 & H3).
    rewrite E1. rewrite decide_True by set_solver. exists (x_log x), [], file, l.
    split; [done|]. split; [done|]. split; [set_solver|]. split; [done|]. split; [done|].
    rewrite E2, E5, E6. split; [|split; [|done]].
    + intros a. cbn. rewrite lookup_union. rewrite H1. by destruct (l_records l !! a), (latest (x_log x) a).
    + intros a. cbn. rewrite lookup_union. rewrite H2. by destruct (l_addresses l !! a), (latest (x_log x) a).
Qed.

Lemma relay_client_kept x r id x' :
  kept (x_log x) x -> relay_client x r id = Some x' -> kept (x_log x') x'.
Proof.
  intros Hk. unfold relay_client. destruct (is_crashed (x_stage x)) eqn:Ec; [done|].
  destruct (decide _) as [[Hh Hc]|]; [|done]. intros [= <-]. unfold kept in *. cbn [x_log x_records x_relay x_saved].
  destruct (decide (ALoaded ∈ x_log x)) as [HL|HL].
  - rewrite decide_True by (rewrite elem_of_app; auto). destruct Hk as (l1 & l2 & file & l0 & H1 & H2 & H3 & H4 & H5 & H6 & H7 & H8).
    exists l1, (l2 ++ [ARegistered r id]), file, l0. rewrite H1, <- app_assoc. split; [done|]. split; [done|].
    split; [rewrite elem_of_app, elem_of_list_singleton; by intros [?|?]|].
    split; [done|]. split; [done|]. split; [|split].
    + intros a. rewrite latest_snoc. destruct (String.eqb_spec (r_address r) a) as [<-|Hne]; [by rewrite lookup_insert|].
      rewrite lookup_insert_ne by done. apply H6.
    + intros a. rewrite latest_snoc. destruct (String.eqb_spec (r_address r) a) as [<-|Hne]; [by rewrite lookup_insert|].
      rewrite lookup_insert_ne by done. apply H7.
    + rewrite registered_app, List.filter_app, fmap_app, <- H8. cbn. unfold savable. cbn.
      destruct (is_ok (save_line r)); [done|by rewrite app_nil_r].
  - rewrite decide_False by (rewrite elem_of_app, elem_of_list_singleton; by intros [?|?]). destruct Hk as (H1 & H2 & H3).
    split; [|split; [|done]].
    + intros a. rewrite latest_snoc. destruct (String.eqb_spec (r_address r) a) as [<-|Hne]; [by rewrite lookup_insert|].
      rewrite lookup_insert_ne by done. apply H1.
    + intros a. rewrite latest_snoc. destruct (String.eqb_spec (r_address r) a) as [<-|Hne]; [by rewrite lookup_insert|].
      rewrite lookup_insert_ne by done. apply H2.
Qed.

Lemma start_run_follows l x x' :
  follows x -> fresh x -> tabled x -> kept (x_log x) x -> start_run w s x l = Some x' ->
  follows x' /\ tabled x' /\ kept (x_log x') x'.
Proof.
  revert x. induction l as [|m l IH]; intros x Hf Hr Ht Hk; cbn [start_run]; [by intros [= <-]|].
  destruct (start_step w s x m) as [y|] eqn:E; [|done].
  destruct m as [order|r id]; cbn [start_step] in E.
  - destruct (new_step_follows _ _ _ Hf Hr Ht E) as (? & ? & ?). pose proof (new_step_kept _ _ _ Hf Hk E). by apply IH.
  - destruct (relay_client_follows _ _ _ _ Hf Hr Ht E) as (? & ? & ?). pose proof (relay_client_kept _ _ _ _ Hk E). by apply IH.
Qed.

Lemma start0_follows : follows start0 /\ fresh start0 /\ tabled start0 /\ kept (x_log start0) start0.
Proof.
  split; [done|]. split; [done|]. split; [|done]. split; [|split].
  - intros a [? ?]. done.
  - intros ?%elem_of_nil. done.
  - intros a (r & id & ?%elem_of_nil & _). done.
Qed.

(** ** It ends *)

Definition quiet (l : list moment) : Prop := Forall (fun m => exists order, m = MNew order) l.
Definition ends (x : start) : Prop := exists l y r, quiet l /\ start_run w s x l = Some y /\ x_stage y = KDone r.

Lemma ends_done x r : x_stage x = KDone r -> ends x.
Proof. intros H. exists [], x, r. split; [by constructor|]. done. Qed.
Lemma ends_step order x : (exists y, new_step w s x order = Some y /\ ends y) -> ends x.
Proof.
  intros (y & E & l & z & r & Hq & Hr & Hz). exists (MNew order :: l), z, r. split; [constructor; [eauto|done]|].
  cbn [start_run start_step]. by rewrite E.
Qed.

Ltac over := first [eapply ends_done; reflexivity | match goal with H : forall x, _ -> ends x |- ends _ => apply H; reflexivity end].
Ltac step Ek := apply (ends_step []); unfold new_step; rewrite Ek.

Lemma new_ends x : x_stage x = KHost -> ends x.
Proof.
  assert (H1 : forall x, x_stage x = KServices -> ends x).
  { intros x0 Ek. step Ek. eexists. split; [done|over]. }
  assert (H2 : forall x, x_stage x = KMailbox -> ends x).
  { intros x0 Ek. step Ek. eexists. split; [done|over]. }
  clear H1. assert (H3 : forall x, x_stage x = KDelegate -> ends x).
  { intros x0 Ek. step Ek. destruct (st_delegate s =? 0); [|destruct (w_listen w)]; (eexists; split; [done|over]). }
  clear H2. assert (H4 : forall x, x_stage x = KEnvelope -> ends x).
  { intros x0 Ek. step Ek. eexists. split; [done|over]. }
  clear H3. assert (H5 : forall x, x_stage x = KLookup -> ends x).
  { intros x0 Ek. step Ek. eexists. split; [done|over]. }
  clear H4. assert (H6 : forall x, x_stage x = KOwn -> ends x).
  { intros x0 Ek. step Ek. destruct (st_peers s) as [|p ps]; [eexists; split; [done|over]|].
    destruct (String.eqb _ _); [eexists; split; [done|over]|]. unfold announce. cbn [x_announced].
    destruct (decide _); [eexists; split; [done|over]|].
    destruct (match w_provide w (st_addr s) with Provided | Deadline => true | _ => false end); (eexists; split; [done|over]). }
  clear H5. assert (H7 : forall l x, x_stage x = KLoop l -> ends x).
  { intros l. induction l as [|a l IH]; intros x0 Ek; step Ek; (eexists; split; [done|]); [over|].
    apply IH. unfold announce. by destruct (decide _). }
  assert (H8 : forall x, x_stage x = KStored -> ends x).
  { intros x0 Ek. apply (ends_step ((map_to_list (x_relay x0)).*1)). unfold new_step. rewrite Ek.
    destruct (st_peers s) as [|p ps]; [eexists; split; [done|over]|]. rewrite decide_True by done.
    eexists. split; [done|]. by eapply H7. }
  clear H6 H7. assert (H9 : forall x, x_stage x = KLoad -> ends x).
  { intros x0 Ek. step Ek. destruct (w_file w); [|eexists; split; [done|over]].
    destruct (load_n _ _ _ _); (eexists; split; [done|over]). }
  clear H8. assert (H10 : forall x, x_stage x = KNotify -> ends x).
  { intros x0 Ek. step Ek. destruct (notify_all (st_peers s)); (eexists; split; [done|over]). }
  clear H9. assert (H11 : forall x, x_stage x = KNotif -> ends x).
  { intros x0 Ek. step Ek. eexists. split; [done|over]. }
  clear H10. assert (H12 : forall x, x_stage x = KRelay -> ends x).
  { intros x0 Ek. step Ek. eexists. split; [done|over]. }
  clear H11. assert (H13 : forall x, x_stage x = KBoot -> ends x).
  { intros x0 Ek. step Ek. destruct (w_boot w); (eexists; split; [done|over]). }
  clear H12. assert (H14 : forall x, x_stage x = KJoin -> ends x).
  { intros x0 Ek. step Ek. destruct (st_peers s) as [|p ps]; [eexists; split; [done|over]|].
    destruct (bootstrap_connect (p :: ps)); (eexists; split; [done|over]). }
  clear H13. assert (H15 : forall x, x_stage x = KCert -> ends x).
  { intros x0 Ek. step Ek. destruct (w_cert w); (eexists; split; [done|over]). }
  clear H14. assert (H16 : forall x, x_stage x = KDht -> ends x).
  { intros x0 Ek. step Ek. destruct (w_dht w); (eexists; split; [done|over]). }
  clear H15. intros Ek. step Ek. destruct (w_host w); (eexists; split; [done|over]).
Qed.
End Run.

(** ** The theorems *)

(** The settings the options amount to, for a key pair with public key [key]. *)
Definition settled (opts : list opt) (key : string) : settings :=
  Settings (Some key)
    (option_map undated (given agent_of opts))
    (match given agent_of opts with Some r => r_address r | None => "" end)
    (match given entries_of opts with Some es => peers_of es | None => [] end)
    (given local_of opts) (given public_of opts)
    (default 0 (given delegate_of opts)) (default "" (given mailbox_of opts)) (existsb is_relay opts)
    (default 0 (given monitoring_of opts)) (default 0 (given delay_of opts))
    (default "./agent_records_store" (given store_of opts)).

(** The address of the node's own agent, empty if there is none. *)
Definition own_of (opts : list opt) : string := match given agent_of opts with Some r => r_address r | None => "" end.
(** No relay client registers the node's own address meanwhile. *)
Definition leaves_own (opts : list opt) (l : list moment) : Prop :=
  forall r id, In (MRegister r id) l -> r_address r <> own_of opts.

(** The options are used exactly if each of them is usable, the key and both addresses are
    given, and the record of the agent, if given, represents the node's key. The last
    option of a kind counts, and the record loses its two dates. *)
Theorem C71_settings opts s :
  prepare P derive ip4 dns4 opts = Ok s <-> exists key, sound opts key /\ s = settled opts key.
Proof. apply prepare_ok. Qed.

Lemma new_peer_inv w opts l x r :
  new_peer P derive ip4 dns4 w opts l = Some (x, r) ->
  (exists key, sound opts key /\ start_run w (settled opts key) start0 l = Some x /\ x_stage x = KDone r) \/
  ((forall key, ~ sound opts key) /\ x = start0 /\ r <> Ok tt /\
   match r with Panic p => prepare P derive ip4 dns4 opts = Panic p | _ => True end).
Proof.
  unfold new_peer. destruct (prepare P derive ip4 dns4 opts) as [s|e|e] eqn:E.
  - apply C71_settings in E as (key & Hs & ->). intros H. left. exists key. split; [done|].
    destruct (start_run w (settled opts key) start0 l) as [y|]; [|done]. destruct (x_stage y) eqn:Ey; try done. by injection H as <- <-.
  - intros [= <- <-]. right. split; [|done]. intros key Hs.
    assert (H : prepare P derive ip4 dns4 opts = Ok (settled opts key)) by (apply C71_settings; eauto). congruence.
  - intros [= <- <-]. right. split; [|done]. intros key Hs.
    assert (H : prepare P derive ip4 dns4 opts = Ok (settled opts key)) by (apply C71_settings; eauto). congruence.
Qed.

Lemma sound_fun opts k1 k2 : sound opts k1 -> sound opts k2 -> k1 = k2.
Proof. intros (_ & (k & H1 & H2) & _) (_ & (k' & H1' & H2') & _). congruence. Qed.

(** New always comes to a result, whatever the world and the options. *)
Theorem C71_ends w opts : exists l x r, quiet l /\ new_peer P derive ip4 dns4 w opts l = Some (x, r).
Proof.
  unfold new_peer. destruct (prepare P derive ip4 dns4 opts) as [s|e|e].
  - destruct (new_ends w s start0 eq_refl) as (l & y & r & Hq & Hr & Hy). exists l, y, r. split; [done|]. by rewrite Hr, Hy.
  - exists [], start0, (Err e). split; [by constructor|done].
  - exists [], start0, (Panic e). split; [by constructor|done].
Qed.


(** The conditions for a node to start, given options that are sound; [conds] lists them:
    the host, the network table and the certificate are created, the network is joined
    (some entry peer can be connected to and all come into the routing table), the table is
    bootstrapped, every entry peer can be notified, the record file can be opened and read,
    the own address is announced (if there are entry peers and an own agent) or stands in
    the record file, the delegate port is free (if there is one). *)
Definition startable (w : world) (opts : list opt) : Prop :=
  exists key, sound opts key /\ Forall (fun p => p) (conds w (settled opts key)).

Theorem C71_result w opts l x r :
  new_peer P derive ip4 dns4 w opts l = Some (x, r) -> leaves_own opts l -> (r = Ok tt <-> startable w opts).
Proof.
  intros [(key & Hs & Hr & Hx)|(Hs & -> & Hr & _)]%new_peer_inv Hl.
  2:{ split; [done|]. intros (key & H & _). by destruct (Hs key). }
  destruct (start0_way w (settled opts key)) as [W0 A0].
  destruct (start_run_way w (settled opts key) l _ _ W0 A0 Hl Hr) as [Hw _]. unfold way in Hw. rewrite Hx in Hw.
  split.
  - intros ->. destruct Hw as [Hu _]. exists key. by split.
  - intros (key' & Hs' & Hc). rewrite <- (sound_fun _ _ _ Hs Hs') in Hc.
    assert (HN : forall n, ~ fails w (settled opts key) n).
    { intros n [_ Hn]. destruct (conds w (settled opts key) !! n) as [p|] eqn:En; [|done].
      apply Hn. by eapply (proj1 (Forall_lookup _ _) Hc n p). }
    destruct r as [[]|e|e]; [done| |]; exfalso.
    + destruct Hw as (n & _ & Hn & _). by apply (HN n).
    + by apply (HN 8%nat).
Qed.

(** When New fails, the host it created is left running exactly if it was the table, the
    certificate or the record file that failed. *)
Theorem C71_leak w opts l x e :
  new_peer P derive ip4 dns4 w opts l = Some (x, Err e) -> leaves_own opts l ->
  (AHost ∈ x_log x /\ AClosed ∉ x_log x <->
   exists key, sound opts key /\ w_host w = true /\
   (w_dht w = false \/ w_dht w = true /\ w_cert w = false \/
    w_dht w = true /\ w_cert w = true /\ joined (settled opts key) /\ w_boot w = true /\ notified (settled opts key) /\
    ~ readable w)).
Proof.
  intros [(key & Hs & Hr & Hx)|(Hs & -> & Hr & _)]%new_peer_inv Hl.
  2:{ split; [intros [?%elem_of_nil _]; done|]. intros (key & H & _). by destruct (Hs key). }
  destruct (start0_way w (settled opts key)) as [W0 A0].
  destruct (start_run_way w (settled opts key) l _ _ W0 A0 Hl Hr) as [Hw _]. unfold way in Hw. rewrite Hx in Hw.
  destruct Hw as (n & Hlt & [Hu Hn] & Ho). unfold open_ in Ho. rewrite Ho. split.
  - intros H. exists key. split; [done|].
    destruct H as [-> |[-> | ->]]; unfold upto in Hu; cbn in Hu, Hn; rewrite !Forall_cons in Hu.
    + destruct Hu as (H0 & _). split; [done|]. left. by destruct (w_dht w).
    + destruct Hu as (H0 & H1 & _). split; [done|]. right. left. split; [done|]. by destruct (w_cert w).
    + destruct Hu as (H0 & H1 & H2 & H3 & H4 & H5 & _). split; [done|]. right. right. done.
  - intros (key' & Hs' & H). rewrite <- (sound_fun _ _ _ Hs Hs') in H. destruct H as [H0 H].
    unfold upto in Hu. destruct n as [|[|[|[|[|[|[|[|n]]]]]]]]; try lia; cbn in Hu, Hn; rewrite ?Forall_cons in Hu.
    + congruence.
    + exfalso. destruct H as [?|[[? ?]|H]]; [by destruct Hu as (? & ? & _); congruence| |by apply Hn, H]. destruct Hu as (_ & _ & ? & _). congruence.
    + exfalso. destruct H as [?|[[? ?]|H]]; [by destruct Hu as (? & ? & _); congruence| |by apply Hn, H]. destruct Hu as (_ & _ & ? & _). congruence.
    + exfalso. destruct H as [?|[[? ?]|H]]; [by destruct Hu as (? & ? & _); congruence| |by apply Hn, H]. destruct Hu as (_ & _ & ? & _). congruence.
    + exfalso. destruct H as [?|[[? ?]|H]]; [by destruct Hu as (? & ? & _); congruence| |by apply H, Hu]. destruct Hu as (_ & _ & ? & _). congruence.
Qed.

(** ** Crashing *)

(** An option with a malformed entry, reached while all is well. *)
Definition malformed (opts : list opt) : Prop :=
  exists l1 es1 es2 l2, opts = l1 ++ OptEntries (es1 ++ EMalformed :: es2) :: l2 /\
    Forall usable l1 /\ Forall (fun e => exists a b c, e = EPeer a b c) es1.

Lemma entry_infos_panic l : (exists p, entry_infos l = Panic p) <->
  exists es1 es2, l = es1 ++ EMalformed :: es2 /\ Forall (fun e => exists a b c, e = EPeer a b c) es1.
Proof.
  induction l as [|e l IH]; cbn [entry_infos].
  - split; [by intros [? ?]|]. intros ([] & ? & ? & _); done.
  - destruct e as [| |a b c].
    + split; [|eauto]. intros _. exists [], l. split; [done|constructor].
    + split; [by intros [? ?]|]. intros ([|e es1] & es2 & H & HF); [done|]. injection H as <- _.
      apply Forall_inv in HF as (? & ? & ? & ?). done.
    + split.
      * intros [p H]. destruct (entry_infos l) eqn:El; try done. destruct (proj1 IH) as (es1 & es2 & -> & HF); [eauto|].
        exists (EPeer a b c :: es1), es2. split; [done|]. constructor; [eauto|done].
      * intros ([|e es1] & es2 & H & HF); [done|]. injection H as <- ->. apply Forall_cons_1 in HF as [_ HF].
        destruct (proj2 IH) as [p Hp]; [eauto|]. rewrite Hp. by eexists.
Qed.

Lemma apply_opts_panic s l : (exists p, apply_opts derive ip4 dns4 s l = Panic p) <-> malformed l.
Proof.
  revert s. induction l as [|o l IH]; intros s; cbn [apply_opts].
  - split; [by intros [? ?]|]. intros ([] & ? & ? & ? & ? & _); done.
  - assert (Ho : match apply_opt derive ip4 dns4 s o with
                 | Ok _ => usable o
                 | Err _ => ~ usable o /\ forall es1 es2, o = OptEntries (es1 ++ EMalformed :: es2) -> ~ Forall (fun e => exists a b c, e = EPeer a b c) es1
                 | Panic _ => exists es1 es2, o = OptEntries (es1 ++ EMalformed :: es2) /\ Forall (fun e => exists a b c, e = EPeer a b c) es1
                 end).
    { destruct s, o; cbn; try done.
      - destruct (hex_decode _); [by eexists|]. split; [by intros [? ?]|done].
      - destruct (entry_infos l0) as [ps|e|e] eqn:Ee; cbn.
        + by apply entry_infos_ok in Ee as [? _].
        + split.
          * intros H. by rewrite (proj2 (entry_infos_ok l0 _) (conj H eq_refl)) in Ee.
          * intros es1 es2 [= ->] HF. destruct (proj2 (entry_infos_panic (es1 ++ EMalformed :: es2))) as [p Hp]; [eauto|]. congruence.
        + destruct (proj1 (entry_infos_panic l0)) as (es1 & es2 & -> & HF); [eauto|]. eauto.
      - destruct (ip4 host); done.
      - destruct (dns4 host); done. }
    destruct (apply_opt derive ip4 dns4 s o) as [s1|e|e]; cbn [rbind].
    + rewrite IH. split.
      * intros (l1 & es1 & es2 & l2 & -> & H1 & H2). exists (o :: l1), es1, es2, l2. split; [done|]. split; [by constructor|done].
      * intros ([|o' l1] & es1 & es2 & l2 & H & H1 & H2); injection H as -> ->.
        -- cbn in Ho. apply Forall_app in Ho as [_ Ho]. apply Forall_inv in Ho as (? & ? & ? & ?). done.
        -- apply Forall_cons_1 in H1 as [_ H1]. by exists l1, es1, es2, l2.
    + split; [by intros [? ?]|]. destruct Ho as [Hu Ho]. intros ([|o' l1] & es1 & es2 & l2 & H & H1 & H2); injection H as -> ->.
      * by destruct (Ho es1 es2).
      * apply Forall_cons_1 in H1 as [H1 _]. done.
    + split; [|eauto]. intros _. destruct Ho as (es1 & es2 & -> & HF). exists [], es1, es2, l. split; [done|]. split; [constructor|done].
Qed.

(** What is checked before the proof of representation. *)
Definition complete (opts : list opt) (key : string) : Prop :=
  Forall usable opts /\ (exists k, given key_of opts = Some k /\ public_text k = Some key) /\
  is_Some (given local_of opts) /\ is_Some (given public_of opts).

Lemma prepare_panic opts : (exists p, prepare P derive ip4 dns4 opts = Panic p) <->
  malformed opts \/
  exists key r p, complete opts key /\ given agent_of opts = Some r /\ is_valid_por P (undated r) (r_address r) key = Panic p.
Proof.
  unfold prepare. destruct (apply_opts derive ip4 dns4 settings0 opts) as [s|e|e] eqn:E; cbn [rbind].
  - assert (Hm : ~ malformed opts) by (intros [p Hp]%(apply_opts_panic settings0); congruence).
    pose proof E as E'. apply apply_opts_ok in E' as [HF ->]. unfold check_settings. cbn [st_key st_local st_public st_record settings0].
    split.
    + intros [p H]. right. destruct (given key_of opts) as [k|] eqn:Ek; [|done]. destruct (public_text k) as [key|] eqn:Ekey; [|done].
      destruct (given local_of opts) as [lo|] eqn:El; [|done]. destruct (given public_of opts) as [pu|] eqn:Ep; [|done].
      destruct (given agent_of opts) as [r|] eqn:Ea; [|done].
      destruct (is_valid_por P (undated r) (r_address (undated r)) key) as [[code err]|x|x] eqn:Ev.
      * cbn in H. by destruct (err || negb (code =? SUCCESS)).
      * done.
      * exists key, r, x. split; [|done]. split; [done|]. split; [by exists k|]. by split; eexists.
    + intros [?|(key & r & p & (_ & (k & Hk & Hkey) & [lo Hlo] & [pu Hpu]) & Ha & Hv)]; [done|]. rewrite Hk, Hkey, Hlo, Hpu, Ha.
      cbn [option_map]. change (r_address (undated r)) with (r_address r). rewrite Hv. by eexists.
  - split; [by intros [? ?]|]. intros [[p Hp]%(apply_opts_panic settings0)|(key & r & p & (HF & _) & _)]; [congruence|].
    by rewrite (proj2 (apply_opts_ok settings0 opts _) (conj HF eq_refl)) in E.
  - split; [|eauto]. intros _. left. apply (apply_opts_panic settings0). eauto.
Qed.

(** New crashes the process exactly if an entry is not an address, reached while all is
    well, the check of the proof of representation panics, or all is well but the port of
    the delegate service cannot be listened on. *)
Theorem C71_crash w opts l x r :
  new_peer P derive ip4 dns4 w opts l = Some (x, r) -> leaves_own opts l ->
  ((exists p, r = Panic p) <->
   malformed opts \/
   (exists key r p, complete opts key /\ given agent_of opts = Some r /\ is_valid_por P (undated r) (r_address r) key = Panic p) \/
   (exists key, sound opts key /\ Forall (fun p => p) (take 8 (conds w (settled opts key))) /\
      default 0 (given delegate_of opts) <> 0 /\ w_listen w = false)).
Proof.
  intros H Hl. pose proof (prepare_panic opts) as HP.
  pose proof H as [(key & Hs & Hr & Hx)|(Hs & -> & Hne & Hp)]%new_peer_inv.
  - assert (Hpre : prepare P derive ip4 dns4 opts = Ok (settled opts key)) by (apply C71_settings; eauto).
    destruct (start0_way w (settled opts key)) as [W0 A0].
    destruct (start_run_way w (settled opts key) l _ _ W0 A0 Hl Hr) as [Hw _]. unfold way in Hw. rewrite Hx in Hw.
    split.
    + intros [p ->]. right. right. destruct Hw as [Hu Hn]. exists key. split; [done|]. split; [done|]. cbn in Hn. unfold listens in Hn. cbn in Hn.
      split; [tauto|]. destruct (w_listen w); tauto.
    + intros HQ. assert (HQ' : ~ ((malformed opts \/ exists key r p, complete opts key /\ given agent_of opts = Some r /\ is_valid_por P (undated r) (r_address r) key = Panic p))).
      { intros HQ'. apply HP in HQ' as [p HQ']. congruence. }
      destruct HQ as [?|[?|(key' & Hs' & Hu & Hd & Hli)]]; [tauto|tauto|]. rewrite <- (sound_fun _ _ _ Hs Hs') in Hu.
      destruct r as [[]|e|e]; [| |eauto]; exfalso.
      * destruct Hw as [Hw _]. unfold upto in Hw. cbn in Hw. rewrite !Forall_cons in Hw. unfold listens in Hw. cbn in Hw.
        destruct Hw as (_ & _ & _ & _ & _ & _ & _ & _ & [?|?] & _); congruence.
      * destruct Hw as (n & Hlt & [_ Hn] & _).
        assert (HL : take 8 (conds w (settled opts key)) !! n = conds w (settled opts key) !! n) by (by apply lookup_take).
        destruct (conds w (settled opts key) !! n) as [q|] eqn:En; [|done]. apply Hn. by eapply (proj1 (Forall_lookup _ _) Hu n q).
  - assert (HE : (exists p, r = Panic p) <-> exists p, prepare P derive ip4 dns4 opts = Panic p).
    { unfold new_peer in H. destruct (prepare P derive ip4 dns4 opts) as [s|e|e] eqn:E.
      - exfalso. apply C71_settings in E as (key & Hk & _). by apply (Hs key).
      - injection H as <-. split; by intros [? ?].
      - injection H as <-. split; eauto. }
    rewrite HE, HP. split; [tauto|]. intros [?|[?|(key & Hk & _)]]; [auto|auto|]. by destruct (Hs key).
Qed.

(** ** Order and tables *)

(** What a node that started did, apart from the registrations of relay clients, in this
    order: the host, the handlers of registrations (if it is a relay) and of
    notifications, the record file, the announcements (with entry peers only: the
    addresses of the tables, then the own one), the handlers of lookups and envelopes, the
    delegate service, the mailbox service, monitoring, the slow queue. *)
Theorem C71_order w opts l x :
  new_peer P derive ip4 dns4 w opts l = Some (x, Ok tt) ->
  exists key stored, sound opts key /\ told (x_log x) = script w (settled opts key) stored /\
    from_tables w (settled opts key) (x_log x) stored.
Proof.
  intros [(key & Hs & Hr & Hx)|(_ & _ & Hr & _)]%new_peer_inv; [|done].
  destruct (start0_follows w (settled opts key)) as (F0 & R0 & T0 & K0).
  destruct (start_run_follows w (settled opts key) l _ _ F0 R0 T0 K0 Hr) as (Hf & _ & _).
  unfold follows in Hf. rewrite Hx in Hf. destruct Hf as (stored & H1 & H2). by exists key, stored.
Qed.

Lemma split_front {A} (ann : A) k1 k2 f t : k1 ++ ann :: k2 = f ++ t -> ann ∉ t -> exists m, f = k1 ++ ann :: m /\ k2 = m ++ t.
Proof.
  revert f. induction k1 as [|y k1 IH]; intros f H Hn; destruct f as [|z f]; cbn in H.
  - subst t. destruct Hn. by left.
  - injection H as -> ->. by exists f.
  - subst t. destruct Hn. right. rewrite elem_of_app. right. by left.
  - injection H as -> H. destruct (IH _ H Hn) as (m & -> & ->). by exists m.
Qed.

(** The node is told to the network before it takes envelopes. *)
Theorem C71_announced_first w opts l x l1 l2 p :
  new_peer P derive ip4 dns4 w opts l = Some (x, Ok tt) ->
  x_log x = l1 ++ AAnnounced (own_of opts) p :: l2 ->
  AHandler "/aea/0.1.0" ∉ l1 /\ AHandler "/aea-address/0.1.0" ∉ l1 /\
  AHandler "/aea/0.1.0" ∈ l2 /\ AHandler "/aea-address/0.1.0" ∈ l2.
Proof.
  intros (key & stored & _ & Ht & _)%C71_order E. rewrite E in Ht. rewrite told_app in Ht.
  set (ann := AAnnounced (own_of opts) p) in *. change (told (ann :: l2)) with (ann :: told l2) in Ht.
  set (tail := (if decide (st_delegate (settled opts key) = 0) then [] else [AListen (st_delegate (settled opts key))]) ++
               (if decide (st_mailbox (settled opts key) = "") then [] else [AMailbox (st_mailbox (settled opts key))]) ++ [AMonitor; ASlow]).
  set (front := before_loop (settled opts key) ++ announcing w (own_too (settled opts key) stored)).
  assert (HS : script w (settled opts key) stored = front ++ [AHandler "/aea-address/0.1.0"; AHandler "/aea/0.1.0"] ++ tail).
  { unfold script, before_services, before_mailbox, before_delegate, before_lookup, front, tail. by rewrite <- !app_assoc. }
  rewrite HS in Ht. clear HS E.
  assert (Hfront : AHandler "/aea/0.1.0" ∉ front /\ AHandler "/aea-address/0.1.0" ∉ front).
  { unfold front, before_loop, before_load, before_notif, announcing. rewrite !elem_of_app, !elem_of_cons.
    assert (HA : forall h (k : list string), AHandler h ∉ map (fun a => AAnnounced a (w_provide w a)) k).
    { intros h k. rewrite elem_of_list_In, in_map_iff. by intros (? & ? & _). }
    split; (intros [[[[?|H]|[H|?%elem_of_nil]]|[H|?%elem_of_nil]]|H]; try done; [|by eapply HA]);
      (destruct (st_relay (settled opts key)); [apply elem_of_list_singleton in H|apply elem_of_nil in H]; done). }
  assert (Htail : ann ∉ [AHandler "/aea-address/0.1.0"; AHandler "/aea/0.1.0"] ++ tail).
  { unfold tail. destruct (decide _), (decide _); set_solver. }
  assert (Hsplit : exists m, front = told l1 ++ ann :: m /\ told l2 = m ++ [AHandler "/aea-address/0.1.0"; AHandler "/aea/0.1.0"] ++ tail).
  { by apply split_front. }
  destruct Hsplit as (m & Hfr & Hl2).
  assert (Hin : forall h, AHandler h ∈ l1 -> AHandler h ∈ front).
  { intros h H. rewrite Hfr, elem_of_app. left. by apply elem_told. }
  split; [intros H; by apply (proj1 Hfront), Hin|]. split; [intros H; by apply (proj2 Hfront), Hin|].
  rewrite <- !(elem_told (AHandler _) l2) by done. rewrite Hl2. set_solver.
Qed.

(** The tables of a node that started: an address registered after the file was loaded
    has the record registered last; else one that is in the file has that of the file; else
    the record registered last. What was registered after the file was loaded, and only
    that, is appended to the file (unless it cannot be encoded). *)
Theorem C71_tables w opts l x :
  new_peer P derive ip4 dns4 w opts l = Some (x, Ok tt) ->
  exists l1 l2 file loaded, x_log x = l1 ++ ALoaded :: l2 /\ ALoaded ∉ l1 /\ ALoaded ∉ l2 /\
    w_file w = Some file /\ load (w_id w) file = Ok loaded /\
    (forall a, x_records x !! a =
       match latest l2 a with
       | Some p => Some p.1
       | None => match l_records loaded !! a with Some r => Some r | None => fst <$> latest l1 a end
       end) /\
    (forall a, x_relay x !! a =
       match latest l2 a with
       | Some p => Some p.2
       | None => match l_addresses loaded !! a with Some id => Some id | None => snd <$> latest l1 a end
       end) /\
    x_saved x = (List.filter savable (registered l2)).*1.
Proof.
  intros [(key & Hs & Hr & Hx)|(_ & _ & Hr & _)]%new_peer_inv; [|done].
  destruct (start0_follows w (settled opts key)) as (F0 & R0 & T0 & K0).
  destruct (start_run_follows w (settled opts key) l _ _ F0 R0 T0 K0 Hr) as (Hf & _ & Hk).
  unfold follows in Hf. rewrite Hx in Hf. destruct Hf as (stored & H1 & _).
  unfold kept in Hk. rewrite decide_True in Hk; [done|].
  rewrite <- elem_told by done. rewrite H1. unfold script, before_services, before_mailbox, before_delegate, before_lookup, before_loop.
  rewrite !elem_of_app. set_solver.
Qed.
End Start.

Print Assumptions C71_settings.
Print Assumptions C71_ends.
Print Assumptions C71_result.
Print Assumptions C71_leak.
Print Assumptions C71_crash.
Print Assumptions C71_order.
Print Assumptions C71_announced_first.
Print Assumptions C71_tables.

(** ** Examples *)

Definition yes (_ : string) : bool := true.
Definition keep (b : bytes) : bytes := b.
(** The agent of a node with key text 0102. *)
Definition me : record :=
  Record_ "s" "fetchai" "fetch1pg9scrg8qurswpc8qurswpc8qurswpc80ay04q" "0A0b0c0D" "0102"
    (string_of ([z2b 10; z2b 11; z2b 12; z2b 13] ++ bytes_of "0102")) "2020-01-01" "2030-01-01".
Definition client (name service : string) : record := Record_ service "fetchai" name "pk" "id" "sig" "" "".
Definition line_of (r : record) : bytes := match save_line r with Ok b => b | _ => [] end.
Definition plain_opts : list opt :=
  [OptKey "0304"; OptLocal "127.0.0.1" 9000; OptPublic "node.example" 9000; OptKey "0102"; OptAgent me; OptRelay;
   OptEntries [EPeer true true true; EPeer false true true]; OptDelegate 11000; OptMailbox ":8888"].
Definition fine (file : bytes) (p : provide) : world := World true true true true (Some file) (fun k => Some k) (fun _ => p) true.
(** The steps of New up to the point before the record file is loaded, then the rest. *)
Definition up_to_load : list moment := repeat (MNew []) 8.
Definition up_to_file : list moment := up_to_load ++ [MNew []].
Definition rest_with (order : list string) : list moment := MNew order :: repeat (MNew []) (7 + length order).
Definition toy_new := new_peer toy keep yes yes.

Example C71_example :
  (match toy_new (fine (line_of (client "bob" "old")) Provided) plain_opts
           (up_to_load ++ [MRegister (client "bob" "new") "1"; MRegister (client "eve" "new") "2"; MNew []; MRegister (client "dan" "new") "3"] ++
            rest_with ["dan"; "bob"; "eve"]) with
   | Some (x, Ok _) =>
       told (x_log x) =
         [AHost; AHandler "/aea-register/0.1.0"; AHandler "/aea-notif/0.1.0"; ALoaded;
          AAnnounced "dan" Provided; AAnnounced "bob" Provided; AAnnounced "eve" Provided; AAnnounced (r_address me) Provided;
          AHandler "/aea-address/0.1.0"; AHandler "/aea/0.1.0"; AListen 11000; AMailbox ":8888"; AMonitor; ASlow] /\
       x_records x !! "bob" = Some (client "bob" "old") /\ x_records x !! "eve" = Some (client "eve" "new") /\
       x_records x !! "dan" = Some (client "dan" "new") /\ x_saved x = [client "dan" "new"]
   | _ => False end) /\
  (match toy_new (World true true true true None (fun k => Some k) (fun _ => Provided) true) plain_opts up_to_file with
   | Some (x, Err _) => x_log x = [AHost; AHandler "/aea-register/0.1.0"; AHandler "/aea-notif/0.1.0"]
   | _ => False end) /\
  (match toy_new (fine [] Failed) plain_opts (up_to_file ++ repeat (MNew []) 3) with
   | Some (x, Err _) => last (x_log x) = Some AClosed | _ => False end) /\
  (match toy_new (World true true true true (Some []) (fun k => Some k) (fun _ => Provided) false) plain_opts (up_to_file ++ repeat (MNew []) 6) with
   | Some (x, Panic _) => x_stage x = KDone (Panic "listen") | _ => False end) /\
  (match toy_new (fine [] Provided) (OptKey "xyz" :: plain_opts) [] with Some (x, Err _) => x_log x = [] | _ => False end) /\
  (match toy_new (fine [] Provided) (OptEntries [EMalformed] :: plain_opts) [] with Some (x, Panic _) => x_log x = [] | _ => False end).
Proof. vm_compute. split_and!; reflexivity. Qed.

Lemma plain_sound : sound toy keep yes yes plain_opts "0102".
Proof.
  destruct (prepare toy keep yes yes plain_opts) as [s|e|e] eqn:E.
  - assert (Hk : option_map (fun x => x) (match prepare toy keep yes yes plain_opts with Ok s => st_key s | _ => None end) = Some "0102") by (vm_compute; reflexivity).
    rewrite E in Hk. apply C71_settings in E as (key & Hs & ->). cbn [option_map settled st_key] in Hk. injection Hk as ->. exact Hs.
  - assert (H : is_ok (prepare toy keep yes yes plain_opts) = true) by (vm_compute; reflexivity). rewrite E in H. discriminate.
  - assert (H : is_ok (prepare toy keep yes yes plain_opts) = true) by (vm_compute; reflexivity). rewrite E in H. discriminate.
Qed.

(** The conditions can be met. *)
Example C71_startable_example : startable toy keep yes yes (fine (line_of (client "bob" "old")) Provided) plain_opts.
Proof.
  exists "0102". split; [exact plain_sound|]. unfold conds. rewrite !Forall_cons. split_and!; try reflexivity.
  - right. reflexivity.
  - destruct (load (fun k => Some k) (line_of (client "bob" "old"))) as [l|e|e] eqn:E; [by exists (line_of (client "bob" "old")), l|exfalso..];
      (assert (H : is_ok (load (fun k : string => Some k) (line_of (client "bob" "old"))) = true) by (vm_compute; reflexivity); rewrite E in H; discriminate).
  - right. right. left. by left.
  - by right.
  - constructor.
Qed.

(** The record of the own agent is not the one given: its dates are lost. *)
Theorem C71_dates_refuted :
  exists opts s r, prepare toy keep yes yes opts = Ok s /\ given agent_of opts = Some r /\ st_record s <> Some r.
Proof.
  exists plain_opts, (settled plain_opts "0102"), me. split; [apply C71_settings; exists "0102"; split; [exact plain_sound|reflexivity]|].
  split; [reflexivity|]. cbn. intros H. discriminate H.
Qed.
Print Assumptions C71_dates_refuted.

(** A relay client that registers before the record file is loaded is not written to it,
    and an older record in the file takes the place of its record. *)
Theorem C71_early_refuted :
  exists w opts l x r id, new_peer toy keep yes yes w opts l = Some (x, Ok tt) /\
    registered (x_log x) = [(r, id)] /\ x_records x !! r_address r <> Some r /\ x_saved x = [].
Proof.
  set (w := fine (line_of (client "bob" "old")) Provided).
  set (l := up_to_load ++ [MRegister (client "bob" "new") "1"; MNew []] ++ rest_with ["bob"]).
  assert (H : match new_peer toy keep yes yes w plain_opts l with
              | Some (x, Ok tt) => registered (x_log x) = [(client "bob" "new", "1")] /\
                  x_records x !! "bob" = Some (client "bob" "old") /\ x_saved x = []
              | _ => False end) by (vm_compute; split_and!; reflexivity).
  exists w, plain_opts, l. destruct (new_peer toy keep yes yes w plain_opts l) as [[x [[]|e|e]]|]; try contradiction.
  exists x, (client "bob" "new"), "1". destruct H as (H1 & H2 & H3). split; [reflexivity|]. split; [exact H1|].
  split; [|exact H3]. change (r_address (client "bob" "new")) with "bob". rewrite H2. intros E. discriminate E.
Qed.
Print Assumptions C71_early_refuted.

(** A node that is to be part of a network can start although its own address could not
    be announced: if the address is in its record file. *)
Theorem C71_unannounced_refuted :
  exists w opts l x, new_peer toy keep yes yes w opts l = Some (x, Ok tt) /\
    own_of opts <> "" /\ (exists p, given entries_of opts = Some p /\ p <> []) /\
    forall p, AAnnounced (own_of opts) p ∈ x_log x -> p = Failed.
Proof.
  set (w := fine (line_of (client (r_address me) "s")) Failed). set (l := up_to_file ++ rest_with [r_address me]).
  assert (H : match new_peer toy keep yes yes w plain_opts l with
              | Some (x, Ok tt) =>
                  x_log x = [AHost; AHandler "/aea-register/0.1.0"; AHandler "/aea-notif/0.1.0"; ALoaded; AAnnounced (r_address me) Failed;
                    AHandler "/aea-address/0.1.0"; AHandler "/aea/0.1.0"; AListen 11000; AMailbox ":8888"; AMonitor; ASlow]
              | _ => False end) by (vm_compute; reflexivity).
  exists w, plain_opts, l. destruct (new_peer toy keep yes yes w plain_opts l) as [[x [[]|e|e]]|]; try contradiction.
  exists x. split; [reflexivity|]. split; [discriminate|]. split; [eexists; split; [reflexivity|discriminate]|].
  intros p Hp. rewrite H in Hp. clear H.
  repeat (apply elem_of_cons in Hp as [Hp|Hp]; [first [discriminate Hp|injection Hp as Hp; exact Hp]|]).
  by apply elem_of_nil in Hp.
Qed.
Print Assumptions C71_unannounced_refuted.
