(** Properties of the agent record file (C27, C28). *)
From Coq Require Import ZArith NArith List String Ascii Lia.
From stdpp Require Import base tactics gmap list strings.
From Verif Require Import GoBase Bytes Utf8 WireModel ProtoModel ProtoProofs RecordFileModel RecordFileProofs
  FormatProps.
Open Scope string_scope.
Open Scope list_scope.
Open Scope Z_scope.

(** The last record of the list with this address. *)
Definition latest (a : string) (rs : list record) : option record :=
  List.find (fun r => String.eqb (r_address r) a) (rev rs).

Lemma latest_is_last a rs : latest a rs = last_for a rs.
Proof.
  unfold latest. induction rs as [|r rs IH]; [done|]. cbn [rev last_for].
  assert (forall l1 l2 : list record, List.find (fun r => String.eqb (r_address r) a) (l1 ++ l2) =
    match List.find (fun r => String.eqb (r_address r) a) l1 with
    | Some x => Some x | None => List.find (fun r => String.eqb (r_address r) a) l2 end) as Hf.
  { clear. induction l1 as [|x l1 IH]; intros l2; [done|]. cbn. destruct (String.eqb _ _); [done|]. apply IH. }
  rewrite Hf, IH. destruct (last_for a rs); [done|]. cbn. done.
Qed.

(** Records whose peer key is a key (registration checks it, C29) and which fit
    the four-byte length. *)
Definition wellformed (peer_id : string -> option string) (r : record) : Prop :=
  is_Some (peer_id (r_peer_key r)) /\
  forall msg, encode_record r = Some msg -> Z.of_nat (length msg) < 2 ^ 32.

(** ** C27 *)

(** [saved rs file]: [file] results from completely saving [rs], in order. *)
Theorem C27_reload peer_id rs file :
  saved rs file -> Forall (wellformed peer_id) rs ->
  exists st, load peer_id file = Ok st /\
    l_count st = Z.of_nat (length rs) /\
    forall a,
      l_records st !! a = latest a rs /\
      l_addresses st !! a =
        match latest a rs with Some r => peer_id (r_peer_key r) | None => None end.
Proof.
  intros Hs Hg. destruct (load_tail peer_id rs file [] Hs Hg) as (fuel & _ & E).
  rewrite app_nil_r in E. eexists. split.
  { rewrite E. by destruct fuel. }
  destruct (put_all_spec peer_id rs (Loaded 0 ∅ ∅) Hg) as [H1 H2]. split; [done|].
  intros a. rewrite latest_is_last. destruct (H2 a) as [H3 H4]. rewrite H3, H4. cbn.
  by destruct (last_for a rs).
Qed.
Print Assumptions C27_reload.

(** Exactly the records with text in UTF-8 and some field set can be saved. *)
Lemma saving_iff r :
  is_ok (save_line r) = true <->
  r <> record0 /\
  forall s, In s [r_service r; r_ledger r; r_address r; r_public_key r; r_peer_key r;
                  r_signature r; r_not_before r; r_not_after r] -> valid_text s = true.
Proof.
  unfold save_line. destruct (encode_record r) as [msg|] eqn:E.
  - assert (forall s, In s (record_texts r) -> valid_text s = true) as Hv.
    { intros s Hs. destruct (valid_text s) eqn:Ev; [done|].
      assert (encode_record r = None); [|congruence]. apply record_none. by exists s. }
    destruct msg as [|b msg]; cbn [is_ok].
    + split; [done|]. intros [Hne _]. destruct Hne.
      pose proof (record_roundtrip r [] E ltac:(simpl; lia)) as H. by injection H as <-.
    + split; [|done]. intros _. split; [|done]. intros ->. done.
  - cbn [is_ok]. split; [done|]. intros [_ Hv]. apply record_none in E as (s & Hs & Hf).
    by rewrite (Hv s Hs) in Hf.
Qed.

(** A record that was read from a message can be saved unless it is empty. *)
Theorem C27_saving b r : decode_record b = Some r -> is_ok (save_line r) = true <-> r <> record0.
Proof.
  intros H. rewrite saving_iff. split; [by intros [? _]|]. intros Hne. split; [done|]. intros s Hs.
  apply (proj2 C90_read) in H as (fs & _ & Ht & ->). cbn [r_service r_ledger r_address r_public_key r_peer_key r_signature r_not_before r_not_after] in Hs.
  assert (exists n, s = last_text n fs /\ In n [1; 2; 3; 4; 5; 6; 7; 8]) as (n & -> & Hn).
  { cbn in Hs. destruct Hs as [<-|[<-|[<-|[<-|[<-|[<-|[<-|[<-|[] ] ] ] ] ] ] ] ]; eexists; (split; [done|]); cbn; tauto. }
  unfold valid_text, last_text, last_blob. rewrite string_bytes. destruct (last (blobs n fs)) as [c|] eqn:E; [|done].
  apply utf8_valid_text, (Ht n); [|done]. clear -E. apply last_Some_elem_of in E. unfold blobs in E. apply elem_of_list_omap in E as ([m [z|d]] & Hin & Hd); [done|].
  destruct (Z.eqb_spec m n) as [->|]; [|done]. injection Hd as ->. by apply elem_of_list_In.
Qed.
Print Assumptions C27_saving.

(** A file as its reader takes it: records behind their lengths, as four bytes with the highest first. *)
Inductive record_file : list record -> bytes -> Prop :=
| file_end : record_file [] []
| file_record r rs size b fs file :
    length size = 4%nat -> be_val 0 size = Z.of_nat (length b) -> fields_form fs b -> record_read fs r -> record_file rs file ->
    record_file (r :: rs) (size ++ b ++ file).

Lemma file_det rs rs' file : record_file rs file -> record_file rs' file -> rs = rs'.
Proof.
  intros H. revert rs'. induction H as [|r rs size b fs file H4 Hs Hf Hr H IH]; intros rs' H'.
  - inversion H' as [|r' rs2 size' b' fs' file' H4' Hs' Hf' Hr' H2 E1 E2]; [done|]. by destruct size'.
  - inversion H' as [E1 E2|r' rs2 size' b' fs' file' H4' Hs' Hf' Hr' H2 E1 E2]; subst; [by destruct size|].
    apply app_inj_1 in E2 as [-> E2]; [|lia]. apply app_inj_1 in E2 as [-> ->]; [|lia].
    f_equal; [|by apply IH]. rewrite (fields_det _ _ _ Hf' Hf) in Hr'. by eapply record_det.
Qed.

Lemma put_all_lookup peer_id rs st :
  Forall (fun r => is_Some (peer_id (r_peer_key r))) rs ->
  l_count (put_all peer_id st rs) = l_count st + Z.of_nat (length rs) /\
  forall a,
    l_records (put_all peer_id st rs) !! a = match last_for a rs with Some r => Some r | None => l_records st !! a end /\
    l_addresses (put_all peer_id st rs) !! a = match last_for a rs with Some r => peer_id (r_peer_key r) | None => l_addresses st !! a end.
Proof.
  revert st. induction rs as [|r rs IH]; intros st Hg.
  - cbn. split; [lia|]. done.
  - inversion Hg as [|? ? [id Hid] Hg']; subst. cbn [put_all last_for].
    rewrite Hid. destruct (IH (put st r id) Hg') as [I1 I2]. split.
    + rewrite I1. cbn [put l_count length]. lia.
    + intros a. destruct (I2 a) as [I3 I4]. rewrite I3, I4.
      destruct (last_for a rs); [done|]. cbn [put l_records l_addresses].
      destruct (String.eqb_spec (r_address r) a) as [->|Hne].
      * rewrite !lookup_insert. by rewrite Hid.
      * by rewrite !lookup_insert_ne.
Qed.

Lemma load_iff peer_id fuel st file st' :
  (length file <= fuel)%nat ->
  load_n peer_id fuel st file = Ok st' <->
  exists rs, record_file rs file /\ Forall (fun r => is_Some (peer_id (r_peer_key r))) rs /\ st' = put_all peer_id st rs.
Proof.
  revert st file. induction fuel as [|fuel IH]; intros st file Hf.
  { destruct file; [|cbn in Hf; lia]. cbn. split; [intros [= <-]; exists []; by repeat constructor|].
    intros (rs & H & _ & ->). rewrite (file_det _ [] _ H); [done|constructor]. }
  destruct file as [|c file].
  { cbn. split; [intros [= <-]; exists []; by repeat constructor|]. intros (rs & H & _ & ->). rewrite (file_det _ [] _ H); [done|constructor]. }
  remember (c :: file) as l eqn:El. assert (l <> []) as Hne by (by subst).
  assert (load_n peer_id (S fuel) st l =
    if (length l <? 4)%nat then Err "while loading agent records" else
    if (length (drop 4 l) <? Z.to_nat (be_val 0 (take 4 l)))%nat then Err "while loading agent records" else
    match decode_record (take (Z.to_nat (be_val 0 (take 4 l))) (drop 4 l)) with
    | None => Err "while loading agent records"
    | Some r => match peer_id (r_peer_key r) with
        | None => Err "While loading agent records"
        | Some id => load_n peer_id fuel (put st r id) (drop (Z.to_nat (be_val 0 (take 4 l))) (drop 4 l)) end
    end) as -> by (by subst l).
  assert (forall rs, record_file rs l -> exists r rs' size b fs file', rs = r :: rs' /\ l = size ++ b ++ file' /\ length size = 4%nat /\
    be_val 0 size = Z.of_nat (length b) /\ fields_form fs b /\ record_read fs r /\ record_file rs' file') as Hinv.
  { intros rs H. clear -H Hne. destruct H as [|r rs size b fs file H1 H2 H3 H4 H5]; [done|]. by exists r, rs, size, b, fs, file. }
  destruct (Nat.ltb_spec (length l) 4) as [H4|H4].
  { split; [done|]. intros (rs & H & _). apply Hinv in H as (r & rs' & size & b & fs & file' & _ & -> & Hs & _). rewrite app_length in H4. lia. }
  set (size := take 4 l). set (rest := drop 4 l). assert (l = size ++ rest) as Hl by (unfold size, rest; by rewrite take_drop).
  assert (length size = 4%nat) as Hs by (unfold size; rewrite take_length; lia). pose proof (be_val_range size) as Hsz.
  assert (forall rs, record_file rs l -> exists r rs' b fs file', rs = r :: rs' /\ rest = b ++ file' /\
    be_val 0 size = Z.of_nat (length b) /\ fields_form fs b /\ record_read fs r /\ record_file rs' file') as Hinv2.
  { intros rs H. apply Hinv in H as (r & rs' & size' & b & fs & file' & -> & E & H1 & H2 & H3 & H5 & H6). rewrite Hl in E.
    apply app_inj_1 in E as [<- ->]; [|lia]. by exists r, rs', b, fs, file'. }
  destruct (Nat.ltb_spec (length rest) (Z.to_nat (be_val 0 size))) as [Hr|Hr].
  { split; [done|]. intros (rs & H & _). apply Hinv2 in H as (r & rs' & b & fs & file' & _ & E & H1 & _). rewrite E, app_length in Hr. lia. }
  set (b := take (Z.to_nat (be_val 0 size)) rest). set (file' := drop (Z.to_nat (be_val 0 size)) rest).
  assert (rest = b ++ file') as Hb by (unfold b, file'; by rewrite take_drop).
  assert (be_val 0 size = Z.of_nat (length b)) as Hlb by (unfold b; rewrite take_length; lia).
  assert (forall rs, record_file rs l -> exists r rs' fs, rs = r :: rs' /\ fields_form fs b /\ record_read fs r /\ record_file rs' file') as Hinv3.
  { intros rs H. apply Hinv2 in H as (r & rs' & b' & fs & file2 & -> & E & H1 & H2 & H3 & H5). rewrite Hb in E.
    apply app_inj_1 in E as [<- <-]; [|lia]. by exists r, rs', fs. }
  destruct (decode_record b) as [r|] eqn:Ed.
  2: { split; [done|]. intros (rs & H & _). apply Hinv3 in H as (r & rs' & fs & -> & H1 & H2 & _).
       assert (decode_record b = Some r) by (apply (proj2 C90_read); by exists fs). congruence. }
  apply (proj2 C90_read) in Ed as (fs & Hfs & Hrd).
  assert (forall rs, record_file rs l <-> exists rs', rs = r :: rs' /\ record_file rs' file') as Hrec.
  { intros rs. split.
    - intros H. apply Hinv3 in H as (r' & rs' & fs' & -> & H1 & H2 & H3). exists rs'. split; [|done]. f_equal.
      rewrite (fields_det _ _ _ H1 Hfs) in H2. by eapply record_det.
    - intros (rs' & -> & H). rewrite Hl, Hb. by econstructor. }
  assert (length file' <= fuel)%nat as Hf'.
  { rewrite Hl, Hb, !app_length in Hf. lia. }
  destruct (peer_id (r_peer_key r)) as [id|] eqn:Ei.
  - rewrite IH by done. split.
    + intros (rs & H & Hk & ->). exists (r :: rs). split; [apply Hrec; by exists rs|]. split; [constructor; [by rewrite Ei|done]|]. cbn [put_all]. by rewrite Ei.
    + intros (rs & H & Hk & ->). apply Hrec in H as (rs' & -> & H). apply Forall_cons in Hk as [_ Hk]. exists rs'. split; [done|]. split; [done|].
      cbn [put_all]. by rewrite Ei.
  - split; [done|]. intros (rs & H & Hk & _). apply Hrec in H as (rs' & -> & H). apply Forall_cons in Hk as [[? Hk] _]. congruence.
Qed.

(** Of all files exactly those are loaded that are a sequence of records with peer keys that are keys, and what is loaded is
    for each address the last of them. *)
Theorem C27_load peer_id file st :
  load peer_id file = Ok st <->
  exists rs, record_file rs file /\ Forall (fun r => is_Some (peer_id (r_peer_key r))) rs /\
    l_count st = Z.of_nat (length rs) /\
    forall a, l_records st !! a = latest a rs /\
      l_addresses st !! a = match latest a rs with Some r => peer_id (r_peer_key r) | None => None end.
Proof.
  unfold load. rewrite load_iff by done. split; intros (rs & Hf & Hk & H); exists rs; (split; [done|]); (split; [done|]).
  - destruct (put_all_lookup peer_id rs (Loaded 0 ∅ ∅) Hk) as [H1 H2]. subst st. split; [done|]. intros a. rewrite latest_is_last.
    destruct (H2 a) as [H3 H4]. rewrite H3, H4. by destruct (last_for a rs).
  - destruct (put_all_lookup peer_id rs (Loaded 0 ∅ ∅) Hk) as [H1 H2]. destruct H as [Hc Hm]. destruct st as [n m1 m2], (put_all peer_id (Loaded 0 ∅ ∅) rs) as [n' m1' m2'].
    cbn [l_count l_records l_addresses] in *. f_equal; [lia| |]; apply map_eq; intros a; destruct (H2 a) as [H3 H4], (Hm a) as [H5 H6];
      rewrite latest_is_last in *; [rewrite H3, H5|rewrite H4, H6]; by destruct (last_for a rs).
Qed.
Print Assumptions C27_load.

(** A record with an unknown field in front, and the same file with one byte too many. *)
Example C27_load_example :
  let r := Record_ "" "" "a" "" "" "" "" "" in
  let file := map z2b [0; 0; 0; 5; 120; 7; 26; 1; 97] in
  record_file [r] file /\
  match load (fun k => Some k) file with Ok st => l_count st = 1 /\ l_records st !! "a" = Some r | _ => False end /\
  is_err (load (fun k => Some k) (file ++ [z2b 0])) = true.
Proof.
  cbv zeta. split; [|by vm_compute].
  apply (file_record _ _ (map z2b [0; 0; 0; 5]) (map z2b [120; 7; 26; 1; 97]) [(15, Num 7); (3, Blob (map z2b [97]))] []); [done|by vm_compute| | |constructor].
  - apply (fields_form_of [(15, Num 7); (3, Blob (map z2b [97]))]). repeat apply Forall_cons_2; [..|apply Forall_nil_2]; cbn; lia.
  - split; [|by vm_compute]. apply texts_ok_forall. repeat constructor. intros _. apply utf8_valid_text. by vm_compute.
Qed.

(** No file makes loading panic. *)
Theorem C27_no_panic peer_id file p : load peer_id file <> Panic p.
Proof.
  unfold load. generalize (length file) as fuel, (Loaded 0 ∅ ∅) as st. intros fuel. revert file.
  induction fuel as [|fuel IH]; intros file st; destruct file as [|c file]; try done. cbn [load_n].
  destruct (length (c :: file) <? 4)%nat; [done|]. destruct (length _ <? _)%nat; [done|]. destruct (decode_record _) as [r|]; [|done].
  destruct (peer_id (r_peer_key r)); [|done]. apply IH.
Qed.
Print Assumptions C27_no_panic.

Example C27_example :
  let r1 := Record_ "s" "fetchai" "a1" "pk" "peer" "sig" "" "" in
  let r2 := Record_ "s" "fetchai" "a2" "pk" "peer2" "sig" "" "" in
  let r3 := Record_ "s" "cosmos" "a1" "pk" "peer3" "sig" "" "" in
  exists file, saved [r1; r2; r3] file /\
    Forall (wellformed (fun k => Some ("id-" ++ k)%string)) [r1; r2; r3] /\
    match load (fun k => Some ("id-" ++ k)%string) file with
    | Ok st => l_count st = 3 /\ l_records st !! "a1" = Some r3 /\ l_records st !! "a2" = Some r2 /\
               l_addresses st !! "a1" = Some "id-peer3" /\ l_records st !! "a3" = None
    | _ => False
    end.
Proof.
  cbv zeta. eexists. split.
  { eapply saved_cons; [vm_compute; reflexivity|]. eapply saved_cons; [vm_compute; reflexivity|].
    eapply saved_cons; [vm_compute; reflexivity|]. constructor. }
  split; [|vm_compute; done].
  repeat constructor; try (by eexists).
  all: intros msg Hm; vm_compute in Hm; injection Hm as <-; vm_compute; done.
Qed.

(** ** C28 *)

(** The process stops (or the write fails) when [k] bytes of the last save are in
    the file. *)
Theorem C28_crash peer_id rs file r line k :
  saved rs file -> Forall (wellformed peer_id) (rs ++ [r]) -> save_line r = Ok line ->
  (k <= length line)%nat ->
  (is_ok (load peer_id (append file line k)) = true <-> k = O \/ k = length line) /\
  (k <> O -> k <> length line -> is_err (load peer_id (append file line k)) = true) /\
  (k = O -> load peer_id (append file line k) = load peer_id file) /\
  (k = length line -> saved (rs ++ [r]) (append file line k)).
Proof.
  intros Hs Hg Hl Hk. unfold append.
  assert (Forall (wellformed peer_id) rs) as Hg1 by (by apply Forall_app in Hg as [? _]).
  assert (wellformed peer_id r) as Hg2.
  { apply Forall_app in Hg as [_ Hg]. by apply Forall_inv in Hg. }
  assert (k <> O -> k <> length line -> is_err (load peer_id (file ++ take k line)) = true) as Hbad.
  { intros H1 H2. eapply load_part; [done|done|done|apply Hg2|lia]. }
  split; [|split; [done|split]].
  - split.
    + intros Hok. destruct (decide (k = O)); [by left|]. destruct (decide (k = length line)); [by right|].
      specialize (Hbad ltac:(done) ltac:(done)). by destruct (load _ _).
    + intros [->| ->].
      * cbn [take]. rewrite app_nil_r. destruct (C27_reload peer_id rs file Hs Hg1) as (st & -> & _). done.
      * rewrite firstn_all. pose proof (saved_snoc _ _ _ _ Hs Hl) as Hs'.
        destruct (C27_reload peer_id _ _ Hs' Hg) as (st & -> & _). done.
  - intros ->. cbn [take]. by rewrite app_nil_r.
  - intros ->. rewrite firstn_all. by apply saved_snoc.
Qed.
Print Assumptions C28_crash.

(** A torn write is not repaired by later saves: the node does not start although
    the record after it was saved completely. *)
Theorem C28_later_saves_lost_refuted :
  exists r1 r2 line1 line2 k,
    save_line r1 = Ok line1 /\ save_line r2 = Ok line2 /\ (k < length line1)%nat /\
    is_err (load (fun k => Some k) (append (append [] line1 k) line2 (length line2))) = true.
Proof.
  exists (Record_ "s" "fetchai" "a1" "pk" "peer" "sig" "" ""),
         (Record_ "s" "fetchai" "a2" "pk" "peer" "sig" "" "").
  eexists _, _, 10%nat. split; [vm_compute; reflexivity|]. split; [vm_compute; reflexivity|].
  vm_compute. split; [lia|done].
Qed.
Print Assumptions C28_later_saves_lost_refuted.

Example C28_example :
  let r1 := Record_ "s" "fetchai" "a1" "pk" "peer" "sig" "" "" in
  exists line, save_line r1 = Ok line /\ length line = 35%nat /\
    is_err (load (fun k => Some k) (append line line 34)) = true /\
    is_ok (load (fun k => Some k) (append line line 35)) = true /\
    is_ok (load (fun k => Some k) (append line line 0)) = true.
Proof. cbv zeta. eexists. split; [vm_compute; reflexivity|]. vm_compute. done. Qed.
