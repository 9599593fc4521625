(** Lemmas about the agent record file. *)
From Coq Require Import ZArith NArith List String Ascii Lia.
From stdpp Require Import base tactics gmap list strings.
From Verif Require Import GoBase Bytes Utf8 WireModel ProtoModel ProtoProofs RecordFileModel.
Open Scope string_scope.
Open Scope list_scope.
Open Scope Z_scope.

Section Proofs.
Context (peer_id : string -> option string).

(** A record that can be saved and loaded. *)
Definition storable (r : record) (msg : bytes) : Prop :=
  encode_record r = Some msg /\ msg <> [] /\ Z.of_nat (length msg) < 2 ^ 32.

Lemma save_line_eq r msg :
  storable r msg -> save_line r = Ok (be_bytes 4 (Z.of_nat (length msg)) ++ msg).
Proof.
  intros (He & Hne & Hl). unfold save_line. rewrite He. destruct msg; [done|].
  by rewrite Z.mod_small by lia.
Qed.

Lemma save_line_inv r line :
  save_line r = Ok line ->
  exists msg, encode_record r = Some msg /\ msg <> [] /\
    line = be_bytes 4 (Z.of_nat (length msg) mod 2 ^ 32) ++ msg.
Proof.
  unfold save_line. destruct (encode_record r) as [[|b l]|]; try done.
  intros [= <-]. by exists (b :: l).
Qed.

Definition put (st : loaded) (r : record) (id : string) : loaded :=
  Loaded (l_count st + 1) (<[r_address r := r]> (l_records st)) (<[r_address r := id]> (l_addresses st)).

Lemma load_line fuel st r msg id rest :
  storable r msg -> peer_id (r_peer_key r) = Some id ->
  (length (be_bytes 4 (Z.of_nat (length msg)) ++ msg ++ rest) <= S fuel)%nat ->
  load_n peer_id (S fuel) st (be_bytes 4 (Z.of_nat (length msg)) ++ msg ++ rest) =
  load_n peer_id fuel (put st r id) rest.
Proof.
  intros (He & Hne & Hl) Hid Hf.
  set (file := be_bytes 4 (Z.of_nat (length msg)) ++ msg ++ rest) in *.
  assert (length file = 4 + length msg + length rest)%nat as Hlen.
  { subst file. rewrite !app_length, be_bytes_length. lia. }
  cbn [load_n]. destruct file as [|x file'] eqn:Ef; [simpl in Hlen; lia|].
  rewrite <- Ef in *. clear Ef x file'.
  destruct (Nat.ltb_spec (length file) 4); [lia|].
  assert (take 4 file = be_bytes 4 (Z.of_nat (length msg))) as ->.
  { subst file. by rewrite take_app_length by (by rewrite be_bytes_length). }
  assert (drop 4 file = msg ++ rest) as ->.
  { subst file. by rewrite drop_app_length by (by rewrite be_bytes_length). }
  rewrite be_val_bytes. change (256 ^ Z.of_nat 4) with (2 ^ 32).
  rewrite Z.mod_small by lia. rewrite Nat2Z.id.
  destruct (Nat.ltb_spec (length (msg ++ rest)) (length msg)) as [Hbad|_].
  { rewrite app_length in Hbad. lia. }
  rewrite take_app, drop_app.
  rewrite (record_roundtrip r msg He) by lia. by rewrite Hid.
Qed.

Lemma load_torn fuel st file :
  (0 < length file)%nat ->
  (length file < 4)%nat \/ Z.of_nat (length file) - 4 < be_val 0 (take 4 file) ->
  (length file <= fuel)%nat ->
  is_err (load_n peer_id fuel st file) = true.
Proof.
  intros H0 Hbad Hf. destruct fuel as [|fuel]; [lia|]. cbn [load_n].
  destruct file as [|x file'] eqn:Ef; [simpl in H0; lia|]. rewrite <- Ef in *.
  destruct (Nat.ltb_spec (length file) 4); [done|].
  destruct Hbad as [?|Hbad]; [lia|]. rewrite drop_length.
  destruct (Nat.ltb_spec (length file - 4) (Z.to_nat (be_val 0 (take 4 file)))); [done|lia].
Qed.

(** The file after complete saves. *)
Inductive saved : list record -> bytes -> Prop :=
| saved_nil : saved [] []
| saved_snoc rs file r line : saved rs file -> save_line r = Ok line -> saved (rs ++ [r]) (file ++ line).

Lemma saved_cons rs file r line :
  save_line r = Ok line -> saved rs file -> saved (r :: rs) (line ++ file).
Proof.
  intros Hr H. induction H as [|rs file r' line' H IH Hl].
  - rewrite app_nil_r. change [r] with ([] ++ [r]). change line with ([] ++ line).
    apply (saved_snoc [] []); [constructor|done].
  - rewrite app_assoc. change (r :: rs ++ [r']) with ((r :: rs) ++ [r']). by apply saved_snoc.
Qed.

Lemma saved_inv rs file :
  saved rs file ->
  match rs with
  | [] => file = []
  | r :: rs' => exists line file', save_line r = Ok line /\ saved rs' file' /\ file = line ++ file'
  end.
Proof.
  induction 1 as [|rs file r line H IH Hl]; [done|]. destruct rs as [|r' rs].
  - subst file. exists line, []. split; [done|]. split; [constructor|]. by rewrite app_nil_r.
  - destruct IH as (line' & file' & H1 & H2 & ->). exists line', (file' ++ line).
    split; [done|]. split; [by apply saved_snoc|]. by rewrite app_assoc.
Qed.

(** What loading accumulates. *)
Fixpoint put_all (st : loaded) (rs : list record) : loaded :=
  match rs with
  | [] => st
  | r :: rs' => put_all (put st r (match peer_id (r_peer_key r) with Some id => id | None => "" end)) rs'
  end.

Definition good (r : record) : Prop :=
  is_Some (peer_id (r_peer_key r)) /\
  forall msg, encode_record r = Some msg -> Z.of_nat (length msg) < 2 ^ 32.

Lemma load_saved rs file tail fuel st :
  saved rs file -> Forall good rs -> (length (file ++ tail) <= fuel)%nat ->
  exists fuel', (length tail <= fuel')%nat /\
    load_n peer_id fuel st (file ++ tail) = load_n peer_id fuel' (put_all st rs) tail.
Proof.
  revert file fuel st. induction rs as [|r rs IH]; intros file fuel st Hs Hg Hf.
  - apply saved_inv in Hs. subst file. by exists fuel.
  - apply saved_inv in Hs as (line & file' & Hl & Hs & ->).
    inversion Hg as [|? ? [[id Hid] Hlen] Hg']; subst.
    apply save_line_inv in Hl as (msg & He & Hne & ->).
    rewrite (Z.mod_small (Z.of_nat (length msg))) in * by (split; [lia|by apply Hlen]).
    assert (storable r msg) as Hst by (split; [done|split; [done|by apply Hlen]]).
    assert (((be_bytes 4 (Z.of_nat (length msg)) ++ msg) ++ file') ++ tail =
            be_bytes 4 (Z.of_nat (length msg)) ++ msg ++ file' ++ tail) as Eq.
    { by rewrite <- !app_assoc. }
    rewrite Eq in *. destruct fuel as [|fuel].
    { rewrite app_length, be_bytes_length in Hf. lia. }
    rewrite (load_line fuel st r msg id) by done.
    cbn [put_all]. rewrite Hid. apply IH; [done|done|].
    rewrite app_length, be_bytes_length in Hf. rewrite app_length in Hf. lia.
Qed.

(** The last record saved for an address. *)
Fixpoint last_for (a : string) (rs : list record) : option record :=
  match rs with
  | [] => None
  | r :: rs' =>
      match last_for a rs' with
      | Some r' => Some r'
      | None => if String.eqb (r_address r) a then Some r else None
      end
  end.

Lemma put_all_spec rs st :
  Forall good rs ->
  l_count (put_all st rs) = l_count st + Z.of_nat (length rs) /\
  forall a,
    l_records (put_all st rs) !! a =
      match last_for a rs with Some r => Some r | None => l_records st !! a end /\
    l_addresses (put_all st rs) !! a =
      match last_for a rs with Some r => peer_id (r_peer_key r) | None => l_addresses st !! a end.
Proof.
  revert st. induction rs as [|r rs IH]; intros st Hg.
  - cbn. split; [lia|]. done.
  - inversion Hg as [|? ? [[id Hid] _] Hg']; subst. cbn [put_all last_for].
    rewrite Hid. destruct (IH (put st r id) Hg') as [I1 I2]. split.
    + rewrite I1. cbn [put l_count length]. lia.
    + intros a. destruct (I2 a) as [I3 I4]. rewrite I3, I4.
      destruct (last_for a rs); [done|]. cbn [put l_records l_addresses].
      destruct (String.eqb_spec (r_address r) a) as [->|Hne].
      * rewrite !lookup_insert. by rewrite Hid.
      * by rewrite !lookup_insert_ne.
Qed.

Lemma load_tail rs file tail :
  saved rs file -> Forall good rs ->
  exists fuel, (length tail <= fuel)%nat /\
  load peer_id (file ++ tail) = load_n peer_id fuel (put_all (Loaded 0 ∅ ∅) rs) tail.
Proof. intros Hs Hg. unfold load. by apply load_saved. Qed.

(** A proper, non-empty part of a line behind complete records. *)
Lemma load_part rs file r line k :
  saved rs file -> Forall good rs -> save_line r = Ok line ->
  (forall msg, encode_record r = Some msg -> Z.of_nat (length msg) < 2 ^ 32) ->
  (0 < k < length line)%nat ->
  is_err (load peer_id (file ++ take k line)) = true.
Proof.
  intros Hs Hg Hl Hlen Hk.
  destruct (load_tail rs file (take k line) Hs Hg) as (fuel & Hf & ->).
  apply save_line_inv in Hl as (msg & He & Hne & ->).
  pose proof (Hlen msg He) as Hm. rewrite (Z.mod_small (Z.of_nat (length msg))) in * by lia.
  rewrite app_length, be_bytes_length in Hk.
  assert (length (take k (be_bytes 4 (Z.of_nat (length msg)) ++ msg)) = k) as Hk'.
  { rewrite take_length, app_length, be_bytes_length. lia. }
  apply load_torn; [lia| |done].
  destruct (decide (k < 4)%nat); [left; lia|]. right.
  rewrite take_take, Nat.min_l by lia.
  rewrite (take_app_length _ _ 4) by (by rewrite be_bytes_length).
  rewrite be_val_bytes. change (256 ^ Z.of_nat 4) with (2 ^ 32).
  rewrite Z.mod_small by lia. lia.
Qed.
End Proofs.
