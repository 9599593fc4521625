(** The binary form of envelopes, agent records, ACN messages and dialogue messages that programs in other languages have to write and read (C90).
    The form is written down here once more, by its bytes and without the functions of WireModel.v and ProtoModel.v. *)
From Coq Require Import ZArith List String Ascii Lia.
From stdpp Require Import base tactics list strings.
From Verif Require Import GoBase Bytes Utf8 WireModel WireProofs ProtoModel ProtoProofs.
Open Scope string_scope.
Open Scope list_scope.
Open Scope Z_scope.

(** * The form of what is written *)

(** A number: seven bits a byte, the lowest first; every byte but the last has the top bit set. *)
Inductive number : Z -> bytes -> Prop :=
| number_last z : 0 <= z < 128 -> number z [z2b z]
| number_more z l : 128 <= z -> number (z / 128) l -> number z (z2b (128 + z mod 128) :: l).

(** A key byte, the length of the content and the content. *)
Definition part (key : Z) (content b : bytes) : Prop :=
  exists l, number (Z.of_nat (length content)) l /\ b = z2b key :: l ++ content.

(** A field of bytes, and one of text: left out if empty. *)
Definition blob (key : Z) (content b : bytes) : Prop :=
  match content with [] => b = [] | _ => part key content b end.
Definition text (key : Z) (s : string) (b : bytes) : Prop := blob key (bytes_of s) b.

(** A field with a 32-bit integer: left out if zero; a negative one is written as the 64-bit number with the same bits. *)
Definition int (key z : Z) (b : bytes) : Prop :=
  if z =? 0 then b = []
  else exists l, number (if z <? 0 then z + 2 ^ 64 else z) l /\ b = z2b key :: l.

(** A field with a message: left out if there is none, but not if it is empty. *)
Definition optional {A} (key : Z) (form : A -> bytes -> Prop) (o : option A) (b : bytes) : Prop :=
  match o with None => b = [] | Some a => exists c, form a c /\ part key c b end.

(** envelope.proto: to, sender, protocol_id, message, uri. *)
Definition envelope_form (e : envelope) (out : bytes) : Prop :=
  exists b1 b2 b3 b4 b5, out = b1 ++ b2 ++ b3 ++ b4 ++ b5 /\
    text 10 (e_to e) b1 /\ text 18 (e_sender e) b2 /\ text 26 (e_protocol e) b3 /\ blob 34 (e_message e) b4 /\ text 42 (e_uri e) b5.

(** acn.proto, AgentRecord: service_id, ledger_id, address, public_key, peer_public_key, signature, not_before, not_after. *)
Definition record_form (r : record) (out : bytes) : Prop :=
  exists b1 b2 b3 b4 b5 b6 b7 b8, out = b1 ++ b2 ++ b3 ++ b4 ++ b5 ++ b6 ++ b7 ++ b8 /\
    text 10 (r_service r) b1 /\ text 18 (r_ledger r) b2 /\ text 26 (r_address r) b3 /\ text 34 (r_public_key r) b4 /\
    text 42 (r_peer_key r) b5 /\ text 50 (r_signature r) b6 /\ text 58 (r_not_before r) b7 /\ text 66 (r_not_after r) b8.

(** acn.proto, StatusBody: code, msgs (none left out, even if empty). *)
Definition status_form (s : status_body) (out : bytes) : Prop :=
  exists b bs, out = b ++ concat bs /\ int 8 (sb_code s) b /\ Forall2 (fun t x => part 18 (bytes_of t) x) (sb_msgs s) bs.

(** acn.proto, AcnMessage: one of the performatives. *)
Definition acn_form (p : acn_perf) (out : bytes) : Prop :=
  match p with
  | PEnvelope env rec => exists b1 b2, part 42 (b1 ++ b2) out /\ blob 10 env b1 /\ optional 18 record_form rec b2
  | PLookupRequest a => exists b, part 50 b out /\ text 10 a b
  | PLookupResponse rec => exists b, part 58 b out /\ optional 10 record_form rec b
  | PRegister rec => exists b, part 66 b out /\ optional 10 record_form rec b
  | PStatus body => exists b, part 74 b out /\ optional 10 status_form body b
  end.

(** base.proto, Message with a DialogueMessage: message_id, dialogue_starter_reference, dialogue_responder_reference, target, content. *)
Definition message_form (m : dmsg) (out : bytes) : Prop :=
  exists b1 b2 b3 b4 b5, part 18 (b1 ++ b2 ++ b3 ++ b4 ++ b5) out /\
    int 8 (dm_id m) b1 /\ text 18 (dm_starter m) b2 /\ text 26 (dm_responder m) b3 /\ int 32 (dm_target m) b4 /\ blob 42 (dm_content m) b5.

(** * Proofs about writing *)

Lemma number_nonneg z l : number z l -> 0 <= z.
Proof. destruct 1; lia. Qed.

Lemma number_det z l1 l2 : number z l1 -> number z l2 -> l1 = l2.
Proof.
  intros H1. revert l2. induction H1 as [z Hz|z l Hz H IH]; intros l2 H2; inversion H2; subst; try lia; [done|].
  f_equal. by apply IH.
Qed.

Lemma put_varint_number_n n z : 0 <= z < 2 ^ (7 * Z.of_nat (S n)) -> number z (put_varint_n (S n) z).
Proof.
  revert z. induction n as [|n IH]; intros z Hz.
  - change (2 ^ (7 * Z.of_nat 1)) with 128 in Hz. cbn [put_varint_n]. destruct (Z.ltb_spec z 128); [|lia]. by constructor.
  - cbn [put_varint_n]. destruct (Z.ltb_spec z 128); [constructor; lia|]. constructor; [lia|].
    apply IH. split; [apply Z.div_pos; lia|]. apply Z.div_lt_upper_bound; [lia|].
    replace (128 * 2 ^ (7 * Z.of_nat (S n))) with (2 ^ (7 * Z.of_nat (S (S n)))); [lia|].
    change 128 with (2 ^ 7). rewrite <- Z.pow_add_r by lia. f_equal. lia.
Qed.

Lemma put_varint_number z : 0 <= z < 2 ^ 64 -> number z (put_varint z).
Proof.
  intros Hz. apply (put_varint_number_n 9). split; [lia|]. eapply Z.lt_trans; [apply Hz|]. apply Z.pow_lt_mono_r; lia.
Qed.

Lemma put_key n t : 1 <= n <= 15 -> 0 <= t < 8 -> put_varint (8 * n + t) = [z2b (8 * n + t)].
Proof. intros Hn Ht. unfold put_varint. cbn [put_varint_n]. destruct (Z.ltb_spec (8 * n + t) 128); [done|lia]. Qed.

Lemma put_part n c : 1 <= n <= 15 -> Z.of_nat (length c) < 2 ^ 64 -> part (8 * n + 2) c (put_field (n, WBytes c)).
Proof.
  intros Hn Hc. exists (put_varint (Z.of_nat (length c))). split; [apply put_varint_number; lia|].
  unfold put_field. cbn [fst snd]. by rewrite put_key by lia.
Qed.

Lemma put_fields_app fs gs : put_fields (fs ++ gs) = put_fields fs ++ put_fields gs.
Proof. unfold put_fields. by rewrite map_app, concat_app. Qed.

Lemma put_fields_one f : put_fields [f] = put_field f.
Proof. unfold put_fields. cbn [map concat]. apply app_nil_r. Qed.

Lemma w_string_text n s fs :
  1 <= n <= 15 -> w_string n s = Some fs -> Z.of_nat (length (put_fields fs)) < 2 ^ 63 -> text (8 * n + 2) s (put_fields fs).
Proof.
  unfold w_string, text, blob. intros Hn Hw Hl. destruct (String.eqb_spec s "") as [->|Hs]; [by injection Hw as <-|].
  destruct (valid_text s); [|done]. injection Hw as <-. pose proof (put_one_length n (bytes_of s)) as Hb.
  rewrite put_fields_one in *. destruct (bytes_of s) as [|c l] eqn:E.
  - destruct Hs. apply bytes_of_inj. by rewrite E.
  - apply put_part; [done|lia].
Qed.

Lemma w_bytes_blob n b fs :
  1 <= n <= 15 -> w_bytes n b = Some fs -> Z.of_nat (length (put_fields fs)) < 2 ^ 63 -> blob (8 * n + 2) b (put_fields fs).
Proof.
  unfold w_bytes, blob. intros Hn Hw Hl. destruct b as [|c l]; [by injection Hw as <-|].
  injection Hw as <-. pose proof (put_one_length n (c :: l)) as Hb. rewrite put_fields_one in *. apply put_part; [done|lia].
Qed.

Lemma w_int32_int n z fs : 1 <= n <= 15 -> w_int32 n z = Some fs -> - 2 ^ 31 <= z < 2 ^ 31 -> int (8 * n) z (put_fields fs).
Proof.
  unfold w_int32, int. intros Hn Hw Hz. destruct (Z.eqb_spec z 0); injection Hw as <-; [done|].
  rewrite put_fields_one. unfold put_field. cbn [fst snd]. exists (put_varint (z mod 2 ^ 64)). split.
  - replace (if z <? 0 then z + 2 ^ 64 else z) with (z mod 2 ^ 64); [apply put_varint_number; apply Z.mod_pos_bound; lia|].
    destruct (Z.ltb_spec z 0); [|apply Z.mod_small; lia].
    rewrite <- (Z_mod_plus_full z 1). rewrite Z.mod_small; lia.
  - pose proof (put_key n 0 Hn ltac:(lia)) as Hk. rewrite Z.add_0_r in Hk. by rewrite Hk.
Qed.

Lemma w_strings_parts n ss fs :
  1 <= n <= 15 -> w_strings n ss = Some fs -> Z.of_nat (length (put_fields fs)) < 2 ^ 63 ->
  exists bs, put_fields fs = concat bs /\ Forall2 (fun t x => part (8 * n + 2) (bytes_of t) x) ss bs.
Proof.
  intros Hn. revert fs. induction ss as [|s ss IH]; cbn [w_strings]; intros fs Hw Hl.
  - injection Hw as <-. exists []. by split.
  - destruct (valid_text s); [|done]. destruct (w_strings n ss) as [gs|]; [|done]. injection Hw as <-.
    pose proof (put_one_length n (bytes_of s)) as Hb. rewrite put_fields_one in Hb.
    change ((n, WBytes (bytes_of s)) :: gs) with ([(n, WBytes (bytes_of s))] ++ gs) in *.
    rewrite put_fields_app, put_fields_one in *. rewrite app_length in Hl.
    destruct (IH gs eq_refl ltac:(lia)) as (bs & Hc & Hf). exists (put_field (n, WBytes (bytes_of s)) :: bs). split.
    + cbn [concat]. by rewrite Hc.
    + constructor; [|done]. apply put_part; [done|lia].
Qed.

Lemma w_message_optional {A} n (enc : A -> option bytes) (form : A -> bytes -> Prop) m fs :
  1 <= n <= 15 -> w_message n enc m = Some fs -> Z.of_nat (length (put_fields fs)) < 2 ^ 63 ->
  (forall a c, m = Some a -> enc a = Some c -> Z.of_nat (length c) < 2 ^ 63 -> form a c) ->
  optional (8 * n + 2) form m (put_fields fs).
Proof.
  unfold w_message, optional. intros Hn Hw Hl Hf. destruct m as [a|]; [|by injection Hw as <-].
  destruct (enc a) as [c|] eqn:E; [|done]. injection Hw as <-. pose proof (put_one_length n c) as Hb.
  exists c. split; [apply Hf; done || lia|]. rewrite put_fields_one in *. apply put_part; [done|lia].
Qed.

Lemma encode_parts_some' ps out : encode_parts ps = Some out -> exists fs, w_all ps = Some fs /\ out = put_fields fs.
Proof. unfold encode_parts. destruct (w_all ps) as [fs|]; [|done]. intros [= <-]. by exists fs. Qed.

Lemma w_all_put p ps fs :
  w_all (p :: ps) = Some fs ->
  exists f1 f2, p = Some f1 /\ w_all ps = Some f2 /\ put_fields fs = put_fields f1 ++ put_fields f2 /\
    (length (put_fields fs) = length (put_fields f1) + length (put_fields f2))%nat.
Proof.
  intros H. apply w_all_cons in H as (f1 & f2 & H1 & H2 & ->). exists f1, f2. rewrite put_fields_app, app_length. done.
Qed.

Lemma w_all_end fs : w_all [] = Some fs -> put_fields fs = [].
Proof. by intros [= <-]. Qed.

Ltac parts H :=
  repeat (apply w_all_put in H; let f := fresh "f" in let g := fresh "g" in let E := fresh "E" in let Hp := fresh "Hp" in let Hq := fresh "Hq" in
          destruct H as (f & g & E & H & Hp & Hq)); apply w_all_end in H.

Ltac glue := repeat match goal with H : put_fields _ = _ |- _ => rewrite H; clear H end; rewrite ?app_nil_r; done.

Lemma envelope_written e out : encode_envelope e = Some out -> Z.of_nat (length out) < 2 ^ 63 -> envelope_form e out.
Proof.
  intros H Hl. apply encode_parts_some' in H as (fs & H & ->). parts H. unfold envelope_form.
  do 5 eexists. split; [|split; [|split; [|split; [|split]]]].
  2: eapply (w_string_text 1); [lia|done|lia]. 2: eapply (w_string_text 2); [lia|done|lia].
  2: eapply (w_string_text 3); [lia|done|lia]. 2: eapply (w_bytes_blob 4); [lia|done|lia]. 2: eapply (w_string_text 5); [lia|done|lia].
  glue.
Qed.

Lemma record_written r out : encode_record r = Some out -> Z.of_nat (length out) < 2 ^ 63 -> record_form r out.
Proof.
  intros H Hl. apply encode_parts_some' in H as (fs & H & ->). parts H. unfold record_form.
  do 8 eexists. split; [|repeat split].
  2: eapply (w_string_text 1); [lia|done|lia]. 2: eapply (w_string_text 2); [lia|done|lia].
  2: eapply (w_string_text 3); [lia|done|lia]. 2: eapply (w_string_text 4); [lia|done|lia].
  2: eapply (w_string_text 5); [lia|done|lia]. 2: eapply (w_string_text 6); [lia|done|lia].
  2: eapply (w_string_text 7); [lia|done|lia]. 2: eapply (w_string_text 8); [lia|done|lia].
  glue.
Qed.

Lemma status_written s out :
  encode_status_body s = Some out -> Z.of_nat (length out) < 2 ^ 63 -> - 2 ^ 31 <= sb_code s < 2 ^ 31 -> status_form s out.
Proof.
  intros H Hl Hc. apply encode_parts_some' in H as (fs & H & ->). parts H. unfold status_form.
  destruct (w_strings_parts 2 (sb_msgs s) f0) as (bs & Hb & Hf); [lia|done|lia|].
  eexists. exists bs. split; [|split; [eapply (w_int32_int 1); [lia|done|done]|done]].
  rewrite <- Hb. clear Hb. glue.
Qed.

Lemma acn_written p out :
  encode_acn (Some p) = Some out -> Z.of_nat (length out) < 2 ^ 63 ->
  (forall s, p = PStatus (Some s) -> - 2 ^ 31 <= sb_code s < 2 ^ 31) -> acn_form p out.
Proof.
  unfold encode_acn. destruct (encode_performative p) as [[num b]|] eqn:E; [|done]. intros [= <-] Hl Hc.
  pose proof (put_one_length num b) as Hb. rewrite put_fields_one in *.
  destruct p as [env rec|a|rec|rec|body]; cbn [encode_performative] in E;
    (match type of E with match ?o with _ => _ end = _ => destruct o as [b'|] eqn:H; [|done] end); injection E as <- <-;
    apply encode_parts_some' in H as (fs & H & ->); parts H; cbn [acn_form].
  - exists (put_fields f), (put_fields f0). split; [|split].
    + replace (put_fields f ++ put_fields f0) with (put_fields fs) by glue. apply (put_part 5); lia.
    + eapply (w_bytes_blob 1); [lia|done|lia].
    + eapply (w_message_optional 2); [lia|done|lia|]. intros r c _. apply record_written.
  - eexists. split; [apply (put_part 6); lia|]. rewrite Hp, H, app_nil_r. eapply (w_string_text 1); [lia|done|lia].
  - eexists. split; [apply (put_part 7); lia|]. rewrite Hp, H, app_nil_r.
    eapply (w_message_optional 1); [lia|done|lia|]. intros r c _. apply record_written.
  - eexists. split; [apply (put_part 8); lia|]. rewrite Hp, H, app_nil_r.
    eapply (w_message_optional 1); [lia|done|lia|]. intros r c _. apply record_written.
  - eexists. split; [apply (put_part 9); lia|]. rewrite Hp, H, app_nil_r.
    eapply (w_message_optional 1); [lia|done|lia|]. intros s c -> Hs Hsl. by apply status_written; [..|apply Hc].
Qed.

Lemma message_written m out :
  encode_message m = Some out -> Z.of_nat (length out) < 2 ^ 63 ->
  - 2 ^ 31 <= dm_id m < 2 ^ 31 -> - 2 ^ 31 <= dm_target m < 2 ^ 31 -> message_form m out.
Proof.
  unfold encode_message. destruct (encode_dmsg m) as [b|] eqn:H; [|done]. intros [= <-] Hl Hi Ht.
  pose proof (put_one_length 2 b) as Hb. rewrite put_fields_one in *.
  apply encode_parts_some' in H as (fs & H & ->). parts H. unfold message_form.
  exists (put_fields f), (put_fields f0), (put_fields f1), (put_fields f2), (put_fields f3). split; [|repeat split].
  - replace (put_fields f ++ put_fields f0 ++ put_fields f1 ++ put_fields f2 ++ put_fields f3) with (put_fields fs) by glue.
    apply (put_part 2); lia.
  - eapply (w_int32_int 1); [lia|done|done].
  - eapply (w_string_text 2); [lia|done|lia].
  - eapply (w_string_text 3); [lia|done|lia].
  - eapply (w_int32_int 4); [lia|done|done].
  - eapply (w_bytes_blob 5); [lia|done|lia].
Qed.

(** * What is read *)

(** Unicode: the code points, and the bytes of one (RFC 3629). *)
Definition scalar (c : Z) : Prop := 0 <= c < 55296 \/ 57344 <= c < 1114112.
Definition utf8 (c : Z) : bytes :=
  map z2b (if c <? 128 then [c]
           else if c <? 2048 then [192 + c / 64; 128 + c mod 64]
           else if c <? 65536 then [224 + c / 4096; 128 + c / 64 mod 64; 128 + c mod 64]
           else [240 + c / 262144; 128 + c / 4096 mod 64; 128 + c / 64 mod 64; 128 + c mod 64]).
Definition is_text (b : bytes) : Prop := exists cs, Forall scalar cs /\ b = concat (map utf8 cs).

(** A number as it is read: in at most ten bytes and below 2^64, also with more bytes than needed. *)
Inductive loose : Z -> bytes -> Prop :=
| loose_last b : b2z b < 128 -> loose (b2z b) [b]
| loose_more b z l : 128 <= b2z b -> loose z l -> loose (b2z b - 128 + 128 * z) (b :: l).
Definition read_number (z : Z) (b : bytes) : Prop := loose z b /\ (length b <= 10)%nat /\ z < 2 ^ 64.

(** The number and the type of a field, at most the number given. *)
Definition tag (limit n t : Z) (k : bytes) : Prop := 1 <= n <= limit /\ 0 <= t < 8 /\ read_number (8 * n + t) k.

(** What is skipped when a field of the type is read, and the content of a group up to its end. *)
Inductive skipped : Z -> Z -> bytes -> Prop :=
| skipped_eight n b : length b = 8%nat -> skipped n 1 b
| skipped_four n b : length b = 4%nat -> skipped n 5 b
| skipped_group n b : group n b -> skipped n 3 b
with group : Z -> bytes -> Prop :=
| group_end n k : tag (2 ^ 31 - 1) n 4 k -> group n k
| group_number n m k z l b : tag (2 ^ 31 - 1) m 0 k -> read_number z l -> group n b -> group n (k ++ l ++ b)
| group_blob n m k l c b : tag (2 ^ 31 - 1) m 2 k -> read_number (Z.of_nat (length c)) l -> group n b -> group n (k ++ l ++ c ++ b)
| group_skipped n m t k c b : tag (2 ^ 31 - 1) m t k -> skipped m t c -> group n b -> group n (k ++ c ++ b).

(** A field: its number and a number or bytes. *)
Inductive fval := Num (z : Z) | Blob (b : bytes).
(** The fields of a message, without those of other types, which are skipped. *)
Inductive fields_form : list (Z * fval) -> bytes -> Prop :=
| fields_nil : fields_form [] []
| fields_num n z k l fs b : tag (2 ^ 29 - 1) n 0 k -> read_number z l -> fields_form fs b -> fields_form ((n, Num z) :: fs) (k ++ l ++ b)
| fields_blob n c k l fs b :
    tag (2 ^ 29 - 1) n 2 k -> read_number (Z.of_nat (length c)) l -> fields_form fs b -> fields_form ((n, Blob c) :: fs) (k ++ l ++ c ++ b)
| fields_skip n t k c fs b : tag (2 ^ 29 - 1) n t k -> skipped n t c -> fields_form fs b -> fields_form fs (k ++ c ++ b).

(** The bytes given for a field, in the order given, and the last; likewise the numbers. *)
Definition blobs (n : Z) (fs : list (Z * fval)) : list bytes :=
  omap (fun x => match x with (m, Blob b) => if m =? n then Some b else None | _ => None end) fs.
Definition nums (n : Z) (fs : list (Z * fval)) : list Z :=
  omap (fun x => match x with (m, Num z) => if m =? n then Some z else None | _ => None end) fs.
Definition last_blob (n : Z) (fs : list (Z * fval)) : bytes := default [] (last (blobs n fs)).
Definition last_text (n : Z) (fs : list (Z * fval)) : string := string_of (last_blob n fs).
(** The 32-bit integer with the low bits of the last number, zero if there is none. *)
Definition last_int (n : Z) (fs : list (Z * fval)) : Z := (default 0 (last (nums n fs)) + 2 ^ 31) mod 2 ^ 32 - 2 ^ 31.
(** What is given for the fields listed is text. *)
Definition texts_ok (ns : list Z) (fs : list (Z * fval)) : Prop := forall n b, In (n, Blob b) fs -> In n ns -> is_text b.

(** Each field is the last one given with its number, in whatever order they come and whatever else comes. *)
Definition envelope_read (fs : list (Z * fval)) (e : envelope) : Prop :=
  texts_ok [1; 2; 3; 5] fs /\ e = Envelope (last_text 1 fs) (last_text 2 fs) (last_text 3 fs) (last_blob 4 fs) (last_text 5 fs).
Definition record_read (fs : list (Z * fval)) (r : record) : Prop :=
  texts_ok [1; 2; 3; 4; 5; 6; 7; 8] fs /\
  r = Record_ (last_text 1 fs) (last_text 2 fs) (last_text 3 fs) (last_text 4 fs) (last_text 5 fs) (last_text 6 fs) (last_text 7 fs) (last_text 8 fs).
Definition status_read (fs : list (Z * fval)) (s : status_body) : Prop :=
  texts_ok [2] fs /\ s = StatusBody (last_int 1 fs) (map string_of (blobs 2 fs)).
Definition dmsg_read (fs : list (Z * fval)) (m : dmsg) : Prop :=
  texts_ok [2; 3] fs /\ m = DMsg (last_int 1 fs) (last_text 2 fs) (last_text 3 fs) (last_int 4 fs) (last_blob 5 fs).

(** A field with a message: none if it is not given, else what its fields say, together if it is given repeatedly. *)
Definition message_read {A} (read : list (Z * fval) -> A -> Prop) (cs : list bytes) (o : option A) : Prop :=
  match cs, o with
  | [], None => True
  | _ :: _, Some a => exists fss, Forall2 fields_form fss cs /\ read (concat fss) a
  | _, _ => False
  end.

(** The content of the performative with the number. *)
Definition acn_read (n : Z) (fs : list (Z * fval)) (p : acn_perf) : Prop :=
  match p with
  | PEnvelope env rec => n = 5 /\ env = last_blob 1 fs /\ message_read record_read (blobs 2 fs) rec
  | PLookupRequest a => n = 6 /\ texts_ok [1] fs /\ a = last_text 1 fs
  | PLookupResponse rec => n = 7 /\ message_read record_read (blobs 1 fs) rec
  | PRegister rec => n = 8 /\ message_read record_read (blobs 1 fs) rec
  | PStatus body => n = 9 /\ message_read status_read (blobs 1 fs) body
  end.

(** The fields with bytes and a number from one to another. *)
Definition choice (lo hi : Z) (fs : list (Z * fval)) : list (Z * fval) :=
  List.filter (fun x => match x with (n, Blob _) => (lo <=? n) && (n <=? hi) | _ => false end) fs.

(** The performative after the fields given: the one of the last field, with its fields; those just before with the
    same number count with it, and those before have to be readable too. *)
Inductive acn_reads : list (Z * fval) -> option (Z * list (Z * fval) * acn_perf) -> Prop :=
| acn_none : acn_reads [] None
| acn_new cs o n b gs p :
    acn_reads cs o -> (forall x, o = Some x -> x.1.1 <> n) -> fields_form gs b -> acn_read n gs p -> acn_reads (cs ++ [(n, Blob b)]) (Some (n, gs, p))
| acn_more cs n gs p b hs p' :
    acn_reads cs (Some (n, gs, p)) -> fields_form hs b -> acn_read n (gs ++ hs) p' -> acn_reads (cs ++ [(n, Blob b)]) (Some (n, gs ++ hs, p')).

(** * Proofs about reading *)

Lemma between_iff lo b hi : between lo b hi = true <-> lo <= b2z b <= hi.
Proof. unfold between. rewrite andb_true_iff, !Z.leb_le. done. Qed.
Lemma rune1_iff b : rune1 b = true <-> b2z b < 128.
Proof. unfold rune1. by rewrite Z.ltb_lt. Qed.
Lemma rune2_iff b0 b1 : rune2 b0 b1 = true <-> 194 <= b2z b0 <= 223 /\ 128 <= b2z b1 <= 191.
Proof. unfold rune2, cont. by rewrite andb_true_iff, !between_iff. Qed.
Lemma rune3_iff b0 b1 b2 :
  rune3 b0 b1 b2 = true <->
  (b2z b0 = 224 /\ 160 <= b2z b1 <= 191 \/ 225 <= b2z b0 <= 236 /\ 128 <= b2z b1 <= 191 \/
   b2z b0 = 237 /\ 128 <= b2z b1 <= 159 \/ 238 <= b2z b0 <= 239 /\ 128 <= b2z b1 <= 191) /\ 128 <= b2z b2 <= 191.
Proof. unfold rune3, cont. rewrite !andb_true_iff, !orb_true_iff, !andb_true_iff, !between_iff. lia. Qed.
Lemma rune4_iff b0 b1 b2 b3 :
  rune4 b0 b1 b2 b3 = true <->
  (b2z b0 = 240 /\ 144 <= b2z b1 <= 191 \/ 241 <= b2z b0 <= 243 /\ 128 <= b2z b1 <= 191 \/
   b2z b0 = 244 /\ 128 <= b2z b1 <= 143) /\ 128 <= b2z b2 <= 191 /\ 128 <= b2z b3 <= 191.
Proof. unfold rune4, cont. rewrite !andb_true_iff, !orb_true_iff, !andb_true_iff, !between_iff. lia. Qed.

Lemma not_true b : (b = true <-> False) -> b = false.
Proof. destruct b; tauto. Qed.

Lemma utf8_valid_one c : scalar c -> utf8_valid (utf8 c) = true.
Proof.
  intros Hc. unfold utf8, scalar in *.
  assert (forall x, 0 <= x < 256 -> b2z (z2b x) = x) as Hb by (intros; by apply b2z_z2b_id).
  pose proof (Z.div_mod c 64 ltac:(lia)) as E0. pose proof (Z.mod_pos_bound c 64 ltac:(lia)) as B0.
  pose proof (Z.div_mod (c / 64) 64 ltac:(lia)) as E1. pose proof (Z.mod_pos_bound (c / 64) 64 ltac:(lia)) as B1.
  pose proof (Z.div_mod (c / 4096) 64 ltac:(lia)) as E2. pose proof (Z.mod_pos_bound (c / 4096) 64 ltac:(lia)) as B2.
  assert (c / 64 / 64 = c / 4096) as D1 by (by rewrite Z.div_div by lia).
  assert (c / 4096 / 64 = c / 262144) as D2 by (by rewrite Z.div_div by lia). rewrite D1 in E1. rewrite D2 in E2. clear D1 D2.
  destruct (Z.ltb_spec c 128); [|destruct (Z.ltb_spec c 2048); [|destruct (Z.ltb_spec c 65536)]]; cbn [map utf8_valid].
  - by rewrite (proj2 (rune1_iff _)) by (rewrite Hb; lia).
  - rewrite (not_true (rune1 _)) by (rewrite rune1_iff, Hb by lia; lia).
    by rewrite (proj2 (rune2_iff _ _)) by (rewrite !Hb; lia).
  - rewrite (not_true (rune1 _)) by (rewrite rune1_iff, Hb by lia; lia).
    rewrite (not_true (rune2 _ _)) by (rewrite rune2_iff, !Hb by lia; lia).
    by rewrite (proj2 (rune3_iff _ _ _)) by (rewrite !Hb by lia; lia).
  - rewrite (not_true (rune1 _)) by (rewrite rune1_iff, Hb by lia; lia).
    rewrite (not_true (rune2 _ _)) by (rewrite rune2_iff, !Hb by lia; lia).
    rewrite (not_true (rune3 _ _ _)) by (rewrite rune3_iff, !Hb by lia; lia).
    by rewrite (proj2 (rune4_iff _ _ _ _)) by (rewrite !Hb by lia; lia).
Qed.

Lemma rune1_char b0 : rune1 b0 = true -> scalar (b2z b0) /\ utf8 (b2z b0) = [b0].
Proof.
  intros H1. apply rune1_iff in H1. pose proof (b2z_range b0). split; [unfold scalar; lia|]. unfold utf8.
  destruct (Z.ltb_spec (b2z b0) 128); [|lia]. cbn. by rewrite z2b_b2z.
Qed.

Lemma rune2_char b0 b1 : rune2 b0 b1 = true -> exists c, scalar c /\ 128 <= c /\ utf8 c = [b0; b1].
Proof.
  intros H2. apply rune2_iff in H2.
  set (c := (b2z b0 - 192) * 64 + (b2z b1 - 128)). exists c.
  assert (c / 64 = b2z b0 - 192) as D by (unfold c; rewrite Z.div_add_l by lia; rewrite Z.div_small; lia).
  assert (c mod 64 = b2z b1 - 128) as M by (rewrite Z.mod_eq by lia; lia).
  split; [unfold scalar; lia|]. split; [lia|]. unfold utf8.
  destruct (Z.ltb_spec c 128); [lia|]. destruct (Z.ltb_spec c 2048); [|lia]. cbn [map].
  rewrite D, M. by rewrite !Zplus_minus, !z2b_b2z.
Qed.

Lemma rune3_char b0 b1 b2 : rune3 b0 b1 b2 = true -> exists c, scalar c /\ 128 <= c /\ utf8 c = [b0; b1; b2].
Proof.
  intros H3. apply rune3_iff in H3.
  set (c := ((b2z b0 - 224) * 64 + (b2z b1 - 128)) * 64 + (b2z b2 - 128)). exists c.
  assert (c / 64 = (b2z b0 - 224) * 64 + (b2z b1 - 128)) as D by (unfold c; rewrite Z.div_add_l by lia; rewrite Z.div_small; lia).
  assert (c / 4096 = b2z b0 - 224) as D'.
  { change 4096 with (64 * 64). rewrite <- Z.div_div, D by lia. rewrite Z.div_add_l by lia. rewrite Z.div_small; lia. }
  assert (c mod 64 = b2z b2 - 128) as M by (rewrite Z.mod_eq by lia; lia).
  assert ((c / 64) mod 64 = b2z b1 - 128) as M' by (rewrite D, Z.add_comm, Z_mod_plus_full, Z.mod_small; lia).
  split; [unfold scalar; lia|]. split; [lia|]. unfold utf8.
  destruct (Z.ltb_spec c 128); [lia|]. destruct (Z.ltb_spec c 2048); [lia|]. destruct (Z.ltb_spec c 65536); [|lia]. cbn [map].
  rewrite D', M', M. by rewrite !Zplus_minus, !z2b_b2z.
Qed.

Lemma rune4_char b0 b1 b2 b3 : rune4 b0 b1 b2 b3 = true -> exists c, scalar c /\ 128 <= c /\ utf8 c = [b0; b1; b2; b3].
Proof.
  intros H4. apply rune4_iff in H4.
  set (c := (((b2z b0 - 240) * 64 + (b2z b1 - 128)) * 64 + (b2z b2 - 128)) * 64 + (b2z b3 - 128)). exists c.
  assert (c / 64 = ((b2z b0 - 240) * 64 + (b2z b1 - 128)) * 64 + (b2z b2 - 128)) as D
    by (unfold c; rewrite Z.div_add_l by lia; rewrite Z.div_small; lia).
  assert (c / 4096 = (b2z b0 - 240) * 64 + (b2z b1 - 128)) as D'.
  { change 4096 with (64 * 64). rewrite <- Z.div_div, D by lia. rewrite Z.div_add_l by lia. rewrite Z.div_small; lia. }
  assert (c / 262144 = b2z b0 - 240) as D''.
  { change 262144 with (4096 * 64). rewrite <- Z.div_div, D' by lia. rewrite Z.div_add_l by lia. rewrite Z.div_small; lia. }
  assert (c mod 64 = b2z b3 - 128) as M by (rewrite Z.mod_eq by lia; lia).
  assert ((c / 64) mod 64 = b2z b2 - 128) as M' by (rewrite D, Z.add_comm, Z_mod_plus_full, Z.mod_small; lia).
  assert ((c / 4096) mod 64 = b2z b1 - 128) as M'' by (rewrite D', Z.add_comm, Z_mod_plus_full, Z.mod_small; lia).
  split; [unfold scalar; lia|]. split; [lia|]. unfold utf8.
  destruct (Z.ltb_spec c 128); [lia|]. destruct (Z.ltb_spec c 2048); [lia|]. destruct (Z.ltb_spec c 65536); [lia|]. cbn [map].
  rewrite D'', M'', M', M. by rewrite !Zplus_minus, !z2b_b2z.
Qed.

Lemma utf8_valid_text b : utf8_valid b = true <-> is_text b.
Proof.
  split.
  - revert b. apply utf8_ind.
    + exists []. by split.
    + intros b0 l H1 _ (cs & Hcs & ->). apply rune1_char in H1 as [Hc E]. exists (b2z b0 :: cs).
      split; [by constructor|]. cbn [map concat]. by rewrite E.
    + intros b0 b1 l _ H2 _ (cs & Hcs & ->). apply rune2_char in H2 as (c & Hc & _ & E). exists (c :: cs).
      split; [by constructor|]. cbn [map concat]. by rewrite E.
    + intros b0 b1 b2 l _ _ H3 _ (cs & Hcs & ->). apply rune3_char in H3 as (c & Hc & _ & E). exists (c :: cs).
      split; [by constructor|]. cbn [map concat]. by rewrite E.
    + intros b0 b1 b2 b3 l _ _ _ H4 _ (cs & Hcs & ->). apply rune4_char in H4 as (c & Hc & _ & E). exists (c :: cs).
      split; [by constructor|]. cbn [map concat]. by rewrite E.
  - intros (cs & Hcs & ->). induction Hcs as [|c cs Hc _ IH]; [done|]. cbn [map concat].
    by rewrite utf8_valid_app by (by apply utf8_valid_one).
Qed.

Lemma loose_bound z b : loose z b -> 0 <= z < 2 ^ (7 * Z.of_nat (length b)).
Proof.
  induction 1 as [b Hb|b z l Hb H IH]; cbn [length].
  - pose proof (b2z_range b). change (2 ^ (7 * Z.of_nat 1)) with 128. lia.
  - pose proof (b2z_range b). rewrite Nat2Z.inj_succ. replace (7 * Z.succ (Z.of_nat (length l))) with (7 + 7 * Z.of_nat (length l)) by lia.
    rewrite Z.pow_add_r by lia. change (2 ^ 7) with 128. nia.
Qed.

Lemma loose_nonempty z b : loose z b -> (1 <= length b)%nat.
Proof. destruct 1; cbn; lia. Qed.

(** Reading at most [S n] bytes, of which the last may only be 0 or 1. *)
Lemma get_varint_n_iff n l z r :
  get_varint_n (S n) l = Some (z, r) <->
  exists b, loose z b /\ l = b ++ r /\ (length b <= S n)%nat /\ z < 2 ^ (7 * Z.of_nat n + 1).
Proof.
  revert l z. induction n as [|n IH]; intros l z.
  - change (2 ^ (7 * Z.of_nat 0 + 1)) with 2. cbn [get_varint_n]. destruct l as [|b l].
    { split; [done|]. intros (b & Hb & E & _). apply loose_nonempty in Hb. destruct b; [cbn in Hb; lia|done]. }
    pose proof (b2z_range b). destruct (Z.ltb_spec (b2z b) 128) as [H1|H1].
    + destruct (Z.leb_spec (b2z b) 1) as [H2|H2].
      * split; [intros [= <- <-]; exists [b]; split; [by constructor|]; split; [done|]; cbn; lia|].
        intros (b' & Hb & E & Hl & Hz). destruct Hb as [c Hc|c z' l' Hc Hb]; [by injection E as -> ->|].
        apply loose_nonempty in Hb. cbn in Hl. lia.
      * split; [done|]. intros (b' & Hb & E & Hl & Hz). destruct Hb as [c Hc|c z' l' Hc Hb]; [injection E as <- <-; lia|].
        apply loose_nonempty in Hb. cbn in Hl. lia.
    + split; [done|]. intros (b' & Hb & E & Hl & Hz). destruct Hb as [c Hc|c z' l' Hc Hb]; [injection E as -> _; lia|].
      apply loose_nonempty in Hb. cbn in Hl. lia.
  - remember (S n) as k eqn:Ek. cbn [get_varint_n]. destruct l as [|b l].
    { split; [done|]. intros (b & Hb & E & _). apply loose_nonempty in Hb. destruct b; [cbn in Hb; lia|done]. }
    pose proof (b2z_range b). destruct (Z.ltb_spec (b2z b) 128) as [H1|H1].
    + assert (b2z b < 2 ^ (7 * Z.of_nat k + 1)) as Hs.
      { apply Z.lt_le_trans with (2 ^ 7); [done|]. apply Z.pow_le_mono_r; lia. }
      replace (match k with O => if b2z b <=? 1 then Some (b2z b, l) else None | S _ => Some (b2z b, l) end) with (Some (b2z b, l)) by (by subst k).
      split; [intros [= <- <-]; exists [b]; split; [by constructor|]; split; [done|]; split; [cbn; lia|done]|].
      intros (b' & Hb & E & Hl & Hz). destruct Hb as [c Hc|c z' l' Hc Hb]; [by injection E as -> ->|injection E as -> _; lia].
    + assert (2 ^ (7 * Z.of_nat k + 1) = 128 * 2 ^ (7 * Z.of_nat n + 1)) as Hp.
      { replace (7 * Z.of_nat k + 1) with (7 + (7 * Z.of_nat n + 1)) by lia. rewrite Z.pow_add_r by lia. done. }
      rewrite Hp. destruct (get_varint_n k l) as [[v rest]|] eqn:E.
      * split.
        -- intros [= <- <-]. apply IH in E as (b' & Hb & -> & Hl & Hz). exists (b :: b'). split; [by constructor|]. split; [done|]. cbn [length]. lia.
        -- intros (b' & Hb & E' & Hl & Hz). destruct Hb as [c Hc|c z' l' Hc Hb]; [injection E' as -> _; lia|].
           injection E' as <- ->. assert (get_varint_n k (l' ++ r) = Some (z', r)) as E2.
           { apply IH. exists l'. split; [done|]. split; [done|]. cbn [length] in Hl. pose proof (loose_bound _ _ Hb). lia. }
           rewrite E in E2. by injection E2 as -> ->.
      * split; [done|]. intros (b' & Hb & E' & Hl & Hz). destruct Hb as [c Hc|c z' l' Hc Hb]; [injection E' as -> _; lia|].
        injection E' as <- ->. rewrite (proj2 (IH (l' ++ r) z')) in E; [done|].
        exists l'. split; [done|]. split; [done|]. cbn [length] in Hl. lia.
Qed.

Lemma get_varint_iff l z r : get_varint l = Some (z, r) <-> exists b, read_number z b /\ l = b ++ r.
Proof.
  unfold get_varint. rewrite (get_varint_n_iff 9). change (7 * Z.of_nat 9 + 1) with 64. unfold read_number.
  split; intros (b & H); exists b; tauto.
Qed.

Lemma read_number_nonneg z b : read_number z b -> 0 <= z.
Proof. intros (H & _). apply loose_bound in H. lia. Qed.

Lemma get_tag_iff limit l n t r : get_tag limit l = Some (n, t, r) <-> exists k, tag limit n t k /\ l = k ++ r.
Proof.
  unfold get_tag, tag. destruct (get_varint l) as [[v r']|] eqn:E.
  - pose proof E as E0. apply get_varint_iff in E as (k & Hk & ->). pose proof (read_number_nonneg _ _ Hk) as Hv.
    pose proof (Z.div_mod v 8 ltac:(lia)). pose proof (Z.mod_pos_bound v 8 ltac:(lia)). cbv zeta.
    destruct (Z.ltb_spec (v / 8) 1) as [H1|H1], (Z.ltb_spec limit (v / 8)) as [H2|H2]; cbn [orb].
    1-3: split; [done|]; intros (k' & (Hn & Ht & Hk') & E'); assert (get_varint (k ++ r') = Some (8 * n + t, r)) as E2 by
      (apply get_varint_iff; by exists k'); rewrite E0 in E2; injection E2 as E2 _; exfalso;
      assert (v / 8 = n) by (rewrite E2, Z.mul_comm, Z.div_add_l, Z.div_small; lia); lia.
    split.
    + intros [= <- <- <-]. exists k. split; [|done]. split; [lia|]. split; [lia|]. by replace (8 * (v / 8) + v mod 8) with v by lia.
    + intros (k' & (Hn & Ht & Hk') & E'). assert (get_varint (k ++ r') = Some (8 * n + t, r)) as E2 by (apply get_varint_iff; by exists k').
      rewrite E0 in E2. injection E2 as -> ->.
      assert ((8 * n + t) / 8 = n) as -> by (rewrite Z.mul_comm, Z.div_add_l, Z.div_small; lia).
      by rewrite Z.add_comm, Z.mul_comm, Z_mod_plus_full, Z.mod_small.
  - split; [done|]. intros (k & (Hn & Ht & Hk) & ->). rewrite (proj2 (get_varint_iff (k ++ r) (8 * n + t) r)) in E; [done|by exists k].
Qed.

Lemma get_bytes_iff l c r : get_bytes l = Some (c, r) <-> exists b, read_number (Z.of_nat (length c)) b /\ l = b ++ c ++ r.
Proof.
  unfold get_bytes. destruct (get_varint l) as [[v r']|] eqn:E.
  - pose proof E as E0. apply get_varint_iff in E as (k & Hk & ->). pose proof (read_number_nonneg _ _ Hk) as Hv.
    destruct (Z.ltb_spec (Z.of_nat (length r')) v) as [H1|H1].
    + split; [done|]. intros (b & Hb & E'). assert (get_varint (k ++ r') = Some (Z.of_nat (length c), c ++ r)) as E2 by (apply get_varint_iff; by exists b).
      rewrite E0 in E2. injection E2 as -> ->. rewrite app_length in H1. lia.
    + split.
      * intros [= <- <-]. exists k. rewrite take_drop, take_length_le by lia. by rewrite Z2Nat.id.
      * intros (b & Hb & E'). assert (get_varint (k ++ r') = Some (Z.of_nat (length c), c ++ r)) as E2 by (apply get_varint_iff; by exists b).
        rewrite E0 in E2. injection E2 as -> ->. rewrite Nat2Z.id. by rewrite take_app, drop_app.
  - split; [done|]. intros (b & Hb & ->). rewrite (proj2 (get_varint_iff _ (Z.of_nat (length c)) (c ++ r))) in E; [done|by exists b].
Qed.

Lemma drop_exactly_iff n l r : drop_exactly n l = Some r <-> exists b, length b = n /\ l = b ++ r.
Proof.
  unfold drop_exactly. destruct (Nat.ltb_spec (length l) n) as [H|H].
  - split; [done|]. intros (b & Hb & ->). rewrite app_length in H. lia.
  - split.
    + intros [= <-]. exists (take n l). rewrite take_drop. split; [|done]. by rewrite take_length_le by lia.
    + intros (b & <- & ->). by rewrite drop_app.
Qed.

Lemma tag_nonempty limit n t k : tag limit n t k -> (1 <= length k)%nat.
Proof. intros (_ & _ & H & _). by apply loose_nonempty in H. Qed.

Lemma skip_group_sound fuel n l r : skip_group fuel n l = Some r -> exists b, group n b /\ l = b ++ r.
Proof.
  revert n l r. induction fuel as [|fuel IH]; intros n l r; [done|]. cbn [skip_group].
  destruct (get_tag (2 ^ 31 - 1) l) as [[[m t] l1]|] eqn:E; [|done]. apply get_tag_iff in E as (k & Hk & ->).
  destruct (Z.eqb_spec t 4) as [->|H4].
  { destruct (Z.eqb_spec m n) as [->|]; [|done]. intros [= ->]. exists k. split; [by constructor|done]. }
  destruct (Z.eqb_spec t 3) as [->|H3].
  - destruct (skip_group fuel m l1) as [l2|] eqn:E; [|done]. apply IH in E as (c & Hc & ->). intros H. apply IH in H as (b & Hb & ->).
    exists (k ++ c ++ b). split; [by eapply group_skipped; [|by constructor|]|]. by rewrite <- !app_assoc.
  - unfold get_flat. destruct (Z.eqb_spec t 0) as [->|H0].
    { destruct (get_varint l1) as [[v l2]|] eqn:E; [|done]. apply get_varint_iff in E as (c & Hc & ->). intros H. apply IH in H as (b & Hb & ->).
      exists (k ++ c ++ b). split; [by eapply group_number|]. by rewrite <- !app_assoc. }
    destruct (Z.eqb_spec t 1) as [->|H1].
    { destruct (drop_exactly 8 l1) as [l2|] eqn:E; [|done]. apply drop_exactly_iff in E as (c & Hc & ->). intros H. apply IH in H as (b & Hb & ->).
      exists (k ++ c ++ b). split; [by eapply group_skipped; [|by constructor|]|]. by rewrite <- !app_assoc. }
    destruct (Z.eqb_spec t 2) as [->|H2].
    { destruct (get_bytes l1) as [[c l2]|] eqn:E; [|done]. apply get_bytes_iff in E as (x & Hx & ->). intros H. apply IH in H as (b & Hb & ->).
      exists (k ++ x ++ c ++ b). split; [by eapply group_blob|]. by rewrite <- !app_assoc. }
    destruct (Z.eqb_spec t 5) as [->|H5]; [|done].
    destruct (drop_exactly 4 l1) as [l2|] eqn:E; [|done]. apply drop_exactly_iff in E as (c & Hc & ->). intros H. apply IH in H as (b & Hb & ->).
    exists (k ++ c ++ b). split; [by eapply group_skipped; [|by constructor|]|]. by rewrite <- !app_assoc.
Qed.

Scheme skipped_mut := Induction for skipped Sort Prop with group_mut := Induction for group Sort Prop.

Definition skips (n t : Z) (c : bytes) : Prop :=
  forall fuel r, (length c <= fuel)%nat ->
  (t = 1 \/ t = 5 \/ t = 3) /\
  (if t =? 3 then skip_group fuel n (c ++ r) else match get_flat t (c ++ r) with Some (_, r') => Some r' | None => None end) = Some r.

Lemma group_complete n b : group n b -> forall fuel r, (length b <= fuel)%nat -> skip_group fuel n (b ++ r) = Some r.
Proof.
  apply (group_mut (fun n t c _ => skips n t c) (fun n b _ => forall fuel r, (length b <= fuel)%nat -> skip_group fuel n (b ++ r) = Some r)).
  - intros m c Hc fuel r _. split; [tauto|]. cbn [Z.eqb Pos.eqb]. unfold get_flat. cbn [Z.eqb Pos.eqb].
    by rewrite (proj2 (drop_exactly_iff 8 (c ++ r) r)) by (by exists c).
  - intros m c Hc fuel r _. split; [tauto|]. cbn [Z.eqb Pos.eqb]. unfold get_flat. cbn [Z.eqb Pos.eqb].
    by rewrite (proj2 (drop_exactly_iff 4 (c ++ r) r)) by (by exists c).
  - intros m c Hc IH fuel r Hf. split; [tauto|]. cbn [Z.eqb Pos.eqb]. by apply IH.
  - intros m k Hk fuel r Hf. pose proof (tag_nonempty _ _ _ _ Hk). destruct fuel as [|fuel]; [lia|]. cbn [skip_group].
    rewrite (proj2 (get_tag_iff _ (k ++ r) m 4 r)) by (by exists k). cbn [Z.eqb Pos.eqb]. by rewrite Z.eqb_refl.
  - intros m m' k z l c Hk Hz Hc IH fuel r Hf. pose proof (tag_nonempty _ _ _ _ Hk). destruct fuel as [|fuel]; [rewrite !app_length in Hf; lia|].
    cbn [skip_group]. rewrite <- !app_assoc. rewrite (proj2 (get_tag_iff _ _ m' 0 (l ++ c ++ r))) by (by exists k). cbn [Z.eqb]. unfold get_flat. cbn [Z.eqb].
    rewrite (proj2 (get_varint_iff _ z (c ++ r))) by (by exists l). apply IH. rewrite !app_length in Hf. lia.
  - intros m m' k l x c Hk Hz Hc IH fuel r Hf. pose proof (tag_nonempty _ _ _ _ Hk). destruct fuel as [|fuel]; [rewrite !app_length in Hf; lia|].
    cbn [skip_group]. rewrite <- !app_assoc. rewrite (proj2 (get_tag_iff _ _ m' 2 (l ++ x ++ c ++ r))) by (by exists k).
    cbn [Z.eqb Pos.eqb]. unfold get_flat. cbn [Z.eqb Pos.eqb].
    rewrite (proj2 (get_bytes_iff _ x (c ++ r))) by (by exists l). apply IH. rewrite !app_length in Hf. lia.
  - intros m m' t k x c Hk Hx IHx Hc IH fuel r Hf. pose proof (tag_nonempty _ _ _ _ Hk). destruct fuel as [|fuel]; [rewrite !app_length in Hf; lia|].
    cbn [skip_group]. rewrite <- !app_assoc. rewrite (proj2 (get_tag_iff _ _ m' t (x ++ c ++ r))) by (by exists k).
    rewrite !app_length in Hf. destruct (IHx fuel (c ++ r) ltac:(lia)) as [Ht E]. rewrite E.
    destruct (Z.eqb_spec t 4); [lia|]. apply IH. lia.
Qed.

Lemma skipped_value n t c r : skipped n t c -> exists v, get_value n t (c ++ r) = Some (v, r) /\ (v = WFixed64 \/ v = WGroup \/ v = WFixed32).
Proof.
  unfold get_value, get_flat. destruct 1 as [n b Hb|n b Hb|n b Hb]; cbn [Z.eqb Pos.eqb].
  - rewrite (proj2 (drop_exactly_iff 8 (b ++ r) r)) by (by exists b). eauto.
  - rewrite (proj2 (drop_exactly_iff 4 (b ++ r) r)) by (by exists b). eauto.
  - rewrite (group_complete n b Hb) by (rewrite app_length; lia). eauto.
Qed.

(** The fields read are those of the form, and some skipped. *)
Definition conv (x : Z * fval) : Z * wval := (x.1, match x.2 with Num z => WVarint z | Blob b => WBytes b end).
Inductive with_skipped : list (Z * fval) -> list (Z * wval) -> Prop :=
| ws_nil : with_skipped [] []
| ws_field x fs ws : with_skipped fs ws -> with_skipped (x :: fs) (conv x :: ws)
| ws_skip n v fs ws : v = WFixed64 \/ v = WGroup \/ v = WFixed32 -> with_skipped fs ws -> with_skipped fs ((n, v) :: ws).

Lemma fields_complete fs out : fields_form fs out -> exists ws, get_fields out = Some ws /\ with_skipped fs ws.
Proof.
  intros H. assert (forall fuel, (length out <= fuel)%nat -> exists ws, get_fields_n fuel out = Some ws /\ with_skipped fs ws) as Hg; [|by apply Hg].
  induction H as [|n z k l fs b Hk Hz H IH|n c k l fs b Hk Hz H IH|n t k c fs b Hk Hc H IH]; intros fuel Hf.
  { exists []. by destruct fuel; split; [|constructor| |constructor]. }
  all: pose proof (tag_nonempty _ _ _ _ Hk); destruct fuel as [|fuel]; [rewrite !app_length in Hf; lia|];
    destruct (IH fuel) as (ws & E & Hw); [rewrite !app_length in Hf; lia|].
  - assert (get_tag (2 ^ 29 - 1) (k ++ l ++ b) = Some (n, 0, l ++ b)) as Et by (apply get_tag_iff; by exists k).
    destruct k as [|x k]; [cbn in *; lia|]. cbn [app get_fields_n] in *. rewrite Et. unfold get_value, get_flat. cbn [Z.eqb].
    rewrite (proj2 (get_varint_iff _ z b)) by (by exists l). rewrite E. eexists. split; [done|]. by apply (ws_field (n, Num z)).
  - assert (get_tag (2 ^ 29 - 1) (k ++ l ++ c ++ b) = Some (n, 2, l ++ c ++ b)) as Et by (apply get_tag_iff; by exists k).
    destruct k as [|x k]; [cbn in *; lia|]. cbn [app get_fields_n] in *. rewrite Et. unfold get_value, get_flat. cbn [Z.eqb Pos.eqb].
    rewrite (proj2 (get_bytes_iff _ c b)) by (by exists l). rewrite E. eexists. split; [done|]. by apply (ws_field (n, Blob c)).
  - assert (get_tag (2 ^ 29 - 1) (k ++ c ++ b) = Some (n, t, c ++ b)) as Et by (apply get_tag_iff; by exists k).
    destruct k as [|x k]; [cbn in *; lia|]. cbn [app get_fields_n] in *. rewrite Et.
    destruct (skipped_value n t c b Hc) as (v & -> & Hv). rewrite E. eexists. split; [done|]. by apply ws_skip.
Qed.

Lemma fields_sound out ws : get_fields out = Some ws -> exists fs, fields_form fs out /\ with_skipped fs ws.
Proof.
  unfold get_fields. generalize (length out) as fuel. intros fuel. revert out ws.
  induction fuel as [|fuel IH]; intros out ws H.
  { destruct out; [|done]. injection H as <-. exists []. split; constructor. }
  destruct out as [|x out]; [injection H as <-; exists []; split; constructor|].
  remember (x :: out) as l eqn:El. assert (get_fields_n (S fuel) l = Some ws) as H' by done. rewrite El in H'. cbn [get_fields_n] in H'. rewrite <- El in H'.
  clear H. destruct (get_tag (2 ^ 29 - 1) l) as [[[n t] l1]|] eqn:E; [|done]. apply get_tag_iff in E as (k & Hk & Ek).
  destruct (get_value n t l1) as [[v l2]|] eqn:Ev; [|done]. destruct (get_fields_n fuel l2) as [ws'|] eqn:Ew; [|done]. injection H' as <-.
  apply IH in Ew as (fs & Hf & Hw). rewrite Ek. unfold get_value, get_flat in Ev.
  destruct (Z.eqb_spec t 3) as [->|H3].
  { destruct (skip_group (length l1) n l1) as [r|] eqn:Es; [|done]. injection Ev as <- ->. apply skip_group_sound in Es as (c & Hc & ->).
    exists fs. split; [by eapply fields_skip; [|by constructor|]|]. apply ws_skip; tauto. }
  destruct (Z.eqb_spec t 0) as [->|H0].
  { destruct (get_varint l1) as [[z r]|] eqn:Es; [|done]. injection Ev as <- ->. apply get_varint_iff in Es as (c & Hc & ->).
    exists ((n, Num z) :: fs). split; [by apply fields_num|]. by apply (ws_field (n, Num z)). }
  destruct (Z.eqb_spec t 1) as [->|H1].
  { destruct (drop_exactly 8 l1) as [r|] eqn:Es; [|done]. injection Ev as <- ->. apply drop_exactly_iff in Es as (c & Hc & ->).
    exists fs. split; [by eapply fields_skip; [|by constructor|]|]. apply ws_skip; tauto. }
  destruct (Z.eqb_spec t 2) as [->|H2].
  { destruct (get_bytes l1) as [[c r]|] eqn:Es; [|done]. injection Ev as <- ->. apply get_bytes_iff in Es as (y & Hy & ->).
    exists ((n, Blob c) :: fs). split; [by apply fields_blob|]. by apply (ws_field (n, Blob c)). }
  destruct (Z.eqb_spec t 5) as [->|H5]; [|done].
  destruct (drop_exactly 4 l1) as [r|] eqn:Es; [|done]. injection Ev as <- ->. apply drop_exactly_iff in Es as (c & Hc & ->).
  exists fs. split; [by eapply fields_skip; [|by constructor|]|]. apply ws_skip; tauto.
Qed.

(** A reader that leaves other types alone. *)
Definition plain {A} (f : A -> Z -> wval -> option A) : Prop := forall a n v, v = WFixed64 \/ v = WGroup \/ v = WFixed32 -> f a n v = Some a.

Lemma fold_skipped {A} (f : A -> Z -> wval -> option A) a fs ws :
  plain f -> with_skipped fs ws -> fold_fields f a ws = fold_fields f a (map conv fs).
Proof.
  intros Hp Hw. revert a. induction Hw as [|x fs ws Hw IH|n v fs ws Hv Hw IH]; intros a; [done| |].
  - cbn [map fold_fields]. destruct (conv x) as [n v]. destruct (f a n v); [apply IH|done].
  - cbn [fold_fields]. rewrite Hp by done. apply IH.
Qed.

Lemma decode_form {A} (f : A -> Z -> wval -> option A) a fs out :
  plain f -> fields_form fs out -> decode_into f a out = fold_fields f a (map conv fs).
Proof. intros Hp Hf. apply fields_complete in Hf as (ws & E & Hw). unfold decode_into. rewrite E. by apply fold_skipped. Qed.

Lemma decode_some {A} (f : A -> Z -> wval -> option A) a out x : decode_into f a out = Some x -> exists fs, fields_form fs out.
Proof.
  unfold decode_into. destruct (get_fields out) as [ws|] eqn:E; [|done]. apply fields_sound in E as (fs & Hf & _). by exists fs.
Qed.

Lemma fields_det fs gs out : fields_form fs out -> fields_form gs out -> fs = gs.
Proof.
  intros H1 H2. apply fields_complete in H1 as (ws & E & H1). apply fields_complete in H2 as (ws' & E' & H2).
  rewrite E in E'. injection E' as <-. clear E. revert gs H2. induction H1 as [|x fs ws H1 IH|n v fs ws Hv H1 IH]; intros gs H2.
  - by inversion H2.
  - inversion H2 as [|y gs' ws' H3 E1 E2|n v gs' ws' Hv H3 E1 E2]; subst.
    + f_equal; [|by apply IH]. destruct x as [n [z|b]], y as [m [z'|b']]; unfold conv in *; cbn [fst snd] in *; congruence.
    + destruct x as [m [z|b]]; unfold conv in *; cbn [fst snd] in *; destruct Hv as [ | [ | ] ]; congruence.
  - inversion H2 as [|y gs' ws' H3 E1 E2|m v' gs' ws' Hv' H3 E1 E2]; subst; [|by apply IH].
    destruct y as [m [z|b]]; unfold conv in *; cbn [fst snd] in *; destruct Hv as [ | [ | ] ]; congruence.
Qed.

(** A reader that goes by a relation between the fields so far and the value. *)
Definition reads_by {A} (f : A -> Z -> wval -> option A) (R : list (Z * fval) -> A -> Prop) : Prop :=
  plain f /\
  (forall gs x a a', R gs a -> f a (conv x).1 (conv x).2 = Some a' <-> R (gs ++ [x]) a') /\
  (forall gs x a', R (gs ++ [x]) a' -> exists a, R gs a).

Lemma prefix_R {A} (f : A -> Z -> wval -> option A) R gs hs a : reads_by f R -> R (gs ++ hs) a -> exists a', R gs a'.
Proof.
  intros (_ & _ & Hp). revert a. induction hs as [|x hs IH] using rev_ind; intros a H; [rewrite app_nil_r in H; by exists a|].
  rewrite app_assoc in H. apply Hp in H as [a' H]. by apply (IH a').
Qed.

Lemma fold_R {A} (f : A -> Z -> wval -> option A) R gs hs a a' :
  reads_by f R -> R gs a -> fold_fields f a (map conv hs) = Some a' <-> (R (gs ++ hs) a' /\ (hs = [] -> a = a')).
Proof.
  intros Hr. revert gs a. induction hs as [|x hs IH]; intros gs a H.
  - cbn. rewrite app_nil_r. split; [intros [= <-]; by split|]. intros [_ E]. by rewrite E.
  - cbn [map fold_fields]. destruct (conv x) as [n v] eqn:E. pose proof Hr as (_ & Hs & _). specialize (Hs gs x a). rewrite E in Hs. cbn [fst snd] in Hs.
    replace (gs ++ x :: hs) with ((gs ++ [x]) ++ hs) by (by rewrite <- app_assoc).
    destruct (f a n v) as [a1|] eqn:E1.
    + rewrite IH by (by apply Hs). split; [intros [H1 _]; by split|]. intros [H1 _]. split; [done|]. intros ->. rewrite app_nil_r in H1.
      apply (Hs a' H) in H1. by injection H1.
    + split; [done|]. intros [H1 _]. apply (prefix_R f) in H1 as [a1 H1]; [|done]. by apply Hs in H1.
Qed.

Lemma decode_R {A} (f : A -> Z -> wval -> option A) R gs a c a' :
  reads_by f R -> (forall gs a a', R gs a -> R gs a' -> a = a') -> R gs a ->
  decode_into f a c = Some a' <-> exists hs, fields_form hs c /\ R (gs ++ hs) a'.
Proof.
  intros Hr Hd H. pose proof Hr as (Hp & _). split.
  - intros E. destruct (decode_some _ _ _ _ E) as [hs Hf]. exists hs. split; [done|]. rewrite (decode_form _ _ hs) in E by done.
    by apply (fold_R f R gs hs a) in E as [? _].
  - intros (hs & Hf & H'). rewrite (decode_form _ _ hs) by done. apply (fold_R f R gs); [done|done|]. split; [done|].
    intros ->. rewrite app_nil_r in H'. by apply (Hd gs).
Qed.

Lemma by_val {A} (f : A -> Z -> wval -> option A) (ok : Z * fval -> Prop) (val : list (Z * fval) -> A) (R : list (Z * fval) -> A -> Prop) :
  plain f -> (forall fs x a, f (val fs) (conv x).1 (conv x).2 = Some a <-> ok x /\ a = val (fs ++ [x])) ->
  (forall fs a, R fs a <-> Forall ok fs /\ a = val fs) -> reads_by f R.
Proof.
  intros Hp Hs HR. split; [done|]. split.
  - intros gs x a a' H. apply HR in H as [Hok ->]. rewrite Hs, HR, Forall_app, Forall_singleton. tauto.
  - intros gs x a' H. apply HR in H as [Hok _]. apply Forall_app in Hok as [Hok _]. exists (val gs). apply HR. by split.
Qed.

Lemma forms_det fss gss cs : Forall2 fields_form fss cs -> Forall2 fields_form gss cs -> fss = gss.
Proof.
  intros H. revert gss. induction H as [|fs c fss cs Hf H IH]; intros gss H'; inversion H'; subst; [done|]. f_equal; [by eapply fields_det|by apply IH].
Qed.

Lemma message_read_det {A} (R : list (Z * fval) -> A -> Prop) cs o o' :
  (forall gs a a', R gs a -> R gs a' -> a = a') -> message_read R cs o -> message_read R cs o' -> o = o'.
Proof.
  intros Hd. destruct cs as [|c cs], o as [a|], o' as [a'|]; cbn [message_read]; try done.
  intros (fss & Hf & Ha) (fss' & Hf' & Ha'). rewrite (forms_det _ _ _ Hf' Hf) in Ha'. f_equal. by eapply Hd.
Qed.

(** Merging one more occurrence. *)
Lemma merge_read {A} (f : A -> Z -> wval -> option A) (zero : A) R cs o c o' :
  reads_by f R -> (forall gs a a', R gs a -> R gs a' -> a = a') -> R [] zero -> message_read R cs o ->
  merge_message f zero o c = Some o' <-> message_read R (cs ++ [c]) o'.
Proof.
  intros Hr Hd Hz Ho. unfold merge_message.
  assert (exists fss, Forall2 fields_form fss cs /\ R (concat fss) (or_else zero o)) as (fss & Hf & Ha).
  { destruct cs as [|c' cs], o as [a|]; cbn [message_read or_else] in *; try done. by exists []. }
  pose proof (decode_R f R (concat fss) (or_else zero o) c) as Hc.
  assert (message_read R (cs ++ [c]) o' <-> exists a fss', o' = Some a /\ Forall2 fields_form fss' (cs ++ [c]) /\ R (concat fss') a) as Hm.
  { destruct (cs ++ [c]) as [|c' cs'] eqn:E; [by destruct cs|]. destruct o' as [a|]; cbn [message_read].
    - split; [intros (fss' & ? & ?); by exists a, fss'|intros (a' & fss' & [= <-] & ? & ?); by exists fss'].
    - split; [done|by intros (? & ? & ? & _)]. }
  rewrite Hm. split.
  - destruct (decode_into f (or_else zero o) c) as [a|] eqn:E; [|done]. intros [= <-]. apply (decode_R f R (concat fss)) in E as (hs & Hh & H'); [|done..].
    exists a, (fss ++ [hs]). split; [done|]. split; [apply Forall2_app; [done|by constructor]|]. rewrite concat_app. cbn [concat]. by rewrite app_nil_r.
  - intros (a & fss' & -> & Hf' & Ha'). apply Forall2_app_inv_r in Hf' as (f1 & f2 & Hf1 & Hf2 & ->).
    rewrite (forms_det f1 fss cs) in Ha' by done. inversion Hf2 as [|hs c' l1 l2 Hh Hn]; subst. inversion Hn; subst.
    rewrite concat_app in Ha'. cbn [concat] in Ha'. rewrite app_nil_r in Ha'.
    rewrite (proj2 (Hc a Hr Hd Ha)); [done|]. by exists hs.
Qed.

Lemma blobs_snoc n fs x :
  blobs n (fs ++ [x]) = blobs n fs ++ match x with (m, Blob b) => if m =? n then [b] else [] | _ => [] end.
Proof. unfold blobs. rewrite omap_app. f_equal. cbn. destruct x as [m [z|b]]; [done|]. by destruct (m =? n). Qed.
Lemma nums_snoc n fs x :
  nums n (fs ++ [x]) = nums n fs ++ match x with (m, Num z) => if m =? n then [z] else [] | _ => [] end.
Proof. unfold nums. rewrite omap_app. f_equal. cbn. destruct x as [m [z|b]]; [|done]. by destruct (m =? n). Qed.
Lemma last_blob_snoc n fs x :
  last_blob n (fs ++ [x]) = match x with (m, Blob b) => if m =? n then b else last_blob n fs | _ => last_blob n fs end.
Proof.
  unfold last_blob. rewrite blobs_snoc. destruct x as [m [z|b]]; [by rewrite app_nil_r|].
  destruct (m =? n); [by rewrite last_snoc|by rewrite app_nil_r].
Qed.
Lemma last_int_snoc n fs x :
  last_int n (fs ++ [x]) = match x with (m, Num z) => if m =? n then wrap32 z else last_int n fs | _ => last_int n fs end.
Proof.
  unfold last_int, wrap32. rewrite nums_snoc. destruct x as [m [z|b]]; [|by rewrite app_nil_r].
  destruct (m =? n); [by rewrite last_snoc|by rewrite app_nil_r].
Qed.

Definition text_ok (ns : list Z) (x : Z * fval) : Prop := match x with (n, Blob b) => In n ns -> is_text b | _ => True end.
Lemma texts_ok_forall ns fs : texts_ok ns fs <-> Forall (text_ok ns) fs.
Proof.
  unfold texts_ok. rewrite List.Forall_forall. split.
  - intros H [n [z|b]] Hin; [done|]. cbn. by apply H.
  - intros H n b Hin Hn. exact (H _ Hin Hn).
Qed.
Lemma text_of_read b s : text_of b = Some s <-> is_text b /\ s = string_of b.
Proof. unfold text_of. rewrite <- utf8_valid_text. destruct (utf8_valid b); split; try done; [by intros [= <-]|by intros [_ ->]|by intros [? _]]. Qed.

Lemma text_step {A} (b : bytes) (set : string -> A) (P : Prop) a a' :
  P -> set (string_of b) = a' ->
  match text_of b with Some s => Some (set s) | None => None end = Some a <-> (P -> is_text b) /\ a = a'.
Proof.
  intros HP <-. destruct (text_of b) as [s|] eqn:E.
  - apply text_of_read in E as [Ht ->]. split; [by intros [= <-]|by intros [_ ->]].
  - split; [done|]. intros [Ht _]. assert (None = Some (string_of b)) by (rewrite <- E; apply text_of_read; split; [by apply Ht|done]). done.
Qed.

Lemma same_step {A} (v a a' : A) (P : Prop) : P -> v = a' -> Some v = Some a <-> P /\ a = a'.
Proof. intros HP <-. split; [by intros [= <-]|by intros [_ ->]]. Qed.

Lemma envelope_step fs x e :
  envelope_field (Envelope (last_text 1 fs) (last_text 2 fs) (last_text 3 fs) (last_blob 4 fs) (last_text 5 fs)) (conv x).1 (conv x).2 = Some e <->
  text_ok [1; 2; 3; 5] x /\
  e = Envelope (last_text 1 (fs ++ [x])) (last_text 2 (fs ++ [x])) (last_text 3 (fs ++ [x])) (last_blob 4 (fs ++ [x])) (last_text 5 (fs ++ [x])).
Proof.
  unfold last_text. rewrite !last_blob_snoc. destruct x as [n [z|b]]; cbn [conv fst snd text_ok]; [by apply same_step|].
  destruct (decide (n = 1)) as [->|]; [apply (text_step b (fun s => Envelope s _ _ _ _)); [by left|done]|].
  destruct (decide (n = 2)) as [->|]; [apply (text_step b (fun s => Envelope _ s _ _ _)); [cbn; tauto|done]|].
  destruct (decide (n = 3)) as [->|]; [apply (text_step b (fun s => Envelope _ _ s _ _)); [cbn; tauto|done]|].
  destruct (decide (n = 4)) as [->|]; [apply same_step; [intros Hin; cbn in Hin; lia|done]|].
  destruct (decide (n = 5)) as [->|]; [apply (text_step b (fun s => Envelope _ _ _ _ s)); [cbn; tauto|done]|].
  destruct (Z.eqb_spec n 1), (Z.eqb_spec n 2), (Z.eqb_spec n 3), (Z.eqb_spec n 4), (Z.eqb_spec n 5); try done.
  replace (envelope_field _ n (WBytes b)) with (Some (Envelope (string_of (last_blob 1 fs)) (string_of (last_blob 2 fs)) (string_of (last_blob 3 fs)) (last_blob 4 fs) (string_of (last_blob 5 fs)))).
  - apply same_step; [intros Hin; cbn in Hin; lia|done].
  - unfold envelope_field. destruct n as [|p|p]; try done. do 3 (destruct p as [p|p|]; try lia; try done).
Qed.

Ltac plain_by := intros a num v [-> | [-> | ->] ]; destruct num as [|p|p]; try (by destruct a); do 4 (destruct p as [p|p|]; try (by destruct a)).
Lemma envelope_reads : reads_by envelope_field envelope_read.
Proof.
  apply (by_val envelope_field (text_ok [1; 2; 3; 5])
    (fun fs => Envelope (last_text 1 fs) (last_text 2 fs) (last_text 3 fs) (last_blob 4 fs) (last_text 5 fs))).
  - plain_by.
  - apply envelope_step.
  - intros fs a. unfold envelope_read. by rewrite texts_ok_forall.
Qed.
Lemma envelope_det gs a a' : envelope_read gs a -> envelope_read gs a' -> a = a'.
Proof. by intros [_ ->] [_ ->]. Qed.

Lemma record_step fs x r :
  record_field (Record_ (last_text 1 fs) (last_text 2 fs) (last_text 3 fs) (last_text 4 fs) (last_text 5 fs) (last_text 6 fs) (last_text 7 fs) (last_text 8 fs))
    (conv x).1 (conv x).2 = Some r <->
  text_ok [1; 2; 3; 4; 5; 6; 7; 8] x /\
  r = Record_ (last_text 1 (fs ++ [x])) (last_text 2 (fs ++ [x])) (last_text 3 (fs ++ [x])) (last_text 4 (fs ++ [x]))
              (last_text 5 (fs ++ [x])) (last_text 6 (fs ++ [x])) (last_text 7 (fs ++ [x])) (last_text 8 (fs ++ [x])).
Proof.
  unfold last_text. rewrite !last_blob_snoc. destruct x as [n [z|b]]; cbn [conv fst snd text_ok]; [by apply same_step|].
  destruct (decide (n = 1)) as [->|]; [apply (text_step b (fun s => Record_ s _ _ _ _ _ _ _)); [cbn; tauto|done]|].
  destruct (decide (n = 2)) as [->|]; [apply (text_step b (fun s => Record_ _ s _ _ _ _ _ _)); [cbn; tauto|done]|].
  destruct (decide (n = 3)) as [->|]; [apply (text_step b (fun s => Record_ _ _ s _ _ _ _ _)); [cbn; tauto|done]|].
  destruct (decide (n = 4)) as [->|]; [apply (text_step b (fun s => Record_ _ _ _ s _ _ _ _)); [cbn; tauto|done]|].
  destruct (decide (n = 5)) as [->|]; [apply (text_step b (fun s => Record_ _ _ _ _ s _ _ _)); [cbn; tauto|done]|].
  destruct (decide (n = 6)) as [->|]; [apply (text_step b (fun s => Record_ _ _ _ _ _ s _ _)); [cbn; tauto|done]|].
  destruct (decide (n = 7)) as [->|]; [apply (text_step b (fun s => Record_ _ _ _ _ _ _ s _)); [cbn; tauto|done]|].
  destruct (decide (n = 8)) as [->|]; [apply (text_step b (fun s => Record_ _ _ _ _ _ _ _ s)); [cbn; tauto|done]|].
  destruct (Z.eqb_spec n 1), (Z.eqb_spec n 2), (Z.eqb_spec n 3), (Z.eqb_spec n 4), (Z.eqb_spec n 5), (Z.eqb_spec n 6), (Z.eqb_spec n 7), (Z.eqb_spec n 8); try done.
  match goal with |- record_field ?r0 n (WBytes b) = _ <-> _ => replace (record_field r0 n (WBytes b)) with (Some r0) end.
  - apply same_step; [intros Hin; cbn in Hin; lia|done].
  - unfold record_field. destruct n as [|p|p]; try done. do 4 (destruct p as [p|p|]; try lia; try done).
Qed.

Lemma record_reads : reads_by record_field record_read.
Proof.
  apply (by_val record_field (text_ok [1; 2; 3; 4; 5; 6; 7; 8])
    (fun fs => Record_ (last_text 1 fs) (last_text 2 fs) (last_text 3 fs) (last_text 4 fs) (last_text 5 fs) (last_text 6 fs) (last_text 7 fs) (last_text 8 fs))).
  - plain_by.
  - apply record_step.
  - intros fs a. unfold record_read. by rewrite texts_ok_forall.
Qed.
Lemma record_det gs a a' : record_read gs a -> record_read gs a' -> a = a'.
Proof. by intros [_ ->] [_ ->]. Qed.
Lemma record_zero : record_read [] record0.
Proof. by split; [intros ? ? []|]. Qed.

Lemma status_step fs x s :
  status_field (StatusBody (last_int 1 fs) (map string_of (blobs 2 fs))) (conv x).1 (conv x).2 = Some s <->
  text_ok [2] x /\ s = StatusBody (last_int 1 (fs ++ [x])) (map string_of (blobs 2 (fs ++ [x]))).
Proof.
  rewrite last_int_snoc, blobs_snoc, map_app. destruct x as [n [z|b]]; cbn [conv fst snd text_ok].
  - cbn [map]. rewrite app_nil_r. destruct (decide (n = 1)) as [->|]; [by apply same_step|]. destruct (Z.eqb_spec n 1); [done|].
    match goal with |- status_field ?r0 n (WVarint z) = _ <-> _ => replace (status_field r0 n (WVarint z)) with (Some r0) end.
    + by apply same_step.
    + unfold status_field. destruct n as [|p|p]; try done. do 2 (destruct p as [p|p|]; try lia; try done).
  - destruct (decide (n = 2)) as [->|].
    + apply (text_step b (fun t => StatusBody _ (_ ++ [t]))); [cbn; tauto|done].
    + destruct (Z.eqb_spec n 2); [done|]. cbn [map]. rewrite app_nil_r.
      match goal with |- status_field ?r0 n (WBytes b) = _ <-> _ => replace (status_field r0 n (WBytes b)) with (Some r0) end.
      * apply same_step; [intros Hin; cbn in Hin; lia|done].
      * unfold status_field. destruct n as [|p|p]; try done. do 2 (destruct p as [p|p|]; try lia; try done).
Qed.

Lemma status_reads : reads_by status_field status_read.
Proof.
  apply (by_val status_field (text_ok [2]) (fun fs => StatusBody (last_int 1 fs) (map string_of (blobs 2 fs)))).
  - plain_by.
  - apply status_step.
  - intros fs a. unfold status_read. by rewrite texts_ok_forall.
Qed.
Lemma status_det gs a a' : status_read gs a -> status_read gs a' -> a = a'.
Proof. by intros [_ ->] [_ ->]. Qed.
Lemma status_zero : status_read [] status_body0.
Proof. by split; [intros ? ? []|]. Qed.

Lemma dmsg_step fs x m :
  dmsg_field (DMsg (last_int 1 fs) (last_text 2 fs) (last_text 3 fs) (last_int 4 fs) (last_blob 5 fs)) (conv x).1 (conv x).2 = Some m <->
  text_ok [2; 3] x /\
  m = DMsg (last_int 1 (fs ++ [x])) (last_text 2 (fs ++ [x])) (last_text 3 (fs ++ [x])) (last_int 4 (fs ++ [x])) (last_blob 5 (fs ++ [x])).
Proof.
  unfold last_text. rewrite !last_int_snoc, !last_blob_snoc. destruct x as [n [z|b]]; cbn [conv fst snd text_ok].
  - destruct (decide (n = 1)) as [->|]; [by apply same_step|]. destruct (decide (n = 4)) as [->|]; [by apply same_step|].
    destruct (Z.eqb_spec n 1), (Z.eqb_spec n 4); try done.
    match goal with |- dmsg_field ?r0 n (WVarint z) = _ <-> _ => replace (dmsg_field r0 n (WVarint z)) with (Some r0) end.
    + by apply same_step.
    + unfold dmsg_field. destruct n as [|p|p]; try done. do 3 (destruct p as [p|p|]; try lia; try done).
  - destruct (decide (n = 2)) as [->|]; [apply (text_step b (fun s => DMsg _ s _ _ _)); [cbn; tauto|done]|].
    destruct (decide (n = 3)) as [->|]; [apply (text_step b (fun s => DMsg _ _ s _ _)); [cbn; tauto|done]|].
    destruct (decide (n = 5)) as [->|]; [apply same_step; [intros Hin; cbn in Hin; lia|done]|].
    destruct (Z.eqb_spec n 2), (Z.eqb_spec n 3), (Z.eqb_spec n 5); try done.
    match goal with |- dmsg_field ?r0 n (WBytes b) = _ <-> _ => replace (dmsg_field r0 n (WBytes b)) with (Some r0) end.
    + apply same_step; [intros Hin; cbn in Hin; lia|done].
    + unfold dmsg_field. destruct n as [|p|p]; try done. do 3 (destruct p as [p|p|]; try lia; try done).
Qed.

Lemma dmsg_reads : reads_by dmsg_field dmsg_read.
Proof.
  apply (by_val dmsg_field (text_ok [2; 3])
    (fun fs => DMsg (last_int 1 fs) (last_text 2 fs) (last_text 3 fs) (last_int 4 fs) (last_blob 5 fs))).
  - plain_by.
  - apply dmsg_step.
  - intros fs a. unfold dmsg_read. by rewrite texts_ok_forall.
Qed.
Lemma dmsg_det gs a a' : dmsg_read gs a -> dmsg_read gs a' -> a = a'.
Proof. by intros [_ ->] [_ ->]. Qed.
Lemma dmsg_zero : dmsg_read [] dmsg0.
Proof. by split; [intros ? ? []|]. Qed.

Lemma fold_choice {A} (f : A -> Z -> wval -> option A) lo hi a fs :
  (forall a x, choice lo hi [x] = [] -> f a (conv x).1 (conv x).2 = Some a) ->
  fold_fields f a (map conv fs) = fold_fields f a (map conv (choice lo hi fs)).
Proof.
  intros Hf. revert a. induction fs as [|x fs IH]; intros a; [done|].
  specialize (Hf a x). cbn [map fold_fields choice List.filter] in *. destruct (conv x) as [n v] eqn:E. cbn [fst snd] in *.
  destruct (match x with (_, Num _) => false | (n0, Blob _) => (lo <=? n0) && (n0 <=? hi) end).
  - cbn [map fold_fields]. rewrite E. destruct (f a n v); [apply IH|done].
  - rewrite Hf by done. apply IH.
Qed.

Lemma choice_none lo hi n b : choice lo hi [(n, Blob b)] = [] -> n < lo \/ hi < n.
Proof. unfold choice. cbn [List.filter]. destruct (Z.leb_spec lo n), (Z.leb_spec n hi); cbn [andb]; done || lia. Qed.

Lemma message_read_prefix {A} (f : A -> Z -> wval -> option A) R cs c o :
  reads_by f R -> message_read R (cs ++ [c]) o -> exists o', message_read R cs o'.
Proof.
  intros Hr H. destruct cs as [|c' cs]; [by exists None|]. destruct o as [a|]; cbn [app message_read] in H; [|done].
  destruct H as (fss & Hf & Ha). rewrite app_comm_cons in Hf. apply Forall2_app_inv_r in Hf as (f1 & f2 & Hf1 & Hf2 & ->). rewrite concat_app in Ha.
  apply (prefix_R f) in Ha as [a' Ha]; [|done]. exists (Some a'). by exists f1.
Qed.

(** A field with a message is the only one that counts. *)
Lemma message_reads {A} (g : option A -> Z -> wval -> option (option A)) (f : A -> Z -> wval -> option A) (zero : A) R n :
  reads_by f R -> (forall gs a a', R gs a -> R gs a' -> a = a') -> R [] zero -> plain g ->
  (forall o m v, g o m v = match v with WBytes b => if m =? n then merge_message f zero o b else Some o | _ => Some o end) ->
  reads_by g (fun gs => message_read R (blobs n gs)).
Proof.
  intros Hr Hd Hz Hp Hg. split; [done|]. split.
  - intros gs x o o' Ho. rewrite blobs_snoc, Hg. destruct x as [m [z|b]]; cbn [conv fst snd].
    + rewrite app_nil_r. split; [by intros [= <-]|]. intros Ho'. f_equal. by eapply message_read_det.
    + destruct (m =? n); [by apply merge_read|]. rewrite app_nil_r. split; [by intros [= <-]|]. intros Ho'. f_equal. by eapply message_read_det.
  - intros gs x o' Ho. rewrite blobs_snoc in Ho. destruct x as [m [z|b]]; [rewrite app_nil_r in Ho; by exists o'|].
    destruct (m =? n); [by eapply message_read_prefix|]. rewrite app_nil_r in Ho. by exists o'.
Qed.

Lemma opt_record_reads : reads_by (opt_record_field 1) (fun gs => message_read record_read (blobs 1 gs)).
Proof.
  apply (message_reads _ record_field record0); [exact record_reads|exact record_det|exact record_zero| |done].
  intros a n v [-> | [-> | ->] ]; done.
Qed.

Lemma opt_status_reads : reads_by status_performative_field (fun gs => message_read status_read (blobs 1 gs)).
Proof.
  apply (message_reads _ status_field status_body0); [exact status_reads|exact status_det|exact status_zero|plain_by|].
  intros o m v. unfold status_performative_field. destruct m as [|p|p]; [by destruct v| |by destruct v]. destruct p; by destruct v.
Qed.

Lemma request_reads : reads_by lookup_request_field (fun gs a => texts_ok [1] gs /\ a = last_text 1 gs).
Proof.
  apply (by_val lookup_request_field (text_ok [1]) (last_text 1)).
  - plain_by.
  - intros gs x b. unfold last_text. rewrite last_blob_snoc. destruct x as [n [z|c]]; cbn [conv fst snd text_ok].
    + replace (lookup_request_field _ n (WVarint z)) with (Some (string_of (last_blob 1 gs))); [by apply same_step|].
      unfold lookup_request_field. destruct n as [|p|p]; try done. by destruct p.
    + destruct (decide (n = 1)) as [->|].
      * cbn [lookup_request_field]. rewrite text_of_read. cbn [Z.eqb Pos.eqb]. split; [intros [? ->]; split; [by intros _|done]|].
        intros [H ->]. split; [by apply H; left|done].
      * destruct (Z.eqb_spec n 1); [done|].
        replace (lookup_request_field _ n (WBytes c)) with (Some (string_of (last_blob 1 gs))).
        -- apply same_step; [intros Hin; cbn in Hin; lia|done].
        -- unfold lookup_request_field. destruct n as [|p|p]; try done. by destruct p.
  - intros fs a. by rewrite texts_ok_forall.
Qed.

Lemma aea_field_unfold x n v :
  aea_envelope_field x n v =
  match v with
  | WBytes b => if n =? 1 then Some (b, x.2)
                else if n =? 2 then match merge_message record_field record0 x.2 b with Some r => Some (x.1, r) | None => None end
                else Some x
  | _ => Some x
  end.
Proof. unfold aea_envelope_field. destruct n as [|p|p]; [by destruct v| |by destruct v]. destruct p as [p|p|]; [by destruct v| |by destruct v]. destruct p; by destruct v. Qed.

Lemma aea_reads : reads_by aea_envelope_field (fun gs x => x.1 = last_blob 1 gs /\ message_read record_read (blobs 2 gs) x.2).
Proof.
  split; [|split].
  - intros a n v [-> | [-> | ->] ]; by rewrite aea_field_unfold.
  - intros gs x [e r] [e' r'] [He Hm]. cbn [fst snd] in *. subst e. rewrite aea_field_unfold, last_blob_snoc, blobs_snoc.
    assert (forall r2, message_read record_read (blobs 2 gs) r2 -> r = r2) as Hdet.
    { intros r2 H2. eapply message_read_det; [exact record_det|done|done]. }
    destruct x as [n [z|b]]; cbn [conv fst snd].
    + rewrite app_nil_r. split; [by intros [= <- <-]|]. intros [-> H]. by rewrite (Hdet r').
    + destruct (Z.eqb_spec n 1) as [->|].
      { cbn [Z.eqb Pos.eqb]. rewrite app_nil_r. split; [by intros [= <- <-]|]. intros [-> H]. by rewrite (Hdet r'). }
      destruct (Z.eqb_spec n 2) as [->|].
      * rewrite <- (merge_read record_field record0 record_read (blobs 2 gs) r b r' record_reads record_det record_zero Hm).
        destruct (merge_message record_field record0 r b) as [r2|]; [|by split; [|intros [_ ?] ] ].
        split; [by intros [= <- ->]|]. by intros [-> [= ->] ].
      * rewrite app_nil_r. split; [by intros [= <- <-]|]. intros [-> H]. by rewrite (Hdet r').
  - intros gs x [e' r'] [_ Hm]. cbn [fst snd] in Hm. rewrite blobs_snoc in Hm.
    assert (exists r, message_read record_read (blobs 2 gs) r) as [r H].
    { destruct x as [m [z|b]]; [rewrite app_nil_r in Hm; by exists r'|].
      destruct (m =? 2); [by eapply message_read_prefix; [exact record_reads|]|]. rewrite app_nil_r in Hm. by exists r'. }
    by exists (last_blob 1 gs, r).
Qed.

Definition number_of (p : acn_perf) : Z :=
  match p with PEnvelope _ _ => 5 | PLookupRequest _ => 6 | PLookupResponse _ => 7 | PRegister _ => 8 | PStatus _ => 9 end.
(** The performative held, as far as it goes on with the number. *)
Definition goes_on (m : acn) (n : Z) (gs : list (Z * fval)) : Prop :=
  (exists p, m = Some p /\ acn_read n gs p) \/ (gs = [] /\ forall p, m = Some p -> number_of p <> n).

Lemma acn_read_number n gs p : acn_read n gs p -> n = number_of p.
Proof. destruct p; cbn; tauto. Qed.

Lemma acn_read_det n gs p p' : acn_read n gs p -> acn_read n gs p' -> p = p'.
Proof.
  intros H H'. pose proof (acn_read_number _ _ _ H) as E. rewrite (acn_read_number _ _ _ H') in E.
  destruct p, p'; cbn in E; try discriminate E; cbn [acn_read] in *.
  - destruct H as (_ & -> & H), H' as (_ & -> & H'). f_equal. eapply message_read_det; [exact record_det|done|done].
  - by destruct H as (_ & _ & ->), H' as (_ & _ & ->).
  - f_equal. eapply message_read_det; [exact record_det|apply H|apply H'].
  - f_equal. eapply message_read_det; [exact record_det|apply H|apply H'].
  - f_equal. eapply message_read_det; [exact status_det|apply H|apply H'].
Qed.

Lemma perf_step {A} (f : A -> Z -> wval -> option A) R (mk : A -> acn_perf) n gs a b m' :
  reads_by f R -> (forall gs a a', R gs a -> R gs a' -> a = a') -> R gs a ->
  (forall gs p, acn_read n gs p <-> exists a, p = mk a /\ R gs a) ->
  match decode_into f a b with Some a => Some (Some (mk a)) | None => None end = Some m' <->
  exists hs p, fields_form hs b /\ acn_read n (gs ++ hs) p /\ m' = Some p.
Proof.
  intros Hr Hd Ha Hp. pose proof (decode_R f R gs a b) as Hc. split.
  - destruct (decode_into f a b) as [a'|] eqn:E; [|done]. intros [= <-]. apply (decode_R f R gs) in E as (hs & Hf & H'); [|done..].
    exists hs, (mk a'). split; [done|]. split; [|done]. apply Hp. by exists a'.
  - intros (hs & p & Hf & H' & ->). apply Hp in H' as (a' & -> & H'). rewrite (proj2 (Hc a' Hr Hd Ha)); [done|]. by exists hs.
Qed.

Lemma acn_step m n gs b m' :
  5 <= n <= 9 -> goes_on m n gs ->
  acn_field m n (WBytes b) = Some m' <-> exists hs p, fields_form hs b /\ acn_read n (gs ++ hs) p /\ m' = Some p.
Proof.
  intros Hn Hg. assert (n = 5 \/ n = 6 \/ n = 7 \/ n = 8 \/ n = 9) as Hc by lia. clear Hn.
  destruct Hc as [-> | [-> | [-> | [-> | ->] ] ] ]; cbn [acn_field].
  - rewrite <- (perf_step aea_envelope_field (fun gs x => x.1 = last_blob 1 gs /\ message_read record_read (blobs 2 gs) x.2) (fun x => PEnvelope x.1 x.2) 5 gs
      (match m with Some (PEnvelope e r) => (e, r) | _ => ([], None) end) b m').
    + destruct (decode_into aea_envelope_field _ b) as [[e r]|]; done.
    + exact aea_reads.
    + intros fs [e r] [e' r'] [H1 H2] [H3 H4]. cbn [fst snd] in *. subst. f_equal. eapply message_read_det; [exact record_det|done|done].
    + destruct Hg as [(p & -> & Hp)|[-> Hm]].
      * destruct p; cbn [acn_read] in Hp; destruct Hp as [E Hp]; try discriminate E. done.
      * destruct m as [p|]; [|done]. destruct p; try done. by destruct (Hm _ eq_refl).
    + intros fs p. split; [destruct p as [e r| | | |]; cbn [acn_read]; intros [E H]; try discriminate E; by exists (e, r)|].
      intros ([e r] & -> & H). by split.
  - apply (perf_step lookup_request_field (fun gs a => texts_ok [1] gs /\ a = last_text 1 gs) PLookupRequest 6 gs).
    + exact request_reads.
    + by intros fs a a' [_ ->] [_ ->].
    + destruct Hg as [(p & -> & Hp)|[-> Hm] ].
      * destruct p; cbn [acn_read] in Hp; destruct Hp as [E Hp]; try discriminate E. exact Hp.
      * assert ((fun gs a => texts_ok [1] gs /\ a = last_text 1 gs) [] "") as Hz by (by split; [intros ? ? []|]).
        destruct m as [p|]; [|done]. destruct p; try done. by destruct (Hm _ eq_refl).
    + intros fs p. split; [destruct p; cbn [acn_read]; intros [E H]; try discriminate E; by eexists|].
      intros (a & -> & H). by split.
  - apply (perf_step (opt_record_field 1) (fun gs => message_read record_read (blobs 1 gs)) PLookupResponse 7 gs).
    + exact opt_record_reads.
    + intros fs a a'. apply message_read_det. exact record_det.
    + destruct Hg as [(p & -> & Hp)|[-> Hm] ].
      * destruct p; cbn [acn_read] in Hp; destruct Hp as [E Hp]; try discriminate E. exact Hp.
      * assert ((fun gs => message_read record_read (blobs 1 gs)) [] None) as Hz by (done).
        destruct m as [p|]; [|done]. destruct p; try done. by destruct (Hm _ eq_refl).
    + intros fs p. split; [destruct p; cbn [acn_read]; intros [E H]; try discriminate E; by eexists|].
      intros (a & -> & H). by split.
  - apply (perf_step (opt_record_field 1) (fun gs => message_read record_read (blobs 1 gs)) PRegister 8 gs).
    + exact opt_record_reads.
    + intros fs a a'. apply message_read_det. exact record_det.
    + destruct Hg as [(p & -> & Hp)|[-> Hm] ].
      * destruct p; cbn [acn_read] in Hp; destruct Hp as [E Hp]; try discriminate E. exact Hp.
      * assert ((fun gs => message_read record_read (blobs 1 gs)) [] None) as Hz by (done).
        destruct m as [p|]; [|done]. destruct p; try done. by destruct (Hm _ eq_refl).
    + intros fs p. split; [destruct p; cbn [acn_read]; intros [E H]; try discriminate E; by eexists|].
      intros (a & -> & H). by split.
  - apply (perf_step status_performative_field (fun gs => message_read status_read (blobs 1 gs)) PStatus 9 gs).
    + exact opt_status_reads.
    + intros fs a a'. apply message_read_det. exact status_det.
    + destruct Hg as [(p & -> & Hp)|[-> Hm] ].
      * destruct p; cbn [acn_read] in Hp; destruct Hp as [E Hp]; try discriminate E. exact Hp.
      * assert ((fun gs => message_read status_read (blobs 1 gs)) [] None) as Hz by (done).
        destruct m as [p|]; [|done]. destruct p; try done. by destruct (Hm _ eq_refl).
    + intros fs p. split; [destruct p; cbn [acn_read]; intros [E H]; try discriminate E; by eexists|].
      intros (a & -> & H). by split.
Qed.

Lemma acn_other m x : choice 5 9 [x] = [] -> acn_field m (conv x).1 (conv x).2 = Some m.
Proof.
  destruct x as [n [z|b]]; intros Hc; cbn [conv fst snd]; unfold acn_field.
  - destruct n as [|p|p]; try done. do 4 (destruct p as [p|p|]; try done).
  - apply choice_none in Hc. destruct n as [|p|p]; try done. do 4 (destruct p as [p|p|]; try done; try lia).
Qed.

Lemma message_other struct_ok s x : choice 1 2 [x] = [] -> message_field struct_ok s (conv x).1 (conv x).2 = Some s.
Proof.
  destruct x as [n [z|b]]; intros Hc; cbn [conv fst snd]; unfold message_field.
  - destruct n as [|p|p]; try done. do 2 (destruct p as [p|p|]; try done).
  - apply choice_none in Hc. destruct n as [|p|p]; try done. do 2 (destruct p as [p|p|]; try done; try lia).
Qed.

Lemma choice_forall lo hi fs : Forall (fun x => lo <= x.1 <= hi /\ exists b, x.2 = Blob b) (choice lo hi fs).
Proof.
  apply List.Forall_forall. intros x Hin. apply filter_In in Hin as [_ H]. destruct x as [n [z|b]]; [done|].
  apply andb_true_iff in H. rewrite !Z.leb_le in H. split; [done|]. by exists b.
Qed.

Lemma acn_reads_state cs o : acn_reads cs o -> match o with Some (n, gs, p) => acn_read n gs p | None => cs = [] end.
Proof. by destruct 1. Qed.

Lemma acn_fold cs m :
  Forall (fun x => 5 <= x.1 <= 9 /\ exists b, x.2 = Blob b) cs ->
  fold_fields acn_field None (map conv cs) = Some m <-> exists o, acn_reads cs o /\ m = snd <$> o.
Proof.
  revert m. induction cs as [|x cs IH] using rev_ind; intros m Hc.
  - cbn. split; [intros [= <-]; exists None; by split; [constructor|]|]. intros (o & H & ->). apply acn_reads_state in H as H'. destruct o as [[[n gs] p]|]; [|done].
    inversion H as [|? ? ? ? ? ? ? ? ? ? E|? ? ? ? ? ? ? ? ? ? E]; by destruct cs.
  - apply Forall_app in Hc as [Hc Hx]. apply Forall_inv in Hx. destruct x as [n v]. cbn [fst snd] in Hx. destruct Hx as (Hn & b & ->).
    rewrite map_app, fold_app. cbn [map conv fst snd fold_fields]. split.
    + destruct (fold_fields acn_field None (map conv cs)) as [m0|] eqn:E; [|done]. destruct (proj1 (IH m0 Hc) eq_refl) as (o & Ho & ->). clear IH.
      intros H. destruct (acn_field (snd <$> o) n (WBytes b)) as [m1|] eqn:E1; [|done]. injection H as ->.
      destruct o as [[[n0 gs] p]|].
      * pose proof (acn_reads_state _ _ Ho) as Hp. cbn in Hp. destruct (decide (n0 = n)) as [->|Hne].
        -- apply (acn_step _ n gs) in E1 as (hs & p' & Hf & Hr & ->); [|done|left; by exists p].
           exists (Some (n, gs ++ hs, p')). by split; [eapply acn_more|].
        -- apply (acn_step _ n []) in E1 as (hs & p' & Hf & Hr & ->); [|done|right; split; [done|]].
           ++ exists (Some (n, hs, p')). split; [|done]. eapply acn_new; [done| |done|done]. by intros x [= <-].
           ++ intros q [= <-]. by rewrite <- (acn_read_number _ _ _ Hp).
      * apply (acn_step _ n []) in E1 as (hs & p' & Hf & Hr & ->); [|done|by right].
        exists (Some (n, hs, p')). split; [|done]. by eapply acn_new.
    + intros (o & H & ->). inversion H as [E|cs' o' n' b' gs p Ho Hne Hf Hr E|cs' n' gs p b' hs p' Ho Hf Hr E]; subst.
      * by destruct cs.
      * apply app_inj_tail in E as [-> [= -> ->] ]. rewrite (proj2 (IH (snd <$> o') Hc)) by (by exists o').
        assert (acn_field (snd <$> o') n (WBytes b) = Some (Some p)) as ->; [|done].
        apply (acn_step _ n []); [done| |by exists gs, p]. right. split; [done|]. intros q Hq. destruct o' as [[[n0 gs0] p0]|]; [|done].
        injection Hq as ->. pose proof (acn_reads_state _ _ Ho) as Hp. cbn in Hp. rewrite <- (acn_read_number _ _ _ Hp). exact (Hne _ eq_refl).
      * apply app_inj_tail in E as [-> [= -> ->] ]. rewrite (proj2 (IH (Some p) Hc)) by (by exists (Some (n, gs, p))).
        assert (acn_field (Some p) n (WBytes b) = Some (Some p')) as ->; [|done].
        apply (acn_step _ n gs); [done| |by exists hs, p']. left. exists p. split; [done|]. exact (acn_reads_state _ _ Ho).
Qed.

Lemma acn_plain : plain acn_field.
Proof. intros a n v [-> | [-> | ->] ]; unfold acn_field; destruct n as [|p|p]; try done; do 4 (destruct p as [p|p|]; try done). Qed.

Lemma message_plain struct_ok : plain (message_field struct_ok).
Proof. intros a n v [-> | [-> | ->] ]; unfold message_field; destruct n as [|p|p]; try done; do 2 (destruct p as [p|p|]; try done). Qed.

(** Without a body only dialogue messages count. *)
Definition held (o : option dmsg) : msg_state := match o with Some m => MDialogue m | None => MNone end.
Definition dialogue_field (o : option dmsg) (n : Z) (v : wval) : option (option dmsg) :=
  match v with WBytes b => if n =? 2 then merge_message dmsg_field dmsg0 o b else Some o | _ => Some o end.

Lemma dialogue_reads : reads_by dialogue_field (fun gs => message_read dmsg_read (blobs 2 gs)).
Proof.
  apply (message_reads _ dmsg_field dmsg0); [exact dmsg_reads|exact dmsg_det|exact dmsg_zero| |done].
  intros a n v [-> | [-> | ->] ]; done.
Qed.

Lemma message_fold struct_ok fs o :
  blobs 1 fs = [] ->
  fold_fields (message_field struct_ok) (held o) (map conv fs) = held <$> fold_fields dialogue_field o (map conv fs).
Proof.
  revert o. induction fs as [|x fs IH]; intros o Hb; [done|].
  assert (blobs 1 fs = [] /\ message_field struct_ok (held o) (conv x).1 (conv x).2 = held <$> dialogue_field o (conv x).1 (conv x).2) as [Hb' Hs].
  { unfold blobs in Hb. cbn [omap list_omap] in Hb. destruct x as [m [z|b]]; cbn [conv fst snd dialogue_field].
    - split; [done|]. by rewrite (message_other struct_ok _ (m, Num z)).
    - destruct (Z.eqb_spec m 1); [done|]. split; [done|]. destruct (Z.eqb_spec m 2) as [->|].
      + cbn [message_field]. unfold merge_message. destruct o as [d|]; cbn [held or_else].
        * by destruct (decode_into dmsg_field d b).
        * by destruct (decode_into dmsg_field dmsg0 b).
      + rewrite (message_other struct_ok _ (m, Blob b)); [done|].
        unfold choice. cbn [List.filter]. destruct (Z.leb_spec 1 m), (Z.leb_spec m 2); cbn [andb]; done || lia. }
  cbn [map fold_fields]. destruct (conv x) as [n v]. cbn [fst snd] in Hs. rewrite Hs. destruct (dialogue_field o n v) as [o'|]; [|done]. by apply IH.
Qed.

Lemma read_number_put z : 0 <= z < 2 ^ 64 -> read_number z (put_varint z).
Proof.
  intros Hz. pose proof (get_put_varint z [] Hz) as E. apply get_varint_iff in E as (b & Hb & E). rewrite !app_nil_r in E. by rewrite E.
Qed.

Lemma encode_parts_when ps : (exists out, encode_parts ps = Some out) <-> Forall is_Some ps.
Proof.
  unfold encode_parts. transitivity (is_Some (w_all ps)); [destruct (w_all ps); split; intros [? ?]; done || by eexists|].
  induction ps as [|[fs|] ps IH]; cbn [w_all].
  - split; [by constructor|by eexists].
  - rewrite Forall_cons, <- IH. destruct (w_all ps); split; [|by eexists| |]; [intros _; split; by eexists|by intros []|by intros [_ []]].
  - rewrite Forall_cons. split; [by intros []|by intros [[] _]].
Qed.

Lemma w_string_when n s : is_Some (w_string n s) <-> is_text (bytes_of s).
Proof.
  unfold w_string. destruct (String.eqb_spec s "") as [->|].
  - split; [intros _; by exists []|by eexists].
  - rewrite <- utf8_valid_text. unfold valid_text. destruct (utf8_valid (bytes_of s)); split; done || by eexists || by intros [].
Qed.

Lemma w_bytes_when n b : is_Some (w_bytes n b).
Proof. destruct b; by eexists. Qed.

Lemma fields_form_of fs :
  Forall (fun x => 1 <= x.1 < 2 ^ 29 /\ match x.2 with Num z => 0 <= z < 2 ^ 64 | Blob b => Z.of_nat (length b) < 2 ^ 64 end) fs ->
  fields_form fs (put_fields (map conv fs)).
Proof.
  induction 1 as [|[n [z|b]] fs [Hn Hv] Hf IH]; [constructor| |]; unfold put_fields in *; cbn [map concat]; unfold conv at 1, put_field at 1; cbn [fst snd] in *;
    rewrite <- !app_assoc; constructor; try done; try (apply read_number_put; lia); (split; [lia|]); (split; [lia|]).
  - replace (8 * n + 0) with (8 * n) by lia. apply read_number_put. lia.
  - apply read_number_put. lia.
Qed.

(** ** C90 *)

(** What counts as text: the UTF-8 form of a sequence of Unicode scalar values, and nothing else. *)
Theorem C90_text b : utf8_valid b = true <-> is_text b.
Proof. exact (utf8_valid_text b). Qed.

(** When an envelope and an agent record can be written at all. *)
Theorem C90_written_when :
  (forall e, (exists out, encode_envelope e = Some out) <->
     Forall (fun s => is_text (bytes_of s)) [e_to e; e_sender e; e_protocol e; e_uri e]) /\
  (forall r, (exists out, encode_record r = Some out) <->
     Forall (fun s => is_text (bytes_of s))
       [r_service r; r_ledger r; r_address r; r_public_key r; r_peer_key r; r_signature r; r_not_before r; r_not_after r]).
Proof.
  split; intros x; [unfold encode_envelope|unfold encode_record]; rewrite encode_parts_when, !Forall_cons, !w_string_when, !Forall_nil; [|done].
  pose proof (w_bytes_when 4 (e_message x)). tauto.
Qed.

(** What is written, byte by byte. *)
Theorem C90_written :
  (forall e out, encode_envelope e = Some out -> Z.of_nat (length out) < 2 ^ 63 -> envelope_form e out) /\
  (forall r out, encode_record r = Some out -> Z.of_nat (length out) < 2 ^ 63 -> record_form r out) /\
  (forall p out, encode_acn (Some p) = Some out -> Z.of_nat (length out) < 2 ^ 63 ->
     (forall s, p = PStatus (Some s) -> - 2 ^ 31 <= sb_code s < 2 ^ 31) -> acn_form p out) /\
  (forall m out, encode_message m = Some out -> Z.of_nat (length out) < 2 ^ 63 ->
     - 2 ^ 31 <= dm_id m < 2 ^ 31 -> - 2 ^ 31 <= dm_target m < 2 ^ 31 -> message_form m out).
Proof.
  split; [exact envelope_written|]. split; [exact record_written|]. split; [exact acn_written|exact message_written].
Qed.

(** Bytes are split into fields in at most one way. *)
Theorem C90_fields fs gs out : fields_form fs out -> fields_form gs out -> fs = gs.
Proof. exact (fields_det fs gs out). Qed.

(** What is read, exactly, from all bytes: fields in any order, repeated, missing, unknown or of other types; the last one counts,
    and all texts have to be texts. *)
Theorem C90_read :
  (forall out e, decode_envelope out = Some e <-> exists fs, fields_form fs out /\ envelope_read fs e) /\
  (forall out r, decode_record out = Some r <-> exists fs, fields_form fs out /\ record_read fs r).
Proof.
  split; intros out x.
  - apply (decode_R envelope_field envelope_read [] (Envelope "" "" "" [] "")); [exact envelope_reads|exact envelope_det|]. by split; [intros ? ? []|].
  - apply (decode_R record_field record_read []); [exact record_reads|exact record_det|exact record_zero].
Qed.

(** What is read as an ACN message, exactly, from all bytes. *)
Theorem C90_acn_read out m :
  decode_acn out = Some m <-> exists fs o, fields_form fs out /\ acn_reads (choice 5 9 fs) o /\ m = snd <$> o.
Proof.
  unfold decode_acn. split.
  - intros E. destruct (decode_some _ _ _ _ E) as [fs Hf]. rewrite (decode_form _ _ fs), (fold_choice _ 5 9) in E by (apply acn_plain || apply acn_other || done).
    apply acn_fold in E as (o & Ho & ->); [|apply choice_forall]. by exists fs, o.
  - intros (fs & o & Hf & Ho & ->). rewrite (decode_form _ _ fs), (fold_choice _ 5 9) by (apply acn_plain || apply acn_other || done).
    apply acn_fold; [apply choice_forall|]. by exists o.
Qed.

(** A message without the other kind of body: its dialogue message, if any, whatever the check of that body would do. *)
Theorem C90_message_read struct_ok out m :
  (decode_message struct_ok out = Some m -> exists fs, fields_form fs out) /\
  (forall fs, fields_form fs out -> blobs 1 fs = [] -> decode_message struct_ok out = Some m <-> message_read dmsg_read (blobs 2 fs) m).
Proof.
  unfold decode_message. split.
  - destruct (decode_into (message_field struct_ok) MNone out) as [s|] eqn:E; [|done]. intros _. by apply decode_some in E.
  - intros fs Hf Hb. rewrite (decode_form _ _ fs) by (apply message_plain || done). change MNone with (held None). rewrite (message_fold struct_ok fs None Hb).
    pose proof (fold_R dialogue_field (fun gs => message_read dmsg_read (blobs 2 gs)) [] fs None m dialogue_reads I) as HR. cbn [app] in HR.
    assert (message_read dmsg_read (blobs 2 fs) m <-> message_read dmsg_read (blobs 2 fs) m /\ (fs = [] -> None = m)) as ->.
    { split; [|tauto]. intros H. split; [done|]. intros ->. by destruct m. }
    rewrite <- HR. destruct (fold_fields dialogue_field None (map conv fs)) as [[d|]|]; cbn; done.
Qed.

(** The fields 3, 1, 9 (unknown), 1 again, with numbers for the fields 2 and 300. *)
Definition shuffled : list (Z * fval) :=
  [(3, Blob (map z2b [112])); (1, Blob (map z2b [120])); (9, Blob []); (1, Blob (map z2b [98])); (2, Num 300); (2, Blob (map z2b [97]))].
Example C90_example :
  encode_envelope (Envelope "b" "a" "p" (map z2b [1; 2]) "") = Some (map z2b [10; 1; 98; 18; 1; 97; 26; 1; 112; 34; 2; 1; 2]) /\
  encode_acn (Some (PStatus (Some (StatusBody (-1) ["ok"])))) =
    Some (map z2b [74; 17; 10; 15; 8; 255; 255; 255; 255; 255; 255; 255; 255; 255; 1; 18; 2; 111; 107]) /\
  encode_message (DMsg 1 "r" "" 0 (map z2b [7])) = Some (map z2b [18; 8; 8; 1; 18; 1; 114; 42; 1; 7]) /\
  fields_form shuffled (map z2b [26; 1; 112; 10; 1; 120; 74; 0; 10; 1; 98; 16; 172; 2; 18; 1; 97]) /\
  envelope_read shuffled (Envelope "b" "a" "p" [] "") /\
  decode_envelope (map z2b [26; 1; 112; 10; 1; 120; 74; 0; 10; 1; 98; 16; 172; 2; 18; 1; 97]) = Some (Envelope "b" "a" "p" [] "") /\
  is_text (utf8 97 ++ utf8 228 ++ utf8 8364 ++ utf8 128512) /\
  utf8 8364 = map z2b [226; 130; 172] /\
  (exists gs, fields_form gs (map z2b [18; 2; 111; 107]) /\ choice 5 9 [(9, Blob (map z2b [10; 4; 18; 2; 111; 107])); (2, Num 1)] =
     [(9, Blob (map z2b [10; 4; 18; 2; 111; 107]))] /\ status_read gs (StatusBody 0 ["ok"])).
Proof.
  split; [by vm_compute|]. split; [by vm_compute|]. split; [by vm_compute|].
  split. { apply (fields_form_of shuffled). unfold shuffled. repeat apply Forall_cons_2; [..|apply Forall_nil_2]; cbn; lia. }
  split. { split; [|by vm_compute]. apply texts_ok_forall. unfold shuffled. repeat constructor; cbn [text_ok In];
    intros _; apply utf8_valid_text; by vm_compute. }
  split; [by vm_compute|].
  split. { exists [97; 228; 8364; 128512]. split; [repeat constructor; unfold scalar; lia|by vm_compute]. }
  split; [by vm_compute|].
  exists [(2, Blob (map z2b [111; 107]))].
  split. { apply (fields_form_of [(2, Blob (map z2b [111; 107]))]). apply Forall_cons_2; [cbn; lia|apply Forall_nil_2]. }
  split; [by vm_compute|]. split; [|by vm_compute].
  apply texts_ok_forall. repeat constructor. intros _. apply utf8_valid_text. by vm_compute.
Qed.

(** A group, a field of four bytes and a key in more bytes than needed; and performatives of which the last two go together. *)
Example C90_example_skipped :
  fields_form [(1, Blob (map z2b [98]))] (map z2b [59; 8; 5; 60; 53; 1; 2; 3; 4; 138; 0; 1; 98]) /\
  decode_envelope (map z2b [59; 8; 5; 60; 53; 1; 2; 3; 4; 138; 0; 1; 98]) = Some (Envelope "b" "" "" [] "") /\
  acn_reads [(6, Blob (map z2b [10; 1; 97])); (9, Blob (map z2b [10; 2; 8; 3])); (9, Blob (map z2b [10; 4; 18; 2; 111; 107]))]
    (Some (9, [(1, Blob (map z2b [8; 3])); (1, Blob (map z2b [18; 2; 111; 107]))], PStatus (Some (StatusBody 3 ["ok"])))) /\
  decode_acn (map z2b [50; 3; 10; 1; 97; 74; 4; 10; 2; 8; 3; 74; 6; 10; 4; 18; 2; 111; 107]) = Some (Some (PStatus (Some (StatusBody 3 ["ok"])))).
Proof.
  assert (forall n x, 1 <= n < 2 ^ 29 -> Z.of_nat (length x) < 2 ^ 64 -> fields_form [(n, Blob x)] (put_fields (map conv [(n, Blob x)]))) as Hone.
  { intros n x Hn Hx. apply fields_form_of. apply Forall_cons_2; [by split|apply Forall_nil_2]. }
  assert (forall z b, loose z b -> (length b <= 10)%nat -> z < 2 ^ 64 -> read_number z b) as Hr by (by split).
  assert (forall b, b2z b < 128 -> read_number (b2z b) [b]) as Hb. { intros b H. apply Hr; [by constructor|cbn; lia|lia]. }
  split.
  { apply (fields_skip 7 3 (map z2b [59]) (map z2b [8; 5; 60]) _ (map z2b [53; 1; 2; 3; 4; 138; 0; 1; 98])).
    - split; [lia|]. split; [lia|]. by apply (Hb (z2b 59)).
    - constructor. apply (group_number 7 1 (map z2b [8]) 5 (map z2b [5]) (map z2b [60])).
      + split; [lia|]. split; [lia|]. by apply (Hb (z2b 8)).
      + by apply (Hb (z2b 5)).
      + constructor. split; [lia|]. split; [lia|]. by apply (Hb (z2b 60)).
    - apply (fields_skip 6 5 (map z2b [53]) (map z2b [1; 2; 3; 4]) _ (map z2b [138; 0; 1; 98])).
      + split; [lia|]. split; [lia|]. by apply (Hb (z2b 53)).
      + by constructor.
      + apply (fields_blob 1 (map z2b [98]) (map z2b [138; 0]) (map z2b [1]) [] []); [|by apply (Hb (z2b 1))|constructor].
        split; [lia|]. split; [lia|]. apply Hr; [|cbn; lia|lia].
        apply (loose_more (z2b 138) 0 [z2b 0]); [by vm_compute|]. by apply (loose_last (z2b 0)). }
  split; [by vm_compute|]. split; [|by vm_compute].
  apply (acn_more [(6, Blob (map z2b [10; 1; 97])); (9, Blob (map z2b [10; 2; 8; 3]))] 9 [(1, Blob (map z2b [8; 3]))] (PStatus (Some (StatusBody 3 [])))
    _ [(1, Blob (map z2b [18; 2; 111; 107]))]).
  - apply (acn_new [(6, Blob (map z2b [10; 1; 97]))] (Some (6, [(1, Blob (map z2b [97]))], PLookupRequest "a"))).
    + apply (acn_new [] None); [constructor|done|by apply (Hone 1)|]. split; [done|]. split; [|done].
      apply texts_ok_forall. repeat constructor. intros _. apply utf8_valid_text. by vm_compute.
    + by intros x [= <-].
    + by apply (Hone 1).
    + split; [done|]. exists [ [(1, Num 3)] ]. split; [|by split; [intros ? ? [ [=] |[] ]|] ]. constructor; [|constructor].
      apply (fields_form_of [(1, Num 3)]). apply Forall_cons_2; [cbn; lia|apply Forall_nil_2].
  - by apply (Hone 1).
  - split; [done|]. exists [ [(1, Num 3)]; [(2, Blob (map z2b [111; 107]))] ]. split.
    + constructor; [|constructor; [by apply (Hone 2)|constructor] ].
      apply (fields_form_of [(1, Num 3)]). apply Forall_cons_2; [cbn; lia|apply Forall_nil_2].
    + split; [|by vm_compute]. apply texts_ok_forall. repeat constructor. intros _. apply utf8_valid_text. by vm_compute.
Qed.

Print Assumptions C90_text.
Print Assumptions C90_written_when.
Print Assumptions C90_written.
Print Assumptions C90_fields.
Print Assumptions C90_read.
Print Assumptions C90_acn_read.
Print Assumptions C90_message_read.
