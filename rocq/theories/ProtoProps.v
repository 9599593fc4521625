(** Properties of the binary forms (C21, C22, C23, C57). *)
From Coq Require Import ZArith NArith List String Ascii Lia.
From stdpp Require Import base tactics list strings.
From Verif Require Import GoBase Bytes Utf8 WireModel WireProofs ProtoModel ProtoProofs
  DialogueModel MessageModel MessageProofs.
Open Scope string_scope.
Open Scope list_scope.
Open Scope Z_scope.

(** ** C21 *)

(** A message put in an envelope, the envelope sent as bytes, received and read:
    everything is as it was, the numbers up to a multiple of 2^32. *)
Theorem C21_survives struct_ok {C} (decode_content : bytes -> option C) field_name
    m protocol content env wire c :
  make_response_envelope m protocol content = Ok env ->
  encode_envelope env = Some wire -> Z.of_nat (length wire) < 2 ^ 63 ->
  decode_content content = Some c -> field_name c <> "" ->
  exists env' m',
    decode_envelope wire = Some env' /\ e_protocol env' = protocol /\
    read_envelope struct_ok decode_content field_name env' = Ok (m', c) /\
    m_to m' = m_to m /\ m_sender m' = m_sender m /\ m_ref m' = m_ref m /\
    m_perf m' = field_name c /\
    (m_id m' - m_id m) mod 2 ^ 32 = 0 /\ - 2 ^ 31 <= m_id m' < 2 ^ 31 /\
    (m_target m' - m_target m) mod 2 ^ 32 = 0 /\ - 2 ^ 31 <= m_target m' < 2 ^ 31.
Proof.
  intros Hm He Hl Hc Hn. exists env. eexists. split; [by apply envelope_roundtrip|].
  assert (e_protocol env = protocol) as Hp.
  { unfold make_response_envelope in Hm. destruct (encode_message _); [|done]. by injection Hm as <-. }
  split; [done|]. split.
  { eapply response_read; try done. pose proof (envelope_message_length _ _ He). lia. }
  cbn. repeat split; try apply wrap32_range.
  all: rewrite Zminus_mod, wrap32_cong, <- Zminus_mod, Z.sub_diag; done.
Qed.
Print Assumptions C21_survives.

(** ... unchanged when they fit in 32 bits. *)
Theorem C21_unchanged struct_ok {C} (decode_content : bytes -> option C) field_name
    m protocol content env wire c :
  make_response_envelope m protocol content = Ok env ->
  encode_envelope env = Some wire -> Z.of_nat (length wire) < 2 ^ 63 ->
  decode_content content = Some c -> field_name c = m_perf m -> m_perf m <> "" ->
  - 2 ^ 31 <= m_id m < 2 ^ 31 -> - 2 ^ 31 <= m_target m < 2 ^ 31 ->
  exists env', decode_envelope wire = Some env' /\
    read_envelope struct_ok decode_content field_name env' = Ok (m, c).
Proof.
  intros Hm He Hl Hc Hn Hp Hi Ht. exists env. split; [by apply envelope_roundtrip|].
  erewrite response_read; try done.
  - rewrite !wrap32_id by done. rewrite Hn. by destruct m.
  - pose proof (envelope_message_length _ _ He). lia.
  - congruence.
Qed.
Print Assumptions C21_unchanged.

(** Making and sending the envelope fails only for text that is not UTF-8. *)
Theorem C21_only_bad_text_fails m protocol content :
  (forall s, In s [starter_ref (m_ref m); responder_ref (m_ref m); m_to m; m_sender m; protocol] ->
     valid_text s = true) <->
  exists env wire, make_response_envelope m protocol content = Ok env /\ encode_envelope env = Some wire.
Proof.
  split.
  - intros H. pose proof (proj2 (make_response_ok m protocol content)) as Hok.
    destruct (make_response_envelope m protocol content) as [env|e|e] eqn:E.
    2,3: by discriminate Hok; split; apply H; simpl; auto.
    exists env. unfold make_response_envelope in E. destruct (encode_message _); [|done].
    injection E as <-. destruct (encode_envelope _) eqn:Ee; [by eexists|]. exfalso.
    apply envelope_none in Ee as (s & Hs & Hv). cbn in Hs.
    assert (valid_text s = true); [|congruence].
    destruct Hs as [<-|[<-|[<-|[<-|[]]]]]; try done; apply H; simpl; tauto.
  - intros (env & wire & Hm & He) s Hs.
    assert (is_ok (make_response_envelope m protocol content) = true) as Hok by by rewrite Hm.
    apply make_response_ok in Hok as [H1 H2].
    destruct (valid_text s) eqn:E; [done|]. exfalso.
    simpl in Hs. destruct Hs as [<-|[<-|Hs]]; [congruence..|].
    assert (encode_envelope env = None); [|congruence]. apply envelope_none.
    exists s. split; [|done]. unfold make_response_envelope in Hm.
    destruct (encode_message _); [|done]. injection Hm as <-. cbn. tauto.
Qed.
Print Assumptions C21_only_bad_text_fails.

(** A message id outside 32 bits arrives as a different id. *)
Theorem C21_large_id_refuted :
  exists m env wire env' m',
    make_response_envelope m "p" [] = Ok env /\ encode_envelope env = Some wire /\
    decode_envelope wire = Some env' /\
    read_envelope (fun _ _ => true) (fun _ => Some tt) (fun _ => "say") env' = Ok (m', tt) /\
    m_id m = 2 ^ 32 + 1 /\ m_id m' = 1.
Proof.
  exists (Msg "bob" "alice" (DRef "a" "") (2 ^ 32 + 1) 0 "say").
  do 4 eexists. split; [vm_compute; reflexivity|]. split; [vm_compute; reflexivity|].
  split; [vm_compute; reflexivity|]. split; [vm_compute; reflexivity|]. done.
Qed.
Print Assumptions C21_large_id_refuted.

Example C21_example :
  let m := Msg "bob" "alice" (DRef "a" "b") (-3) 2 "say" in
  exists env wire,
    make_response_envelope m "fetchai/x:1.0.0" (bytes_of "hi") = Ok env /\
    encode_envelope env = Some wire /\ Z.of_nat (length wire) < 2 ^ 63 /\
    match decode_envelope wire with
    | Some env' => read_envelope (fun _ _ => true) Some (fun _ => "say") env' = Ok (m, bytes_of "hi")
    | None => False
    end.
Proof.
  eexists _, _. split; [vm_compute; reflexivity|]. split; [vm_compute; reflexivity|].
  vm_compute. done.
Qed.

(** ** C22 *)

(** A content type in which no field is set by the empty input (every protobuf
    message): reading any envelope gives a message or an error; a message has the
    envelope's sender and recipient and the numbers and reference of the dialogue
    message inside. *)
Theorem C22_no_crash struct_ok {C} (decode_content : bytes -> option C) field_name e :
  (forall c, decode_content [] = Some c -> field_name c = "") ->
  match read_envelope struct_ok decode_content field_name e with
  | Panic _ => False
  | Err _ => True
  | Ok (m, c) =>
      m_sender m = e_sender e /\ m_to m = e_to e /\ m_perf m = field_name c /\ m_perf m <> "" /\
      exists d, decode_message struct_ok (e_message e) = Some (Some d) /\
        decode_content (dm_content d) = Some c /\
        m_id m = dm_id d /\ m_target m = dm_target d /\
        m_ref m = DRef (dm_starter d) (dm_responder d)
  end.
Proof.
  intros H0. pose proof (read_envelope_spec struct_ok decode_content field_name e H0) as H.
  destruct (read_envelope _ _ _ _) as [[m c]|e'|p]; [|done|done].
  destruct H as (d & H1 & H2 & H3 & ->). cbn. repeat split; try done. by exists d.
Qed.
Print Assumptions C22_no_crash.

(** No dialogue message inside: an error. *)
Theorem C22_no_dialogue_message struct_ok {C} (decode_content : bytes -> option C) field_name e :
  (forall c, decode_content [] = Some c -> field_name c = "") ->
  decode_message struct_ok (e_message e) = Some None ->
  is_err (read_envelope struct_ok decode_content field_name e) = true.
Proof.
  intros H0 Hd. pose proof (read_envelope_spec struct_ok decode_content field_name e H0) as H.
  destruct (read_envelope _ _ _ _) as [[m c]|e'|p]; [|done|done].
  destruct H as (d & H1 & _). congruence.
Qed.
Print Assumptions C22_no_dialogue_message.

Lemma dialogue_last struct_ok fs s d :
  fold_fields (message_field struct_ok) s fs = Some (MDialogue d) ->
  (exists d0, s = MDialogue d0) /\ (forall n b, In (n, WBytes b) fs -> n <> 1) \/
  exists fs1 b fs2, fs = fs1 ++ (2, WBytes b) :: fs2 /\ forall n b', In (n, WBytes b') fs2 -> n <> 1.
Proof.
  revert s. induction fs as [|[n v] fs IH]; intros s; cbn [fold_fields].
  { intros [= ->]. left. split; [by eexists|]. intros n b []. }
  destruct (message_field struct_ok s n v) as [s'|] eqn:E; [|done].
  intros [[[d0 ->] Hn]|(fs1 & b & fs2 & -> & Hn)]%IH; [|right; exists ((n, v) :: fs1), b, fs2; done].
  assert (H : (exists b, v = WBytes b /\ n = 2) \/ (exists d1, s = MDialogue d1) /\ forall b, v = WBytes b -> n <> 1).
  { revert E. unfold message_field. destruct n as [|[p|[p|p|]|]|p]; try (intros [= ->]; right; split; [by eexists|done]).
    - destruct v; try (intros [= ->]; right; split; [by eexists|done]). intros _. left. by eexists.
    - destruct v; try (intros [= ->]; right; split; [by eexists|done]). destruct (struct_ok _ _); done. }
  destruct H as [(b & -> & ->)|[[d1 ->] Hv]].
  - right. exists [], b, fs. done.
  - left. split; [by eexists|]. intros n' b' [[= -> ->]|Hin]; [by eapply Hv|by eapply Hn].
Qed.

(** The same, by the bytes: whatever is accepted has a dialogue message (field 2) in its payload and no body (field 1) after it. *)
Theorem C22_inside struct_ok {C} (decode_content : bytes -> option C) field_name e :
  (forall c, decode_content [] = Some c -> field_name c = "") ->
  is_ok (read_envelope struct_ok decode_content field_name e) = true ->
  exists fs1 b fs2, get_fields (e_message e) = Some (fs1 ++ (2, WBytes b) :: fs2) /\ forall n b', In (n, WBytes b') fs2 -> n <> 1.
Proof.
  intros H0 Hok. pose proof (read_envelope_spec struct_ok decode_content field_name e H0) as H.
  destruct (read_envelope _ _ _ _) as [[m c]|e'|p]; [|done|done]. destruct H as (d & H1 & _).
  unfold decode_message, decode_into in H1. destruct (get_fields (e_message e)) as [fs|]; [|done].
  destruct (fold_fields _ MNone fs) as [[| |d']|] eqn:E; try done.
  apply dialogue_last in E as [[[d0 E] _]|(fs1 & b & fs2 & -> & Hn)]; [done|]. eauto.
Qed.
Print Assumptions C22_inside.

(** A dialogue message with a readable content of known kind: accepted. *)
Theorem C22_accepted struct_ok {C} (decode_content : bytes -> option C) field_name e d c :
  (forall c, decode_content [] = Some c -> field_name c = "") ->
  decode_message struct_ok (e_message e) = Some (Some d) ->
  decode_content (dm_content d) = Some c -> field_name c <> "" ->
  is_ok (read_envelope struct_ok decode_content field_name e) = true.
Proof.
  intros H0 Hd Hc Hn. pose proof (read_envelope_spec struct_ok decode_content field_name e H0) as H.
  destruct (read_envelope _ _ _ _) as [[m c']|e'|p]; [done| |done].
  by destruct Hn; apply (H d c).
Qed.
Print Assumptions C22_accepted.

(** An empty payload, and one whose body is a Struct. *)
Example C22_example :
  let dec := fun l : bytes => Some l in
  let name := fun l : bytes => match l with [] => "" | _ => "say" end in
  (forall c, dec [] = Some c -> name c = "") /\
  decode_message (fun _ _ => true) [] = Some None /\
  decode_message (fun _ _ => true) (map z2b [10; 0]) = Some None /\
  is_err (read_envelope (fun _ _ => true) dec name (Envelope "b" "a" "p" (map z2b [10; 0]) "")) = true /\
  read_envelope (fun _ _ => true) dec name
    (Envelope "b" "a" "p" (map z2b [18; 7; 8; 1; 18; 0; 42; 1; 7]) "")
    = Ok (Msg "b" "a" (DRef "" "") 1 0 "say", map z2b [7]).
Proof. cbv zeta. split; [by intros c [= <-]|]. vm_compute. done. Qed.

(** ** C23 *)

Theorem C23_envelope e :
  (encode_envelope e = None <->
   exists s, In s [e_to e; e_sender e; e_protocol e; e_uri e] /\ valid_text s = false) /\
  (forall out, encode_envelope e = Some out -> Z.of_nat (length out) < 2 ^ 63 ->
     decode_envelope out = Some e).
Proof. exact (conj (envelope_none e) (envelope_roundtrip e)). Qed.
Print Assumptions C23_envelope.

Theorem C23_record r :
  (encode_record r = None <->
   exists s, In s [r_service r; r_ledger r; r_address r; r_public_key r; r_peer_key r;
                   r_signature r; r_not_before r; r_not_after r] /\ valid_text s = false) /\
  (forall out, encode_record r = Some out -> Z.of_nat (length out) < 2 ^ 63 ->
     decode_record out = Some r).
Proof. exact (conj (record_none r) (record_roundtrip r)). Qed.
Print Assumptions C23_record.

Theorem C23_acn m :
  (encode_acn m = None <-> exists s, In s (acn_texts m) /\ valid_text s = false) /\
  (forall out, encode_acn m = Some out -> Z.of_nat (length out) < 2 ^ 63 -> acn_code_ok m ->
     decode_acn out = Some m).
Proof. exact (conj (acn_none m) (acn_roundtrip m)). Qed.
Print Assumptions C23_acn.

(** The known byte form of a few messages. *)
Example C23_example :
  encode_acn (Some (PStatus (Some (StatusBody 0 ["ok"])))) =
    Some (map z2b [74; 6; 10; 4; 18; 2; 111; 107]) /\
  encode_acn (Some (PStatus (Some (StatusBody 20 [])))) = Some (map z2b [74; 4; 10; 2; 8; 20]) /\
  encode_acn (Some (PLookupRequest "ab")) = Some (map z2b [50; 4; 10; 2; 97; 98]) /\
  decode_acn (map z2b [74; 0]) = Some (Some (PStatus None)) /\
  decode_acn (map z2b [66; 0]) = Some (Some (PRegister None)) /\
  encode_envelope (Envelope "b" "a" "p" (map z2b [1; 2]) "") =
    Some (map z2b [10; 1; 98; 18; 1; 97; 26; 1; 112; 34; 2; 1; 2]) /\
  encode_envelope (Envelope (string_of (map z2b [255])) "a" "p" [] "") = None.
Proof. vm_compute. done. Qed.

(** ** C57 *)

(** Fields a receiver does not know are ignored, in front of any input. *)
Theorem C57_unknown_fields num v l :
  1 <= num <= 2 ^ 29 - 1 ->
  (match v with WVarint z => 0 <= z < 2 ^ 64 | WBytes b => Z.of_nat (length b) < 2 ^ 64 | _ => False end) ->
  (5 < num -> decode_envelope (put_field (num, v) ++ l) = decode_envelope l) /\
  (8 < num -> decode_record (put_field (num, v) ++ l) = decode_record l) /\
  (num < 5 \/ 9 < num -> decode_acn (put_field (num, v) ++ l) = decode_acn l).
Proof.
  intros Hn Hv. split; [|split]; intros Hu; apply decode_ignored; try done; intros a; cbn [fst snd].
  - destruct v; try done. unfold envelope_field. destruct num as [|p|p]; try lia.
    do 3 (destruct p as [p|p|]; try lia; try done).
  - destruct v; try done. unfold record_field. destruct a, num as [|p|p]; try lia.
    do 4 (destruct p as [p|p|]; try lia; try done).
  - destruct v; try done; unfold acn_field; destruct num as [|p|p]; try lia;
      do 4 (destruct p as [p|p|]; try lia; try done).
Qed.
Print Assumptions C57_unknown_fields.

Example C57_example :
  decode_envelope (map z2b [48; 5; 10; 1; 98]) = Some (Envelope "b" "" "" [] "") /\
  map z2b [48; 5] = put_field (6, WVarint 5) /\
  decode_envelope (map z2b [99; 10; 0; 100; 10; 1; 98]) = Some (Envelope "b" "" "" [] "") /\
  decode_envelope (map z2b [10; 5; 98]) = None.
Proof. vm_compute. done. Qed.
