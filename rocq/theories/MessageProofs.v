(** Lemmas about dialogue messages in envelopes. *)
From Coq Require Import ZArith NArith List String Ascii Lia.
From stdpp Require Import base tactics list strings.
From Verif Require Import GoBase Bytes Utf8 WireModel WireProofs ProtoModel ProtoProofs
  DialogueModel MessageModel.
Open Scope string_scope.
Open Scope list_scope.
Open Scope Z_scope.

Lemma wrap32_range z : - 2 ^ 31 <= wrap32 z < 2 ^ 31.
Proof. unfold wrap32. pose proof (Z.mod_pos_bound (z + 2 ^ 31) (2 ^ 32)). lia. Qed.

Lemma wrap32_cong z : wrap32 z mod 2 ^ 32 = z mod 2 ^ 32.
Proof.
  unfold wrap32. rewrite Zminus_mod, Zmod_mod, <- Zminus_mod. f_equal. lia.
Qed.

Lemma make_response_ok m pid content :
  is_ok (make_response_envelope m pid content) = true <->
  valid_text (starter_ref (m_ref m)) = true /\ valid_text (responder_ref (m_ref m)) = true.
Proof.
  unfold make_response_envelope, encode_message.
  set (d := DMsg _ _ _ _ _).
  pose proof (dmsg_none d) as Hd. unfold d in Hd at 2 3. cbn [dm_starter dm_responder] in Hd.
  destruct (encode_dmsg d); cbn [is_ok].
  - split; [|done]. intros _.
    destruct (valid_text (starter_ref _)), (valid_text (responder_ref _)); try done;
      exfalso; (assert (Some l = None) by (apply Hd; tauto)); done.
  - split; [done|]. intros [H1 H2]. destruct (proj1 Hd eq_refl); congruence.
Qed.

Lemma make_response_panic m pid content : is_panic (make_response_envelope m pid content) = false.
Proof. unfold make_response_envelope. by destruct (encode_message _). Qed.

Lemma response_read struct_ok {C} (decode_content : bytes -> option C) field_name m pid content env c :
  make_response_envelope m pid content = Ok env ->
  Z.of_nat (length (e_message env)) < 2 ^ 63 ->
  decode_content content = Some c -> field_name c <> "" ->
  read_envelope struct_ok decode_content field_name env =
    Ok (Msg (m_to m) (m_sender m) (m_ref m) (wrap32 (m_id m)) (wrap32 (m_target m)) (field_name c), c).
Proof.
  unfold make_response_envelope. intros Hm Hl Hc Hn.
  destruct (encode_message _) as [out|] eqn:E; [|done]. injection Hm as <-.
  cbn [e_message] in Hl. unfold read_envelope. cbn [e_message e_sender e_to].
  rewrite (message_roundtrip struct_ok _ _ E Hl) by apply wrap32_range.
  cbn [dm_content]. rewrite Hc. unfold get_performative.
  destruct (String.eqb_spec (field_name c) ""); [done|]. cbn [rbind].
  unfold init_from_protobuf, set_sender, set_to. cbn.
  by destruct (m_ref m).
Qed.

Lemma envelope_message_length e out :
  encode_envelope e = Some out -> (length (e_message e) <= length out)%nat.
Proof.
  intros H. apply encode_parts_some in H as (fs & Hw & <-).
  split_parts Hw. injection Hw as <-. rewrite !put_fields_app_length.
  match goal with H : w_bytes 4 (e_message e) = Some ?f |- _ =>
    assert (length (e_message e) <= length (put_fields f))%nat; [|lia];
    unfold w_bytes in H; destruct (e_message e) eqn:E;
    [simpl; lia|injection H as <-; apply put_one_length] end.
Qed.

Lemma read_envelope_spec struct_ok {C} (decode_content : bytes -> option C) field_name e :
  (forall c, decode_content [] = Some c -> field_name c = "") ->
  match read_envelope struct_ok decode_content field_name e with
  | Panic _ => False
  | Err _ =>
      forall d c, decode_message struct_ok (e_message e) = Some (Some d) ->
        decode_content (dm_content d) = Some c -> field_name c = ""
  | Ok (m, c) =>
      exists d, decode_message struct_ok (e_message e) = Some (Some d) /\
        decode_content (dm_content d) = Some c /\ field_name c <> "" /\
        m = Msg (e_to e) (e_sender e) (DRef (dm_starter d) (dm_responder d)) (dm_id d) (dm_target d)
              (field_name c)
  end.
Proof.
  intros H0. unfold read_envelope.
  destruct (decode_message struct_ok (e_message e)) as [[d|]|] eqn:Ed; [| |done].
  - destruct (decode_content (dm_content d)) as [c|] eqn:Ec.
    + unfold get_performative. destruct (String.eqb_spec (field_name c) "") as [En|En]; cbn [rbind].
      * intros d' c' [= <-] H. congruence.
      * cbn. exists d. done.
    + intros d' c' [= <-] H. congruence.
  - destruct (decode_content []) as [c|] eqn:Ec.
    + unfold get_performative. rewrite (H0 c eq_refl). cbn. done.
    + done.
Qed.
