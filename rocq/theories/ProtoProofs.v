(** Round trips of the message types. *)
From Coq Require Import ZArith NArith List String Ascii Lia.
From stdpp Require Import base tactics list strings.
From Verif Require Import GoBase Bytes Utf8 WireModel WireProofs ProtoModel.
Open Scope string_scope.
Open Scope list_scope.
Open Scope Z_scope.

Ltac split_parts H :=
  repeat (apply w_all_cons in H as (? & ? & ? & H & ->)).

Ltac parts_pre :=
  repeat match goal with
    | |- Forall field_pre (_ ++ _) => apply Forall_app; split
    end;
  try match goal with
    | H : w_string _ _ = Some ?f |- Forall field_pre ?f => eapply w_string_pre; [|exact H]; lia
    | H : w_bytes _ _ = Some ?f |- Forall field_pre ?f => eapply w_bytes_pre; [|exact H]; lia
    | H : w_int32 _ _ = Some ?f |- Forall field_pre ?f => eapply w_int32_pre; [|exact H]; lia
    | H : w_strings _ _ = Some ?f |- Forall field_pre ?f => eapply w_strings_pre; [|exact H]; lia
    | H : w_message _ _ _ = Some ?f |- Forall field_pre ?f => eapply w_message_pre; [|exact H]; lia
    | |- Forall field_pre [] => constructor
    end.

(** ** Envelope *)

Lemma envelope_none e :
  encode_envelope e = None <->
  exists s, In s [e_to e; e_sender e; e_protocol e; e_uri e] /\ valid_text s = false.
Proof.
  unfold encode_envelope. rewrite encode_parts_none. rewrite !elem_of_cons, elem_of_nil.
  assert (forall n s, None = w_string n s <-> valid_text s = false) as Hw.
  { intros. rewrite <- (w_string_none n). done. }
  rewrite !Hw. assert (None = w_bytes 4 (e_message e) <-> False) as ->.
  { unfold w_bytes. by destruct (e_message e). }
  split.
  - intros [H|[H|[H|[[]|[H|[]]]]]]; (eexists; split; [|exact H]); simpl; tauto.
  - intros (s & Hs & Hv). simpl in Hs. destruct Hs as [<-|[<-|[<-|[<-|[]]]]]; tauto.
Qed.

Lemma envelope_roundtrip e out :
  encode_envelope e = Some out -> Z.of_nat (length out) < 2 ^ 63 ->
  decode_envelope out = Some e.
Proof.
  intros He Hl. apply encode_parts_some in He as (fs & Hw & Ho). pose proof Hw as Hw'.
  split_parts Hw. injection Hw as <-.
  unfold decode_envelope. erewrite decode_parts; [|exact Hw'|exact Ho|parts_pre|done].
  destruct e as [e1 e2 e3 e4 e5]. cbn [e_to e_sender e_protocol e_message e_uri] in *.
  unfold envelope0.
  erewrite (fold_w_string _ _ _ e1 _ _ (fun s => Envelope s "" "" [] "")); [|eassumption|done..].
  erewrite (fold_w_string _ _ _ e2 _ _ (fun s => Envelope e1 s "" [] "")); [|eassumption|done..].
  erewrite (fold_w_string _ _ _ e3 _ _ (fun s => Envelope e1 e2 s [] "")); [|eassumption|done..].
  erewrite (fold_w_bytes _ _ _ e4 _ _ (fun s => Envelope e1 e2 e3 s "")); [|eassumption|done..].
  erewrite (fold_w_string _ _ _ e5 _ _ (fun s => Envelope e1 e2 e3 e4 s)); [|eassumption|done..].
  done.
Qed.

(** ** Agent record *)

Definition record_texts (r : record) : list string :=
  [r_service r; r_ledger r; r_address r; r_public_key r; r_peer_key r; r_signature r;
   r_not_before r; r_not_after r].

Lemma record_none r :
  encode_record r = None <-> exists s, In s (record_texts r) /\ valid_text s = false.
Proof.
  unfold encode_record. rewrite encode_parts_none. rewrite !elem_of_cons, elem_of_nil.
  assert (forall n s, None = w_string n s <-> valid_text s = false) as Hw.
  { intros. rewrite <- (w_string_none n). done. }
  rewrite !Hw. unfold record_texts.
  split.
  - intros H.
    repeat (destruct H as [H|H]; [eexists; split; [|exact H]; simpl; tauto|]). done.
  - intros (s & Hs & Hv). simpl in Hs.
    repeat (destruct Hs as [<-|Hs]; [tauto|]). done.
Qed.

Lemma record_roundtrip r out :
  encode_record r = Some out -> Z.of_nat (length out) < 2 ^ 63 ->
  decode_record out = Some r.
Proof.
  intros He Hl. apply encode_parts_some in He as (fs & Hw & Ho). pose proof Hw as Hw'.
  split_parts Hw. injection Hw as <-.
  unfold decode_record. erewrite decode_parts; [|exact Hw'|exact Ho|parts_pre|done].
  destruct r as [a1 a2 a3 a4 a5 a6 a7 a8].
  cbn [r_service r_ledger r_address r_public_key r_peer_key r_signature r_not_before r_not_after] in *.
  unfold record0.
  erewrite (fold_w_string _ _ _ a1 _ _ (fun s => Record_ s "" "" "" "" "" "" "")); [|eassumption|done..].
  erewrite (fold_w_string _ _ _ a2 _ _ (fun s => Record_ a1 s "" "" "" "" "" "")); [|eassumption|done..].
  erewrite (fold_w_string _ _ _ a3 _ _ (fun s => Record_ a1 a2 s "" "" "" "" "")); [|eassumption|done..].
  erewrite (fold_w_string _ _ _ a4 _ _ (fun s => Record_ a1 a2 a3 s "" "" "" "")); [|eassumption|done..].
  erewrite (fold_w_string _ _ _ a5 _ _ (fun s => Record_ a1 a2 a3 a4 s "" "" "")); [|eassumption|done..].
  erewrite (fold_w_string _ _ _ a6 _ _ (fun s => Record_ a1 a2 a3 a4 a5 s "" "")); [|eassumption|done..].
  erewrite (fold_w_string _ _ _ a7 _ _ (fun s => Record_ a1 a2 a3 a4 a5 a6 s "")); [|eassumption|done..].
  erewrite (fold_w_string _ _ _ a8 _ _ (fun s => Record_ a1 a2 a3 a4 a5 a6 a7 s)); [|eassumption|done..].
  done.
Qed.

(** ** Sub-messages *)

Lemma put_one_length num b : (length b <= length (put_fields [(num, WBytes b)]))%nat.
Proof.
  unfold put_fields. cbn [map concat]. unfold put_field. cbn [fst snd].
  rewrite !app_length. lia.
Qed.

Lemma put_fields_app_length fs gs : length (put_fields (fs ++ gs)) = (length (put_fields fs) + length (put_fields gs))%nat.
Proof. unfold put_fields. by rewrite map_app, concat_app, app_length. Qed.

Lemma fold_w_message {A B} (f : B -> Z -> wval -> option B) (b0 : B)
    (enc : A -> option bytes) (dec : A -> Z -> wval -> option A) (zero : A)
    n m fs rest (set : option A -> B) :
  w_message n enc m = Some fs ->
  (forall x, f b0 n (WBytes x) =
     match merge_message dec zero None x with Some r => Some (set r) | None => None end) ->
  set None = b0 ->
  (forall a out, m = Some a -> enc a = Some out -> Z.of_nat (length out) < 2 ^ 63 ->
     decode_into dec zero out = Some a) ->
  Z.of_nat (length (put_fields fs)) < 2 ^ 63 ->
  fold_fields f b0 (fs ++ rest) = fold_fields f (set m) rest.
Proof.
  unfold w_message. intros Hw Hf Hs Hrt Hl. destruct m as [a|].
  - destruct (enc a) as [out|] eqn:E; [|done]. injection Hw as <-.
    pose proof (put_one_length n out).
    cbn [app fold_fields]. rewrite Hf. unfold merge_message. cbn [or_else].
    rewrite (Hrt a out) by (done || lia). done.
  - injection Hw as <-. by rewrite Hs.
Qed.

Lemma status_roundtrip s out :
  encode_status_body s = Some out -> Z.of_nat (length out) < 2 ^ 63 ->
  - 2 ^ 31 <= sb_code s < 2 ^ 31 ->
  decode_into status_field status_body0 out = Some s.
Proof.
  intros He Hl Hc. apply encode_parts_some in He as (fs & Hw & Ho). pose proof Hw as Hw'.
  split_parts Hw. injection Hw as <-.
  erewrite decode_parts; [|exact Hw'|exact Ho|parts_pre|done].
  destruct s as [c ms]. cbn [sb_code sb_msgs] in *. unfold status_body0.
  erewrite (fold_w_int32 _ _ _ c _ _ (fun s => StatusBody s [])); [|eassumption|done..].
  erewrite (fold_w_strings _ _ _ ms _ _ (fun s t => StatusBody (sb_code s) (sb_msgs s ++ [t])));
    [|eassumption|done].
  cbn [fold_fields]. f_equal.
  assert (forall acc, fold_left (fun s t => StatusBody (sb_code s) (sb_msgs s ++ [t])) ms (StatusBody c acc)
                      = StatusBody c (acc ++ ms)) as ->; [|done].
  clear. induction ms as [|m ms IH]; intros acc; cbn [fold_left]; [by rewrite app_nil_r|].
  cbn [sb_code sb_msgs]. rewrite IH. by rewrite <- app_assoc.
Qed.

(** The text fields of an ACN message. *)
Definition opt_texts (r : option record) : list string :=
  match r with Some r => record_texts r | None => [] end.

Definition acn_texts (m : acn) : list string :=
  match m with
  | Some (PEnvelope _ r) | Some (PLookupResponse r) | Some (PRegister r) => opt_texts r
  | Some (PLookupRequest a) => [a]
  | Some (PStatus (Some b)) => sb_msgs b
  | _ => []
  end.

Definition acn_code_ok (m : acn) : Prop :=
  match m with Some (PStatus (Some b)) => - 2 ^ 31 <= sb_code b < 2 ^ 31 | _ => True end.

Lemma w_message_none {A} n (enc : A -> option bytes) m :
  w_message n enc m = None <-> exists a, m = Some a /\ enc a = None.
Proof.
  unfold w_message. destruct m as [a|].
  - destruct (enc a) eqn:E; split; intros H; try done; [|by exists a].
    destruct H as (a' & [= <-] & H). congruence.
  - split; [done|]. by intros (? & ? & _).
Qed.

Lemma opt_record_none n r :
  w_message n encode_record r = None <-> exists s, In s (opt_texts r) /\ valid_text s = false.
Proof.
  rewrite w_message_none. destruct r as [r|]; cbn [opt_texts].
  - rewrite <- record_none. split; [intros (? & [= <-] & ?); done|intros; by exists r].
  - split; [by intros (? & ? & _)|by intros (? & [] & _)].
Qed.

Lemma acn_none m :
  encode_acn m = None <-> exists s, In s (acn_texts m) /\ valid_text s = false.
Proof.
  destruct m as [p|]; [|split; [done|by intros (? & [] & _)]].
  unfold encode_acn.
  destruct p as [env rec|a|rec|rec|body]; cbn [encode_performative acn_texts].
  - rewrite <- (opt_record_none 2).
    destruct (encode_parts _) eqn:E.
    + split; [done|]. intros H. assert (encode_parts [w_bytes 1 env; w_message 2 encode_record rec] = None); [|congruence].
      apply encode_parts_none. rewrite H. rewrite !elem_of_cons; tauto.
    + split; [|done]. intros _. apply encode_parts_none in E.
      rewrite !elem_of_cons, elem_of_nil in E. destruct E as [E|[E|[]]]; [|done].
      unfold w_bytes in E. by destruct env.
  - unfold encode_parts. cbn [w_all].
    destruct (w_string 1 a) eqn:E.
    + split; [done|]. intros (s & [<-|[]] & Hv). apply (w_string_none 1) in Hv. congruence.
    + split; [|done]. intros _. exists a. split; [by left|]. by apply (w_string_none 1).
  - rewrite <- (opt_record_none 1). unfold encode_parts. cbn [w_all].
    by destruct (w_message 1 encode_record rec).
  - rewrite <- (opt_record_none 1). unfold encode_parts. cbn [w_all].
    by destruct (w_message 1 encode_record rec).
  - unfold encode_parts at 1. cbn [w_all].
    destruct body as [b|]; cbn [w_message]; [|split; [done|by intros (? & [] & _)]].
    rewrite <- (w_strings_none 2).
    unfold encode_status_body, encode_parts. cbn [w_all].
    destruct (w_int32 1 (sb_code b)) eqn:E1.
    2: { unfold w_int32 in E1. by destruct (sb_code b =? 0). }
    by destruct (w_strings 2 (sb_msgs b)).
Qed.

Lemma decode_single {A} (f : A -> Z -> wval -> option A) a num b :
  1 <= num <= 2 ^ 29 - 1 ->
  Z.of_nat (length (put_fields [(num, WBytes b)])) < 2 ^ 63 ->
  decode_into f a (put_fields [(num, WBytes b)]) = f a num (WBytes b).
Proof.
  intros Hn Hl. unfold decode_into. rewrite get_put_fields.
  - cbn [fold_fields]. by destruct (f a num (WBytes b)).
  - apply field_bound; [|done]. constructor; [by split|constructor].
Qed.

Ltac bound_part Ho Hb :=
  match goal with
  | H : w_message _ _ _ = Some ?f |- _ =>
      assert (Z.of_nat (length (put_fields f)) < 2 ^ 63)
        by (rewrite <- Ho in Hb; rewrite ?put_fields_app_length in Hb; lia)
  end.

Lemma acn_roundtrip m out :
  encode_acn m = Some out -> Z.of_nat (length out) < 2 ^ 63 -> acn_code_ok m ->
  decode_acn out = Some m.
Proof.
  destruct m as [p|]; [|by intros [= <-]].
  unfold encode_acn. intros He Hl Hc.
  destruct (encode_performative p) as [[num b]|] eqn:Ep; [|done]. injection He as <-.
  assert (1 <= num <= 2 ^ 29 - 1) as Hn.
  { destruct p; cbn [encode_performative] in Ep;
      (match type of Ep with match ?x with _ => _ end = _ => destruct x end; [|done]);
      injection Ep as <- _; lia. }
  unfold decode_acn. rewrite decode_single by done.
  pose proof (put_one_length num b) as Hlb.
  assert (Z.of_nat (length b) < 2 ^ 63) as Hb by lia. clear Hlb Hl.
  destruct p as [env rec|a|rec|rec|body]; cbn [encode_performative] in Ep;
    (match type of Ep with match ?x with _ => _ end = _ => destruct x as [b'|] eqn:Eb end; [|done]);
    injection Ep as <- ->; apply encode_parts_some in Eb as (fs & Hw & Ho);
    pose proof Hw as Hw'; split_parts Hw; injection Hw as <-; cbn [acn_field].
  - erewrite decode_parts; [|exact Hw'|exact Ho|parts_pre|done].
    bound_part Ho Hb.
    erewrite (fold_w_bytes _ _ _ env _ _ (fun s => (s, None))); [|eassumption|done..].
    erewrite (fold_w_message _ _ encode_record record_field record0 _ rec _ _ (fun r => (env, r)));
      [|eassumption|done|done|intros; by apply record_roundtrip|done].
    done.
  - erewrite decode_parts; [|exact Hw'|exact Ho|parts_pre|done].
    erewrite (fold_w_string _ _ _ a _ _ (fun s => s)); [done|eassumption|..|done].
    intros b0. cbn. by destruct (text_of b0).
  - erewrite decode_parts; [|exact Hw'|exact Ho|parts_pre|done].
    bound_part Ho Hb.
    erewrite (fold_w_message _ _ encode_record record_field record0 _ rec _ _ (fun r => r));
      [done|eassumption| |done|intros; by apply record_roundtrip|done].
    intros y. cbn. by destruct (merge_message _ _ _ _).
  - erewrite decode_parts; [|exact Hw'|exact Ho|parts_pre|done].
    bound_part Ho Hb.
    erewrite (fold_w_message _ _ encode_record record_field record0 _ rec _ _ (fun r => r));
      [done|eassumption| |done|intros; by apply record_roundtrip|done].
    intros y. cbn. by destruct (merge_message _ _ _ _).
  - erewrite decode_parts; [|exact Hw'|exact Ho|parts_pre|done].
    bound_part Ho Hb.
    erewrite (fold_w_message _ _ encode_status_body status_field status_body0 _ body _ _ (fun r => r));
      [done|eassumption| |done| |done].
    + intros y. cbn. by destruct (merge_message _ _ _ _).
    + intros a out -> Ha Hla. by apply status_roundtrip.
Qed.

(** ** Dialogue messages *)

Lemma dmsg_none m :
  encode_dmsg m = None <-> valid_text (dm_starter m) = false \/ valid_text (dm_responder m) = false.
Proof.
  unfold encode_dmsg. rewrite encode_parts_none. rewrite !elem_of_cons, elem_of_nil.
  assert (forall n s, None = w_string n s <-> valid_text s = false) as Hw.
  { intros. rewrite <- (w_string_none n). done. }
  rewrite !Hw. assert (forall z n, None = w_int32 n z <-> False) as Hi.
  { intros z n. unfold w_int32. by destruct (z =? 0). }
  rewrite !Hi. assert (None = w_bytes 5 (dm_content m) <-> False) as ->.
  { unfold w_bytes. by destruct (dm_content m). }
  tauto.
Qed.

Lemma dmsg_roundtrip m out :
  encode_dmsg m = Some out -> Z.of_nat (length out) < 2 ^ 63 ->
  - 2 ^ 31 <= dm_id m < 2 ^ 31 -> - 2 ^ 31 <= dm_target m < 2 ^ 31 ->
  decode_into dmsg_field dmsg0 out = Some m.
Proof.
  intros He Hl Hi Ht. apply encode_parts_some in He as (fs & Hw & Ho). pose proof Hw as Hw'.
  split_parts Hw. injection Hw as <-.
  erewrite decode_parts; [|exact Hw'|exact Ho|parts_pre|done].
  destruct m as [i s r t c]. cbn [dm_id dm_starter dm_responder dm_target dm_content] in *.
  unfold dmsg0.
  erewrite (fold_w_int32 _ _ _ i _ _ (fun x => DMsg x "" "" 0 [])); [|eassumption|done..].
  erewrite (fold_w_string _ _ _ s _ _ (fun x => DMsg i x "" 0 [])); [|eassumption|done..].
  erewrite (fold_w_string _ _ _ r _ _ (fun x => DMsg i s x 0 [])); [|eassumption|done..].
  erewrite (fold_w_int32 _ _ _ t _ _ (fun x => DMsg i s r x [])); [|eassumption|done..].
  erewrite (fold_w_bytes _ _ _ c _ _ (fun x => DMsg i s r t x)); [|eassumption|done..].
  done.
Qed.

Lemma message_roundtrip struct_ok m out :
  encode_message m = Some out -> Z.of_nat (length out) < 2 ^ 63 ->
  - 2 ^ 31 <= dm_id m < 2 ^ 31 -> - 2 ^ 31 <= dm_target m < 2 ^ 31 ->
  decode_message struct_ok out = Some (Some m).
Proof.
  unfold encode_message. destruct (encode_dmsg m) as [b|] eqn:E; [|done].
  intros [= <-] Hl Hi Ht. unfold decode_message. rewrite decode_single by (done || lia).
  cbn [message_field]. pose proof (put_one_length 2 b).
  rewrite (dmsg_roundtrip m b) by (done || lia). done.
Qed.

(** Fields of unknown number are ignored wherever they stand. *)
Lemma fold_ignored {A} (f : A -> Z -> wval -> option A) a fs g gs :
  (forall a, f a g.1 g.2 = Some a) ->
  fold_fields f a (fs ++ g :: gs) = fold_fields f a (fs ++ gs).
Proof.
  intros Hg. rewrite !fold_app. destruct (fold_fields f a fs) as [a'|]; [|done].
  destruct g as [n v]. cbn [fold_fields]. by rewrite Hg.
Qed.
