(** Properties of the example seller: how FIPA messages are read, which envelopes the
    seller answers and how, the exchange with a buyer in the middle of other traffic,
    and which single envelope ends the program. *)
From Coq Require Import ZArith NArith List String Ascii Lia.
From stdpp Require Import base tactics gmap list strings.
From Verif Require Import GoBase Bytes Utf8 WireModel WireProofs ProtoModel ProtoProofs
  DialogueModel StoreModel DialogueSpec DialogueProofs DialogueLemmas StoreProofs StoreInv
  StoreLemmas TraceProofs DialogueProps StoreProps MessageModel MessageProofs
  SellerModel SellerProofs.
Open Scope string_scope.
Open Scope list_scope.
Open Scope Z_scope.

(** * FIPA messages *)

(** A FIPA message as its author means it. *)
Inductive fipa :=
| Accept | AcceptWInform (info : list (string * string)) | Cfp (query : bytes)
| Decline | End | Inform (info : list (string * string))
| MatchAccept | MatchAcceptWInform (info : list (string * string)) | Propose (what : bytes).

Definition info_bytes (info : list (string * string)) : bytes :=
  put_fields (map (fun kv : string * string =>
    (1, WBytes (put_fields [(1, WBytes (bytes_of kv.1)); (2, WBytes (bytes_of kv.2))]))) info).

Definition blob_bytes (b : bytes) : bytes :=
  put_fields [(1, WBytes (put_fields [(1, WBytes b)]))].

(** Its protobuf encoding. *)
Definition fipa_bytes (m : fipa) : bytes :=
  put_fields
    match m with
    | Accept => [(5, WBytes [])]
    | AcceptWInform i => [(6, WBytes (info_bytes i))]
    | Cfp q => [(7, WBytes (blob_bytes q))]
    | Decline => [(8, WBytes [])]
    | End => [(9, WBytes [])]
    | Inform i => [(10, WBytes (info_bytes i))]
    | MatchAccept => [(11, WBytes [])]
    | MatchAcceptWInform i => [(12, WBytes (info_bytes i))]
    | Propose w => [(13, WBytes (blob_bytes w))]
    end.

Definition info_of (m : fipa) : list (string * string) :=
  match m with
  | AcceptWInform i | Inform i | MatchAcceptWInform i => i
  | _ => []
  end.

(** The performative the reader sees: the name in camel case. *)
Definition camel_name (m : fipa) : string :=
  match m with
  | Accept => "accept" | AcceptWInform _ => "acceptWInform" | Cfp _ => "cfp"
  | Decline => "decline" | End => "end" | Inform _ => "inform"
  | MatchAccept => "matchAccept" | MatchAcceptWInform _ => "matchAcceptWInform"
  | Propose _ => "propose"
  end.

Lemma single_fits num b :
  Z.of_nat (length (put_fields [(num, WBytes b)])) < 2 ^ 63 -> Z.of_nat (length b) < 2 ^ 63.
Proof.
  intros H. assert (length b <= length (put_fields [(num, WBytes b)]))%nat; [|lia].
  cbn. rewrite !app_length. lia.
Qed.

Lemma read_blob b : Z.of_nat (length (blob_bytes b)) < 2 ^ 63 ->
  decode_into one_blob_field tt (blob_bytes b) = Some tt.
Proof.
  intros H. unfold blob_bytes in *. rewrite decode_single by (done || lia).
  apply single_fits in H. cbn [one_blob_field].
  rewrite decode_single by (done || lia). done.
Qed.

Lemma read_info info : Z.of_nat (length (info_bytes info)) < 2 ^ 63 ->
  Forall (fun kv => valid_text kv.1 = true /\ valid_text kv.2 = true) info ->
  decode_into info_field tt (info_bytes info) = Some tt.
Proof.
  intros Hl Hv. unfold info_bytes, decode_into in *.
  set (f := fun kv : string * string => (1, WBytes _)) in *.
  rewrite get_put_fields.
  2: { apply field_bound; [|done]. apply Forall_map, Forall_forall. intros kv _. by split. }
  revert Hl. induction info as [|[k v] info IH]; [done|]. intros Hl.
  apply Forall_cons in Hv as [[V1 V2] Hv]. specialize (IH Hv).
  cbn [map] in *. change (f (k, v) :: map f info) with ([f (k, v)] ++ map f info) in Hl.
  rewrite put_fields_app_length in Hl. specialize (IH ltac:(lia)).
  assert (Z.of_nat (length (put_fields [f (k, v)])) < 2 ^ 63) as H1 by lia.
  unfold f in H1. apply single_fits in H1.
  cbn [fold_fields]. unfold f at 1. cbn [info_field].
  assert (decode_into map_entry_field tt
    (put_fields [(1, WBytes (bytes_of (k, v).1)); (2, WBytes (bytes_of (k, v).2))]) = Some tt) as ->.
  { unfold decode_into. rewrite get_put_fields.
    - cbn. unfold text_of. unfold valid_text in V1, V2. cbn in V1, V2. by rewrite V1, V2.
    - apply field_bound; [|done]. by repeat constructor. }
  exact IH.
Qed.

(** C78. A FIPA message is read with the camel-case name of its performative. *)
Theorem C78_content m :
  Z.of_nat (length (fipa_bytes m)) < 2 ^ 63 ->
  Forall (fun kv => valid_text kv.1 = true /\ valid_text kv.2 = true) (info_of m) ->
  decode_fipa (fipa_bytes m) = Some (Some (camel_name m)).
Proof.
  intros Hl Hv. unfold decode_fipa, fipa_bytes in *.
  destruct m; cbn [info_of] in Hv; rewrite decode_single by (done || lia); try done;
    apply single_fits in Hl; unfold fipa_field; cbn [fipa_name fipa_content camel_name];
    rewrite ?read_info, ?read_blob by done; done.
Qed.
Print Assumptions C78_content.

Example C78_content_example :
  decode_fipa (fipa_bytes (AcceptWInform [("address", "fetch1")])) = Some (Some "acceptWInform") /\
  decode_fipa (fipa_bytes (Cfp (bytes_of "query"))) = Some (Some "cfp") /\
  decode_fipa (fipa_bytes MatchAccept) = Some (Some "matchAccept").
Proof. repeat split; vm_compute; reflexivity. Qed.

Section Claims.
  Context (struct_ok : bytes -> bytes -> bool) (self : address).

  (** The envelope is a FIPA envelope that carries the message [m]. *)
  Definition carries (e : envelope) (m : message) : Prop :=
    e_protocol e = "fetchai/fipa:1.0.0" /\
    exists k, read_envelope struct_ok decode_fipa fipa_field_name e = Ok (m, k).

  (** The envelope is a FIPA envelope from the seller that its receiver reads as [m]. *)
  Definition says (e : envelope) (m : message) : Prop :=
    e_to e = m_to m /\ e_sender e = m_sender m /\ e_protocol e = "fetchai/fipa:1.0.0" /\
    (Z.of_nat (length (e_message e)) < 2 ^ 63 -> carries e m).

  (** The message is meant for the seller by somebody else. *)
  Definition for_seller (m : message) : Prop :=
    m_sender m <> "" /\ m_sender m <> self /\ m_to m = self.

  (** Its reference is not that of a dialogue of the seller with the sender, nor one
      that the seller takes as a new dialogue. *)
  Definition stray (s : store) (m : message) : Prop :=
    for_seller m /\ m_ref m <> DRef "" "" /\
    (responder_ref (m_ref m) = "" -> m_id m <> 1 /\ m_id m <> 0) /\
    ~ exists l p, s_by_label s !! l = Some p /\ lb_opponent l = m_sender m /\
        starter_ref (lb_ref l) = starter_ref (m_ref m) /\
        (responder_ref (m_ref m) = "" \/ responder_ref (lb_ref l) = responder_ref (m_ref m)).

  Definition few (es : list (string * option envelope)) : Prop := Z.of_nat (length es) < 2 ^ 29.

  Lemma run_start es s acts :
    seller_run struct_ok self empty_store es = (s, Ok acts) -> few es ->
    exists tr, sinv self tr s /\ Z.of_nat (length tr) < 2 ^ 30.
  Proof.
    intros H Hf. unfold few in Hf.
    destruct (run_sinv struct_ok self [] empty_store es s acts (sinv_empty self)) as (_ & tr & Hi & Hl); [cbn; lia|done|].
    exists tr. split; [done|]. lia.
  Qed.

  Lemma stray_iff tr s nonce m : sinv self tr s ->
    (exists om, (api_update (seller_config self) s nonce m).2 = Ok (om, None)) <-> stray s m.
  Proof.
    intros H. rewrite (update_unknown_iff self s nonce m (sinv_inv _ _ _ H) (si_theirs _ _ _ H)).
    done.
  Qed.

  (** C78. Whatever was received before, an envelope ends the program if and only if it
      carries a cfp or an accept with a stray reference. *)
  Theorem C78_crash es s acts nonce oe :
    seller_run struct_ok self empty_store es = (s, Ok acts) -> few es ->
    is_panic (seller_handle struct_ok self s nonce oe).2 = true <->
    exists e m, oe = Some e /\ carries e m /\ (m_perf m = "cfp" \/ m_perf m = "accept") /\ stray s m.
  Proof.
    intros H Hf. destruct (run_start es s acts H Hf) as (tr & Hi & Hl).
    destruct (handle_cases struct_ok self tr s nonce oe Hi) as (s' & r & E & Hc); [lia|].
    rewrite E. cbn [snd]. split.
    - intros Hp. destruct Hc as [(a & _ & -> & _)|(w & e & m & k & om & -> & -> & Epr & Er & Hm & Eu)]; [done|].
      exists e, m. split; [done|]. split; [split; [done|by exists k]|]. split; [done|].
      apply (stray_iff tr s nonce m Hi). by exists om.
    - intros (e & m & -> & [Epr (k & Er)] & Hm & Hs).
      apply (stray_iff tr s nonce m Hi) in Hs as [om Hom].
      revert E. unfold seller_handle.
      rewrite Epr, String.eqb_refl. cbn [negb]. unfold seller_read. rewrite Er.
      destruct (api_update (seller_config self) s nonce m) as [s1 r1]. cbn [snd] in Hom. subst r1.
      destruct Hm as [-> | ->]; cbn; by intros [= <- <-].
  Qed.

  Lemma taken tr s nonce m s1 om p :
    sinv self tr s -> api_update (seller_config self) s nonce m = (s1, Ok (om, Some p)) ->
    for_seller m /\ exists d h, s_heap s1 !! p = Some d /\
      dinv (seller_config self) d (h ++ [Entry Peer m]) /\
      lb_opponent (d_label d) = m_sender m /\ lb_starter (d_label d) = m_sender m /\
      starter_ref (lb_ref (d_label d)) = starter_ref (m_ref m).
  Proof.
    intros H E. pose proof (sinv_inv _ _ _ H) as Hi.
    assert (m_sender m <> "") as Hs0.
    { intros Hs. unfold api_update, has_sender in E. by rewrite Hs in E. }
    destruct (step_any (seller_config self) s (OpUpdate nonce m) s1 (Ok (om, Some p)) (iv_any _ _ Hi) E eq_refl)
      as (Hi1 & g & Hef & Hrep).
    destruct Hrep as (x & -> & Hx). destruct Hx as (_ & -> & Hx).
    destruct (ef_grown _ _ _ _ _ Hef p m eq_refl) as [d Hd].
    assert (exists h, dinv (seller_config self) d (h ++ [Entry Peer m])) as [h Hh].
    { destruct (s_heap s !! p) as [d0|] eqn:E0.
      - destruct (ef_old _ _ _ _ _ Hef p d0 E0) as (d' & Hd' & _ & _ & Hv & _).
        rewrite Hd in Hd'. injection Hd' as <-.
        destruct (ia_dlg _ s (iv_any _ _ Hi) p d0 E0) as [h Hh]. specialize (Hv h Hh). exists h.
        unfold suffix, from_of in Hv. rewrite decide_True, decide_False in Hv by done. exact Hv.
      - destruct (ef_new _ _ _ _ _ Hef p d E0 Hd) as (_ & _ & Hv & _). exists [].
        unfold suffix, from_of in Hv. rewrite decide_True, decide_False in Hv by done. exact Hv. }
    destruct (di_conv _ _ _ Hh h (Entry Peer m) [] eq_refl) as [(A1 & A2 & A3) (B & _)].
    unfold other in *. cbn in A1, A2, A3, B, Hx. split; [by split|]. exists d, h. split; [done|]. split; [done|].
    split; [by rewrite A1|]. split; [|by rewrite B].
    destruct (theirs_update _ s nonce m s1 _ Hi (si_theirs _ _ _ H) E eq_refl) as [T _].
    rewrite (T p d Hd). by rewrite A1.
  Qed.

  Lemma response_says m content env name :
    make_response_envelope m fipa_protocol content = Ok env -> decode_fipa content = Some (Some name) ->
    name <> "" -> wrap32 (m_id m) = m_id m -> wrap32 (m_target m) = m_target m ->
    says env (Msg (m_to m) (m_sender m) (m_ref m) (m_id m) (m_target m) name).
  Proof.
    intros E Hc Hn W1 W2. pose proof E as E'. unfold make_response_envelope in E'.
    destruct (encode_message _) as [out|]; [|done]. injection E' as <-.
    split; [done|]. split; [done|]. split; [done|]. intros Hl. split; [done|].
    exists (Some name). rewrite (response_read struct_ok decode_fipa fipa_field_name m fipa_protocol content _ (Some name) E Hl Hc Hn).
    by rewrite W1, W2.
  Qed.

  (** C78. Whatever was received before, what the seller puts is the answer to the
      message just received: a propose for a cfp, a match accept for an accept. It goes
      to the sender, in the same dialogue, with the message as its target. *)
  Theorem C78_answers es s acts nonce oe s' env :
    seller_run struct_ok self empty_store es = (s, Ok acts) -> few es ->
    seller_handle struct_ok self s nonce oe = (s', Ok (Puts env)) ->
    exists e m i r, oe = Some e /\ carries e m /\ for_seller m /\ i < 0 /\
      (m_perf m = "cfp" /\
       says env (Msg (m_sender m) self (DRef (starter_ref (m_ref m)) r) i (m_id m) "propose") \/
       m_perf m = "accept" /\
       says env (Msg (m_sender m) self (DRef (starter_ref (m_ref m)) r) i (m_id m) "matchAccept")).
  Proof.
    intros H Hf Hh. destruct (run_start es s acts H Hf) as (tr & Hi & Hl).
    unfold seller_handle in Hh. destruct oe as [e|]; [|done].
    destruct (String.eqb_spec (e_protocol e) fipa_protocol) as [Epr|Epr]; cbn [negb] in Hh; [|done].
    destruct (seller_read struct_ok e) as [[m k]|w|w] eqn:Er; [|done..].
    destruct (read_small struct_ok e m k Er) as (R1 & R2 & _).
    destruct (sinv_update self tr s nonce m Hi) as (s1 & r & E & Hp & Hi1 & _); [lia|unfold min_int; lia|].
    rewrite E in Hh. destruct r as [[om d]|w|w]; [|done..].
    assert (forall perf name content, decode_fipa content = Some (Some name) -> name <> "" ->
      seller_reply self s1 d m perf content = (s', Ok (Puts env)) ->
      for_seller m /\ exists i r, i < 0 /\
        says env (Msg (m_sender m) self (DRef (starter_ref (m_ref m)) r) i (m_id m) name)) as Hx.
    { intros perf name content Hc Hn Hr. unfold seller_reply in Hr. destruct d as [p|]; [|done].
      destruct (taken tr s nonce m s1 om p Hi E) as (Hfs & d & h & Hd & _ & D1 & D2 & D3).
      split; [done|].
      destruct (api_reply (seller_config self) s1 p perf (Some m) None) as [s2 [[[mr|] q]|w|w]] eqn:E2; try done.
      pose proof (C09_reply (seller_config self) _ s1 p d perf (Some m) None s2 _ (clean_exec _ _ _ (si_exec _ _ _ Hi1)) Hd E2) as H9.
      cbn zeta in H9. destruct H9 as (m0 & d' & [= <-] & _ & S1 & S2 & S3 & _ & S5 & S6 & _).
      destruct (make_response_envelope mr fipa_protocol content) as [env'|w|w] eqn:Em; [|done..].
      injection Hr as <- <-. rewrite decide_False in S5 by (rewrite D2; apply Hfs).
      set (tr1 := tr ++ _) in S5.
      assert (length (messages_of Me (transcript (seller_config self) p tr1)) <= length tr + 1)%nat as Hlen.
      { pose proof (length_parties (transcript (seller_config self) p tr1)).
        pose proof (transcript_length self p tr1). unfold tr1 in *. rewrite app_length in *. cbn [length] in *. lia. }
      exists (m_id mr), (responder_ref (m_ref mr)). split; [lia|].
      pose proof (response_says mr content env' name Em Hc Hn) as Hsay.
      rewrite S1, S2, S6, D1 in Hsay.
      replace (DRef (starter_ref (m_ref m)) (responder_ref (m_ref mr))) with (m_ref mr)
        by (rewrite S3, <- D3; by destruct (lb_ref (d_label d))).
      apply Hsay; apply wrap32_id; lia. }
    destruct (String.eqb_spec (m_perf m) "cfp") as [Ec|Ec].
    { destruct (Hx "propose" "propose" propose_content ltac:(vm_compute; reflexivity) ltac:(done) Hh) as (F & i & r & Hneg & Hsay).
      exists e, m, i, r. split; [done|]. split; [split; [done|by exists k]|]. split; [done|].
      split; [done|]. by left. }
    destruct (String.eqb_spec (m_perf m) "accept") as [Ea|Ea].
    { destruct (Hx "match_accept" "matchAccept" match_accept_content ltac:(vm_compute; reflexivity) ltac:(done) Hh) as (F & i & r & Hneg & Hsay).
      exists e, m, i, r. split; [done|]. split; [split; [done|by exists k]|]. split; [done|].
      split; [done|]. by right. }
    by destruct (String.eqb (m_perf m) "end").
  Qed.

  (** The seller's answer to a message that its dialogue has just taken. *)
  Lemma handle_answers tr s n e m s1 p l h perf name content :
    sinv self tr s -> Z.of_nat (length tr) < 2 ^ 30 -> carries e m ->
    (m_perf m = "cfp" /\ perf = "propose" /\ name = "propose" /\ content = propose_content \/
     m_perf m = "accept" /\ perf = "match_accept" /\ name = "matchAccept" /\ content = match_accept_content) ->
    api_update (seller_config self) s n m = (s1, Ok (None, Some p)) ->
    talking self s1 p l h -> h <> [] -> lb_opponent l <> self -> lb_starter l <> self ->
    responder_ref (lb_ref l) <> "" ->
    valid_text (starter_ref (lb_ref l)) = true -> valid_text (responder_ref (lb_ref l)) = true ->
    let i := protocol_id (seller_config self) l Me h in
    let mr := Msg (lb_opponent l) self (lb_ref l) i (m_id m) perf in
    - 2 ^ 31 <= i < 2 ^ 31 ->
    target_ok (seller_config self) l h mr ->
    exists s' v, seller_handle struct_ok self s n (Some e) = (s', Ok (Puts v)) /\
      says v (Msg (lb_opponent l) self (lb_ref l) i (m_id m) name) /\
      talking self s' p l (h ++ [Entry Me mr]).
  Proof.
    intros Hi Hl [Epr (k & Er)] Hcase E Ht Hne Ho Hst R2 V1 V2 i mr Hir Hta.
    fold (seller_read struct_ok e) in Er.
    destruct (read_small struct_ok e m k Er) as (M1 & M2 & _).
    destruct (sinv_update self tr s n m Hi) as (s1' & r & E' & _ & Hi1 & _); [lia|unfold min_int; lia|].
    rewrite E in E'. injection E' as <- <-.
    destruct (reply_talks self _ s1 p l h perf m Hi1 Ht Hne Ho Hst R2) as (s2 & Er2 & Ht2).
    { destruct Hcase as [(_ & -> & _)|(_ & -> & _)]; done. }
    { destruct Hcase as [(_ & -> & _)|(_ & -> & _)]; done. }
    { exact Hta. }
    assert (is_ok (make_response_envelope mr fipa_protocol content) = true) as Hok by (by apply make_response_ok).
    destruct (make_response_envelope mr fipa_protocol content) as [v|w|w] eqn:Em; [|done..].
    exists s2, v. split; [|split; [|done]].
    - unfold seller_handle. rewrite Epr, String.eqb_refl. cbn [negb]. rewrite Er, E.
      destruct Hcase as [(-> & -> & -> & ->)|(-> & -> & -> & ->)]; cbn [String.eqb Ascii.eqb Bool.eqb];
        unfold seller_reply; rewrite Er2; fold i mr; by rewrite Em.
    - apply (response_says mr content v name Em).
      + destruct Hcase as [(_ & _ & -> & ->)|(_ & _ & -> & ->)]; vm_compute; reflexivity.
      + by destruct Hcase as [(_ & _ & -> & _)|(_ & _ & -> & _)].
      + by apply wrap32_id.
      + by apply wrap32_id.
  Qed.

  Lemma handle_sinv tr s n oe s' a :
    sinv self tr s -> Z.of_nat (length tr) + 2 < 2 ^ 63 ->
    seller_handle struct_ok self s n oe = (s', Ok a) ->
    exists tr', sinv self (tr ++ tr') s' /\ (length tr' <= 2)%nat.
  Proof.
    intros Hi Hl H. destruct (handle_cases struct_ok self tr s n oe Hi Hl) as (s0 & r & E & Hc).
    rewrite H in E. injection E as <- <-.
    destruct Hc as [(a0 & tr' & _ & Hi' & Hl')|(w & _ & _ & _ & _ & Hw & _)]; [by exists tr'|done].
  Qed.

  (** C78. A buyer who opens a dialogue with a cfp under a reference that they did not use
      before, then accepts and then ends gets a propose and a match accept in this dialogue and the
      seller reports completion, whatever others send before and in between. *)
  Theorem C78_exchange es1 es2 es3 b x n n2 n3 e1 e2 e3 s acts :
    let es := es1 ++ (n, Some e1) :: es2 ++ (n2, Some e2) :: es3 ++ [(n3, Some e3)] in
    few es -> seller_run struct_ok self empty_store es = (s, Ok acts) ->
    b <> "" -> b <> self -> x <> "" -> n <> "" -> valid_text n = true ->
    (forall y e m k, In (y, Some e) es1 -> read_envelope struct_ok decode_fipa fipa_field_name e = Ok (m, k) ->
       m_sender m = b -> m_ref m <> DRef x "") ->
    (forall y e, In (y, Some e) (es2 ++ es3) -> e_sender e <> b) ->
    carries e1 (Msg self b (DRef x "") 1 0 "cfp") ->
    carries e2 (Msg self b (DRef x n) 2 (-1) "accept") ->
    carries e3 (Msg self b (DRef x n) 3 (-2) "end") ->
    exists a1 a2 a3 v1 v2,
      acts = a1 ++ Puts v1 :: a2 ++ Puts v2 :: a3 ++ [Complete] /\
      length a1 = length es1 /\ length a2 = length es2 /\ length a3 = length es3 /\
      says v1 (Msg b self (DRef x n) (-1) 1 "propose") /\
      says v2 (Msg b self (DRef x n) (-2) 2 "matchAccept").
  Proof.
    intros es Hf Hrun Hb Hbs Hx Hn Hnv Hun Hoth C1 C2 C3. unfold few, es in Hf.
    rewrite app_length in Hf. cbn [length] in Hf. rewrite app_length in Hf. cbn [length] in Hf.
    rewrite app_length in Hf. cbn [length] in Hf.
    unfold es in Hrun.
    destruct (run_app _ _ _ _ _ _ _ Hrun) as (s1 & a1 & r1 & Hr1 & Hrun1 & ->).
    destruct (run_sinv struct_ok self [] empty_store es1 s1 a1 (sinv_empty self)) as (L1 & tr1 & I1 & T1); [cbn; lia|done|].
    rewrite app_nil_l in I1.
    set (l := DLabel (DRef x n) b b). set (m1 := Msg self b (DRef x "") 1 0 "cfp") in *.
    set (m2 := Msg self b (DRef x n) 2 (-1) "accept") in *. set (m3 := Msg self b (DRef x n) 3 (-2) "end") in *.
    (* the cfp *)
    assert (s_incomplete s1 !! DLabel (DRef x "") b b = None) as Hfree.
    { eapply (run_unused struct_ok self [] empty_store es1 s1 a1); [apply sinv_empty|cbn; lia|done| |done].
      apply Forall_forall. intros [y oe] Hin e m k Hoe Er [Hs Hr]. cbn in Hoe. subst oe.
      apply elem_of_list_In in Hin. by apply (Hun y e m k Hin Er Hs). }
    destruct (open_talks self tr1 s1 n m1 b x I1 ltac:(lia) eq_refl Hb Hbs Hx Hn Hfree) as (s2 & p & U1 & K1).
    assert (target_ok (seller_config self) l [Entry Peer m1]
      (Msg b self (DRef x n) (-1) 1 "propose")) as G1.
    { split; [done|]. exists m1, m1.
      assert (target_party (seller_config self) l 1 = Peer) as TP.
      { unfold target_party, id_sign. rewrite (decide_False (P := started_by_me _ _)) by (by unfold started_by_me).
        by rewrite decide_False by lia. }
      unfold designates. cbn [m_target m_perf]. rewrite TP. split; [done|]. split; [done|]. split; [cbn; lia|].
      exists ["propose"; "decline"]. split; [vm_compute; reflexivity|by left]. }
    assert (protocol_id (seller_config self) l Me [Entry Peer m1] = -1) as P1.
    { unfold protocol_id, id_sign. by rewrite decide_False by (by unfold started_by_me). }
    assert (valid_text x = true) as Hxv.
    { destruct C1 as [_ [k Er]]. fold (seller_read struct_ok e1) in Er.
      by destruct (read_small struct_ok e1 m1 k Er) as (_ & _ & V & _). }
    destruct (handle_answers tr1 s1 n e1 m1 s2 p l [Entry Peer m1] "propose" "propose" propose_content)
      as (s3 & v1 & Eh1 & Sv1 & K2); try done; [lia|by left|rewrite P1; lia|].
    rewrite P1 in Sv1, K2. cbn [app] in K2.
    destruct (handle_sinv tr1 s1 n (Some e1) s3 _ I1 ltac:(lia) Eh1) as (tr2 & I2 & T2).
    cbn [app seller_run] in Hrun1. rewrite Eh1 in Hrun1.
    destruct (seller_run struct_ok self s3 _) as [s0 [r2|w|w]] eqn:Hrun2; [|done..].
    injection Hrun1 as <- <-.
    (* others *)
    destruct (run_app _ _ _ _ _ _ _ Hrun2) as (s4 & a2 & r3 & Hr3 & Hrun3 & ->).
    destruct (run_sinv struct_ok self _ s3 es2 s4 a2 I2) as (L2 & tr3 & I3 & T3); [rewrite app_length; lia|done|].
    eapply (run_other struct_ok self _ s3 es2 s4 a2 p l _ I2) in K2; [|rewrite app_length; lia|done|].
    2: { apply Forall_forall. intros [y oe] Hin e Hoe. cbn in Hoe. subst oe. apply (Hoth y).
         apply in_app_iff. left. by apply elem_of_list_In. }
    set (mr1 := Msg (lb_opponent l) self (lb_ref l) (-1) (m_id m1) "propose") in *.
    (* the accept *)
    set (tr4 := (tr1 ++ tr2) ++ tr3) in *.
    assert (length tr4 <= 2 * length es1 + 2 + 2 * length es2)%nat as L4 by (unfold tr4; rewrite !app_length; lia).
    destruct (update_talks self tr4 s4 p l [Entry Peer m1; Entry Me mr1] n2 m2 I3) as (s5 & U2 & K3); try done; [lia| | |].
    { unfold demanded_id, id_sign. by rewrite decide_False by (by unfold started_by_me). }
    { split; [done|]. exists mr1, mr1.
      assert (target_party (seller_config self) l (-1) = Me) as TP.
      { unfold target_party, id_sign. rewrite (decide_False (P := started_by_me _ _)) by (by unfold started_by_me).
        by rewrite decide_True by lia. }
      unfold designates. cbn [m_target m_perf m2]. rewrite TP. split; [done|]. split; [done|]. split; [cbn; lia|].
      eexists. split; [vm_compute; reflexivity|by left]. }
    specialize (K3 ltac:(done) ltac:(done)). cbn [app] in K3.
    assert (protocol_id (seller_config self) l Me [Entry Peer m1; Entry Me mr1; Entry Peer m2] = -2) as P2.
    { unfold protocol_id, id_sign. by rewrite decide_False by (by unfold started_by_me). }
    destruct (handle_answers tr4 s4 n2 e2 m2 s5 p l [Entry Peer m1; Entry Me mr1; Entry Peer m2]
      "match_accept" "matchAccept" match_accept_content)
      as (s6 & v2 & Eh2 & Sv2 & K4); try done; [lia|by right|rewrite P2; lia| |].
    { rewrite P2. split; [done|]. exists m2, m2.
      assert (target_party (seller_config self) l 2 = Peer) as TP.
      { unfold target_party, id_sign. rewrite (decide_False (P := started_by_me _ _)) by (by unfold started_by_me).
        by rewrite decide_False by lia. }
      unfold designates. cbn [m_target m_perf m_id m2]. rewrite TP. split; [done|]. split; [done|]. split; [cbn; lia|].
      exists ["decline"; "match_accept"; "match_accept_w_inform"]. split; [vm_compute; reflexivity|by right; left]. }
    rewrite P2 in Sv2, K4. cbn [app] in K4.
    destruct (handle_sinv tr4 s4 n2 (Some e2) s6 _ I3 ltac:(lia) Eh2) as (tr5 & I4 & T5).
    cbn [app seller_run] in Hrun3. rewrite Eh2 in Hrun3.
    destruct (seller_run struct_ok self s6 _) as [s00 [r4|w|w]] eqn:Hrun4; [|done..].
    injection Hrun3 as <- <-.
    (* others *)
    destruct (run_app _ _ _ _ _ _ _ Hrun4) as (s7 & a3 & r5 & Hr5 & Hrun5 & ->).
    destruct (run_sinv struct_ok self _ s6 es3 s7 a3 I4) as (L3 & tr6 & I5 & T6); [rewrite app_length; lia|done|].
    eapply (run_other struct_ok self _ s6 es3 s7 a3 p l _ I4) in K4; [|rewrite app_length; lia|done|].
    2: { apply Forall_forall. intros [y oe] Hin e Hoe. cbn in Hoe. subst oe. apply (Hoth y).
         apply in_app_iff. right. by apply elem_of_list_In. }
    set (mr2 := Msg (lb_opponent l) self (lb_ref l) (-2) (m_id m2) "match_accept") in *.
    (* the end *)
    destruct (update_talks self ((tr4 ++ tr5) ++ tr6) s7 p l [Entry Peer m1; Entry Me mr1; Entry Peer m2; Entry Me mr2] n3 m3 I5)
      as (s8 & U3 & _); try done; [rewrite !app_length; lia| | |].
    { unfold demanded_id, id_sign. by rewrite decide_False by (by unfold started_by_me). }
    { split; [done|]. exists mr2, mr2.
      assert (target_party (seller_config self) l (-2) = Me) as TP.
      { unfold target_party, id_sign. rewrite (decide_False (P := started_by_me _ _)) by (by unfold started_by_me).
        by rewrite decide_True by lia. }
      unfold designates. cbn [m_target m_perf m3]. rewrite TP. split; [done|]. split; [done|]. split; [cbn; lia|].
      exists ["inform"; "end"]. split; [vm_compute; reflexivity|by right; left]. }
    cbn [seller_run] in Hrun5. destruct C3 as [Epr [k3 Er3]].
    unfold seller_handle in Hrun5. rewrite Epr, String.eqb_refl in Hrun5. cbn [negb] in Hrun5.
    unfold seller_read in Hrun5. rewrite Er3, U3 in Hrun5. cbn in Hrun5. injection Hrun5 as _ <-.
    exists a1, a2, a3, v1, v2. done.
  Qed.

  Lemma update_effect tr s nonce m s1 r :
    sinv self tr s -> api_update (seller_config self) s nonce m = (s1, r) -> is_panic r = false ->
    exists g, effect (seller_config self) s s1 (m_sender m) g /\
      match r with Ok (_, Some p) => g = Some (p, m) | _ => g = None end.
  Proof.
    intros H E Hp. pose proof (sinv_inv _ _ _ H) as Hi.
    destruct (step_any (seller_config self) s (OpUpdate nonce m) s1 r (iv_any _ _ Hi) E Hp) as (_ & g & Hef & Hrep).
    exists g. split; [exact Hef|]. destruct r as [[om [p|]]|w|w]; try done.
    destruct Hrep as (x & -> & _ & -> & _). done.
  Qed.

  (** C78. The seller reports completion if and only if the envelope carries an end that either
      was taken into a dialogue or has a stray reference. *)
  Theorem C78_complete es s acts nonce oe s' r :
    seller_run struct_ok self empty_store es = (s, Ok acts) -> few es ->
    seller_handle struct_ok self s nonce oe = (s', r) ->
    r = Ok Complete <->
    exists e m, oe = Some e /\ carries e m /\ m_perf m = "end" /\
      (stray s m \/ exists p d d', s_heap s !! p = Some d /\ s_heap s' !! p = Some d' /\
         d_in d' = d_in d ++ [m]).
  Proof.
    intros H Hf Hh. destruct (run_start es s acts H Hf) as (tr & Hi & Hl).
    assert (forall e m k, oe = Some e -> e_protocol e = fipa_protocol -> seller_read struct_ok e = Ok (m, k) ->
      m_perf m = "end" ->
      exists s1 r1, api_update (seller_config self) s nonce m = (s1, r1) /\ is_panic r1 = false /\ s' = s1 /\
        r = match r1 with Ok _ => Ok Complete | _ => Ok Nothing end) as Hend.
    { intros e m k -> Epr Er He. destruct (read_small struct_ok e m k Er) as (R1 & R2 & _).
      destruct (sinv_update self tr s nonce m Hi) as (s1 & r1 & E & Hp & Hi1 & _); [lia|unfold min_int; lia|].
      exists s1, r1. split; [done|]. split; [done|]. revert Hh. unfold seller_handle.
      rewrite Epr, String.eqb_refl. cbn [negb]. rewrite Er, E, He.
      destruct r1 as [[om d]|w|w]; cbn; [by intros [= -> ->]|by intros [= -> ->]|done]. }
    split.
    - intros ->. pose proof Hh as Hh'. unfold seller_handle in Hh'. destruct oe as [e|]; [|done].
      destruct (String.eqb_spec (e_protocol e) fipa_protocol) as [Epr|Epr]; cbn [negb] in Hh'; [|done].
      destruct (seller_read struct_ok e) as [[m k]|w|w] eqn:Er; [|done..].
      assert (m_perf m = "end") as He.
      { destruct (api_update (seller_config self) s nonce m) as [s1 [[om d]|w|w]]; [|done..].
        assert (forall q ct, seller_reply self s1 d m q ct <> (s', Ok Complete)) as Hno.
        { intros q ct. unfold seller_reply. destruct d as [p|]; [|done].
          destruct (api_reply _ s1 p q (Some m) None) as [s2 [[[x|] y]|w|w]]; try done.
          by destruct (make_response_envelope x fipa_protocol ct). }
        destruct (String.eqb (m_perf m) "cfp"); [by apply Hno in Hh'|].
        destruct (String.eqb (m_perf m) "accept"); [by apply Hno in Hh'|].
        by destruct (String.eqb_spec (m_perf m) "end"). }
      destruct (Hend e m k eq_refl Epr Er He) as (s1 & r1 & E & Hp & -> & Hr).
      exists e, m. split; [done|]. split; [split; [done|by exists k]|]. split; [done|].
      destruct r1 as [[om [p|]]|w|w]; try done.
      + right. destruct (taken tr s nonce m s1 om p Hi E) as (Hfs & d' & h & Hd' & Hdi & _).
        destruct (update_effect tr s nonce m s1 _ Hi E eq_refl) as (g & Hef & ->).
        destruct (s_heap s !! p) as [d|] eqn:Ed.
        * exists p, d, d'. split; [done|]. split; [done|].
          destruct (ef_old _ _ _ _ _ Hef p d Ed) as (d2 & Hd2 & _ & _ & Hv & _).
          rewrite Hd' in Hd2. injection Hd2 as <-.
          destruct (ia_dlg _ s (iv_any _ _ (sinv_inv _ _ _ Hi)) p d Ed) as [h0 Hh0].
          specialize (Hv h0 Hh0). unfold suffix, from_of in Hv.
          rewrite decide_True in Hv by done. rewrite decide_False in Hv by apply Hfs.
          rewrite (rep_in _ _ (di_rep _ _ _ Hv)), (rep_in _ _ (di_rep _ _ _ Hh0)).
          by rewrite messages_of_app.
        * destruct (ef_new _ _ _ _ _ Hef p d' Ed Hd') as (_ & _ & Hv & _).
          unfold suffix, from_of in Hv. rewrite decide_True in Hv by done.
          destruct (di_conv _ _ _ Hv [] _ [] eq_refl) as (_ & _ & Hop & _).
          destruct (Hop eq_refl) as [(_ & _ & Hin & _) _]. cbn in Hin. rewrite He in Hin.
          by destruct Hin.
      + left. apply (stray_iff tr s nonce m Hi). exists om. by rewrite E.
    - intros (e & m & -> & [Epr (k & Er)] & He & Hc).
      destruct (Hend e m k eq_refl Epr Er He) as (s1 & r1 & E & Hp & -> & ->).
      destruct Hc as [Hs|(p & d & d' & Hd & Hd' & Hin)].
      + apply (stray_iff tr s nonce m Hi) in Hs as [om Hom]. rewrite E in Hom. cbn in Hom. by subst r1.
      + destruct r1 as [[om q]|w|w]; [done| |done]. exfalso.
        destruct (update_effect tr s nonce m s1 _ Hi E eq_refl) as (g & Hef & ->).
        destruct (ef_old _ _ _ _ _ Hef p d Hd) as (d2 & Hd2 & _ & _ & _ & _ & _ & Hsi & _).
        rewrite Hd' in Hd2. injection Hd2 as <-. rewrite Hsi in Hin.
        apply (f_equal length) in Hin. rewrite app_length in Hin. cbn in Hin. lia.
  Qed.

  (** C78. The performatives with more than one word are never taken: the seller does
      nothing and no dialogue records the message. *)
  Theorem C78_underscore es s acts nonce e m :
    seller_run struct_ok self empty_store es = (s, Ok acts) -> few es -> carries e m ->
    In (m_perf m) ["acceptWInform"; "matchAccept"; "matchAcceptWInform"] ->
    exists s', seller_handle struct_ok self s nonce (Some e) = (s', Ok Nothing) /\
      forall p d', s_heap s' !! p = Some d' ->
        match s_heap s !! p with
        | Some d => d_in d' = d_in d /\ d_out d' = d_out d
        | None => d_in d' = [] /\ d_out d' = []
        end.
  Proof.
    intros H Hf [Epr (k & Er)] Hm. fold (seller_read struct_ok e) in Er.
    destruct (run_start es s acts H Hf) as (tr & Hi & Hl).
    destruct (read_small struct_ok e m k Er) as (R1 & R2 & _).
    destruct (sinv_update self tr s nonce m Hi) as (s1 & r1 & E & Hp & Hi1 & _); [lia|unfold min_int; lia|].
    exists s1. split.
    { unfold seller_handle. rewrite Epr, String.eqb_refl. cbn [negb]. rewrite Er, E.
      destruct r1 as [[om d]|w|w]; [|done..].
      by destruct Hm as [<-|[<-|[<-|[]]]]. }
    destruct (update_effect tr s nonce m s1 r1 Hi E Hp) as (g & Hef & Hg).
    assert (g = None) as ->.
    { destruct r1 as [[om [p|]]|w|w]; try done. exfalso.
      destruct (taken tr s nonce m s1 om p Hi E) as (_ & d & h & _ & Hdi & _).
      destruct (di_conv _ _ _ Hdi h (Entry Peer m) [] eq_refl) as (_ & _ & Hop & Hans).
      destruct h as [|y h].
      - destruct (Hop eq_refl) as [(_ & _ & Hin & _) _]. cbn in Hin, Hm.
        destruct Hin as [Hin|[]]. rewrite <- Hin in Hm. by destruct Hm as [?|[?|[?|[]]]].
      - destruct (Hans ltac:(done)) as (_ & _ & _ & tm & _ & qs & Hqs & Hin). cbn [e_msg] in Hin.
        apply elem_of_list_to_map_2 in Hqs.
        repeat (apply elem_of_cons in Hqs as [Hqs|Hqs]; [injection Hqs as _ ->; cbn in Hin, Hm; clear -Hin Hm; intuition congruence|]).
        by apply elem_of_nil in Hqs. }
    intros p d' Hd'. destruct (s_heap s !! p) as [d|] eqn:Ed.
    - destruct (ef_old _ _ _ _ _ Hef p d Ed) as (d2 & Hd2 & _ & _ & _ & _ & Hsame).
      rewrite Hd' in Hd2. injection Hd2 as <-. by destruct Hsame as (-> & -> & _).
    - destruct (ef_new _ _ _ _ _ Hef p d' Ed Hd') as (_ & _ & _ & Ho & Hin & _). done.
  Qed.
End Claims.
Print Assumptions C78_crash.
Print Assumptions C78_answers.
Print Assumptions C78_exchange.
Print Assumptions C78_complete.
Print Assumptions C78_underscore.

(** * Concrete traffic *)

Definition any_struct (_ _ : bytes) : bool := true.

(** The envelope in which [b] sends a FIPA message to the seller. *)
Definition sent (b x r : string) (i t : Z) (f : fipa) : option envelope :=
  match make_response_envelope (Msg "seller" b (DRef x r) i t "") "fetchai/fipa:1.0.0" (fipa_bytes f) with
  | Ok e => Some e
  | _ => None
  end.

(** What an envelope put by the seller says, without its content. *)
Definition heard (a : sact) : string * option (address * dref * Z * Z * string) :=
  match a with
  | Nothing => ("nothing", None)
  | Complete => ("complete", None)
  | Puts v => ("puts", match read_envelope any_struct decode_fipa fipa_field_name v with
                       | Ok (m, _) => Some (m_to m, m_ref m, m_id m, m_target m, m_perf m)
                       | _ => None
                       end)
  end.

Definition heard_all (es : list (string * option envelope)) :=
  match (seller_run any_struct "seller" empty_store es).2 with
  | Ok acts => Some (map heard acts)
  | _ => None
  end.

(** Two buyers whose messages interleave, and a stranger who writes in another protocol. *)
Definition traffic : list (string * option envelope) :=
  [("n1", sent "carl" "x" "" 1 0 (Cfp (bytes_of "q")));
   ("n2", sent "dora" "x" "" 1 0 (Cfp (bytes_of "q")));
   ("n3", Some (Envelope "seller" "eve" "fetchai/default:1.0.0" [] ""));
   ("n4", sent "carl" "x" "n1" 2 (-1) Accept);
   ("n5", None);
   ("n6", sent "dora" "x" "n2" 2 (-1) Decline);
   ("n7", sent "carl" "x" "n1" 3 (-2) End)].

Example C78_example :
  heard_all traffic = Some
    [("puts", Some ("carl", DRef "x" "n1", -1, 1, "propose"));
     ("puts", Some ("dora", DRef "x" "n2", -1, 1, "propose"));
     ("nothing", None);
     ("puts", Some ("carl", DRef "x" "n1", -2, 2, "matchAccept"));
     ("nothing", None); ("nothing", None); ("complete", None)].
Proof. vm_compute. reflexivity. Qed.

(** C78. It is not the case that the seller survives any envelope: an accept of a
    stranger under a reference of their own ends it, at the start or in the middle of
    an exchange. *)
Theorem C78_crash_refuted :
  let stray_accept := ("n", sent "mallory" "a" "b" 1 0 Accept) in
  let crashes es := is_panic (seller_run any_struct "seller" empty_store es).2 = true in
  ~ crashes traffic /\ crashes [stray_accept] /\ crashes (traffic ++ [stray_accept]).
Proof. split; [|split]; vm_compute; congruence. Qed.
Print Assumptions C78_crash_refuted.

(** C78. It is not the case that a reported completion means that an exchange took place:
    an end of a stranger is reported as one. *)
Theorem C78_end_refuted :
  heard_all [("n", sent "mallory" "a" "b" 5 2 End)] = Some [("complete", None)].
Proof. vm_compute. reflexivity. Qed.
Print Assumptions C78_end_refuted.

(** C78. It is not the case that a buyer may accept with information, which the rules of
    the dialogue allow: the seller stays silent. *)
Theorem C78_w_inform_refuted :
  may_answer (seller_config "seller") "propose" "accept_w_inform" /\
  heard_all [("n1", sent "carl" "x" "" 1 0 (Cfp (bytes_of "q")));
             ("n2", sent "carl" "x" "n1" 2 (-1) (AcceptWInform [("address", "fetch1")]))]
  = Some [("puts", Some ("carl", DRef "x" "n1", -1, 1, "propose")); ("nothing", None)].
Proof.
  split; [|vm_compute; reflexivity]. eexists. split; [vm_compute; reflexivity|]. right; by left.
Qed.
Print Assumptions C78_w_inform_refuted.
