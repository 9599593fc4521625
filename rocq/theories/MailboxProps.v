(** Properties of the mailbox service (C34-C36). *)
From Coq Require Import ZArith NArith List String Ascii Lia.
From stdpp Require Import base tactics gmap list strings.
From Verif Require Import GoBase Bytes Utf8 WireModel ProtoModel WireProofs ProtoProofs ProtoProps CryptoModel PorModel
  CryptoProofs CryptoProps PorProps DelegateProps MailboxModel.
Open Scope string_scope.
Open Scope list_scope.
Open Scope Z_scope.

(** ** Data for the examples *)
Definition reg_req (r : record) : request := Request "POST" None (Ok (default [] (encode_record r))).
Definition get_req (sid : string) : request := Request "GET" (Some sid) (Ok []).
Definition send_req (sid : string) (e : envelope) : request :=
  Request "POST" (Some sid) (Ok (default [] (encode_envelope e))).
Definition to_alice (t : string) : envelope := env (r_address alice) "carol" t.
Definition toy_mrun := mrun toy "peer" mbox0.
(** Schedules with an unexpected outcome. *)
Definition sched1 : list mevent :=
  [MRegister (reg_req alice) "s1" true; MPut (to_alice "one"); MRegister (reg_req alice) "s2" true].
Definition sched2 : list mevent :=
  [MRegister (reg_req alice) "s1" true; MRegister (reg_req alice) "s2" true; MUnregisterBegin (get_req "s1") 1; MUnregisterEnd 1].
Definition sched3 : list mevent :=
  [MRegister (reg_req alice) "s1" true; MUnregisterBegin (get_req "s1") 1; MRegister (reg_req alice) "s2" true; MUnregisterEnd 1].
Definition sched4 : list mevent :=
  [MRegister (reg_req alice) "s1" true; MSend (send_req "s1" (env "carol" (r_address bob) "forged")) true].

(** ** Reading the log *)

(** Envelopes put into the mailbox of [a], and handed out from it. *)
Fixpoint puts (a : string) (l : list entry) : list envelope :=
  match l with
  | [] => []
  | LPut a' e :: t => if String.eqb a' a then e :: puts a t else puts a t
  | _ :: t => puts a t
  end.
Fixpoint gots (a : string) (l : list entry) : list envelope :=
  match l with
  | [] => []
  | LGot _ a' e :: t => if String.eqb a' a then e :: gots a t else gots a t
  | _ :: t => gots a t
  end.

(** The entry opens or closes the mailbox of [a]. *)
Definition opens (a : string) (x : entry) : Prop := exists sid r, x = LRegister sid r /\ r_address r = a.
Definition closes (a : string) (x : entry) : Prop := exists sid, x = LUnregister sid a.
(** The entry begins or ends session [sid]. *)
Definition begins (sid : string) (x : entry) : Prop := exists r, x = LRegister sid r.
Definition ends (sid : string) (x : entry) : Prop := exists a, x = LUnregister sid a.

Lemma puts_app a l1 l2 : puts a (l1 ++ l2) = puts a l1 ++ puts a l2.
Proof. induction l1 as [|[] l1 IH]; cbn; try done. destruct (String.eqb _ _); cbn; by rewrite IH. Qed.
Lemma gots_app a l1 l2 : gots a (l1 ++ l2) = gots a l1 ++ gots a l2.
Proof. induction l1 as [|[] l1 IH]; cbn; try done. destruct (String.eqb _ _); cbn; by rewrite IH. Qed.

Section Runs.
Context (P : prims) (my_key : string).
Notation mstep := (mstep P my_key).
Notation mrun := (mrun P my_key).

(** What a step can do to the state. *)
Inductive effect (m : mbox) (ev : mevent) : mbox -> Prop :=
| EfNone : effect m ev m
| EfRegister sid r : represents P r (r_address r) my_key ->
    effect m ev (log (Mbox (<[sid := r_address r]> (mb_sessions m)) (<[r_address r := r]> (mb_records m))
                        (<[r_address r := []]> (mb_boxes m)) (mb_leaving m) (mb_log m)) (LRegister sid r))
| EfLeaving id sid a : mb_sessions m !! sid = Some a ->
    effect m ev (Mbox (mb_sessions m) (mb_records m) (mb_boxes m) (<[id := (sid, a)]> (mb_leaving m)) (mb_log m))
| EfLeft id sid a : mb_leaving m !! id = Some (sid, a) ->
    effect m ev (log (Mbox (delete sid (mb_sessions m)) (delete a (mb_records m)) (delete a (mb_boxes m))
                        (delete id (mb_leaving m)) (mb_log m)) (LUnregister sid a))
| EfRoute sid e : effect m ev (log m (LRoute sid e))
| EfGot sid a e rest : mb_sessions m !! sid = Some a -> mb_boxes m !! a = Some (e :: rest) ->
    effect m ev (log (Mbox (mb_sessions m) (mb_records m) (<[a := rest]> (mb_boxes m)) (mb_leaving m) (mb_log m))
                  (LGot sid a e))
| EfPut e l : ev = MPut e -> mb_boxes m !! e_to e = Some l -> (length l < box_limit)%nat ->
    effect m ev (log (Mbox (mb_sessions m) (mb_records m) (<[e_to e := l ++ [e]]> (mb_boxes m))
                        (mb_leaving m) (mb_log m)) (LPut (e_to e) e)).

Lemma session_addr_iff m q sid a :
  session_addr m q = Some (sid, a) <-> q_session q = Some sid /\ mb_sessions m !! sid = Some a.
Proof.
  unfold session_addr. destruct (q_session q) as [s|]; [|split; [done|by intros [? _]]].
  destruct (mb_sessions m !! s) as [a'|] eqn:E; split; try done.
  - by intros [= -> ->].
  - intros [[= ->] ?]. congruence.
  - intros [[= ->] ?]. congruence.
Qed.

Lemma step_effect m ev m' r : mstep m ev = Some (m', r) -> effect m ev m'.
Proof.
  destruct ev as [q sid ok|q id|id|q ok|q ok|e]; cbn.
  - intros H. apply (inj Some) in H. unfold api_register, refuse in H.
    destruct (negb _); [injection H as <- <-; constructor|].
    destruct (q_body q) as [[|x body]|e|p]; try (injection H as <- <-; constructor).
    destruct (decode_record (x :: body)) as [rec|]; [|injection H as <- <-; constructor].
    destruct (is_valid_por P rec (r_address rec) my_key) as [[code err]|e|p] eqn:Ep;
      try (injection H as <- <-; constructor).
    destruct err; cbn in H; [injection H as <- <-; constructor|].
    destruct (Z.eqb_spec code SUCCESS) as [->|]; cbn in H; [|injection H as <- <-; constructor].
    destruct ok; cbn in H; injection H as <- <-; constructor. apply C29_accepted. exact Ep.
  - intros H. apply (inj Some) in H. unfold api_unregister_begin, refuse in H.
    destruct (negb _); [injection H as <- <-; constructor|].
    destruct (session_addr m q) as [[sid a]|] eqn:Es; injection H as <- <-; constructor.
    by apply session_addr_iff in Es as [_ ?].
  - unfold api_unregister_end. destruct (mb_leaving m !! id) as [[sid a]|] eqn:El; [|done].
    intros [= <- <-]. by constructor.
  - intros H. apply (inj Some) in H. unfold api_send, refuse in H.
    destruct (negb _); [injection H as <- <-; constructor|].
    destruct (session_addr m q) as [[sid a]|] eqn:Es; [|injection H as <- <-; constructor].
    destruct (q_body q) as [[|x body]|e|p]; try (injection H as <- <-; constructor).
    destruct (decode_envelope (x :: body)) as [e|]; injection H as <- <-; constructor.
  - intros H. apply (inj Some) in H. unfold api_get, refuse in H.
    destruct (negb _); [injection H as <- <-; constructor|].
    destruct (session_addr m q) as [[sid a]|] eqn:Es; [|injection H as <- <-; constructor].
    destruct (mb_boxes m !! a) as [[|e rest]|] eqn:Eb; cbn in H; try (injection H as <- <-; constructor).
    destruct (encode_envelope e); [|injection H as <- <-; constructor].
    destruct ok; injection H as <- <-; constructor; [|done]. by apply session_addr_iff in Es as [_ ?].
  - intros H. apply (inj Some) in H. unfold mailbox_route in H.
    destruct (mb_boxes m !! e_to e) as [l|] eqn:Eb; [|injection H as <- <-; constructor].
    destruct (Nat.leb_spec box_limit (length l)); injection H as <- <-; by constructor.
Qed.

(** Induction over schedules, by effects. *)
Lemma mrun_ind (I : mbox -> Prop) :
  I mbox0 -> (forall m ev m', I m -> effect m ev m' -> I m') ->
  forall evs m rs, mrun mbox0 evs = Some (m, rs) -> I m.
Proof.
  intros H0 HS evs. generalize H0. generalize mbox0. induction evs as [|ev evs IH]; intros m0 Hm m rs; cbn.
  - by intros [= <- <-].
  - destruct (mstep m0 ev) as [[m1 r]|] eqn:E; [|done].
    destruct (mrun m1 evs) as [[m2 rs']|] eqn:Er; [|done]. intros [= <- <-].
    eapply IH; [|done]. eapply HS; [done|]. by eapply step_effect.
Qed.

Lemma last_split {A} (l1 : list A) x l2 l y :
  l ++ [y] = l1 ++ x :: l2 -> (l2 = [] /\ l1 = l /\ x = y) \/ exists l2', l2 = l2' ++ [y] /\ l1 ++ x :: l2' = l.
Proof.
  intros H; symmetry in H; revert H.
  destruct l2 as [|z l2 _] using rev_ind.
  - intros [-> ->]%app_inj_tail. by left.
  - rewrite app_comm_cons, app_assoc. intros [E ->]%app_inj_tail. right. by exists l2.
Qed.

(** ** The content of a mailbox *)
Definition inv_open (m : mbox) : Prop :=
  forall a l1 x l2, mb_log m = l1 ++ x :: l2 -> opens a x -> (forall y, In y l2 -> ~ opens a y /\ ~ closes a y) ->
    exists box, mb_boxes m !! a = Some box /\ puts a l2 = gots a l2 ++ box.

Definition inv_closed (m : mbox) : Prop :=
  forall a, (forall l1 x l2, mb_log m = l1 ++ x :: l2 -> opens a x -> exists y, In y l2 /\ (opens a y \/ closes a y)) ->
    mb_boxes m !! a = None.

Lemma effect_open m ev m' : inv_open m -> effect m ev m' -> inv_open m'.
Proof.
  intros HI [|sid r Hr|id sid a Hs|id sid a Hl|sid e|sid a e rest Hs Hb|e l -> Hb Hlen]; [done|..];
    intros b l1 x l2 Hlog Ho Hno; cbn in *.
  - apply last_split in Hlog as [(-> & -> & ->)|(l2' & -> & Hlog)].
    + destruct Ho as (s & r' & [= <- <-] & <-). rewrite lookup_insert. by exists [].
    + symmetry in Hlog. destruct (HI b l1 x l2') as (box & Hbox & Heq); [done|done| |].
      { intros y Hy. apply Hno, in_or_app. by left. }
      exists box. rewrite lookup_insert_ne.
      { split; [done|]. rewrite puts_app, gots_app. cbn. by rewrite !app_nil_r. }
      intros E. destruct (Hno (LRegister sid r)) as [Hn _]; [apply in_or_app; right; by left|].
      apply Hn. by exists sid, r.
  - by eapply HI.
  - apply last_split in Hlog as [(-> & -> & ->)|(l2' & -> & Hlog)].
    + by destruct Ho as (s & r' & [=] & <-).
    + symmetry in Hlog. destruct (HI b l1 x l2') as (box & Hbox & Heq); [done|done| |].
      { intros y Hy. apply Hno, in_or_app. by left. }
      exists box. rewrite lookup_delete_ne.
      { split; [done|]. rewrite puts_app, gots_app. cbn. by rewrite !app_nil_r. }
      intros E. destruct (Hno (LUnregister sid a)) as [_ Hn]; [apply in_or_app; right; by left|].
      apply Hn. exists sid. by rewrite E.
  - apply last_split in Hlog as [(-> & -> & ->)|(l2' & -> & Hlog)].
    + by destruct Ho as (s & r' & [=] & <-).
    + symmetry in Hlog. destruct (HI b l1 x l2') as (box & Hbox & Heq); [done|done| |].
      { intros y Hy. apply Hno, in_or_app. by left. }
      exists box. split; [done|]. rewrite puts_app, gots_app. cbn. by rewrite !app_nil_r.
  - apply last_split in Hlog as [(-> & -> & ->)|(l2' & -> & Hlog)].
    + by destruct Ho as (s & r' & [=] & <-).
    + symmetry in Hlog. destruct (HI b l1 x l2') as (box & Hbox & Heq); [done|done| |].
      { intros y Hy. apply Hno, in_or_app. by left. }
      rewrite puts_app, gots_app. cbn. rewrite app_nil_r.
      destruct (String.eqb_spec a b) as [->|].
      * rewrite lookup_insert. exists rest. split; [done|]. rewrite Heq. rewrite Hb in Hbox. injection Hbox as <-.
        by rewrite <- app_assoc.
      * rewrite lookup_insert_ne by done. exists box. by rewrite app_nil_r.
  - apply last_split in Hlog as [(-> & -> & ->)|(l2' & -> & Hlog)].
    + by destruct Ho as (s & r' & [=] & <-).
    + symmetry in Hlog. destruct (HI b l1 x l2') as (box & Hbox & Heq); [done|done| |].
      { intros y Hy. apply Hno, in_or_app. by left. }
      rewrite puts_app, gots_app. cbn. rewrite app_nil_r.
      destruct (String.eqb_spec (e_to e) b) as [<-|].
      * rewrite lookup_insert. exists (l ++ [e]). split; [done|]. rewrite Heq. rewrite Hb in Hbox. injection Hbox as <-.
        by rewrite <- app_assoc.
      * rewrite lookup_insert_ne by done. exists box. by rewrite app_nil_r.
Qed.

Lemma effect_closed m ev m' : inv_closed m -> effect m ev m' -> inv_closed m'.
Proof.
  assert (Hsub : forall b l y, ~ opens b y -> ~ closes b y ->
    (forall l1 x l2, l ++ [y] = l1 ++ x :: l2 -> opens b x -> exists z, In z l2 /\ (opens b z \/ closes b z)) ->
    forall l1 x l2, l = l1 ++ x :: l2 -> opens b x -> exists z, In z l2 /\ (opens b z \/ closes b z)).
  { intros b l y Hy Hy' H l1 x l2 -> Ho. destruct (H l1 x (l2 ++ [y])) as (z & Hz & Hoc); [|done|].
    { by rewrite <- app_assoc. }
    apply in_app_or in Hz as [Hz|[<-|[]]]; [by exists z|]. by destruct Hoc. }
  intros HI [|sid r Hr|id sid a Hs|id sid a Hl|sid e|sid a e rest Hs Hb|e l -> Hb Hlen]; [done|..];
    intros b Hb'; cbn in *.
  - destruct (decide (r_address r = b)) as [<-|Hne].
    { exfalso. destruct (Hb' (mb_log m) (LRegister sid r) []) as (y & [] & _); [done|]. by exists sid, r. }
    rewrite lookup_insert_ne by done. apply HI. eapply Hsub; [..|exact Hb'].
    + by intros (s & r' & [= <- <-] & ?).
    + by intros (s & ?).
  - by apply HI.
  - destruct (decide (a = b)) as [->|]; [apply lookup_delete|]. rewrite lookup_delete_ne by done.
    apply HI. eapply Hsub; [..|exact Hb'].
    + by intros (s & r' & ? & ?).
    + by intros (s & [= -> ->]).
  - apply HI. eapply Hsub; [..|exact Hb']; [by intros (s & r' & ? & ?)|by intros (s & ?)].
  - assert (Hn : mb_boxes m !! b = None).
    { apply HI. eapply Hsub; [..|exact Hb']; [by intros (s & r' & ? & ?)|by intros (s & ?)]. }
    rewrite lookup_insert_ne; [done|]. intros ->. congruence.
  - assert (Hn : mb_boxes m !! b = None).
    { apply HI. eapply Hsub; [..|exact Hb']; [by intros (s & r' & ? & ?)|by intros (s & ?)]. }
    rewrite lookup_insert_ne; [done|]. intros <-. congruence.
Qed.

Definition inv_limit (m : mbox) : Prop := forall a box, mb_boxes m !! a = Some box -> (length box <= box_limit)%nat.

Lemma effect_limit m ev m' : inv_limit m -> effect m ev m' -> inv_limit m'.
Proof.
  intros HI [|sid r Hr|id sid a Hs|id sid a Hl|sid e|sid a e rest Hs Hb|e l -> Hb Hlen]; [done|..];
    intros b box; cbn; try apply HI.
  - destruct (decide (r_address r = b)) as [<-|]; [rewrite lookup_insert; intros [= <-]; cbn; lia|].
    rewrite lookup_insert_ne by done. apply HI.
  - destruct (decide (a = b)) as [<-|]; [by rewrite lookup_delete|]. rewrite lookup_delete_ne by done. apply HI.
  - destruct (decide (a = b)) as [<-|].
    + rewrite lookup_insert. intros [= <-]. apply HI in Hb. cbn in Hb. lia.
    + rewrite lookup_insert_ne by done. apply HI.
  - destruct (decide (e_to e = b)) as [<-|].
    + rewrite lookup_insert. intros [= <-]. rewrite app_length. cbn. lia.
    + rewrite lookup_insert_ne by done. apply HI.
Qed.

(** ** Sessions *)
Definition inv_session (m : mbox) : Prop :=
  forall sid a, mb_sessions m !! sid = Some a ->
    exists l1 r l2, mb_log m = l1 ++ LRegister sid r :: l2 /\ r_address r = a /\ represents P r a my_key /\
      forall y, In y l2 -> ~ begins sid y /\ ~ ends sid y.

Lemma effect_session m ev m' : inv_session m -> effect m ev m' -> inv_session m'.
Proof.
  assert (Hadd : forall l sid a y, ~ begins sid y -> ~ ends sid y ->
    (exists l1 r l2, l = l1 ++ LRegister sid r :: l2 /\ r_address r = a /\ represents P r a my_key /\
      forall z, In z l2 -> ~ begins sid z /\ ~ ends sid z) ->
    exists l1 r l2, l ++ [y] = l1 ++ LRegister sid r :: l2 /\ r_address r = a /\ represents P r a my_key /\
      forall z, In z l2 -> ~ begins sid z /\ ~ ends sid z).
  { intros l sid a y H1 H2 (l1 & r & l2 & -> & H3 & H4 & H5). exists l1, r, (l2 ++ [y]).
    split; [by rewrite <- app_assoc|]. do 2 (split; [done|]).
    intros z [Hz|[<-|[]]]%in_app_or; [by apply H5|done]. }
  intros HI [|sid r Hr|id sid a Hs|id sid a Hl|sid e|sid a e rest Hs Hb|e l -> Hb Hlen]; [done|..];
    intros s b; cbn.
  - destruct (decide (sid = s)) as [<-|].
    + rewrite lookup_insert. intros [= <-]. exists (mb_log m), r, []. done.
    + rewrite lookup_insert_ne by done. intros H%HI. apply Hadd; [by intros (? & [=])|by intros (? & ?)|done].
  - apply HI.
  - destruct (decide (sid = s)) as [<-|]; [by rewrite lookup_delete|]. rewrite lookup_delete_ne by done.
    intros H%HI. apply Hadd; [by intros (? & ?)|by intros (? & [=])|done].
  - intros H%HI. apply Hadd; [by intros (? & ?)|by intros (? & ?)|done].
  - intros H%HI. apply Hadd; [by intros (? & ?)|by intros (? & ?)|done].
  - intros H%HI. apply Hadd; [by intros (? & ?)|by intros (? & ?)|done].
Qed.

Definition inv_records (m : mbox) : Prop := forall a r, mb_records m !! a = Some r -> represents P r a my_key.

Lemma effect_records m ev m' : inv_records m -> effect m ev m' -> inv_records m'.
Proof.
  intros HI [|sid r Hr|id sid a Hs|id sid a Hl|sid e|sid a e rest Hs Hb|e l -> Hb Hlen]; [done|..];
    intros b r'; cbn; try apply HI.
  - destruct (decide (r_address r = b)) as [<-|]; [rewrite lookup_insert; by intros [= <-]|].
    rewrite lookup_insert_ne by done. apply HI.
  - destruct (decide (a = b)) as [<-|]; [by rewrite lookup_delete|]. rewrite lookup_delete_ne by done. apply HI.
Qed.
End Runs.

(** A decoded envelope can be written again. *)
Lemma decoded_text b s : text_of b = Some s -> valid_text s = true.
Proof.
  unfold text_of, valid_text. destruct (utf8_valid b) eqn:E; [|done]. intros [= <-]. by rewrite string_bytes.
Qed.

Lemma decoded_encodable b e : decode_envelope b = Some e -> exists out, encode_envelope e = Some out.
Proof.
  unfold decode_envelope, decode_into. destruct (get_fields b) as [fs|]; [|done].
  intros H. destruct (encode_envelope e) as [out|] eqn:E; [eauto|]. exfalso.
  assert (Hv : forall fs e0 e1, fold_fields envelope_field e0 fs = Some e1 ->
    Forall (fun s => valid_text s = true) [e_to e0; e_sender e0; e_protocol e0; e_uri e0] ->
    Forall (fun s => valid_text s = true) [e_to e1; e_sender e1; e_protocol e1; e_uri e1]).
  { clear. induction fs as [|[num v] fs IH]; intros e0 e1; cbn [fold_fields]; [by intros [= <-]|].
    destruct (envelope_field e0 num v) as [e2|] eqn:E2; [|done]. intros Hf H0. apply (IH e2 e1 Hf). clear Hf.
    destruct v; try (injection E2 as <-; exact H0).
    rewrite !Forall_cons in *. destruct H0 as (H1 & H2 & H3 & H4 & _).
    cbn in E2. repeat case_match; try done; injection E2 as <-; cbn;
      repeat match goal with H : text_of _ = Some _ |- _ => apply decoded_text in H end; done. }
  apply Hv in H; [|repeat constructor]. apply envelope_none in E as (s & Hs & Hf).
  rewrite Forall_forall in H. apply elem_of_list_In, H in Hs. congruence.
Qed.

(** ** C34 *)

(** Since the mailbox of an address was last opened and while it is not closed: the
    envelopes put in are those handed out, in order, followed by those still there,
    of which there are at most 1000. *)
Theorem C34_fifo P my_key evs m rs a l1 x l2 :
  mrun P my_key mbox0 evs = Some (m, rs) ->
  mb_log m = l1 ++ x :: l2 -> opens a x -> (forall y, In y l2 -> ~ opens a y /\ ~ closes a y) ->
  exists box, mb_boxes m !! a = Some box /\ puts a l2 = gots a l2 ++ box /\ (length box <= 1000)%nat.
Proof.
  intros Hr Hlog Ho Hno.
  assert (HI : inv_open m).
  { revert Hr. apply (mrun_ind P my_key inv_open); [by intros ? [|] ? ?|]. apply effect_open. }
  assert (HL : inv_limit m).
  { revert Hr. apply (mrun_ind P my_key inv_limit); [by intros a' box|]. apply effect_limit. }
  destruct (HI _ _ _ _ Hlog Ho Hno) as (box & Hb & Heq). exists box. do 2 (split; [done|]).
  apply (HL _ _ Hb).
Qed.
Print Assumptions C34_fifo.

(** While the mailbox of an address is closed, nothing is put in or handed out. *)
Theorem C34_closed P my_key evs m rs a q ok e :
  mrun P my_key mbox0 evs = Some (m, rs) ->
  (forall l1 x l2, mb_log m = l1 ++ x :: l2 -> opens a x -> exists y, In y l2 /\ (opens a y \/ closes a y)) ->
  is_addr_registered m a = false /\
  (e_to e = a -> mstep P my_key m (MPut e) = Some (m, Accepted false)) /\
  (forall sid, q_session q = Some sid -> mb_sessions m !! sid = Some a ->
     exists code, mstep P my_key m (MGet q ok) = Some (m, Response code [])).
Proof.
  intros Hr Hno.
  assert (HI : inv_closed m).
  { revert Hr. apply (mrun_ind P my_key inv_closed); [by intros ? ?|]. apply effect_closed. }
  pose proof (HI _ Hno) as Hn. split; [unfold is_addr_registered; by rewrite Hn|]. split.
  - intros <-. cbn. unfold mailbox_route. by rewrite Hn.
  - intros sid Hq Hs. cbn. unfold api_get, refuse. destruct (negb _); [eauto|].
    assert (Es : session_addr m q = Some (sid, a)) by (by apply session_addr_iff).
    rewrite Es, Hn. cbn. eauto.
Qed.
Print Assumptions C34_closed.

(** A full mailbox refuses, one that is not takes the envelope at the end. *)
Theorem C34_put P my_key m e box :
  mb_boxes m !! e_to e = Some box ->
  exists m' b, mstep P my_key m (MPut e) = Some (m', Accepted b) /\
    (b = false <-> (1000 <= length box)%nat) /\
    mb_boxes m' !! e_to e = Some (if b then box ++ [e] else box) /\
    (forall a, a <> e_to e -> mb_boxes m' !! a = mb_boxes m !! a) /\ mb_sessions m' = mb_sessions m.
Proof.
  intros Hb. cbn. unfold mailbox_route. rewrite Hb.
  destruct (Nat.leb_spec box_limit (length box)) as [H|H]; do 2 eexists; (split; [done|]).
  - split; [split; [intros _; exact H|done]|]. done.
  - split; [split; [done|]; intros H'; unfold box_limit in H; lia|]. cbn. rewrite lookup_insert.
    split; [done|]. split; [|done]. intros a Ha. by rewrite lookup_insert_ne.
Qed.
Print Assumptions C34_put.

(** A poll of a live session is answered with the oldest envelope, provided all
    envelopes came from the wire; it is removed exactly if writing the answer did not
    fail. *)
Theorem C34_get P my_key evs m rs q sid a e rest ok :
  mrun P my_key mbox0 evs = Some (m, rs) ->
  (forall x, In (MPut x) evs -> exists b, decode_envelope b = Some x) ->
  q_method q = "GET" -> q_session q = Some sid -> mb_sessions m !! sid = Some a ->
  mb_boxes m !! a = Some (e :: rest) ->
  exists m' buf, mstep P my_key m (MGet q ok) = Some (m', Response 200 buf) /\
    encode_envelope e = Some buf /\
    mb_boxes m' !! a = Some (if ok then rest else e :: rest).
Proof.
  intros Hr Hdec Hm Hq Hs Hb.
  assert (HE : exists b, decode_envelope b = Some e).
  { assert (H : forall evs m0 m rs, mrun P my_key m0 evs = Some (m, rs) ->
      (forall x, In (MPut x) evs -> exists b, decode_envelope b = Some x) ->
      (forall a l x, mb_boxes m0 !! a = Some l -> In x l -> exists b, decode_envelope b = Some x) ->
      forall a l x, mb_boxes m !! a = Some l -> In x l -> exists b, decode_envelope b = Some x).
    { clear. induction evs as [|ev evs IH]; intros m0 m rs; cbn [mrun]; [by intros [= <- <-]|].
      destruct (mstep P my_key m0 ev) as [[m1 r]|] eqn:E; [|done].
      destruct (mrun P my_key m1 evs) as [[m2 rs']|] eqn:Er; [|done]. intros [= <- <-] Hp H0.
      eapply IH; [done|intros; apply Hp; by right|]. clear IH Er.
      apply step_effect in E. destruct E as [|s r0 Hr|i s a Hs|i s a Hl|s e0|s a e0 rest Hs Hb|e0 l -> Hb Hlen];
        try done; cbn; intros a' l' x'.
      - destruct (decide (r_address r0 = a')) as [<-|];
          [rewrite lookup_insert; intros [= <-] []|rewrite lookup_insert_ne by done; by apply H0].
      - destruct (decide (a = a')) as [<-|]; [by rewrite lookup_delete|rewrite lookup_delete_ne by done; by apply H0].
      - destruct (decide (a = a')) as [<-|];
          [rewrite lookup_insert; intros [= <-] Hin; eapply H0; [done|by right]|rewrite lookup_insert_ne by done; by apply H0].
      - destruct (decide (e_to e0 = a')) as [<-|]; [|rewrite lookup_insert_ne by done; apply H0].
        rewrite lookup_insert. intros [= <-] [Hin|[<-|[]]]%in_app_or; [by eapply H0|].
        apply Hp. by left. }
    eapply (H evs mbox0 m rs Hr Hdec); [|exact Hb|by left]. by intros. }
  destruct HE as [b He]. destruct (decoded_encodable _ _ He) as [buf Hbuf].
  cbn. unfold api_get. rewrite Hm. cbn [negb String.eqb Ascii.eqb Bool.eqb].
  assert (Es : session_addr m q = Some (sid, a)) by (by apply session_addr_iff).
  rewrite Es, Hb. cbn [default from_option id]. rewrite Hbuf. destruct ok; do 2 eexists; (split; [done|]); (split; [done|]).
  - cbn. by rewrite lookup_insert.
  - done.
Qed.
Print Assumptions C34_get.

(** A registration opens an empty mailbox: whatever was waiting for the address is
    dropped, and nothing else changes. *)
Theorem C34_register P my_key m q sid ok m' body :
  mstep P my_key m (MRegister q sid ok) = Some (m', Response 200 body) ->
  exists b r, q_body q = Ok b /\ decode_record b = Some r /\ represents P r (r_address r) my_key /\
    body = bytes_of sid /\ mb_boxes m' = <[r_address r := []]> (mb_boxes m) /\
    mb_sessions m' = (<[sid := r_address r]> (mb_sessions m)) /\ get_agent_record m' (r_address r) = Some r.
Proof.
  cbn. unfold api_register, refuse. intros H. apply (inj Some) in H.
  destruct (negb _); [done|].
  destruct (q_body q) as [[|x b]|e|p]; try done.
  destruct (decode_record (x :: b)) as [r|] eqn:Ed; [|done].
  destruct (is_valid_por P r (r_address r) my_key) as [[code err]|e|p] eqn:Ep; try done.
  destruct err; cbn in H; [done|].
  destruct (Z.eqb_spec code SUCCESS) as [->|]; cbn in H; [|done].
  destruct ok; cbn in H; [|done]. injection H as <- <-. exists (x :: b), r.
  do 2 (split; [done|]). split; [by apply C29_accepted|]. do 3 (split; [done|]).
  unfold get_agent_record, is_addr_registered. cbn. by rewrite !lookup_insert.
Qed.
Print Assumptions C34_register.

(** The expectation that an accepted envelope waits until it is polled by a live
    session of its address fails: registering again, here with a second session of
    the same agent, drops it. *)
Theorem C34_accepted_is_kept_refuted :
  exists evs m rs e,
    mrun toy "peer" mbox0 evs = Some (m, rs) /\ In (Accepted true) rs /\
    In (LPut (r_address alice) e) (mb_log m) /\ (forall sid, ~ In (LGot sid (r_address alice) e) (mb_log m)) /\
    mb_sessions m !! "s1" = Some (r_address alice) /\ mb_boxes m !! r_address alice = Some [].
Proof.
  assert (H : match mrun toy "peer" mbox0 sched1 with
    | Some (m, rs) => rs = [Response 200 (bytes_of "s1"); Accepted true; Response 200 (bytes_of "s2")] /\
        mb_log m = [LRegister "s1" alice; LPut (r_address alice) (to_alice "one"); LRegister "s2" alice] /\
        mb_sessions m !! "s1" = Some (r_address alice) /\ mb_boxes m !! r_address alice = Some []
    | None => False
    end) by (vm_compute; done).
  destruct (mrun toy "peer" mbox0 sched1) as [[m rs]|] eqn:E; [|destruct H]. destruct H as (-> & Hl & Hs & Hb).
  do 4 eexists. split; [exact E|clear E]. split; [by right; left|]. rewrite Hl. split; [by right; left|].
  split; [|done]. by intros sid [?|[?|[?|[]]]].
Qed.
Print Assumptions C34_accepted_is_kept_refuted.

Example C34_example :
  match toy_mrun [MPut (to_alice "early"); MRegister (reg_req alice) "s1" true;
                  MPut (to_alice "one"); MPut (to_alice "two"); MGet (get_req "s1") false;
                  MGet (get_req "s1") true; MPut (to_alice "three"); MGet (get_req "s1") true] with
  | Some (m, rs) =>
      mb_boxes m !! r_address alice = Some [to_alice "three"] /\
      puts (r_address alice) (mb_log m) = [to_alice "one"; to_alice "two"; to_alice "three"] /\
      gots (r_address alice) (mb_log m) = [to_alice "one"; to_alice "two"] /\
      rs = [Accepted false; Response 200 (bytes_of "s1"); Accepted true; Accepted true;
            Response 200 (default [] (encode_envelope (to_alice "one")));
            Response 200 (default [] (encode_envelope (to_alice "one"))); Accepted true;
            Response 200 (default [] (encode_envelope (to_alice "two")))]
  | None => False
  end.
Proof. vm_compute. done. Qed.

(** ** C35 *)

(** An answer to a poll that carries an envelope goes to a session whose registration
    proved the address the envelope is for, and which has not been ended since. *)
Theorem C35_session P my_key evs m rs q ok m' code body :
  mrun P my_key mbox0 evs = Some (m, rs) ->
  mstep P my_key m (MGet q ok) = Some (m', Response code body) -> body <> [] ->
  exists sid a l1 r l2 e box,
    q_method q = "GET" /\ q_session q = Some sid /\
    mb_log m = l1 ++ LRegister sid r :: l2 /\ r_address r = a /\ represents P r a my_key /\
    (forall y, In y l2 -> ~ begins sid y /\ ~ ends sid y) /\
    mb_boxes m !! a = Some (e :: box) /\ encode_envelope e = Some body.
Proof.
  intros Hr H Hne.
  assert (HI : inv_session P my_key m).
  { revert Hr. apply (mrun_ind P my_key); [by intros sid a|]. apply effect_session. }
  cbn in H. apply (inj Some) in H. unfold api_get, refuse in H.
  destruct (String.eqb_spec (q_method q) "GET") as [Hm|]; cbn in H; [|injection H as <- <- <-; done].
  destruct (session_addr m q) as [[sid a]|] eqn:Es; [|injection H as <- <- <-; done].
  destruct (mb_boxes m !! a) as [[|e box]|] eqn:Eb; cbn in H; try (injection H as <- <- <-; done).
  destruct (encode_envelope e) as [buf|] eqn:Ee; [|injection H as <- <- <-; done].
  apply session_addr_iff in Es as [Hq Hs].
  destruct (HI _ _ Hs) as (l1 & r & l2 & Hlog & Ha & Hrep & Hno).
  exists sid, a, l1, r, l2, e, box. do 7 (split; [done|]). destruct ok; by injection H as <- <- <-.
Qed.
Print Assumptions C35_session.

(** Everything in the mailbox of an address is addressed to it. *)
Theorem C35_addressed P my_key evs m rs a box e :
  mrun P my_key mbox0 evs = Some (m, rs) -> mb_boxes m !! a = Some box -> In e box -> e_to e = a.
Proof.
  intros Hr. revert box e.
  assert (HI : forall a box e, mb_boxes m !! a = Some box -> In e box -> e_to e = a); [|by intros; eapply HI].
  revert Hr. apply (mrun_ind P my_key (fun m => forall a box e, mb_boxes m !! a = Some box -> In e box -> e_to e = a));
    [done|]. clear.
  intros m ev m' HI [|sid r Hr|id sid a Hs|id sid a Hl|sid e|sid a e rest Hs Hb|e l -> Hb Hlen]; [done|..];
    intros b box x; cbn; try apply HI.
  - destruct (decide (r_address r = b)) as [<-|]; [rewrite lookup_insert; by intros [= <-]|].
    rewrite lookup_insert_ne by done. apply HI.
  - destruct (decide (a = b)) as [<-|]; [by rewrite lookup_delete|]. rewrite lookup_delete_ne by done. apply HI.
  - destruct (decide (a = b)) as [<-|]; [|rewrite lookup_insert_ne by done; apply HI].
    rewrite lookup_insert. intros [= <-] Hin. eapply HI; [done|by right].
  - destruct (decide (e_to e = b)) as [<-|]; [|rewrite lookup_insert_ne by done; apply HI].
    rewrite lookup_insert. intros [= <-] [Hin|[<-|[]]]%in_app_or; [by eapply HI|done].
Qed.
Print Assumptions C35_addressed.

(** The records kept for delivery prove their addresses. *)
Theorem C35_records P my_key evs m rs a r :
  mrun P my_key mbox0 evs = Some (m, rs) -> get_agent_record m a = Some r -> represents P r a my_key.
Proof.
  intros Hr. unfold get_agent_record. destruct (is_addr_registered m a); [|done].
  revert a r. change (inv_records P my_key m).
  revert Hr. apply (mrun_ind P my_key); [by intros a r|]. apply effect_records.
Qed.
Print Assumptions C35_records.

(** A request that names no session, one that never was, or one that has been ended,
    is answered with status 400 and changes nothing. *)
Definition dead (m : mbox) (q : request) : Prop :=
  forall sid, q_session q = Some sid ->
    forall l1 x l2, mb_log m = l1 ++ x :: l2 -> begins sid x -> exists y, In y l2 /\ ends sid y.

Theorem C35_no_session P my_key evs m rs q ok id :
  mrun P my_key mbox0 evs = Some (m, rs) -> dead m q ->
  mstep P my_key m (MGet q ok) = Some (m, Response 400 []) /\
  mstep P my_key m (MSend q ok) = Some (m, Response 400 []) /\
  mstep P my_key m (MUnregisterBegin q id) = Some (m, Response 400 []).
Proof.
  intros Hr Hd.
  assert (HI : inv_session P my_key m).
  { revert Hr. apply (mrun_ind P my_key); [by intros sid a|]. apply effect_session. }
  assert (Hs : session_addr m q = None).
  { destruct (session_addr m q) as [[sid a]|] eqn:Es; [exfalso|done].
    apply session_addr_iff in Es as [Hq Hs]. destruct (HI _ _ Hs) as (l1 & r & l2 & Hlog & _ & _ & Hno).
    destruct (Hd sid Hq l1 _ l2 Hlog) as (y & Hy & He); [by exists r|]. by apply Hno in Hy as [_ ?]. }
  cbn. unfold api_get, api_send, api_unregister_begin, refuse. rewrite Hs.
  by repeat destruct (negb _).
Qed.
Print Assumptions C35_no_session.

(** A session lives until it is ended itself. *)
Theorem C35_live P my_key evs m rs sid r l1 l2 :
  mrun P my_key mbox0 evs = Some (m, rs) -> mb_log m = l1 ++ LRegister sid r :: l2 ->
  (forall y, In y l2 -> ~ begins sid y /\ ~ ends sid y) -> mb_sessions m !! sid = Some (r_address r).
Proof.
  intros Hr. revert sid r l1 l2. revert Hr.
  apply (mrun_ind P my_key (fun m => forall sid r l1 l2, mb_log m = l1 ++ LRegister sid r :: l2 ->
    (forall y, In y l2 -> ~ begins sid y /\ ~ ends sid y) -> mb_sessions m !! sid = Some (r_address r)));
    [by intros ? ? [|]|]. clear.
  intros m ev m' HI [|sid r Hr|id sid a Hs|id sid a Hl|sid e|sid a e rest Hs Hb|e l -> Hb Hlen]; [done|..];
    intros s r' l1 l2 Hlog Hno; cbn in *; try by eapply HI.
  all: apply last_split in Hlog as [(-> & -> & Hx)|(l2' & -> & Hlog)]; symmetry in Hlog || simplify_eq; try done.
  all: try (rewrite lookup_insert; done).
  all: assert (Hold : mb_sessions m !! s = Some (r_address r'))
    by (eapply HI; [exact Hlog|intros y Hy; apply Hno, in_or_app; by left]); try done.
  - rewrite lookup_insert_ne; [done|]. intros ->. destruct (Hno (LRegister s r)) as [Hn _];
      [apply in_or_app; right; by left|]. apply Hn. by exists r.
  - rewrite lookup_delete_ne; [done|]. intros ->. destruct (Hno (LUnregister s a)) as [_ Hn];
      [apply in_or_app; right; by left|]. apply Hn. by exists a.
Qed.
Print Assumptions C35_live.

(** Expected but false: a session that has not been ended can have its envelopes
    delivered. Ending another session of the same agent takes the mailbox away, and
    an unregister request overtaken by a new registration does too. *)
Theorem C35_mailbox_survives_refuted :
  (exists evs m rs, mrun toy "peer" mbox0 evs = Some (m, rs) /\
    mb_log m = [LRegister "s1" alice; LRegister "s2" alice; LUnregister "s1" (r_address alice)] /\
    mb_sessions m !! "s2" = Some (r_address alice) /\
    mstep toy "peer" m (MPut (to_alice "x")) = Some (m, Accepted false)) /\
  (exists evs m rs, mrun toy "peer" mbox0 evs = Some (m, rs) /\
    evs = [MRegister (reg_req alice) "s1" true; MUnregisterBegin (get_req "s1") 1;
           MRegister (reg_req alice) "s2" true; MUnregisterEnd 1] /\
    mb_sessions m !! "s2" = Some (r_address alice) /\
    mstep toy "peer" m (MPut (to_alice "x")) = Some (m, Accepted false)).
Proof.
  split.
  - assert (H : match mrun toy "peer" mbox0 sched2 with
      | Some (m, rs) => mb_log m = [LRegister "s1" alice; LRegister "s2" alice; LUnregister "s1" (r_address alice)] /\
          mb_sessions m !! "s2" = Some (r_address alice) /\ mb_boxes m !! r_address alice = None
      | None => False
      end) by (vm_compute; done).
    destruct (mrun toy "peer" mbox0 sched2) as [[m rs]|] eqn:E; [|destruct H]. destruct H as (Hl & Hs & Hb).
    do 3 eexists. split; [exact E|clear E]. do 2 (split; [done|]). cbn [mstep]. unfold mailbox_route.
    change (e_to (to_alice "x")) with (r_address alice). by rewrite Hb.
  - assert (H : match mrun toy "peer" mbox0 sched3 with
      | Some (m, rs) => mb_sessions m !! "s2" = Some (r_address alice) /\ mb_boxes m !! r_address alice = None
      | None => False
      end) by (vm_compute; done).
    destruct (mrun toy "peer" mbox0 sched3) as [[m rs]|] eqn:E; [|destruct H]. destruct H as (Hs & Hb).
    do 3 eexists. split; [exact E|clear E]. do 2 (split; [done|]). cbn [mstep]. unfold mailbox_route.
    change (e_to (to_alice "x")) with (r_address alice). by rewrite Hb.
Qed.
Print Assumptions C35_mailbox_survives_refuted.

(** A forged record, a stolen poll, a poll after the end of the session. *)
Example C35_example :
  match toy_mrun [MRegister (reg_req (Record_ "s" "fetchai" (r_address bob) "0A0b0c0D" "peer" (r_signature alice) "" "")) "s0" true;
                  MRegister (reg_req alice) "s1" true; MRegister (reg_req bob) "s2" true; MPut (to_alice "one");
                  MGet (get_req "s2") true; MGet (get_req "s9") true; MGet (get_req "s1") true;
                  MUnregisterBegin (get_req "s1") 7; MUnregisterEnd 7; MGet (get_req "s1") true] with
  | Some (m, rs) =>
      rs = [Response 400 []; Response 200 (bytes_of "s1"); Response 200 (bytes_of "s2"); Accepted true;
            Response 200 []; Response 400 []; Response 200 (default [] (encode_envelope (to_alice "one")));
            Waiting; Response 200 []; Response 400 []] /\
      get_agent_record m (r_address bob) = Some bob /\ get_agent_record m (r_address alice) = None
  | None => False
  end.
Proof. vm_compute. done. Qed.

(** ** C36 *)

(** A live session can have any envelope routed, whoever it names as the sender: the
    sender is compared with nothing. *)
Theorem C36_any_sender P my_key m q sid a e body ok :
  q_method q = "POST" -> q_session q = Some sid -> mb_sessions m !! sid = Some a ->
  encode_envelope e = Some body -> body <> [] -> Z.of_nat (length body) < 2 ^ 63 -> q_body q = Ok body ->
  mstep P my_key m (MSend q ok) = Some (log m (LRoute sid e), Response (if ok then 200 else 400) []).
Proof.
  intros Hm Hq Hs He Hne Hlen Hb. cbn. unfold api_send. rewrite Hm. cbn [negb String.eqb Ascii.eqb Bool.eqb].
  assert (Es : session_addr m q = Some (sid, a)) by (by apply session_addr_iff). rewrite Es, Hb.
  destruct body as [|x body]; [done|]. by rewrite (proj2 (C23_envelope e) _ He Hlen).
Qed.
Print Assumptions C36_any_sender.

(** Only live sessions have envelopes routed, exactly as posted. *)
Theorem C36_routed P my_key m q ok m' r :
  mstep P my_key m (MSend q ok) = Some (m', r) ->
  m' = m \/ exists sid a body e, q_method q = "POST" /\ q_session q = Some sid /\ mb_sessions m !! sid = Some a /\
    q_body q = Ok body /\ decode_envelope body = Some e /\ m' = log m (LRoute sid e).
Proof.
  cbn. unfold api_send, refuse. intros H. apply (inj Some) in H.
  destruct (String.eqb_spec (q_method q) "POST") as [Hm|]; cbn in H; [|injection H as <- <-; by left].
  destruct (session_addr m q) as [[sid a]|] eqn:Es; [|injection H as <- <-; by left].
  destruct (q_body q) as [[|x body]|e|p] eqn:Eb; try (injection H as <- <-; by left).
  destruct (decode_envelope (x :: body)) as [e|] eqn:Ed; injection H as <- <-; [right|by left].
  apply session_addr_iff in Es as [Hq Hs]. by exists sid, a, (x :: body), e.
Qed.
Print Assumptions C36_routed.

(** Expected but false: an envelope routed for a session names as its sender the
    address the session proved. *)
Theorem C36_sender_is_session_refuted :
  exists evs m rs sid e, mrun toy "peer" mbox0 evs = Some (m, rs) /\
    mb_log m = [LRegister sid alice; LRoute sid e] /\ rs = [Response 200 (bytes_of sid); Response 200 []] /\
    e_sender e = r_address bob /\ e_sender e <> r_address alice.
Proof.
  assert (H : match mrun toy "peer" mbox0 sched4 with
    | Some (m, rs) => mb_log m = [LRegister "s1" alice; LRoute "s1" (env "carol" (r_address bob) "forged")] /\
        rs = [Response 200 (bytes_of "s1"); Response 200 []]
    | None => False
    end) by (vm_compute; done).
  destruct (mrun toy "peer" mbox0 sched4) as [[m rs]|] eqn:E; [|destruct H]. destruct H as [Hl ->].
  do 5 eexists. split; [exact E|clear E]. split; [exact Hl|]. done.
Qed.
Print Assumptions C36_sender_is_session_refuted.
