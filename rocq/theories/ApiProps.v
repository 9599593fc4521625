(** C83: the calls of an agent program in any order (ApiModel.v). *)
From Coq Require Import List String Arith Lia.
From stdpp Require Import base tactics list.
From Verif Require Import GoBase ApiModel.
Open Scope string_scope.
Open Scope list_scope.
Open Scope nat_scope.

(** * Histories *)

Lemma run_snoc s es e r :
  run s (es ++ [e]) = Some r <-> exists s1, run s es = Some (Ok s1) /\ step s1 e = Some r.
Proof.
  revert s. induction es as [|a es IH]; intros s; cbn [run app].
  - split.
    + destruct (step s e) as [[]|] eqn:E; intros H; try discriminate H; injection H as <-; eauto.
    + intros (s1 & H & E). injection H as <-. rewrite E. by destruct r.
  - destruct (step s a) as [[s'|w|w]|].
    + apply IH.
    + split; [by destruct es|]. intros (s1 & H & _). by destruct es.
    + split; [by destruct es|]. intros (s1 & H & _). by destruct es.
    + split; [done|]. by intros (s1 & H & _).
Qed.

Lemma run_app s es es' r : run s (es ++ es') = Some r -> es' <> [] -> exists s1, run s es = Some (Ok s1) /\ run s1 es' = Some r.
Proof.
  revert s. induction es as [|e es IH]; intros s H Hn; cbn [run app] in *; [eauto|].
  destruct (step s e) as [[s'|w|w]|]; [by apply IH| | |done]; destruct es, es'; done.
Qed.

Ltac go H :=
  repeat (let E := fresh "E" in
    match type of H with
    | context [match ap_call ?a with _ => _ end] => destruct (ap_call a) eqn:E
    | context [match ap_socket ?a with _ => _ end] => destruct (ap_socket a) eqn:E
    | context [match ap_chans ?a with _ => _ end] => destruct (ap_chans a) eqn:E
    | context [match ap_queue ?a with _ => _ end] => destruct (ap_queue a) eqn:E
    | context [match ap_statuses ?a with _ => _ end] => destruct (ap_statuses a) eqn:E
    | context [match ap_listeners ?a with _ => _ end] => destruct (ap_listeners a) eqn:E
    | context [if ap_connected ?a then _ else _] => destruct (ap_connected a) eqn:E
    | context [if ap_closing ?a then _ else _] => destruct (ap_closing a) eqn:E
    | context [match read_conn ?c ?w with _ => _ end] => destruct (read_conn c w) as [[? ?]|] eqn:E
    | context [match ?x with _ => _ end] => is_var x; destruct x
    | context [if negb ?x then _ else _] => is_var x; destruct x; cbn [negb] in H
    | context [if ?x && ?y then _ else _] => destruct (x && y) eqn:E
    end; try discriminate H);
  try (injection H as <-).

(** What holds in every reachable state. *)
Record inv (a : api) : Prop := {
  i_chans : ap_chans a = match ap_connected a, ap_closing a with true, _ => Some false | false, true => Some true | false, false => None end;
  i_flags : ap_connected a = true -> ap_closing a = false;
  i_init : ap_socket a = None -> ap_initialised a = false /\ ap_listeners a = 0;
  i_listen : ap_chans a = None -> ap_listeners a = 0 /\ ap_queue a = [] /\ ap_statuses a = [];
  i_call : (ap_call a = InSig \/ exists n, ap_call a = InReg n) -> exists c, ap_socket a = Some c /\ c <> CNone
}.

Lemma inv0 : inv api0.
Proof. constructor; cbn; auto; try done. intros [?|(n & ?)]; done. Qed.

Lemma step_inv a e a' : inv a -> step a e = Some (Ok a') -> inv a'.
Proof.
  intros [Ic If Ii Il Ik] Hs. destruct e; cbn [step] in Hs; unfold listen, start_ends, start_on, call_ends in Hs; go Hs;
    (constructor; cbn; rewrite ?E, ?E0, ?E1, ?E2 in *; cbn in *; try tauto; try congruence; try (intros; intuition congruence); eauto).
  all: intros [?|(n & ?)]; done.
Qed.

Lemma run_inv es a : run api0 es = Some (Ok a) -> inv a.
Proof.
  revert a. induction es as [|e es IH] using rev_ind; intros a Hr.
  - injection Hr as <-. apply inv0.
  - apply run_snoc in Hr as (b & Hb & Hs). eapply step_inv; eauto.
Qed.

(** The next frame is the answer that ends Start well. *)
Definition succeeds (a : api) : Prop :=
  exists n c w, ap_call a = InReg n /\ ap_socket a = Some c /\ read_conn c (ap_wire a) = Some (Some (FStatus true), w).

Lemma go_connected a a' :
  step a EGo = Some (Ok a') -> ap_connected a' = true <-> succeeds a \/ ap_connected a = true.
Proof.
  intros Hs. split.
  - intros H. cbn [step] in Hs. unfold start_ends, start_on, call_ends in Hs. go Hs; cbn in H; auto.
    left. unfold succeeds. eauto 8.
  - intros [(n & c & w & H1 & H2 & H3)|H].
    + cbn [step] in Hs. rewrite H1, H2, H3 in Hs. injection Hs as <-. done.
    + cbn [step] in Hs. unfold start_ends, start_on, call_ends in Hs. go Hs; done.
Qed.

Lemma step_connected a e a' :
  step a e = Some (Ok a') ->
  (ap_connected a' = true <-> (e = EGo /\ succeeds a) \/ (ap_connected a = true /\ forall ok, e <> EStop ok)).
Proof.
  intros Hs. destruct e.
  5:{ split; [|intros [[? _]|[_ H]]; [done|by destruct (H ok)]]. intros H. cbn [step] in Hs. go Hs; done. }
  5:{ rewrite (go_connected a a' Hs). split; [intros [H|H]; auto; right; split; done|intros [[_ H]|[H _]]; auto]. }
  all: assert (ap_connected a' = ap_connected a) as -> by
    (cbn [step] in Hs; unfold listen, start_ends, start_on, call_ends in Hs; go Hs; cbn; congruence).
  all: split; [intros H; right; done|intros [[? _]|[H _]]; done].
Qed.

(** * The theorems *)

(** Connected says yes exactly if a Start has succeeded and Stop was not called since,
    whatever became of the connection. *)
Theorem C83_connected es a :
  run api0 es = Some (Ok a) ->
  (ap_connected a = true <->
   exists pre post b, es = pre ++ EGo :: post /\ run api0 pre = Some (Ok b) /\ succeeds b /\ forall ok, EStop ok ∉ post).
Proof.
  revert a. induction es as [|e es IH] using rev_ind; intros a Hr.
  - injection Hr as <-. split; [done|]. intros (pre & post & b & H & _). by destruct pre.
  - apply run_snoc in Hr as (b & Hb & Hs). rewrite (step_connected b e a Hs), (IH b Hb). split.
    + intros [[-> H]|[(pre & post & c & -> & H1 & H2 & H3) Hne]].
      * exists es, [], b. split; [done|]. split; [done|]. split; [done|]. intros ok Hi. by apply elem_of_nil in Hi.
      * exists pre, (post ++ [e]), c. split; [by rewrite <- app_assoc|]. split; [done|]. split; [done|].
        intros ok Hi. apply elem_of_app in Hi as [Hi|Hi]; [by eapply H3|]. apply elem_of_list_singleton in Hi. by eapply Hne.
    + intros (pre & post & c & He & H1 & H2 & H3). destruct post as [|x post _] using rev_ind.
      * apply app_inj_tail in He as [-> ->]. left. split; [done|]. by rewrite Hb in H1; injection H1 as ->.
      * change (EGo :: post ++ [x]) with ((EGo :: post) ++ [x]) in He. rewrite app_assoc in He. apply app_inj_tail in He as [-> ->].
        right. split.
        -- exists pre, post, c. split; [done|]. split; [done|]. split; [done|]. intros ok Hi. apply (H3 ok), elem_of_app. by left.
        -- intros ok ->. apply (H3 ok), elem_of_app. right. by apply elem_of_list_singleton.
Qed.
Print Assumptions C83_connected.

(** Stop returns, with no error, exactly if the agent says it is connected and the connection was
    not closed by its listener and closes well; in all other cases it ends the process. *)
Theorem C83_stop es a ok :
  run api0 es = Some (Ok a) -> ap_call a = Idle ->
  exists r, step a (EStop ok) = Some r /\
    ((exists a', r = Ok a') <-> ok = true /\ ap_connected a = true /\ (ap_socket a = Some COpen \/ ap_socket a = Some CCut)) /\
    ((exists why, r = Panic why) \/ exists a', r = Ok a' /\ ap_connected a' = false /\ ap_queue a' = ap_queue a).
Proof.
  intros Hr Hi. apply run_inv in Hr as [Ic If Ii Il Ik]. cbn [step]. rewrite Hi.
  destruct (ap_socket a) as [[]|] eqn:Es; destruct ok; cbn [negb].
  all: try solve [eexists; (split; [reflexivity|]); split; [split; [intros (? & ?); done|intros (? & ? & [?|?]); done]|left; eauto]].
  all: destruct (ap_connected a) eqn:Ec; rewrite Ic; [|destruct (ap_closing a)].
  all: try solve [eexists; (split; [reflexivity|]); split; [split; [intros (? & ?); done|intros (? & ? & [?|?]); done]|left; eauto]].
  all: eexists; (split; [reflexivity|]); split; [split; eauto|right; eauto].
Qed.
Print Assumptions C83_stop.

(** ** An agent that is started once *)

(** Before the first Start. *)
Record before (a : api) : Prop := {
  b_chans : ap_chans a = None; b_connected : ap_connected a = false; b_closing : ap_closing a = false;
  b_listen : ap_listeners a = 0; b_socket : ap_socket a = None /\ ap_initialised a = false \/ ap_socket a = Some CNone;
  b_call : ap_call a = Idle \/ ap_call a = Stuck
}.

(** From the first Start on. *)
Record after (a : api) : Prop := {
  a_listen : ap_listeners a <= 1;
  a_socket : ap_socket a <> None;
  a_conn : ap_chans a <> None -> ap_socket a <> Some CNone;
  a_closed : ap_chans a = Some true -> ap_socket a = Some CClosed;
  a_start : (ap_call a = InSig \/ exists n, ap_call a = InReg n) -> ap_listeners a = 0 /\ ap_chans a = None;
  a_put : ap_call a = InPut -> ap_chans a <> Some true
}.

Definition blamed (e : event) (b : api) : Prop :=
  match e with
  | EInit wallet conn => wallet = false \/ conn = false
  | EStart d => ap_initialised b = false \/ d = NoKey
  | EPut _ => ap_socket b = None \/ ap_socket b = Some CNone
  | EStop ok => ok = false \/ ap_connected b = false \/ ap_socket b = Some CClosed
  | _ => False
  end.

Lemma before_step a e r :
  before a -> step a e = Some r ->
  match e with
  | EStart _ => (exists a', r = Ok a' /\ after a') \/ (exists w, r = Panic w) /\ blamed e a
  | _ => (exists a', r = Ok a' /\ before a') \/ (exists w, r = Panic w) /\ blamed e a
  end.
Proof.
  intros [Bc Bn Bl Bi Bs Bk] Hs. destruct e; cbn [step] in Hs; unfold listen, start_ends, start_on, call_ends in Hs.
  - destruct Bk as [Bk|Bk]; rewrite Bk in Hs; [|done]. rewrite Bn in Hs. destruct wallet, conn; cbn [negb] in Hs; injection Hs as <-; cbn; eauto 6.
    left. eexists. split; [done|]. constructor; cbn; auto.
  - destruct Bk as [Bk|Bk]; rewrite Bk in Hs; [|done]. destruct Bs as [[Bs Bi']|Bs]; rewrite Bs in Hs.
    + injection Hs as <-. cbn. eauto 6.
    + destruct d; injection Hs as <-; cbn; eauto 6.
      * left. eexists. split; [done|]. constructor; cbn; auto; try congruence; try lia; try (intros [?|(n & ?)]; done).
      * left. eexists. split; [done|]. constructor; cbn; auto; try congruence; try lia.
  - destruct Bk as [Bk|Bk]; rewrite Bk in Hs; [|done]. destruct Bs as [[Bs _]|Bs]; rewrite Bs in Hs; injection Hs as <-; cbn; eauto 6.
  - destruct Bk as [Bk|Bk]; rewrite Bk in Hs; [|done]. rewrite Bc in Hs. injection Hs as <-. left. eexists. split; [done|]. constructor; cbn; auto.
  - destruct Bk as [Bk|Bk]; rewrite Bk in Hs; [|done]. destruct Bs as [[Bs _]|Bs]; rewrite Bs in Hs; injection Hs as <-; cbn; eauto 6.
  - destruct Bk as [Bk|Bk]; rewrite Bk in Hs; done.
  - destruct Bk as [Bk|Bk]; rewrite Bk in Hs; done.
  - destruct Bs as [[Bs _]|Bs]; rewrite Bs in Hs; done.
  - destruct Bs as [[Bs _]|Bs]; rewrite Bs in Hs; done.
  - rewrite Bi in Hs. done.
Qed.

Lemma after_step a e r :
  inv a -> after a -> step a e = Some r -> (forall d, e <> EStart d) -> (forall w c, e <> EInit w c) ->
  (exists a', r = Ok a' /\ after a') \/ (exists w, r = Panic w) /\ blamed e a.
Proof.
  intros [Ic If Ii Il Ik] [Al As An Ac Ak Ap] Hs Hd Hc. destruct e; [by destruct (Hc wallet conn)|by destruct (Hd d)|..];
    cbn [step] in Hs; unfold listen, start_ends, start_on, call_ends in Hs.
  - go Hs; cbn; rewrite ?E0; eauto 6;
      (left; eexists; (split; [reflexivity|]); constructor; cbn; rewrite ?E0; auto; try congruence; try (intros [?|(n & ?)]; done)).
    all: intros _ H; specialize (Ac H); try congruence. all: destruct w; done.
  - go Hs; (left; eexists; (split; [reflexivity|]); constructor; cbn; rewrite ?E0 in *; auto; try congruence; try (intros [?|(n0 & ?)]; done)).
  - assert (ap_connected a = true -> ap_chans a = Some false) as Hch by (intros H; by rewrite H in Ic).
    assert (ap_chans a <> Some false -> ap_connected a = false) as Hch' by (intros H; destruct (ap_connected a); [by destruct H; apply Hch|done]).
    go Hs; cbn; rewrite ?E0; eauto 6.
    all: first [solve [left; eexists; (split; [reflexivity|]); constructor; cbn; auto; try congruence; try (intros [?|(n0 & ?)]; done)]
               |solve [right; split; [eauto|]; right; left; apply Hch'; first [congruence|intros H; destruct An; [congruence|done]]]|idtac].
  - assert (ap_call a = InSig \/ (exists n, ap_call a = InReg n) -> ap_listeners a = 0 /\ ap_chans a = None /\ ap_socket a <> Some CNone) as Hst.
    { intros H. destruct (Ak H), (Ik H) as (c & ? & ?). split; [done|]. split; [done|]. congruence. }
    go Hs; try (exfalso; by apply Ap); (try (destruct Hst as (H1 & H2 & H3); [by eauto|]); left; eexists; (split; [reflexivity|]); constructor; cbn; rewrite ?H1, ?H2, ?E0 in *; auto; try congruence; try lia; try (intros [?|(n9 & ?)]; done)).
  - go Hs; (left; eexists; (split; [reflexivity|]); constructor; cbn; rewrite ?E0 in *; auto; try congruence; try (intros [?|(n9 & ?)]; done)).
  - go Hs; (left; eexists; (split; [reflexivity|]); constructor; cbn; rewrite ?E in *; auto; try congruence).
  - go Hs; (left; eexists; (split; [reflexivity|]); constructor; cbn; rewrite ?E in *; auto; try congruence). intros H. specialize (Ac H). congruence.
  - destruct (ap_listeners a) as [|n] eqn:El; [done|]. assert (ap_chans a <> None) as Hch by (intros H; destruct (Il H); lia).
    destruct (ap_socket a) as [c|] eqn:Es; [|done]. assert (c <> CNone) as Hcn by (intros ->; by apply An).
    assert (~ (ap_call a = InSig \/ exists n, ap_call a = InReg n)) as Hno by (intros H; destruct (Ak H); lia).
    assert (ap_chans a = Some true -> c = CClosed) as Hcl by (intros H; specialize (Ac H); congruence).
    assert (read_conn CClosed (ap_wire a) = Some (None, ap_wire a)) as Hrc by done.
    destruct (read_conn c (ap_wire a)) as [[fr w]|] eqn:Er; [|by destruct c].
    assert (ap_chans a = Some true -> fr = None) as Hfr by (intros H; rewrite (Hcl H) in Er; congruence).
    assert (match fr with
            | None | Some FBad | Some (FSig _) => exists cc l, l <= 1 /\ cc <> CNone /\ (ap_chans a = Some true -> cc = CClosed) /\
                r = Ok (Api (Some cc) w (ap_closing a) (ap_connected a) (ap_initialised a) (ap_chans a) (ap_queue a) (ap_statuses a) l (ap_call a) (ap_got a) (ap_said a))
            | _ => exists q st l, l <= 1 /\ r = Ok (Api (Some c) w (ap_closing a) (ap_connected a) (ap_initialised a) (ap_chans a) q st l (ap_call a) (ap_got a) (ap_said a))
            end) as Hr.
    { assert ((if ap_closing a
         then Some (Ok (Api (Some c) w (ap_closing a) (ap_connected a) (ap_initialised a) (ap_chans a) (ap_queue a) (ap_statuses a) (S n) (ap_call a) (ap_got a) (ap_said a)))
         else Some (Ok (Api (Some CClosed) w (ap_closing a) (ap_connected a) (ap_initialised a) (ap_chans a) (ap_queue a) (ap_statuses a) n (ap_call a) (ap_got a) (ap_said a)))) = Some r ->
         exists cc l, l <= 1 /\ cc <> CNone /\ (ap_chans a = Some true -> cc = CClosed) /\
                r = Ok (Api (Some cc) w (ap_closing a) (ap_connected a) (ap_initialised a) (ap_chans a) (ap_queue a) (ap_statuses a) l (ap_call a) (ap_got a) (ap_said a))) as Hend.
      { destruct (ap_closing a); intros H; injection H as <-; [exists c, (S n)|exists CClosed, n]; (split; [lia|]); done. }
      destruct c; [done|..]; destruct fr as [[ok|ok|e| |]|]; try (by apply Hend).
      all: cbn in Hs. all: destruct (ap_chans a) as [[]|]; try done; try (by specialize (Hfr eq_refl)).
      all: injection Hs as <-; eexists _, _, _; (split; [|reflexivity]); try lia. all: destruct (ap_closing a); lia. }
    left. destruct fr as [[ok|ok|e| |]|];
      first [destruct Hr as (cc & l & Hl & H1 & H2 & ->)|destruct Hr as (q & st & l & Hl & ->)]; eexists; (split; [reflexivity|]); constructor; cbn; auto; try congruence.
    all: try (intros H; by destruct (Hno H)). all: try (intros H; f_equal; by auto).
Qed.

Definition unstarted (es : list event) : Prop := forall d, EStart d ∉ es.
Definition uninit (es : list event) : Prop := forall w c, EInit w c ∉ es.

Lemma before_run es a : unstarted es -> run api0 es = Some (Ok a) -> before a.
Proof.
  revert a. induction es as [|e es IH] using rev_ind; intros a Hpre Ha.
  - injection Ha as <-. constructor; cbn; auto.
  - apply run_snoc in Ha as (b & Hb & Hs).
    assert (before b) as Hbb. { apply (IH b); [|done]. intros d' Hd. apply (Hpre d'), elem_of_app. by left. }
    pose proof (before_step b e _ Hbb Hs) as H. destruct e.
    2:{ exfalso. apply (Hpre d), elem_of_app. right. by apply elem_of_list_singleton. }
    all: destruct H as [(a' & E & H)|((w9 & E) & _)]; [by injection E as ->|done].
Qed.

(** At most one Start, and no InitFromEnv after it. *)
Definition orderly (es : list event) : Prop :=
  unstarted es \/ exists pre d post, es = pre ++ EStart d :: post /\ unstarted pre /\ unstarted post /\ uninit post.

(** An agent program that starts its agent at most once and does not initialise it again after
    that has at most one listener and is crashed by no listener and while no call waits; a call
    crashes it only as follows: InitFromEnv for a bad environment, Start before InitFromEnv or for a
    node without a certificate of its kind, Put before there was a connection, Stop if
    the agent is not connected, its listener closed the connection, or closing fails. *)
Theorem C83_once all r :
  orderly all -> run api0 all = Some r ->
  (exists a, r = Ok a /\ ap_listeners a <= 1) \/
  (exists es e b, all = es ++ [e] /\ run api0 es = Some (Ok b) /\ (exists w, r = Panic w) /\ blamed e b).
Proof.
  intros [Hu|(pre & d & post & -> & Hpre & Hpost & Hpost')] Hr.
  { destruct all as [|e es _] using rev_ind.
    { injection Hr as <-. left. exists api0. split; [done|cbn; lia]. }
    apply run_snoc in Hr as (b & Hb & Hs).
    assert (before b) as Hbb. { eapply before_run; [|exact Hb]. intros d Hd. apply (Hu d), elem_of_app. by left. }
    pose proof (before_step b e _ Hbb Hs) as H.
    assert ((exists a, r = Ok a /\ ap_listeners a <= 1) \/ (exists w, r = Panic w) /\ blamed e b) as [?|[? ?]]; [|by left|right; by exists es, e, b].
    destruct e; destruct H as [(a' & E & H)|H]; auto; left; exists a'; (split; [done|]); first [rewrite (b_listen _ H); lia|apply (a_listen _ H)]. }
  apply run_app in Hr as (a & Ha & Hr); [|done].
  assert (before a) as Hb by (eapply before_run; [exact Hpre|exact Ha]).
  assert (forall post a', uninit post -> unstarted post -> run a (EStart d :: post) = Some (Ok a') -> after a' /\ inv a') as Haft.
  { clear -Ha Hb. intros post. induction post as [|e post IH] using rev_ind; intros a' Hi Hd Hr.
    - cbn [run] in Hr. destruct (step a (EStart d)) as [[x|w|w]|] eqn:Es; try done. injection Hr as ->. split.
      + destruct (before_step a (EStart d) _ Hb Es) as [(y & E & H)|((w9 & E) & _)]; [by injection E as ->|done].
      + eapply step_inv; [|exact Es]. by eapply run_inv.
    - change (EStart d :: post ++ [e]) with ((EStart d :: post) ++ [e]) in Hr. apply run_snoc in Hr as (b & Hr & Hs).
      assert (uninit post) as Hi' by (intros w c H; apply (Hi w c), elem_of_app; by left).
      assert (unstarted post) as Hd' by (intros w H; apply (Hd w), elem_of_app; by left).
      destruct (IH b Hi' Hd' Hr) as [Hab Hib]. split; [|by eapply step_inv].
      destruct (after_step b e _ Hib Hab Hs) as [(y & E & H)|((w9 & E) & _)]; [| |by injection E as ->|done].
      + intros d' ->. apply (Hd d'), elem_of_app. right. by apply elem_of_list_singleton.
      + intros w c ->. apply (Hi w c), elem_of_app. right. by apply elem_of_list_singleton. }
  destruct post as [|e post _] using rev_ind.
  - cbn [run] in Hr. destruct (step a (EStart d)) as [x|] eqn:Es; [|done].
    assert (x = r) as -> by (destruct x; congruence).
    destruct (before_step a (EStart d) _ Hb Es) as [(y & -> & H)|(Hw & H)].
    + left. exists y. split; [done|]. apply H.
    + right. exists pre, (EStart d), a. done.
  - change (EStart d :: post ++ [e]) with ((EStart d :: post) ++ [e]) in Hr. apply run_snoc in Hr as (b & Hr & Hs).
    assert (uninit post) as Hi' by (intros w c H; apply (Hpost' w c), elem_of_app; by left).
    assert (unstarted post) as Hd' by (intros w H; apply (Hpost w), elem_of_app; by left).
    destruct (Haft post b Hi' Hd' Hr) as [Hab Hib].
    destruct (after_step b e _ Hib Hab Hs) as [(y & -> & H)|(Hw & H)].
    + intros d' ->. apply (Hpost d'), elem_of_app. right. by apply elem_of_list_singleton.
    + intros w c ->. apply (Hpost' w c), elem_of_app. right. by apply elem_of_list_singleton.
    + left. exists y. split; [done|]. apply H.
    + right. exists (pre ++ EStart d :: post), e, b. split; [by rewrite <- app_assoc|]. split; [|done].
      clear -Ha Hr. revert Ha. generalize api0. induction pre as [|x pre IH]; intros s Ha; cbn [run app] in *; [by injection Ha as ->|].
      destruct (step s x) as [[]|]; try done; [by apply IH|by destruct pre..].
Qed.
Print Assumptions C83_once.

(** After Start returned nil and Stop was called, nothing ends the listener that Start left behind: as long as the
    program does not call Start again, it goes round and round without any effect, or, once the program
    called InitFromEnv, crashes the process. *)
Record left_behind (a : api) : Prop := {
  q_call : ap_call a <> InSig /\ forall n, ap_call a <> InReg n;
  q_open : ap_socket a = Some COpen \/ ap_socket a = Some CCut -> ap_connected a = true /\ 1 <= ap_listeners a;
  q_flags : ap_connected a = true -> ap_closing a = false;
  q_closing : ap_closing a = true -> 1 <= ap_listeners a /\ (ap_socket a = Some CClosed \/ ap_socket a = Some CNone)
}.

Lemma left_behind_step a e a' :
  left_behind a -> (forall d, e <> EStart d) -> step a e = Some (Ok a') -> left_behind a' /\ (ap_closing a = true -> ap_closing a' = true).
Proof.
  intros [[Q1 Q1'] Q2 Qf Q3] Hd Hs.
  assert (ap_socket a = Some COpen \/ ap_socket a = Some CCut -> ap_closing a = false /\ 1 <= ap_listeners a) as Hop.
  { intros H. destruct (Q2 H). split; auto. }
  destruct e; [|by destruct (Hd d)|..]; cbn [step] in Hs; unfold listen, start_ends, start_on, call_ends in Hs.
  5:{ destruct (ap_call a) eqn:E; try done; [by destruct (Q1' n)|]. go Hs; (split; [|by cbn; auto]); constructor; cbn; auto; by split. }
  all: go Hs; (split; [|by cbn; auto]); constructor; cbn.
  all: try solve [rewrite ?E in *; auto; try congruence; try (by split); try (intros [?|?]; congruence)].
  all: try solve [intros H; destruct (Q3 H) as [? [?|?]]; auto; congruence].
  all: try solve [intros _; destruct Hop; auto; congruence].
  intros H. split; [done|]. by apply Hop.
Qed.

Lemma left_behind_run es a a' :
  left_behind a -> unstarted es -> run a es = Some (Ok a') ->
  left_behind a' /\ (ap_closing a = true \/ (exists ok, EStop ok ∈ es) -> ap_closing a' = true).
Proof.
  revert a'. induction es as [|e es IH] using rev_ind; intros a' Hl Hu Hr.
  - injection Hr as <-. split; [done|]. intros [?|(ok & H)]; [done|]. by apply elem_of_nil in H.
  - apply run_snoc in Hr as (b & Hb & Hs).
    destruct (IH b Hl) as [Hlb Hcb]; [|done|]. { intros d H. apply (Hu d), elem_of_app. by left. }
    destruct (left_behind_step b e a' Hlb) as [Hla Hca]; [|done|].
    { intros d ->. apply (Hu d), elem_of_app. right. by apply elem_of_list_singleton. }
    split; [done|]. intros [H|(ok & H)]; [by auto|]. apply elem_of_app in H as [H|H]; [by eauto|].
    apply elem_of_list_singleton in H as <-. clear -Hs. cbn [step] in Hs. go Hs; done.
Qed.

Lemma none_step d e c :
  step d e = Some (Ok c) -> ap_socket c = Some CNone -> match e with EStart _ | EInit _ _ => True | _ => ap_socket d = Some CNone end.
Proof.
  intros Hs Hso. destruct e; try done; cbn [step] in Hs; unfold listen, start_ends, start_on, call_ends in Hs; go Hs; cbn in Hso; congruence.
Qed.

Theorem C83_spins es a b es' c :
  run api0 es = Some (Ok a) -> succeeds a -> step a EGo = Some (Ok b) ->
  unstarted es' -> (exists ok, EStop ok ∈ es') -> run b es' = Some (Ok c) ->
  ap_connected c = false /\
  (ap_socket c = Some CClosed /\ step c EListen = Some (Ok c) \/
   ap_socket c = Some CNone /\ (exists w cn, EInit w cn ∈ es') /\ exists why, step c EListen = Some (Panic why)).
Proof.
  intros Ha (n & k & w & H1 & H2 & H3) Hs Hu He Hr.
  assert (inv a) as Hia by (by eapply run_inv). destruct (i_call a Hia) as (k' & Hk & Hk'); [eauto|].
  assert (left_behind b) as Hb.
  { cbn [step] in Hs. rewrite H1, H2, H3 in Hs. unfold start_ends in Hs. injection Hs as <-. constructor; cbn; auto; try done. intros _. split; [done|lia]. }
  assert (ap_socket b <> Some CNone) as Hnb.
  { cbn [step] in Hs. rewrite H1, H2, H3 in Hs. unfold start_ends in Hs. injection Hs as <-. cbn. congruence. }
  destruct (left_behind_run es' b c Hb Hu Hr) as [Hc Hcl]. specialize (Hcl (or_intror He)).
  split. { destruct (ap_connected c) eqn:E; [|done]. by rewrite (q_flags _ Hc E) in Hcl. }
  destruct (q_closing _ Hc Hcl) as [Hl Hso]. cbn [step]. unfold listen. destruct (ap_listeners c) as [|m] eqn:Em; [lia|].
  destruct Hso as [Hso|Hso]; rewrite Hso.
  - left. split; [done|]. cbn. rewrite Hcl. do 2 f_equal. destruct c; cbn in *. congruence.
  - right. split; [done|]. split; [|eauto]. clear -Hr Hso Hnb Hu. revert c Hr Hso. induction es' as [|e es' IH] using rev_ind; intros c Hr Hso.
    + injection Hr as <-. done.
    + apply run_snoc in Hr as (d & Hd & Hs).
      assert ((exists w cn, EInit w cn ∈ es') -> exists w cn, EInit w cn ∈ es' ++ [e]) as Hw.
      { intros (w & cn & H). exists w, cn. apply elem_of_app. by left. }
      assert (ap_socket d = Some CNone -> exists w cn, EInit w cn ∈ es' ++ [e]) as Hk.
      { intros H. apply Hw, (IH) with d; [|done|done]. intros d' H'. apply (Hu d'), elem_of_app. by left. }
      destruct e.
      * eexists _, _. apply elem_of_app. right. by apply elem_of_list_singleton.
      * exfalso. apply (Hu d0), elem_of_app. right. by apply elem_of_list_singleton.
      * apply Hk, (none_step d _ c Hs); done.
      * apply Hk, (none_step d _ c Hs); done.
      * apply Hk, (none_step d _ c Hs); done.
      * apply Hk, (none_step d _ c Hs); done.
      * apply Hk, (none_step d _ c Hs); done.
      * apply Hk, (none_step d _ c Hs); done.
      * apply Hk, (none_step d _ c Hs); done.
      * apply Hk, (none_step d _ c Hs); done.
Qed.
Print Assumptions C83_spins.

(** An agent that was started and stopped is not to be initialised or started again: InitFromEnv lets the old listener crash
    the process; after a second Start that gets as far as registering, the old listener crashes it if it is the first to read the
    answer, and otherwise both listeners read the connection, and what was not returned by Get is gone. *)
Theorem C83_again es a :
  run api0 es = Some (Ok a) -> ap_call a = Idle -> ap_connected a = true ->
  ap_socket a = Some COpen \/ ap_socket a = Some CCut -> 1 <= ap_listeners a ->
  let again := [EStop true; EStart DialWell; EArrive (FSig true); EGo; EArrive (FStatus true)] in
  run a [EStop true; EInit true true; EListen] = Some (Panic "invalid memory address or nil pointer dereference") /\
  run a (again ++ [EListen]) = Some (Panic "send on closed channel") /\
  exists b, run a (again ++ [EGo]) = Some (Ok b) /\ ap_connected b = true /\ ap_said b = ap_said a ++ [true] /\ ap_listeners b = S (ap_listeners a) /\ ap_queue b = [].
Proof.
  intros Hr Hi Hc Hso Hl again. apply run_inv in Hr as [Ic If Ii Il Ik]. rewrite Hc in Ic.
  destruct (ap_listeners a) as [|n] eqn:El; [lia|].
  assert (run a [EStop true] = Some (Ok (Api (Some CClosed) (ap_wire a) true false (ap_initialised a) (Some true) (ap_queue a) (ap_statuses a) (S n) Idle (ap_got a) (ap_said a)))) as H1.
  { cbn [run step]. rewrite Hi. destruct Hso as [-> | ->]; cbn [negb]; rewrite Ic, El; done. }
  assert (forall l, run a (EStop true :: l) = run (Api (Some CClosed) (ap_wire a) true false (ap_initialised a) (Some true) (ap_queue a) (ap_statuses a) (S n) Idle (ap_got a) (ap_said a)) l) as H2.
  { intros l. cbn [run] in *. destruct (step a (EStop true)) as [[]|]; try done. injection H1 as ->. done. }
  unfold again. cbn [app]. rewrite !H2. split; [done|]. split; [done|].
  eexists. split; [reflexivity|]. done.
Qed.
Print Assumptions C83_again.

(** ** Get *)

Lemma step_chans a e a' :
  step a e = Some (Ok a') -> ap_chans a' <> None <-> (e = EGo /\ succeeds a) \/ ap_chans a <> None.
Proof.
  intros Hs. destruct e.
  6:{ split.
    - intros H. cbn [step] in Hs. unfold start_ends, start_on, call_ends in Hs. go Hs; cbn in H; auto; try (right; congruence).
      left. split; [done|]. unfold succeeds. eauto 8.
    - intros [[_ (n & c & w & H1 & H2 & H3)]|H]; cbn [step] in Hs.
      + rewrite H1, H2, H3 in Hs. injection Hs as <-. done.
      + unfold start_ends, start_on, call_ends in Hs. go Hs; cbn; congruence. }
  all: cbn [step] in Hs; unfold listen, start_ends, start_on, call_ends in Hs; go Hs; cbn; (split; [intros H; right; congruence|intros [[? _]|H]; congruence]).
Qed.

Lemma run_chans es a :
  run api0 es = Some (Ok a) ->
  (ap_chans a <> None <-> exists pre post b, es = pre ++ EGo :: post /\ run api0 pre = Some (Ok b) /\ succeeds b).
Proof.
  revert a. induction es as [|e es IH] using rev_ind; intros a Hr.
  - injection Hr as <-. split; [done|]. intros (pre & post & b & H & _). by destruct pre.
  - apply run_snoc in Hr as (b & Hb & Hs). rewrite (step_chans b e a Hs), (IH b Hb). split.
    + intros [[-> H]|(pre & post & c & -> & H1 & H2)].
      * by exists es, [], b.
      * exists pre, (post ++ [e]), c. split; [by rewrite <- app_assoc|]. done.
    + intros (pre & post & c & He & H1 & H2). destruct post as [|x post _] using rev_ind.
      * apply app_inj_tail in He as [-> ->]. left. split; [done|]. by rewrite Hb in H1; injection H1 as ->.
      * change (EGo :: post ++ [x]) with ((EGo :: post) ++ [x]) in He. rewrite app_assoc in He. apply app_inj_tail in He as [-> ->].
        right. by exists pre, post, c.
Qed.

Lemma stuck_run es a a' : ap_call a = Stuck -> run a es = Some (Ok a') -> ap_call a' = Stuck.
Proof.
  revert a'. induction es as [|e es IH] using rev_ind; intros a' Hk Hr.
  - by injection Hr as <-.
  - apply run_snoc in Hr as (b & Hb & Hs). specialize (IH b Hk Hb). destruct e; cbn [step] in Hs; try (rewrite IH in Hs; done).
    + go Hs; done.
    + go Hs; done.
    + unfold listen in Hs. go Hs; done.
Qed.

(** Get blocks for ever, whatever happens then, exactly if no Start has returned nil so far. Otherwise it returns the oldest
    envelope not yet returned; if there is none it waits, or returns nil if Stop was called since the last Start. *)
Theorem C83_get es a :
  run api0 es = Some (Ok a) -> ap_call a = Idle ->
  let started := exists pre post b, es = pre ++ EGo :: post /\ run api0 pre = Some (Ok b) /\ succeeds b in
  (~ started <-> exists b, step a EGet = Some (Ok b) /\ forall es' c, run b es' = Some (Ok c) -> ap_got c = ap_got a /\ ap_call c <> Idle) /\
  (started ->
   match ap_queue a with
   | n :: q => exists b, step a EGet = Some (Ok b) /\ ap_call b = Idle /\ ap_got b = ap_got a ++ [Some n] /\ ap_queue b = q
   | [] => if ap_connected a then step a EGet = None
           else exists b, step a EGet = Some (Ok b) /\ ap_call b = Idle /\ ap_got b = ap_got a ++ [None]
   end).
Proof.
  intros Hr Hi started. pose proof (run_chans es a Hr) as Hst. fold started in Hst. apply run_inv in Hr as [Ic If Ii Il Ik].
  assert (forall es b c, ap_call b = Stuck -> run b es = Some (Ok c) -> ap_got c = ap_got b) as Hgot.
  { clear. intros es b. induction es as [|e es IH] using rev_ind; intros c Hk Hr; [by injection Hr as <-|].
    apply run_snoc in Hr as (d & Hd & Hs). specialize (IH d Hk Hd). pose proof (stuck_run _ _ _ Hk Hd) as Hkd. rewrite <- IH.
    destruct e; cbn [step] in Hs; try (rewrite Hkd in Hs; done).
    + go Hs; done.
    + go Hs; done.
    + unfold listen in Hs. go Hs; done. }
  cbn [step]. rewrite Hi. split; [split|].
  - intros Hn. destruct (ap_chans a) as [x|] eqn:Ech; [by destruct Hn; apply Hst|]. eexists. split; [reflexivity|]. intros es' c Hrc.
    split; [by apply Hgot in Hrc|]. apply stuck_run in Hrc; [by rewrite Hrc|done].
  - intros (b & Hs & Hall) Hs'. apply Hst in Hs'. specialize (Hall [] b eq_refl) as [H1 H2].
    unfold call_ends in Hs. go Hs; done.
  - intros Hs'. apply Hst in Hs'. destruct (ap_queue a) as [|n q].
    + destruct (ap_connected a); rewrite Ic in *; [done|]. destruct (ap_closing a); [|done]. eexists. split; [reflexivity|]. done.
    + destruct (ap_chans a) as [[]|]; [..|done]; (eexists; split; [reflexivity|]); done.
Qed.
Print Assumptions C83_get.

(** ** Crashes *)

Lemma step_socket a e a' :
  (ap_socket a = None -> ap_connected a = false) -> step a e = Some (Ok a') ->
  (ap_socket a' = None <-> ap_socket a = None /\ forall w c, e <> EInit w c) /\ (ap_socket a' = None -> ap_connected a' = false).
Proof.
  intros Hi Hs. destruct e.
  1:{ split; [split; [|intros [_ H]; by destruct (H wallet conn)]|]; cbn [step] in Hs; go Hs; cbn; try done; intros H; specialize (Hi H); congruence. }
  all: cbn [step] in Hs; unfold listen, start_ends, start_on, call_ends in Hs; go Hs; cbn;
    (split; [split; [intros H; split; [congruence|done]|intros [H _]; congruence]|intros H; auto; congruence]).
Qed.

Lemma run_socket es a :
  run api0 es = Some (Ok a) -> (ap_socket a = None <-> forall w c, EInit w c ∉ es) /\ (ap_socket a = None -> ap_connected a = false).
Proof.
  revert a. induction es as [|e es IH] using rev_ind; intros a Hr.
  - injection Hr as <-. split; [|done]. split; [|done]. intros _ w c H. by apply elem_of_nil in H.
  - apply run_snoc in Hr as (b & Hb & Hs). destruct (IH b Hb) as [H1 H2]. destruct (step_socket b e a H2 Hs) as [H3 H4]. split; [|done].
    rewrite H3, H1. split.
    + intros [Hn He] w c H. apply elem_of_app in H as [H|H]; [by eapply Hn|]. apply elem_of_list_singleton in H as <-. by eapply He.
    + intros H. split; [intros w c Hi; apply (H w c), elem_of_app; by left|].
      intros w c ->. apply (H w c), elem_of_app. right. by apply elem_of_list_singleton.
Qed.

(** When exactly does a call crash the process, and when a listener. *)
Theorem C83_crash es a e :
  run api0 es = Some (Ok a) ->
  (exists why, step a e = Some (Panic why)) <->
  match e with
  | EInit wallet conn => ap_call a = Idle /\ (wallet = false \/ ap_connected a = false /\ conn = false)
  | EStart d => ap_call a = Idle /\ ((forall w c, EInit w c ∉ es) \/ d = NoKey)
  | EPut _ => ap_call a = Idle /\ (ap_socket a = None \/ ap_socket a = Some CNone)
  | EStop ok => ap_call a = Idle /\ (ok = false \/ ap_connected a = false \/ ap_socket a = Some CClosed \/ ap_socket a = Some CNone)
  | EGo => ap_call a = InPut /\ ap_chans a = Some true /\ ap_statuses a = []
  | EListen =>
      1 <= ap_listeners a /\
      (ap_socket a = Some CNone \/
       (ap_socket a = Some COpen \/ ap_socket a = Some CCut) /\ ap_chans a = Some true /\
       exists f w, ap_wire a = f :: w /\ ((exists ok, f = FStatus ok) \/ exists n, f = FEnv n))
  | _ => False
  end.
Proof.
  intros Hr. pose proof (run_socket es a Hr) as [Hso Hsc]. apply run_inv in Hr as [Ic If Ii Il Ik].
  assert (ap_connected a = true <-> ap_chans a = Some false) as Hch.
  { rewrite Ic. destruct (ap_connected a), (ap_closing a); split; done. }
  destruct e; cbn [step]; unfold listen, start_ends, start_on, call_ends.
  - split; [intros (why & Hs); go Hs; auto|]. intros [-> [-> |[-> ->]]]; cbn; [eauto|]. destruct wallet; cbn; eauto.
  - rewrite <- Hso. split; [intros (why & Hs); go Hs; auto|]. intros [-> [-> | ->]]; [eauto|]. destruct (ap_socket a); eauto.
  - split; [intros (why & Hs); go Hs; auto|]. intros [-> [-> | ->]]; eauto.
  - split; [|done]. intros (why & Hs). go Hs.
  - split.
    + intros (why & Hs). go Hs; split; try done; auto 6. all: right; left; destruct (ap_connected a); try done; by destruct (proj1 Hch eq_refl).
    + intros [-> H]. destruct (ap_socket a) as [[]|]; eauto. all: destruct ok; cbn; eauto.
      all: destruct H as [?|[Hc|[?|?]]]; try done. all: destruct (ap_chans a) as [[]|]; eauto. all: rewrite Hc in Hch; by pose proof (proj2 Hch eq_refl).
  - split; [intros (why & Hs); go Hs; auto|]. intros (-> & -> & ->). destruct (ap_socket a); eauto.
  - split; [|done]. intros (why & Hs). go Hs.
  - split; [|done]. intros (why & Hs). go Hs.
  - split; [|done]. intros (why & Hs). go Hs.
  - destruct (ap_listeners a) as [|n] eqn:El; [split; [by intros (? & ?)|lia]|].
    assert (ap_chans a <> None) as Hcn by (intros H; destruct (Il H); lia).
    destruct (ap_socket a) as [c|] eqn:Es; [|by destruct (Ii eq_refl)].
    destruct (ap_chans a) as [x|] eqn:Ex; [|done]. split.
    + intros (why & Hs). split; [lia|].
      destruct c; [by left|right..|]; destruct (ap_wire a) as [|f w]; cbn in Hs; destruct (ap_closing a); try done; destruct f; try done; destruct x; try done.
      all: split; [by auto|]; split; [done|]; eauto 8.
    + intros [_ [H|(H1 & H2 & f & w & H3 & H4)]]; [injection H as ->; eauto|]. injection H2 as ->. rewrite H3.
      destruct H1 as [H|H]; injection H as ->; cbn; destruct H4 as [(ok & ->)|(m & ->)]; eauto.
Qed.
Print Assumptions C83_crash.

(** A Start that does not reach the node returns an error, but the connection there was is gone for the calls and the listener: the next Put or Stop, or
    the listener if there is one, crashes the process, although the agent says what it said before. *)
Theorem C83_unreached a b :
  step a (EStart DialFails) = Some (Ok b) ->
  ap_said b = ap_said a ++ [false] /\ ap_connected b = ap_connected a /\ ap_listeners b = ap_listeners a /\
  (forall w, exists why, step b (EPut w) = Some (Panic why)) /\ (forall ok, exists why, step b (EStop ok) = Some (Panic why)) /\
  (0 < ap_listeners a -> exists why, step b EListen = Some (Panic why)).
Proof.
  cbn [step]. intros H. go H; (do 3 (split; [done|])); (split; [eauto|]; split; [eauto|]); cbn; unfold listen; cbn; destruct (ap_listeners a); eauto; lia.
Qed.
Print Assumptions C83_unreached.

(** What Start and Put say: success exactly if the node answered the registration with SUCCESS, or the oldest answer waiting for a Put is one; a Put that waited too long says so. *)
Theorem C83_said a e b :
  step a e = Some (Ok b) ->
  (ap_said b = ap_said a \/
   exists ok, ap_said b = ap_said a ++ [ok] /\ ap_call b = Idle /\ (ok = true <-> e = EGo /\ (succeeds a \/ ap_call a = InPut /\ exists st, ap_statuses a = true :: st))) /\
  (e = ETimeout \/ e = EPut false -> ap_said b = ap_said a ++ [false]) /\
  (e = EGo -> ap_call b = Idle -> ap_said b <> ap_said a).
Proof.
  intros H. destruct e; cbn [step] in H; unfold listen, start_ends, start_on, call_ends in H; go H; cbn; unfold succeeds.
  all: split; [|split; [intros [?|?]; simplify_eq; try done|]]; try (intros _ _ Hlen; apply (f_equal length) in Hlen; rewrite app_length in Hlen; cbn in Hlen; lia); try done.
  all: try (by left).
  all: right; eexists; (split; [done|]); (split; [done|]).
  all: split; [intros Hok|intros [He [(? & ? & ? & ? & ? & ?)|[? (? & ?)]]]]; simplify_eq; try congruence.
  all: split; [done|]; try (right; split; [done|]; by eexists).
  all: left; by eauto 8.
Qed.
Print Assumptions C83_said.

(** The envelopes, and the answers to Put, among frames and among what arrives. *)
Definition envs (w : list frame) : list nat := omap (fun f => match f with FEnv n => Some n | _ => None end) w.
Definition answers (w : list frame) : list bool := omap (fun f => match f with FStatus ok => Some ok | _ => None end) w.
Definition arrived (es : list event) : list frame := omap (fun e => match e with EArrive f => Some f | _ => None end) es.
Definition received (a : api) : list nat := omap id (ap_got a).
Definition count_go (es : list event) : nat := length (omap (fun e => match e with EGo => Some tt | _ => None end) es).

Lemma read_conn_cases c w o l : read_conn c w = Some (o, l) -> w = match o with Some f => f :: l | None => l end.
Proof. destruct c, w; cbn; intros H; try done; injection H as <- <-; done. Qed.

(** Between two Starts nothing is lost, doubled or overtaken: what Get has returned, then what waits for Get, then what is still to be read,
    is what there was of them and then what arrived, in that order; and the answers go to the Puts that are answered one by one in order, whichever Put
    they were meant for: after a Put that timed out, every later one has the answer to an earlier one. *)
Theorem C83_order a es b :
  ap_call a = Idle -> (forall d, EStart d ∉ es) -> (forall w c, EInit w c ∉ es) -> run a es = Some (Ok b) ->
  received b ++ ap_queue b ++ envs (ap_wire b) = received a ++ ap_queue a ++ envs (ap_wire a) ++ envs (arrived es) /\
  let all := ap_statuses a ++ answers (ap_wire a) ++ answers (arrived es) in
  ap_statuses b ++ answers (ap_wire b) = drop (count_go es) all /\
  (forall c, step b EGo = Some (Ok c) -> exists ok, all !! count_go es = Some ok /\ ap_said c = ap_said b ++ [ok]).
Proof.
  intros Hi Hs Hn Hr.
  assert ((ap_call b = Idle \/ ap_call b = InPut \/ ap_call b = Stuck) /\
    received b ++ ap_queue b ++ envs (ap_wire b) = received a ++ ap_queue a ++ envs (ap_wire a) ++ envs (arrived es) /\
    count_go es <= length (ap_statuses a ++ answers (ap_wire a) ++ answers (arrived es)) /\
    ap_statuses b ++ answers (ap_wire b) = drop (count_go es) (ap_statuses a ++ answers (ap_wire a) ++ answers (arrived es))) as (Hc & Hq & Hl & Hst).
  { revert b Hr. induction es as [|e es IH] using rev_ind; intros b Hr.
    { injection Hr as <-. cbn. rewrite !app_nil_r. auto with lia. }
    apply run_snoc in Hr as (c & Hc & Hstep).
    destruct (IH (fun d H => Hs d (proj2 (elem_of_app _ _ _) (or_introl H))) (fun w x H => Hn w x (proj2 (elem_of_app _ _ _) (or_introl H))) c Hc) as (Hk & Hq & Hl & Hst).
    assert (arrived (es ++ [e]) = arrived es ++ match e with EArrive f => [f] | _ => [] end) as -> by (unfold arrived; rewrite omap_app; by destruct e).
    assert (count_go (es ++ [e]) = count_go es + match e with EGo => 1 | _ => 0 end) as -> by (unfold count_go; rewrite omap_app, app_length; f_equal; by destruct e).
    assert (forall l, drop (count_go es) (ap_statuses a ++ answers (ap_wire a) ++ answers (arrived es ++ l)) = (ap_statuses c ++ answers (ap_wire c)) ++ answers l) as Hd.
    { intros l. unfold answers at 2. rewrite omap_app. fold (answers (arrived es)) (answers l). rewrite !app_assoc, drop_app_le; [|by rewrite <- app_assoc]. by rewrite <- app_assoc, <- Hst. }
    assert (forall l, length (ap_statuses a ++ answers (ap_wire a) ++ answers (arrived es ++ l)) = length (ap_statuses a ++ answers (ap_wire a) ++ answers (arrived es)) + length (answers l)) as Hll.
    { intros l. unfold answers at 2. rewrite omap_app. rewrite !app_length. unfold answers. lia. }
    assert (forall l, received a ++ ap_queue a ++ envs (ap_wire a) ++ envs (arrived es ++ l) = (received c ++ ap_queue c ++ envs (ap_wire c)) ++ envs l) as Hql.
    { intros l. rewrite Hq. unfold envs at 2. rewrite omap_app. by rewrite <- !app_assoc. }
    rewrite Hql, Hll, <- drop_drop, Hd.
    assert (length (ap_statuses c ++ answers (ap_wire c)) + count_go es = length (ap_statuses a ++ answers (ap_wire a) ++ answers (arrived es))) as HL by (rewrite Hst, drop_length; lia).
    rewrite app_length in HL. clear Hd Hll Hql Hq Hst IH Hc.
    destruct e; cbn [step] in Hstep; unfold listen, call_ends in Hstep;
      try (by destruct (Hs d); apply elem_of_app; right; apply elem_of_list_singleton); try (by destruct (Hn wallet conn); apply elem_of_app; right; apply elem_of_list_singleton).
    all: go Hstep.
    all: try (destruct Hk as [?|[?|?]]; congruence).
    all: try match goal with E : read_conn _ _ = Some _ |- _ => apply read_conn_cases in E; rewrite E in * end.
    all: cbn [ap_call ap_queue ap_wire ap_statuses ap_got]; unfold received, id; cbn [ap_got].
    all: try match goal with E : ap_statuses _ = _ |- _ => rewrite E in HL |- * end.
    all: try match goal with E : ap_queue _ = _ |- _ => rewrite E end.
    all: cbn [length] in HL.
    all: repeat split; [by auto|try (rewrite ?omap_app; cbn; rewrite ?app_nil_r, <- ?app_assoc; done)|cbn; lia|try (cbn; rewrite ?app_nil_r, <- ?app_assoc; done)].
    - unfold envs. rewrite omap_app. by rewrite <- !app_assoc.
    - unfold answers. rewrite omap_app. by rewrite <- !app_assoc. }
  split; [done|]. split; [done|]. intros c Hg. cbn [step] in Hg.
  assert (ap_call b = InPut) as E by (destruct Hc as [E|[E|E]]; rewrite E in Hg; done). rewrite E in Hg.
  destruct (ap_chans b) as [ch|]; [|done]. destruct (ap_statuses b) as [|ok st] eqn:Es; [by destruct ch|].
  assert (c = call_ends b (ap_queue b) st Idle (ap_got b) (ap_said b ++ [ok])) as -> by (destruct ch; congruence).
  exists ok. split; [|done]. rewrite <- (Nat.add_0_r (count_go es)), <- lookup_drop, <- Hst. done.
Qed.
Print Assumptions C83_order.

(** ** Examples *)

(** What a history ends in: whether it crashes, or the flags, the number of listeners, what Get and Start and Put returned. *)
Definition ends (es : list event) : option (string + (bool * nat * list (option nat) * list bool)) :=
  match run api0 es with
  | Some (Ok a) => Some (inr (ap_connected a, ap_listeners a, ap_got a, ap_said a))
  | Some (Panic w) | Some (Err w) => Some (inl w)
  | None => None
  end.

Definition started : list event := [EInit true true; EStart DialWell; EArrive (FSig true); EGo; EArrive (FStatus true); EGo].

(** That Stop ends a program in good order, that Start says why it did not, and that a stopped agent can be started again, do not hold. *)
Theorem C83_stop_refuted :
  ends [EInit true true; EStart DialFails; EStop true] = Some (inl "invalid memory address or nil pointer dereference") /\
  ends [EInit true true; EStart DialWell; EArrive (FSig false); EGo; EStop true] = Some (inl "close of nil channel") /\
  ends [EInit true true; EStart NoKey] = Some (inl "invalid memory address or nil pointer dereference") /\
  ends (started ++ [ECut; EListen; EStop true]) = Some (inl "log.Fatal") /\
  ends (started ++ [EStop true; EStop true]) = Some (inl "log.Fatal") /\
  ends (started ++ [EStop true; EInit true true; EListen]) = Some (inl "invalid memory address or nil pointer dereference").
Proof. vm_compute. auto 10. Qed.
Print Assumptions C83_stop_refuted.

(** Hello, an envelope, an envelope for someone else, a Put that is answered, one that is not, Get, Stop. *)
Example C83_example :
  ends (started ++ [EArrive (FEnv 7); EArrive FOther; EListen; EListen; EPut true; EArrive (FStatus true); EListen; EGo;
                    EPut true; ETimeout; EGet; EStop true; EListen; EListen; EGet; EPut true]) =
    Some (inr (false, 1, [Some 7; None], [true; true; false; false])) /\
  ends [EInit true true; EGet] = Some (inr (false, 0, [], [])) /\
  ends [EInit true true; EGet; EStart DialWell] = None /\
  ends (started ++ [EGet]) = None.
Proof. vm_compute. auto. Qed.
