(** C87: envelopes that could not be sent at once (SlowModel.v). *)
From Coq Require Import ZArith List Arith Lia Sorting.Sorted.
From stdpp Require Import base list strings.
From Verif Require Import GoBase Bytes WireModel ProtoModel CryptoModel PorModel AcnModel RouteModel SlowModel DelegateProps RouteProps.
Import SlowModel.
Open Scope string_scope.
Open Scope list_scope.
Open Scope nat_scope.

(** Reading what happened: the envelopes of a caller that were acted on by its calls, those acted on by the loop, those put in the queue (No counterpart in /repo: names in the statements). *)
Definition fasts (c : nat) (l : list mark) : list nat :=
  omap (fun m => match m with Act false (c', i) _ => if c' =? c then Some i else None | _ => None end) l.
Definition slows (l : list mark) : list (nat * nat) := omap (fun m => match m with Act true x _ => Some x | _ => None end) l.
Definition queued (l : list mark) : list (nat * nat) := omap (fun m => match m with Queued x => Some x | _ => None end) l.
Definition queued_of (c : nat) (l : list mark) : list nat := omap (fun x : nat * nat => if x.1 =? c then Some x.2 else None) (queued l).

(** The envelope the loop is about to send; the number of envelopes the calls of a caller acted on (No counterpart in /repo: names in the statements). *)
Definition sending (s : node) : list (nat * nat) := match s_loop s with LSending x => [x] | _ => [] end.
Definition begun (k : caller) : nat := match ca_stage k with Free | Routing => ca_at k | _ => S (ca_at k) end.

(** Effects that hand an envelope over (No counterpart in /repo: names in the statements). *)
Definition hands (f : effect) : bool := match f with ToMailbox _ | ToAgent _ | ToDelegate _ _ | ToPeer _ _ => true | _ => false end.
Definition handed (x : nat * nat) (l : list mark) : list effect :=
  concat (map (fun m => match m with Act _ (c, i) fs => if (c =? x.1) && (i =? x.2) then List.filter hands fs else [] | _ => [] end) l).

(** A peer that got an envelope answered SUCCESS (No counterpart in /repo: names in the statements). *)
Definition confirmed (o : stream_outcome) : Prop := exists b, read_status (so_reply o) = Ok (Some b) /\ sb_code b = SUCCESS.

Lemma omap_snoc {A B} (f : A -> option B) l x : omap f (l ++ [x]) = omap f l ++ match f x with Some y => [y] | None => [] end.
Proof. rewrite omap_app. cbn. by destruct (f x). Qed.

Lemma set_same s c k : set_caller s c k c = k. Proof. unfold set_caller. by rewrite Nat.eqb_refl. Qed.
Lemma set_other s c c' k : c' <> c -> set_caller s c k c' = s c'. Proof. unfold set_caller. intros H. by apply Nat.eqb_neq in H as ->. Qed.

(** What a call that goes on to the queue has done: nothing, or it sent the envelope to a peer that did not confirm it. *)
Lemma goes_slow v e o fs r :
  route v e o = (fs, Returns r) -> existsb to_queue fs = true ->
  r = Ok tt /\ In (ToSlowQueue e) fs /\
  (List.filter hands fs = [] \/ exists p b, List.filter hands fs = [ToPeer p b] /\ ~ confirmed (oc_stream o)).
Proof.
  unfold route. intros H Hq.
  destruct (envelope_record v e) as [rec|x|x]; [|by injection H as <- <-..].
  destruct (v_mailbox v && v_box_target v); [by injection H as <- <-|].
  destruct (String.eqb (e_to e) (v_my_addr v)).
  { destruct (negb (oc_ready o)); [done|]. destruct (negb (v_has_handler v)); [by injection H as <- <-|].
    destruct (oc_agent o); by injection H as <- <-. }
  destruct (v_delegate v) as [c|].
  { destruct (envelope_frame e None); [|by injection H as <- <-]. destruct (negb (oc_write o)); by injection H as <- <-. }
  assert (forall p rec fs' rr, route_new_stream e p rec (oc_stream o) = (fs', rr) ->
    existsb to_queue fs' = false /\ (List.filter hands fs' = [] \/ exists p b, List.filter hands fs' = [ToPeer p b] /\ (confirmed (oc_stream o) -> rr = Ok tt))) as Hns.
  { clear. intros p rec fs' rr. unfold route_new_stream. destruct (negb (so_open (oc_stream o))); [intros [= <- <-]; auto|].
    destruct (encode_envelope e) as [b|]; [|intros [= <- <-]; auto]. destruct (encode_acn _) as [f|]; [|intros [= <- <-]; auto].
    destruct (negb (so_write (oc_stream o))); [intros [= <- <-]; auto|]. unfold confirmed.
    destruct (read_status (so_reply (oc_stream o))) as [[b'|]|x|x]; intros [= <- <-]; split; try done; right; eexists _, _; (split; [done|]); intros (b0 & [= ->] & Hc).
    by rewrite Hc, Z.eqb_refl. }
  destruct (v_relay v) as [id|].
  { destruct (oc_peer o) as [p|]; [|by injection H as <- <-].
    destruct (route_new_stream e p rec (oc_stream o)) as [fs' rr] eqn:E. injection H as <- <-. destruct (Hns _ _ _ _ E) as [Hf _].
    cbn in Hq. by rewrite Hf in Hq. }
  unfold route_dht in H. destruct (envelope_record (oc_view2 o) e) as [rec'|x|x].
  - destruct (oc_found o) as [[[p ?]|x|x]|].
    + destruct (route_new_stream e p rec' (oc_stream o)) as [fs' rr] eqn:E. destruct (Hns _ _ _ _ E) as [Hf Hh].
      destruct rr as [u|x|x].
      * injection H as <- <-. cbn in Hq. by rewrite Hf in Hq.
      * injection H as <- <-. destruct (oc_closing o); [cbn in Hq; rewrite existsb_app, Hf in Hq; done|].
        split; [done|]. split; [right; right; apply in_or_app; right; right; by left|].
        cbn [app List.filter hands]. rewrite List.filter_app. cbn. rewrite app_nil_r. destruct Hh as [?|(p' & b & ? & Hc)]; [by left|right].
        exists p', b. split; [done|]. intros Hc'. by apply Hc in Hc'.
      * injection H as <- <-. cbn in Hq. by rewrite Hf in Hq.
    + injection H as <- <-. destruct (oc_closing o); [done|]. split; [done|]. split; [cbn; tauto|by left].
    + by injection H as <- <-.
    + done.
  - injection H as <- <-. destruct (oc_closing o); [done|]. split; [done|]. split; [cbn; tauto|by left].
  - by injection H as <- <-.
Qed.

(** Every call hands an envelope over at most once. *)
Lemma hands_once v e o : length (List.filter hands (route v e o).1) <= 1.
Proof.
  assert (forall p rec, length (List.filter hands (route_new_stream e p rec (oc_stream o)).1) <= 1) as Hns.
  { clear. intros p rec. unfold route_new_stream. repeat case_match; cbn; lia. }
  unfold route, route_dht.
  destruct (envelope_record v e) as [rec|x|x]; [|by cbn; lia..].
  destruct (v_mailbox v && v_box_target v); [cbn; lia|].
  destruct (String.eqb (e_to e) (v_my_addr v)). { destruct (negb (oc_ready o)), (negb (v_has_handler v)), (oc_agent o); cbn; lia. }
  destruct (v_delegate v) as [c|]. { destruct (envelope_frame e None), (negb (oc_write o)); cbn; lia. }
  destruct (v_relay v) as [id|].
  { destruct (oc_peer o) as [p|]; [|cbn; lia]. specialize (Hns p rec). destruct (route_new_stream e p rec (oc_stream o)); done. }
  destruct (envelope_record (oc_view2 o) e) as [rec'|x|x].
  - destruct (oc_found o) as [[[p ?]|x|x]|]; [|destruct (oc_closing o); cbn; lia|cbn; lia..].
    specialize (Hns p rec'). destruct (route_new_stream e p rec' (oc_stream o)) as [fs [| |]]; cbn [fst] in *; [done| |done].
    destruct (oc_closing o); cbn; rewrite List.filter_app, app_length; cbn; lia.
  - destruct (oc_closing o); cbn; lia.
  - cbn; lia.
Qed.

Lemma hands_once_slow v e found o : length (List.filter hands (slow_send v e found o).1) <= 1.
Proof.
  unfold slow_send, route_dht. destruct (envelope_record v e) as [rec|x|x]; [|cbn; lia..].
  destruct found as [[[p ?]|x|x]|]; [|cbn; lia..].
  assert (length (List.filter hands (route_new_stream e p rec o).1) <= 1) by (unfold route_new_stream; repeat case_match; cbn; lia).
  destruct (route_new_stream e p rec o) as [fs [| |]]; done.
Qed.

Lemma hands_queue fs : List.filter hands (List.filter (fun f => negb (to_queue f)) fs) = List.filter hands fs.
Proof. induction fs as [|f fs IH]; [done|]. destruct f; cbn; rewrite ?IH; done. Qed.

Section Slow.
Context (letter : nat -> nat -> envelope).
Notation step := (step letter).
Notation run := (run letter).

Lemma run_app a b s : run s (a ++ b) = match run s a with Ok s' => run s' b | x => x end.
Proof. revert s. induction a as [|e a IH]; intros s; cbn; [done|]. destruct (step s e); [apply IH|done..]. Qed.

Lemma run_snoc h e s s' : run s (h ++ [e]) = Ok s' -> exists s1, run s h = Ok s1 /\ step s1 e = Ok s'.
Proof. rewrite run_app. destruct (run s h) as [s1| |]; [|done..]. cbn. destruct (step s1 e) eqn:E; [|done..]. intros [= ->]. eauto. Qed.

(** What a call of the run of an envelope did (No counterpart in /repo: names in the statements). *)
Definition acted (h : list event) (c i : nat) (v : view) (o : outcome) (l : list mark) : Prop :=
  In (EAct c v o) h /\ In (Act false (c, i) (List.filter (fun f => negb (to_queue f)) (route v (letter c i) o).1)) l.

Record inv (h : list event) (s : node) : Prop := {
  inv_fast c : fasts c (s_log s) = seq 0 (begun (s_callers s c));
  inv_fifo : slows (s_log s) ++ sending s ++ s_queue s = queued (s_log s);
  inv_sorted c : StronglySorted lt (queued_of c (s_log s));
  inv_below c i : In (c, i) (queued (s_log s)) -> i < ca_at (s_callers s c);
  inv_room : length (s_queue s) <= queue_size;
  inv_acted c i : i < begun (s_callers s c) ->
    exists v o, acted h c i v o (s_log s) /\ oc_closing o = false /\
      (i < ca_at (s_callers s c) -> exists r, (route v (letter c i) o).2 = Returns r) /\
      (forall n, i = ca_at (s_callers s c) -> ca_stage (s_callers s c) = Acted n ->
         match n with Queues => existsb to_queue (route v (letter c i) o).1 = true /\ exists r, (route v (letter c i) o).2 = Returns r
                    | Back r => existsb to_queue (route v (letter c i) o).1 = false /\ (route v (letter c i) o).2 = Returns r
                    | Never => (route v (letter c i) o).2 = Hangs end) /\
      (i = ca_at (s_callers s c) -> ca_stage (s_callers s c) = Putting -> existsb to_queue (route v (letter c i) o).1 = true /\ exists r, (route v (letter c i) o).2 = Returns r) /\
      (i < ca_at (s_callers s c) -> existsb to_queue (route v (letter c i) o).1 = true <-> In (c, i) (queued (s_log s)));
  inv_slow x fs : In (Act true x fs) (s_log s) -> exists v found o, In (LAct v found o) h /\ fs = (slow_send v (letter x.1 x.2) found o).1;
}.

Lemma queued_of_in c i l : In i (queued_of c l) <-> In (c, i) (queued l).
Proof.
  unfold queued_of. induction (queued l) as [|[c' i'] q IH]; [done|]. cbn. destruct (Nat.eqb_spec c' c) as [->|Hne]; cbn; rewrite IH; [|naive_solver].
  split; [intros [->|?]; auto|intros [[= ->]|?]; auto].
Qed.

Lemma sorted_snoc l i : StronglySorted lt l -> (forall j, In j l -> j < i) -> StronglySorted lt (l ++ [i]).
Proof.
  induction 1 as [|a l Hs IH Hf]; intros Hl; cbn; [repeat constructor|]. constructor.
  - apply IH. intros j Hj. apply Hl. by right.
  - apply Forall_app. split; [done|]. constructor; [|constructor]. apply Hl. by left.
Qed.

Lemma invariant h s : run fresh h = Ok s -> inv h s.
Proof.
  revert s. induction h as [|e h IH] using rev_ind; intros s Hrun.
  { injection Hrun as <-. split; cbn; try done; try lia; try constructor. }
  destruct (run_snoc _ _ _ _ Hrun) as (s1 & H1 & Hs). specialize (IH _ H1). destruct IH as [Jf Jq Js Jb Jr Ja Jl]. clear Hrun H1.
  assert (forall c i v o l l', acted h c i v o l -> acted (h ++ [e]) c i v o (l ++ l')) as Hmono.
  { intros c i v o l l' [H1 H2]. split; apply in_or_app; auto. }
  assert (forall c i v o l, acted h c i v o l -> acted (h ++ [e]) c i v o l) as Hmono0.
  { intros c i v o l [H1 H2]. split; [apply in_or_app; auto|done]. }
  assert (forall x fs, In (Act true x fs) (s_log s1) -> exists v found o, In (LAct v found o) (h ++ [e]) /\ fs = (slow_send v (letter x.1 x.2) found o).1) as Jl'.
  { intros x fs H. destruct (Jl _ _ H) as (v & f & o & Hi & ->). exists v, f, o. split; [apply in_or_app; auto|done]. }
  destruct e as [c|c v o|c|c| |v found o|]; cbn [SlowModel.step] in Hs.
  - destruct (s_callers s1 c) as [i [| |n|]] eqn:Ec; try done. injection Hs as <-. cbn [s_callers s_queue s_loop s_log].
    split; cbn [s_callers s_queue s_loop s_log]; try done.
    + intros c'. rewrite Jf. f_equal. destruct (decide (c' = c)) as [->|Hne]; [rewrite set_same, Ec; done|by rewrite set_other].
    + intros c' j Hj. specialize (Jb c' j Hj). destruct (decide (c' = c)) as [->|Hne]; [rewrite set_same; rewrite Ec in Jb; done|by rewrite set_other].
    + intros c' j. destruct (decide (c' = c)) as [->|Hne].
      * rewrite set_same. cbn. intros Hj. destruct (Ja c j) as (v & o & A1 & A2 & A3 & A4 & A5 & A6); [by rewrite Ec|]. rewrite Ec in *. cbn in *.
        exists v, o. split; [by apply Hmono0|]. split; [done|]. split; [done|]. split; [done|]. split; [done|done].
      * rewrite set_other by done. intros Hj. destruct (Ja c' j Hj) as (v & o & A1 & A2). exists v, o. split; [by apply Hmono0|done].
  - destruct (s_callers s1 c) as [i [| |n|]] eqn:Ec; try done. destruct (oc_closing o) eqn:Eclo; [done|].
    destruct (route v (letter c i) o) as [fs rr] eqn:Er.
    assert (exists n, s = Node (set_caller (s_callers s1) c (Caller i (Acted n))) (s_queue s1) (s_loop s1) (s_log s1 ++ [Act false (c, i) (List.filter (fun f => negb (to_queue f)) fs)]) /\
       match n with Queues => existsb to_queue fs = true /\ exists r, rr = Returns r | Back r => existsb to_queue fs = false /\ rr = Returns r | Never => rr = Hangs end) as (n & -> & Hn).
    { destruct rr as [[u|x|x]|]; try done.
      - destruct (existsb to_queue fs) eqn:Eq; injection Hs as <-; [exists Queues|exists (Back (Ok u))]; (split; [done|eauto]).
      - destruct (existsb to_queue fs) eqn:Eq; injection Hs as <-; [exists Queues|exists (Back (Err x))]; (split; [done|eauto]).
      - injection Hs as <-. by exists Never. }
    clear Hs. set (a := Act false (c, i) _).
    assert (queued (s_log s1 ++ [a]) = queued (s_log s1)) as Hq by (unfold queued; rewrite omap_snoc; cbn; by rewrite app_nil_r).
    assert (slows (s_log s1 ++ [a]) = slows (s_log s1)) as Hsl by (unfold slows; rewrite omap_snoc; cbn; by rewrite app_nil_r).
    split; cbn [s_callers s_queue s_loop s_log]; rewrite ?Hq, ?Hsl; try done.
    + intros c'. unfold fasts. rewrite omap_snoc. fold (fasts c' (s_log s1)). rewrite Jf. cbn. destruct (Nat.eqb_spec c c') as [->|Hne].
      * rewrite set_same, Ec. cbn [begun ca_stage ca_at]. by rewrite <- seq_S.
      * rewrite set_other by done. by rewrite app_nil_r.
    + intros c'. unfold queued_of. rewrite Hq. apply Js.
    + intros c' j Hj. specialize (Jb c' j Hj). destruct (decide (c' = c)) as [->|Hne]; [rewrite set_same; rewrite Ec in Jb; done|by rewrite set_other].
    + intros c' j. destruct (decide (c' = c)) as [->|Hne].
      * rewrite set_same. cbn [begun ca_stage ca_at]. intros Hj. destruct (decide (j = i)) as [->|Hji].
        -- exists v, o. rewrite Er. cbn [fst snd]. split; [split; [apply in_or_app; right; by left|apply in_or_app; right; left; unfold a; by rewrite Er]|].
           split; [done|]. split; [lia|]. split; [by intros n' _ [= <-]|]. split; [done|lia].
        -- destruct (Ja c j) as (v' & o' & A1 & A2 & A3 & A4 & A5 & A6); [rewrite Ec; cbn; lia|]. rewrite Ec in *. cbn [ca_at ca_stage] in *.
           exists v', o'. split; [by apply Hmono|]. split; [done|]. split; [done|]. split; [lia|]. split; [lia|done].
      * rewrite set_other by done. intros Hj. destruct (Ja c' j Hj) as (v' & o' & A1 & A2). exists v', o'. split; [by apply Hmono|done].
    + intros x fs' [H|[H|[]]]%in_app_or; [by apply Jl'|done].
  - destruct (s_callers s1 c) as [i [| |[r| |]|]] eqn:Ec; try done; injection Hs as <-.
    + split; cbn [s_callers s_queue s_loop s_log]; try done.
      * intros c'. rewrite Jf. f_equal. destruct (decide (c' = c)) as [->|Hne]; [rewrite set_same, Ec; done|by rewrite set_other].
      * intros c' j Hj. specialize (Jb c' j Hj). destruct (decide (c' = c)) as [->|Hne]; [rewrite set_same; rewrite Ec in Jb; cbn in *; lia|by rewrite set_other].
      * intros c' j. destruct (decide (c' = c)) as [->|Hne].
        -- rewrite set_same. cbn [begun ca_stage ca_at]. intros Hj. destruct (Ja c j) as (v & o & A1 & A2 & A3 & A4 & A5 & A6); [rewrite Ec; cbn; lia|]. rewrite Ec in *. cbn [ca_at ca_stage] in *.
           exists v, o. split; [by apply Hmono0|]. split; [done|]. destruct (decide (j = i)) as [->|Hji].
           ++ destruct (A4 _ eq_refl eq_refl) as [B1 B2]. split; [eauto|]. split; [lia|]. split; [lia|]. intros _. rewrite B1. split; [done|]. intros Hi. apply Jb in Hi. rewrite Ec in Hi. cbn in Hi. lia.
           ++ split; [intros _; apply A3; lia|]. split; [lia|]. split; [lia|]. intros _. apply A6. lia.
        -- rewrite set_other by done. intros Hj. destruct (Ja c' j Hj) as (v & o & A1 & A2). exists v, o. split; [by apply Hmono0|done].
    + split; cbn [s_callers s_queue s_loop s_log]; try done.
      * intros c'. rewrite Jf. f_equal. destruct (decide (c' = c)) as [->|Hne]; [rewrite set_same, Ec; done|by rewrite set_other].
      * intros c' j Hj. specialize (Jb c' j Hj). destruct (decide (c' = c)) as [->|Hne]; [rewrite set_same; rewrite Ec in Jb; cbn in *; lia|by rewrite set_other].
      * intros c' j. destruct (decide (c' = c)) as [->|Hne].
        -- rewrite set_same. cbn [begun ca_stage ca_at]. intros Hj. destruct (Ja c j) as (v & o & A1 & A2 & A3 & A4 & A5 & A6); [rewrite Ec; cbn; lia|]. rewrite Ec in *. cbn [ca_at ca_stage] in *.
           exists v, o. split; [by apply Hmono0|]. split; [done|]. split; [done|]. split; [done|]. split; [|done]. intros -> _. by apply (A4 Queues).
        -- rewrite set_other by done. intros Hj. destruct (Ja c' j Hj) as (v & o & A1 & A2). exists v, o. split; [by apply Hmono0|done].
  - destruct (s_callers s1 c) as [i [| |n|]] eqn:Ec; try done. destruct (Nat.ltb_spec (length (s_queue s1)) queue_size) as [Hlt|]; [|done]. injection Hs as <-.
    assert (queued (s_log s1 ++ [Queued (c, i)]) = queued (s_log s1) ++ [(c, i)]) as Hq by (unfold queued; by rewrite omap_snoc).
    assert (slows (s_log s1 ++ [Queued (c, i)]) = slows (s_log s1)) as Hsl by (unfold slows; rewrite omap_snoc; cbn; by rewrite app_nil_r).
    split; cbn [s_callers s_queue s_loop s_log]; rewrite ?Hq, ?Hsl.
    + intros c'. unfold fasts. rewrite omap_snoc. fold (fasts c' (s_log s1)). rewrite Jf. cbn. rewrite app_nil_r. f_equal.
      destruct (decide (c' = c)) as [->|Hne]; [rewrite set_same, Ec; done|by rewrite set_other].
    + unfold sending in *. cbn [s_loop]. rewrite !app_assoc. f_equal. rewrite <- app_assoc. done.
    + intros c'. unfold queued_of. rewrite Hq. rewrite omap_snoc. cbn [fst snd]. fold (queued_of c' (s_log s1)). destruct (Nat.eqb_spec c c') as [->|Hne]; [|by rewrite app_nil_r].
      apply sorted_snoc; [apply Js|]. intros j Hj%queued_of_in%Jb. by rewrite Ec in Hj.
    + intros c' j [Hj|[[= <- <-]|[]]]%in_app_or; [|rewrite set_same; cbn; lia].
      specialize (Jb c' j Hj). destruct (decide (c' = c)) as [->|Hne]; [rewrite set_same; rewrite Ec in Jb; cbn in *; lia|by rewrite set_other].
    + rewrite app_length. cbn. lia.
    + intros c' j. destruct (decide (c' = c)) as [->|Hne].
      * rewrite set_same. cbn [begun ca_stage ca_at]. intros Hj. destruct (Ja c j) as (v & o & A1 & A2 & A3 & A4 & A5 & A6); [rewrite Ec; cbn; lia|]. rewrite Ec in *. cbn [ca_at ca_stage] in *.
        exists v, o. split; [by apply Hmono|]. split; [done|]. destruct (decide (j = i)) as [->|Hji].
        -- destruct (A5 eq_refl eq_refl) as [B1 B2]. split; [done|]. split; [lia|]. split; [lia|]. intros _. split; [|done]. intros _. apply in_or_app. right. by left.
        -- split; [intros _; apply A3; lia|]. split; [lia|]. split; [lia|]. intros _. rewrite A6 by lia. split; [intros H; apply in_or_app; by left|].
           intros [H|[[= ->]|[]]]%in_app_or; done.
      * rewrite set_other by done. intros Hj. destruct (Ja c' j Hj) as (v & o & A1 & A2 & A3 & A4 & A5 & A6). exists v, o. split; [by apply Hmono|].
        split; [done|]. split; [done|]. split; [done|]. split; [done|]. intros Hlt'. rewrite A6 by done. split; [intros H; apply in_or_app; by left|].
        intros [H|[[= -> ->]|[]]]%in_app_or; done.
    + intros x fs' [H|[H|[]]]%in_app_or; [by apply Jl'|done].
  - destruct (s_loop s1) eqn:El; try done. destruct (s_queue s1) as [|x q] eqn:Eq; [done|]. injection Hs as <-.
    split; cbn [s_callers s_queue s_loop s_log]; try done.
    + unfold sending in *. cbn [s_loop]. rewrite El in Jq. exact Jq.
    + cbn in Jr. lia.
    + intros c' j Hj. destruct (Ja c' j Hj) as (v & o & A1 & A2). exists v, o. split; [by apply Hmono0|done].
  - destruct (s_loop s1) as [|x|] eqn:El; try done. destruct (slow_send v (letter x.1 x.2) found o) as [fs rr] eqn:Er.
    assert (exists n, s = Node (s_callers s1) (s_queue s1) (LActed x n) (s_log s1 ++ [Act true x fs])) as (n & ->).
    { destruct rr as [[u|y|y]|]; try done; injection Hs as <-; eauto. }
    clear Hs.
    assert (queued (s_log s1 ++ [Act true x fs]) = queued (s_log s1)) as Hq by (unfold queued; rewrite omap_snoc; cbn; by rewrite app_nil_r).
    assert (slows (s_log s1 ++ [Act true x fs]) = slows (s_log s1) ++ [x]) as Hsl by (unfold slows; by rewrite omap_snoc).
    split; cbn [s_callers s_queue s_loop s_log]; rewrite ?Hq, ?Hsl; try done.
    + intros c'. unfold fasts. rewrite omap_snoc. fold (fasts c' (s_log s1)). rewrite Jf. cbn. by rewrite app_nil_r.
    + unfold sending in *. cbn [s_loop]. rewrite El in Jq. rewrite <- app_assoc. exact Jq.
    + intros c'. unfold queued_of. rewrite Hq. apply Js.
    + intros c' j Hj. destruct (Ja c' j Hj) as (v' & o' & A1 & A2). exists v', o'. split; [by apply Hmono|done].
    + intros x' fs' [H|[[= <- <-]|[]]]%in_app_or; [by apply Jl'|]. exists v, found, o. rewrite Er. split; [|done]. apply in_or_app. right. by left.
  - destruct (s_loop s1) as [|x|x [r| |]] eqn:El; try done. injection Hs as <-.
    split; cbn [s_callers s_queue s_loop s_log]; try done.
    + unfold sending in *. cbn [s_loop]. rewrite El in Jq. exact Jq.
    + intros c' j Hj. destruct (Ja c' j Hj) as (v & o & A1 & A2). exists v, o. split; [by apply Hmono0|done].
Qed.

(** Steps add to what happened, and callers do not go back. *)
Lemma step_log s e s' : step s e = Ok s' -> s_log s' = s_log s \/ exists m, s_log s' = s_log s ++ [m].
Proof.
  destruct e as [c|c v o|c|c| |v found o|]; cbn [SlowModel.step]; intros H.
  - destruct (s_callers s c) as [i [| |n|]]; try done. injection H as <-. by left.
  - destruct (s_callers s c) as [i [| |n|]]; try done. destruct (oc_closing o); [done|]. destruct (route v (letter c i) o) as [fs [[|x|x]|]]; try done; injection H as <-; right; eauto.
  - destruct (s_callers s c) as [i [| |[r| |]|]]; try done; injection H as <-; by left.
  - destruct (s_callers s c) as [i [| |n|]]; try done. destruct (_ <? _); [|done]. injection H as <-. right; eauto.
  - destruct (s_loop s); try done. destruct (s_queue s); [done|]. injection H as <-. by left.
  - destruct (s_loop s) as [|x|]; try done. destruct (slow_send _ _ _ _) as [fs [[|y|y]|]]; try done; injection H as <-; right; eauto.
  - destruct (s_loop s) as [|x|x [r| |]]; try done. injection H as <-. by left.
Qed.

Lemma step_at s e s' c : step s e = Ok s' -> ca_at (s_callers s c) <= ca_at (s_callers s' c).
Proof.
  destruct e as [c'|c' v o|c'|c'| |v found o|]; cbn [SlowModel.step]; intros H.
  - destruct (s_callers s c') as [i [| |n|]] eqn:E; try done. injection H as <-. cbn. unfold set_caller. destruct (Nat.eqb_spec c c') as [->|]; [rewrite E; cbn; lia|done].
  - destruct (s_callers s c') as [i [| |n|]] eqn:E; try done. destruct (oc_closing o); [done|]. destruct (route v (letter c' i) o) as [fs [[|x|x]|]]; try done; injection H as <-; cbn;
      unfold set_caller; (destruct (Nat.eqb_spec c c') as [->|]; [rewrite E; cbn; lia|done]).
  - destruct (s_callers s c') as [i [| |[r| |]|]] eqn:E; try done; injection H as <-; cbn; unfold set_caller; (destruct (Nat.eqb_spec c c') as [->|]; [rewrite E; cbn; lia|done]).
  - destruct (s_callers s c') as [i [| |n|]] eqn:E; try done. destruct (_ <? _); [|done]. injection H as <-. cbn. unfold set_caller. destruct (Nat.eqb_spec c c') as [->|]; [rewrite E; cbn; lia|done].
  - destruct (s_loop s); try done. destruct (s_queue s); [done|]. by injection H as <-.
  - destruct (s_loop s) as [|x|]; try done. destruct (slow_send _ _ _ _) as [fs [[|y|y]|]]; try done; by injection H as <-.
  - destruct (s_loop s) as [|x|x [r| |]]; try done. by injection H as <-.
Qed.

Lemma run_grows s h s' : run s h = Ok s' -> (exists l, s_log s' = s_log s ++ l) /\ forall c, ca_at (s_callers s c) <= ca_at (s_callers s' c).
Proof.
  revert s. induction h as [|e h IH]; intros s H; [injection H as <-; split; [exists []; by rewrite app_nil_r|done]|]. cbn in H. destruct (step s e) as [s1| |] eqn:E; try done.
  destruct (IH _ H) as [[l Hl] Hc]. split.
  - destruct (step_log _ _ _ E) as [Hs|[m Hs]]; rewrite Hl, Hs; [eauto|]. rewrite <- app_assoc. eauto.
  - intros c. etransitivity; [by eapply step_at|done].
Qed.

Lemma log_prefix h s l1 m l2 : run fresh h = Ok s -> s_log s = l1 ++ m :: l2 ->
  exists h1 e h2 s1 s2, h = h1 ++ e :: h2 /\ run fresh h1 = Ok s1 /\ s_log s1 = l1 /\ step s1 e = Ok s2 /\ s_log s2 = l1 ++ [m] /\ run s2 h2 = Ok s.
Proof.
  revert s l2. induction h as [|e h IH] using rev_ind; intros s l2 Hrun Hl; [injection Hrun as <-; cbn in Hl; by destruct l1|].
  destruct (run_snoc _ _ _ _ Hrun) as (s1 & H1 & Hs). clear Hrun.
  assert (forall l3, s_log s1 = l1 ++ m :: l3 -> exists h1 e0 h2 s3 s2, h ++ [e] = h1 ++ e0 :: h2 /\ run fresh h1 = Ok s3 /\ s_log s3 = l1 /\ step s3 e0 = Ok s2 /\ s_log s2 = l1 ++ [m] /\ run s2 h2 = Ok s) as Hold.
  { intros l3 Hl3. destruct (IH _ _ H1 Hl3) as (h1 & e0 & h2 & s3 & s2 & -> & A & B & C & D & E). exists h1, e0, (h2 ++ [e]), s3, s2.
    rewrite <- app_assoc. split; [done|]. do 4 (split; [done|]). rewrite run_app, E. cbn. by rewrite Hs. }
  destruct (step_log _ _ _ Hs) as [He|[m' He]]; [apply (Hold l2); by rewrite <- He|].
  destruct l2 as [|y l2 _] using rev_ind.
  - rewrite Hl in He. apply app_inj_tail in He as [-> ->]. exists h, e, [], s1, s. do 5 (split; [done|]). done.
  - rewrite He in Hl. rewrite app_comm_cons, app_assoc in Hl. apply app_inj_tail in Hl as [Hl _]. by apply (Hold l2).
Qed.

Lemma in_queued x l : In (Queued x) l <-> In x (queued l).
Proof.
  unfold queued. induction l as [|m l IH]; [done|]. destruct m as [b y fs|y]; cbn; rewrite IH; [split; [by intros [?|?]|by right]|].
  split; [intros [[= ->]|?]; auto|intros [->|?]; auto].
Qed.
Lemma in_slows x l : In x (slows l) <-> exists fs, In (Act true x fs) l.
Proof.
  unfold slows. induction l as [|m l IH]; [split; [done|by intros [? []]]|]. destruct m as [[|] y fs|y]; cbn; rewrite ?IH.
  - split; [intros [->|[fs' H]]; eauto|]. intros [fs' [[= -> ->]|H]]; eauto.
  - split; [intros [fs' H]; eauto|]. intros [fs' [?|H]]; [done|eauto].
  - split; [intros [fs' H]; eauto|]. intros [fs' [?|H]]; [done|eauto].
Qed.
Lemma in_fasts c i l : In i (fasts c l) <-> exists fs, In (Act false (c, i) fs) l.
Proof.
  unfold fasts. induction l as [|m l IH]; [split; [done|by intros [? []]]|]. destruct m as [[|] [c' i'] fs|y]; cbn; rewrite ?IH.
  - split; [intros [fs' H]; eauto|]. intros [fs' [?|H]]; [done|eauto].
  - destruct (Nat.eqb_spec c' c) as [->|Hne]; cbn; rewrite IH.
    + split; [intros [->|[fs' H]]; eauto|]. intros [fs' [[= -> ->]|H]]; eauto.
    + split; [intros [fs' H]; eauto|]. intros [fs' [[= -> ->]|H]]; [done|eauto].
  - split; [intros [fs' H]; eauto|]. intros [fs' [?|H]]; [done|eauto].
Qed.

Lemma sorted_nodup l : StronglySorted lt l -> List.NoDup l.
Proof.
  induction 1 as [|a l Hs IH Hf]; constructor; [|done]. intros Hi. eapply Forall_forall in Hf; [|by apply elem_of_list_In]. lia.
Qed.

Lemma queued_nodup h s : run fresh h = Ok s -> List.NoDup (queued (s_log s)).
Proof.
  intros Hrun. pose proof (inv_sorted _ _ (invariant _ _ Hrun)) as Hs.
  assert (forall c, List.NoDup (queued_of c (s_log s))) as Hn by (intros c; apply sorted_nodup, Hs). clear -Hn. unfold queued_of in Hn.
  induction (queued (s_log s)) as [|[c i] q IH]; [constructor|]. constructor.
  - specialize (Hn c). cbn in Hn. rewrite Nat.eqb_refl in Hn. inversion Hn as [|? ? Hni _]; subst. intros Hi. apply Hni. clear -Hi.
    induction q as [|[c' i'] q IH]; [done|]. cbn. destruct Hi as [[= -> ->]|Hi]; [rewrite Nat.eqb_refl; by left|]. destruct (c' =? c); [right|]; by apply IH.
  - apply IH. intros c'. specialize (Hn c'). cbn in Hn. destruct (c =? c'); [by inversion Hn|done].
Qed.

(** Envelopes leave the queue in the order they came, each is tried once more and no more, at most 100 wait. *)
Theorem C87_fifo h s :
  run fresh h = Ok s ->
  slows (s_log s) ++ sending s ++ s_queue s = queued (s_log s) /\ List.NoDup (queued (s_log s)) /\ length (s_queue s) <= 100.
Proof. intros H. split; [apply (inv_fifo _ _ (invariant _ _ H))|]. split; [by eapply queued_nodup|apply (inv_room _ _ (invariant _ _ H))]. Qed.

(** Every envelope of a caller that went on was tried exactly once by its call, in order; it was put in the queue exactly if the call could neither find its target in this
    node nor send it, and then the caller was told that all is well. *)
Theorem C87_kept h s c :
  run fresh h = Ok s ->
  fasts c (s_log s) = seq 0 (begun (s_callers s c)) /\
  forall i, i < ca_at (s_callers s c) -> exists v o r,
    acted h c i v o (s_log s) /\ (route v (letter c i) o).2 = Returns r /\
    (In (ToSlowQueue (letter c i)) (route v (letter c i) o).1 <-> In (c, i) (slows (s_log s) ++ sending s ++ s_queue s)) /\
    (In (ToSlowQueue (letter c i)) (route v (letter c i) o).1 -> r = Ok tt).
Proof.
  intros Hrun. destruct (invariant _ _ Hrun) as [Jf Jq Js Jb Jr Ja Jl]. split; [apply Jf|]. intros i Hi.
  destruct (Ja c i) as (v & o & A1 & A2 & A3 & A4 & A5 & A6); [unfold begun; destruct (ca_stage (s_callers s c)); lia|].
  destruct (A3 Hi) as [r Hr]. exists v, o, r. split; [done|]. split; [done|]. rewrite Jq.
  assert (existsb to_queue (route v (letter c i) o).1 = true <-> In (ToSlowQueue (letter c i)) (route v (letter c i) o).1) as Hex.
  { split; [intros H|intros H; apply existsb_exists; eauto]. destruct (route v (letter c i) o) as [fs rr] eqn:E. cbn in *. subst rr. by apply (goes_slow _ _ _ _ _ E). }
  split; [rewrite <- Hex; by apply A6|]. intros H. apply Hex in H. destruct (route v (letter c i) o) as [fs rr] eqn:E. cbn in *. subst rr. by apply (goes_slow _ _ _ _ _ E).
Qed.

Lemma handed_cons x m l : handed x (m :: l) = (match m with Act _ (c, i) fs => if (c =? x.1) && (i =? x.2) then List.filter hands fs else [] | _ => [] end) ++ handed x l.
Proof. done. Qed.
Lemma slows_cons m l : slows (m :: l) = match m with Act true x _ => x :: slows l | _ => slows l end.
Proof. destruct m as [[|]|]; done. Qed.
Lemma fasts_cons c m l : fasts c (m :: l) = match m with Act false (c', i) _ => if c' =? c then i :: fasts c l else fasts c l | _ => fasts c l end.
Proof. destruct m as [[|] [c' i]|]; try done. unfold fasts. cbn. by destruct (c' =? c). Qed.

Lemma handed_bound c i fs l :
  In (Act false (c, i) fs) l -> List.NoDup (fasts c l) -> List.NoDup (slows l) ->
  (forall fs', In (Act true (c, i) fs') l -> length (List.filter hands fs') <= 1) ->
  length (handed (c, i) l) <= length (List.filter hands fs) + length (List.filter (fun y : nat * nat => (y.1 =? c) && (y.2 =? i)) (slows l)).
Proof.
  set (same := fun y : nat * nat => (y.1 =? c) && (y.2 =? i)).
  assert (forall l, ~ In i (fasts c l) -> (forall fs', In (Act true (c, i) fs') l -> length (List.filter hands fs') <= 1) ->
    length (handed (c, i) l) <= length (List.filter same (slows l))) as Hnone.
  { clear l. induction l as [|m l IH]; intros Hn Hb; [done|].
    assert (forall fs', In (Act true (c, i) fs') l -> length (List.filter hands fs') <= 1) as Hb' by (intros fs' H; apply Hb; by right).
    rewrite handed_cons, slows_cons, app_length. rewrite fasts_cons in Hn.
    destruct m as [[|] [c' i'] fs'|y]; cbn [fst snd].
    - cbn [List.filter]. unfold same at 1. cbn [fst snd]. specialize (IH Hn Hb'). destruct (Nat.eqb_spec c' c) as [->|]; [|done].
      destruct (Nat.eqb_spec i' i) as [->|]; [|done]. specialize (Hb _ (or_introl eq_refl)). cbn. lia.
    - destruct (Nat.eqb_spec c' c) as [->|]; [|by apply IH].
      destruct (Nat.eqb_spec i' i) as [->|]; [exfalso; apply Hn; by left|]. apply IH; [|done]. intros H. apply Hn. by right.
    - by apply IH. }
  induction l as [|m l IH]; [done|]. intros Hin Hf Hs Hb.
  assert (forall fs', In (Act true (c, i) fs') l -> length (List.filter hands fs') <= 1) as Hb' by (intros fs' H; apply Hb; by right).
  rewrite handed_cons, slows_cons, app_length. rewrite fasts_cons in Hf. rewrite slows_cons in Hs.
  destruct m as [[|] [c' i'] fs'|y]; cbn [fst snd].
  - destruct Hin as [?|Hin]; [done|]. inversion Hs; subst. specialize (IH Hin Hf ltac:(done) Hb'). cbn [List.filter]. unfold same at 1. cbn [fst snd].
    destruct (Nat.eqb_spec c' c) as [->|]; [|done]. destruct (Nat.eqb_spec i' i) as [->|]; [|done]. specialize (Hb _ (or_introl eq_refl)). cbn. lia.
  - destruct Hin as [[= -> -> ->]|Hin].
    + rewrite Nat.eqb_refl in Hf. inversion Hf as [|? ? Hni Hf']; subst. specialize (Hnone l Hni Hb'). rewrite !Nat.eqb_refl. cbn [andb]. lia.
    + destruct (Nat.eqb_spec c' c) as [->|Hne]; [|by apply IH].
      inversion Hf as [|? ? Hni Hf']; subst. destruct (Nat.eqb_spec i' i) as [->|]; [|by apply IH]. exfalso. apply Hni, in_fasts. eauto.
  - destruct Hin as [?|Hin]; [done|]. by apply IH.
Qed.

Lemma handed_none c i l : (forall b fs, ~ In (Act b (c, i) fs) l) -> handed (c, i) l = [].
Proof.
  induction l as [|m l IH]; intros Hno; [done|]. rewrite handed_cons, IH by (intros b fs H; apply (Hno b fs); by right). rewrite app_nil_r.
  destruct m as [b [c' i'] fs|]; [|done]. cbn [fst snd]. destruct (Nat.eqb_spec c' c) as [->|]; [|done]. destruct (Nat.eqb_spec i' i) as [->|]; [|done].
  exfalso. apply (Hno b fs). by left.
Qed.

Lemma nodup_prefix {A} (a b : list A) : List.NoDup (a ++ b) -> List.NoDup a.
Proof.
  induction a as [|x a IH]; intros H; [constructor|]. inversion H as [|? ? Hn Hd]; subst. constructor; [|by apply IH]. intros Hx. apply Hn, in_or_app. by left.
Qed.

Lemma count_nodup c i (l : list (nat * nat)) : List.NoDup l -> length (List.filter (fun y : nat * nat => (y.1 =? c) && (y.2 =? i)) l) <= 1 /\
  (length (List.filter (fun y : nat * nat => (y.1 =? c) && (y.2 =? i)) l) = 1 -> In (c, i) l).
Proof.
  induction 1 as [|[c' i'] l Hn Hd [IH1 IH2]]; cbn; [lia|]. destruct (Nat.eqb_spec c' c) as [->|]; cbn; [|split; auto].
  destruct (Nat.eqb_spec i' i) as [->|]; cbn; [|split; auto]. split; [|by left].
  destruct (List.filter (fun y : nat * nat => (y.1 =? c) && (y.2 =? i)) l) as [|y l'] eqn:E; [cbn; lia|]. exfalso. apply Hn.
  assert (In y (List.filter (fun y : nat * nat => (y.1 =? c) && (y.2 =? i)) l)) as Hy by (rewrite E; by left). apply filter_In in Hy as [Hy Hb].
  apply andb_true_iff in Hb as [H1%Nat.eqb_eq H2%Nat.eqb_eq]. destruct y as [a b]. cbn in *. by subst.
Qed.

(** An envelope is handed over at most twice; twice only if it was sent to a peer that got it but whose answer was not SUCCESS or did not arrive, and then sent again. *)
Theorem C87_twice h s c i :
  run fresh h = Ok s ->
  length (handed (c, i) (s_log s)) <= 2 /\
  (length (handed (c, i) (s_log s)) = 2 -> exists v o p b,
     acted h c i v o (s_log s) /\ In (ToPeer p b) (route v (letter c i) o).1 /\ ~ confirmed (oc_stream o) /\ In (c, i) (slows (s_log s))).
Proof.
  intros Hrun. pose proof (queued_nodup _ _ Hrun) as Hnd. destruct (invariant _ _ Hrun) as [Jf Jq Js Jb Jr Ja Jl].
  assert (List.NoDup (slows (s_log s))) as Hns. { rewrite <- Jq in Hnd. by apply nodup_prefix in Hnd. }
  assert (forall fs', In (Act true (c, i) fs') (s_log s) -> length (List.filter hands fs') <= 1) as Hb.
  { intros fs' H. destruct (Jl _ _ H) as (v & f & o & _ & ->). apply hands_once_slow. }
  assert (List.NoDup (fasts c (s_log s))) as Hnf by (rewrite Jf; apply seq_NoDup).
  destruct (count_nodup c i _ Hns) as [Hc1 Hc2].
  destruct (decide (i < begun (s_callers s c))) as [Hlt|Hge].
  - destruct (Ja c i Hlt) as (v & o & A1 & A2 & A3 & A4 & A5 & A6).
    pose proof (handed_bound _ _ _ _ (proj2 A1) Hnf Hns Hb) as Hbound. rewrite hands_queue in Hbound.
    pose proof (hands_once v (letter c i) o) as Hone.
    split; [lia|]. intros H2. assert (In (c, i) (slows (s_log s))) as Hsl by (apply Hc2; lia).
    assert (In (c, i) (queued (s_log s))) as Hq by (rewrite <- Jq; apply in_or_app; by left).
    pose proof (Jb _ _ Hq) as Hi. destruct (A3 Hi) as [r Hr]. apply (A6 Hi) in Hq.
    destruct (route v (letter c i) o) as [fs rr] eqn:E. cbn in *. subst rr. destruct (goes_slow _ _ _ _ _ E Hq) as (_ & _ & [Hh|(p & b & Hh & Hnc)]).
    { rewrite Hh in Hbound. cbn in Hbound. lia. }
    exists v, o, p, b. rewrite E. split; [done|]. split; [|done]. assert (In (ToPeer p b) (List.filter hands fs)) as Hin by (rewrite Hh; by left). apply filter_In in Hin as [Hin _]. exact Hin.
  - assert (forall b fs, ~ In (Act b (c, i) fs) (s_log s)) as Hno.
    { intros [|] fs H.
      - assert (In (c, i) (queued (s_log s))) as Hq by (rewrite <- Jq; apply in_or_app; left; apply in_slows; eauto). apply Jb in Hq. unfold begun in Hge. destruct (ca_stage (s_callers s c)); lia.
      - assert (In i (fasts c (s_log s))) as Hq by (apply in_fasts; eauto). rewrite Jf in Hq. apply in_seq in Hq. lia. }
    rewrite handed_none by done. cbn. lia.
Qed.

(** If every peer that gets an envelope confirms it, nothing is handed over twice. *)
Theorem C87_once h s c i :
  run fresh h = Ok s -> (forall c v o, In (EAct c v o) h -> confirmed (oc_stream o)) -> length (handed (c, i) (s_log s)) <= 1.
Proof.
  intros Hrun Hc. destruct (C87_twice _ _ c i Hrun) as [H1 H2]. destruct (decide (length (handed (c, i) (s_log s)) = 2)) as [H|]; [|lia].
  destruct (H2 H) as (v & o & p & b & [A _] & _ & Hn & _). by apply Hc in A.
Qed.

(** An envelope overtakes an earlier one of the same caller exactly if it is sent by its call while the earlier one waits in the queue or for the loop to send it. *)
Theorem C87_order h s l1 slow c i j fs l2 :
  run fresh h = Ok s -> s_log s = l1 ++ Act slow (c, j) fs :: l2 -> i < j ->
  (exists fs0, In (Act false (c, i) fs0) l1) /\
  (forall fs', In (Act true (c, i) fs') l2 -> slow = false /\ In (Queued (c, i)) l1).
Proof.
  intros Hrun Hl Hij. destruct (log_prefix _ _ _ _ _ Hrun Hl) as (h1 & e & h2 & s1 & s2 & Hh & H1 & Hl1 & He & Hl2 & H2).
  destruct (invariant _ _ H1) as [Jf Jq Js Jb Jr Ja Jl]. rewrite Hl1 in *.
  destruct (invariant _ _ Hrun) as [Kf Kq Ks Kb Kr Ka Kl].
  assert (slow = false -> s_callers s1 c = Caller j Routing) as Hfast.
  { intros ->. destruct e as [c'|c' v o|c'|c'| |v found o|]; cbn [SlowModel.step] in He.
    - destruct (s_callers s1 c') as [k [| |n|]]; try done. injection He as <-. cbn in Hl2. rewrite Hl1 in Hl2. symmetry in Hl2. by apply app_cons_not_nil in Hl2 || (apply (f_equal length) in Hl2; rewrite app_length in Hl2; cbn in Hl2; lia).
    - destruct (s_callers s1 c') as [k [| |n|]] eqn:Ec; try done. destruct (oc_closing o); [done|]. destruct (route v (letter c' k) o) as [fs' [[|x|x]|]]; try done; injection He as <-; cbn in Hl2; rewrite Hl1 in Hl2; apply app_inj_tail in Hl2 as [_ [= -> -> _]]; done.
    - destruct (s_callers s1 c') as [k [| |[r| |]|]]; try done; injection He as <-; cbn in Hl2; rewrite Hl1 in Hl2; apply (f_equal length) in Hl2; rewrite app_length in Hl2; cbn in Hl2; lia.
    - destruct (s_callers s1 c') as [k [| |n|]]; try done. destruct (_ <? _); [|done]. injection He as <-. cbn in Hl2. rewrite Hl1 in Hl2. by apply app_inj_tail in Hl2 as [_ ?].
    - destruct (s_loop s1); try done. destruct (s_queue s1); [done|]. injection He as <-. cbn in Hl2. rewrite Hl1 in Hl2; apply (f_equal length) in Hl2; rewrite app_length in Hl2; cbn in Hl2; lia.
    - destruct (s_loop s1) as [|x|]; try done. destruct (slow_send _ _ _ _) as [fs' [[|y|y]|]]; try done; injection He as <-; cbn in Hl2; rewrite Hl1 in Hl2; by apply app_inj_tail in Hl2 as [_ ?].
    - destruct (s_loop s1) as [|x|x [r| |]]; try done. injection He as <-. cbn in Hl2. rewrite Hl1 in Hl2; apply (f_equal length) in Hl2; rewrite app_length in Hl2; cbn in Hl2; lia. }
  assert (slow = true -> In (c, j) (queued l1)) as Hslow.
  { intros ->. assert (slows (l1 ++ [Act true (c, j) fs]) = slows l1 ++ [(c, j)]) as Hsl by (unfold slows; by rewrite omap_snoc).
    assert (queued (l1 ++ [Act true (c, j) fs]) = queued l1) as Hq by (unfold queued; rewrite omap_snoc; cbn; by rewrite app_nil_r).
    assert (run fresh (h1 ++ [e]) = Ok s2) as Hr2 by (rewrite run_app, H1; cbn; by rewrite He).
    pose proof (inv_fifo _ _ (invariant _ _ Hr2)) as Hf2. rewrite Hl2, Hsl, Hq in Hf2. rewrite <- Hf2. apply in_or_app. left. apply in_or_app. right. by left. }
  assert (j <= ca_at (s_callers s1 c) /\ exists fs0, In (Act false (c, i) fs0) l1) as [Hat Hfirst].
  { destruct slow.
    - specialize (Hslow eq_refl). apply Jb in Hslow. split; [lia|]. apply in_fasts. rewrite Jf. apply in_seq. unfold begun. destruct (ca_stage (s_callers s1 c)); lia.
    - rewrite (Hfast eq_refl). split; [done|]. apply in_fasts. rewrite Jf, (Hfast eq_refl). apply in_seq. cbn. lia. }
  split; [done|]. intros fs' Hin.
  assert (In (Queued (c, i)) l1) as HQ.
  { assert (In (Queued (c, i)) (s_log s)) as Hq.
    { apply in_queued. rewrite <- Kq. apply in_or_app. left. apply in_slows. exists fs'. rewrite Hl. apply in_or_app. right. by right. }
    rewrite Hl in Hq. apply in_app_or in Hq as [?|[?|Hq]]; [done|done|]. exfalso.
    apply in_split in Hq as (l3 & l4 & ->).
    assert (s_log s = (l1 ++ Act slow (c, j) fs :: l3) ++ Queued (c, i) :: l4) as Hl' by (rewrite Hl, <- app_assoc; done).
    destruct (log_prefix _ _ _ _ _ Hrun Hl') as (h3 & e3 & h4 & s3 & s4 & Hh3 & H3 & Hl3 & He3 & Hl4 & H4).
    assert (ca_at (s_callers s3 c) = i) as Hi.
    { destruct e3 as [c'|c' v o|c'|c'| |v found o|]; cbn [SlowModel.step] in He3.
      - destruct (s_callers s3 c') as [k [| |n|]]; try done. injection He3 as <-. cbn in Hl4. rewrite Hl3 in Hl4. apply (f_equal length) in Hl4; rewrite app_length in Hl4; rewrite !app_length in Hl4; cbn in Hl4; lia.
      - destruct (s_callers s3 c') as [k [| |n|]] eqn:Ec; try done. destruct (oc_closing o); [done|]. destruct (route v (letter c' k) o) as [fs2 [[|x|x]|]]; try done; injection He3 as <-; cbn [s_log] in Hl4; rewrite Hl3 in Hl4; by apply app_inj_tail in Hl4 as [_ ?].
      - destruct (s_callers s3 c') as [k [| |[r| |]|]]; try done; injection He3 as <-; cbn [s_log] in Hl4; rewrite Hl3 in Hl4; apply (f_equal length) in Hl4; rewrite !app_length in Hl4; cbn in Hl4; lia.
      - destruct (s_callers s3 c') as [k [| |n|]] eqn:Ec; try done. destruct (_ <? _); [|done]. injection He3 as <-. cbn [s_log] in Hl4. rewrite Hl3 in Hl4. apply app_inj_tail in Hl4 as [_ [= -> ->]]. by rewrite Ec.
      - destruct (s_loop s3); try done. destruct (s_queue s3); [done|]. injection He3 as <-. cbn [s_log] in Hl4. rewrite Hl3 in Hl4; apply (f_equal length) in Hl4; rewrite !app_length in Hl4; cbn in Hl4; lia.
      - destruct (s_loop s3) as [|x|]; try done. destruct (slow_send _ _ _ _) as [fs2 [[|y|y]|]]; try done; injection He3 as <-; cbn [s_log] in Hl4; rewrite Hl3 in Hl4; by apply app_inj_tail in Hl4 as [_ ?].
      - destruct (s_loop s3) as [|x|x [r| |]]; try done. injection He3 as <-. cbn [s_log] in Hl4. rewrite Hl3 in Hl4; apply (f_equal length) in Hl4; rewrite !app_length in Hl4; cbn in Hl4; lia. }
    (* the call of the later envelope had been made by then *)
    destruct (invariant _ _ H3) as [Mf Mq _ Mb _ _ _]. rewrite Hl3 in *.
    destruct slow.
    - assert (In (c, j) (queued (l1 ++ Act true (c, j) fs :: l3))) as Hm by (rewrite <- Mq; apply in_or_app; left; apply in_slows; exists fs; apply in_or_app; right; by left).
      apply Mb in Hm. lia.
    - assert (In j (fasts c (l1 ++ Act false (c, j) fs :: l3))) as Hm by (apply in_fasts; exists fs; apply in_or_app; right; by left).
      rewrite Mf in Hm. apply in_seq in Hm. unfold begun in Hm. destruct (ca_stage (s_callers s3 c)); lia. }
  split; [|done]. destruct slow; [exfalso|done].
  (* both by the loop: in the order of the queue *)
  set (mine := fun x : nat * nat => if x.1 =? c then Some x.2 else None).
  assert (StronglySorted lt (omap mine (slows l1) ++ j :: omap mine (slows l2 ++ sending s ++ s_queue s))) as Hk.
  { specialize (Ks c). unfold queued_of in Ks. fold mine in Ks. rewrite <- Kq, Hl in Ks.
    assert (slows (l1 ++ Act true (c, j) fs :: l2) = slows l1 ++ (c, j) :: slows l2) as Hsl by (unfold slows; by rewrite omap_app).
    rewrite Hsl, <- app_assoc, omap_app in Ks. cbn [app] in Ks. cbn [omap list_omap] in Ks. unfold mine at 2 in Ks. cbn [fst snd] in Ks. by rewrite Nat.eqb_refl in Ks. }
  assert (forall (a b : list nat) y, StronglySorted lt (a ++ y :: b) -> forall z, In z b -> y < z) as Hsrt.
  { clear. induction a as [|a0 a IH]; intros b y H z Hz; inversion H as [|? ? Ha Hf]; subst.
    - eapply Forall_forall in Hf; [done|by apply elem_of_list_In].
    - by eapply IH. }
  specialize (Hsrt _ _ _ Hk i). assert (j < i); [|lia]. apply Hsrt. rewrite omap_app. apply in_or_app. left.
  assert (In (c, i) (slows l2)) as Hi2 by (apply in_slows; eauto). clear -Hi2.
  induction (slows l2) as [|[c' i'] q IH]; [done|]. cbn. unfold mine at 1. cbn [fst snd]. destruct Hi2 as [[= -> ->]|Hi2]; [rewrite Nat.eqb_refl; by left|]. destruct (c' =? c); [right|]; by apply IH.
Qed.

(** How long an envelope waits in the queue: it is tried when all before it were, and the one being sent. *)
Theorem C87_wait h s q1 x q2 h' s' :
  run fresh h = Ok s -> s_queue s = q1 ++ x :: q2 -> run s h' = Ok s' ->
  exists turns, slows (s_log s') = slows (s_log s) ++ turns /\ (In x turns <-> length (sending s) + length q1 < length turns).
Proof.
  intros Hrun Hq Hrun'. assert (run fresh (h ++ h') = Ok s') as Hr2 by (rewrite run_app, Hrun; done).
  destruct (run_grows _ _ _ Hrun') as [[l Hl] _]. pose proof (queued_nodup _ _ Hr2) as Hnd.
  pose proof (inv_fifo _ _ (invariant _ _ Hrun)) as F1. pose proof (inv_fifo _ _ (invariant _ _ Hr2)) as F2.
  exists (slows l). assert (slows (s_log s') = slows (s_log s) ++ slows l) as Hsl by (rewrite Hl; unfold slows; by rewrite omap_app). split; [done|].
  assert (queued (s_log s') = queued (s_log s) ++ queued l) as Hql by (rewrite Hl; unfold queued; by rewrite omap_app).
  rewrite Hql, <- F1, Hsl, Hq in F2. rewrite <- !app_assoc in F2. apply app_inv_head in F2.
  rewrite Hql, <- F1, Hq in Hnd. clear -F2 Hnd.
  set (a := sending s ++ q1). assert (sending s ++ (q1 ++ x :: q2) ++ queued l = a ++ x :: (q2 ++ queued l)) as Ha by (unfold a; rewrite <- !app_assoc; done).
  rewrite <- !app_assoc in Hnd.
  assert (slows l ++ (sending s' ++ s_queue s') = a ++ x :: (q2 ++ queued l)) as F by (rewrite <- Ha; rewrite <- !app_assoc; rewrite F2; by rewrite <- ?app_assoc).
  assert (~ In x a) as Hna.
  { assert (List.NoDup (slows (s_log s) ++ a ++ x :: (q2 ++ queued l))) as Hn2 by (rewrite <- Ha, <- !app_assoc; exact Hnd).
    clear -Hn2. induction (slows (s_log s)) as [|y b IH]; cbn in Hn2; [|inversion Hn2; auto]. apply NoDup_remove_2 in Hn2. intros H. apply Hn2, in_or_app. by left. }
  assert (length (sending s) + length q1 = length a) as -> by (unfold a; by rewrite app_length).
  split.
  - intros Hin. destruct (Nat.lt_ge_cases (length a) (length (slows l))) as [|Hge]; [done|]. exfalso. apply Hna.
    assert (slows l = firstn (length (slows l)) a) as Hfn.
    { apply (f_equal (firstn (length (slows l)))) in F. rewrite firstn_app, firstn_all, Nat.sub_diag, firstn_O, app_nil_r in F. rewrite firstn_app in F.
      replace (length (slows l) - length a) with 0 in F by lia. rewrite firstn_O, app_nil_r in F. exact F. }
    rewrite Hfn in Hin. rewrite <- (firstn_skipn (length (slows l)) a). apply in_or_app. by left.
  - intros Hlt. assert (nth_error (slows l) (length a) = Some x) as Hn; [|by eapply nth_error_In].
    assert (nth_error (slows l ++ (sending s' ++ s_queue s')) (length a) = Some x) as Hn by (rewrite F, nth_error_app2, Nat.sub_diag by lia; done).
    by rewrite nth_error_app1 in Hn.
Qed.

Lemma stuck_step s x e s' : s_loop s = LActed x Never -> step s e = Ok s' -> s_loop s' = LActed x Never /\ slows (s_log s') = slows (s_log s) /\ exists q, s_queue s' = s_queue s ++ q.
Proof.
  intros Hl Hs. destruct e as [c|c v o|c|c| |v found o|]; cbn [SlowModel.step] in Hs; rewrite ?Hl in Hs; try done.
  - destruct (s_callers s c) as [i [| |n|]]; try done. injection Hs as <-. cbn. split; [done|]. split; [done|]. exists []. by rewrite app_nil_r.
  - destruct (s_callers s c) as [i [| |n|]]; try done. destruct (oc_closing o); [done|]. destruct (route v (letter c i) o) as [fs [[|y|y]|]]; try done; injection Hs as <-; cbn;
      unfold slows; rewrite omap_snoc; cbn; rewrite app_nil_r; (split; [done|]; split; [done|]; exists []; by rewrite app_nil_r).
  - destruct (s_callers s c) as [i [| |[r| |]|]]; try done; injection Hs as <-; cbn; (split; [done|]; split; [done|]; exists []; by rewrite app_nil_r).
  - destruct (s_callers s c) as [i [| |n|]]; try done. destruct (_ <? _); [|done]. injection Hs as <-. cbn. split; [done|]. split; [unfold slows; rewrite omap_snoc; cbn; by rewrite app_nil_r|]. eauto.
Qed.

(** If one attempt of the loop never returns, no envelope in the queue is ever sent, from any caller. *)
Theorem C87_stuck h s x h' s' :
  run fresh h = Ok s -> s_loop s = LActed x Never -> run s h' = Ok s' ->
  s_loop s' = LActed x Never /\ slows (s_log s') = slows (s_log s) /\ (exists q, s_queue s' = s_queue s ++ q) /\ length (s_queue s') <= 100.
Proof.
  intros Hrun Hl Hrun'. assert (run fresh (h ++ h') = Ok s') as Hr2 by (rewrite run_app, Hrun; done).
  assert (s_loop s' = LActed x Never /\ slows (s_log s') = slows (s_log s) /\ (exists q, s_queue s' = s_queue s ++ q)) as (A & B & C).
  { clear Hrun Hr2. revert s Hl Hrun'. induction h' as [|e h' IH]; intros s Hl Hr; [injection Hr as <-; split; [done|]; split; [done|]; exists []; by rewrite app_nil_r|].
    cbn in Hr. destruct (step s e) as [s1| |] eqn:E; try done. destruct (stuck_step _ _ _ _ Hl E) as (A1 & A2 & q1 & A3). destruct (IH _ A1 Hr) as (B1 & B2 & q2 & B3).
    split; [done|]. split; [congruence|]. exists (q1 ++ q2). by rewrite B3, A3, app_assoc. }
  split; [done|]. split; [done|]. split; [done|]. apply (inv_room _ _ (invariant _ _ Hr2)).
Qed.

(** Then a caller whose envelopes go to addresses that are not found gets through at most as many as the queue has room, ... *)
Theorem C87_room h s x c h' s' :
  run fresh h = Ok s -> s_loop s = LActed x Never -> run s h' = Ok s' ->
  ca_stage (s_callers s c) = Free ->
  (forall v o i, In (EAct c v o) h' -> existsb to_queue (route v (letter c i) o).1 = true) ->
  ca_at (s_callers s' c) <= ca_at (s_callers s c) + (100 - length (s_queue s)).
Proof.
  intros Hrun Hl Hrun' Hfree Hall. destruct (C87_stuck _ _ _ _ _ Hrun Hl Hrun') as (_ & _ & _ & Hroom).
  assert ((match ca_stage (s_callers s' c) with Acted (Back _) => False | _ => True end) /\ ca_at (s_callers s' c) + length (s_queue s) <= ca_at (s_callers s c) + length (s_queue s')) as [_ H]; [|lia].
  clear Hroom. revert s' Hrun'. induction h' as [|e h' IH] using rev_ind; intros s' Hrun'; [injection Hrun' as <-; rewrite Hfree; lia|].
  destruct (run_snoc _ _ _ _ Hrun') as (s1 & H1 & Hs).
  destruct (IH ltac:(intros v o i Hi; apply Hall, in_or_app; by left) _ H1) as [I1 I2]. destruct (C87_stuck _ _ _ _ _ Hrun Hl H1) as (Hl1 & _). clear IH H1 Hrun'.
  assert (forall c' k k', s_callers s1 c' = k -> (c' = c -> ca_at k' = ca_at k /\ match ca_stage k' with Acted (Back _) => False | _ => True end) ->
    (match ca_stage (set_caller (s_callers s1) c' k' c) with Acted (Back _) => False | _ => True end) /\ ca_at (set_caller (s_callers s1) c' k' c) + length (s_queue s) <= ca_at (s_callers s c) + length (s_queue s1)) as Hset.
  { intros c' k k' Hk Hkk. unfold set_caller. destruct (Nat.eqb_spec c c') as [->|Hne]; [|done]. destruct (Hkk eq_refl) as [-> Hb]. split; [done|]. by rewrite <- Hk. }
  destruct e as [c'|c' v o|c'|c'| |v found o|]; cbn [SlowModel.step] in Hs; rewrite ?Hl1 in Hs; try done.
  - destruct (s_callers s1 c') as [i [| |n|]] eqn:E; try done. injection Hs as <-. cbn [s_callers s_queue]. by eapply Hset.
  - destruct (s_callers s1 c') as [i [| |n|]] eqn:E; try done. destruct (oc_closing o); [done|].
    assert (c' = c -> existsb to_queue (route v (letter c' i) o).1 = true) as Hq by (intros ->; apply Hall, in_or_app; right; by left).
    destruct (route v (letter c' i) o) as [fs [[|y|y]|]]; try done; injection Hs as <-; cbn [s_callers s_queue]; eapply Hset; try done; intros Hc; cbn in Hq; rewrite ?(Hq Hc); done.
  - destruct (s_callers s1 c') as [i [| |[r| |]|]] eqn:E; try done; injection Hs as <-; cbn [s_callers s_queue]; [|by eapply Hset].
    unfold set_caller. destruct (Nat.eqb_spec c c') as [->|Hne]; [|done]. by rewrite E in I1.
  - destruct (s_callers s1 c') as [i [| |n|]] eqn:E; try done. destruct (_ <? _); [|done]. injection Hs as <-. cbn [s_callers s_queue]. rewrite app_length. cbn [length].
    unfold set_caller. destruct (Nat.eqb_spec c c') as [->|Hne]; [|split; [done|lia]]. rewrite E in I2. cbn in *. split; [done|lia].
Qed.

(** ... and a caller that then has to wait waits for ever, with all its later envelopes, also those to agents of this node. *)
Theorem C87_blocked h s x c i h' s' :
  run fresh h = Ok s -> s_loop s = LActed x Never -> length (s_queue s) = 100 -> s_callers s c = Caller i Putting -> run s h' = Ok s' ->
  s_callers s' c = Caller i Putting /\ forall j, i < j -> handed (c, j) (s_log s') = [].
Proof.
  intros Hrun Hl Hfull Hc Hrun'. assert (run fresh (h ++ h') = Ok s') as Hr2 by (rewrite run_app, Hrun; done).
  assert (s_callers s' c = Caller i Putting) as Hc'.
  { clear Hr2. revert s' Hrun'. induction h' as [|e h' IH] using rev_ind; intros s' Hrun'; [by injection Hrun' as <-|].
    destruct (run_snoc _ _ _ _ Hrun') as (s1 & H1 & Hs). specialize (IH _ H1). destruct (C87_stuck _ _ _ _ _ Hrun Hl H1) as (Hl1 & _ & (q & Hq) & Hr).
    assert (length (s_queue s1) <? queue_size = false) as Hno by (apply Nat.ltb_ge; rewrite Hq, app_length; unfold queue_size; lia).
    destruct e as [c'|c' v o|c'|c'| |v found o|]; cbn [SlowModel.step] in Hs; rewrite ?Hl1 in Hs; try done.
    - destruct (decide (c' = c)) as [->|Hne]; [by rewrite IH in Hs|]. destruct (s_callers s1 c') as [k [| |n|]]; try done. injection Hs as <-. cbn. by rewrite set_other.
    - destruct (decide (c' = c)) as [->|Hne]; [by rewrite IH in Hs|]. destruct (s_callers s1 c') as [k [| |n|]]; try done. destruct (oc_closing o); [done|].
      destruct (route v (letter c' k) o) as [fs [[|y|y]|]]; try done; injection Hs as <-; cbn; by rewrite set_other.
    - destruct (decide (c' = c)) as [->|Hne]; [by rewrite IH in Hs|]. destruct (s_callers s1 c') as [k [| |[r| |]|]]; try done; injection Hs as <-; cbn; by rewrite set_other.
    - destruct (s_callers s1 c') as [k [| |n|]]; try done. by rewrite Hno in Hs. }
  split; [done|]. intros j Hj. destruct (invariant _ _ Hr2) as [Kf Kq Ks Kb Kr Ka Kl].
  assert (forall b fs, ~ In (Act b (c, j) fs) (s_log s')) as Hno.
  { intros [|] fs H.
    - assert (In (c, j) (queued (s_log s'))) as Hq by (rewrite <- Kq; apply in_or_app; left; apply in_slows; eauto). apply Kb in Hq. rewrite Hc' in Hq. cbn in Hq. lia.
    - assert (In j (fasts c (s_log s'))) as Hq by (apply in_fasts; eauto). rewrite Kf, Hc' in Hq. apply in_seq in Hq. cbn in Hq. lia. }
  by apply handed_none.
Qed.

(** As long as the attempts of the loop return, a caller that waits can go on after at most three steps of the loop. *)
Theorem C87_progress h s c i :
  run fresh h = Ok s -> s_callers s c = Caller i Putting -> (forall x, s_loop s <> LActed x Never) ->
  exists l, length l <= 3 /\ Forall (fun e => match e with LTake | LAct _ _ _ | LBack => True | _ => False end) l /\
    match run s (l ++ [EPut c]) with Ok s' => s_callers s' c = Caller (S i) Free | _ => False end.
Proof.
  intros Hrun Hc Hn. assert (forall x, s_loop s <> LActed x Queues) as Hnq.
  { clear Hc Hn. revert s Hrun. induction h as [|e h IH] using rev_ind; intros s Hrun x; [by injection Hrun as <-|].
    destruct (run_snoc _ _ _ _ Hrun) as (s1 & H1 & Hs). specialize (IH _ H1). clear Hrun H1.
    destruct e as [c'|c' v o|c'|c'| |v found o|]; cbn [SlowModel.step] in Hs.
    - destruct (s_callers s1 c') as [k [| |n|]]; try done. injection Hs as <-. apply IH.
    - destruct (s_callers s1 c') as [k [| |n|]]; try done. destruct (oc_closing o); [done|]. destruct (route v (letter c' k) o) as [fs [[|y|y]|]]; try done; injection Hs as <-; apply IH.
    - destruct (s_callers s1 c') as [k [| |[r| |]|]]; try done; injection Hs as <-; apply IH.
    - destruct (s_callers s1 c') as [k [| |n|]]; try done. destruct (_ <? _); [|done]. injection Hs as <-. apply IH.
    - destruct (s_loop s1); try done. destruct (s_queue s1); [done|]. by injection Hs as <-.
    - destruct (s_loop s1) as [|y|]; try done. destruct (slow_send _ _ _ _) as [fs [[|z|z]|]]; try done; by injection Hs as <-.
    - destruct (s_loop s1) as [|y|y [r| |]]; try done. by injection Hs as <-. }
  destruct s as [cs q lp lg]. cbn in *. destruct (Nat.lt_ge_cases (length q) 100) as [Hlt|Hge].
  { exists []. cbn [app SlowModel.run SlowModel.step s_callers s_queue s_loop s_log]. rewrite Hc. replace (length q <? queue_size) with true by (symmetry; apply Nat.ltb_lt; done).
    split; [cbn; lia|]. split; [constructor|]. cbn. apply set_same. }
  pose proof (inv_room _ _ (invariant _ _ Hrun)) as Hr. cbn in Hr. unfold queue_size in Hr. destruct q as [|y q]; [cbn in Hge; lia|]. cbn in Hge, Hr.
  assert (length q <? queue_size = true) as Hroom by (apply Nat.ltb_lt; unfold queue_size; lia).
  assert (exists l1, length l1 <= 2 /\ Forall (fun e => match e with LTake | LAct _ _ _ | LBack => True | _ => False end) l1 /\ exists lg', run (Node cs (y :: q) lp lg) l1 = Ok (Node cs (y :: q) LFree lg')) as (l1 & L1 & L2 & lg' & L3).
  { destruct lp as [|x|x [r| |]].
    - exists []. split; [cbn; lia|]. split; [constructor|]. by eexists.
    - exists [LAct (View (e_sender (letter x.1 x.2)) None true false false None false None None None) (Returns (Err "")) (StreamOutcome false false (Err "")); LBack].
      split; [cbn; lia|]. split; [repeat constructor|]. eexists. cbn [SlowModel.run SlowModel.step s_loop]. unfold slow_send, route_dht, envelope_record. cbn [v_my_addr]. rewrite String.eqb_refl. cbn. done.
    - exists [LBack]. split; [cbn; lia|]. split; [repeat constructor|]. by eexists.
    - by destruct (Hnq x).
    - by destruct (Hn x). }
  exists (l1 ++ [LTake]). rewrite app_length. split; [cbn; lia|]. split; [apply Forall_app; split; [done|repeat constructor]|].
  rewrite <- app_assoc, run_app, L3. cbn [app SlowModel.run SlowModel.step s_callers s_queue s_loop s_log]. rewrite Hc, Hroom. cbn. apply set_same.
Qed.
End Slow.
Print Assumptions C87_fifo.
Print Assumptions C87_kept.
Print Assumptions C87_twice.
Print Assumptions C87_once.
Print Assumptions C87_order.
Print Assumptions C87_wait.
Print Assumptions C87_stuck.
Print Assumptions C87_room.
Print Assumptions C87_blocked.
Print Assumptions C87_progress.

(** The envelopes of the examples; a look-up that finds nothing or finds the peer Qm2, which answers SUCCESS or whose answer is lost. *)
Definition letters (c i : nat) : envelope := env "carol" (r_address bob) (if i =? 0 then "first" else "later").
Definition bobs : view := View "me" None true false false None false (Some bob) None None.
Definition answers : stream_outcome := StreamOutcome true true (status_reply 0).
Definition mute : stream_outcome := StreamOutcome true true (Err "stream reset").
Definition tries (found : ret (string * option record)) (o : stream_outcome) : outcome := Outcome true (Ok tt) true (Ok tt) None bobs found o false.
Definition not_found : ret (string * option record) := Returns (Err "not found").
Definition at_qm2 : ret (string * option record) := Returns (Ok ("Qm2", None)).
Definition fails (c : nat) : list event := [ETake c; EAct c bobs (tries not_found mute); EBack c; EPut c].

(** Who acted on which envelope, and how often that handed it over (No counterpart in /repo: for the examples). *)
Definition story (s : res node) : list (bool * (nat * nat) * nat) :=
  match s with Ok s => omap (fun m => match m with Act b x fs => Some (b, x, length (List.filter hands fs)) | _ => None end) (s_log s) | _ => [] end.

(** That an agent gets the envelopes of another in the order they were sent, and each once, is not so: the second comes first if the first was not found at once,
    and the first comes twice if the answer to it is lost. *)
Theorem C87_refuted :
  story (run letters fresh (fails 0 ++ [ETake 0; EAct 0 bobs (tries at_qm2 answers); EBack 0; LTake; LAct bobs at_qm2 answers; LBack])) =
    [(false, (0, 0), 0); (false, (0, 1), 1); (true, (0, 0), 1)] /\
  story (run letters fresh ([ETake 0; EAct 0 bobs (tries at_qm2 mute); EBack 0; EPut 0] ++ [LTake; LAct bobs at_qm2 answers; LBack])) =
    [(false, (0, 0), 1); (true, (0, 0), 1)].
Proof. vm_compute. done. Qed.
Print Assumptions C87_refuted.

(** One look-up that does not end, a hundred envelopes to addresses that are not found: from then on the caller waits for ever, also with envelopes to agents of this node. *)
Example C87_example :
  confirmed answers /\ ~ confirmed mute /\
  match run letters fresh (fails 1 ++ [LTake; LAct bobs Hangs mute] ++ concat (repeat (fails 0) 100) ++ take 3 (fails 0)) with
  | Ok s => s_loop s = LActed (1, 0) Never /\ length (s_queue s) = 100 /\ s_callers s 0 = Caller 100 Putting /\ s_callers s 1 = Caller 1 Free
  | _ => False
  end.
Proof.
  split; [|split].
  - eexists. split; vm_compute; done.
  - intros (b & Hb & _). vm_compute in Hb. done.
  - vm_compute. done.
Qed.
