(** Properties of the metrics of a peer: C53, C64, C65. *)
From Coq Require Import ZArith NArith List String Ascii Lia Floats.SpecFloat.
From stdpp Require Import base tactics gmap list strings.
From Verif Require Import GoBase MonitorModel.
Open Scope string_scope.
Open Scope list_scope.
Open Scope Z_scope.

(** ** C53 *)

(** How many of the values are not above a bound. *)
Definition not_above (bound : spec_float) (values : list spec_float) : Z :=
  Z.of_nat (length (List.filter (fun v => SFleb v bound) values)).

Lemma observe_counts_spec values v buckets n :
  observe_counts v buckets (map (fun b => not_above b values mod 2 ^ 64) buckets ++ [n mod 2 ^ 64]) =
  Ok (map (fun b => not_above b (values ++ [v]) mod 2 ^ 64) buckets ++ [(n + 1) mod 2 ^ 64]).
Proof.
  assert (Hm : forall a, count64 (a mod 2 ^ 64 + 1) = (a + 1) mod 2 ^ 64)
    by (intros a; unfold count64; by rewrite Zplus_mod_idemp_l).
  induction buckets as [|b buckets IH]; [cbn [map app observe_counts]; by rewrite Hm|].
  cbn [map app observe_counts]. rewrite IH. cbn [rbind]. rewrite Hm.
  replace (not_above b (values ++ [v])) with (not_above b values + if SFleb v b then 1 else 0).
  { destruct (SFleb v b); [done|]. by rewrite Z.add_0_r. }
  unfold not_above. rewrite List.filter_app, app_length. cbn [List.filter]. destruct (SFleb v b); cbn [length]; lia.
Qed.

Lemma observe_all_spec buckets before values :
  observe_all (Histogram buckets (map (fun b => not_above b before mod 2 ^ 64) buckets ++ [Z.of_nat (length before) mod 2 ^ 64])) values =
  Ok (Histogram buckets (map (fun b => not_above b (before ++ values) mod 2 ^ 64) buckets ++ [Z.of_nat (length (before ++ values)) mod 2 ^ 64])).
Proof.
  revert before. induction values as [|v values IH]; intros before; [by rewrite app_nil_r|].
  cbn [observe_all]. unfold observe. cbn [h_buckets h_counts]. rewrite observe_counts_spec. cbn [rbind].
  replace (Z.of_nat (length before) + 1) with (Z.of_nat (length (before ++ [v]))) by (rewrite app_length; cbn [length]; lia).
  rewrite IH. by rewrite <- app_assoc.
Qed.

(** After any observations each bucket's count is the number of those not above its
    bound, the last count is that of all, as 64-bit numbers. *)
Theorem C53_counts buckets values :
  observe_all (new_histogram buckets) values =
  Ok (Histogram buckets (map (fun b => not_above b values mod 2 ^ 64) buckets ++ [Z.of_nat (length values) mod 2 ^ 64])).
Proof.
  pose proof (observe_all_spec buckets [] values) as H. cbn [app length] in H. rewrite <- H. unfold new_histogram.
  assert (E : repeat 0 (length buckets + 1) = map (fun b => not_above b [] mod 2 ^ 64) buckets ++ [Z.of_nat 0 mod 2 ^ 64]).
  { rewrite Nat.add_1_r. clear H. induction buckets as [|b buckets IH]; [done|]. cbn [length map app]. rewrite <- IH. done. }
  by rewrite E.
Qed.
Print Assumptions C53_counts.

Lemma pos_cmp_trans a b c : Pos.compare_cont Eq a b <> Gt -> Pos.compare_cont Eq b c <> Gt -> Pos.compare_cont Eq a c <> Gt.
Proof. change (Pos.compare_cont Eq) with Pos.compare. rewrite !Pos.compare_le_iff. lia. Qed.

Lemma SFleb_trans a b c : SFleb a b = true -> SFleb b c = true -> SFleb a c = true.
Proof.
  unfold SFleb, SFcompare.
  destruct a as [sa|sa| |sa ma ea], b as [sb|sb| |sb mb eb], c as [sc|sc| |sc mc ec]; try done;
    try (by destruct sa, sb); try (by destruct sb, sc); try (by destruct sa, sb, sc).
  destruct sa, sb, sc; try done;
  destruct (Z.compare_spec ea eb), (Z.compare_spec eb ec); try done; intros H1 H2;
  destruct (Z.compare_spec ea ec); try done; try lia; change (Pos.compare_cont Eq) with Pos.compare in *;
  destruct (Pos.compare_spec ma mb), (Pos.compare_spec mb mc); try done; cbn in *; try done;
  destruct (Pos.compare_spec ma mc); try done; cbn; try done; lia.
Qed.

Lemma not_above_le a b values : SFleb a b = true -> not_above a values <= not_above b values.
Proof.
  intros Hab. unfold not_above. induction values as [|v values IH]; [done|]. cbn [List.filter].
  destruct (SFleb v a) eqn:E1; [rewrite (SFleb_trans _ _ _ E1 Hab); cbn [length]; lia|].
  destruct (SFleb v b); cbn [length]; lia.
Qed.

(** If the bounds ascend, as the node's do, the counts never decrease along the
    buckets, in fewer than 2^64 observations. *)
Theorem C53_ascending buckets values h i j a b :
  observe_all (new_histogram buckets) values = Ok h -> Z.of_nat (length values) < 2 ^ 64 ->
  (forall k x y, buckets !! k = Some x -> buckets !! S k = Some y -> SFleb x y = true) ->
  (i <= j)%nat -> h_counts h !! i = Some a -> h_counts h !! j = Some b -> a <= b <= Z.of_nat (length values).
Proof.
  intros Hh Hlen Hasc Hij Ha Hb. rewrite C53_counts in Hh. injection Hh as <-. cbn [h_counts] in *.
  assert (Hle : forall x, not_above x values <= Z.of_nat (length values)).
  { intros x. unfold not_above. clear. induction values as [|v values IH]; [done|]. cbn [List.filter].
    destruct (SFleb v x); cbn [length]; lia. }
  assert (Hmod : forall x, not_above x values mod 2 ^ 64 = not_above x values).
  { intros x. apply Z.mod_small. specialize (Hle x). unfold not_above in *. lia. }
  rewrite (Z.mod_small (Z.of_nat (length values))) in * by lia.
  assert (Hsorted : forall k l x y, buckets !! k = Some x -> buckets !! (k + l)%nat = Some y -> (0 < l)%nat -> SFleb x y = true).
  { intros k l. revert k. induction l as [|l IH]; intros k x y Hx Hy Hl; [lia|].
    destruct l as [|l]; [rewrite Nat.add_1_r in Hy; eauto|].
    assert (is_Some (buckets !! S k)) as [z Hz].
    { apply lookup_lt_is_Some. apply lookup_lt_Some in Hy. lia. }
    apply (SFleb_trans x z y); [eauto|]. apply (IH (S k)); [done| |lia]. by replace (S k + S l)%nat with (k + S (S l))%nat by lia. }
  apply lookup_app_Some in Hb as [Hb|[Hb0 Hb]].
  - apply list_lookup_fmap_inv in Hb as (y & -> & Hy).
    assert (Hi : (i < length (map (fun b => (not_above b values mod 2 ^ 64)%Z) buckets))%nat).
    { rewrite map_length. apply lookup_lt_Some in Hy. lia. }
    rewrite lookup_app_l in Ha by done. apply list_lookup_fmap_inv in Ha as (x & -> & Hx). rewrite !Hmod. split; [|apply Hle].
    destruct (decide (i = j)) as [->|Hne]; [replace y with x by congruence; lia|].
    apply not_above_le, (Hsorted i (j - i)%nat); [done| |lia]. by replace (i + (j - i))%nat with j by lia.
  - apply list_lookup_singleton_Some in Hb as [_ <-]. split; [|lia].
    apply lookup_app_Some in Ha as [Ha|[_ Ha]].
    + apply list_lookup_fmap_inv in Ha as (x & -> & Hx). rewrite Hmod. apply Hle.
    + apply list_lookup_singleton_Some in Ha as [_ <-]. lia.
Qed.
Print Assumptions C53_ascending.

(** NaN is counted in the last bucket only. *)
Theorem C53_nan buckets values h :
  observe_all (new_histogram buckets) values = Ok h ->
  exists h', observe h S754_nan = Ok h' /\
    forall i, (i < length buckets)%nat -> h_counts h' !! i = h_counts h !! i.
Proof.
  intros Hh. pose proof (C53_counts buckets (values ++ [S754_nan])) as Hn.
  rewrite C53_counts in Hh. injection Hh as <-.
  pose proof (observe_all_spec buckets values [S754_nan]) as Ho. cbn [observe_all] in Ho.
  destruct (observe _ S754_nan) as [h'|x|x] eqn:Eo; try done. cbn [rbind] in Ho. exists h'. split; [done|].
  injection Ho as ->. cbn [h_counts]. intros i Hi.
  rewrite !lookup_app_l by (by rewrite map_length). rewrite !list_lookup_fmap.
  destruct (buckets !! i) as [b|]; [|done]. cbn. do 2 f_equal. unfold not_above. rewrite List.filter_app. cbn [List.filter].
  by rewrite app_nil_r.
Qed.
Print Assumptions C53_nan.

Definition f64 (z : Z) : spec_float := binary_normalize 53 1024 z 0 false.
Example C53_example :
  observe_all (new_histogram (map f64 [100; 500; 1000])) [f64 99; f64 100; f64 700; S754_nan; S754_infinity false; S754_infinity true] =
  Ok (Histogram (map f64 [100; 500; 1000]) [3; 3; 4; 6]) /\
  (forall k x y, map f64 [100; 500; 1000] !! k = Some x -> map f64 [100; 500; 1000] !! S k = Some y -> SFleb x y = true).
Proof.
  split; [vm_compute; done|]. intros [|[|[|k]]] x y Hx Hy; try (vm_compute in Hx, Hy; congruence);
    (cbn in Hx, Hy; injection Hx as <-; injection Hy as <-; vm_compute; done).
Qed.

(** ** C64 *)

(** A use of named metrics: a metric is made under a name, or a handle is changed. *)
Inductive metric_op := MNew (name : string) | MAdd (handle : nat) (n : Z).
Definition apply_op (m : metrics) (op : metric_op) : metrics :=
  match op with MNew name => (new_metric m name).1 | MAdd h n => add_metric m h n end.
Definition apply_ops (ops : list metric_op) : metrics := fold_left apply_op ops metrics0.

(** The handle given by a creation is the number of creations before it. *)
Definition made (ops : list metric_op) : nat := length (List.filter (fun op => match op with MNew _ => true | _ => false end) ops).
(** What was added to a handle. *)
Definition added (h : nat) (ops : list metric_op) : Z :=
  foldr Z.add 0 (map (fun op => match op with MAdd h' n => if Nat.eqb h h' then n else 0 | _ => 0 end) ops).

Lemma added_app h ops1 ops2 : added h (ops1 ++ ops2) = added h ops1 + added h ops2.
Proof. unfold added. induction ops1 as [|op ops1 IH]; [done|]. cbn. rewrite IH. lia. Qed.

Lemma apply_ops_snoc ops op : apply_ops (ops ++ [op]) = apply_op (apply_ops ops) op.
Proof. unfold apply_ops. by rewrite fold_left_app. Qed.

Lemma ops_values ops : length (ms_values (apply_ops ops)) = made ops.
Proof.
  induction ops as [|op ops IH] using rev_ind; [done|]. rewrite apply_ops_snoc. unfold made in *. rewrite List.filter_app, app_length, <- IH.
  destruct op; cbn; [by rewrite app_length|]. rewrite alter_length. lia.
Qed.

(** What is reported under a name is what was added through the handle of the last
    metric made under it, since it was made. What is added through the handle of an
    earlier one is not reported. *)
Theorem C64_stat ops1 name ops2 :
  ~ In (MNew name) ops2 ->
  get_metric (apply_ops (ops1 ++ MNew name :: ops2)) name = Some (made ops1) /\
  stat (apply_ops (ops1 ++ MNew name :: ops2)) name = Some (added (made ops1) ops2).
Proof.
  intros Hn.
  assert (H : get_metric (apply_ops (ops1 ++ MNew name :: ops2)) name = Some (made ops1) /\
    ms_values (apply_ops (ops1 ++ MNew name :: ops2)) !! made ops1 = Some (added (made ops1) ops2)).
  2:{ destruct H as [H1 H2]. split; [done|]. unfold stat. by rewrite H1. }
  induction ops2 as [|op ops2 IH] using rev_ind.
  - rewrite apply_ops_snoc. cbn. unfold get_metric. cbn. rewrite ops_values, lookup_insert. split; [done|].
    rewrite lookup_app_r by (by rewrite ops_values). by rewrite ops_values, Nat.sub_diag.
  - destruct IH as [IH1 IH2]; [intros Hi; apply Hn, in_or_app; by left|].
    replace (ops1 ++ MNew name :: ops2 ++ [op]) with ((ops1 ++ MNew name :: ops2) ++ [op]) by (by rewrite <- app_assoc).
    rewrite apply_ops_snoc, added_app. destruct op as [name'|h n].
    + cbn. unfold get_metric in *. cbn. split.
      * rewrite lookup_insert_ne; [done|]. intros ->. apply Hn, in_or_app. right. by left.
      * rewrite lookup_app_l by (by apply lookup_lt_Some in IH2). rewrite IH2. by rewrite Z.add_0_r.
    + unfold get_metric in *. cbn [apply_op add_metric ms_names ms_values]. split; [done|].
      assert (Ea : forall k, added k [MAdd h n] = if Nat.eqb k h then n else 0) by (intros k; unfold added; cbn; destruct (Nat.eqb k h); lia).
      rewrite Ea. destruct (Nat.eqb_spec (made ops1) h) as [<-|Hne].
      * rewrite list_lookup_alter, IH2. done.
      * rewrite list_lookup_alter_ne by done. rewrite IH2. f_equal. lia.
Qed.
Print Assumptions C64_stat.

Theorem C64_unknown ops name : ~ In (MNew name) ops -> stat (apply_ops ops) name = None.
Proof.
  intros Hn. unfold stat. enough (get_metric (apply_ops ops) name = None) as -> by done.
  induction ops as [|op ops IH] using rev_ind; [done|]. rewrite apply_ops_snoc.
  assert (Hi : ~ In (MNew name) ops) by (intros Hi; apply Hn, in_or_app; by left). specialize (IH Hi).
  destruct op as [name'|h n]; [|done]. unfold get_metric in *. cbn. rewrite lookup_insert_ne; [done|].
  intros ->. apply Hn, in_or_app. right. by left.
Qed.
Print Assumptions C64_unknown.

(** Without the permission to write, as in the peer, nothing is ever written and any
    Stop crashes. *)
Theorem C64_no_write evs r :
  report_run (reporting0 false) evs = Some r ->
  match r with
  | Ok r' => r' = reporting0 false /\ ~ In RStop evs /\ ~ In RTurn evs
  | _ => In RStop evs
  end.
Proof.
  induction evs as [|ev evs IH]; [intros [= <-]; by repeat split; intros []|].
  destruct ev; cbn; try done.
  - intros H. specialize (IH H). destruct r as [r|x|x]; [|by right|by right].
    destruct IH as (? & ? & ?). repeat split; [done|by intros [?|?]|by intros [?|?]].
  - intros [= <-]. by left.
Qed.
Print Assumptions C64_no_write.

Definition is_start (ev : report_event) : bool := match ev with RStart => true | _ => false end.
(** Reporting is started at most once, by the first Start; it never resumes after Stop,
    and a second Stop crashes. *)
Theorem C64_once evs r :
  report_run (reporting0 true) evs = Some (Ok r) ->
  rp_starts r = (if existsb is_start evs then 1%nat else 0%nat) /\
  (In RStop evs -> rp_closing r = CClosed /\ exists x, report_step r RStop = Some (Panic x)) /\
  (rp_loops r <= 1)%nat.
Proof.
  intros H.
  assert (Hgen : forall evs r0, report_run r0 evs = Some (Ok r) -> rp_write r0 = true ->
    (rp_closing r0 = CNil -> rp_loops r0 = O /\ rp_starts r0 = O) -> (rp_closing r0 <> CNil -> (rp_loops r0 <= 1)%nat /\ rp_starts r0 = 1%nat) ->
    (rp_loops r <= 1)%nat /\ (rp_closing r0 = CClosed -> rp_closing r = CClosed) /\
    (In RStop evs -> rp_closing r = CClosed) /\
    rp_starts r = match rp_closing r0 with CNil => if existsb is_start evs then 1%nat else 0%nat | _ => 1%nat end).
  { clear. induction evs as [|ev evs IH]; intros r0 H Hw Hnil Hopen.
    - injection H as ->. split; [destruct (rp_closing r) eqn:E; [destruct (Hnil eq_refl); lia|apply Hopen; done..]|].
      repeat split; [done|done|]. destruct (rp_closing r) eqn:E; [cbn; by apply Hnil|by apply Hopen..].
    - cbn [report_run] in H. destruct (report_step r0 ev) as [[r1|x|x]|] eqn:Es; try done.
      destruct r0 as [w c l st]. cbn in Hw, Hnil, Hopen |- *. subst w.
      assert (E : forall (P : report_event) , In P (ev :: evs) <-> ev = P \/ In P evs) by (intros; reflexivity).
      destruct ev.
      + cbn in Es. destruct c; injection Es as <-.
        * destruct (Hnil eq_refl) as [-> ->]. destruct (IH _ H eq_refl) as (H1 & H2 & H3 & H4); cbn; [done|lia|].
          cbn in H4. repeat split; [done|done| |].
          -- intros [?|?]; [done|auto].
          -- done.
        * destruct (IH _ H eq_refl) as (H1 & H2 & H3 & H4); cbn; [done|auto|]. cbn in H2, H4. repeat split; [done|done| |done].
          intros [?|?]; [done|auto].
        * destruct (IH _ H eq_refl) as (H1 & H2 & H3 & H4); cbn; [done|auto|]. cbn in H2, H4. repeat split; [done|done| |done].
          intros [?|?]; [done|auto].
      + cbn in Es. destruct c; try done. injection Es as <-. destruct (IH _ H eq_refl) as (H1 & H2 & H3 & H4); cbn; [done|intros; by apply Hopen|].
        cbn in H2, H4. repeat split; [done|done| |done]. intros [?|?]; auto.
      + cbn in Es. destruct l as [|l]; [done|]. destruct c; injection Es as <-.
        * destruct (Hnil eq_refl); done.
        * destruct (IH _ H eq_refl) as (H1 & H2 & H3 & H4); cbn; [done|auto|]. cbn in H2, H4. repeat split; [done|done| |done].
          intros [?|?]; [done|auto].
        * destruct (IH _ H eq_refl) as (H1 & H2 & H3 & H4); cbn; [done|intros; destruct (Hopen ltac:(done)); split; [lia|done]|]. cbn in H2, H4. repeat split; [done|done| |done].
          intros [?|?]; [done|auto]. }
  destruct (Hgen _ _ H) as (H1 & _ & H2 & H3); [done..|]. cbn in H3. split; [done|]. split; [|done].
  intros Hs. split; [auto|]. destruct r as [w c l st]. cbn in *. rewrite (H2 Hs). eauto.
Qed.
Print Assumptions C64_once.

(** A turn after Stop ends the writing loop; one before does not change anything. *)
Theorem C64_turn evs r r' :
  report_run (reporting0 true) evs = Some (Ok r) -> report_step r RTurn = Some (Ok r') ->
  (In RStop evs -> rp_loops r' = O) /\ (~ In RStop evs -> r' = r).
Proof.
  intros H Ht. destruct (C64_once _ _ H) as (_ & H2 & H3). split.
  - intros Hs. destruct (H2 Hs) as [Hc _]. destruct r as [w c l st]. cbn in *. subst c. destruct l as [|l]; [done|].
    injection Ht as <-. cbn. lia.
  - intros Hs. assert (Hc : rp_closing r <> CClosed).
    { clear Ht H2 H3. assert (Hgen : forall evs r0, report_run r0 evs = Some (Ok r) -> ~ In RStop evs -> rp_closing r0 <> CClosed -> rp_closing r <> CClosed).
      { clear. induction evs as [|ev evs IH]; intros r0; [by intros [= ->]|]. cbn [report_run].
        destruct (report_step r0 ev) as [[r1|x|x]|] eqn:Es; try done. intros H Hs Hc.
        apply (IH r1); [done|intros Hi; apply Hs; by right|].
        destruct r0 as [w c l st]. destruct ev; cbn in *.
        - destruct c; [destruct w|..]; by injection Es as <-.
        - exfalso. apply Hs. by left.
        - destruct l; [done|]. destruct c; by injection Es as <-. }
      by apply (Hgen _ _ H). }
    destruct r as [w c l st]. cbn in *. destruct l; [done|]. destruct c; [by injection Ht as <-|by injection Ht as <-|done].
Qed.
Print Assumptions C64_turn.

Example C64_example :
  stat (apply_ops [MNew "a"; MAdd 0 1; MNew "b"; MNew "a"; MAdd 0 5; MAdd 2 1; MAdd 2 1]) "a" = Some 2 /\
  report_run (reporting0 true) [RStart; RTurn; RStop; RTurn; RStart] = Some (Ok (Reporting true CClosed 0 1)) /\
  report_run (reporting0 false) [RStart; RStop] = Some (Panic "close of nil channel").
Proof. vm_compute. done. Qed.

(** ** C65 *)

(** A use of named timers, a call at a time. *)
Inductive timer_op := OStart (name : string) (now : Z) | OGet (name : string) (now : Z).
Definition timer_events (op : timer_op) (t : timers) : list timer_event :=
  match op with
  | OStart name now => [TNew name now]
  | OGet name now => TGet 0 name now :: (if decide (is_Some (tm_list t !! name)) then [TDelete 0] else [])
  end.
Fixpoint run_ops (t : timers) (ops : list timer_op) : option timers :=
  match ops with
  | [] => Some t
  | op :: ops' => match timer_run t (timer_events op t) with Some t' => run_ops t' ops' | None => None end
  end.

(** The start the next Get of a name refers to: the last call for this name was a start. *)
Definition running (name : string) (ops : list timer_op) : option Z :=
  fold_left (fun acc op => match op with
                           | OStart n now => if String.eqb n name then Some now else acc
                           | OGet n _ => if String.eqb n name then None else acc
                           end) ops None.
(** The results expected of the calls of Get. *)
Fixpoint expected (before ops : list timer_op) : list (string * option Z) :=
  match ops with
  | [] => []
  | op :: ops' =>
      match op with
      | OGet name now =>
          [(name, match running name before with
                  | None => None
                  | Some start => Some (Z.max (- 2 ^ 63) (Z.min (2 ^ 63 - 1) (now - start)))
                  end)]
      | _ => []
      end ++ expected (before ++ [op]) ops'
  end.

Lemma running_snoc name ops op :
  running name (ops ++ [op]) =
  match op with
  | OStart n now => if String.eqb n name then Some now else running name ops
  | OGet n _ => if String.eqb n name then None else running name ops
  end.
Proof. unfold running. rewrite fold_left_app. by destruct op. Qed.

Lemma run_ops_spec before ops t :
  tm_reading t = [] -> (forall name, tm_list t !! name = running name before) ->
  exists t', run_ops t ops = Some t' /\ tm_reading t' = [] /\
    map (fun x => (x.1.2, x.2)) (tm_results t') = map (fun x => (x.1.2, x.2)) (tm_results t) ++ expected before ops.
Proof.
  revert before t. induction ops as [|op ops IH]; intros before t Hr Hl.
  { exists t. cbn. by rewrite app_nil_r. }
  cbn [run_ops]. destruct op as [name now|name now]; cbn [timer_events].
  - cbn. destruct (IH (before ++ [OStart name now]) (Timers (<[name:=now]> (tm_list t)) (tm_reading t) (tm_results t))) as (t' & -> & H1 & H2).
    + done.
    + intros n. cbn. rewrite running_snoc. destruct (String.eqb_spec name n) as [->|Hne]; [by rewrite lookup_insert|].
      rewrite lookup_insert_ne by done. apply Hl.
    + exists t'. done.
  - cbn [expected]. rewrite <- (Hl name). destruct (tm_list t !! name) as [start|] eqn:En.
    + rewrite decide_True by eauto. cbn [timer_run timer_step]. rewrite En. cbn [timer_step tm_reading tm_list tm_results].
      rewrite Hr. cbn [List.find fst Nat.eqb List.filter negb timer_run].
      match goal with |- context [run_ops ?x ops] => destruct (IH (before ++ [OGet name now]) x) as (t' & -> & H1 & H2) end; cbn.
      * done.
      * intros n. rewrite running_snoc. destruct (String.eqb_spec name n) as [->|Hne]; [by rewrite lookup_delete|].
        rewrite lookup_delete_ne by done. apply Hl.
      * exists t'. split; [done|]. split; [done|]. rewrite H2. cbn. rewrite map_app, <- app_assoc. done.
    + rewrite decide_False by (intros [? [=]]). cbn [timer_run timer_step]. rewrite En.
      match goal with |- context [run_ops ?x ops] => destruct (IH (before ++ [OGet name now]) x) as (t' & -> & H1 & H2) end; cbn.
      * done.
      * intros n. rewrite running_snoc. destruct (String.eqb_spec name n) as [->|Hne]; [|apply Hl]. done.
      * exists t'. split; [done|]. split; [done|]. rewrite H2. cbn. rewrite map_app, <- app_assoc. done.
Qed.

(** One call at a time, GetTimerNamed gives the time since the last NewTimerNamed of that
    name, once: after it, or without a start, it gives an error. *)
Theorem C65_sequential ops :
  exists t, run_ops timers0 ops = Some t /\ map (fun x => (x.1.2, x.2)) (tm_results t) = expected [] ops.
Proof.
  destruct (run_ops_spec [] ops timers0) as (t & H1 & _ & H2); [done|intros name; apply lookup_empty|]. eauto.
Qed.
Print Assumptions C65_sequential.

(** In any interleaving a result is the time from some earlier start of that name. *)
Theorem C65_any evs t c name d :
  timer_run timers0 evs = Some t -> In (c, name, Some d) (tm_results t) ->
  exists evs1 start evs2 now evs3,
    evs = evs1 ++ TNew name start :: evs2 ++ TGet c name now :: evs3 /\
    ~ (exists s, In (TNew name s) evs2) /\
    In (TDelete c) evs3 /\
    d = Z.max (- 2 ^ 63) (Z.min (2 ^ 63 - 1) (now - start)).
Proof.
  revert t c name d. 
  assert (Hsnoc : forall t0 evs ev, timer_run t0 (evs ++ [ev]) = match timer_run t0 evs with Some t => timer_step t ev | None => None end).
  { clear. intros t0 evs. revert t0. induction evs as [|e evs IH]; intros t0 ev; cbn; [by destruct (timer_step t0 ev)|].
    destruct (timer_step t0 e); [apply IH|done]. }
  assert (Hall : forall t, timer_run timers0 evs = Some t ->
    (forall name start, tm_list t !! name = Some start -> exists evs1 evs2, evs = evs1 ++ TNew name start :: evs2 /\ ~ (exists s, In (TNew name s) evs2)) /\
    (forall c name d, In (c, (name, d)) (tm_reading t) -> exists evs1 start evs2 now evs3,
      evs = evs1 ++ TNew name start :: evs2 ++ TGet c name now :: evs3 /\ ~ (exists s, In (TNew name s) evs2) /\ d = time_sub now start) /\
    (forall c name d, In (c, name, Some d) (tm_results t) -> exists evs1 start evs2 now evs3,
      evs = evs1 ++ TNew name start :: evs2 ++ TGet c name now :: evs3 /\ ~ (exists s, In (TNew name s) evs2) /\ In (TDelete c) evs3 /\ d = time_sub now start)).
  2:{ intros t c name d Ht Hin. destruct (Hall t Ht) as (_ & _ & H). exact (H c name d Hin). }
  induction evs as [|ev evs IH] using rev_ind; intros t Ht.
  { injection Ht as <-. cbn. split; [|split]; [|done|done]. intros ? ?. by rewrite lookup_empty. }
  rewrite Hsnoc in Ht. destruct (timer_run timers0 evs) as [t0|]; [|done].
  destruct (IH _ eq_refl) as (H1 & H2 & H3). clear IH.
  assert (H2' : forall c name d, In (c, (name, d)) (tm_reading t0) -> exists evs1 start evs2 now evs3,
      evs ++ [ev] = evs1 ++ TNew name start :: evs2 ++ TGet c name now :: evs3 /\ ~ (exists s, In (TNew name s) evs2) /\ d = time_sub now start).
  { intros c name d Hin. destruct (H2 _ _ _ Hin) as (e1 & s & e2 & now & e3 & -> & Hn & ->). exists e1, s, e2, now, (e3 ++ [ev]).
    split; [|done]. rewrite <- !app_assoc. cbn. by rewrite <- app_assoc. }
  assert (H3' : forall c name d, In (c, name, Some d) (tm_results t0) -> exists evs1 start evs2 now evs3,
      evs ++ [ev] = evs1 ++ TNew name start :: evs2 ++ TGet c name now :: evs3 /\ ~ (exists s, In (TNew name s) evs2) /\ In (TDelete c) evs3 /\ d = time_sub now start).
  { intros c name d Hin. destruct (H3 _ _ _ Hin) as (e1 & s & e2 & now & e3 & -> & Hn & Hd & ->). exists e1, s, e2, now, (e3 ++ [ev]).
    split; [|split; [done|split; [apply in_or_app; by left|done]]]. rewrite <- !app_assoc. cbn. by rewrite <- app_assoc. }
  assert (H1' : (forall n s, ev <> TNew n s) -> forall name start, tm_list t0 !! name = Some start ->
      exists evs1 evs2, evs ++ [ev] = evs1 ++ TNew name start :: evs2 /\ ~ (exists s, In (TNew name s) evs2)).
  { intros Hne name start Hl. destruct (H1 _ _ Hl) as (e1 & e2 & -> & Hn). exists e1, (e2 ++ [ev]). split; [by rewrite <- app_assoc|].
    intros [s Hin]. apply in_app_or in Hin as [Hin|[Hin|[]]]; [eauto|]. by apply (Hne name s). }
  destruct ev as [n now|c n now|c]; cbn in Ht.
  - injection Ht as <-. cbn. split; [|split; [done|done]]. intros name start.
    destruct (decide (n = name)) as [->|Hne].
    + rewrite lookup_insert. intros [= ->]. exists evs, []. split; [done|]. intros [? []].
    + rewrite lookup_insert_ne by done. intros Hl. destruct (H1 _ _ Hl) as (e1 & e2 & -> & Hn). exists e1, (e2 ++ [TNew n now]).
      split; [by rewrite <- app_assoc|]. intros [s Hin]. apply in_app_or in Hin as [Hin|[Hin|[]]]; [eauto|]. congruence.
  - destruct (tm_list t0 !! n) as [start|] eqn:En; injection Ht as <-; cbn.
    + split; [by apply H1'|]. split; [|done]. intros c' name d [[= <- <- <-]|Hin]; [|by apply H2'].
      destruct (H1 _ _ En) as (e1 & e2 & -> & Hn). exists e1, start, e2, now, []. split; [by rewrite <- app_assoc|done].
    + split; [by apply H1'|]. split; [done|]. intros c' name d Hin. apply in_app_or in Hin as [Hin|[[=]|[]]]. by apply H3'.
  - destruct (List.find _ _) as [[c' [n d]]|] eqn:Ef; [|done]. injection Ht as <-. cbn.
    apply List.find_some in Ef as [Hin Hc]. apply Nat.eqb_eq in Hc. cbn in Hc. subst c'. split; [|split].
    + intros name start Hl. apply lookup_delete_Some in Hl as [_ Hl]. by apply H1'.
    + intros c' name d' Hf. apply filter_In in Hf as [Hf _]. by apply H2'.
    + intros c' name d' Hr. apply in_app_or in Hr as [Hr|[[= <- <- <-]|[]]]; [by apply H3'|].
      destruct (H2 _ _ _ Hin) as (e1 & s & e2 & now & e3 & -> & Hn & ->). exists e1, s, e2, now, (e3 ++ [TDelete c]).
      split; [|split; [done|split; [apply in_or_app; right; by left|done]]]. rewrite <- !app_assoc. cbn. by rewrite <- app_assoc.
Qed.
Print Assumptions C65_any.

(** Two calls at a time can both give the time of one timer, and a call can delete a
    timer started after it read. *)
Theorem C65_once_refuted : exists evs t d1 d2,
  timer_run timers0 evs = Some t /\ evs !! 0%nat = Some (TNew "a" 0) /\ (forall s, ~ In (TNew "a" s) (drop 1 evs)) /\
  tm_results t = [(1%nat, "a", Some d1); (2%nat, "a", Some d2)].
Proof.
  exists [TNew "a" 0; TGet 1 "a" 5; TGet 2 "a" 6; TDelete 1; TDelete 2]. eexists. exists 5, 6. split; [reflexivity|].
  split; [done|]. split; [|reflexivity]. intros s Hin. cbn in Hin. intuition congruence.
Qed.
Print Assumptions C65_once_refuted.

Theorem C65_restart_refuted : exists t d,
  timer_run timers0 [TNew "a" 0; TGet 1 "a" 5; TNew "a" 6; TDelete 1; TGet 2 "a" 9] = Some t /\
  tm_results t = [(1%nat, "a", Some d); (2%nat, "a", None)].
Proof. eexists. exists 5. split; reflexivity. Qed.
Print Assumptions C65_restart_refuted.

Example C65_example :
  expected [] [OStart "a" 3; OStart "b" 4; OStart "a" 5; OGet "a" 9; OGet "a" 10; OGet "b" 11] =
  [("a", Some 4); ("a", None); ("b", Some 7)] /\
  match timer_run timers0 [TNew "a" 0; TGet 7 "a" 5; TGet 8 "b" 5; TDelete 7] with
  | Some t => tm_results t = [(8%nat, "b", None); (7%nat, "a", Some 5)]
  | None => False end.
Proof. vm_compute. done. Qed.
