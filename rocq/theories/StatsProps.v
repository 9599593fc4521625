(** Properties of the numbers of clients that a peer node reports (C88). *)
From Coq Require Import ZArith List String Lia.
From stdpp Require Import base tactics gmap list strings.
From Verif Require Import GoBase Bytes ProtoModel CryptoModel CryptoProps PorModel PorProps AcnModel DelegateModel DelegateProofs DelegateProps RegistryModel StatsModel.
Open Scope string_scope.
Open Scope list_scope.
Open Scope Z_scope.

(** The goroutine of the connection is in the loop that serves the client, also if it hangs there (dhtpeer.go:923-996). *)
Definition serving (p : phase) : Prop :=
  match p with
  | Looping _ | Delivering _ _ | Putting _ _ _ | Stuck | Checking _ _ | Creating _ _ | Enqueuing _ _ => True
  | New | Storing _ _ | Closing _ _ | Abandoned _ | Done => False
  end.

(** The first thing read from a connection, and whether writing the answer worked. *)
Fixpoint opening (c : nat) (es : list event) : option (res bytes * bool) :=
  match es with
  | [] => None
  | Delegate (ERead c' read w) :: t => if Nat.eqb c c' then Some (read, w) else opening c t
  | _ :: t => opening c t
  end.

(** A registration whose record has a valid proof that its agent chose the holder of the key, and the answer could be written. *)
Definition welcome (P : prims) (key : string) (o : res bytes * bool) : Prop :=
  exists frame r, o = (Ok frame, true) /\ decode_acn frame = Some (Some (PRegister (Some r))) /\ represents P r (r_address r) key.

(** The connection was opened and its first frame was not such a registration. *)
Definition refused (P : prims) (my_key : string) (es : list event) (c : nat) : Prop :=
  exists o, opening c es = Some o /\ ~ welcome P my_key o.

(** The connection was served at some point of the run. *)
Definition ever_served (P : prims) (my_key why : string) (es : list event) (c : nat) : Prop :=
  exists es1 es2 x, es = es1 ++ es2 /\ run P my_key why (node0, stats0) es1 = Ok x /\ serving (phase_of (fst x) c).

Lemma opening_app c l e :
  opening c (l ++ [e]) = match opening c l with Some o => Some o | None => opening c [e] end.
Proof.
  induction l as [|x l IH]; [done|]. destruct x as [[c' r w| | |]|]; cbn; try apply IH.
  destruct (Nat.eqb c c'); [done|apply IH].
Qed.

Section Runs.
Context (P : prims) (my_key why : string).
Notation step := (step P my_key why).
Notation run := (run P my_key why).
Notation x0 := (node0, stats0).
Notation refused := (refused P my_key).
Notation welcome := (welcome P my_key).
Notation ever_served := (ever_served P my_key why).

Lemma srun_app x l1 l2 : run x (l1 ++ l2) = let* y := run x l1 in run y l2.
Proof.
  revert x. induction l1 as [|e l1 IH]; intros x; [done|]. cbn [app StatsModel.run].
  destruct (step x e); cbn [rbind]; [apply IH|done..].
Qed.

Lemma srun_ind (I : list event -> node * stats -> Prop) :
  I [] x0 ->
  (forall es x e y, run x0 es = Ok x -> I es x -> step x e = Ok y -> I (es ++ [e]) y) ->
  forall es x, run x0 es = Ok x -> I es x.
Proof.
  intros H0 HS es. induction es as [|e es IH] using rev_ind; intros x Hr.
  { by injection Hr as <-. }
  rewrite srun_app in Hr. destruct (run x0 es) as [m| |] eqn:Em; try done. cbn in Hr.
  destruct (step m e) as [m'| |] eqn:Es; try done. injection Hr as <-.
  eapply HS; eauto.
Qed.

(** How a step of the delegate service changes where goroutines are. *)
Definition moved (n n' : node) (ev : DelegateModel.event) : Prop :=
  match ev with
  | ERead c read w =>
      (forall c', c' <> c -> phase_of n' c' = phase_of n c') /\
      (phase_of n c = New /\
         (phase_of n' c = Done /\ ~ welcome (read, w) \/ (exists r, phase_of n' c = Storing r 0) /\ welcome (read, w)) \/
       (exists a, phase_of n c = Looping a) /\ ((exists a, phase_of n' c = Closing a 0) \/ serving (phase_of n' c)))
  | EGo c ok =>
      (forall c', c' <> c -> phase_of n' c' = phase_of n c') /\
      ((exists r k, phase_of n c = Storing r k) /\
         ((exists r k, phase_of n' c = Storing r k) \/ (exists a, phase_of n' c = Looping a) \/ (exists a, phase_of n' c = Abandoned a)) \/
       (serving (phase_of n c) /\ serving (phase_of n' c) /\ forall a, phase_of n c <> Looping a) \/
       (exists a k, phase_of n c = Closing a k) /\ ((exists a k, phase_of n' c = Closing a k) \/ phase_of n' c = Done))
  | _ => forall c', phase_of n' c' = phase_of n c'
  end.

Lemma read_new_welcome n c read w n' :
  read_new P my_key why n c read w = Ok n' ->
  phase_of n' c = Done /\ ~ welcome (read, w) \/ (exists r, phase_of n' c = Storing r 0) /\ welcome (read, w).
Proof.
  unfold read_new, read_registration, StatsProps.welcome. intros H.
  assert (Hd : forall m p, phase_of (set_phase m c p) c = p) by (intros; by rewrite phase_of_set, decide_True).
  destruct read as [frame|e|p]; [|injection H as <-; left; rewrite Hd; naive_solver|done].
  destruct (decode_acn frame) as [m|] eqn:Ed; [|injection H as <-; left; rewrite Hd; naive_solver].
  destruct m as [m|]; [|injection H as <-; left; rewrite Hd; naive_solver].
  destruct m as [| | |rec|]; try (injection H as <-; left; rewrite Hd; naive_solver).
  destruct rec as [r|]; [|done].
  destruct (is_valid_por P r (r_address r) my_key) as [[code err]|e|p] eqn:Ep; try done.
  destruct (negb err && negb (code =? SUCCESS)) eqn:Eb; [done|].
  destruct err; cbn in H, Eb.
  { injection H as <-. left. rewrite Hd. split; [done|]. intros (f & r' & [= <- ->] & Hf & Hr).
    rewrite Ed in Hf. injection Hf as <-. apply C29_accepted in Hr. congruence. }
  injection H as <-. rewrite Hd. destruct w; [|left; naive_solver]. right. split; [by eexists|].
  exists frame, r. do 2 (split; [done|]). apply C29_accepted. rewrite Ep. f_equal.
  apply negb_false_iff, Z.eqb_eq in Eb. by rewrite Eb.
Qed.

Lemma delegate_moves n ev n' : DelegateModel.step P my_key why n ev = Ok n' -> moved n n' ev.
Proof.
  intros Es. destruct ev as [c read w|c ok|w|w]; cbn [DelegateModel.step] in Es; cbn [moved].
  - destruct (phase_of n c) eqn:Ep; try done.
    + pose proof (read_new_welcome _ _ _ _ _ Es) as Hw.
      apply read_new_cases in Es as (sent & p & -> & _). split.
      * intros c' Hne. rewrite (phase_of_set' n) by done. by rewrite decide_False.
      * left. done.
    + apply read_loop_cases in Es as
        (sent & [->|[[s ->]|(f & b & rec & e & -> & -> & Hd & He & -> & [[Hs ->]|[Hs ->]])]]).
      all: split; [intros c' Hne; rewrite ?(phase_of_set' n) by done; rewrite ?decide_False by done; done|].
      all: right; split; [by eexists|]; rewrite ?(phase_of_set' n) by done; rewrite ?decide_True by done.
      * left. by eexists.
      * right. done.
      * right. rewrite add_sent_phase, Ep. done.
      * right. done.
  - unfold go in Es. destruct (phase_of n c) as [|r k|a|a s|a q s| |a e|a e|a e|a k|a|] eqn:Ep; try done.
    all: try destruct k as [|[|[|k]]]; try destruct (_ <? _)%nat; try done.
    all: injection Es as <-; split; [intros c' Hne; rewrite (phase_of_set' n) by done; by rewrite decide_False|].
    all: rewrite (phase_of_set' n) by done; rewrite decide_True by done.
    all: try (left; split; [by do 2 eexists|]; first [left; by do 2 eexists | right; destruct ok; eauto]).
    all: try (right; left; split; [done|]; split; [|done]; repeat case_match; done).
    all: right; right; split; [by do 2 eexists|]; first [by right | left; by do 2 eexists].
  - unfold start in Es. destruct (n_workers n !! w) as [[p [ch|]]|]; try done. by injection Es as <-.
  - unfold take_ in Es. destruct (n_workers n !! w) as [[p [ch|]]|]; try done.
    destruct (n_chans n !! ch) as [[|x l]|]; try done. by injection Es as <-.
Qed.

(** What a phase says about the past of its connection. *)
Definition was (es : list event) (c : nat) (p : phase) : Prop :=
  (p = New <-> opening c es = None) /\
  (p = New \/ (exists r k, p = Storing r k) -> ~ ever_served es c).

(** The lists of the connections served now, refused and ever served, and the metrics they give. *)
Definition sinv (es : list event) (x : node * stats) : Prop :=
  (forall c, was es c (phase_of (fst x) c)) /\
  exists S R T, NoDup S /\ NoDup R /\ NoDup T /\
    (forall c, c ∈ S <-> serving (phase_of (fst x) c)) /\ (forall c, c ∈ R <-> refused es c) /\ (forall c, c ∈ T <-> ever_served es c) /\
    st_delegates (snd x) = Z.of_nat (length S) - Z.of_nat (length R) /\ st_delegates_all (snd x) = Z.of_nat (length T) /\
    st_relays (snd x) = 0.

Lemma ever_snoc es x e y c :
  run x0 es = Ok x -> step x e = Ok y ->
  ever_served (es ++ [e]) c <-> ever_served es c \/ serving (phase_of (fst y) c).
Proof.
  intros Hr Hs. split.
  - intros (es1 & es2 & z & He & Hz & Hc). destruct es2 as [|e2 es2 _] using rev_ind.
    + rewrite app_nil_r in He. subst es1. rewrite srun_app, Hr in Hz. cbn in Hz. rewrite Hs in Hz. injection Hz as <-. by right.
    + rewrite app_assoc in He. apply app_inj_tail in He as [-> ->]. left. by exists es1, es2, z.
  - intros [(es1 & es2 & z & -> & Hz & Hc)|Hc].
    + exists es1, (es2 ++ [e]), z. by rewrite app_assoc.
    + exists (es ++ [e]), [], y. rewrite app_nil_r, srun_app, Hr. cbn. rewrite Hs. done.
Qed.

Lemma ever_now es x c : run x0 es = Ok x -> serving (phase_of (fst x) c) -> ever_served es c.
Proof. intros Hr Hc. exists es, [], x. by rewrite app_nil_r. Qed.

Lemma list_gone (S : list nat) c :
  NoDup S -> c ∈ S -> exists S', NoDup S' /\ length S = Datatypes.S (length S') /\ forall c', c' ∈ S' <-> c' ∈ S /\ c' <> c.
Proof.
  intros HS Hc. apply elem_of_Permutation in Hc as [S' HS']. exists S'. rewrite HS' in HS. apply NoDup_cons in HS as [Hc HS].
  split; [done|]. split; [by rewrite HS'|]. intros c'. rewrite HS', elem_of_cons. naive_solver.
Qed.

Lemma list_more (S : list nat) c :
  NoDup S -> c ∉ S -> NoDup (c :: S) /\ length (c :: S) = Datatypes.S (length S) /\ forall c', c' ∈ c :: S <-> c' ∈ S \/ c' = c.
Proof. intros HS Hc. split; [by apply NoDup_cons|]. split; [done|]. intros c'. rewrite elem_of_cons. naive_solver. Qed.

Lemma refused_snoc es e c :
  refused (es ++ [e]) c <-> refused es c \/ opening c es = None /\ exists o, opening c [e] = Some o /\ ~ welcome o.
Proof.
  unfold StatsProps.refused. setoid_rewrite opening_app. destruct (opening c es); naive_solver.
Qed.

(** Where goroutines are after a step, by where they were. *)
Lemma delegate_from n ev n' c :
  moved n n' ev ->
  (phase_of n' c = New -> phase_of n c = New /\ opening c [Delegate ev] = None) /\
  (phase_of n c = New -> opening c [Delegate ev] = None -> phase_of n' c = New) /\
  (forall r k, phase_of n' c = Storing r k -> phase_of n c = New \/ exists r k, phase_of n c = Storing r k).
Proof.
  intros Hm. destruct ev as [d read w|d ok|w|w]; cbn [moved] in Hm; cbn [opening].
  3-4: rewrite Hm; naive_solver.
  - destruct Hm as [Ho Hm]. destruct (Nat.eqb_spec c d) as [->|Hne]; [|rewrite Ho by done; naive_solver].
    destruct Hm as [[-> [[-> _]|[[r ->] _]]]|[[a ->] [[b ->]|Hs]]]; try naive_solver.
    destruct (phase_of n' d); naive_solver.
  - destruct Hm as [Ho Hm]. destruct (decide (c = d)) as [->|Hne]; [|rewrite Ho by done; naive_solver].
    destruct Hm as [[(r & k & ->) Hm]|[(H1 & H2 & H3)|[(a & k & ->) Hm]]]; [split; [intros HN; exfalso; destruct Hm as [(? & ? & E)|[[? E]|[? E]]]; congruence|split; [done|intros; right; by do 2 eexists]]| |destruct Hm as [(? & ? & E)|E]; rewrite E; naive_solver].
    assert (phase_of n d <> New) by (intros E; by rewrite E in H1).
    destruct (phase_of n' d); naive_solver.
Qed.

Lemma sinv_step es x e y : run x0 es = Ok x -> sinv es x -> step x e = Ok y -> sinv (es ++ [e]) y.
Proof.
  intros Hr (Hw & S & R & T & HS & HR & HT & Sok & Rok & Tok & G1 & G2 & G3) Hs.
  pose proof (fun c => ever_snoc es x e y c Hr Hs) as Hev.
  destruct x as [n s]. cbn [fst snd] in *. destruct e as [ev|key id read w]; cbn [StatsModel.step] in Hs.
  2:{ destruct (snd _) as [ops| |]; try done. cbn in Hs. injection Hs as <-. cbn [fst snd] in *.
      assert (Hre : forall c, refused (es ++ [Relay key id read w]) c <-> refused es c) by (intros c; rewrite refused_snoc; cbn; naive_solver).
      assert (Hee : forall c, ever_served (es ++ [Relay key id read w]) c <-> ever_served es c).
      { intros c. rewrite Hev. split; [|by left]. intros [?|?]; [done|]. by eapply ever_now. }
      split.
      - intros c. destruct (Hw c) as [H1 H2]. split; [rewrite opening_app; cbn; destruct (opening c es); naive_solver|]. by rewrite Hee.
      - exists S, R, T. do 3 (split; [done|]). split; [done|]. split; [intros c; by rewrite Hre|]. split; [intros c; by rewrite Hee|].
        destruct ops; done. }
  destruct (DelegateModel.step P my_key why n ev) as [n'| |] eqn:Ed; try done. cbn [rbind] in Hs.
  injection Hs as <-. cbn [fst snd] in *. apply delegate_moves in Ed.
  unfold sinv. cbn [fst snd]. split.
  { intros c. destruct (Hw c) as [H1 H2]. destruct (delegate_from n ev n' c Ed) as (F1 & F2 & F3). split.
    - rewrite opening_app. split.
      + intros [E1 E2]%F1. by rewrite (proj1 H1 E1).
      + destruct (opening c es) as [o|]; [done|]. intros E. apply F2; [by apply H1|done].
    - intros Hp. rewrite Hev. intros [He|He].
      + revert He. apply H2. destruct Hp as [[Hp _]%F1|(r & k & Hp)]; [by left|]. by eapply F3.
      + destruct Hp as [Hp|(r & k & Hp)]; rewrite Hp in He; done. }
  assert (Hkeep : (forall c, serving (phase_of n' c) <-> serving (phase_of n c)) ->
                  (forall c, refused (es ++ [Delegate ev]) c <-> refused es c) ->
                  exists S R T, NoDup S /\ NoDup R /\ NoDup T /\
                    (forall c, c ∈ S <-> serving (phase_of n' c)) /\ (forall c, c ∈ R <-> refused (es ++ [Delegate ev]) c) /\
                    (forall c, c ∈ T <-> ever_served (es ++ [Delegate ev]) c) /\
                    st_delegates s = Z.of_nat (length S) - Z.of_nat (length R) /\ st_delegates_all s = Z.of_nat (length T) /\ st_relays s = 0).
  { intros A B. exists S, R, T. do 3 (split; [done|]). split; [intros c; by rewrite A|]. split; [intros c; by rewrite B|].
    split; [|done]. intros c. rewrite Hev, A, Tok. split; [by left|]. intros [?|?]; [done|]. eapply ever_now; [exact Hr|done]. }
  destruct ev as [d read w|d ok|w|w]; cbn [moved] in Ed.
  3-4: apply Hkeep; [intros c; by rewrite Ed | intros c; rewrite refused_snoc; cbn; naive_solver].
  - destruct Ed as [Ho Hm].
    assert (Hro : forall c, c <> d -> refused (es ++ [Delegate (ERead d read w)]) c <-> refused es c).
    { intros c Hne. rewrite refused_snoc. cbn. rewrite (proj2 (Nat.eqb_neq c d) Hne). naive_solver. }
    destruct Hm as [[E [[E' Hn]|[[r E'] Hy]]]|[[a E] Hm]]; rewrite E; [rewrite E'; cbn [counted]..|].
    + destruct (list_more R d HR) as (L1 & L2 & L3).
      { rewrite Rok. intros (o & Hop & _). apply (proj1 (Hw d)) in E. congruence. }
      exists S, (d :: R), T. do 3 (split; [done|]). split.
      { intros c. rewrite Sok. destruct (decide (c = d)) as [->|Hne]; [by rewrite E, E'|by rewrite Ho]. }
      split.
      { intros c. rewrite L3, Rok. destruct (decide (c = d)) as [->|Hne]; [|rewrite Hro by done; naive_solver].
        rewrite refused_snoc. cbn. rewrite Nat.eqb_refl. apply (proj1 (Hw d)) in E. naive_solver. }
      split.
      { intros c. rewrite Hev, Tok. split; [by left|]. intros [?|Hc]; [done|]. destruct (decide (c = d)) as [->|Hne]; [by rewrite E' in Hc|].
        rewrite Ho in Hc by done. by eapply ever_now. }
      cbn [st_delegates st_delegates_all st_relays dec_delegates]. rewrite L2. split; [lia|done].
    + apply Hkeep.
      * intros c. destruct (decide (c = d)) as [->|Hne]; [by rewrite E, E'|by rewrite Ho].
      * intros c. destruct (decide (c = d)) as [->|Hne]; [|by apply Hro].
        rewrite refused_snoc. cbn. rewrite Nat.eqb_refl. naive_solver.
    + assert (Hop : opening d es <> None) by (intros Hop; apply (proj1 (Hw d)) in Hop; congruence).
      assert (Hrd : forall c, refused (es ++ [Delegate (ERead d read w)]) c <-> refused es c).
      { intros c. destruct (decide (c = d)) as [->|Hne]; [|by apply Hro]. rewrite refused_snoc. naive_solver. }
      destruct Hm as [[b E']|Hm].
      * rewrite E'. cbn [counted].
        destruct (list_gone S d HS) as (S' & L1 & L2 & L3); [by rewrite Sok, E|].
        exists S', R, T. do 3 (split; [done|]). split.
        { intros c. rewrite L3, Sok. destruct (decide (c = d)) as [->|Hne]; [rewrite E'; naive_solver|rewrite Ho by done; naive_solver]. }
        split; [intros c; by rewrite Hrd|]. split.
        { intros c. rewrite Hev, Tok. split; [by left|]. intros [?|Hc]; [done|]. destruct (decide (c = d)) as [->|Hne]; [by rewrite E' in Hc|].
          rewrite Ho in Hc by done. by eapply ever_now. }
        cbn [st_delegates st_delegates_all st_relays dec_delegates]. split; [lia|done].
      * replace (counted (Looping a) (phase_of n' d) s) with s by (by destruct (phase_of n' d)).
        apply Hkeep; [|done]. intros c. destruct (decide (c = d)) as [->|Hne]; [by rewrite E|by rewrite Ho].
  - destruct Ed as [Ho Hm].
    assert (Hre : forall c, refused (es ++ [Delegate (EGo d ok)]) c <-> refused es c) by (intros c; rewrite refused_snoc; cbn; naive_solver).
    destruct Hm as [[(r & k & E) Hm]|[(E1 & E2 & E3)|[(a & k & E) Hm]]].
    + rewrite E. destruct Hm as [(r' & k' & E')|[[b E']|[b E']]]; rewrite E'; cbn [counted].
      1,3: apply Hkeep; [|done]; intros c; destruct (decide (c = d)) as [->|Hne]; [by rewrite E, E'|by rewrite Ho].
      destruct (list_more S d HS) as (L1 & L2 & L3); [rewrite Sok, E; cbn; tauto|].
      destruct (list_more T d HT) as (M1 & M2 & M3); [rewrite Tok; apply (proj2 (Hw d)); right; by do 2 eexists|].
      exists (d :: S), R, (d :: T). do 3 (split; [done|]). split.
      { intros c. rewrite L3, Sok. destruct (decide (c = d)) as [->|Hne]; [rewrite E'; naive_solver|rewrite Ho by done; naive_solver]. }
      split; [intros c; by rewrite Hre|]. split.
      { intros c. rewrite M3, Tok, Hev. destruct (decide (c = d)) as [->|Hne]; [rewrite E'; naive_solver|]. rewrite Ho by done.
        split; [naive_solver|]. intros [?|Hc]; [by left|]. left. by eapply ever_now. }
      cbn [st_delegates st_delegates_all st_relays inc_delegates]. rewrite L2, M2. split; [lia|]. split; [lia|done].
    + replace (counted (phase_of n d) (phase_of n' d) s) with s by (destruct (phase_of n d); try done; by destruct (E3 a)).
      apply Hkeep; [|done]. intros c. destruct (decide (c = d)) as [->|Hne]; [done|by rewrite Ho].
    + rewrite E. replace (counted (Closing a k) (phase_of n' d) s) with s by (by destruct (phase_of n' d)).
      apply Hkeep; [|done]. intros c. destruct (decide (c = d)) as [->|Hne]; [|by rewrite Ho]. rewrite E.
      destruct Hm as [(a' & k' & ->)| ->]; done.
Qed.

Lemma run_sinv es x : run x0 es = Ok x -> sinv es x.
Proof.
  revert es x. apply srun_ind; [|apply sinv_step].
  assert (Hn : forall c, ~ ever_served [] c).
  { intros c (es1 & es2 & x & He & Hx & Hc). symmetry in He. apply app_eq_nil in He as [-> ->]. injection Hx as <-. done. }
  split; [intros c; split; [done|intros _; apply Hn]|]. exists [], [], []. do 3 (split; [apply NoDup_nil_2|]).
  split; [intros c; split; [by intros ?%elem_of_nil|done]|]. split; [intros c; split; [by intros ?%elem_of_nil|by intros (o & ? & _)]|].
  split; [|done]. intros c. split; [by intros ?%elem_of_nil|]. by intros ?%Hn.
Qed.

Lemma relay_welcome key id read w ops :
  snd (relay_register P why key id read w) = Ok ops -> ops <> [] <-> StatsProps.welcome P key (read, w).
Proof.
  unfold relay_register, read_registration, StatsProps.welcome. intros H.
  assert (Hno : ops = [] -> (forall frame r, (read, w) = (Ok frame, true) -> decode_acn frame = Some (Some (PRegister (Some r))) -> ~ represents P r (r_address r) key) ->
    ops <> [] <-> exists frame r, (read, w) = (Ok frame, true) /\ decode_acn frame = Some (Some (PRegister (Some r))) /\ represents P r (r_address r) key).
  { intros -> Hn. split; [done|]. intros (f & r & H1 & H2 & H3). by destruct (Hn f r). }
  destruct read as [frame|e|p]; [|injection H as <-; apply Hno; naive_solver|done].
  destruct (decode_acn frame) as [m|] eqn:Ed; [|injection H as <-; apply Hno; naive_solver].
  destruct m as [m|]; [|injection H as <-; apply Hno; naive_solver].
  destruct m as [| | |rec|]; try (injection H as <-; apply Hno; naive_solver).
  destruct rec as [r|]; [|done].
  destruct (is_valid_por P r (r_address r) key) as [[code err]|e|p] eqn:Ep; try done.
  destruct (err || negb (code =? SUCCESS)) eqn:Eb.
  { injection H as <-. apply Hno; [done|]. intros f r' [= <- ->] Hf Hr. rewrite Ed in Hf. injection Hf as <-.
    apply C29_accepted in Hr. rewrite Ep in Hr. injection Hr as -> ->. done. }
  destruct w; injection H as <-; [|apply Hno; naive_solver].
  split; [|done]. intros _. exists frame, r. do 2 (split; [done|]). apply C29_accepted. rewrite Ep. f_equal.
  apply orb_false_iff in Eb as [-> Eb]. apply negb_false_iff, Z.eqb_eq in Eb. by rewrite Eb.
Qed.
End Runs.

(** The gauge of delegate clients is the number of connections being served less the number of connections ever refused; so it is right exactly if none was. *)
Theorem C88_gauge P my_key why es n s :
  run P my_key why (node0, stats0) es = Ok (n, s) ->
  exists now no, NoDup now /\ NoDup no /\
    (forall c, c ∈ now <-> serving (phase_of n c)) /\ (forall c, c ∈ no <-> refused P my_key es c) /\
    st_delegates s = Z.of_nat (length now) - Z.of_nat (length no) /\
    (st_delegates s = Z.of_nat (length now) <-> forall c, ~ refused P my_key es c).
Proof.
  intros Hr. apply run_sinv in Hr as (_ & S & R & T & HS & HR & HT & Sok & Rok & Tok & G1 & G2 & G3). cbn [fst snd] in *.
  exists S, R. do 5 (split; [done|]). rewrite G1. split.
  - intros H c Hc. apply Rok in Hc. destruct R; [by apply elem_of_nil in Hc|]. cbn in H. lia.
  - intros H. destruct R as [|c R]; [cbn; lia|]. exfalso. apply (H c), Rok. left.
Qed.
Print Assumptions C88_gauge.

(** The counter of delegate clients is the number of connections that were ever served. *)
Theorem C88_all P my_key why es n s :
  run P my_key why (node0, stats0) es = Ok (n, s) ->
  exists ever, NoDup ever /\ (forall c, c ∈ ever <-> ever_served P my_key why es c) /\ st_delegates_all s = Z.of_nat (length ever).
Proof.
  intros Hr. apply run_sinv in Hr as (_ & S & R & T & HS & HR & HT & Sok & Rok & Tok & G1 & G2 & G3). eauto.
Qed.
Print Assumptions C88_all.

(** The gauge of relay clients is never changed; their counter is the number of streams with a registration that was answered SUCCESS. *)
Theorem C88_relays P my_key why es n s :
  run P my_key why (node0, stats0) es = Ok (n, s) ->
  st_relays s = 0 /\
  exists taken, NoDup taken /\
    (forall i, i ∈ taken <-> exists key id read w, es !! i = Some (Relay key id read w) /\ welcome P key (read, w)) /\
    st_relays_all s = Z.of_nat (length taken).
Proof.
  intros Hr. split; [by apply run_sinv in Hr as (_ & S & R & T & _ & _ & _ & _ & _ & _ & _ & _ & G)|].
  cut ((fun es (x : node * stats) => exists taken, NoDup taken /\
    (forall i, i ∈ taken <-> exists key id read w, es !! i = Some (Relay key id read w) /\ welcome P key (read, w)) /\
    st_relays_all (snd x) = Z.of_nat (length taken)) es (n, s)); [done|].
  revert Hr. generalize (n, s). clear n s. revert es. apply srun_ind.
  { exists []. split; [apply NoDup_nil_2|]. split; [|done]. intros i. split; [by intros ?%elem_of_nil|]. by intros (key & id & read & w & H & _). }
  intros es x e y Hr (L & HL & Lok & G) Hs.
  assert (Hin : forall i, (exists key id read w, (es ++ [e]) !! i = Some (Relay key id read w) /\ welcome P key (read, w)) <->
     i ∈ L \/ i = length es /\ exists key id read w, e = Relay key id read w /\ welcome P key (read, w)).
  { intros i. rewrite Lok. split.
    - intros (key & id & read & w & [H|[Hl H]]%lookup_app_Some & Hw); [left; by exists key, id, read, w|].
      right. apply list_lookup_singleton_Some in H as [H1 H2]. split; [lia|]. by exists key, id, read, w.
    - intros [(key & id & read & w & H & Hw)|[-> (key & id & read & w & -> & Hw)]].
      + exists key, id, read, w. split; [by apply lookup_app_l_Some|done].
      + exists key, id, read, w. split; [by rewrite list_lookup_middle|done]. }
  destruct x as [n s], e as [ev|key id read w]; cbn [StatsModel.step] in Hs; cbn [snd] in G.
  - destruct (DelegateModel.step P my_key why n ev) as [n'| |]; try done. cbn [rbind] in Hs. injection Hs as <-.
    exists L. split; [done|]. split; [intros i; rewrite Hin; naive_solver|]. cbn [snd]. rewrite <- G.
    destruct ev; try done; unfold counted; repeat case_match; done.
  - destruct (snd (relay_register P why key id read w)) as [ops| |] eqn:Eo; try done. cbn [rbind] in Hs. injection Hs as <-.
    apply relay_welcome in Eo. cbn [snd]. destruct ops as [|o ops].
    + exists L. split; [done|]. split; [|done]. intros i. rewrite Hin. naive_solver.
    + destruct (list_more L (length es) HL) as (L1 & L2 & L3).
      { intros (k' & i' & r' & w' & H & _)%Lok. apply lookup_lt_Some in H. lia. }
      exists (length es :: L). split; [done|]. split; [|rewrite L2; cbn; lia].
      intros i. rewrite L3, Hin. assert (welcome P key (read, w)) by (by apply Eo). naive_solver.
Qed.
Print Assumptions C88_relays.

(** Whatever the state, a connection that goes away without sending anything lowers the gauge for good; nothing else changes. *)
Theorem C88_lowered P my_key why n s c x w :
  phase_of n c = New ->
  exists n', step P my_key why (n, s) (Delegate (ERead c (Err x) w)) = Ok (n', Stats (st_delegates s - 1) (st_delegates_all s) (st_relays s) (st_relays_all s)) /\
    phase_of n' c = Done /\ (forall c', c' <> c -> phase_of n' c' = phase_of n c') /\
    n_tcp n' = n_tcp n /\ n_records n' = n_records n /\ n_pairs n' = n_pairs n.
Proof.
  intros Hc. eexists. cbn [StatsModel.step DelegateModel.step]. rewrite Hc. cbn [read_new read_registration].
  unfold read_new, read_registration. cbn [rbind]. rewrite phase_of_set, decide_True by done. cbn [counted].
  split; [reflexivity|]. rewrite phase_of_set, decide_True by done. split; [done|]. split; [|done].
  intros c' Hne. by rewrite phase_of_set, decide_False.
Qed.
Print Assumptions C88_lowered.

(** So it reaches every negative number, with no client served at all. *)
Theorem C88_negative P my_key why k :
  exists es n s, run P my_key why (node0, stats0) es = Ok (n, s) /\ length es = k /\
    st_delegates s = - Z.of_nat k /\ forall c, ~ serving (phase_of n c).
Proof.
  cut (exists es n s, run P my_key why (node0, stats0) es = Ok (n, s) /\ length es = k /\
    st_delegates s = - Z.of_nat k /\ (forall c, ~ serving (phase_of n c)) /\ forall c, (k <= c)%nat -> phase_of n c = New).
  { intros (es & n & s & H1 & H2 & H3 & H4 & _). by exists es, n, s. }
  induction k as [|k IH].
  - exists [], node0, stats0. repeat split; try done. by intros c H.
  - destruct IH as (es & n & s & H1 & H2 & H3 & H4 & H5).
    destruct (C88_lowered P my_key why n s k "EOF" true (H5 k (le_n _))) as (n' & Hs & D & O & _).
    exists (es ++ [Delegate (ERead k (Err "EOF") true)]). do 2 eexists. split.
    { rewrite srun_app, H1. cbn [rbind]. cbn [run]. rewrite Hs. reflexivity. }
    split; [rewrite app_length; cbn; lia|]. split; [cbn [st_delegates]; lia|]. split.
    + intros c. destruct (decide (c = k)) as [->|Hne]; [rewrite D; cbn; tauto|]. rewrite O by done. apply H4.
    + intros c Hc. rewrite O by lia. apply H5. lia.
Qed.
Print Assumptions C88_negative.

(** A connection that hangs is counted for ever, also when its client is long gone: nobody reads from it any more. *)
Theorem C88_stuck P my_key why es es' n s n' s' c :
  run P my_key why (node0, stats0) es = Ok (n, s) -> phase_of n c = Stuck ->
  run P my_key why (n, s) es' = Ok (n', s') ->
  phase_of n' c = Stuck /\
  ((forall c, ~ refused P my_key (es ++ es') c) -> 1 <= st_delegates s').
Proof.
  intros Hr Hc Hr'.
  assert (Hst : phase_of n' c = Stuck).
  { clear Hr. revert n s Hc Hr'. induction es' as [|e es' IH]; intros n s Hc Hr; cbn [run] in Hr; [by injection Hr as <- <-|].
    destruct (step P my_key why (n, s) e) as [[m t]| |] eqn:Es; try done. cbn [rbind] in Hr. apply (IH m t); [|done].
    destruct e as [ev|key id read w]; cbn [step] in Es.
    - destruct (DelegateModel.step P my_key why n ev) as [m'| |] eqn:Ed; try done. cbn in Es. injection Es as <- _.
      apply (C39_stuck_for_ever P my_key why [ev] n); [done|]. cbn. by rewrite Ed.
    - destruct (snd _); try done. by injection Es as <- _. }
  split; [done|]. intros Hno.
  assert (Hr2 : run P my_key why (node0, stats0) (es ++ es') = Ok (n', s')) by (rewrite srun_app, Hr; done).
  apply C88_gauge in Hr2 as (now & no & _ & _ & H1 & _ & _ & H2). apply H2 in Hno. rewrite Hno.
  assert (c ∈ now) as Hin by (apply H1; by rewrite Hst). destruct now; [by apply elem_of_nil in Hin|]. cbn. lia.
Qed.
Print Assumptions C88_stuck.

(** The gauge does not tell the number of addresses in the table of delegate clients, in either direction: a client whose announcement failed is in the table
    but not counted; one that reconnected and whose old connection ended is counted but not in the table; and after a refused connection it is below zero. *)
Definition told (es : list event) : option (Z * Z * list (string * nat)) :=
  match run toy "peer" "why" (node0, stats0) es with Ok (n, s) => Some (st_delegates s, st_delegates_all s, map_to_list (n_tcp n)) | _ => None end.

Theorem C88_table_refuted :
  told (map Delegate [ERead 1 (frame_of (PRegister (Some alice))) true; EGo 1 true; EGo 1 true; EGo 1 true; EGo 1 false]) = Some (0, 0, [(r_address alice, 1%nat)]) /\
  told (map Delegate (joins 1 alice ++ joins 2 alice ++ leaves 1)) = Some (1, 2, []) /\
  told (map Delegate (joins 1 alice ++ [ERead 2 (Err "EOF") true; ERead 3 (Err "EOF") true])) = Some (-1, 1, [(r_address alice, 1%nat)]).
Proof. vm_compute. done. Qed.
Print Assumptions C88_table_refuted.

(** Two delegate clients join, one leaves; a relay client registers twice and is counted twice. *)
Definition relay_twice : list event :=
  [Relay "peer" "id" (frame_of (PRegister (Some alice))) true; Relay "peer" "id" (frame_of (PRegister (Some alice))) true].
Example C88_example :
  told (map Delegate (joins 1 alice ++ joins 2 bob)) = Some (2, 2, [(r_address bob, 2%nat); (r_address alice, 1%nat)]) /\
  told (map Delegate (joins 1 alice ++ joins 2 bob ++ leaves 1)) = Some (1, 2, [(r_address bob, 2%nat)]) /\
  told (map Delegate (joins 1 alice ++ joins 2 alice ++ leaves 1 ++ [ERead 2 (frame_of acn_success) true; EGo 2 true])) = Some (1, 2, []) /\
  match run toy "peer" "why" (node0, stats0) relay_twice with Ok (_, s) => s = Stats 0 0 0 2 | _ => False end.
Proof. vm_compute. auto. Qed.
