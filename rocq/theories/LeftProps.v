(** Properties of what the clients of the delegate service leave behind at a node (C89). *)
From Coq Require Import ZArith List String Lia.
From stdpp Require Import base tactics gmap list strings.
From Verif Require Import GoBase Bytes ProtoModel CryptoModel CryptoProofs CryptoProps PorModel PorProps AcnModel DelegateModel DelegateProofs DelegateProps.
Open Scope string_scope.
Open Scope list_scope.
Open Scope nat_scope.

(** What one state has of another: its goroutines of pairs, each for the same pair and, once it has looked it up, with the same queue; and entries for the same
    pairs, queues and agents. *)
Definition keeps (n n' : node) : Prop :=
  (forall w p o, n_workers n !! w = Some (Worker p o) -> exists o', n_workers n' !! w = Some (Worker p o') /\ (o <> None -> o' = o)) /\
  (forall p, is_Some (n_pairs n !! p) -> is_Some (n_pairs n' !! p)) /\
  (forall ch, is_Some (n_chans n !! ch) -> is_Some (n_chans n' !! ch)) /\
  (forall a, is_Some (n_records n !! a) -> is_Some (n_records n' !! a)).

Lemma keeps_same n n' :
  n_workers n' = n_workers n -> n_pairs n' = n_pairs n -> n_chans n' = n_chans n -> n_records n' = n_records n -> keeps n n'.
Proof. intros E1 E2 E3 E4. unfold keeps. rewrite E1, E2, E3, E4. split; [|done]. eauto. Qed.

Lemma keeps_refl n : keeps n n.
Proof. by apply keeps_same. Qed.

Lemma keeps_trans n1 n2 n3 : keeps n1 n2 -> keeps n2 n3 -> keeps n1 n3.
Proof.
  intros (A1 & A2 & A3 & A4) (B1 & B2 & B3 & B4). split; [|by repeat split; eauto].
  intros w p o (o1 & H1 & E1)%A1. destruct (B1 _ _ _ H1) as (o2 & H2 & E2). exists o2. split; [done|].
  intros Ho. rewrite E2; [by apply E1|]. by rewrite E1.
Qed.

Lemma some_insert {K} `{Countable K} {A} (m : gmap K A) i j x : is_Some (m !! j) -> is_Some (<[i := x]> m !! j).
Proof. destruct (decide (i = j)) as [->|Hne]; [rewrite lookup_insert|rewrite lookup_insert_ne]; eauto. Qed.

Section Runs.
Context (P : prims) (my_key why : string).
Notation step := (step P my_key why).
Notation run := (run P my_key why).

Lemma step_keeps n ev n' : step n ev = Ok n' -> keeps n n'.
Proof.
  intros Es. destruct ev as [c read w|c ok|w|w]; cbn [DelegateModel.step] in Es.
  - destruct (phase_of n c); try done.
    + apply read_new_cases in Es as (sent & p & -> & _). by apply keeps_same.
    + apply read_loop_cases in Es as
        (sent & [->|[[s ->]|(f & b & rec & e & -> & -> & Hd & He & -> & [[Hs ->]|[Hs ->]])]]); by apply keeps_same.
  - unfold go in Es. destruct (phase_of n c) as [|r k|a|a s|a q s| |a e|a e|a e|a k|a|] eqn:Ep; try done;
      try destruct k as [|[|[|k]]]; try destruct (_ <? _) eqn:El; try done; injection Es as <-; try (by apply keeps_same).
    + split; [eauto|]. split; [done|]. split; [done|]. intros a. apply some_insert.
    + split; [|split; [intros p; apply some_insert|split; [intros ch; apply some_insert|done]]].
      intros w p o H. exists o. split; [|done]. cbn. by apply lookup_app_l_Some.
    + split; [eauto|]. split; [done|]. split; [intros ch; apply some_insert|done].
  - unfold start in Es. destruct (n_workers n !! w) as [[p [ch|]]|] eqn:Ew; try done. injection Es as <-.
    split; [|done]. intros w' p' o H. cbn. destruct (decide (w = w')) as [->|Hne].
    + rewrite Ew in H. injection H as <- <-. rewrite list_lookup_insert by (by eapply lookup_lt_Some). eexists. split; [done|]. by intros [].
    + rewrite list_lookup_insert_ne by done. eauto.
  - unfold take_ in Es. destruct (n_workers n !! w) as [[p [ch|]]|]; try done.
    destruct (n_chans n !! ch) as [[|x l]|]; try done. injection Es as <-.
    split; [eauto|]. split; [done|]. split; [intros ch'; apply some_insert|done].
Qed.

Lemma run_keeps n evs n' : run n evs = Ok n' -> keeps n n'.
Proof.
  revert n. induction evs as [|ev evs IH]; intros n; cbn [DelegateModel.run]; [intros [= ->]; apply keeps_refl|].
  destruct (step n ev) as [m| |] eqn:Es; try done. cbn [rbind]. intros H%IH. by eapply keeps_trans; [eapply step_keeps|].
Qed.

(** Which goroutines there are, by what was accepted. *)
Definition made (n : node) : Prop :=
  length (n_workers n) = n_next n /\
  (forall ch, is_Some (n_chans n !! ch) <-> ch < n_next n) /\
  (forall c a e, phase_of n c = Checking a e \/ phase_of n c = Creating a e \/ phase_of n c = Enqueuing a e -> (c, e) ∈ n_accepted n) /\
  (forall c a e, phase_of n c = Enqueuing a e -> is_Some (n_pairs n !! pair_key e)) /\
  (forall p, is_Some (n_pairs n !! p) <-> exists w o, n_workers n !! w = Some (Worker p o)) /\
  (forall w p o, n_workers n !! w = Some (Worker p o) -> exists x, x ∈ n_accepted n /\ pair_key (snd x) = p) /\
  (forall x, x ∈ map fst (n_decided n) -> is_Some (n_pairs n !! pair_key (snd x))) /\
  (forall p ch, n_pairs n !! p = Some ch -> ch < n_next n).

Lemma made_keep n n' c p :
  made n -> (forall c', phase_of n' c' = if decide (c' = c) then p else phase_of n c') ->
  n_workers n' = n_workers n -> n_pairs n' = n_pairs n -> n_chans n' = n_chans n -> n_next n' = n_next n ->
  n_accepted n' = n_accepted n -> n_decided n' = n_decided n ->
  (forall a e, p = Checking a e \/ p = Creating a e \/ p = Enqueuing a e -> (c, e) ∈ n_accepted n) ->
  (forall a e, p = Enqueuing a e -> is_Some (n_pairs n !! pair_key e)) -> made n'.
Proof.
  intros (H1 & H2 & H3 & H4 & H5 & H6 & H7 & H8) Hp E1 E2 E3 E4 E5 E6 A B. unfold made. rewrite E1, E2, E3, E4, E5, E6.
  do 2 (split; [done|]). split; [|split; [|done]].
  - intros c' a e. rewrite Hp. destruct (decide (c' = c)) as [->|]; eauto.
  - intros c' a e. rewrite Hp. destruct (decide (c' = c)) as [->|]; eauto.
Qed.

Lemma made_step n ev n' : made n -> step n ev = Ok n' -> made n'.
Proof.
  intros Hm Es. destruct ev as [c read w|c ok|w|w]; cbn [DelegateModel.step] in Es.
  - destruct (phase_of n c) eqn:Ep; try done.
    + apply read_new_cases in Es as (sent & p & -> & Hp).
      eapply (made_keep n _ c p); [done|intros c'; by rewrite (phase_of_set' n)|done..| |].
      * intros a e [ -> |[ -> | ->] ]; naive_solver.
      * intros a e ->; naive_solver.
    + apply read_loop_cases in Es as
        (sent & [->|[[s ->]|(f & b & rec & e & -> & -> & Hd & He & -> & [[Hs ->]|[Hs ->]])]]).
      * eapply (made_keep n _ c (Closing a 0)); [done|intros c'; by rewrite (phase_of_set' n)|done..|naive_solver|naive_solver].
      * eapply (made_keep n _ c (Delivering a s)); [done|intros c'; by rewrite (phase_of_set' n)|done..|naive_solver|naive_solver].
      * done.
      * destruct Hm as (H1 & H2 & H3 & H4 & H5 & H6 & H7 & H8). split; [done|]. split; [done|]. cbn.
        split; [|split; [|split; [done|split; [|done]]]].
        -- intros c' a' e'. rewrite (phase_of_set' n) by done. rewrite elem_of_app, elem_of_list_singleton.
           destruct (decide (c' = c)) as [->|]; [|intros ?; left; eauto]. intros [[= -> ->]|[?|?]]; [by right|done..].
        -- intros c' a' e'. rewrite (phase_of_set' n) by done. destruct (decide (c' = c)) as [->|]; [done|eauto].
        -- intros w p o (x & Hx & E)%H6. exists x. rewrite elem_of_app. eauto.
  - unfold go in Es. destruct (phase_of n c) as [|r k|a|a s|a q s| |a e|a e|a e|a k|a|] eqn:Ep; try done.
    1: { destruct k as [|[|[|k]]]; injection Es as <-; (eapply (made_keep n _ c); [done|intros c'; by rewrite (phase_of_set' n)|done..| |]); try naive_solver; destruct ok; naive_solver. }
    1: { injection Es as <-. eapply (made_keep n _ c); [done|intros c'; by rewrite (phase_of_set' n)|done..| |]; case_match; naive_solver. }
    1: { destruct (_ <? _); [|done]. injection Es as <-. eapply (made_keep n _ c); [done|intros c'; by rewrite (phase_of_set' n)|done..| |]; naive_solver. }
    + injection Es as <-. pose proof Hm as (_ & _ & H3 & _). pose proof (H3 c a e (or_introl Ep)) as Hin.
      eapply (made_keep n _ c); [done|intros c'; by rewrite (phase_of_set' n)|done..| |]; case_match; naive_solver.
    + injection Es as <-. pose proof Hm as (H1 & H2 & H3 & H4 & H5 & H6 & H7 & H8).
      pose proof (H3 c a e (or_intror (or_introl Ep))) as Hin. unfold made. cbn.
      split; [rewrite app_length; cbn; lia|]. split.
      { intros ch. destruct (decide (n_next n = ch)) as [<-|Hne]; [rewrite lookup_insert|rewrite lookup_insert_ne by done; rewrite H2]; split; try lia; eauto. }
      split.
      { intros c' a' e'. rewrite (phase_of_set' n) by done. destruct (decide (c' = c)) as [->|]; [naive_solver|eauto]. }
      split.
      { intros c' a' e'. rewrite (phase_of_set' n) by done. destruct (decide (c' = c)) as [->|].
        - intros [= -> ->]. rewrite lookup_insert. eauto.
        - intros ?. apply some_insert. eauto. }
      split.
      { intros p. destruct (decide (pair_key e = p)) as [<-|Hne].
        - rewrite lookup_insert. split; [|eauto]. intros _. exists (length (n_workers n)), None. by rewrite list_lookup_middle.
        - rewrite lookup_insert_ne by done. rewrite H5. split.
          + intros (w & o & H). exists w, o. by apply lookup_app_l_Some.
          + intros (w & o & [H|[_ H]]%lookup_app_Some); [eauto|]. apply list_lookup_singleton_Some in H as [_ [= ? ?]]. done. }
      split.
      { intros w p o [H|[_ H]]%lookup_app_Some; [eauto|]. apply list_lookup_singleton_Some in H as [_ [= <- <-]]. by exists (c, e). }
      split; [intros x Hx; apply some_insert; eauto|].
      intros p ch. destruct (decide (pair_key e = p)) as [<-|Hne]; [rewrite lookup_insert; intros [= <-]; lia|].
      rewrite lookup_insert_ne by done. intros H%H8. lia.
    + pose proof Hm as (H1 & H2 & H3 & H4 & H5 & H6 & H7 & H8). pose proof (H4 c a e Ep) as Hk.
      assert (Hd : forall b x, x ∈ map fst (n_decided n ++ [(c, e, b)]) -> is_Some (n_pairs n !! pair_key (snd x))).
      { intros b x. rewrite map_app, elem_of_app. intros [?|Hx]; [eauto|]. apply elem_of_list_singleton in Hx as ->. done. }
      assert (Hph : forall c' p a' e', (if decide (c' = c) then Looping a else phase_of n c') = p ->
         p = Checking a' e' \/ p = Creating a' e' \/ p = Enqueuing a' e' -> phase_of n c' = p) by (intros c' p a' e'; destruct (decide (c' = c)); naive_solver).
      assert (Hr : forall n1, n_workers n1 = n_workers n -> n_pairs n1 = n_pairs n -> n_next n1 = n_next n -> n_accepted n1 = n_accepted n ->
        n_conns n1 = <[c := Looping a]> (n_conns n) -> (forall ch, is_Some (n_chans n1 !! ch) <-> ch < n_next n) ->
        (exists b, n_decided n1 = n_decided n ++ [(c, e, b)]) -> made n1).
      { intros n1 E1 E2 E3 E4 E5 E6 [b E7]. unfold made. rewrite E1, E2, E3, E4, E7.
        assert (Hp1 : forall c', phase_of n1 c' = if decide (c' = c) then Looping a else phase_of n c').
        { intros c'. unfold phase_of. rewrite E5. destruct (decide (c' = c)) as [->|]; [by rewrite lookup_insert|by rewrite lookup_insert_ne]. }
        do 2 (split; [done|]). split; [|split; [|do 2 (split; [done|]); split; [apply Hd|done]]].
        - intros c' a' e' H. rewrite Hp1 in H. apply (H3 c' a' e'). destruct (decide (c' = c)); naive_solver.
        - intros c' a' e' H. rewrite Hp1 in H. apply (H4 c' a' e'). destruct (decide (c' = c)); naive_solver. }
      destruct (_ <? _); injection Es as <-; apply Hr; try done; eauto.
      intros ch. cbn. destruct (decide (default 0 (n_pairs n !! pair_key e) = ch)) as [<-|Hne]; [|rewrite lookup_insert_ne by done; apply H2].
      rewrite lookup_insert. split; [|eauto]. intros _. destruct Hk as [ch Hk]. rewrite Hk. cbn. by eapply H8.
    + destruct k as [|k]; injection Es as <-; (eapply (made_keep n _ c); [done|intros c'; by rewrite (phase_of_set' n)|done..| |]); naive_solver.
  - unfold start in Es. destruct (n_workers n !! w) as [[p [ch|]]|] eqn:Ew; try done. injection Es as <-.
    destruct Hm as (H1 & H2 & H3 & H4 & H5 & H6 & H7 & H8). unfold made. cbn.
    assert (Hw : forall p', (exists w' o, <[w := Worker p (n_pairs n !! p)]> (n_workers n) !! w' = Some (Worker p' o)) <->
                            exists w' o, n_workers n !! w' = Some (Worker p' o)).
    { intros p'. split; intros (w' & o & H).
      - destruct (decide (w = w')) as [<-|Hne]; [|rewrite list_lookup_insert_ne in H by done; eauto].
        rewrite list_lookup_insert in H by (by eapply lookup_lt_Some). injection H as <- <-. eauto.
      - destruct (decide (w = w')) as [<-|Hne]; [|exists w', o; by rewrite list_lookup_insert_ne].
        rewrite Ew in H. injection H as <- <-. exists w. eexists. by rewrite list_lookup_insert by (by eapply lookup_lt_Some). }
    split; [by rewrite insert_length|]. do 3 (split; [done|]). split; [intros p'; by rewrite H5, Hw|]. split; [|done].
    intros w' p' o H. destruct (proj1 (Hw p')) as (w1 & o1 & H'); [eauto|]. eauto.
  - unfold take_ in Es. destruct (n_workers n !! w) as [[p [ch|]]|]; try done.
    destruct (n_chans n !! ch) as [[|x l]|] eqn:Ec; try done. injection Es as <-.
    destruct Hm as (H1 & H2 & H3 & H4 & H5 & H6 & H7 & H8). unfold made. cbn. split; [done|]. split; [|done].
    intros ch'. destruct (decide (ch = ch')) as [<-|Hne]; [|by rewrite lookup_insert_ne]. rewrite lookup_insert, <- H2, Ec. split; eauto.
Qed.

Lemma run_made evs n : run node0 evs = Ok n -> made n.
Proof.
  revert evs n. apply (run_ind P my_key why (fun _ n => made n)).
  - unfold made. cbn. split; [done|]. split; [intros ch; rewrite lookup_empty; split; [by intros []|lia]|].
    split; [naive_solver|]. split; [naive_solver|]. split; [intros p; rewrite lookup_empty; split; [by intros []|naive_solver]|].
    split; [done|]. split; [by intros x ?%elem_of_nil|]. intros p ch. by rewrite lookup_empty.
  - intros evs n ev n' _. apply made_step.
Qed.
End Runs.

(** Nothing ends the goroutine of a pair, and no queue, entry of a pair or record of an agent is ever removed. *)
Theorem C89_kept P my_key why n evs n' : run P my_key why n evs = Ok n' -> keeps n n'.
Proof. apply run_keeps. Qed.
Print Assumptions C89_kept.

(** There is a goroutine exactly for the pairs that have a queue, each is for the pair of some envelope that was accepted, every envelope that was put in a
    queue or dropped has one, and with every goroutine one more queue was made. *)
Theorem C89_made P my_key why evs n :
  run P my_key why node0 evs = Ok n ->
  length (n_workers n) = size (n_chans n) /\
  (forall p, is_Some (n_pairs n !! p) <-> exists w o, n_workers n !! w = Some (Worker p o)) /\
  (forall w p o, n_workers n !! w = Some (Worker p o) -> exists c e, (c, e) ∈ n_accepted n /\ p = (e_to e ++ e_sender e)%string) /\
  (forall c e b, (c, e, b) ∈ n_decided n -> exists w o, n_workers n !! w = Some (Worker (e_to e ++ e_sender e) o)).
Proof.
  intros Hr. apply run_made in Hr as (H1 & H2 & H3 & H4 & H5 & H6 & H7 & H8).
  split; [|split; [done|split]].
  - rewrite H1, <- size_dom. assert (dom (n_chans n) = set_seq 0 (n_next n)) as ->.
    { apply set_eq. intros ch. rewrite elem_of_dom, H2, elem_of_set_seq. lia. }
    by rewrite size_set_seq.
  - intros w p o ([c e] & Hin & <-)%H6. by exists c, e.
  - intros c e b Hin. apply H5, (H7 (c, e)). apply elem_of_list_fmap. by exists (c, e, b).
Qed.
Print Assumptions C89_made.

(** While an address is registered on one connection only, there is one goroutine for each of its recipients. *)
Theorem C89_once P my_key why evs n r a to w1 w2 o1 o2 :
  digests_ok P -> run P my_key why node0 evs = Ok n -> represents P r a my_key -> sole_client P my_key evs a ->
  n_workers n !! w1 = Some (Worker (to ++ a) o1) -> n_workers n !! w2 = Some (Worker (to ++ a) o2) -> w1 = w2.
Proof.
  intros Hd Hr Hrep Hs. destruct (run_queues P my_key why r a evs n Hd Hrep Hr Hs) as [_ _ _ _ _ _ _ Ho _ _ _ _].
  apply Ho. by exists to.
Qed.
Print Assumptions C89_once.

(** A frame of a client with this envelope. *)
Definition carries (x : bytes * envelope) : Prop :=
  exists b rec, decode_acn (fst x) = Some (Some (PEnvelope b rec)) /\ decode_envelope b = Some (snd x).

(** The client sends these frames one after the other, its goroutine handles each, then it goes away. *)
Definition sends (c : nat) (xs : list (bytes * envelope)) : list event :=
  flat_map (fun x => [ERead c (Ok (fst x)) true; EGo c true; EGo c true; EGo c true]) xs.

Lemma sends_more P my_key why c a xs n :
  phase_of n c = Looping a -> Forall carries xs -> Forall (fun x => e_sender (snd x) = a) xs ->
  NoDup (map (fun x => e_to (snd x)) xs) -> (forall x, x ∈ xs -> n_pairs n !! pair_key (snd x) = None) ->
  exists n', run P my_key why n (sends c xs) = Ok n' /\ phase_of n' c = Looping a /\
    n_workers n' = n_workers n ++ map (fun x => Worker (pair_key (snd x)) None) xs /\ n_tcp n' = n_tcp n /\ n_stat n' = n_stat n.
Proof.
  revert n. induction xs as [|[f e] xs IH]; intros n Hp Hc Hs Hn Hk.
  { exists n. cbn. by rewrite app_nil_r. }
  apply Forall_cons in Hc as [(b & rec & Hd & He) Hc]. apply Forall_cons in Hs as [Hs Hss]. cbn [map fst snd] in *.
  apply NoDup_cons in Hn as [Hn Hns].
  cbn [sends flat_map app run DelegateModel.step fst snd]. rewrite Hp. unfold read_loop at 1, handle_acn, decode_acn_message. rewrite Hd, He.
  rewrite (proj2 (String.eqb_eq _ _) Hs). cbn [rbind].
  unfold go at 1. rewrite phase_of_set, decide_True by done. cbn [n_pairs set_phase add_sent].
  pose proof (Hk (f, e) (elem_of_list_here _ _)) as Hk1. cbn [snd] in Hk1. rewrite Hk1. cbn [rbind].
  unfold go at 1. rewrite phase_of_set, decide_True by done. cbn [rbind].
  unfold go at 1. rewrite phase_of_set, decide_True by done. cbn [n_pairs n_chans n_next set_phase add_sent].
  rewrite lookup_insert. cbn [default from_option id]. rewrite lookup_insert. cbn [default from_option id length].
  change (0 <? pair_cap) with true. cbn [rbind].
  match goal with |- context [DelegateModel.run _ _ _ ?m _] => set (m0 := m) end.
  destruct (IH m0) as (n' & Hr & H1 & H2 & H3 & H4).
  - unfold m0. by rewrite phase_of_set, decide_True.
  - done.
  - done.
  - done.
  - intros x Hx. unfold m0. cbn. rewrite lookup_insert_ne; [apply Hk; by right|].
    intros E. apply Hn. apply elem_of_list_fmap. exists x. split; [|done].
    assert (e_sender (snd x) = a) as Ex by (rewrite Forall_forall in Hss; auto).
    unfold pair_key in E. rewrite Hs, Ex in E. apply (f_equal bytes_of) in E. rewrite !bytes_of_app in E.
    apply app_inv_tail in E. by apply bytes_of_inj in E.
  - exists n'. split; [exact Hr|]. split; [done|]. rewrite H2, H3, H4. unfold m0. cbn. by rewrite <- app_assoc.
Qed.

(** A client that sends to recipients it had not sent to before makes one goroutine and one queue for each, and all are there when it is long gone. *)
Theorem C89_more P my_key why c a xs n :
  phase_of n c = Looping a -> Forall carries xs -> Forall (fun x => e_sender (snd x) = a) xs ->
  NoDup (map (fun x => e_to (snd x)) xs) -> (forall x, x ∈ xs -> n_pairs n !! pair_key (snd x) = None) ->
  exists n', run P my_key why n (sends c xs ++ leaves c) = Ok n' /\ phase_of n' c = Done /\
    n_tcp n' = delete a (n_tcp n) /\ length (n_workers n') = length (n_workers n) + length xs /\
    (forall evs n'', run P my_key why n' evs = Ok n'' -> length (n_workers n) + length xs <= length (n_workers n'')).
Proof.
  intros Hp Hc Hs Hn Hk. destruct (sends_more P my_key why c a xs n Hp Hc Hs Hn Hk) as (m & Hr & H1 & H2 & H3 & H4).
  assert (Hl : exists n', run P my_key why m (leaves c) = Ok n' /\ phase_of n' c = Done /\ n_tcp n' = delete a (n_tcp m) /\ n_workers n' = n_workers m).
  { unfold leaves. cbn [run DelegateModel.step]. rewrite H1. cbn [read_loop handle_acn rbind].
    unfold read_loop, handle_acn. cbn [rbind].
    unfold go at 1. rewrite phase_of_set, decide_True by done. cbn [rbind].
    unfold go at 1. rewrite phase_of_set, decide_True by done. cbn [rbind].
    eexists. split; [reflexivity|]. rewrite phase_of_set, decide_True by done. done. }
  destruct Hl as (n' & Hl & L1 & L2 & L3). exists n'. rewrite run_app, Hr. cbn [rbind]. split; [done|]. split; [done|].
  split; [by rewrite L2, H3|].
  assert (Hlen : length (n_workers n') = length (n_workers n) + length xs) by (by rewrite L3, H2, app_length, map_length).
  split; [done|]. intros evs n'' Hr'. rewrite <- Hlen. apply run_keeps in Hr' as (Hw & _).
  destruct (decide (length (n_workers n') <= length (n_workers n''))) as [|Hgt]; [done|].
  destruct (lookup_lt_is_Some_2 (n_workers n') (length (n_workers n''))) as [[p o] H]; [lia|].
  apply Hw in H as (o' & H & _). apply lookup_lt_Some in H. lia.
Qed.
Print Assumptions C89_more.

(** A client registers, sends to three recipients, its envelopes are routed and it leaves: no table has an entry for it, but its record and three goroutines with
    empty queues are there. Sending to one of the recipients again makes no further one. *)
Definition remains (evs : list event) : option (list string * nat * nat * list nat * nat) :=
  match toy_run evs with
  | Ok n => Some (map fst (map_to_list (n_records n)), size (n_tcp n), size (n_stat n), map (fun x => length (snd x)) (map_to_list (n_chans n)), length (n_workers n))
  | _ => None
  end.
Definition send_to (to : string) : list event :=
  [ERead 1 (send_frame (env to (r_address alice) "hi")) true; EGo 1 true; EGo 1 true].
Example C89_example :
  remains (joins 1 alice ++ send_to "x" ++ [EGo 1 true] ++ send_to "y" ++ [EGo 1 true] ++ send_to "z" ++ [EGo 1 true] ++
           [EStart 0; EStart 1; EStart 2; ETake 0; ETake 1; ETake 2] ++ leaves 1) = Some ([r_address alice], 0, 0, [0; 0; 0], 3) /\
  remains (joins 1 alice ++ send_to "x" ++ [EGo 1 true] ++ send_to "x" ++ [EStart 0; ETake 0] ++ leaves 1) = Some ([r_address alice], 0, 0, [1], 1) /\
  (exists n, toy_run (joins 1 alice) = Ok n /\ phase_of n 1 = Looping (r_address alice)) /\
  carries (default [] (encode_acn (Some (PEnvelope (default [] (encode_envelope (env "x" (r_address alice) "hi"))) None))), env "x" (r_address alice) "hi").
Proof.
  split; [vm_compute; done|]. split; [vm_compute; done|]. split.
  - eexists. split; [vm_compute; reflexivity|]. vm_compute. done.
  - exists (default [] (encode_envelope (env "x" (r_address alice) "hi"))), None. split; vm_compute; done.
Qed.
