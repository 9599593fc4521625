(** Property C55: the generic set behaves like a mathematical set. *)
From Coq Require Import ZArith List.
From stdpp Require Import base tactics gmap list strings.
From Verif Require Import GoBase SetModel.

Section SetSpec.
  Context {K : Type} `{Countable K}.

  (** The members each set of a program has, mathematically: a predicate per
      set, updated as the operations prescribe. *)
  Definition member_step (ps : list (K -> Prop)) (o : set_op K) : list (K -> Prop) :=
    match o with
    | SNew => ps ++ [fun _ => False]
    | SFromArray xs => ps ++ [fun y => y ∈ xs]
    | SAdd i x => alter (fun P y => y = x \/ P y) i ps
    | SRemove i x => alter (fun P y => y <> x /\ P y) i ps
    | SAddAll i xs => alter (fun P y => y ∈ xs \/ P y) i ps
    | SCopy i => match ps !! i with Some P => ps ++ [P] | None => ps end
    | SDifference i j => match ps !! i, ps !! j with
                         | Some P, Some Q => ps ++ [fun y => P y /\ ~ Q y]
                         | _, _ => ps
                         end
    end.
  Definition members (ops : list (set_op K)) : list (K -> Prop) := fold_left member_step ops [].

  (** All stored values are [true] and the keys are the members. *)
  Definition agrees (s : hset K) (P : K -> Prop) : Prop :=
    forall x, (s !! x = Some true <-> P x) /\ s !! x <> Some false.

  Lemma agrees_add s P x : agrees s P -> agrees (hs_add s x) (fun y => y = x \/ P y).
  Proof.
    intros Ha y. unfold hs_add. destruct (decide (x = y)) as [->|Hne].
    - rewrite lookup_insert. split; [|done]. split; [by left|done].
    - rewrite lookup_insert_ne by done. destruct (Ha y) as [H1 H2]. split; [|done].
      rewrite H1. split; [by right|]. intros [->|?]; done.
  Qed.

  Lemma agrees_remove s P x : agrees s P -> agrees (hs_remove s x) (fun y => y <> x /\ P y).
  Proof.
    intros Ha y. unfold hs_remove. destruct (decide (x = y)) as [->|Hne].
    - rewrite lookup_delete. split; [|done]. split; [done|]. by intros [? _].
    - rewrite lookup_delete_ne by done. destruct (Ha y) as [H1 H2]. split; [|done].
      rewrite H1. split; [|by intros [_ ?]]. intros ?. split; [congruence|done].
  Qed.

  Lemma agrees_ext s P Q : agrees s P -> (forall x, P x <-> Q x) -> agrees s Q.
  Proof. intros Ha Hpq x. destruct (Ha x). by rewrite <- Hpq. Qed.

  Lemma agrees_new : agrees hs_new (fun _ => False).
  Proof. intros x. unfold hs_new. by rewrite lookup_empty. Qed.

  Lemma agrees_add_all xs s P :
    agrees s P -> agrees (hs_add_from_array s xs) (fun y => y ∈ xs \/ P y).
  Proof.
    revert s P. induction xs as [|x xs IH]; intros s P Ha; simpl.
    - eapply agrees_ext; [exact Ha|]. intros y. set_solver.
    - eapply agrees_ext; [apply (IH (hs_add s x)), agrees_add, Ha|].
      intros y. simpl. set_solver.
  Qed.

  Lemma agrees_keys s P x : agrees s P -> x ∈ hs_to_array s <-> P x.
  Proof.
    intros Ha. unfold hs_to_array. rewrite elem_of_list_fmap. split.
    - intros ([k b] & -> & Hk). apply elem_of_map_to_list in Hk. simpl.
      destruct (Ha k) as [H1 H2]. destruct b; [by apply H1|done].
    - intros Hp. exists (x, true). split; [done|]. apply elem_of_map_to_list. by apply Ha.
  Qed.

  Lemma agrees_copy s P : agrees s P -> agrees (hs_copy s) P.
  Proof.
    intros Ha. eapply agrees_ext; [apply (agrees_add_all (hs_to_array s)), agrees_new|].
    intros x. simpl. rewrite (agrees_keys s P x Ha). tauto.
  Qed.

  Lemma agrees_remove_all xs s P :
    agrees s P -> agrees (fold_left hs_remove xs s) (fun y => P y /\ y ∉ xs).
  Proof.
    revert s P. induction xs as [|x xs IH]; intros s P Ha; simpl.
    - eapply agrees_ext; [exact Ha|]. intros y. set_solver.
    - eapply agrees_ext; [apply (IH (hs_remove s x)), agrees_remove, Ha|].
      intros y. simpl. rewrite not_elem_of_cons. tauto.
  Qed.

  Lemma agrees_difference s1 s2 P Q :
    agrees s1 P -> agrees s2 Q -> agrees (hs_difference s1 s2) (fun y => P y /\ ~ Q y).
  Proof.
    intros H1 H2. eapply agrees_ext; [apply agrees_remove_all, agrees_copy, H1|].
    intros y. simpl. by rewrite (agrees_keys s2 Q y H2).
  Qed.

  Lemma Forall2_alter_r {A B} (R : A -> B -> Prop) f g i xs ys :
    Forall2 R xs ys -> (forall x y, R x y -> R (f x) (g y)) ->
    Forall2 R (alter f i xs) (alter g i ys).
  Proof.
    intros HR Hfg. revert i. induction HR as [|x y xs ys Hxy HR IH]; intros [|i]; simpl;
      constructor; eauto.
  Qed.

  Lemma run_agrees ops : Forall2 agrees (set_run ops) (members ops).
  Proof.
    unfold set_run, members.
    assert (forall ss ps, Forall2 agrees ss ps ->
      Forall2 agrees (fold_left set_step ops ss) (fold_left member_step ops ps)) as Hg;
      [|apply Hg; constructor].
    induction ops as [|o ops IH]; intros ss ps Ha; [done|]. simpl. apply IH.
    destruct o as [|xs|i x|i x|i xs|i|i j]; simpl.
    - apply Forall2_app; [done|]. constructor; [apply agrees_new|constructor].
    - apply Forall2_app; [done|]. constructor; [|constructor].
      eapply agrees_ext; [apply (agrees_add_all xs), agrees_new|]. intros y. simpl. tauto.
    - apply Forall2_alter_r; [done|]. intros s P Hs. by apply agrees_add.
    - apply Forall2_alter_r; [done|]. intros s P Hs. by apply agrees_remove.
    - apply Forall2_alter_r; [done|]. intros s P Hs. by apply agrees_add_all.
    - destruct (ss !! i) as [s|] eqn:E.
      + destruct (Forall2_lookup_l _ _ _ _ _ Ha E) as (P & -> & Hs).
        apply Forall2_app; [done|]. constructor; [by apply agrees_copy|constructor].
      + assert (ps !! i = None) as ->; [|done].
        apply lookup_ge_None. rewrite <- (Forall2_length _ _ _ Ha). by apply lookup_ge_None.
    - destruct (ss !! i) as [s1|] eqn:E1.
      + destruct (Forall2_lookup_l _ _ _ _ _ Ha E1) as (P & -> & Hs1).
        destruct (ss !! j) as [s2|] eqn:E2.
        * destruct (Forall2_lookup_l _ _ _ _ _ Ha E2) as (Q & -> & Hs2).
          apply Forall2_app; [done|]. constructor; [by apply agrees_difference|constructor].
        * assert (ps !! j = None) as ->; [|done].
          apply lookup_ge_None. rewrite <- (Forall2_length _ _ _ Ha). by apply lookup_ge_None.
      + assert (ps !! i = None) as ->; [|done].
        apply lookup_ge_None. rewrite <- (Forall2_length _ _ _ Ha). by apply lookup_ge_None.
  Qed.

  (** C55. After any program, every set answers membership like the
      mathematical set, its size is the number of its distinct members, and its
      array lists each member once. A copy is thereby independent: later
      operations on the original change only the predicate of the original. *)
  Theorem C55_sets ops i s :
    set_run ops !! i = Some s ->
    exists P, members ops !! i = Some P /\
      (forall x, hs_contains s x = true <-> P x) /\
      NoDup (hs_to_array s) /\ (forall x, x ∈ hs_to_array s <-> P x) /\
      hs_size s = length (hs_to_array s).
  Proof.
    intros Hs. destruct (Forall2_lookup_l _ _ _ _ _ (run_agrees ops) Hs) as (P & HP & Ha).
    exists P. split; [done|]. split; [|split; [|split]].
    - intros x. destruct (Ha x) as [H1 H2]. unfold hs_contains.
      rewrite <- H1. destruct (s !! x) as [[]|]; split; congruence.
    - apply NoDup_fst_map_to_list.
    - intros x. by apply agrees_keys.
    - unfold hs_to_array, hs_size. rewrite fmap_length. done.
  Qed.

  Theorem C55_no_set_missing ops i P :
    members ops !! i = Some P -> is_Some (set_run ops !! i).
  Proof.
    intros HP. destruct (Forall2_lookup_r _ _ _ _ _ (run_agrees ops) HP) as (s & Hs & _).
    by exists s.
  Qed.
End SetSpec.
Print Assumptions C55_sets.
Print Assumptions C55_no_set_missing.

(** A copy taken before a removal keeps the element. *)
Example C55_example :
  let ops := [SFromArray ["a"; "b"; "a"]%string; SCopy 0; SRemove 0 "a"%string;
              SDifference 1 0] in
  (fun s => (hs_size s, hs_contains s "a"%string, hs_contains s "b"%string)) <$> set_run ops
  = [(1%nat, false, true); (2%nat, true, true); (1%nat, true, false)].
Proof. vm_compute. reflexivity. Qed.
