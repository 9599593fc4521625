(** The set of terminal labels holds no label with value [false]. *)
From Coq Require Import ZArith List String Lia.
From stdpp Require Import base tactics gmap strings list.
From Verif Require Import GoBase SetModel DialogueModel StoreModel DialogueSpec
  DialogueProofs StoreProofs StoreInv TraceProofs.
Open Scope Z_scope.

Definition term_true (s : store) : Prop :=
  forall l b, s_terminal s !! l = Some b -> b = true.

Lemma term_true_remove s l s' : term_true s -> st_remove s l = Ok s' -> term_true s'.
Proof.
  intros Ht H. apply st_remove_ok in H as (_ & _ & _ & _ & H & _).
  intros k b Hk. rewrite H in Hk. unfold hs_remove in Hk.
  apply lookup_delete_Some in Hk as [_ Hk]. by eapply Ht.
Qed.

Lemma term_true_callbacks n keep s l s' :
  term_true s -> run_callbacks n keep s l = Ok s' -> term_true s'.
Proof.
  revert s. induction n as [|n IH]; intros s Ht; simpl; [by intros [= <-]|].
  destruct (st_terminal_callback keep s l) as [s1|?|?] eqn:E; simpl; [|done..].
  intros H. eapply IH; [|exact H]. unfold st_terminal_callback in E. destruct keep.
  - injection E as <-. intros k b Hk. simpl in Hk. unfold hs_add in Hk.
    apply lookup_insert_Some in Hk as [[_ <-]|[_ Hk]]; [done|]. by eapply Ht.
  - by eapply term_true_remove.
Qed.

Lemma term_true_store_update c s p rr s' o :
  term_true s -> store_update c s p rr = (s', o) -> is_panic o = false -> term_true s'.
Proof.
  intros Ht. unfold store_update. destruct rr as [[[d m] t]|e|e]; [|by intros [= <- <-]..].
  destruct t; [|by intros [= <- <-]].
  destruct (run_callbacks _ _ _ _) as [s2|?|?] eqn:E; intros [= <- <-] Hp; [|done..].
  by eapply term_true_callbacks in E.
Qed.

Lemma term_true_create c s l role complete s' o :
  term_true s -> create c s l role complete = (s', o) -> term_true s'.
Proof.
  intros Ht. unfold create. destruct (st_is_in_incomplete s l); [by intros [= <- <-]|].
  destruct complete as [l'|]; destruct (st_is_present _ _); by intros [= <- <-].
Qed.

Lemma term_true_found c s m b found s' r :
  term_true s -> update_found c s m b found = (s', r) -> is_panic r = false -> term_true s'.
Proof.
  intros Ht. unfold update_found. destruct found as [p|]; [|by intros [= <- <-]].
  destruct (s_heap s !! p) as [d|]; [|by intros [= <- <-]].
  destruct (store_update c s p (dialogue_update d m)) as [s1 o] eqn:E.
  pose proof (term_true_store_update c s p _ s1 o Ht E) as H1.
  destruct o as [m'|e|e]; [|destruct b|]; try (intros [= <- <-]; try done; by eauto).
  destruct (st_remove s1 (d_label d)) as [s2|?|?] eqn:E2; intros [= <- <-] Hp; [|by eauto..].
  eapply term_true_remove; [|exact E2]. by apply H1.
Qed.

Lemma term_true_step c s o s' r :
  term_true s -> step c s o = (s', r) -> is_panic r = false -> term_true s'.
Proof.
  intros Ht Hs Hp.
  assert (forall cp m s1 q, create_dialogue c s cp m = (s1, q) -> is_panic q = false -> term_true s1)
    as Hcd.
  { intros cp m s1 q. unfold create_dialogue, create_self_initiated.
    destruct (negb _); [by intros [= <- <-]|].
    destruct (create c s _ _ None) as [sc oc] eqn:Ec. apply term_true_create in Ec; [|done].
    destruct oc as [p|e|e]; [|by intros [= <- <-]..].
    destruct (s_heap sc !! p) as [d|]; [|by intros [= <- <-]].
    destruct (store_update c sc p _) as [su ou] eqn:Eu.
    pose proof (term_true_store_update c sc p _ su ou Ec Eu) as Hu.
    destruct ou; intros [= <- <-]; try done; intros _; by apply Hu. }
  destruct o as [nonce cp p|cp m|nonce m|p perf tm tp]; simpl in Hs.
  - unfold api_create in Hs. destruct (create_dialogue c s cp _) as [s1 q] eqn:E.
    pose proof (Hcd _ _ _ _ E) as H. destruct q; injection Hs as <- <-; by apply H.
  - unfold api_create_with in Hs.
    destruct (set_sender m (c_self c)) as [m1|?|?]; [|by injection Hs as <- <-..].
    destruct (set_to m1 cp) as [m2|?|?]; [|by injection Hs as <- <-..].
    destruct (create_dialogue c s cp _) as [s1 q] eqn:E.
    pose proof (Hcd _ _ _ _ E) as H. destruct q; injection Hs as <- <-; by apply H.
  - unfold api_update in Hs.
    destruct (negb _) in Hs; [by injection Hs as <- <-|].
    destruct (negb _) in Hs; [by injection Hs as <- <-|].
    destruct (negb _) in Hs; [by injection Hs as <- <-|].
    repeat match type of Hs with
    | (if ?b then _ else _) = _ => destruct b
    end.
    + by eapply term_true_found in Hs.
    + unfold create_opponent_initiated in Hs. destruct (negb _) in Hs; [by injection Hs as <- <-|].
      destruct (create c s _ _ _) as [sc oc] eqn:Ec. apply term_true_create in Ec; [|done].
      destruct oc; [|by injection Hs as <- <-..]. by eapply term_true_found in Hs.
    + by eapply term_true_found in Hs.
    + destruct (complete_dialogue_reference c s m) as [sc oc] eqn:Ec.
      assert (is_panic oc = false -> term_true sc) as Hc.
      { revert Ec. unfold complete_dialogue_reference.
        destruct (negb _); [by intros [= <- <-]|].
        destruct (_ && _); [|by intros [= <- <-]].
        destruct (st_get s _) as [q|]; [|by intros [= <- <-]].
        destruct (s_heap s !! q) as [d|]; [|by intros [= <- <-]].
        destruct (st_remove s _) as [s1|?|?] eqn:Er; [|by intros [= <- <-]..].
        apply term_true_remove in Er; [|done].
        destruct (update_dialogue_label d _); by intros [= <- <-]. }
      destruct oc as [u|e|e]; [|injection Hs as <- <-; by apply Hc|by injection Hs as <- <-].
      specialize (Hc eq_refl). by eapply term_true_found in Hs.
  - unfold api_reply in Hs. destruct (s_heap s !! p) as [d|]; [|by injection Hs as <- <-].
    destruct (store_update c s p _) as [su ou] eqn:Eu.
    pose proof (term_true_store_update c s p _ su ou Ht Eu) as Hu.
    destruct ou; injection Hs as <- <-; by apply Hu.
Qed.

Lemma term_true_reachable c s : reachable c s -> term_true s.
Proof.
  induction 1 as [|s o s' r Hr IH Hi Hs Hp]; [|by eapply term_true_step].
  intros l b Hl. simpl in Hl. unfold hs_new in Hl. by rewrite lookup_empty in Hl.
Qed.

(** The stored dialogues, split. *)
Lemma active_spec s (p : ptr) :
  p ∈ st_active_dialogues s <->
  exists l, s_by_label s !! l = Some p /\ hs_contains (s_terminal s) l = false.
Proof.
  unfold st_active_dialogues. rewrite elem_of_list_fmap. split.
  - intros ([k q] & -> & H). apply elem_of_list_filter in H as [H1 H2].
    apply elem_of_map_to_list in H2. by exists k.
  - intros (k & H1 & H2). exists (k, p). split; [done|].
    apply elem_of_list_filter. split; [done|]. by apply elem_of_map_to_list.
Qed.

Lemma terminal_elem s (p : ptr) :
  term_true s ->
  p ∈ st_terminal_dialogues s <->
  exists l, s_by_label s !! l = Some p /\ hs_contains (s_terminal s) l = true.
Proof.
  intros Ht. unfold st_terminal_dialogues. rewrite elem_of_list_omap. split.
  - intros (l & Hl & Hp). exists l. split; [done|].
    unfold hs_to_array in Hl. apply elem_of_list_fmap in Hl as ([k b] & -> & Hk).
    apply elem_of_map_to_list in Hk. pose proof (Ht _ _ Hk) as ->. unfold hs_contains.
    simpl. by rewrite Hk.
  - intros (l & Hp & Hl). exists l. split; [|done].
    unfold hs_to_array. apply elem_of_list_fmap. unfold hs_contains in Hl.
    destruct (s_terminal s !! l) as [b|] eqn:E; [|done]. subst b.
    exists (l, true). split; [done|]. by apply elem_of_map_to_list.
Qed.

Lemma NoDup_omap {A B} (f : A -> option B) (xs : list A) :
  NoDup xs -> (forall x y b, f x = Some b -> f y = Some b -> x = y) -> NoDup (omap f xs).
Proof.
  intros Hn Hf. induction Hn as [|x xs Hx Hn IH]; [constructor|]. simpl.
  destruct (f x) as [b|] eqn:E; [|done]. constructor; [|done].
  intros Hb. apply elem_of_list_omap in Hb as (y & Hy & Hb).
  by rewrite (Hf x y b E Hb) in Hx.
Qed.

Lemma partition_nodup c s :
  inv c s -> term_true s -> NoDup (st_active_dialogues s ++ st_terminal_dialogues s).
Proof.
  intros Hi Ht. apply NoDup_app. split; [|split].
  - unfold st_active_dialogues. apply NoDup_fmap_2_strong.
    + intros [k p] [k' p'] H1 H2. simpl. intros <-.
      apply elem_of_list_filter in H1 as [_ H1]. apply elem_of_list_filter in H2 as [_ H2].
      apply elem_of_map_to_list in H1. apply elem_of_map_to_list in H2.
      by rewrite (inv_inj c s k k' p (iv_any c s Hi) H1 H2).
    + apply NoDup_filter, NoDup_map_to_list.
  - intros p H1 H2. apply active_spec in H1 as (l & H1 & H1').
    apply terminal_elem in H2 as (l' & H2 & H2'); [|done].
    rewrite (inv_inj c s l l' p (iv_any c s Hi) H1 H2) in H1'. congruence.
  - unfold st_terminal_dialogues. apply NoDup_omap.
    + unfold hs_to_array. apply NoDup_fst_map_to_list.
    + intros l l' p. by apply (inv_inj c s), Hi.
Qed.

Lemma partition_all c s p :
  reachable c s ->
  p ∈ st_active_dialogues s ++ st_terminal_dialogues s <-> in_store s p.
Proof.
  intros Hr. pose proof (term_true_reachable c s Hr) as Ht.
  rewrite elem_of_app, active_spec, (terminal_elem s p Ht). unfold in_store. split.
  - intros [(l & H & _)|(l & H & _)]; by exists l.
  - intros [l H]. destruct (hs_contains (s_terminal s) l) eqn:E; [right|left]; by exists l.
Qed.
