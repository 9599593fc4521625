(** Properties of the locks of a peer node: mutual exclusion, no deadlock, and who can hold
    up whom. *)
From Coq Require Import ZArith List String Lia.
From stdpp Require Import base tactics list.
From Verif Require Import GoBase LockModel.
Open Scope string_scope.
Open Scope list_scope.

(** * The discipline of the code *)

(** Locks are taken in this order. *)
Definition rank (l : lock) : nat :=
  match l with
  | LGroup | LMail => 0
  | LRecords | LTcp | LStatuses | LDht | LSync | LEnable => 1
  | LAnnounced => 2
  | LMetric _ => 3
  end.

(** What may be waited for under which lock. *)
Definition under (x : world) (l : lock) : bool :=
  match x, l with
  | XAnswer, LMail => true
  | XProvide, LGroup | XProvide, LDht | XProvide, LTcp => true
  | XDisk, LRecords | XDisk, LDht => true
  | XClose, LTcp => true
  | XTable, LGroup => true
  | _, _ => false
  end.

Definition below (h : list (lock * mode)) (l : lock) : bool := forallb (fun x => Nat.ltb (rank x.1) (rank l)) h.
Definition settled (h : list (lock * mode)) : bool := forallb (fun x => negb (bool_decide (x.2 = Pending))) h.

(** What is held after the steps; [None] if the discipline is broken. *)
Fixpoint walk (h : list (lock * mode)) (k : list instr) : option (list (lock * mode)) :=
  match k with
  | [] => Some h
  | IAcquire l :: k' =>
      match h with
      | (l', Pending) :: h' => if bool_decide (l = l') && settled h' && below h' l then walk ((l, Write) :: h') k' else None
      | _ => None
      end
  | i :: k' =>
      if settled h then
        match i with
        | IAnnounce l => if below h l then walk ((l, Pending) :: h) k' else None
        | IAcquire _ => None
        | IRlock l => if below h l then walk ((l, Read) :: h) k' else None
        | IRelease l m => match h with x :: h' => if bool_decide (x = (l, m)) then walk h' k' else None | [] => None end
        | IAdd => match h with [] => walk [(LGroup, Read)] k' | _ => None end
        | IDone => match h with x :: h' => if bool_decide (x = (LGroup, Read)) then walk h' k' else None | [] => None end
        | IWait => match h with [] => walk [] k' | _ => None end
        | IWorld x => if forallb (fun y => under x y.1) h then walk h k' else None
        end
      else None
  end.

Lemma walk_app h k k' : walk h (k ++ k') = match walk h k with Some h' => walk h' k' | None => None end.
Proof.
  revert h. induction k as [|i k IH]; intros h; [done|]. cbn [walk app].
  destruct i as [l|l|l|l m| | | |x].
  - destruct (settled h); [|done]. destruct (below h l); [|done]. apply IH.
  - destruct h as [|[l' []] h]; try done. destruct (_ && _ && _); [|done]. apply IH.
  - destruct (settled h); [|done]. destruct (below h l); [|done]. apply IH.
  - destruct (settled h); [|done]. destruct h as [|x h]; [done|]. destruct (bool_decide _); [|done]. apply IH.
  - destruct (settled h); [|done]. destruct h as [|x h]; [|done]. apply IH.
  - destruct (settled h); [|done]. destruct h as [|x h]; [done|]. destruct (bool_decide _); [|done]. apply IH.
  - destruct (settled h); [|done]. destruct h as [|x h]; [|done]. apply IH.
  - destruct (settled h); [|done]. destruct (forallb _ h); [|done]. apply IH.
Qed.

Lemma walk_locked h l body :
  settled h = true -> below h l = true -> walk ((l, Write) :: h) body = Some ((l, Write) :: h) -> walk h (locked l body) = Some h.
Proof.
  intros H1 H2 H3. unfold locked. cbn [walk]. rewrite H1, H2. rewrite bool_decide_true by done. cbn [andb].
  rewrite walk_app, H3. cbn [walk]. unfold settled in *. cbn [forallb]. rewrite H1. cbn [snd]. rewrite bool_decide_false by done. cbn.
  by rewrite bool_decide_true by done.
Qed.

Lemma walk_rlocked h l body :
  settled h = true -> below h l = true -> walk ((l, Read) :: h) body = Some ((l, Read) :: h) -> walk h (rlocked l body) = Some h.
Proof.
  intros H1 H2 H3. unfold rlocked. cbn [walk]. rewrite H1, H2.
  rewrite walk_app, H3. cbn [walk]. unfold settled in *. cbn [forallb]. rewrite H1. cbn [snd]. rewrite bool_decide_false by done. cbn.
  by rewrite bool_decide_true by done.
Qed.

Lemma walk_leaf h l : settled h = true -> below h l = true -> walk h (locked l []) = Some h.
Proof. intros. by apply walk_locked. Qed.

Lemma below_more h l l' : below h l = true -> (rank l <= rank l')%nat -> below h l' = true.
Proof.
  unfold below. rewrite !forallb_forall. intros H Hr x Hx. specialize (H x Hx).
  apply Nat.ltb_lt in H. apply Nat.ltb_lt. lia.
Qed.

Lemma walk_register h r :
  settled h = true -> below h LAnnounced = true -> forallb (fun y => under XProvide y.1) h = true -> walk h (register r) = Some h.
Proof.
  intros H1 H2 H3. unfold register. rewrite walk_app, walk_leaf by done.
  assert (below h (LMetric 0) = true) as H4 by (eapply below_more; [done|cbn; lia]).
  destruct r; [done| |].
  - rewrite walk_app, walk_leaf by done. cbn [walk]. rewrite H1, H3. by apply walk_leaf.
  - rewrite walk_app, walk_leaf by done. cbn [walk]. by rewrite H1, H3.
Qed.

Lemma walk_registers h l :
  settled h = true -> below h LAnnounced = true -> forallb (fun y => under XProvide y.1) h = true ->
  walk h (concat (map register l)) = Some h.
Proof.
  intros H1 H2 H3. induction l as [|r l IH]; [done|]. cbn [map concat]. by rewrite walk_app, walk_register.
Qed.

Lemma walk_world h x n : settled h = true -> forallb (fun y => under x y.1) h = true -> walk h (replicate n (IWorld x)) = Some h.
Proof. intros H1 H2. induction n as [|n IH]; [done|]. cbn [replicate walk]. by rewrite H1, H2. Qed.

Lemma walk_seq h k k' : walk h k = Some h -> walk h (k ++ k') = walk h k'.
Proof. intros H. by rewrite walk_app, H. Qed.

(** Every section keeps the discipline. *)
Lemma walk_code s : walk [] (code s) = Some [].
Proof.
  destruct s; cbn [code]; try (apply walk_locked; reflexivity); try (apply walk_rlocked; reflexivity); try reflexivity.
  - apply walk_locked; [done..|]. by apply walk_world.
  - apply walk_register; done.
  - unfold notify. assert (forall k, walk [] (IAdd :: IWorld XTable :: k) = walk [(LGroup, Read)] k) as -> by done.
    destruct found; [|done].
    rewrite <- !app_assoc. rewrite walk_seq by (by apply walk_leaf).
    rewrite walk_seq by (destruct own as [r|]; [by apply walk_register|done]).
    destruct fails; [done|]. rewrite <- !app_assoc.
    rewrite walk_seq by (destruct relay as [l|]; [|done]; apply walk_rlocked; [done..|]; by apply walk_registers).
    rewrite walk_seq by (destruct delegate as [l|]; [|done]; apply walk_rlocked; [done..|]; by apply walk_registers).
    rewrite !walk_seq by (by apply walk_leaf). done.
  - apply walk_locked; [done..|]. by apply walk_world.
Qed.

Lemma walk_program l : walk [] (concat (map code l)) = Some [].
Proof. induction l as [|s l IH]; [done|]. cbn [map concat]. by rewrite walk_app, walk_code. Qed.

(** * Reachable states *)

Definition fine (t : thread) : Prop := walk (th_held t) (th_rest t) = Some [].

(** Two goroutines may hold the same lock in these modes. *)
Definition compat (m m' : mode) : Prop := (m = Read /\ m' <> Write) \/ (m' = Read /\ m <> Write).

Definition excl (ts : list thread) : Prop :=
  forall i j t u l m m', i <> j -> ts !! i = Some t -> ts !! j = Some u -> (l, m) ∈ th_held t -> (l, m') ∈ th_held u ->
    l <> LGroup -> compat m m'.

Lemma compat_sym m m' : compat m m' -> compat m' m.
Proof. unfold compat. tauto. Qed.

Lemma not_taken ts l ms i t m :
  taken ts l ms = false -> ts !! i = Some t -> (l, m) ∈ th_held t -> m ∈ ms -> False.
Proof.
  intros H Hi Hm Hms. unfold taken in H. assert (existsb (fun t => existsb (fun m => bool_decide ((l, m) ∈ th_held t)) ms) ts = true); [|congruence].
  apply existsb_exists. exists t. split; [apply elem_of_list_In; by eapply elem_of_list_lookup_2|].
  apply existsb_exists. exists m. split; [by apply elem_of_list_In|]. by apply bool_decide_eq_true.
Qed.

Lemma is_taken ts l ms : taken ts l ms = true -> exists i t m, ts !! i = Some t /\ (l, m) ∈ th_held t /\ m ∈ ms.
Proof.
  intros H. unfold taken in H. apply existsb_exists in H as (t & Ht & H). apply existsb_exists in H as (m & Hm & H).
  apply elem_of_list_In, elem_of_list_lookup in Ht as (i & Hi). apply elem_of_list_In in Hm. apply bool_decide_eq_true in H. eauto 8.
Qed.

Lemma drop_head x h : drop_one x (x :: h) = Some h.
Proof. cbn. by rewrite decide_True. Qed.

(** What a step of a goroutine changes. *)
Lemma move_spec ts t r :
  fine t -> move ts t = Some r ->
  exists t', r = Ok t' /\ fine t' /\ length (th_rest t) = S (length (th_rest t')) /\
    forall l m, (l, m) ∈ th_held t' -> (l, m) ∈ th_held t \/ l = LGroup \/
      (m <> Write /\ taken ts l [Pending; Write] = false) \/ (m = Write /\ taken ts l [Read] = false /\ (l, Pending) ∈ th_held t).
Proof.
  unfold fine, move. destruct t as [h [|i k]]; cbn [th_held th_rest]; [done|]. intros Hw Hm. cbn [walk] in Hw.
  destruct i as [l|l|l|l m| | | |x].
  - destruct (settled h); [|discriminate Hw]. destruct (below h l); [|discriminate Hw].
    destruct (taken ts l _) eqn:Et; [discriminate Hm|]. injection Hm as <-. eexists. split; [done|]. split; [done|]. split; [done|].
    cbn. intros l' m' Hin. apply elem_of_cons in Hin as [He|Hin]; [|by left]. injection He as -> ->. right. right. left. done.
  - destruct h as [|[l' []] h]; try discriminate Hw. destruct (bool_decide (l = l')) eqn:El; [|discriminate Hw].
    apply bool_decide_eq_true in El as <-. destruct (taken ts l _) eqn:Et; [discriminate Hm|].
    rewrite drop_head in Hm. injection Hm as <-. eexists. split; [done|].
    destruct (settled h && below h l) eqn:Esb; cbn [andb] in Hw; rewrite ?Esb in Hw; [|destruct (settled h), (below h l); discriminate].
    split. { cbn. destruct (settled h), (below h l); cbn in Esb; try discriminate. exact Hw. }
    split; [done|]. cbn. intros l' m' Hin. apply elem_of_cons in Hin as [He|Hin]; [|left; by right].
    injection He as -> ->. right. right. right. split; [done|]. split; [done|]. left.
  - destruct (settled h); [|discriminate Hw]. destruct (below h l); [|discriminate Hw].
    destruct (taken ts l _) eqn:Et; [discriminate Hm|]. injection Hm as <-. eexists. split; [done|]. split; [done|]. split; [done|].
    cbn. intros l' m' Hin. apply elem_of_cons in Hin as [He|Hin]; [|by left]. injection He as -> ->. right. right. left. done.
  - destruct (settled h); [|discriminate Hw]. destruct h as [|x h]; [discriminate Hw|]. case_bool_decide as Hx; [|discriminate Hw]. subst x.
    rewrite drop_head in Hm. injection Hm as <-. eexists. split; [done|]. split; [done|]. split; [done|].
    cbn. intros l' m' Hin. left. by right.
  - destruct (settled h); [|discriminate Hw]. destruct h as [|x h]; [|discriminate Hw]. injection Hm as <-.
    eexists. split; [done|]. split; [done|]. split; [done|]. cbn. intros l' m' Hin. apply elem_of_list_singleton in Hin. injection Hin as -> ->. auto.
  - destruct (settled h); [|discriminate Hw]. destruct h as [|x h]; [discriminate Hw|]. case_bool_decide as Hx; [|discriminate Hw]. subst x.
    rewrite drop_head in Hm. injection Hm as <-. eexists. split; [done|]. split; [done|]. split; [done|].
    cbn. intros l' m' Hin. left. by right.
  - destruct (settled h); [|discriminate Hw]. destruct h as [|x h]; [|discriminate Hw].
    destruct (taken ts _ _); [discriminate Hm|]. injection Hm as <-. eexists. split; [done|]. split; [done|]. split; [done|]. auto.
  - discriminate Hm.
Qed.

Lemma excl_insert ts i t t' :
  excl ts -> ts !! i = Some t ->
  (forall j u l m m', i <> j -> ts !! j = Some u -> (l, m) ∈ th_held t' -> (l, m') ∈ th_held u -> l <> LGroup -> compat m m') ->
  excl (<[i := t']> ts).
Proof.
  intros He Hi H a b ta tb l m m' Hab Ha Hb Hl Hl' Hg.
  destruct (decide (a = i)) as [->|Hai].
  - rewrite list_lookup_insert in Ha by (by eapply lookup_lt_Some). injection Ha as <-.
    rewrite list_lookup_insert_ne in Hb by done. by eapply H.
  - rewrite list_lookup_insert_ne in Ha by done. destruct (decide (b = i)) as [->|Hbi].
    + rewrite list_lookup_insert in Hb by (by eapply lookup_lt_Some). injection Hb as <-. apply compat_sym. eapply (H a); eauto.
    + rewrite list_lookup_insert_ne in Hb by done. by eapply (He a b).
Qed.

Lemma step_inv ts e r :
  Forall fine ts -> excl ts -> step ts e = Some r -> exists ts', r = Ok ts' /\ Forall fine ts' /\ excl ts'.
Proof.
  intros Hf He Hs. destruct e as [l|i|i]; cbn [step] in Hs.
  - injection Hs as <-. eexists. split; [done|]. split.
    + apply Forall_app. split; [done|]. constructor; [|done]. apply walk_program.
    + intros i j t u k m m' Hij Hi Hj Hk Hk' Hg.
      assert (forall n v x, (ts ++ [Thread [] (concat (map code l))]) !! n = Some v -> x ∈ th_held v -> ts !! n = Some v) as Hold.
      { intros n v x Hn Hx. apply lookup_app_Some in Hn as [Hn|[_ Hn]]; [done|].
        destruct (n - length ts)%nat; [|done]. injection Hn as <-. by apply elem_of_nil in Hx. }
      eapply (He i j); eauto.
  - destruct (ts !! i) as [t|] eqn:Ei; [|discriminate Hs]. destruct (move ts t) as [r'|] eqn:Em; [|discriminate Hs].
    destruct (move_spec ts t r') as (t' & -> & Hf' & _ & Hh); [by eapply Forall_lookup_1|done|].
    injection Hs as <-. eexists. split; [done|]. split; [by apply Forall_insert|].
    eapply excl_insert; [done..|]. intros j u l m m' Hij Hj Hl Hl' Hg.
    destruct (Hh l m Hl) as [H|[H|[[H1 H2]|(-> & H2 & H3)]]].
    + by eapply (He i j).
    + done.
    + assert (m' = Read) as ->; [|right; done]. destruct m'; [|..|done]; exfalso; eapply not_taken; eauto; by repeat constructor.
    + assert (compat Pending m') as Hc by (by eapply (He i j)).
      exfalso. destruct Hc as [[? _]|[-> _]]; [done|]. eapply not_taken; eauto; by repeat constructor.
  - destruct (ts !! i) as [[h [|[| | | | | | |x] k]]|] eqn:Ei; try discriminate Hs. injection Hs as <-.
    assert (fine (Thread h (IWorld x :: k))) as Hw by (by eapply Forall_lookup_1).
    unfold fine in Hw. cbn [walk th_held th_rest] in Hw. destruct (settled h); [|discriminate Hw]. destruct (forallb _ h); [|discriminate Hw].
    eexists. split; [done|]. split; [by apply Forall_insert|].
    eapply excl_insert; [done..|]. cbn. intros j u l m m' Hij Hj Hl Hl' Hg. eapply (He i j); eauto.
Qed.

Lemma run_inv es ts r : Forall fine ts -> excl ts -> run ts es = Some r -> exists ts', r = Ok ts' /\ Forall fine ts' /\ excl ts'.
Proof.
  revert ts. induction es as [|e es IH]; intros ts Hf He Hr; cbn [run] in Hr.
  - injection Hr as <-. eauto.
  - destruct (step ts e) as [r'|] eqn:Es; [|discriminate Hr].
    destruct (step_inv ts e r' Hf He Es) as (ts' & -> & Hf' & He'). by eapply IH.
Qed.

Lemma start_inv es r : run [] es = Some r -> exists ts, r = Ok ts /\ Forall fine ts /\ excl ts.
Proof. intros H. eapply run_inv; [| |exact H]; [done|]. intros i j t u l m m' _ Hi. done. Qed.

(** * Waiting *)

(** The next step of the goroutine is to take the lock, or to wait for the group. *)
Definition wants (t : thread) (l : lock) : Prop :=
  exists k, th_rest t = IAnnounce l :: k \/ th_rest t = IAcquire l :: k \/ th_rest t = IRlock l :: k \/
    (th_rest t = IWait :: k /\ l = LGroup).

(** The goroutine waits for others outside. *)
Definition outside (t : thread) (x : world) : Prop := exists k, th_rest t = IWorld x :: k.

(** No goroutine can do a step by itself. *)
Definition still (ts : list thread) : Prop := forall i, step ts (EMove i) = None.

Lemma still_move ts i t : still ts -> Forall fine ts -> ts !! i = Some t -> move ts t = None.
Proof.
  intros Hs Hf Hi. specialize (Hs i). cbn [step] in Hs. rewrite Hi in Hs. destruct (move ts t) as [[]|]; done.
Qed.

Lemma settled_in h l m : settled h = true -> (l, m) ∈ h -> m <> Pending.
Proof.
  intros H Hin ->. unfold settled in H. rewrite forallb_forall in H. apply elem_of_list_In in Hin. specialize (H _ Hin). cbn in H.
  by rewrite bool_decide_true in H.
Qed.

Lemma below_in h l l' m : below h l = true -> (l', m) ∈ h -> (rank l' < rank l)%nat.
Proof.
  intros H Hin. unfold below in H. rewrite forallb_forall in H. apply elem_of_list_In in Hin. specialize (H _ Hin). by apply Nat.ltb_lt in H.
Qed.

(** A holder that is not about to acquire the lock is waiting for something higher or for
    others outside. *)
Lemma holder ts j u l m :
  Forall fine ts -> still ts -> ts !! j = Some u -> (l, m) ∈ th_held u -> m <> Pending ->
  (exists x, outside u x /\ under x l = true) \/ (exists l', wants u l' /\ (rank l < rank l')%nat).
Proof.
  intros Hf Hs Hj Hl Hm. assert (move ts u = None) as Hmv by (by eapply still_move).
  assert (fine u) as Hw by (by eapply Forall_lookup_1). unfold fine in Hw. unfold move in Hmv.
  destruct u as [h [|i k]]; cbn [th_held th_rest] in *.
  { cbn in Hw. injection Hw as ->. by apply elem_of_nil in Hl. }
  cbn [walk] in Hw. destruct i as [l'|l'|l'|l' m'| | | |x].
  - right. exists l'. split; [exists k; by left|]. destruct (settled h); [|discriminate Hw].
    destruct (below h l') eqn:Eb; [|discriminate Hw]. by eapply below_in.
  - right. exists l'. split; [exists k; right; by left|]. destruct h as [|[l0 []] h]; try discriminate Hw.
    destruct (bool_decide (l' = l0)); [|discriminate Hw]. destruct (settled h); [|discriminate Hw].
    destruct (below h l') eqn:Eb; [|discriminate Hw]. apply elem_of_cons in Hl as [He|Hl]; [by injection He as -> ->|]. by eapply below_in.
  - right. exists l'. split; [exists k; right; right; by left|]. destruct (settled h); [|discriminate Hw].
    destruct (below h l') eqn:Eb; [|discriminate Hw]. by eapply below_in.
  - destruct (drop_one _ h); discriminate Hmv.
  - discriminate Hmv.
  - destruct (drop_one _ h); discriminate Hmv.
  - destruct (settled h); [|discriminate Hw]. destruct h; [by apply elem_of_nil in Hl|discriminate Hw].
  - left. exists x. split; [by exists k|]. destruct (settled h); [|discriminate Hw].
    destruct (forallb _ h) eqn:Ef; [|discriminate Hw]. rewrite forallb_forall in Ef. apply elem_of_list_In in Hl. exact (Ef _ Hl).
Qed.

Lemma climb ts j u l m :
  Forall fine ts -> still ts -> ts !! j = Some u -> (l, m) ∈ th_held u ->
  exists n v m', ts !! n = Some v /\ (l, m') ∈ th_held v /\
    ((exists x, outside v x /\ under x l = true) \/ (exists l', wants v l' /\ (rank l < rank l')%nat)).
Proof.
  intros Hf Hs Hj Hl. destruct (decide (m = Pending)) as [->|Hm].
  2:{ exists j, u, m. split; [done|]. split; [done|]. by eapply holder. }
  assert (move ts u = None) as Hmv by (by eapply still_move).
  assert (fine u) as Hw by (by eapply Forall_lookup_1). unfold fine in Hw. unfold move in Hmv.
  destruct u as [h [|i k]]; cbn [th_held th_rest] in *.
  { cbn in Hw. injection Hw as ->. by apply elem_of_nil in Hl. }
  assert ((exists l', i = IAcquire l') \/ settled h = true) as [(l' & ->)|Hst].
  { destruct i; cbn [walk] in Hw; eauto; right; destruct (settled h); done. }
  - cbn [walk] in Hw. destruct h as [|[l0 []] h]; try discriminate Hw.
    destruct (bool_decide (l' = l0)) eqn:El; [|discriminate Hw]. apply bool_decide_eq_true in El as <-.
    destruct (settled h) eqn:Est; [|discriminate Hw].
    apply elem_of_cons in Hl as [He|Hl]; [|by destruct (settled_in h l Pending Est Hl)]. injection He as ->.
    destruct (taken ts l' [Read]) eqn:Et; [|rewrite drop_head in Hmv; discriminate Hmv].
    apply is_taken in Et as (n & v & m' & Hn & Hv & Hm'). apply elem_of_list_singleton in Hm' as ->.
    exists n, v, Read. split; [done|]. split; [done|]. by eapply holder.
  - by destruct (settled_in h l Pending Hst Hl).
Qed.

(** A goroutine that cannot go on by itself and is not at its end waits for others outside
    or wants a lock that someone holds. *)
Lemma waiting ts i t :
  Forall fine ts -> still ts -> ts !! i = Some t -> th_rest t <> [] ->
  (exists x, outside t x) \/ (exists l j u m, wants t l /\ ts !! j = Some u /\ (l, m) ∈ th_held u).
Proof.
  intros Hf Hs Hi Hne. assert (move ts t = None) as Hmv by (by eapply still_move).
  assert (fine t) as Hw by (by eapply Forall_lookup_1). unfold fine in Hw. unfold move in Hmv.
  destruct t as [h [|ii k]]; cbn [th_held th_rest] in *; [done|].
  destruct ii as [l|l|l|l m| | | |x].
  - right. destruct (taken ts l _) eqn:Et; [|discriminate Hmv]. apply is_taken in Et as (j & u & m & Hj & Hm & _).
    exists l, j, u, m. split; [exists k; by left|done].
  - right. destruct (taken ts l _) eqn:Et; [|destruct (drop_one _ h); discriminate Hmv]. apply is_taken in Et as (j & u & m & Hj & Hm & _).
    exists l, j, u, m. split; [exists k; right; by left|done].
  - right. destruct (taken ts l _) eqn:Et; [|discriminate Hmv]. apply is_taken in Et as (j & u & m & Hj & Hm & _).
    exists l, j, u, m. split; [exists k; right; right; by left|done].
  - destruct (drop_one _ h); discriminate Hmv.
  - discriminate Hmv.
  - destruct (drop_one _ h); discriminate Hmv.
  - right. destruct (taken ts _ _) eqn:Et; [|discriminate Hmv]. apply is_taken in Et as (j & u & m & Hj & Hm & _).
    exists LGroup, j, u, m. split; [exists k; right; right; right; done|done].
  - left. exists x, k. done.
Qed.

Lemma rank_le l : (rank l <= 3)%nat.
Proof. destruct l; cbn; lia. Qed.

Lemma wanted_held ts i t l : Forall fine ts -> still ts -> ts !! i = Some t -> wants t l -> exists j u m, ts !! j = Some u /\ (l, m) ∈ th_held u.
Proof.
  intros Hf Hs Hi (k & Hk). destruct (waiting ts i t Hf Hs Hi) as [(x & k' & Hx)|(l' & j & u & m & (k' & Hk') & H)].
  - destruct Hk as [Hk|[Hk|[Hk|[Hk _]]]]; rewrite Hk; done.
  - exfalso. rewrite Hx in Hk. destruct Hk as [Hk|[Hk|[Hk|[Hk _]]]]; done.
  - assert (l' = l) as ->. { destruct Hk as [Hk|[Hk|[Hk|[Hk ->]]]], Hk' as [Hk'|[Hk'|[Hk'|[Hk' ->]]]]; congruence. }
    eauto.
Qed.

Lemma blame ts i t l :
  Forall fine ts -> still ts -> ts !! i = Some t -> wants t l ->
  exists j u x l' m, ts !! j = Some u /\ outside u x /\ (l', m) ∈ th_held u /\ under x l' = true /\ (rank l <= rank l')%nat /\ (l' = l \/ rank l < rank l')%nat.
Proof.
  intros Hf Hs. remember (3 - rank l)%nat as n eqn:En. revert i t l En.
  induction n as [n IH] using lt_wf_ind. intros i t l En Hi Hw.
  destruct (wanted_held ts i t l Hf Hs Hi Hw) as (j & u & m & Hj & Hl).
  destruct (climb ts j u l m Hf Hs Hj Hl) as (k & v & m' & Hk & Hm' & [(x & Hx & Hu)|(l' & Hw' & Hr)]).
  - exists k, v, x, l, m'. repeat split; auto.
  - pose proof (rank_le l'). destruct (IH (3 - rank l')%nat ltac:(lia) k v l' eq_refl Hk Hw') as (a & b & x & l2 & m2 & H1 & H2 & H3 & H4 & H5 & H6).
    exists a, b, x, l2, m2. repeat split; auto; [lia|]. right. lia.
Qed.

(** * The theorems *)

(** No history crashes: every unlock is of a lock the goroutine holds. Nobody shares a
    lock with its writer. *)
Theorem C81_exclusion es r :
  run [] es = Some r ->
  exists ts, r = Ok ts /\
    forall i j t u l m, i <> j -> ts !! i = Some t -> ts !! j = Some u -> (l, Write) ∈ th_held t -> l <> LGroup -> (l, m) ∉ th_held u.
Proof.
  intros Hr. destruct (start_inv es r Hr) as (ts & -> & Hf & He). exists ts. split; [done|].
  intros i j t u l m Hij Hi Hj Hl Hg Hm. destruct (He i j t u l Write m Hij Hi Hj Hl Hm Hg) as [[? _]|[_ ?]]; done.
Qed.
Print Assumptions C81_exclusion.

(** What the code waits for under which lock: only these. *)
Theorem C81_held es ts i t x l m :
  run [] es = Some (Ok ts) -> ts !! i = Some t -> outside t x -> (l, m) ∈ th_held t ->
  In (x, l) [(XAnswer, LMail); (XProvide, LGroup); (XProvide, LDht); (XProvide, LTcp); (XDisk, LRecords); (XDisk, LDht);
             (XClose, LTcp); (XTable, LGroup)].
Proof.
  intros Hr Hi (k & Hk) Hl. destruct (start_inv es _ Hr) as (ts' & He & Hf & _). injection He as <-.
  assert (fine t) as Hw by (by eapply Forall_lookup_1). unfold fine in Hw. rewrite Hk in Hw. cbn [walk] in Hw.
  destruct (settled _); [|discriminate Hw]. destruct (forallb _ _) eqn:Ef; [|discriminate Hw].
  rewrite forallb_forall in Ef. apply elem_of_list_In in Hl. specialize (Ef _ Hl). cbn in Ef.
  destruct x, l; try discriminate Ef; cbn; tauto.
Qed.
Print Assumptions C81_held.

(** No deadlock: if a goroutine is not at its end, some goroutine can go on by itself or
    waits for others outside. And if nobody can go on, whoever waits for a lock waits,
    directly or through others, for one that is held by a goroutine waiting outside. *)
Theorem C81_progress es ts i t :
  run [] es = Some (Ok ts) -> ts !! i = Some t -> th_rest t <> [] ->
  (exists j ts', step ts (EMove j) = Some (Ok ts')) \/
  (exists x, outside t x) \/
  (exists j u x l, ts !! j = Some u /\ outside u x /\ exists m, (l, m) ∈ th_held u).
Proof.
  intros Hr Hi Hne. destruct (start_inv es _ Hr) as (ts' & He & Hf & Hx). injection He as <-.
  destruct (decide (Exists (fun u => move ts u <> None) ts)) as [Hm|Hm].
  - left. apply Exists_exists in Hm as (u & Hu & Hm). apply elem_of_list_lookup in Hu as (j & Hj).
    destruct (move ts u) as [r|] eqn:Em; [|done].
    destruct (move_spec ts u r) as (u' & -> & _); [by eapply Forall_lookup_1|done|].
    exists j. cbn [step]. rewrite Hj, Em. eauto.
  - right. assert (still ts) as Hs.
    { intros j. cbn [step]. destruct (ts !! j) as [u|] eqn:Ej; [|done]. destruct (move ts u) as [r|] eqn:Em; [|done].
      exfalso. apply Hm. apply Exists_exists. exists u. split; [by eapply elem_of_list_lookup_2|]. congruence. }
    destruct (waiting ts i t Hf Hs Hi Hne) as [H|(l & j & u & m & Hw & _)]; [by left|]. right.
    destruct (blame ts i t l Hf Hs Hi Hw) as (a & b & x & l' & m' & H1 & H2 & H3 & _). eauto 10.
Qed.
Print Assumptions C81_progress.

(** If all that others have to do has been done but for mailbox clients taking their
    answers, every goroutine goes on to its end but those clients' requests and those
    that want the lock of the mailbox. *)
Theorem C81_mailbox es ts :
  run [] es = Some (Ok ts) -> still ts ->
  (forall i t x, ts !! i = Some t -> outside t x -> x = XAnswer) ->
  forall i t, ts !! i = Some t -> th_rest t = [] \/ outside t XAnswer \/ wants t LMail.
Proof.
  intros Hr Hs Hall i t Hi. destruct (start_inv es _ Hr) as (ts' & He & Hf & _). injection He as <-.
  destruct (decide (th_rest t = [])) as [|Hne]; [by left|]. right.
  destruct (waiting ts i t Hf Hs Hi Hne) as [(x & Hx)|(l & j & u & m & Hw & _)].
  - left. by rewrite <- (Hall i t x Hi Hx).
  - right. destruct (decide (l = LMail)) as [->|Hl]; [done|]. exfalso.
    destruct (blame ts i t l Hf Hs Hi Hw) as (a & b & x & l' & m' & H1 & H2 & H3 & H4 & H5 & H6).
    rewrite (Hall a b x H1 H2) in H4. destruct l'; try discriminate H4. destruct H6 as [H6|H6]; [congruence|]. cbn in H6. lia.
Qed.
Print Assumptions C81_mailbox.

(** What all goroutines have still to do. *)
Definition work (ts : list thread) : nat := list_sum (map (fun t => length (th_rest t)) ts).

Definition no_start (es : list event) : Prop := forall l, EStart l ∉ es.

Lemma work_insert ts i t t' :
  ts !! i = Some t -> length (th_rest t) = S (length (th_rest t')) -> work ts = S (work (<[i := t']> ts)).
Proof.
  revert i. induction ts as [|u ts IH]; intros [|i] Hi Hl; [done..| |].
  - injection Hi as ->. unfold work. cbn [map insert list_insert]. unfold list_sum. cbn [fold_right]. rewrite Hl. done.
  - cbn in Hi. specialize (IH i Hi Hl). unfold work, list_sum in *. change (<[S i:=t']> (u :: ts)) with (u :: <[i:=t']> ts). cbn [map fold_right]. rewrite IH. lia.
Qed.

Lemma step_work ts e ts' :
  Forall fine ts -> (forall l, e <> EStart l) -> step ts e = Some (Ok ts') -> work ts = S (work ts').
Proof.
  intros Hf Hne Hs. destruct e as [l|i|i]; [by destruct (Hne l)|..]; cbn [step] in Hs.
  - destruct (ts !! i) as [t|] eqn:Ei; [|discriminate Hs]. destruct (move ts t) as [r|] eqn:Em; [|discriminate Hs].
    destruct (move_spec ts t r) as (t' & -> & _ & Hl & _); [by eapply Forall_lookup_1|done|]. injection Hs as <-. by eapply work_insert.
  - destruct (ts !! i) as [[h [|[| | | | | | |x] k]]|] eqn:Ei; try discriminate Hs. injection Hs as <-. by eapply work_insert.
Qed.

(** If others do what is waited for, everything comes to its end: as long as no new
    goroutine is started, every order of steps can be carried on until all are done, and
    that takes as many steps as there are, whatever the order. *)
Theorem C81_finish es ts es1 ts1 :
  run [] es = Some (Ok ts) -> no_start es1 -> run ts es1 = Some (Ok ts1) ->
  exists es2 ts2, no_start es2 /\ run ts1 es2 = Some (Ok ts2) /\ Forall (fun t => th_rest t = [] /\ th_held t = []) ts2 /\
    (length es1 + length es2 = work ts)%nat.
Proof.
  intros Hr Hn Hr1. destruct (start_inv es _ Hr) as (ts' & He & Hf & Hx). injection He as <-. clear Hr.
  assert (exists es2 ts2, no_start es2 /\ run ts1 es2 = Some (Ok ts2) /\ Forall (fun t => th_rest t = [] /\ th_held t = []) ts2 /\ length es2 = work ts1) as Hend.
  { destruct (run_inv es1 ts _ Hf Hx Hr1) as (ts' & He & Hf1 & Hx1). injection He as <-. clear -Hf1 Hx1.
    remember (work ts1) as n eqn:En. revert ts1 En Hf1 Hx1. induction n as [|n IH]; intros ts1 En Hf1 Hx1.
    - exists [], ts1. split; [intros l Hl; by apply elem_of_nil in Hl|]. split; [done|]. split; [|done].
      apply Forall_forall. intros t Ht.
      assert (th_rest t = []) as Ht0.
      { apply elem_of_list_split in Ht as (a & b & ->). unfold work in En. rewrite map_app, list_sum_app in En. cbn in En.
        destruct (th_rest t); [done|cbn in En; lia]. }
      split; [done|]. rewrite Forall_forall in Hf1. specialize (Hf1 t Ht). unfold fine in Hf1. rewrite Ht0 in Hf1. cbn in Hf1. by injection Hf1.
    - assert (exists e ts', (forall l, e <> EStart l) /\ step ts1 e = Some (Ok ts')) as (e & ts' & Hne & Hs).
      { assert (exists i t, ts1 !! i = Some t /\ th_rest t <> []) as (i & t & Hi & Ht).
        { clear -En. revert n En. induction ts1 as [|u ts1 IH]; intros n En; [done|]. destruct (th_rest u) as [|x k] eqn:Eu.
          - unfold work in En. cbn in En. rewrite Eu in En. cbn in En. destruct (IH n En) as (i & t & Hi & Ht). exists (S i), t. done.
          - exists 0%nat, u. split; [done|]. by rewrite Eu. }
        destruct (decide (Exists (fun u => move ts1 u <> None) ts1)) as [Hm|Hm].
        - apply Exists_exists in Hm as (u & Hu & Hm). apply elem_of_list_lookup in Hu as (j & Hj).
          destruct (move ts1 u) as [r|] eqn:Em; [|done].
          destruct (move_spec ts1 u r) as (u' & -> & _); [by eapply Forall_lookup_1|done|].
          exists (EMove j). eexists. split; [done|]. cbn [step]. by rewrite Hj, Em.
        - assert (still ts1) as Hs.
          { intros j. cbn [step]. destruct (ts1 !! j) as [u|] eqn:Ej; [|done]. destruct (move ts1 u) as [r|] eqn:Em; [|done].
            exfalso. apply Hm. apply Exists_exists. exists u. split; [by eapply elem_of_list_lookup_2|]. congruence. }
          assert (exists j u x, ts1 !! j = Some u /\ outside u x) as (j & [h k'] & x & Hj & (k & Hk)).
          { destruct (waiting ts1 i t Hf1 Hs Hi Ht) as [(x & H)|(l & j & u & m & Hw & _)]; [eauto|].
            destruct (blame ts1 i t l Hf1 Hs Hi Hw) as (a & b & x & l' & m' & H1 & H2 & _). eauto. }
          cbn in Hk. subst k'. exists (EWorld j). eexists. split; [done|]. cbn [step]. by rewrite Hj. }
      pose proof (step_work ts1 e ts' Hf1 Hne Hs) as Hw.
      destruct (step_inv ts1 e _ Hf1 Hx1 Hs) as (ts'' & He & Hf' & Hx'). injection He as <-.
      destruct (IH ts' ltac:(lia) Hf' Hx') as (es2 & ts2 & N & R & F & L).
      exists (e :: es2), ts2. split.
      { intros l Hl. apply elem_of_cons in Hl as [Hl|Hl]; [by destruct (Hne l)|by destruct (N l)]. }
      split; [cbn [run]; by rewrite Hs|]. split; [done|]. cbn. lia. }
  destruct Hend as (es2 & ts2 & N & R & F & L). exists es2, ts2. split; [done|]. split; [done|]. split; [done|]. rewrite L.
  clear -Hn Hr1 Hf Hx. revert ts Hr1 Hf Hx. induction es1 as [|e es1 IH]; intros ts Hr1 Hf Hx; cbn [run] in Hr1.
  - by injection Hr1 as <-.
  - destruct (step ts e) as [r|] eqn:Es; [|discriminate Hr1].
    destruct (step_inv ts e r Hf Hx Es) as (ts' & -> & Hf' & Hx').
    rewrite (step_work ts e ts' Hf) by (done || (intros l ->; apply (Hn l); left)).
    cbn. f_equal. apply IH; [|done..]. intros l Hl. apply (Hn l). by right.
Qed.
Print Assumptions C81_finish.

(** * Examples *)

Definition left_over (es : list event) : option (list nat) :=
  match run [] es with Some (Ok ts) => Some (map (fun t => length (th_rest t)) ts) | _ => None end.
Definition can (es : list event) (e : event) : bool :=
  match run [] es with Some (Ok ts) => match step ts e with Some _ => true | None => false end | _ => false end.

(** A mailbox client that does not take its answer keeps every envelope that the node
    routes to the mailbox waiting, whatever else happens. *)
Theorem C81_client_refuted :
  let es := [EStart [SGet 1]; EStart [SReadTcp; SMail; SWorld XOther]; EMove 0; EMove 0; EMove 1; EMove 1] in
  left_over es = Some [2; 4]%nat /\ can es (EMove 0) = false /\ can es (EMove 1) = false /\ can es (EWorld 1) = false /\
  can es (EWorld 0) = true.
Proof. vm_compute. auto. Qed.
Print Assumptions C81_client_refuted.

(** While addresses are announced for a new peer, an agent that connects waits for the
    announcements to end, and so do lookups that come after it. *)
Theorem C81_announcing_refuted :
  let es := [EStart [SNotify true None false None (Some [TimedOut])]; EMove 0; EWorld 0] ++ replicate 3 (EMove 0) ++ replicate 7 (EMove 0) ++
            [EStart [STcp]; EMove 1; EStart [SReadTcp]] in
  can es (EMove 0) = false /\ can es (EMove 1) = false /\ can es (EMove 2) = false /\ can es (EWorld 0) = true.
Proof. vm_compute. auto. Qed.
Print Assumptions C81_announcing_refuted.

Example C81_example :
  let es := [EStart [SGet 2; SRecord]; EStart [SMail]; EStart [SEnabled; SRegister Provided]; EStart [SNotify false None false None None]] in
  left_over es = Some [8; 3; 14; 3]%nat /\
  left_over (es ++ [EMove 2; EMove 0; EMove 0; EWorld 0; EWorld 0; EMove 0; EMove 1; EMove 1; EMove 1]) = Some [3; 0; 13; 3]%nat /\
  can (es ++ [EMove 3]) (EMove 2) = false /\ can (es ++ [EMove 3; EWorld 3; EMove 3]) (EMove 2) = true.
Proof. vm_compute. auto. Qed.
