(** Which labels survive their JSON form, without a condition on the label (C20). *)
From Coq Require Import ZArith NArith List String Ascii Lia Permutation.
From stdpp Require Import base tactics gmap list strings.
From Verif Require Import GoBase Bytes Utf8 DialogueModel LabelModel LabelProofs LabelProps FormatProps JsonProps.
Open Scope string_scope.
Open Scope list_scope.
Open Scope nat_scope.

Notation q := (z2b 34).
Notation bs := (z2b 92).

(** The number of ASCII bytes. *)
Fixpoint low (l : bytes) : nat :=
  match l with [] => 0 | c :: r => (if (b2z c <? 128)%Z then 1 else 0) + low r end.
(** Every quote stands behind a backslash; [d] is the byte before. *)
Fixpoint loose (d : byte) (l : bytes) : Prop :=
  match l with [] => True | c :: r => (c = q -> d = bs) /\ loose c r end.

Lemma low_app x y : low (x ++ y) = low x + low y.
Proof. induction x; cbn; [done|]. rewrite IHx. lia. Qed.
Lemma loose_weak d e l : loose d l -> d <> bs -> loose e l.
Proof. destruct l as [|c l]; [done|]. cbn. intros [H1 H2] Hd. split; [|done]. intros E. by destruct Hd; apply H1. Qed.
Lemma loose_app d x y : loose d x -> (forall e, loose e y) -> loose d (x ++ y).
Proof. revert d. induction x as [|c x IH]; intros d; cbn; [auto|]. intros [H1 H2] Hy. split; [done|]. by apply IH. Qed.
Lemma loose_tail d x y : loose d (x ++ y) -> exists e, loose e y.
Proof. revert d. induction x as [|c x IH]; intros d; cbn; [eauto|]. intros [_ H]. by apply (IH c). Qed.
Lemma loose_free d x : ~ In q x -> loose d x.
Proof. revert d. induction x as [|c x IH]; intros d; cbn; [done|]. intros H. split; [|apply IH; tauto]. intros ->. tauto. Qed.

Open Scope Z_scope.
Lemma utf8_small c : 0 <= c < 128 -> utf8 c = [z2b c].
Proof. intros H. unfold utf8. destruct (Z.ltb_spec c 128); [done|lia]. Qed.
Lemma utf8_big c b : scalar c -> 128 <= c -> In b (utf8 c) -> 128 <= b2z b.
Proof.
  intros Hs Hc. unfold scalar in Hs. unfold utf8. destruct (Z.ltb_spec c 128); [lia|].
  repeat (match goal with |- context [if ?c then _ else _] => destruct c eqn:? end); cbn; intros Hin;
    repeat (destruct Hin as [<-|Hin]; [rewrite b2z_z2b; Z.to_euclidean_division_equations; lia|]); done.
Qed.
Lemma low_high x : (forall b, In b x -> 128 <= b2z b) -> low x = 0%nat.
Proof.
  induction x as [|c x IH]; [done|]. intros H. cbn. rewrite IH by (intros; apply H; by right).
  destruct (Z.ltb_spec (b2z c) 128); [|done]. specialize (H c (or_introl eq_refl)). lia.
Qed.
Lemma low_utf8 c : scalar c -> (low (utf8 c) <= 1)%nat.
Proof.
  intros Hs. destruct (Z.lt_ge_cases c 128) as [Hc|Hc].
  - unfold scalar in Hs. rewrite utf8_small by lia. cbn. destruct (_ <? _); lia.
  - rewrite low_high; [lia|]. intros b. by apply utf8_big.
Qed.
Lemma digit_low h x : digit h x -> b2z h < 128 /\ h <> q.
Proof. intros H. unfold digit in H. split; [lia|]. intros ->. change (b2z q) with 34 in H. lia. Qed.
Lemma code_low n x : code_form n x -> (2 <= low x)%nat /\ (forall d, loose d x) /\ In bs x.
Proof.
  intros (h1 & h2 & h3 & h4 & x1 & x2 & x3 & x4 & -> & H1 & H2 & H3 & H4 & _).
  apply digit_low in H1 as [_ H1], H2 as [_ H2], H3 as [_ H3], H4 as [_ H4]. split; [|split; [|by left]].
  - change (low [bs; z2b 117; h1; h2; h3; h4]) with (2 + low [h1; h2; h3; h4])%nat. lia.
  - intros d. cbn [loose]. repeat split; try done; intros E; try done; vm_compute in E; discriminate E.
Qed.
Lemma escape_low e c : In (e, c) escapes -> 0 <= e < 128 /\ 0 <= c < 128.
Proof. unfold escapes. cbn. intros H. repeat (destruct H as [[= <- <-]|H]; [lia|]). done. Qed.

(** What a character costs in its string. *)
Lemma char_low c x : char_form c x ->
  (forall d, loose d x) /\ (low (utf8 c) <= low x)%nat /\
  (In q (utf8 c) \/ In bs (utf8 c) -> (low (utf8 c) < low x)%nat /\ In bs x).
Proof.
  intros [c' Hs H32 Hq Hb|e c' H|c' b Hs Hc|h l b1 b2 Hh Hl H1 H2].
  - assert (~ In q (utf8 c') /\ ~ In bs (utf8 c')) as [N1 N2].
    { destruct (Z.lt_ge_cases c' 128) as [Hc|Hc].
      - rewrite utf8_small by lia. split; cbn; intros [E|[]]; apply (f_equal b2z) in E; rewrite !b2z_z2b_id in E by lia; lia.
      - unfold q, bs. split; intros Hin; apply utf8_big in Hin; try done; rewrite b2z_z2b_id in Hin by lia; lia. }
    split; [|split; [done|tauto]]. intros d. by apply loose_free.
  - apply escape_low in H as [He Hc]. rewrite utf8_small by done.
    assert (low [bs; z2b e] = 2%nat) as ->.
    { cbn [low]. rewrite !b2z_z2b_id by lia. destruct (Z.ltb_spec e 128); [done|lia]. }
    assert (low [z2b c'] <= 1)%nat by (cbn; destruct (_ <? _); lia).
    split; [|split; [lia|split; [lia|by left]]]. intros d. cbn [loose]. by repeat split.
  - destruct (code_low _ _ Hc) as (L1 & L2 & L3). pose proof (low_utf8 _ Hs). repeat split; try done; lia.
  - destruct (code_low _ _ H1) as (L1 & L2 & L3), (code_low _ _ H2) as (M1 & M2 & M3).
    assert (low (utf8 (65536 + 1024 * h + l)) = 0%nat) as E0.
    { apply low_high. intros b. apply utf8_big; unfold scalar; lia. }
    rewrite E0, low_app. split; [intros d; by apply loose_app|]. split; [lia|]. intros _. split; [lia|]. apply in_app_iff. by left.
Qed.
Lemma bad_low x : bad_form x -> forall d, loose d x.
Proof.
  intros [b Hb|n b _ Hc] d; [|by apply code_low in Hc as (_ & H & _)].
  cbn. split; [|done]. intros ->. rewrite b2z_z2b_id in Hb by lia. lia.
Qed.
Lemma chars_low cs x : chars cs x ->
  (forall d, loose d x) /\ (low (concat (map utf8 cs)) <= low x)%nat /\
  (In q (concat (map utf8 cs)) \/ In bs (concat (map utf8 cs)) -> (low (concat (map utf8 cs)) < low x)%nat /\ In bs x).
Proof.
  induction 1 as [|c x cs b Hc _ (I1 & I2 & I3)|x cs b Hb _ _ (I1 & I2 & I3)]; cbn [map concat].
  - split; [done|]. split; [done|]. by intros [H|H].
  - apply char_low in Hc as (H1 & H2 & H3). rewrite !low_app, !in_app_iff. split; [intros d; by apply loose_app|]. split; [lia|].
    intros [[H|H]|[H|H]]; [destruct H3; [tauto|]|destruct I3; [tauto|]|destruct H3; [tauto|]|destruct I3; [tauto|]]; (split; [lia|tauto]).
  - assert (utf8 65533 = [z2b 239; z2b 191; z2b 189]) as E by (by vm_compute). rewrite E, !low_app.
    assert (low [z2b 239; z2b 191; z2b 189] = 0%nat) as -> by (by vm_compute).
    split; [intros d; apply loose_app; [by apply bad_low|done]|]. split; [lia|].
    assert (forall z, z = 34 \/ z = 92 -> In (z2b z) ([z2b 239; z2b 191; z2b 189] ++ concat (map utf8 cs)) -> In (z2b z) (concat (map utf8 cs))) as K.
    { intros z Hz. cbn. intros [F|[F|[F|F]]]; [..|done]; apply (f_equal b2z) in F; rewrite !b2z_z2b_id in F by lia; lia. }
    intros Hin. destruct I3 as [I3 I4]; [destruct Hin as [Hin|Hin]; [left|right]; (apply K in Hin; [done|lia])|].
    split; [lia|]. apply in_app_iff. by right.
Qed.

(** ** Where a string with a backslash stands *)

(** What follows a value. *)
Definition followed (B : bytes) : Prop := exists w c t, white w /\ B = w ++ c :: t /\ In (b2z c) [44; 125].

Lemma stops h : forall d x B rest, x ++ q :: B = h ++ rest -> In q h -> ~ In bs h -> d <> bs -> loose d x -> ~ In bs x.
Proof.
  induction h as [|c' h IH]; [done|]. intros d [|c x] B rest E Hq Hb Hd Hx; [by intros []|].
  cbn in E. injection E as -> E. destruct Hx as [H1 H2].
  destruct Hq as [->|Hq]; [by destruct Hd; apply H1|].
  intros [->|Hin]; [apply Hb; by left|]. eapply (IH c'); try done; [intros F; apply Hb; by right|]. intros ->. apply Hb. by left.
Qed.

(** The text from the closing quote of a value on. *)
Fixpoint rest_text (ms : list (string * string)) : bytes :=
  match ms with
  | [] => [q; z2b 125]
  | kv :: ms' => (q :: z2b 44 :: q :: bytes_of kv.1 ++ [q; z2b 58; z2b 32; q]) ++ bytes_of kv.2 ++ rest_text ms'
  end.
(** The name begins with a lower case letter and has no quote or backslash. *)
Definition named (k : string) : Prop :=
  (exists c t, bytes_of k = c :: t /\ 97 <= b2z c <= 122) /\ ~ In q (bytes_of k) /\ ~ In bs (bytes_of k).

Lemma q_not z : 0 <= z < 256 -> z <> 34 -> z2b z <> q.
Proof. intros H Hz E. apply (f_equal b2z) in E. rewrite !b2z_z2b_id in E by lia. lia. Qed.
Lemma bs_not z : 0 <= z < 256 -> z <> 92 -> z2b z <> bs.
Proof. intros H Hz E. apply (f_equal b2z) in E. rewrite !b2z_z2b_id in E by lia. lia. Qed.

Lemma app_split {A} (a b c d : list A) : a ++ b = c ++ d ->
  (exists k, a = c ++ k /\ d = k ++ b) \/ (exists k, c = a ++ k /\ b = k ++ d).
Proof. intros E. destruct (app_eq_inv _ _ _ _ E) as [(k & H1 & H2)|(k & H1 & H2)]; [left|right]; exists k; split; congruence. Qed.

Lemma located ms : Forall (fun kv => named kv.1) ms -> forall v A x B,
  v ++ rest_text ms = A ++ x ++ q :: B -> (forall d, loose d x) -> In bs x -> followed B ->
  In bs v /\ (low x <= low v)%nat \/ exists kv, In kv ms /\ In bs (bytes_of kv.2) /\ (low x <= low (bytes_of kv.2))%nat.
Proof.
  induction ms as [|[key v2] ms IH]; intros Hn v A x B E Hx Hb Hf.
  - apply app_split in E as [(k & -> & E)|(k & -> & E)].
    + symmetry in E. symmetry in E. apply app_split in E as [(k' & -> & E)|(k' & -> & E)].
      * destruct k' as [|c k']; [rewrite app_nil_r in Hb |- *; left; rewrite low_app; split; [apply in_app_iff; by right|lia]|].
        cbn in E. injection E as <- E. destruct k' as [|c k']; cbn in E; [discriminate E|].
        injection E as _ E. by destruct k'.
      * left. rewrite !low_app, !in_app_iff. split; [tauto|lia].
    + exfalso. assert (In bs [q; z2b 125]) as F by (cbn [rest_text] in E; rewrite E, !in_app_iff; tauto).
      destruct F as [F|[F|[]]]; apply bs_not in F; lia.
  - apply Forall_cons in Hn as [Hk Hn']. cbn [fst] in Hk. destruct Hk as [(c0 & t0 & Ek & Hc0) [Hkq Hkb]].
    specialize (IH Hn').
    assert (forall A', bytes_of v2 ++ rest_text ms = A' ++ x ++ q :: B ->
      In bs v /\ (low x <= low v)%nat \/ exists kv, In kv ((key, v2) :: ms) /\ In bs (bytes_of kv.2) /\ (low x <= low (bytes_of kv.2))%nat) as K.
    { intros A' E'. right. destruct (IH _ _ _ _ E' Hx Hb Hf) as [[H1 H2]|(kv & H1 & H2 & H3)].
      - exists (key, v2). split; [by left|]. done.
      - exists kv. split; [by right|]. done. }
    apply app_split in E as [(k & -> & E)|(k & -> & E)].
    + apply app_split in E as [(k' & -> & E)|(k' & -> & E)].
      * destruct k' as [|c k']; [rewrite app_nil_r in Hb |- *; left; rewrite low_app; split; [apply in_app_iff; by right|lia]|].
        exfalso. cbn [rest_text fst snd app] in E. injection E as <- E.
        destruct k' as [|c k']; cbn in E; [discriminate E|]. injection E as <- E.
        destruct k' as [|c k']; cbn [app] in E.
        -- injection E as E. destruct Hf as (w & c & t & Hw & -> & Hc). rewrite Ek in E. cbn [app] in E.
           destruct w as [|w0 w]; cbn in E; injection E as -> _.
           ++ cbn in Hc. lia.
           ++ inversion Hw as [|? ? Hw0 _]; subst. cbn in Hw0. lia.
        -- injection E as <- _. destruct (loose_tail _ _ _ (Hx bs)) as [e He]. cbn [loose] in He.
           destruct He as (_ & _ & He & _). specialize (He eq_refl). apply bs_not in He; lia.
      * left. rewrite !low_app, !in_app_iff. split; [tauto|lia].
    + cbn [rest_text fst snd] in E.
      apply app_split in E as [(k' & E1 & E)|(k' & -> & E)]; [|by apply (K k')].
      destruct k' as [|c k']; [apply (K []); by rewrite E|]. exfalso.
      refine (stops (c :: k') (z2b 0) x B _ E _ _ _ (Hx _) Hb); [| |intros F; apply bs_not in F; lia].
      * change (q :: z2b 44 :: q :: bytes_of key ++ [q; z2b 58; z2b 32; q])
          with ([q; z2b 44; q] ++ bytes_of key ++ [q; z2b 58; z2b 32] ++ [q]) in E1.
        rewrite !app_assoc in E1. apply app_split in E1 as [(j & E1 & E3)|(j & E1 & E3)].
        -- rewrite E3. apply in_app_iff. right. by left.
        -- destruct j as [|j0 j]; cbn in E3; injection E3 as E3 E4; [rewrite <- E3; by left|]. by destruct j.
      * intros F. assert (In bs (k ++ c :: k')) as G by (apply in_app_iff; by right). rewrite <- E1 in G.
        cbn in G. rewrite in_app_iff in G. cbn in G.
        repeat (destruct G as [G|G]; [first [apply bs_not in G; lia|done]|]). done.
Qed.

(** ** Values in a text *)

Lemma members_in kvs b : members_form kvs b -> forall kv tail, In kv kvs -> In (b2z (hd q tail)) [44; 125] -> tail <> [] ->
  bytes_of kv.2 <> [] -> exists A x cs B, b ++ tail = A ++ q :: x ++ q :: B /\ chars cs x /\ bytes_of kv.2 = concat (map utf8 cs) /\ followed B.
Proof.
  assert (forall kv b tail, member_form kv b -> In (b2z (hd q tail)) [44; 125] -> tail <> [] -> bytes_of kv.2 <> [] ->
    exists A x cs B, b ++ tail = A ++ q :: x ++ q :: B /\ chars cs x /\ bytes_of kv.2 = concat (map utf8 cs) /\ followed B) as K.
  { intros [k0 v0] b0 tail (w1 & k & w2 & w3 & v & w4 & _ & _ & _ & Hw & _ & Hv & ->) Ht Hne Hnv. cbn [snd] in *.
    destruct Hv as [(cs & x & Hc & -> & ->)|[-> _] ]; [|done].
    destruct tail as [|c t]; [done|]. exists (w1 ++ k ++ w2 ++ z2b 58 :: w3), x, cs, (w4 ++ c :: t).
    split; [|split; [done|split; [by rewrite string_bytes|by exists w4, c, t]]].
    rewrite <- !app_assoc. cbn. rewrite <- !app_assoc. cbn. rewrite <- !app_assoc. done. }
  induction 1 as [kv b H|kv b kvs bs' H _ IH]; intros kv' tail Hin Ht Hne Hnv.
  - destruct Hin as [->|[]]. by apply (K kv').
  - destruct Hin as [->|Hin].
    + rewrite <- app_assoc. apply (K kv'); [done|vm_compute; tauto|done|done].
    + destruct (IH kv' tail Hin Ht Hne Hnv) as (A & x & cs & B & E & R). exists (b ++ z2b 44 :: A), x, cs, B.
      split; [|done]. rewrite <- !app_assoc. cbn. by rewrite E.
Qed.

Lemma object_in kvs T kv : object_form kvs T -> In kv kvs -> bytes_of kv.2 <> [] ->
  exists A x cs B, T = A ++ q :: x ++ q :: B /\ chars cs x /\ bytes_of kv.2 = concat (map utf8 cs) /\ followed B.
Proof.
  intros [w1 w2 _ _|w1 w2 w3 _ _ _|w1 kvs' b w2 _ _ H] Hin Hne; [done|done|].
  destruct (members_in _ _ H kv (z2b 125 :: w2) Hin) as (A & x & cs & B & E & R); [vm_compute; tauto|done|done|].
  exists (w1 ++ z2b 123 :: A), x, cs, B. split; [|done]. rewrite <- app_assoc. cbn. by rewrite <- E.
Qed.

Lemma value_in kvs k : value_of kvs k <> "" -> exists k', In (k', value_of kvs k) kvs.
Proof.
  unfold value_of. destruct (last _) as [v|] eqn:E; [|done]. intros _. cbn.
  apply last_Some_elem_of in E. apply elem_of_list_omap in E as ([k' v'] & Hin & E). cbn in E.
  destruct (String.eqb k' k); [|done]. injection E as ->. exists k'. by apply elem_of_list_In.
Qed.

(** ** The labels that survive *)

(** A quote or a backslash. *)
Definition special (s : string) : Prop := In q (bytes_of s) \/ In bs (bytes_of s).

Lemma marshal_rest m1 m2 m3 m4 :
  exists T, marshal_members [m1; m2; m3; m4] = z2b 123 :: T /\ rest_text [m1; m2; m3; m4] = q :: z2b 44 :: T.
Proof.
  eexists. split; [exact (marshal_shape [m1; m2; m3] m4)|].
  cbn [map concat rest_text]. rewrite !member_text_body. unfold member_body.
  change quote with q. change comma with (z2b 44). change colon with (z2b 58). change blank with (z2b 32). change closing with (z2b 125).
  repeat (rewrite <- !app_assoc; cbn [app]). done.
Qed.

(** A part that has to be quoted comes from a larger one. *)
Lemma larger m1 m2 m3 m4 l p :
  Forall (fun kv => named kv.1) [m1; m2; m3; m4] ->
  unmarshal_label (marshal_members [m1; m2; m3; m4]) = Ok l -> In p (label_parts l) -> special p ->
  exists kv, In kv [m1; m2; m3; m4] /\ special kv.2 /\ (low (bytes_of p) < low (bytes_of kv.2))%nat.
Proof.
  intros Hn H Hp Hs. apply C91_read in H as (kvs & Ho & ->).
  destruct (marshal_rest m1 m2 m3 m4) as (T & ET & ER). rewrite ET in Ho.
  assert (p <> "") as Hne by (intros ->; by destruct Hs).
  assert (exists k, In (k, p) kvs) as [k Hk].
  { cbn in Hp. destruct Hp as [<-|[<-|[<-|[<-|[]]]]]; by apply value_in. }
  destruct (object_in _ _ (k, p) Ho Hk) as (A & x & cs & B & E & Hc & Ev & Hf).
  { cbn [snd]. intros E. apply Hne. by destruct p. }
  cbn [snd] in Ev. apply chars_low in Hc as (Hl & _ & Hlt). unfold special in Hs. rewrite Ev in Hs. destruct (Hlt Hs) as [L1 L2].
  destruct A as [|a A]; cbn in E; [injection E as E; discriminate E|]. injection E as _ E.
  destruct (located _ Hn [] (q :: z2b 44 :: A ++ [q]) x B) as [[[] _]|(kv & H1 & H2 & H3)]; try done.
  - cbn [app]. rewrite ER, E. rewrite <- app_assoc. done.
  - exists kv. split; [done|]. split; [by right|]. rewrite Ev. lia.
Qed.

Lemma Forall_named l members : Permutation members (label_members l) -> Forall (fun kv => named kv.1) members.
Proof.
  intros ->. unfold label_members.
  repeat (constructor; [split; [eexists _, _; split; [reflexivity|vm_compute; split; discriminate]|split; vm_compute; intuition congruence]|]).
  constructor.
Qed.

(** For every label and every order of its members: the JSON form is read as the same label exactly if every part is valid text
    without quotes, backslashes and control characters. *)
Theorem C20_exact l members :
  Permutation members
    [("dialogue_starter_reference", starter_ref (lb_ref l));
     ("dialogue_responder_reference", responder_ref (lb_ref l));
     ("dialogue_opponent_addr", lb_opponent l);
     ("dialogue_starter_addr", lb_starter l)] ->
  unmarshal_label (marshal_members members) = Ok l <->
  forall p, In p (label_parts l) -> json_plain p /\ no_quoting p.
Proof.
  intros Hp. split.
  - intros H.
    assert (forall p, In p (label_parts l) -> no_quoting p) as Hq.
    { assert (forall p, In p (label_parts l) -> ~ special p) as K.
      { pose proof (Forall_named l members Hp) as Hn.
        assert (forall kv, In kv members -> In kv.2 (label_parts l)) as Hin.
        { intros kv Hkv. apply (Permutation_in _ Hp) in Hkv. cbn in Hkv. cbn.
          destruct Hkv as [<-|[<-|[<-|[<-|[]]]]]; cbn; tauto. }
        pose proof (Permutation_length Hp) as Hlen.
        destruct members as [|m1 [|m2 [|m3 [|m4 [|m5 ms]]]]]; try discriminate Hlen. clear Hlen.
        set (top := list_max (map (fun s => low (bytes_of s)) (label_parts l))).
        assert (forall p, In p (label_parts l) -> (low (bytes_of p) <= top)%nat) as Htop.
        { intros p Hin'. pose proof (proj1 (list_max_le (map (fun s => low (bytes_of s)) (label_parts l)) top) (le_n _)) as F.
          rewrite List.Forall_forall in F. apply F. apply (in_map (fun s => low (bytes_of s)) _ _ Hin'). }
        intros p Hin' Hs.
        assert (forall n, exists p, In p (label_parts l) /\ special p /\ (n <= low (bytes_of p))%nat) as Up.
        { induction n as [|n (p' & H1 & H2 & H3)]; [exists p; split; [done|]; split; [done|lia]|].
          destruct (larger m1 m2 m3 m4 l p' Hn H H1 H2) as (kv & G1 & G2 & G3). exists kv.2. split; [by apply Hin|]. split; [done|lia]. }
        destruct (Up (S top)) as (p' & H1 & _ & H3). specialize (Htop p' H1). lia. }
      intros p Hin. specialize (K p Hin). unfold no_quoting, contains. split; intros F; apply K; [left|right]; exact F. }
    intros p Hin. split; [|by apply Hq]. by apply (proj1 (C20_json_form l members Hp Hq) H).
  - intros H. apply (C20_json_form l members Hp); intros p Hin; by apply H.
Qed.
Print Assumptions C20_exact.

(** A backslash in a reference is taken for an escape, so the label read is another one; a label without such bytes survives. *)
Example C20_exact_example :
  unmarshal_label (marshal_members (label_members (DLabel (DRef "a\n" "b") "c" "d"))) = Ok (DLabel (DRef (string_of [z2b 97; z2b 10]) "b") "c" "d") /\
  unmarshal_label (marshal_members (label_members (DLabel (DRef "a\\" "b") "c" "d"))) = Ok (DLabel (DRef "a\" "b") "c" "d") /\
  is_err (unmarshal_label (marshal_members (label_members (DLabel (DRef "a\" "b") "c" "d")))) = true /\
  unmarshal_label (marshal_members (label_members (DLabel (DRef "a/" "b") "c" "d"))) = Ok (DLabel (DRef "a/" "b") "c" "d") /\
  (forall p, In p (label_parts (DLabel (DRef "a/" "b") "c" "d")) -> json_plain p /\ no_quoting p).
Proof.
  do 4 (split; [vm_compute; reflexivity|]).
  apply (C20_exact _ (label_members (DLabel (DRef "a/" "b") "c" "d"))); [done|]. vm_compute. reflexivity.
Qed.
