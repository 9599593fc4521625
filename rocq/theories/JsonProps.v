(** Which JSON texts are read as a dialogue label, and as which (C91).
    The grammar is written down here without the scanner of LabelModel.v. *)
From Coq Require Import ZArith NArith List String Ascii Lia.
From stdpp Require Import base tactics gmap list strings.
From Verif Require Import GoBase Bytes Utf8 DialogueModel LabelModel FormatProps.
Open Scope string_scope.
Open Scope list_scope.
Open Scope Z_scope.

(** * The grammar (RFC 8259) *)

(** White space: blanks, tabs, ends of lines. *)
Definition white (b : bytes) : Prop := Forall (fun c => In (b2z c) [32; 9; 13; 10]) b.

(** The value of a hexadecimal digit, and of four. *)
Definition digit (b : byte) (x : Z) : Prop :=
  48 <= b2z b <= 57 /\ x = b2z b - 48 \/ 65 <= b2z b <= 70 /\ x = b2z b - 55 \/ 97 <= b2z b <= 102 /\ x = b2z b - 87.
(** A backslash, a u and four digits. *)
Definition code_form (n : Z) (b : bytes) : Prop :=
  exists h1 h2 h3 h4 x1 x2 x3 x4, b = [z2b 92; z2b 117; h1; h2; h3; h4] /\
    digit h1 x1 /\ digit h2 x2 /\ digit h3 x3 /\ digit h4 x4 /\ n = 4096 * x1 + 256 * x2 + 16 * x3 + x4.

(** The letters behind a backslash and the characters they stand for. *)
Definition escapes : list (Z * Z) := [(34, 34); (92, 92); (47, 47); (98, 8); (102, 12); (110, 10); (114, 13); (116, 9)].

(** A character in a string: as it is unless it is a control character, a quote or a backslash; escaped; by its number; by two
    numbers if it has more than sixteen bits. *)
Inductive char_form : Z -> bytes -> Prop :=
| char_plain c : scalar c -> 32 <= c -> c <> 34 -> c <> 92 -> char_form c (utf8 c)
| char_escape e c : In (e, c) escapes -> char_form c [z2b 92; z2b e]
| char_code c b : scalar c -> code_form c b -> char_form c b
| char_pair h l b1 b2 : 0 <= h < 1024 -> 0 <= l < 1024 -> code_form (55296 + h) b1 -> code_form (56320 + l) b2 ->
    char_form (65536 + 1024 * h + l) (b1 ++ b2).

(** What is not a character but accepted, as U+FFFD: a byte that is not ASCII, half of a pair. *)
Inductive bad_form : bytes -> Prop :=
| bad_byte b : 128 <= b2z b -> bad_form [b]
| bad_half n b : 55296 <= n < 57344 -> code_form n b -> bad_form b.
(** A sequence of characters; what is not a character only where no character begins. *)
Inductive chars : list Z -> bytes -> Prop :=
| chars_nil : chars [] []
| chars_char c x cs b : char_form c x -> chars cs b -> chars (c :: cs) (x ++ b)
| chars_bad x cs b : bad_form x -> (forall c y z, char_form c y -> x ++ b <> y ++ z) -> chars cs b -> chars (65533 :: cs) (x ++ b).

(** A string with its text. *)
Definition string_form (s : string) (b : bytes) : Prop :=
  exists cs x, chars cs x /\ b = z2b 34 :: x ++ [z2b 34] /\ s = string_of (concat (map utf8 cs)).
(** A value: a string, or null for the empty one. *)
Definition value_form (s : string) (b : bytes) : Prop := string_form s b \/ s = "" /\ b = bytes_of "null".
Definition member_form (kv : string * string) (b : bytes) : Prop :=
  exists w1 k w2 w3 v w4, white w1 /\ white w2 /\ white w3 /\ white w4 /\ string_form kv.1 k /\ value_form kv.2 v /\
    b = w1 ++ k ++ w2 ++ z2b 58 :: w3 ++ v ++ w4.
(** The members, with commas between them. *)
Inductive members_form : list (string * string) -> bytes -> Prop :=
| members_one kv b : member_form kv b -> members_form [kv] b
| members_more kv b kvs bs : member_form kv b -> members_form kvs bs -> members_form (kv :: kvs) (b ++ z2b 44 :: bs).
(** The text: null, or an object. *)
Inductive object_form : list (string * string) -> bytes -> Prop :=
| object_null w1 w2 : white w1 -> white w2 -> object_form [] (w1 ++ bytes_of "null" ++ w2)
| object_empty w1 w2 w3 : white w1 -> white w2 -> white w3 -> object_form [] (w1 ++ z2b 123 :: w2 ++ z2b 125 :: w3)
| object_members w1 kvs b w2 : white w1 -> white w2 -> members_form kvs b -> object_form kvs (w1 ++ z2b 123 :: b ++ z2b 125 :: w2).

(** The last value given for a name, the empty text if there is none. *)
Definition value_of (kvs : list (string * string)) (k : string) : string :=
  default "" (last (omap (fun kv => if String.eqb kv.1 k then Some kv.2 else None) kvs)).
Definition label_of (kvs : list (string * string)) : dlabel :=
  DLabel (DRef (value_of kvs "dialogue_starter_reference") (value_of kvs "dialogue_responder_reference"))
         (value_of kvs "dialogue_opponent_addr") (value_of kvs "dialogue_starter_addr").

(** * White space *)

Lemma is_space_iff c : is_space c = true <-> In (b2z c) [32; 9; 13; 10].
Proof. unfold is_space. rewrite !orb_true_iff, !Z.eqb_eq. cbn [In]. intuition lia. Qed.

Lemma skip_white w l : white w -> skip_space (w ++ l) = skip_space l.
Proof. induction 1 as [|c w Hc Hw IH]; [done|]. cbn [app skip_space]. rewrite (proj2 (is_space_iff c) Hc). exact IH. Qed.

Lemma white_nil : white [].
Proof. constructor. Qed.

Lemma skip_split l : exists w, white w /\ l = w ++ skip_space l.
Proof.
  induction l as [|c l IH]; [exists []; by split; [apply white_nil|]|]. cbn [skip_space]. destruct (is_space c) eqn:E.
  - destruct IH as (w & Hw & E'). exists (c :: w). split; [by constructor; [apply is_space_iff|]|]. cbn [app]. by f_equal.
  - exists []. by split; [apply white_nil|].
Qed.

Definition solid (l : bytes) : Prop := match l with c :: _ => ~ In (b2z c) [32; 9; 13; 10] | [] => True end.
Lemma skip_solid l : solid l -> skip_space l = l.
Proof.
  destruct l as [|c l]; [done|]. cbn [solid skip_space]. intros H. destruct (is_space c) eqn:E; [|done].
  by apply is_space_iff in E.
Qed.

Lemma b2z_eq_z2b c z : 0 <= z < 256 -> b2z c = z <-> c = z2b z.
Proof. intros Hz. split; [intros <-; by rewrite z2b_b2z|intros ->; by apply b2z_z2b_id]. Qed.

Lemma expect_iff z l r : 0 <= z < 256 -> expect z l = Some r <-> l = z2b z :: r.
Proof.
  intros Hz. destruct l as [|c l]; cbn [expect]; [done|]. destruct (Z.eqb_spec (b2z c) z) as [E|E].
  - apply b2z_eq_z2b in E as ->; [|done]. split; [by intros [= ->]|by intros [= ->]].
  - split; [done|]. intros [= -> ->]. by rewrite b2z_z2b_id in E.
Qed.

(** * The units of a string *)

Inductive unit_form : unit_ -> bytes -> Prop :=
| unit_plain c : 32 <= b2z c -> b2z c <> 34 -> b2z c <> 92 -> unit_form (Raw c) [c]
| unit_escape e c : In (e, c) escapes -> unit_form (Raw (z2b c)) [z2b 92; z2b e]
| unit_code n b : code_form n b -> unit_form (Uni n) b.

Lemma hex_digit_iff b x : hex_digit b = Some x <-> digit b x.
Proof.
  unfold hex_digit, digit. destruct (Z.leb_spec 48 (b2z b)), (Z.leb_spec (b2z b) 57); cbn [andb];
  destruct (Z.leb_spec 97 (b2z b)), (Z.leb_spec (b2z b) 102); cbn [andb];
  destruct (Z.leb_spec 65 (b2z b)), (Z.leb_spec (b2z b) 70); cbn [andb];
  (split; [intros [= <-]; lia|intros; try (f_equal; lia); exfalso; lia]).
Qed.

Lemma hex4_iff h1 h2 h3 h4 n : hex4 h1 h2 h3 h4 = Some n <-> code_form n [z2b 92; z2b 117; h1; h2; h3; h4].
Proof.
  unfold hex4, code_form. split.
  - destruct (hex_digit h1) as [x1|] eqn:E1; [|done]. destruct (hex_digit h2) as [x2|] eqn:E2; [|done].
    destruct (hex_digit h3) as [x3|] eqn:E3; [|done]. destruct (hex_digit h4) as [x4|] eqn:E4; [|done].
    rewrite hex_digit_iff in E1, E2, E3, E4. intros [= <-]. exists h1, h2, h3, h4, x1, x2, x3, x4. repeat split; try done. lia.
  - intros (? & ? & ? & ? & x1 & x2 & x3 & x4 & E & H1 & H2 & H3 & H4 & ->). injection E as <- <- <- <-.
    apply hex_digit_iff in H1 as ->, H2 as ->, H3 as ->, H4 as ->. f_equal. lia.
Qed.

Lemma simple_escape_iff e c : simple_escape (z2b e) = Some c /\ 0 <= e < 256 <-> exists x, In (e, x) escapes /\ c = z2b x.
Proof.
  split.
  - intros [H He]. unfold simple_escape in H. rewrite b2z_z2b_id in H by done.
    destruct (Z.eqb_spec e 34) as [->|]; [injection H as <-; eexists; split; [by left|done]|].
    destruct (Z.eqb_spec e 92) as [->|]; [injection H as <-; eexists; split; [by right; left|done]|].
    destruct (Z.eqb_spec e 47) as [->|]; [injection H as <-; eexists; split; [by do 2 right; left|done]|]. cbn [orb] in H.
    destruct (Z.eqb_spec e 98) as [->|]; [injection H as <-; eexists; split; [by do 3 right; left|done]|].
    destruct (Z.eqb_spec e 102) as [->|]; [injection H as <-; eexists; split; [by do 4 right; left|done]|].
    destruct (Z.eqb_spec e 110) as [->|]; [injection H as <-; eexists; split; [by do 5 right; left|done]|].
    destruct (Z.eqb_spec e 114) as [->|]; [injection H as <-; eexists; split; [by do 6 right; left|done]|].
    destruct (Z.eqb_spec e 116) as [->|]; [injection H as <-; eexists; split; [by do 7 right; left|done]|done].
  - intros (x & Hin & ->). unfold escapes in Hin. cbn [In] in Hin.
    repeat (destruct Hin as [Hin|Hin]; [injection Hin as <- <-; split; [by vm_compute|lia]|]). done.
Qed.

Lemma scan_string_sound n l us rest :
  (length l <= n)%nat -> scan_string l = Some (us, rest) -> exists bs, Forall2 unit_form us bs /\ l = concat bs ++ z2b 34 :: rest.
Proof.
  revert l us. induction n as [|n IH]; intros l us Hn.
  { destruct l; [done|cbn in Hn; lia]. }
  destruct l as [|c r]; [done|]. cbn [length] in Hn. cbn [scan_string]. destruct (Ascii.eqb_spec c quote) as [->|Hq].
  { intros [= <- <-]. by exists []. }
  destruct (Ascii.eqb_spec c backslash) as [->|Hb].
  - destruct r as [|e r1]; [done|]. destruct (Z.eqb_spec (b2z e) 117) as [He|He].
    + destruct r1 as [|h1 [|h2 [|h3 [|h4 r2]]]]; try done.
      destruct (hex4 h1 h2 h3 h4) as [m|] eqn:Eh; [|done]. destruct (scan_string r2) as [[us' rest']|] eqn:Es; [|done].
      intros [= <- <-]. cbn [length] in Hn. apply IH in Es as (bs & Hf & ->); [|lia].
      apply b2z_eq_z2b in He as ->; [|lia]. apply hex4_iff in Eh.
      exists ([z2b 92; z2b 117; h1; h2; h3; h4] :: bs). split; [by constructor; [constructor|]|done].
    + destruct (simple_escape e) as [b|] eqn:Ee; [|done]. destruct (scan_string r1) as [[us' rest']|] eqn:Es; [|done].
      intros [= <- <-]. cbn [length] in Hn. apply IH in Es as (bs & Hf & ->); [|lia].
      rewrite <- (z2b_b2z e) in *. pose proof (b2z_range e). 
      destruct (proj1 (simple_escape_iff (b2z e) b)) as (x & Hx & ->); [done|].
      exists ([z2b 92; z2b (b2z e)] :: bs). split; [by constructor; [by apply unit_escape|]|done].
  - destruct (Z.ltb_spec (b2z c) 32); [done|]. destruct (scan_string r) as [[us' rest']|] eqn:Es; [|done].
    intros [= <- <-]. apply IH in Es as (bs & Hf & ->); [|lia].
    exists ([c] :: bs). split; [constructor; [|done]|done]. apply unit_plain; [done| |].
    + intros E. apply b2z_eq_z2b in E; [|lia]. by rewrite E in Hq.
    + intros E. apply b2z_eq_z2b in E; [|lia]. by rewrite E in Hb.
Qed.

Lemma scan_string_complete us bs rest : Forall2 unit_form us bs -> scan_string (concat bs ++ z2b 34 :: rest) = Some (us, rest).
Proof.
  induction 1 as [|u b us bs Hu Hf IH]; [done|]. cbn [concat]. rewrite <- app_assoc. inversion Hu as [c H1 H2 H3|e c Hin|m b' Hc]; subst.
  - cbn [app scan_string]. destruct (Ascii.eqb_spec c quote) as [->|]; [done|]. destruct (Ascii.eqb_spec c backslash) as [->|]; [done|].
    destruct (Z.ltb_spec (b2z c) 32); [lia|]. by rewrite IH.
  - cbn [app scan_string]. change (Ascii.eqb (z2b 92) quote) with false. change (Ascii.eqb (z2b 92) backslash) with true. cbv iota.
    destruct (proj2 (simple_escape_iff e (z2b c))) as [Es He]; [by exists c|].
    destruct (Z.eqb_spec (b2z (z2b e)) 117) as [E|E].
    + rewrite b2z_z2b_id in E by done. subst e. unfold escapes in Hin. cbn [In] in Hin. exfalso. intuition congruence.
    + by rewrite Es, IH.
  - pose proof Hc as (h1 & h2 & h3 & h4 & x1 & x2 & x3 & x4 & -> & _). cbn [app scan_string].
    change (Ascii.eqb (z2b 92) quote) with false. change (Ascii.eqb (z2b 92) backslash) with true. cbv iota.
    change (b2z (z2b 117) =? 117) with true. cbv iota. apply hex4_iff in Hc as ->. by rewrite IH.
Qed.

(** * Characters *)

Lemma encode_rune_utf8 n : encode_rune n = utf8 n.
Proof. unfold encode_rune, utf8. destruct (n <? 128), (n <? 2048), (n <? 65536); done. Qed.

Lemma code_range n b : code_form n b -> 0 <= n < 65536.
Proof. intros (h1 & h2 & h3 & h4 & x1 & x2 & x3 & x4 & _ & H1 & H2 & H3 & H4 & ->). unfold digit in *. lia. Qed.

Lemma surrogate_iff n : (high_surrogate n = true <-> 55296 <= n < 56320) /\ (low_surrogate n = true <-> 56320 <= n < 57344).
Proof. unfold high_surrogate, low_surrogate. rewrite !andb_true_iff, !Z.leb_le. lia. Qed.

Lemma raw_units bs :
  Forall (fun b => 32 <= b2z b /\ b2z b <> 34 /\ b2z b <> 92) bs -> Forall2 unit_form (map Raw bs) (map (fun b => [b]) bs).
Proof. induction 1 as [|b bs (H1 & H2 & H3) _ IH]; cbn [map]; constructor; [by apply unit_plain|done]. Qed.

Lemma concat_singles (bs : bytes) : concat (map (fun b => [b]) bs) = bs.
Proof. induction bs as [|b bs IH]; [done|]. cbn [map concat app]. by rewrite IH. Qed.

Lemma unquote_plain c us :
  scalar c -> 32 <= c -> c <> 34 -> c <> 92 ->
  unquote (map Raw (utf8 c) ++ us) = utf8 c ++ unquote us /\ Forall (fun b => 32 <= b2z b /\ b2z b <> 34 /\ b2z b <> 92) (utf8 c).
Proof.
  intros Hc H32 H34 H92. unfold utf8, scalar in *.
  assert (forall x, 0 <= x < 256 -> b2z (z2b x) = x) as Hb by (intros; by apply b2z_z2b_id).
  pose proof (Z.div_mod c 64 ltac:(lia)) as E0. pose proof (Z.mod_pos_bound c 64 ltac:(lia)) as B0.
  pose proof (Z.div_mod (c / 64) 64 ltac:(lia)) as E1. pose proof (Z.mod_pos_bound (c / 64) 64 ltac:(lia)) as B1.
  pose proof (Z.div_mod (c / 4096) 64 ltac:(lia)) as E2. pose proof (Z.mod_pos_bound (c / 4096) 64 ltac:(lia)) as B2.
  assert (c / 64 / 64 = c / 4096) as D1 by (by rewrite Z.div_div by lia).
  assert (c / 4096 / 64 = c / 262144) as D2 by (by rewrite Z.div_div by lia). rewrite D1 in E1. rewrite D2 in E2. clear D1 D2.
  destruct (Z.ltb_spec c 128); [|destruct (Z.ltb_spec c 2048); [|destruct (Z.ltb_spec c 65536)]]; cbn [map app unquote].
  - split; [by rewrite (proj2 (rune1_iff _)) by (rewrite Hb; lia)|]. constructor; [rewrite Hb by lia; lia|constructor].
  - split; [|repeat constructor; rewrite ?Hb by lia; lia].
    rewrite (not_true (rune1 _)) by (rewrite rune1_iff, Hb by lia; lia).
    by rewrite (proj2 (rune2_iff _ _)) by (rewrite !Hb; lia).
  - split; [|repeat constructor; rewrite ?Hb by lia; lia].
    rewrite (not_true (rune1 _)) by (rewrite rune1_iff, Hb by lia; lia).
    rewrite (not_true (rune2 _ _)) by (rewrite rune2_iff, !Hb by lia; lia).
    by rewrite (proj2 (rune3_iff _ _ _)) by (rewrite !Hb by lia; lia).
  - split; [|repeat constructor; rewrite ?Hb by lia; lia].
    rewrite (not_true (rune1 _)) by (rewrite rune1_iff, Hb by lia; lia).
    rewrite (not_true (rune2 _ _)) by (rewrite rune2_iff, !Hb by lia; lia).
    rewrite (not_true (rune3 _ _ _)) by (rewrite rune3_iff, !Hb by lia; lia).
    by rewrite (proj2 (rune4_iff _ _ _ _)) by (rewrite !Hb by lia; lia).
Qed.

Lemma escapes_ascii e c : In (e, c) escapes -> 0 <= c < 128.
Proof. unfold escapes. cbn [In]. intros H. repeat (destruct H as [H|H]; [injection H as <- <-; lia|]). done. Qed.

Lemma char_units c b :
  char_form c b -> exists us bs, Forall2 unit_form us bs /\ concat bs = b /\ forall us', unquote (us ++ us') = utf8 c ++ unquote us'.
Proof.
  destruct 1 as [c Hc H32 H34 H92|e c Hin|c b Hc Hf|h l b1 b2 Hh Hl H1 H2].
  - exists (map Raw (utf8 c)), (map (fun b => [b]) (utf8 c)). split; [|split].
    + apply raw_units. by apply (unquote_plain c []).
    + apply concat_singles.
    + intros us'. by apply unquote_plain.
  - exists [Raw (z2b c)], [[z2b 92; z2b e]]. split; [by constructor; [apply unit_escape|constructor]|]. split; [done|].
    intros us'. pose proof (escapes_ascii e c Hin) as Hc. cbn [app unquote].
    rewrite (proj2 (rune1_iff _)) by (rewrite b2z_z2b_id; lia). unfold utf8. destruct (Z.ltb_spec c 128); [done|lia].
  - exists [Uni c], [b]. split; [by constructor; [apply unit_code|constructor]|]. split; [by cbn; rewrite app_nil_r|].
    intros us'. pose proof (surrogate_iff c) as [S1 S2]. unfold scalar in Hc. cbn [app unquote].
    rewrite (not_true (high_surrogate c)) by (rewrite S1; lia). rewrite (not_true (low_surrogate c)) by (rewrite S2; lia).
    by rewrite encode_rune_utf8.
  - exists [Uni (55296 + h); Uni (56320 + l)], [b1; b2]. split; [by repeat (constructor; [by apply unit_code|])|].
    split; [by cbn; rewrite app_nil_r|]. intros us'.
    pose proof (surrogate_iff (55296 + h)) as [S1 _]. pose proof (surrogate_iff (56320 + l)) as [_ S2]. cbn [app unquote].
    rewrite (proj2 S1) by lia. rewrite (proj2 S2) by lia. rewrite encode_rune_utf8. do 2 f_equal. lia.
Qed.

Lemma digit_det b x y : digit b x -> digit b y -> x = y.
Proof. unfold digit. lia. Qed.

Lemma code_det n m b p q x : code_form n b -> code_form m x -> b ++ p = x ++ q -> n = m /\ b = x.
Proof.
  intros (h1 & h2 & h3 & h4 & x1 & x2 & x3 & x4 & -> & H1 & H2 & H3 & H4 & ->)
    (g1 & g2 & g3 & g4 & y1 & y2 & y3 & y4 & -> & G1 & G2 & G3 & G4 & ->) E. cbn [app] in E. injection E as -> -> -> -> _.
  rewrite (digit_det _ _ _ H1 G1), (digit_det _ _ _ H2 G2), (digit_det _ _ _ H3 G3), (digit_det _ _ _ H4 G4). done.
Qed.

Lemma escape_not_code e c : In (e, c) escapes -> z2b e <> z2b 117.
Proof. unfold escapes. cbn [In]. intros H. repeat (destruct H as [H|H]; [injection H as <- <-; by vm_compute|]). done. Qed.
Lemma escape_det e e' c c' : In (e, c) escapes -> In (e', c') escapes -> z2b e = z2b e' -> c = c' /\ e = e'.
Proof.
  intros H H' E. assert (forall e c, In (e, c) escapes -> 0 <= e < 256) as Hr.
  { clear. unfold escapes. cbn [In]. intros e c H. repeat (destruct H as [H|H]; [injection H as <- <-; lia|]). done. }
  assert (e = e') as -> by (rewrite <- (b2z_z2b_id e), <- (b2z_z2b_id e') by eauto; by rewrite E). split; [|done].
  unfold escapes in *. cbn [In] in *.
  clear E Hr. intuition congruence.
Qed.

Lemma unit_det u x v y p q : unit_form u x -> unit_form v y -> x ++ p = y ++ q -> u = v /\ x = y.
Proof.
  intros Hu Hv E. inversion Hu as [c H1 H2 H3|e c Hin|n b Hc]; subst; inversion Hv as [c' G1 G2 G3|e' c' Hin'|n' b' Hc']; subst.
  - cbn [app] in E. by injection E as -> _.
  - cbn [app] in E. injection E as -> _. by rewrite b2z_z2b_id in H3.
  - destruct Hc' as (h1 & h2 & h3 & h4 & x1 & x2 & x3 & x4 & -> & _). cbn [app] in E. injection E as -> _. by rewrite b2z_z2b_id in H3.
  - cbn [app] in E. injection E as <- _. by rewrite b2z_z2b_id in G3.
  - cbn [app] in E. injection E as E _. by destruct (escape_det _ _ _ _ Hin Hin' E) as [-> ->].
  - destruct Hc' as (h1 & h2 & h3 & h4 & x1 & x2 & x3 & x4 & -> & _). cbn [app] in E. injection E as E _. by destruct (escape_not_code _ _ Hin).
  - destruct Hc as (h1 & h2 & h3 & h4 & x1 & x2 & x3 & x4 & -> & _). cbn [app] in E. injection E as <- _. by rewrite b2z_z2b_id in G3.
  - destruct Hc as (h1 & h2 & h3 & h4 & x1 & x2 & x3 & x4 & -> & _). cbn [app] in E. injection E as E _. by destruct (escape_not_code _ _ Hin').
  - by destruct (code_det _ _ _ _ _ _ Hc Hc' E) as [-> ->].
Qed.

Lemma units_prefix us0 bs0 us bs z :
  Forall2 unit_form us0 bs0 -> Forall2 unit_form us bs -> concat bs = concat bs0 ++ z -> exists us2, us = us0 ++ us2.
Proof.
  intros H0. revert us bs. induction H0 as [|u x us0 bs0 Hu H0 IH]; intros us bs H E; [by exists us|].
  cbn [concat] in E. rewrite <- app_assoc in E. destruct H as [|v y us bs Hv H].
  { exfalso. assert (x = []) as -> by (symmetry in E; by apply app_nil in E as [? _]).
    inversion Hu as [| |n b (h1 & h2 & h3 & h4 & x1 & x2 & x3 & x4 & Eb & _)]; subst. done. }
  cbn [concat] in E. symmetry in E. pose proof E as E'. apply (unit_det u x v y) in E' as [-> ->]; [|done|done]. apply app_inv_head in E.
  destruct (IH us bs H) as (us2 & ->); [done|]. by exists us2.
Qed.

(** What the scanner sees at a character: the bytes of one, or its number, or a pair. *)
Lemma char_seen c y us bs z :
  char_form c y -> Forall2 unit_form us bs -> concat bs = y ++ z ->
  match us with
  | Raw b0 :: us1 => rune1 b0 = true \/
      match us1 with Raw b1 :: us2 => rune2 b0 b1 = true \/
        match us2 with Raw b2 :: us3 => rune3 b0 b1 b2 = true \/
          match us3 with Raw b3 :: _ => rune4 b0 b1 b2 b3 = true | _ => False end
        | _ => False end
      | _ => False end
  | Uni n :: us1 => scalar n \/ match us1 with Uni m :: _ => high_surrogate n = true /\ low_surrogate m = true | _ => False end
  | [] => False
  end.
Proof.
  intros Hc Hf E. destruct Hc as [c Hc H32 H34 H92|e c Hin|c b Hc Hb|h l b1 b2 Hh Hl H1 H2].
  - destruct (unquote_plain c [] Hc H32 H34 H92) as [_ Hp].
    destruct (units_prefix (map Raw (utf8 c)) (map (fun b => [b]) (utf8 c)) us bs z) as (us2 & ->);
      [by apply raw_units|done|by rewrite concat_singles|].
    clear E Hp Hf. pose proof (utf8_valid_one c Hc) as Hv. unfold utf8 in *.
    destruct (c <? 128); [|destruct (c <? 2048); [|destruct (c <? 65536)]]; cbn [map app utf8_valid] in *;
      repeat match type of Hv with (if ?t then _ else _) = true => destruct t; [tauto|] end; done.
  - destruct (units_prefix [Raw (z2b c)] [[z2b 92; z2b e]] us bs z) as (us2 & ->);
      [by constructor; [apply unit_escape|constructor]|done|done|]. cbn [app]. left. apply rune1_iff.
    pose proof (escapes_ascii _ _ Hin). rewrite b2z_z2b_id; lia.
  - destruct (units_prefix [Uni c] [b] us bs z) as (us2 & ->);
      [by constructor; [apply unit_code|constructor]|done|by cbn [concat]; rewrite app_nil_r|]. cbn [app]. by left.
  - destruct (units_prefix [Uni (55296 + h); Uni (56320 + l)] [b1; b2] us bs z) as (us2 & ->);
      [by repeat (constructor; [by apply unit_code|])|done|by cbn [concat]; rewrite app_nil_r|]. cbn [app]. right.
    pose proof (surrogate_iff (55296 + h)) as [S1 _]. pose proof (surrogate_iff (56320 + l)) as [_ S2].
    split; [apply S1; lia|apply S2; lia].
Qed.

Lemma raw_high b x : unit_form (Raw b) x -> 128 <= b2z b -> x = [b].
Proof.
  inversion 1 as [c H1 H2 H3|e c Hin|]; subst; [done|]. intros Hb. pose proof (escapes_ascii e c Hin). rewrite b2z_z2b_id in Hb; lia.
Qed.

Lemma chars_units cs b :
  chars cs b -> exists us bs, Forall2 unit_form us bs /\ concat bs = b /\ unquote us = concat (map utf8 cs).
Proof.
  induction 1 as [|c x cs b Hc Hf (us & bs & Hu & Eb & Eq)|x cs b Hx Hno Hf (us & bs & Hu & Eb & Eq)]; [by exists [], []| |].
  - destruct (char_units c x Hc) as (us0 & bs0 & Hu0 & Eb0 & Eq0). exists (us0 ++ us), (bs0 ++ bs). split; [by apply Forall2_app|].
    cbn [concat map]. by rewrite concat_app, Eb, Eb0, Eq0, Eq.
  - destruct Hx as [b0 Hb0|n x Hn Hx].
    + exists (Raw b0 :: us), ([b0] :: bs). split; [constructor; [apply unit_plain; lia|done]|]. cbn [concat map]. rewrite Eb. split; [done|].
      rewrite <- Eq. change (utf8 65533) with replacement. cbn [unquote].
      rewrite (not_true (rune1 b0)) by (rewrite rune1_iff; lia). rewrite <- Eb in Hno.
      destruct us as [|[b1|] us2]; [done| |done]. inversion Hu as [|? x1 ? bs2 Hu1 Hf2]; subst.
      destruct (rune2 b0 b1) eqn:E2.
      { exfalso. destruct (rune2_char b0 b1 E2) as (c & Hc & H128 & Eu). apply rune2_iff in E2.
        apply (Hno c [b0; b1] (concat bs2)); [rewrite <- Eu; apply char_plain; [done|lia..]|].
        by rewrite (raw_high _ _ Hu1) by lia. }
      destruct us2 as [|[b2|] us3]; [done| |done]. inversion Hf2 as [|? x2 ? bs3 Hu2 Hf3]; subst.
      destruct (rune3 b0 b1 b2) eqn:E3.
      { exfalso. destruct (rune3_char b0 b1 b2 E3) as (c & Hc & H128 & Eu). apply rune3_iff in E3.
        apply (Hno c [b0; b1; b2] (concat bs3)); [rewrite <- Eu; apply char_plain; [done|lia..]|].
        by rewrite (raw_high _ _ Hu1), (raw_high _ _ Hu2) by lia. }
      destruct us3 as [|[b3|] us4]; [done| |done]. inversion Hf3 as [|? x3 ? bs4 Hu3 Hf4]; subst.
      destruct (rune4 b0 b1 b2 b3) eqn:E4; [|done].
      exfalso. destruct (rune4_char b0 b1 b2 b3 E4) as (c & Hc & H128 & Eu). apply rune4_iff in E4.
      apply (Hno c [b0; b1; b2; b3] (concat bs4)); [rewrite <- Eu; apply char_plain; [done|lia..]|].
      by rewrite (raw_high _ _ Hu1), (raw_high _ _ Hu2), (raw_high _ _ Hu3) by lia.
    + exists (Uni n :: us), (x :: bs). split; [by constructor; [apply unit_code|]|]. cbn [concat map]. rewrite Eb. split; [done|].
      rewrite <- Eq. change (utf8 65533) with replacement. cbn [unquote]. pose proof (surrogate_iff n) as [S1 S2].
      destruct (high_surrogate n) eqn:Eh; [|by rewrite (proj2 S2) by (assert (~ 55296 <= n < 56320) by (rewrite <- S1; congruence); lia)].
      destruct us as [|[|m] us2]; [done|done|]. destruct (low_surrogate m) eqn:El; [|done]. exfalso.
      inversion Hu as [|? x1 ? bs2 Hu1 Hf2]; subst. inversion Hu1 as [| |? ? Hm]; subst.
      assert (55296 <= n < 56320) as Hn' by (by apply S1). apply (surrogate_iff m) in El.
      apply (Hno (65536 + 1024 * (n - 55296) + (m - 56320)) (x ++ x1) (concat bs2)); [|by cbn [concat]; rewrite app_assoc].
      apply char_pair; [lia|lia| |]; by rewrite Zplus_minus.
Qed.

(** The text is a sequence of characters and of what is not one. *)
Definition spelled (v b : bytes) : Prop := exists cs, chars cs b /\ v = concat (map utf8 cs).

Lemma spelled_char c x v b : char_form c x -> spelled v b -> spelled (utf8 c ++ v) (x ++ b).
Proof. intros Hc (cs & Hf & ->). exists (c :: cs). split; [by constructor|done]. Qed.
Lemma spelled_bad x v b :
  bad_form x -> (forall c y z, char_form c y -> x ++ b <> y ++ z) -> spelled v b -> spelled (replacement ++ v) (x ++ b).
Proof. intros Hc Hno (cs & Hf & ->). exists (65533 :: cs). split; [by apply chars_bad|done]. Qed.

Ltac refute Hbad Hseen := apply Hbad; intros c y z Hc Ey; pose proof (Hseen c y z Hc Ey) as Hs; intuition congruence.

Lemma units_spelled n us bs : (length us <= n)%nat -> Forall2 unit_form us bs -> spelled (unquote us) (concat bs).
Proof.
  revert us bs. induction n as [|n IH]; intros us bs Hn Hf.
  { destruct us; [|cbn in Hn; lia]. inversion Hf; subst. by exists []; split; [constructor|]. }
  destruct us as [|u us1]; [inversion Hf; subst; by exists []; split; [constructor|]|].
  inversion Hf as [|? x0 ? bs1 Hu0 Hf1]; subst. cbn [length] in Hn. cbn [concat].
  assert (spelled (unquote us1) (concat bs1)) as IH1 by (apply IH; [lia|done]).
  destruct u as [b0|m]; cbn [unquote].
  - destruct (rune1 b0) eqn:E1.
    + pose proof (rune1_char b0 E1) as [Hs Eu].
      change (b0 :: unquote us1) with ([b0] ++ unquote us1). rewrite <- Eu. apply spelled_char; [|done].
      inversion Hu0 as [c H1 H2 H3|e c Hin|]; subst.
      * rewrite <- Eu. by apply char_plain.
      * pose proof (escapes_ascii e c Hin). rewrite b2z_z2b_id by lia. by apply char_escape.
    + assert (128 <= b2z b0) as Hh.
      { destruct (Z.lt_ge_cases (b2z b0) 128) as [H|H]; [|done]. apply rune1_iff in H. congruence. }
      pose proof (raw_high _ _ Hu0 Hh) as ->.
      assert ((forall c y z, char_form c y -> [b0] ++ concat bs1 <> y ++ z) ->
        spelled (replacement ++ unquote us1) ([b0] ++ concat bs1)) as Hbad by (intros Hno; apply spelled_bad; [by apply bad_byte|done|done]).
      assert (forall c y z, char_form c y -> [b0] ++ concat bs1 = y ++ z -> _) as Hseen
        by (intros c y z Hc Ey; exact (char_seen c y (Raw b0 :: us1) ([b0] :: bs1) z Hc Hf Ey)). cbv beta iota in Hseen. rewrite E1 in Hseen.
      destruct us1 as [|[b1|] us2]; [refute Hbad Hseen| |refute Hbad Hseen].
      inversion Hf1 as [|? x1 ? bs2 Hu1 Hf2]; subst. cbn [length] in Hn.
      destruct (rune2 b0 b1) eqn:E2.
      { pose proof (rune2_char b0 b1 E2) as (c & Hc & H128 & Eu). apply rune2_iff in E2.
        rewrite (raw_high _ _ Hu1) by lia. cbn [concat app].
        change (b0 :: b1 :: unquote us2) with ([b0; b1] ++ unquote us2). change (b0 :: b1 :: concat bs2) with ([b0; b1] ++ concat bs2).
        rewrite <- Eu. apply spelled_char; [apply char_plain; [done|lia..]|]. apply IH; [lia|done]. }
      destruct us2 as [|[b2|] us3]; [refute Hbad Hseen| |refute Hbad Hseen].
      inversion Hf2 as [|? x2 ? bs3 Hu2 Hf3]; subst. cbn [length] in Hn.
      destruct (rune3 b0 b1 b2) eqn:E3.
      { pose proof (rune3_char b0 b1 b2 E3) as (c & Hc & H128 & Eu). apply rune3_iff in E3.
        rewrite (raw_high _ _ Hu1), (raw_high _ _ Hu2) by lia. cbn [concat app].
        change (b0 :: b1 :: b2 :: unquote us3) with ([b0; b1; b2] ++ unquote us3).
        change (b0 :: b1 :: b2 :: concat bs3) with ([b0; b1; b2] ++ concat bs3).
        rewrite <- Eu. apply spelled_char; [apply char_plain; [done|lia..]|]. apply IH; [lia|done]. }
      destruct us3 as [|[b3|] us4]; [refute Hbad Hseen| |refute Hbad Hseen].
      inversion Hf3 as [|? x3 ? bs4 Hu3 Hf4]; subst. cbn [length] in Hn.
      destruct (rune4 b0 b1 b2 b3) eqn:E4; [|refute Hbad Hseen].
      pose proof (rune4_char b0 b1 b2 b3 E4) as (c & Hc & H128 & Eu). apply rune4_iff in E4.
      rewrite (raw_high _ _ Hu1), (raw_high _ _ Hu2), (raw_high _ _ Hu3) by lia. cbn [concat app].
      change (b0 :: b1 :: b2 :: b3 :: unquote us4) with ([b0; b1; b2; b3] ++ unquote us4).
      change (b0 :: b1 :: b2 :: b3 :: concat bs4) with ([b0; b1; b2; b3] ++ concat bs4).
      rewrite <- Eu. apply spelled_char; [apply char_plain; [done|lia..]|]. apply IH; [lia|done].
  - inversion Hu0 as [| |? ? Hm]; subst. pose proof (code_range _ _ Hm) as Hr. pose proof (surrogate_iff m) as [S1 S2].
    destruct (high_surrogate m) eqn:Eh.
    + assert (55296 <= m < 56320) as Hm' by (by apply S1). clear S1 S2.
      assert ((forall c y z, char_form c y -> x0 ++ concat bs1 <> y ++ z) ->
        spelled (replacement ++ unquote us1) (x0 ++ concat bs1)) as Hbad by (intros Hno; apply spelled_bad; [apply (bad_half m); [lia|done]|done|done]).
      assert (forall c y z, char_form c y -> x0 ++ concat bs1 = y ++ z -> _) as Hseen
        by (intros c y z Hc Ey; exact (char_seen c y (Uni m :: us1) (x0 :: bs1) z Hc Hf Ey)). cbv beta iota in Hseen. rewrite Eh in Hseen.
      assert (~ scalar m) as Hns by (unfold scalar; lia).
      destruct us1 as [|[|k] us2]; [refute Hbad Hseen|refute Hbad Hseen|].
      inversion Hf1 as [|? x1 ? bs2 Hu1 Hf2]; subst. cbn [length] in Hn. inversion Hu1 as [| |? ? Hk]; subst.
      destruct (low_surrogate k) eqn:El; [|refute Hbad Hseen]. apply (surrogate_iff k) in El. cbn [concat].
      rewrite encode_rune_utf8, app_assoc. replace (65536 + (m - 55296) * 1024 + (k - 56320)) with (65536 + 1024 * (m - 55296) + (k - 56320)) by lia.
      apply spelled_char; [|apply IH; [lia|done]]. apply char_pair; [lia|lia| |]; by rewrite Zplus_minus.
    + destruct (low_surrogate m) eqn:El.
      * assert (56320 <= m < 57344) by (by apply S2). apply spelled_bad; [apply (bad_half m); [lia|done]| |done].
        intros c y z Hc Ey. pose proof (char_seen c y (Uni m :: us1) (x0 :: bs1) z Hc Hf Ey) as Hs. cbv beta iota in Hs.
        rewrite Eh in Hs. assert (~ scalar m) by (unfold scalar; lia). destruct us1 as [|[] ?]; intuition discriminate.
      * rewrite encode_rune_utf8. apply spelled_char; [|done]. apply char_code; [|done].
        assert (~ 55296 <= m < 56320) by (rewrite <- S1; congruence). assert (~ 56320 <= m < 57344) by (rewrite <- S2; congruence).
        unfold scalar. lia.
Qed.

(** * Strings, values, members *)

Lemma parse_string_sound l s rest : parse_string l = Some (s, rest) -> exists b, string_form s b /\ l = b ++ rest.
Proof.
  destruct l as [|c r]; [done|]. cbn [parse_string]. destruct (Ascii.eqb_spec c quote) as [->|]; [|done].
  destruct (scan_string r) as [[us rest']|] eqn:E; [|done]. intros [= <- <-].
  apply (scan_string_sound (length r)) in E as (bs & Hf & ->); [|lia].
  destruct (units_spelled (length us) us bs) as (cs & Hx & Ev); [lia|done|].
  exists (z2b 34 :: concat bs ++ [z2b 34]). split; [|by rewrite <- app_comm_cons, <- app_assoc].
  exists cs, (concat bs). split; [done|]. split; [done|]. by rewrite Ev.
Qed.

Lemma parse_string_complete s b rest : string_form s b -> parse_string (b ++ rest) = Some (s, rest).
Proof.
  intros (cs & x & Hf & -> & ->). apply chars_units in Hf as (us & bs & Hu & Eb & Eq).
  rewrite <- app_comm_cons, <- app_assoc, <- Eb. cbn [app parse_string]. change (Ascii.eqb (z2b 34) quote) with true. cbv iota.
  by rewrite (scan_string_complete us bs rest Hu), Eq.
Qed.

Lemma string_starts s b rest : string_form s b -> exists t, b ++ rest = z2b 34 :: t.
Proof. intros (cs & xs & _ & -> & _). by eexists. Qed.

Lemma null_iff (n u l1 l2 : byte) :
  (b2z n =? 110) && (b2z u =? 117) && (b2z l1 =? 108) && (b2z l2 =? 108) = true <-> [n; u; l1; l2] = bytes_of "null".
Proof.
  rewrite !andb_true_iff, !Z.eqb_eq, !b2z_eq_z2b by lia. change (bytes_of "null") with (map z2b [110; 117; 108; 108]). cbn [map].
  split; [by intros [[[-> ->] ->] ->]|by intros [= -> -> -> ->]].
Qed.

Lemma parse_value_sound l s rest : parse_value l = Some (s, rest) -> exists b, value_form s b /\ l = b ++ rest.
Proof.
  intros H. assert (parse_string l = Some (s, rest) -> exists b, value_form s b /\ l = b ++ rest) as Hs.
  { intros Hp. apply parse_string_sound in Hp as (b & Hb & ->). exists b. split; [by left|done]. }
  destruct l as [|n [|u [|l1 [|l2 r]]]]; try (by apply Hs). cbn [parse_value] in H.
  destruct ((b2z n =? 110) && (b2z u =? 117) && (b2z l1 =? 108) && (b2z l2 =? 108)) eqn:E; [|by apply Hs].
  apply null_iff in E. injection H as <- <-. exists (bytes_of "null"). split; [by right|].
  rewrite <- E. done.
Qed.

Lemma parse_value_complete s b rest : value_form s b -> parse_value (b ++ rest) = Some (s, rest).
Proof.
  intros [Hs|[-> ->]]; [|done]. rewrite <- (parse_string_complete s b rest Hs).
  destruct (string_starts _ _ rest Hs) as (t & ->). by destruct t as [|u [|l1 [|l2 r]]].
Qed.

Definition put_members (m : gmap string string) (kvs : list (string * string)) : gmap string string :=
  fold_left (fun m kv => <[kv.1 := kv.2]> m) kvs m.

Lemma parse_members_sound fuel m l m' rest :
  parse_members fuel m l = Some (m', rest) ->
  exists kvs b, members_form kvs b /\ l = b ++ z2b 125 :: rest /\ m' = put_members m kvs.
Proof.
  revert m l. induction fuel as [|fuel IH]; intros m l; [done|]. cbn [parse_members].
  destruct (skip_split l) as (w1 & Hw1 & El). destruct (parse_string (skip_space l)) as [[k l1]|] eqn:E1; [|done].
  apply parse_string_sound in E1 as (bk & Hk & E1). rewrite E1 in El. clear E1.
  destruct (skip_split l1) as (w2 & Hw2 & El1). destruct (expect 58 (skip_space l1)) as [l2|] eqn:E2; [|done].
  apply expect_iff in E2; [|lia]. rewrite E2 in El1. clear E2.
  destruct (skip_split l2) as (w3 & Hw3 & El2). destruct (parse_value (skip_space l2)) as [[v l3]|] eqn:E3; [|done].
  apply parse_value_sound in E3 as (bv & Hv & E3). rewrite E3 in El2. clear E3. cbv zeta.
  destruct (skip_split l3) as (w4 & Hw4 & El3).
  assert (member_form (k, v) (w1 ++ bk ++ w2 ++ z2b 58 :: w3 ++ bv ++ w4)) as Hm.
  { exists w1, bk, w2, w3, bv, w4. done. }
  destruct (expect 44 (skip_space l3)) as [l5|] eqn:E4.
  - apply expect_iff in E4; [|lia]. rewrite E4 in El3. intros H. apply IH in H as (kvs & b & Hf & -> & ->).
    eexists ((k, v) :: kvs), _. split; [by apply members_more|]. split; [|done].
    rewrite El, El1, El2, El3. repeat (rewrite <- app_assoc || rewrite <- app_comm_cons || cbn [app]). done.
  - destruct (expect 125 (skip_space l3)) as [l5|] eqn:E5; [|done]. apply expect_iff in E5; [|lia]. rewrite E5 in El3.
    intros [= <- <-]. eexists [(k, v)], _. split; [by apply members_one|]. split; [|done].
    rewrite El, El1, El2, El3. repeat (rewrite <- app_assoc || rewrite <- app_comm_cons || cbn [app]). done.
Qed.

Lemma quote_solid t : solid (z2b 34 :: t).
Proof. cbn. vm_compute. intuition discriminate. Qed.

Lemma value_solid s b rest : value_form s b -> solid (b ++ rest).
Proof.
  intros [Hs|[-> ->]]; [destruct (string_starts _ _ rest Hs) as (t & ->); apply quote_solid|]. vm_compute. intuition discriminate.
Qed.

Lemma byte_solid z t : 33 <= z < 256 -> solid (z2b z :: t).
Proof. intros Hz. cbn [solid In]. rewrite b2z_z2b_id by lia. lia. Qed.

Lemma expect_same z l : 0 <= z < 256 -> expect z (z2b z :: l) = Some l.
Proof. intros Hz. by apply expect_iff. Qed.

Lemma parse_member fuel m kv b c rest :
  member_form kv b -> 33 <= c < 256 ->
  parse_members (S fuel) m (b ++ z2b c :: rest) =
  match expect 44 (z2b c :: rest) with
  | Some l5 => parse_members fuel (<[kv.1 := kv.2]> m) l5
  | None => match expect 125 (z2b c :: rest) with Some l5 => Some (<[kv.1 := kv.2]> m, l5) | None => None end
  end.
Proof.
  intros (w1 & k & w2 & w3 & v & w4 & Hw1 & Hw2 & Hw3 & Hw4 & Hk & Hv & ->) Hc. cbn [parse_members].
  rewrite <- !app_assoc. rewrite <- app_comm_cons, <- !app_assoc. rewrite skip_white by done.
  rewrite skip_solid by (destruct (string_starts _ _ (w2 ++ z2b 58 :: w3 ++ v ++ w4 ++ z2b c :: rest) Hk) as (t & ->); apply quote_solid).
  rewrite (parse_string_complete kv.1 k) by done.
  rewrite skip_white, skip_solid by (done || apply byte_solid; lia). rewrite expect_same by lia.
  rewrite skip_white, skip_solid by (done || by eapply value_solid). rewrite (parse_value_complete kv.2 v) by done. cbv zeta.
  rewrite skip_white, skip_solid by (done || by apply byte_solid). done.
Qed.

Lemma parse_members_complete kvs b :
  members_form kvs b -> forall fuel m rest, (length kvs <= fuel)%nat ->
  parse_members fuel m (b ++ z2b 125 :: rest) = Some (put_members m kvs, rest).
Proof.
  induction 1 as [kv b Hm|kv b kvs bs Hm Hf IH]; intros fuel m rest Hn; destruct fuel as [|fuel]; cbn [length] in Hn; try lia.
  - rewrite (parse_member fuel m kv b 125) by (done || lia). rewrite (expect_same 125) by lia. done.
  - rewrite <- app_assoc, <- app_comm_cons. rewrite (parse_member fuel m kv b 44) by (done || lia). rewrite expect_same by lia.
    rewrite IH by lia. done.
Qed.

Lemma members_count kvs b : members_form kvs b -> (length kvs <= length b)%nat.
Proof.
  assert (forall kv b, member_form kv b -> (1 <= length b)%nat) as H1.
  { intros kv b' (w1 & k & w2 & w3 & v & w4 & _ & _ & _ & _ & _ & _ & ->). rewrite !app_length. cbn [length]. lia. }
  induction 1 as [kv b Hm|kv b kvs bs Hm Hf IH]; cbn [length]; rewrite ?app_length; cbn [length]; specialize (H1 _ _ Hm); lia.
Qed.

Lemma members_starts kvs b rest : members_form kvs b -> exists w t, white w /\ b ++ rest = w ++ z2b 34 :: t.
Proof.
  assert (forall kv b rest, member_form kv b -> exists w t, white w /\ b ++ rest = w ++ z2b 34 :: t) as H1.
  { intros kv b' rest' (w1 & k & w2 & w3 & v & w4 & Hw1 & _ & _ & _ & Hk & _ & ->).
    rewrite <- app_assoc. destruct (string_starts _ _ ((w2 ++ z2b 58 :: w3 ++ v ++ w4) ++ rest') Hk) as (t & E).
    exists w1, t. split; [done|]. rewrite <- E, <- app_assoc. done. }
  destruct 1 as [kv b Hm|kv b kvs bs Hm Hf]; [by apply (H1 kv)|]. rewrite <- app_assoc. by apply (H1 kv).
Qed.

Lemma skip_all w : white w -> skip_space w = [].
Proof. intros Hw. rewrite <- (app_nil_r w). by rewrite skip_white. Qed.

Lemma skip_none l : skip_space l = [] -> white l.
Proof. intros E. destruct (skip_split l) as (w & Hw & El). rewrite E, app_nil_r in El. by rewrite El. Qed.

Lemma json_complete kvs out : object_form kvs out -> json_unmarshal out = Ok (put_members ∅ kvs).
Proof.
  unfold json_unmarshal. destruct 1 as [w1 w2 H1 H2|w1 w2 w3 H1 H2 H3|w1 kvs b w2 H1 H2 Hm]; cbv zeta.
  - rewrite skip_white by done. rewrite skip_solid by (vm_compute; intuition discriminate).
    change (bytes_of "null") with (map z2b [110; 117; 108; 108]). cbn [map app expect].
    change (b2z (z2b 110) =? 123) with false. cbv iota. destruct w2 as [|c w2]; [done|]. by rewrite skip_all by done.
  - rewrite skip_white by done. rewrite skip_solid by (apply byte_solid; lia). rewrite expect_same by lia.
    rewrite skip_white by done. rewrite skip_solid by (apply byte_solid; lia). rewrite expect_same by lia. by rewrite skip_all.
  - rewrite skip_white by done. rewrite skip_solid by (apply byte_solid; lia). rewrite expect_same by lia.
    destruct (members_starts _ _ (z2b 125 :: w2) Hm) as (w & t & Hw & E). rewrite E at 1.
    rewrite skip_white by done. rewrite skip_solid by apply quote_solid. cbn [expect]. change (b2z (z2b 34) =? 125) with false. cbv iota.
    rewrite (parse_members_complete kvs b Hm).
    + by rewrite skip_all.
    + apply members_count in Hm. rewrite !app_length. cbn [length]. rewrite app_length. lia.
Qed.

Lemma json_sound out m : json_unmarshal out = Ok m -> exists kvs, object_form kvs out /\ m = put_members ∅ kvs.
Proof.
  unfold json_unmarshal. cbv zeta. destruct (skip_split out) as (w1 & Hw1 & Eo). destruct (expect 123 (skip_space out)) as [l1|] eqn:E1.
  - apply expect_iff in E1; [|lia]. rewrite E1 in Eo. clear E1. destruct (skip_split l1) as (w2 & Hw2 & El1).
    destruct (expect 125 (skip_space l1)) as [rest|] eqn:E2.
    + apply expect_iff in E2; [|lia]. rewrite E2 in El1. destruct (skip_space rest) eqn:E3; [|done]. apply skip_none in E3.
      intros [= <-]. exists []. split; [|done]. rewrite Eo, El1. by apply object_empty.
    + destruct (parse_members (length out) ∅ l1) as [[m' rest]|] eqn:Ep; [|done].
      destruct (skip_space rest) eqn:E3; [|done]. apply skip_none in E3. intros [= <-].
      apply parse_members_sound in Ep as (kvs & b & Hm & -> & ->). exists kvs. split; [|done]. rewrite Eo. by apply object_members.
  - destruct (skip_space out) as [|n [|u [|l1 [|l2 r]]]] eqn:Es; try done.
    assert ((b2z n =? 110) && (b2z u =? 117) && (b2z l1 =? 108) && (b2z l2 =? 108) = true -> white r ->
      exists kvs, object_form kvs out /\ (∅ : gmap string string) = put_members ∅ kvs) as H.
    { intros Hn Hr. apply null_iff in Hn. exists []. split; [|done]. rewrite Eo. change (n :: u :: l1 :: l2 :: r) with ([n; u; l1; l2] ++ r).
      rewrite Hn. by apply object_null. }
    destruct ((b2z n =? 110) && (b2z u =? 117) && (b2z l1 =? 108) && (b2z l2 =? 108)) eqn:En; cbn [andb].
    + destruct r as [|c r]; [intros [= <-]; apply H; [done|apply white_nil]|].
      destruct (skip_space (c :: r)) eqn:E3; [|done]. intros [= <-]. apply H; [done|by apply skip_none].
    + by destruct r.
Qed.

Lemma member_put m kvs k : member (put_members m kvs) k =
  match last (omap (fun kv => if String.eqb kv.1 k then Some kv.2 else None) kvs) with Some v => v | None => member m k end.
Proof.
  revert m. induction kvs as [|[k' v] kvs IH]; intros m; [done|]. cbn [put_members fold_left fst snd]. unfold put_members in IH. rewrite IH.
  cbn [omap list_omap fst snd]. destruct (String.eqb_spec k' k) as [->|Hne].
  - destruct (omap _ kvs) as [|x l] eqn:E; [unfold member; by rewrite lookup_insert|].
    change (last (v :: x :: l)) with (last (x :: l)). destruct (last (x :: l)) eqn:L; [done|by apply last_None in L].
  - destruct (last _); [done|]. unfold member. by rewrite lookup_insert_ne.
Qed.

Lemma unmarshal_put out kvs : json_unmarshal out = Ok (put_members ∅ kvs) -> unmarshal_label out = Ok (label_of kvs).
Proof.
  intros H. unfold unmarshal_label. rewrite H. cbv beta iota delta [rbind]. unfold label_of, value_of. rewrite !member_put. unfold member. rewrite !lookup_empty.
  reflexivity.
Qed.

(** ** C91 *)

(** The texts that are read as a label are exactly the JSON objects of strings and nulls, and null itself; the label has the last value
    given under each name. *)
Theorem C91_read out l : unmarshal_label out = Ok l <-> exists kvs, object_form kvs out /\ l = label_of kvs.
Proof.
  split.
  - intros H. destruct (json_unmarshal out) as [m| |] eqn:E; unfold unmarshal_label in H; rewrite E in H; cbn in H; try discriminate H.
    apply json_sound in E as (kvs & Hf & ->). exists kvs. split; [done|].
    injection H as <-. unfold label_of, value_of. rewrite !member_put. unfold member. rewrite !lookup_empty.
    reflexivity.
  - intros (kvs & H & ->). apply unmarshal_put. by apply json_complete.
Qed.
Print Assumptions C91_read.

(** The text in double quotes, with single quotes in place of them here. *)
Definition quoted (s : string) : bytes := map (fun c => if Ascii.eqb c "'" then z2b 34 else c) (bytes_of s).
Example C91_example :
  unmarshal_label (quoted " { 'dialogue_starter_addr' : 'x' , 'other':null,'dialogue_starter_addr':'\u00E9\n','dialogue_opponent_addr':'\ud83d\uDE00'}") =
    Ok (DLabel (DRef "" "") (string_of (utf8 128512)) (string_of (utf8 233 ++ utf8 10))) /\
  unmarshal_label (quoted "null ") = Ok (DLabel (DRef "" "") "" "") /\
  unmarshal_label (quoted "{'dialogue_starter_addr':'\ud83d'}") = Ok (DLabel (DRef "" "") "" (string_of (utf8 65533))) /\
  unmarshal_label (quoted "{'dialogue_starter_addr':'" ++ z2b 255 :: quoted "'}") = Ok (DLabel (DRef "" "") "" (string_of (utf8 65533))) /\
  is_err (unmarshal_label (quoted "{'a':'b'} x")) = true /\
  is_err (unmarshal_label (quoted "{'a':'b',}")) = true /\
  is_err (unmarshal_label (quoted "{'a':1}")) = true /\
  object_form [("a", "b")] (quoted "{'a':'b'} ") /\
  label_of [("dialogue_opponent_addr", "x"); ("dialogue_opponent_addr", "y")] = DLabel (DRef "" "") "y" "".
Proof.
  do 7 (split; [vm_compute; reflexivity|]). split; [|reflexivity].
  assert (forall c, 32 <= c -> c < 127 -> c <> 34 -> c <> 92 -> string_form (string_of [z2b c]) [z2b 34; z2b c; z2b 34]) as Hs.
  { intros c H1 H2 H3 H4. assert (utf8 c = [z2b c]) as E by (unfold utf8; destruct (Z.ltb_spec c 128); [done|lia]).
    exists [c], ([z2b c] ++ []). split; [apply chars_char; [|constructor]|].
    - rewrite <- E. apply char_plain; [unfold scalar; lia|lia..].
    - split; [done|]. cbn [map concat]. by rewrite E, app_nil_r. }
  apply (object_members [] _ (quoted "'a':'b'") [z2b 32]); [apply white_nil|repeat constructor|].
  apply members_one. exists [], (quoted "'a'"), [], [], (quoted "'b'"), []. do 4 (split; [apply white_nil|]).
  split; [exact (Hs 97 ltac:(lia) ltac:(lia) ltac:(lia) ltac:(lia))|].
  split; [left; exact (Hs 98 ltac:(lia) ltac:(lia) ltac:(lia) ltac:(lia))|]. reflexivity.
Qed.
