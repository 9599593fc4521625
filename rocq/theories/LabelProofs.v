(** Lemmas about the text forms of labels. *)
From Coq Require Import ZArith NArith List String Ascii Lia Permutation.
From stdpp Require Import base tactics gmap list strings fin_maps.
From Verif Require Import GoBase Bytes Utf8 DialogueModel LabelModel.
Open Scope string_scope.
Open Scope list_scope.
Open Scope Z_scope.

(** * Splitting and joining *)

Fixpoint count (s : string) : nat :=
  match s with
  | "" => O
  | String c s' => ((if Ascii.eqb c separator then 1 else 0) + count s')%nat
  end.

Lemma split_length s : length (split s) = S (count s).
Proof.
  induction s as [|c s IH]; [done|]. simpl.
  destruct (Ascii.eqb c separator); simpl; [by rewrite IH|].
  destruct (split s); simpl in *; lia.
Qed.

Lemma app_cons c s t : (String c s ++ t)%string = String c (s ++ t).
Proof. done. Qed.

Lemma count_app s t : count (s ++ t)%string = (count s + count t)%nat.
Proof.
  induction s as [|c s IH]; [done|]. rewrite app_cons. cbn [count]. rewrite IH. lia.
Qed.

Lemma count_zero s : count s = O <-> ~ In separator (bytes_of s).
Proof.
  induction s as [|c s IH]; [simpl; tauto|]. simpl.
  destruct (Ascii.eqb_spec c separator) as [->|Hc]; simpl.
  - split; [lia|]. intros H. exfalso. apply H. by left.
  - rewrite IH. split; [intros H [E|E]; auto|tauto].
Qed.

Lemma join_split s : join (split s) = s.
Proof.
  induction s as [|c s IH]; [done|]. cbn [split].
  pose proof (split_length s) as Hl.
  destruct (split s) as [|p ps] eqn:E; [done|].
  destruct (Ascii.eqb_spec c separator) as [->|Hc].
  - cbn [join]. destruct ps; cbn [join] in *; by rewrite <- IH.
  - cbn [join] in *. destruct ps; rewrite <- IH; done.
Qed.

Lemma split_free p rest :
  count p = O -> split (p ++ String separator rest)%string = p :: split rest.
Proof.
  induction p as [|c p IH]; intros Hp.
  - simpl. done.
  - rewrite app_cons. cbn [count] in Hp. cbn [split].
    destruct (Ascii.eqb c separator); [lia|]. rewrite IH by lia. done.
Qed.

Lemma split_one p : count p = O -> split p = [p].
Proof.
  induction p as [|c p IH]; intros Hp; [done|]. cbn [count] in Hp. cbn [split].
  destruct (Ascii.eqb c separator); [lia|]. by rewrite IH by lia.
Qed.

Lemma from_string_spec l :
  label_from_string (label_string l) =
  if bool_decide (count (starter_ref (lb_ref l)) = O /\ count (responder_ref (lb_ref l)) = O /\
                  count (lb_opponent l) = O /\ count (lb_starter l) = O)
  then Ok l else Err "expected exactly 4 parts".
Proof.
  case_bool_decide as H.
  - destruct H as (H1 & H2 & H3 & H4). unfold label_from_string, label_string. cbn [join].
    rewrite !split_free, split_one by done. by destruct l as [[a b] c d].
  - unfold label_from_string.
    pose proof (split_length (label_string l)) as Hl.
    unfold label_string in *. cbn [join] in *. repeat (rewrite count_app in Hl; cbn [count] in Hl).
    rewrite Ascii.eqb_refl in Hl.
    destruct (split _) as [|? [|? [|? [|? [|? ?]]]]]; try done. simpl in Hl. lia.
Qed.

Lemma from_string_inv s l : label_from_string s = Ok l -> label_string l = s.
Proof.
  unfold label_from_string. intros H. rewrite <- (join_split s).
  destruct (split s) as [|? [|? [|? [|? [|? ?]]]]]; try done. by injection H as <-.
Qed.

(** * JSON *)

(** No quote and no backslash. *)
Definition unquoted (s : string) : Prop :=
  ~ In quote (bytes_of s) /\ ~ In backslash (bytes_of s).

Lemma scan_plain v rest :
  ~ In quote v -> ~ In backslash v ->
  scan_string (v ++ quote :: rest) =
  if forallb (fun b => 32 <=? b2z b) v then Some (map Raw v, rest) else None.
Proof.
  induction v as [|c v IH]; intros Hq Hb; cbn [app scan_string].
  - by rewrite Ascii.eqb_refl.
  - destruct (Ascii.eqb_spec c quote) as [->|_]; [exfalso; apply Hq; by left|].
    destruct (Ascii.eqb_spec c backslash) as [->|_]; [exfalso; apply Hb; by left|].
    cbn [forallb map]. rewrite IH by (simpl in Hq, Hb; tauto).
    destruct (Z.ltb_spec (b2z c) 32), (Z.leb_spec 32 (b2z c)); try lia; [done|].
    simpl. by destruct (forallb _ v).
Qed.

Lemma unquote_valid v : utf8_valid v = true -> unquote (map Raw v) = v.
Proof.
  revert v. apply utf8_ind; cbn [map unquote]; intros; [done|..].
  all: repeat match goal with H : rune1 _ = _ |- _ => rewrite H; clear H
       | H : rune2 _ _ = _ |- _ => rewrite H; clear H
       | H : rune3 _ _ _ = _ |- _ => rewrite H; clear H
       | H : rune4 _ _ _ _ = _ |- _ => rewrite H; clear H end.
  all: by f_equal; f_equal; f_equal; f_equal.
Qed.

Lemma replacement_valid l : utf8_valid (replacement ++ l) = utf8_valid l.
Proof. apply utf8_valid_app. vm_compute. done. Qed.

Lemma unquote_is_valid v : utf8_valid (unquote (map Raw v)) = true.
Proof.
  remember (length v) as n eqn:Hn. revert v Hn.
  induction (lt_wf n) as [n _ IH]. intros v ->.
  assert (forall w, (length w < length v)%nat -> utf8_valid (unquote (map Raw w)) = true) as IH'.
  { intros w Hw. by eapply IH. }
  clear IH. destruct v as [|b0 v]; [done|].
  assert (utf8_valid (replacement ++ unquote (map Raw v)) = true) as Hrep.
  { rewrite replacement_valid. apply IH'. simpl. lia. }
  cbn [map unquote]. destruct (rune1 b0) eqn:E1.
  { simpl. rewrite E1. apply IH'. simpl. lia. }
  destruct v as [|b1 v]; [apply Hrep|]. cbn [map] in *.
  destruct (rune2 b0 b1) eqn:E2.
  { cbn [utf8_valid]. rewrite E1, E2. apply IH'. simpl. lia. }
  destruct v as [|b2 v]; [apply Hrep|]. cbn [map] in *.
  destruct (rune3 b0 b1 b2) eqn:E3.
  { cbn [utf8_valid]. rewrite E1, E2, E3. apply IH'. simpl. lia. }
  destruct v as [|b3 v]; [apply Hrep|]. cbn [map] in *.
  destruct (rune4 b0 b1 b2 b3) eqn:E4; [|apply Hrep].
  cbn [utf8_valid]. rewrite E1, E2, E3, E4. apply IH'. simpl. lia.
Qed.

(** What decoding makes of a value without quote and backslash. *)
Definition decoded (s : string) : option string :=
  if forallb (fun b => 32 <=? b2z b) (bytes_of s)
  then Some (string_of (unquote (map Raw (bytes_of s)))) else None.

Lemma decoded_same s :
  decoded s = Some s <->
  valid_text s = true /\ forallb (fun b => 32 <=? b2z b) (bytes_of s) = true.
Proof.
  unfold decoded. destruct (forallb _ _); [|split; [done|by intros [_ ?]]].
  split.
  - intros H. split; [|done]. injection H as H. unfold valid_text. rewrite <- H.
    rewrite string_bytes. apply unquote_is_valid.
  - intros [H _]. rewrite unquote_valid by done. by rewrite bytes_string.
Qed.

Lemma parse_plain s rest :
  unquoted s ->
  parse_string (quote :: bytes_of s ++ quote :: rest) =
  match decoded s with Some t => Some (t, rest) | None => None end.
Proof.
  intros [Hq Hb]. unfold parse_string. rewrite Ascii.eqb_refl.
  rewrite scan_plain by done. unfold decoded. by destruct (forallb _ _).
Qed.

Definition plain_key (k : string) : Prop := unquoted k /\ decoded k = Some k.

Lemma skip_quote l : skip_space (quote :: l) = quote :: l.
Proof. done. Qed.

Lemma parse_value_quote l : parse_value (quote :: l) = parse_string (quote :: l).
Proof. destruct l as [|? [|? [|? ?]]]; done. Qed.

(** Members as written, and the map decoding gives. *)
Fixpoint decode_all (m : gmap string string) (ms : list (string * string))
    : option (gmap string string) :=
  match ms with
  | [] => Some m
  | (k, v) :: ms' =>
      match decoded v with Some t => decode_all (<[k := t]> m) ms' | None => None end
  end.

Definition colon : byte := ascii_of_N 58.
Definition blank : byte := ascii_of_N 32.
Definition comma : byte := ascii_of_N 44.
Definition closing : byte := ascii_of_N 125.

Definition member_body (kv : string * string) : bytes :=
  quote :: bytes_of kv.1 ++ quote :: colon :: blank :: quote :: bytes_of kv.2 ++ [quote].

Lemma member_text_body kv : member_text kv = member_body kv ++ [comma].
Proof.
  unfold member_text, member_body. cbn. repeat (rewrite <- app_assoc; cbn). done.
Qed.

(** One member is read. *)
Lemma parse_member fuel m k v next rest :
  plain_key k -> unquoted v ->
  parse_members (S fuel) m (member_body (k, v) ++ next :: rest) =
  match decoded v with
  | None => None
  | Some t =>
      let l4 := skip_space (next :: rest) in
      match expect 44 l4 with
      | Some l5 => parse_members fuel (<[k := t]> m) l5
      | None => match expect 125 l4 with Some l5 => Some (<[k := t]> m, l5) | None => None end
      end
  end.
Proof.
  intros [Hk Hk'] Hv. unfold member_body. cbn [fst snd].
  cbn [parse_members]. cbn [app]. rewrite skip_quote.
  rewrite <- app_assoc. cbn [app]. rewrite parse_plain by done. rewrite Hk'.
  assert (skip_space (colon :: blank :: quote :: (bytes_of v ++ [quote]) ++ next :: rest) =
          colon :: blank :: quote :: (bytes_of v ++ [quote]) ++ next :: rest) as -> by done.
  assert (expect 58 (colon :: blank :: quote :: (bytes_of v ++ [quote]) ++ next :: rest) =
          Some (blank :: quote :: (bytes_of v ++ [quote]) ++ next :: rest)) as -> by done.
  assert (skip_space (blank :: quote :: (bytes_of v ++ [quote]) ++ next :: rest) =
          quote :: (bytes_of v ++ [quote]) ++ next :: rest) as -> by done.
  rewrite parse_value_quote. rewrite <- app_assoc. cbn [app]. rewrite parse_plain by done.
  destruct (decoded v); done.
Qed.

Lemma parse_all ms kv fuel m :
  Forall (fun kv => plain_key kv.1 /\ unquoted kv.2) (ms ++ [kv]) ->
  (length ms < fuel)%nat ->
  parse_members fuel m (concat (map member_text ms) ++ member_body kv ++ [closing]) =
  match decode_all m (ms ++ [kv]) with Some m' => Some (m', []) | None => None end.
Proof.
  revert fuel m. induction ms as [|[k v] ms IH]; intros fuel m Hall Hf.
  - destruct fuel as [|fuel]; [simpl in Hf; lia|]. destruct kv as [k v].
    apply Forall_inv in Hall as [Hk Hv]. cbn [app map concat decode_all].
    rewrite parse_member by done. destruct (decoded v); done.
  - destruct fuel as [|fuel]; [simpl in Hf; lia|].
    cbn [app] in Hall. inversion Hall as [|? ? [Hk Hv] Hrest]; subst. cbn [fst snd] in *.
    cbn [app map concat decode_all].
    rewrite member_text_body. rewrite <- !app_assoc. cbn [app].
    rewrite parse_member by done. destruct (decoded v) as [t|]; [|done].
    change (skip_space (comma :: ?l)) with (comma :: l).
    cbv zeta. change (expect 44 (comma :: ?l)) with (Some l). cbv iota beta.
    apply IH; [done|]. simpl in Hf. lia.
Qed.

Lemma marshal_shape ms kv :
  marshal_members (ms ++ [kv]) =
  ascii_of_N 123 :: concat (map member_text ms) ++ member_body kv ++ [closing].
Proof.
  unfold marshal_members. cbv zeta. rewrite map_app, concat_app. cbn [map concat].
  rewrite app_nil_r, member_text_body.
  set (body := concat (map member_text ms)).
  change (bytes_of "{") with [ascii_of_N 123]. change (bytes_of "}") with [closing].
  rewrite !app_assoc.
  rewrite take_app_length; [done|]. rewrite app_length. simpl. lia.
Qed.

Lemma json_members ms kv :
  Forall (fun kv => plain_key kv.1 /\ unquoted kv.2) (ms ++ [kv]) ->
  json_unmarshal (marshal_members (ms ++ [kv])) =
  match decode_all ∅ (ms ++ [kv]) with
  | Some m => Ok m | None => Err "invalid character" end.
Proof.
  intros Hall. rewrite marshal_shape.
  set (body := concat (map member_text ms) ++ member_body kv ++ [closing]).
  unfold json_unmarshal. change (skip_space (ascii_of_N 123 :: body)) with (ascii_of_N 123 :: body).
  change (expect 123 (ascii_of_N 123 :: body)) with (Some body). cbv zeta iota beta.
  assert (exists rest, body = quote :: rest) as [rest Hb].
  { subst body. destruct ms as [|kv' ms]; [by eexists|]. cbn [map concat].
    rewrite member_text_body. by eexists. }
  assert (expect 125 (skip_space body) = None) as -> by (by rewrite Hb).
  unfold body at 2. rewrite parse_all; [|done|].
  - by destruct (decode_all _ _).
  - cbn [length]. subst body. rewrite app_length, app_length.
    assert (length ms <= length (concat (map member_text ms)))%nat; [|simpl; lia].
    clear. induction ms as [|kv ms IH]; [simpl; lia|]. cbn [map concat length].
    rewrite member_text_body, !app_length. simpl. lia.
Qed.

Lemma decode_all_lookup ms m m' :
  NoDup ms.*1 -> decode_all m ms = Some m' ->
  (forall k v, (k, v) ∈ ms -> m' !! k = decoded v) /\
  (forall k, k ∉ ms.*1 -> m' !! k = m !! k).
Proof.
  revert m. induction ms as [|[k v] ms IH]; intros m Hnd H; cbn in H.
  - injection H as <-. split; [|done]. intros k v Hin. by apply elem_of_nil in Hin.
  - cbn in Hnd. apply NoDup_cons in Hnd as [Hn Hnd].
    destruct (decoded v) as [t|] eqn:Ed; [|done].
    destruct (IH _ Hnd H) as [I1 I2]. split.
    + intros k' v' Hin. apply elem_of_cons in Hin as [E|Hin].
      * injection E as -> ->. rewrite I2 by done. by rewrite lookup_insert.
      * by apply I1.
    + intros k' Hk'. cbn in Hk'. apply not_elem_of_cons in Hk' as [Hne Hk'].
      rewrite I2 by done. by rewrite lookup_insert_ne.
Qed.

Lemma decode_all_some ms m :
  is_Some (decode_all m ms) <-> Forall (fun kv => is_Some (decoded kv.2)) ms.
Proof.
  revert m. induction ms as [|[k v] ms IH]; intros m; cbn.
  - split; [by constructor|by eexists].
  - rewrite Forall_cons. cbn. destruct (decoded v) as [t|].
    + rewrite IH. split; [intros; split; [by eexists|done]|tauto].
    + split; intros H; [by destruct H|]. destruct H as [[? ?] _]. done.
Qed.

Lemma json_permuted members l :
  Permutation members (label_members l) ->
  (forall p, p ∈ [starter_ref (lb_ref l); responder_ref (lb_ref l); lb_opponent l; lb_starter l] ->
     unquoted p) ->
  unmarshal_label (marshal_members members) =
  match decoded (starter_ref (lb_ref l)), decoded (responder_ref (lb_ref l)),
        decoded (lb_opponent l), decoded (lb_starter l) with
  | Some a, Some b, Some c, Some d => Ok (DLabel (DRef a b) c d)
  | _, _, _, _ => Err "invalid character"
  end.
Proof.
  intros Hp Hu.
  assert (Forall (fun kv => plain_key kv.1 /\ unquoted kv.2) members) as Hall.
  { rewrite Hp. unfold label_members.
    repeat apply Forall_cons_2; try apply Forall_nil_2; cbn [fst snd].
    all: split; [split; [split; vm_compute; intuition congruence|vm_compute; done]|].
    all: apply Hu; set_solver. }
  assert (NoDup members.*1) as Hnd.
  { rewrite Hp. unfold label_members. cbn. repeat constructor; set_solver. }
  destruct members as [|kv members _] using rev_ind.
  { apply Permutation_nil in Hp. done. }
  unfold unmarshal_label. rewrite json_members by done.
  destruct (decode_all ∅ (members ++ [kv])) as [m|] eqn:Ed.
  - destruct (decode_all_lookup _ _ _ Hnd Ed) as [Hl _].
    assert (forall k v, (k, v) ∈ label_members l -> m !! k = decoded v) as Hl'.
    { intros k v Hin. apply Hl. by rewrite Hp. }
    pose proof (proj1 (decode_all_some _ _) (ex_intro _ _ Ed)) as Hs.
    rewrite Hp in Hs. unfold label_members in Hs.
    repeat (apply Forall_cons in Hs as [? Hs]). cbn [fst snd] in *.
    cbn [rbind]. unfold member.
    rewrite (Hl' _ (starter_ref (lb_ref l))) by (unfold label_members; set_solver).
    rewrite (Hl' _ (responder_ref (lb_ref l))) by (unfold label_members; set_solver).
    rewrite (Hl' _ (lb_opponent l)) by (unfold label_members; set_solver).
    rewrite (Hl' _ (lb_starter l)) by (unfold label_members; set_solver).
    repeat match goal with H : is_Some (decoded _) |- _ => destruct H as [? ->] end. done.
  - cbn [rbind].
    assert (~ Forall (fun kv => is_Some (decoded kv.2)) (members ++ [kv])) as Hn.
    { rewrite <- (decode_all_some _ ∅). rewrite Ed. by intros [? ?]. }
    rewrite Hp in Hn. unfold label_members in Hn.
    destruct (decoded (starter_ref _)) eqn:E1; [|done].
    destruct (decoded (responder_ref _)) eqn:E2; [|done].
    destruct (decoded (lb_opponent _)) eqn:E3; [|done].
    destruct (decoded (lb_starter _)) eqn:E4; [|done].
    exfalso. apply Hn. repeat apply Forall_cons_2; try apply Forall_nil_2; cbn [fst snd]; by eexists.
Qed.
