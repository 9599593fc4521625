(** Round trips of the wire format. *)
From Coq Require Import ZArith NArith List String Ascii Lia.
From stdpp Require Import base tactics list strings.
From Verif Require Import GoBase Bytes Utf8 WireModel.
Open Scope string_scope.
Open Scope list_scope.
Open Scope Z_scope.

Lemma get_put_varint_n n z rest :
  0 <= z < 2 ^ (7 * Z.of_nat n + 1) ->
  get_varint_n (S n) (put_varint_n (S n) z ++ rest) = Some (z, rest).
Proof.
  revert z. induction n as [|n IH]; intros z Hz.
  - change (2 ^ (7 * Z.of_nat 0 + 1)) with 2 in Hz.
    cbn [put_varint_n]. destruct (Z.ltb_spec z 128); [|lia].
    cbn [app get_varint_n]. rewrite b2z_z2b_id by lia.
    destruct (Z.ltb_spec z 128); [|lia]. destruct (Z.leb_spec z 1); [done|lia].
  - cbn [put_varint_n]. destruct (Z.ltb_spec z 128).
    + cbn [app get_varint_n]. rewrite b2z_z2b_id by lia.
      destruct (Z.ltb_spec z 128); [done|lia].
    + pose proof (Z.mod_pos_bound z 128).
      remember (S n) as k eqn:Hk. cbn [app get_varint_n]. rewrite b2z_z2b_id by lia.
      destruct (Z.ltb_spec (128 + z mod 128) 128); [lia|].
      fold (put_varint_n k (z / 128)). subst k.
      change (if z / 128 <? 128 then [z2b (z / 128)]
        else z2b (128 + (z / 128) mod 128) :: put_varint_n n (z / 128 / 128))
        with (put_varint_n (S n) (z / 128)).
      rewrite IH.
      * f_equal. f_equal. pose proof (Z.div_mod z 128). lia.
      * split; [apply Z.div_pos; lia|]. apply Z.div_lt_upper_bound; [lia|].
        replace (7 * Z.of_nat (S n) + 1) with (7 + (7 * Z.of_nat n + 1)) in Hz by lia.
        rewrite Z.pow_add_r in Hz by lia. lia.
Qed.

Lemma get_put_varint z rest :
  0 <= z < 2 ^ 64 -> get_varint (put_varint z ++ rest) = Some (z, rest).
Proof. intros Hz. apply get_put_varint_n. exact Hz. Qed.

Lemma put_varint_cons z : exists b l, put_varint z = b :: l.
Proof.
  unfold put_varint. cbn [put_varint_n]. destruct (z <? 128); by eexists _, _.
Qed.

(** Fields that can be written and read again. *)
Definition field_ok (f : Z * wval) : Prop :=
  1 <= f.1 <= 2 ^ 29 - 1 /\
  match f.2 with
  | WVarint z => 0 <= z < 2 ^ 64
  | WBytes b => Z.of_nat (length b) < 2 ^ 64
  | _ => False
  end.

Lemma get_put_tag num typ limit rest :
  1 <= num <= limit -> limit < 2 ^ 61 -> 0 <= typ < 8 ->
  get_tag limit (put_varint (8 * num + typ) ++ rest) = Some (num, typ, rest).
Proof.
  intros Hn Hl Ht. unfold get_tag. rewrite get_put_varint by lia.
  replace ((8 * num + typ) / 8) with num.
  2: { rewrite Z.mul_comm, Z.div_add_l by lia. rewrite Z.div_small; lia. }
  replace ((8 * num + typ) mod 8) with typ.
  2: { rewrite Z.add_comm, Z.mul_comm, Z_mod_plus_full. by rewrite Z.mod_small. }
  destruct (Z.ltb_spec num 1); [lia|]. destruct (Z.ltb_spec limit num); [lia|]. done.
Qed.

Lemma get_put_bytes b rest :
  Z.of_nat (length b) < 2 ^ 64 ->
  get_bytes (put_varint (Z.of_nat (length b)) ++ b ++ rest) = Some (b, rest).
Proof.
  intros Hb. unfold get_bytes. rewrite get_put_varint by lia.
  rewrite app_length. destruct (Z.ltb_spec (Z.of_nat (length b + length rest)) (Z.of_nat (length b))); [lia|].
  rewrite Nat2Z.id. by rewrite take_app, drop_app.
Qed.

Lemma get_put_field f rest :
  field_ok f ->
  exists typ r, get_tag (2 ^ 29 - 1) (put_field f ++ rest) = Some (f.1, typ, r) /\
    get_value f.1 typ r = Some (f.2, rest).
Proof.
  destruct f as [num v]. intros [Hn Hv]. cbn [fst snd] in *. unfold put_field. cbn [fst snd].
  destruct v as [z| |b| |]; try done.
  - exists 0, (put_varint z ++ rest). rewrite <- app_assoc. split.
    + rewrite <- (Z.add_0_r (8 * num)). apply get_put_tag; lia.
    + unfold get_value, get_flat. cbn [Z.eqb]. by rewrite get_put_varint.
  - exists 2, (put_varint (Z.of_nat (length b)) ++ b ++ rest). rewrite <- !app_assoc. split.
    + apply get_put_tag; lia.
    + unfold get_value, get_flat. cbn [Z.eqb]. by rewrite get_put_bytes.
Qed.

Lemma put_field_cons f : field_ok f -> exists b l, put_field f = b :: l.
Proof.
  destruct f as [num v]. intros [_ Hv]. unfold put_field. cbn [fst snd] in *.
  destruct v as [z| |b| |]; try done.
  - destruct (put_varint_cons (8 * num)) as (b & l & ->). by eexists _, _.
  - destruct (put_varint_cons (8 * num + 2)) as (b' & l & ->). by eexists _, _.
Qed.

Lemma get_put_fields_n fs rest n gs :
  Forall field_ok fs ->
  get_fields_n n rest = Some gs ->
  get_fields_n (length fs + n) (put_fields fs ++ rest) = Some (fs ++ gs).
Proof.
  intros Hok Hr. induction fs as [|f fs IH]; [done|].
  inversion Hok as [|? ? Hf Hfs]; subst.
  unfold put_fields. cbn [map concat]. rewrite <- app_assoc.
  destruct (put_field_cons f Hf) as (b & l & E).
  destruct (get_put_field f (put_fields fs ++ rest) Hf) as (typ & r & E1 & E2).
  change (concat (map put_field fs)) with (put_fields fs).
  rewrite E. cbn [app length plus get_fields_n]. rewrite E in E1. cbn [app] in E1. rewrite E1.
  rewrite E2. rewrite IH by done. by destruct f.
Qed.

(** More fuel does not change a successful reading. *)
Lemma get_fields_fuel n m l fs :
  get_fields_n n l = Some fs -> (n <= m)%nat -> get_fields_n m l = Some fs.
Proof.
  revert m l fs. induction n as [|n IH]; intros m l fs H Hm.
  - destruct l; [|done]. by destruct m.
  - destruct l as [|b l]; [by destruct m|]. destruct m as [|m]; [lia|].
    cbn [get_fields_n] in *. destruct (get_tag _ _) as [[[num typ] r]|]; [|done].
    destruct (get_value _ _ _) as [[v r']|]; [|done].
    destruct (get_fields_n n r') eqn:E; [|done]. by rewrite (IH m r' _ E ltac:(lia)).
Qed.

Lemma put_fields_length fs : Forall field_ok fs -> (length fs <= length (put_fields fs))%nat.
Proof.
  induction 1 as [|f fs Hf _ IH]; [simpl; lia|].
  unfold put_fields in *. cbn [map concat length]. rewrite app_length.
  destruct (put_field_cons f Hf) as (b & l & ->). simpl. lia.
Qed.

Lemma get_put_fields fs : Forall field_ok fs -> get_fields (put_fields fs) = Some fs.
Proof.
  intros Hok. unfold get_fields.
  eapply get_fields_fuel; [|by apply put_fields_length].
  pose proof (get_put_fields_n fs [] 0 [] Hok eq_refl) as H.
  by rewrite !app_nil_r, Nat.add_0_r in H.
Qed.

Lemma get_fields_app l fs gs k :
  Forall field_ok fs -> get_fields k = Some gs ->
  l = put_fields fs ++ k -> get_fields l = Some (fs ++ gs).
Proof.
  intros Hok Hk ->. unfold get_fields in *.
  eapply get_fields_fuel; [by apply get_put_fields_n|].
  rewrite app_length. pose proof (put_fields_length fs Hok). lia.
Qed.

(** Fields whose lengths are not bounded. *)
Definition field_pre (f : Z * wval) : Prop :=
  1 <= f.1 <= 2 ^ 29 - 1 /\
  match f.2 with WVarint z => 0 <= z < 2 ^ 64 | WBytes _ => True | _ => False end.

Lemma field_bound fs :
  Forall field_pre fs -> Z.of_nat (length (put_fields fs)) < 2 ^ 63 -> Forall field_ok fs.
Proof.
  induction 1 as [|[num v] fs [H1 H2] Hfs IH]; intros Hl; [constructor|].
  unfold put_fields in Hl. cbn [map concat] in Hl. rewrite app_length in Hl.
  constructor; [|apply IH; unfold put_fields; lia].
  split; [done|]. destruct v; try done. cbn [fst snd] in *.
  unfold put_field in Hl. cbn [fst snd] in Hl. rewrite !app_length in Hl. lia.
Qed.

(** * Typed fields *)

Lemma w_all_cons p ps fs :
  w_all (p :: ps) = Some fs ->
  exists f1 f2, p = Some f1 /\ w_all ps = Some f2 /\ fs = f1 ++ f2.
Proof.
  cbn [w_all]. destruct p as [f1|]; [|done]. destruct (w_all ps) as [f2|]; [|done].
  intros [= <-]. by exists f1, f2.
Qed.

Lemma w_all_none ps : w_all ps = None <-> None ∈ ps.
Proof.
  induction ps as [|p ps IH]; cbn [w_all].
  - split; [done|]. intros H. by apply elem_of_nil in H.
  - rewrite elem_of_cons. destruct p as [f|].
    + destruct (w_all ps); rewrite <- IH; intuition congruence.
    + intuition.
Qed.

Lemma fold_app {A} (f : A -> Z -> wval -> option A) a fs gs :
  fold_fields f a (fs ++ gs) =
  match fold_fields f a fs with Some a' => fold_fields f a' gs | None => None end.
Proof.
  revert a. induction fs as [|[n v] fs IH]; intros a; [done|]. cbn [app fold_fields].
  destruct (f a n v); [apply IH|done].
Qed.

Lemma text_of_valid s : valid_text s = true -> text_of (bytes_of s) = Some s.
Proof. unfold text_of, valid_text. intros ->. by rewrite bytes_string. Qed.

Lemma w_string_none n s : w_string n s = None <-> valid_text s = false.
Proof.
  unfold w_string. destruct (String.eqb_spec s "") as [->|]; [done|].
  destruct (valid_text s); done.
Qed.

Lemma w_strings_none n ss : w_strings n ss = None <-> exists s, In s ss /\ valid_text s = false.
Proof.
  induction ss as [|s ss IH]; cbn [w_strings].
  - split; [done|]. by intros (? & [] & _).
  - destruct (valid_text s) eqn:E.
    + destruct (w_strings n ss); split; intros H; try done.
      * destruct H as (t & [<-|Ht] & Hv); [congruence|].
        assert (@None (list (Z * wval)) = None) as _ by done.
        assert (Some l = None) by (apply IH; by exists t). done.
      * destruct (proj1 IH eq_refl) as (t & Ht & Hv). exists t. simpl. auto.
    + split; [|done]. intros _. exists s. simpl. auto.
Qed.

Lemma w_string_pre n s fs : 1 <= n <= 2 ^ 29 - 1 -> w_string n s = Some fs -> Forall field_pre fs.
Proof.
  unfold w_string. intros Hn. destruct (String.eqb s ""); [intros [= <-]; constructor|].
  destruct (valid_text s); [|done]. intros [= <-]. constructor; [by split|constructor].
Qed.
Lemma w_bytes_pre n b fs : 1 <= n <= 2 ^ 29 - 1 -> w_bytes n b = Some fs -> Forall field_pre fs.
Proof.
  unfold w_bytes. intros Hn. destruct b; [intros [= <-]; constructor|]. intros [= <-]. constructor; [by split|constructor].
Qed.
Lemma w_int32_pre n z fs : 1 <= n <= 2 ^ 29 - 1 -> w_int32 n z = Some fs -> Forall field_pre fs.
Proof.
  unfold w_int32. intros Hn. destruct (z =? 0); [intros [= <-]; constructor|]. intros [= <-].
  constructor; [|constructor]. split; [done|]. apply Z.mod_pos_bound. lia.
Qed.
Lemma w_strings_pre n ss fs : 1 <= n <= 2 ^ 29 - 1 -> w_strings n ss = Some fs -> Forall field_pre fs.
Proof.
  intros Hn. revert fs. induction ss as [|s ss IH]; cbn [w_strings]; intros fs H.
  - injection H as <-. constructor.
  - destruct (valid_text s); [|done]. destruct (w_strings n ss); [|done]. injection H as <-.
    constructor; [by split|]. by apply IH.
Qed.
Lemma w_message_pre {A} n (enc : A -> option bytes) m fs :
  1 <= n <= 2 ^ 29 - 1 -> w_message n enc m = Some fs -> Forall field_pre fs.
Proof.
  unfold w_message. intros Hn. destruct m as [a|]; [|intros [= <-]; constructor].
  destruct (enc a); [|done]. intros [= <-]. constructor; [by split|constructor].
Qed.

(** Effect of reading what was written. *)
Lemma fold_w_string {A} f (a : A) n s fs rest (set : string -> A) :
  w_string n s = Some fs ->
  (forall b, f a n (WBytes b) = match text_of b with Some t => Some (set t) | None => None end) ->
  set "" = a ->
  fold_fields f a (fs ++ rest) = fold_fields f (set s) rest.
Proof.
  unfold w_string. intros Hw Hf Hs. destruct (String.eqb_spec s "") as [->|].
  - injection Hw as <-. by rewrite Hs.
  - destruct (valid_text s) eqn:E; [|done]. injection Hw as <-.
    cbn [app fold_fields]. by rewrite Hf, text_of_valid.
Qed.

Lemma fold_w_bytes {A} f (a : A) n b fs rest (set : bytes -> A) :
  w_bytes n b = Some fs ->
  (forall b, f a n (WBytes b) = Some (set b)) ->
  set [] = a ->
  fold_fields f a (fs ++ rest) = fold_fields f (set b) rest.
Proof.
  unfold w_bytes. intros Hw Hf Hs. destruct b.
  - injection Hw as <-. by rewrite Hs.
  - injection Hw as <-. cbn [app fold_fields]. by rewrite Hf.
Qed.

Lemma wrap32_mod64 z : wrap32 (z mod 2 ^ 64) = wrap32 z.
Proof.
  unfold wrap32. f_equal.
  rewrite (Z.add_mod (z mod 2 ^ 64)) by lia. rewrite (Z.add_mod z) by lia.
  f_equal. f_equal. change (2 ^ 64) with (2 ^ 32 * 2 ^ 32).
  rewrite Z.rem_mul_r by lia. rewrite Z.mul_comm, Z.mod_add by lia. apply Z.mod_mod. lia.
Qed.

Lemma fold_w_int32 {A} f (a : A) n z fs rest (set : Z -> A) :
  w_int32 n z = Some fs ->
  (forall z, f a n (WVarint z) = Some (set (wrap32 z))) ->
  set 0 = a -> - 2 ^ 31 <= z < 2 ^ 31 ->
  fold_fields f a (fs ++ rest) = fold_fields f (set z) rest.
Proof.
  unfold w_int32. intros Hw Hf Hs Hz. destruct (Z.eqb_spec z 0) as [->|].
  - injection Hw as <-. by rewrite Hs.
  - injection Hw as <-. cbn [app fold_fields]. by rewrite Hf, wrap32_mod64, wrap32_id.
Qed.

Lemma fold_w_strings {A} f (a : A) n ss fs rest (add : A -> string -> A) :
  w_strings n ss = Some fs ->
  (forall a b, f a n (WBytes b) = match text_of b with Some t => Some (add a t) | None => None end) ->
  fold_fields f a (fs ++ rest) = fold_fields f (fold_left add ss a) rest.
Proof.
  revert a fs. induction ss as [|s ss IH]; cbn [w_strings]; intros a fs H Hf.
  - by injection H as <-.
  - destruct (valid_text s) eqn:E; [|done]. destruct (w_strings n ss) as [gs|]; [|done].
    injection H as <-. cbn [app fold_fields fold_left]. rewrite Hf, text_of_valid by done. by apply IH.
Qed.

Lemma decode_parts {A} (f : A -> Z -> wval -> option A) a parts out fs :
  w_all parts = Some fs -> put_fields fs = out ->
  Forall field_pre fs -> Z.of_nat (length out) < 2 ^ 63 ->
  decode_into f a out = fold_fields f a fs.
Proof.
  intros Hw <- Hp Hl. unfold decode_into. rewrite get_put_fields; [done|]. by apply field_bound.
Qed.

Lemma encode_parts_some parts out :
  encode_parts parts = Some out -> exists fs, w_all parts = Some fs /\ put_fields fs = out.
Proof. unfold encode_parts. destruct (w_all parts); [|done]. intros [= <-]. by eexists. Qed.

Lemma encode_parts_none parts : encode_parts parts = None <-> None ∈ parts.
Proof. unfold encode_parts. rewrite <- w_all_none. by destruct (w_all parts). Qed.

(** * Fuel *)

Lemma get_varint_n_shorter n l v r : get_varint_n n l = Some (v, r) -> (length r < length l)%nat.
Proof.
  revert l v r. induction n as [|n IH]; intros l v r H; [done|].
  destruct l as [|b l]; [done|]. cbn [get_varint_n] in H.
  destruct (b2z b <? 128).
  - assert (l = r) as ->; [|simpl; lia].
    destruct n; [destruct (b2z b <=? 1); [|done]|]; by injection H.
  - destruct (get_varint_n n l) as [[v' r']|] eqn:E; [|done]. injection H as _ <-.
    apply IH in E. simpl. lia.
Qed.

Lemma get_tag_shorter lim l num typ r : get_tag lim l = Some (num, typ, r) -> (length r < length l)%nat.
Proof.
  unfold get_tag, get_varint. destruct (get_varint_n 10 l) as [[v r']|] eqn:E; [|done].
  destruct (_ || _); [done|]. intros [= _ _ <-]. by eapply get_varint_n_shorter.
Qed.

Lemma get_flat_shorter typ l v r : get_flat typ l = Some (v, r) -> (length r <= length l)%nat.
Proof.
  unfold get_flat, get_varint, get_bytes, drop_exactly, get_varint.
  destruct (typ =? 0).
  { destruct (get_varint_n 10 l) as [[? ?]|] eqn:E; [|done]. intros [= _ <-].
    apply get_varint_n_shorter in E. lia. }
  destruct (typ =? 1).
  { destruct (length l <? 8)%nat; [done|]. intros [= _ <-]. rewrite drop_length. lia. }
  destruct (typ =? 2).
  { destruct (get_varint_n 10 l) as [[n r']|] eqn:E; [|done]. apply get_varint_n_shorter in E.
    destruct (Z.of_nat (length r') <? n); [done|]. intros [= _ <-]. rewrite drop_length. lia. }
  destruct (typ =? 5); [|done].
  destruct (length l <? 4)%nat; [done|]. intros [= _ <-]. rewrite drop_length. lia.
Qed.

Lemma skip_group_shorter fuel num l r : skip_group fuel num l = Some r -> (length r < length l)%nat.
Proof.
  revert num l r. induction fuel as [|fuel IH]; intros num l r H; [done|].
  cbn [skip_group] in H. destruct (get_tag _ l) as [[[n2 typ] r0]|] eqn:E; [|done].
  apply get_tag_shorter in E. destruct (typ =? 4).
  - destruct (n2 =? num); [|done]. by injection H as <-.
  - destruct (typ =? 3).
    + destruct (skip_group fuel n2 r0) as [r1|] eqn:E1; [|done].
      apply IH in E1. apply IH in H. lia.
    + destruct (get_flat typ r0) as [[v r1]|] eqn:E1; [|done].
      apply get_flat_shorter in E1. apply IH in H. lia.
Qed.

(** The fuel of [skip_group] does not matter once it covers the input. *)
Lemma skip_group_fuel n m num l :
  (length l <= n)%nat -> (length l <= m)%nat -> skip_group n num l = skip_group m num l.
Proof.
  revert m num l. induction n as [|n IH]; intros m num l Hn Hm.
  - destruct l; [|simpl in Hn; lia]. destruct m; done.
  - destruct m as [|m].
    { destruct l; [|simpl in Hm; lia]. done. }
    cbn [skip_group]. destruct (get_tag _ l) as [[[n2 typ] r0]|] eqn:E; [|done].
    apply get_tag_shorter in E. destruct (typ =? 4); [done|].
    destruct (typ =? 3).
    + rewrite (IH m n2 r0) by lia. destruct (skip_group m n2 r0) as [r1|] eqn:E1; [|done].
      apply skip_group_shorter in E1. apply IH; lia.
    + destruct (get_flat typ r0) as [[v r1]|] eqn:E1; [|done].
      apply get_flat_shorter in E1. apply IH; lia.
Qed.

Lemma get_value_shorter num typ l v r : get_value num typ l = Some (v, r) -> (length r <= length l)%nat.
Proof.
  unfold get_value. destruct (typ =? 3).
  - destruct (skip_group _ _ _) eqn:E; [|done]. intros [= _ <-]. apply skip_group_shorter in E. lia.
  - apply get_flat_shorter.
Qed.

Lemma get_fields_stable n m l :
  (length l <= n)%nat -> (length l <= m)%nat -> get_fields_n n l = get_fields_n m l.
Proof.
  revert m l. induction n as [|n IH]; intros m l Hn Hm.
  - destruct l; [|simpl in Hn; lia]. by destruct m.
  - destruct l as [|b l]; [by destruct m|]. destruct m as [|m]; [simpl in Hm; lia|].
    cbn [get_fields_n]. destruct (get_tag _ _) as [[[num typ] r]|] eqn:E; [|done].
    apply get_tag_shorter in E. destruct (get_value _ _ _) as [[v r']|] eqn:E1; [|done].
    apply get_value_shorter in E1. cbn [length] in *. by rewrite (IH m r') by lia.
Qed.

(** Reading in front of any text. *)
Lemma get_fields_cons f l :
  field_ok f ->
  get_fields (put_field f ++ l) =
  match get_fields l with Some fs => Some (f :: fs) | None => None end.
Proof.
  intros Hf. unfold get_fields. destruct (put_field_cons f Hf) as (b & k & E).
  destruct (get_put_field f l Hf) as (typ & r & E1 & E2).
  rewrite E in *. cbn [app length get_fields_n] in *. rewrite E1, E2.
  rewrite (get_fields_stable _ (length l) l); [|rewrite app_length; lia|lia].
  by destruct f, (get_fields_n (length l) l).
Qed.

Lemma decode_ignored {A} (f : A -> Z -> wval -> option A) a g l :
  field_ok g -> (forall a, f a g.1 g.2 = Some a) ->
  decode_into f a (put_field g ++ l) = decode_into f a l.
Proof.
  intros Hg Hf. unfold decode_into. rewrite get_fields_cons by done.
  destruct (get_fields l); [|done]. destruct g. cbn [fold_fields fst snd] in *. by rewrite Hf.
Qed.
