(** UTF-8 as Go's unicode/utf8 understands it (RFC 3629: no overlong forms, no
    surrogates, nothing above 10FFFF). The standard library is not part of /repo;
    this is its documented behaviour, used by the models of protobuf and JSON. *)
From Coq Require Import ZArith NArith List String Ascii Lia.
From stdpp Require Import base tactics list strings.
From Verif Require Import GoBase Bytes.
Open Scope Z_scope.

(** No counterpart in /repo (standard library, called through proto.Marshal at acn/utils.go:133 and json.Unmarshal at dialogue_label.go:107). *)
Definition between (lo : Z) (b : byte) (hi : Z) : bool := (lo <=? b2z b) && (b2z b <=? hi).
(** No counterpart in /repo (standard library, called through proto.Marshal at acn/utils.go:133 and json.Unmarshal at dialogue_label.go:107). *)
Definition cont (b : byte) : bool := between 128 b 191.

(** No counterpart in /repo (standard library, called through proto.Marshal at acn/utils.go:133 and json.Unmarshal at dialogue_label.go:107). *)
Definition rune1 (b0 : byte) : bool := b2z b0 <? 128.
(** No counterpart in /repo (standard library, called through proto.Marshal at acn/utils.go:133 and json.Unmarshal at dialogue_label.go:107). *)
Definition rune2 (b0 b1 : byte) : bool := between 194 b0 223 && cont b1.
(** No counterpart in /repo (standard library, called through proto.Marshal at acn/utils.go:133 and json.Unmarshal at dialogue_label.go:107). *)
Definition rune3 (b0 b1 b2 : byte) : bool :=
  ((between 224 b0 224 && between 160 b1 191) ||
   (between 225 b0 236 && cont b1) ||
   (between 237 b0 237 && between 128 b1 159) ||
   (between 238 b0 239 && cont b1)) && cont b2.
(** No counterpart in /repo (standard library, called through proto.Marshal at acn/utils.go:133 and json.Unmarshal at dialogue_label.go:107). *)
Definition rune4 (b0 b1 b2 b3 : byte) : bool :=
  ((between 240 b0 240 && between 144 b1 191) ||
   (between 241 b0 243 && cont b1) ||
   (between 244 b0 244 && between 128 b1 143)) && cont b2 && cont b3.

(** utf8.Valid. (No counterpart in /repo (standard library, called through proto.Marshal
    at acn/utils.go:133 and json.Unmarshal at dialogue_label.go:107).) *)
Fixpoint utf8_valid (l : bytes) : bool :=
  match l with
  | [] => true
  | b0 :: r0 =>
      if rune1 b0 then utf8_valid r0
      else match r0 with
      | [] => false
      | b1 :: r1 =>
          if rune2 b0 b1 then utf8_valid r1
          else match r1 with
          | [] => false
          | b2 :: r2 =>
              if rune3 b0 b1 b2 then utf8_valid r2
              else match r2 with
              | [] => false
              | b3 :: r3 => if rune4 b0 b1 b2 b3 then utf8_valid r3 else false
              end
          end
      end
  end.

(** No counterpart in /repo (standard library, called through proto.Marshal at acn/utils.go:133 and json.Unmarshal at dialogue_label.go:107). *)
Definition valid_text (s : string) : bool := utf8_valid (bytes_of s).

Lemma utf8_valid_ascii l : forallb rune1 l = true -> utf8_valid l = true.
Proof.
  induction l as [|b l IH]; [done|]. simpl. intros H. apply andb_true_iff in H as [H1 H2].
  rewrite H1. by apply IH.
Qed.

(** Induction along the runes of a valid text. *)
Lemma utf8_ind (P : bytes -> Prop) :
  P [] ->
  (forall b0 l, rune1 b0 = true -> utf8_valid l = true -> P l -> P (b0 :: l)) ->
  (forall b0 b1 l, rune1 b0 = false -> rune2 b0 b1 = true -> utf8_valid l = true -> P l ->
     P (b0 :: b1 :: l)) ->
  (forall b0 b1 b2 l, rune1 b0 = false -> rune2 b0 b1 = false -> rune3 b0 b1 b2 = true ->
     utf8_valid l = true -> P l -> P (b0 :: b1 :: b2 :: l)) ->
  (forall b0 b1 b2 b3 l, rune1 b0 = false -> rune2 b0 b1 = false -> rune3 b0 b1 b2 = false ->
     rune4 b0 b1 b2 b3 = true ->
     utf8_valid l = true -> P l -> P (b0 :: b1 :: b2 :: b3 :: l)) ->
  forall l, utf8_valid l = true -> P l.
Proof.
  intros H0 H1 H2 H3 H4 l. remember (length l) as n eqn:Hn. revert l Hn.
  induction (lt_wf n) as [n _ IH]. intros l -> Hv.
  destruct l as [|b0 r0]; [done|]. simpl in Hv.
  destruct (rune1 b0) eqn:E1.
  { apply H1; try done. eapply IH; [|done|done]. simpl. lia. }
  destruct r0 as [|b1 r1]; [done|].
  destruct (rune2 b0 b1) eqn:E2.
  { apply H2; try done. eapply IH; [|done|done]. simpl. lia. }
  destruct r1 as [|b2 r2]; [done|].
  destruct (rune3 b0 b1 b2) eqn:E3.
  { apply H3; try done. eapply IH; [|done|done]. simpl. lia. }
  destruct r2 as [|b3 r3]; [done|].
  destruct (rune4 b0 b1 b2 b3) eqn:E4; [|done].
  apply H4; try done. eapply IH; [|done|done]. simpl. lia.
Qed.

Lemma utf8_valid_app l1 l2 :
  utf8_valid l1 = true -> utf8_valid (l1 ++ l2) = utf8_valid l2.
Proof.
  revert l1. apply utf8_ind; simpl; intros.
  - done.
  - by rewrite H.
  - by rewrite H, H0.
  - by rewrite H, H0, H1.
  - by rewrite H, H0, H1, H2.
Qed.
