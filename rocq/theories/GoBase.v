(** Conventions shared by all models of the Go code.

    Nothing in this file models a function of /repo; it fixes how Go outcomes
    and machine integers are represented. *)
From Coq Require Import ZArith NArith List String Ascii Bool Lia.
From stdpp Require Import base list strings.
Import ListNotations.
Open Scope Z_scope.

(** Outcome of a Go call: normal return, [error] return (only the fact that an error is
    returned matters; the text is kept for readability), or a run-time panic, which ends
    the process because no code in /repo recovers. (No counterpart in /repo.) *)
Inductive res (A : Type) : Type :=
| Ok (a : A)
| Err (e : string)
| Panic (p : string).
Arguments Ok {A} a.
Arguments Err {A} e.
Arguments Panic {A} p.

(** No counterpart in /repo. *)
Definition rbind {A B} (x : res A) (f : A -> res B) : res B :=
  match x with
  | Ok a => f a
  | Err e => Err e
  | Panic p => Panic p
  end.

(** No counterpart in /repo. *)
Notation "'let*' x ':=' e 'in' k" := (rbind e (fun x => k))
  (at level 200, x pattern, e at level 100, k at level 200, right associativity).

(** No counterpart in /repo. *)
Definition is_ok {A} (x : res A) : bool :=
  match x with Ok _ => true | _ => false end.
(** No counterpart in /repo. *)
Definition is_err {A} (x : res A) : bool :=
  match x with Err _ => true | _ => false end.
(** No counterpart in /repo. *)
Definition is_panic {A} (x : res A) : bool :=
  match x with Panic _ => true | _ => false end.

(** Two's-complement reduction of an integer to 64 and 32 bits: Go's [int] (on 64-bit
    platforms) / [int64] and [int32] conversions. (No counterpart in /repo.) *)
Definition wrap64 (z : Z) : Z := (z + 2 ^ 63) mod 2 ^ 64 - 2 ^ 63.
(** No counterpart in /repo. *)
Definition wrap32 (z : Z) : Z := (z + 2 ^ 31) mod 2 ^ 32 - 2 ^ 31.

(** [xs[i]] of a Go slice: panics when [i] is out of range. (No counterpart in /repo.)
    *)
Definition index {A} (xs : list A) (i : Z) : res A :=
  if i <? 0 then Panic "index out of range"
  else match nth_error xs (Z.to_nat i) with
       | Some x => Ok x
       | None => Panic "index out of range"
       end.

Lemma wrap64_id z : - 2 ^ 63 <= z < 2 ^ 63 -> wrap64 z = z.
Proof. intros. unfold wrap64. rewrite Z.mod_small; lia. Qed.

Lemma wrap32_id z : - 2 ^ 31 <= z < 2 ^ 31 -> wrap32 z = z.
Proof. intros. unfold wrap32. rewrite Z.mod_small; lia. Qed.

Lemma nth_error_is_lookup {A} (xs : list A) (n : nat) : nth_error xs n = xs !! n.
Proof. revert n. induction xs as [|x xs IH]; intros [|n]; simpl; auto. Qed.
