(** Model of the generic set of the agent library:
    /repo/libs/go/aealite/helpers/base.go, lines 23-113. *)
From Coq Require Import ZArith List.
From stdpp Require Import base gmap list.
From Verif Require Import GoBase.

(** base.go:34-36. [Set] wraps [map[Generic]bool]. The element type
    [interface{}] is instantiated by one countable type [K] (every use in /repo
    stores elements of one dynamic type per set). A nil container (the zero
    [Set]) reads like the empty map; no modelled caller writes to one. *)
Notation hset K := (gmap K bool).

Section HSet.
  Context {K : Type} `{Countable K}.

  (** base.go:94-98 NewSet. *)
  Definition hs_new : hset K := ∅.

  (** base.go:55-57 Add. *)
  Definition hs_add (s : hset K) (x : K) : hset K := <[x := true]> s.

  (** base.go:60-62 Remove. *)
  Definition hs_remove (s : hset K) (x : K) : hset K := delete x s.

  (** base.go:65-68 Contains: [val, ok := container[element]; return val && ok]. *)
  Definition hs_contains (s : hset K) (x : K) : bool :=
    match s !! x with
    | Some val => val
    | None => false
    end.

  (** base.go:71-73 Size. *)
  Definition hs_size (s : hset K) : nat := size s.

  (** base.go:39-43 AddFromArray. *)
  Definition hs_add_from_array (s : hset K) (xs : list K) : hset K :=
    fold_left hs_add xs s.

  (** base.go:46-52 ToArray. Go returns the keys in an unspecified order; the
      model returns the one of [map_to_list], and theorems about it are stated
      up to permutation. *)
  Definition hs_to_array (s : hset K) : list K := (map_to_list s).*1.

  (** base.go:76-82 Copy: a new set to which every key is added. Sets are values
      in the model; programs that update several sets in place are [set_op]
      below. *)
  Definition hs_copy (s : hset K) : hset K := fold_left hs_add (hs_to_array s) hs_new.

  (** base.go:85-91 Difference. *)
  Definition hs_difference (s1 s2 : hset K) : hset K :=
    fold_left hs_remove (hs_to_array s2) (hs_copy s1).

  (** base.go:101-113 NewSetFromArray (with fromInterfaceToGenericArray, which
      only changes the static type of the elements). *)
  Definition hs_from_array (xs : list K) : hset K := hs_add_from_array hs_new xs.

  (** A program using sets: every constructor call creates a new container, named by its
      position in the list of containers; the other calls name the containers they work
      on. Calls on a container that does not exist are not expressible in Go and do
      nothing here. (helpers/base.go:39-105.) *)
  Inductive set_op :=
  | SNew                        (* base.go:94-98 *)
  | SFromArray (xs : list K)    (* base.go:101-105 *)
  | SAdd (i : nat) (x : K)      (* base.go:55-57 *)
  | SRemove (i : nat) (x : K)   (* base.go:60-62 *)
  | SAddAll (i : nat) (xs : list K)   (* base.go:39-43 *)
  | SCopy (i : nat)             (* base.go:76-82 *)
  | SDifference (i j : nat).    (* base.go:85-91 *)

  (** helpers/base.go:39-105: one call. *)
  Definition set_step (sets : list (hset K)) (o : set_op) : list (hset K) :=
    match o with
    | SNew => sets ++ [hs_new]
    | SFromArray xs => sets ++ [hs_from_array xs]
    | SAdd i x => alter (fun s => hs_add s x) i sets
    | SRemove i x => alter (fun s => hs_remove s x) i sets
    | SAddAll i xs => alter (fun s => hs_add_from_array s xs) i sets
    | SCopy i => match sets !! i with
                 | Some s => sets ++ [hs_copy s]
                 | None => sets
                 end
    | SDifference i j => match sets !! i, sets !! j with
                         | Some s1, Some s2 => sets ++ [hs_difference s1 s2]
                         | _, _ => sets
                         end
    end.

  (** No counterpart in /repo: a program using the sets. *)
  Definition set_run (ops : list set_op) : list (hset K) := fold_left set_step ops [].
End HSet.
Arguments set_op K : clear implicits.
