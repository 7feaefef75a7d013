(** Vocabulary for the accessors that return lists. *)
From Verif Require Import Base.
Open Scope Z_scope.

(** [r] is what asking [one] for 0, 1, ... up to [n] gives: all the answers, or the first exception. *)
Definition listed {A} (n : Z) (one : Z -> res A) (r : res (list A)) : Prop :=
  match r with
  | Ok l => zlen l = n /\ forall k, 0 <= k < n -> exists x, one k = Ok x /\ zget l k = Some x
  | Err e => exists k, 0 <= k < n /\ one k = Err e /\ forall j, 0 <= j < k -> exists x, one j = Ok x
  end.
