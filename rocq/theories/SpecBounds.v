(** Specification vocabulary for bounds. *)
From Verif Require Import Base BoundsM.
Open Scope Q_scope.

Definition inside (b : bounds) (r c : Q) : Prop := rowmin b <= r <= rowmax b /\ colmin b <= c <= colmax b.
Definition interior (b : bounds) (r c : Q) : Prop :=
  (rowmin b < r /\ r < rowmax b) /\ (colmin b < c /\ c < colmax b).
Definition proper (b : bounds) : Prop := rowmin b <= rowmax b /\ colmin b <= colmax b.

(** [b] has the property and lies in all bounds that have it. *)
Definition smallest (b : bounds) (P : bounds -> Prop) : Prop :=
  P b /\ forall x, P x -> contains_bounds x b = true.
