(** Vocabulary for the target jacobian. *)
From Coq Require Import Permutation.
From Verif Require Import Base Img Types.
Open Scope Z_scope.

(** The middle of a list, or the mean of the two in the middle. *)
Definition is_median (l : list Q) (m : Q) : Prop :=
  exists s x y, Permutation s l /\
    (forall i j a b, 0 <= i <= j -> zget s i = Some a -> zget s j = Some b -> (a <= b)%Q) /\
    zget s ((zlen s - 1) / 2) = Some x /\ zget s (zlen s / 2) = Some y /\ (m == (x + y) / 2)%Q.

(** The first epochs: cutout 1 of every object that has one. *)
Inductive first_epochs : list obj -> list slot -> Prop :=
| fe_none : first_epochs [] []
| fe_skip : forall o l ss, o_ncut o <= 1 -> first_epochs l ss -> first_epochs (o :: l) ss
| fe_take : forall o l ss s, 2 <= o_ncut o -> zget (o_slots o) 1 = Some s -> first_epochs l ss ->
    first_epochs (o :: l) (s :: ss).

Notation jmat := (Q * Q * Q * Q)%type.
Definition det (j : jmat) : Q := let '(a, b, d, e) := j in (a * e - b * d)%Q.
Definition of_slot (s : slot) : jmat := (s_dudrow s, s_dudcol s, s_dvdrow s, s_dvdcol s).

(** Equal numbers, and element by element between two others. *)
Definition jeq (j k : jmat) : Prop :=
  let '(a, b, d, e) := j in let '(a', b', d', e') := k in (a == a' /\ b == b' /\ d == d' /\ e == e')%Q.
Definition jbetween (lo j hi : jmat) : Prop :=
  let '(a, b, d, e) := lo in let '(a', b', d', e') := j in let '(a'', b'', d'', e'') := hi in
  (a <= a' <= a'' /\ b <= b' <= b'' /\ d <= d' <= d'' /\ e <= e' <= e'')%Q.
