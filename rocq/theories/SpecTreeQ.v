(** Specification vocabulary for the further queries of the tree. *)
From Coq Require Import Permutation.
From Verif Require Import Base Fast3tree.
Open Scope Z_scope.

(** The point lies in the box, borders included. *)
Definition in_box (b : box) (p : pt) : Prop := forall d, (lo d b <= coord d p <= hi d b)%Q.

(** [found] are exactly the members of [all] that satisfy [P], each as often as there. *)
Definition selects (P : pt -> Prop) (all found : list pt) : Prop :=
  exists rest, Permutation (found ++ rest) all /\ (forall p, In p found -> P p) /\ (forall p, In p rest -> ~ P p).

(** Distance, squared, of [c] from the image of the point shifted by [i] and [j] periods. *)
Definition image_dist (c : Q * Q) (period : Q * Q) (p : pt) (i j : Z) : Q :=
  let x := (fst c - (p_0 p + inject_Z i * fst period))%Q in
  let y := (snd c - (p_1 p + inject_Z j * snd period))%Q in
  (x * x + y * y)%Q.

(** Every node has the bounding box of its points. *)
Fixpoint boxes_exact (t : tree) : Prop :=
  (forall d, (forall p, In p (tpts t) -> (lo d (tbox t) <= coord d p <= hi d (tbox t))%Q) /\
             (exists p, In p (tpts t) /\ (coord d p == lo d (tbox t))%Q) /\
             (exists p, In p (tpts t) /\ (coord d p == hi d (tbox t))%Q)) /\
  match t with TLeaf _ _ => True | TNode _ _ l r => boxes_exact l /\ boxes_exact r end.

(** Points for the examples. *)
Definition pts90 : list pt := map (fun i => mkPt i 1 (inject_Z (i * i mod 83)) (inject_Z (i mod 7))) (zrange 90).
