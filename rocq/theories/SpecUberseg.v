(** Specification vocabulary for the nearest-object weight maps. *)
From Coq Require Import Permutation.
From Verif Require Import Base Img Types Fast3tree SpecFile.
Open Scope Z_scope.

(** A pixel belonging to an object. *)
Definition nonsky (seg : img Q) (r c : Z) (v : Q) : Prop := px seg r c = Some v /\ ~ (v == 0)%Q.

Definition pix2 (r c r' c' : Z) : Z := (r - r') * (r - r') + (c - c') * (c - c').

(** (r', c') is an object pixel of value [v], none being closer to (r, c). *)
Definition nearest (seg : img Q) (r c r' c' : Z) (v : Q) : Prop :=
  nonsky seg r' c' v /\
  forall r2 c2 v2, nonsky seg r2 c2 v2 -> pix2 r c r' c' <= pix2 r c r2 c2.

(** Row-major order of pixels. *)
Definition before (r c r' c' : Z) : Prop := r < r' \/ (r = r' /\ c < c').

(** The first of the nearest object pixels. *)
Definition first_nearest (seg : img Q) (r c r' c' : Z) (v : Q) : Prop :=
  nearest seg r c r' c' v /\
  forall r2 c2 v2, nearest seg r c r2 c2 v2 -> ~ before r2 c2 r' c'.

(** Kept if the value is the object's, otherwise zeroed. *)
Definition kept_if (num : Z) (v x y : Q) : Prop :=
  ((v == inject_Z num)%Q -> y = x) /\ (~ (v == inject_Z num)%Q -> y = 0%Q).

Definition integral (seg : img Q) : Prop := forall r c v, px seg r c = Some v -> exists z, (v == inject_Z z)%Q.
Definition nonnegative (seg : img Q) : Prop := forall r c v, px seg r c = Some v -> (0 <= v)%Q.

(** The box is the bounding box of the points, attained on every side. *)
Definition bounding (b : box) (pts : list pt) : Prop :=
  forall d, (forall p, In p pts -> (lo d b <= coord d p <= hi d b)%Q) /\
            (exists p, In p pts /\ (coord d p == lo d b)%Q) /\ (exists p, In p pts /\ (coord d p == hi d b)%Q).

(** Every node of the tree has the bounding box of its points; inner nodes are
    divided at the middle of a dimension in which they extend. *)
Fixpoint tree_wf (t : tree) : Prop :=
  match t with
  | TLeaf b pts => bounding b pts
  | TNode b d l r => bounding b (tpts l ++ tpts r) /\ (lo d b < hi d b)%Q /\
      (forall p, In p (tpts l) -> (coord d p <= (1#2) * (lo d b + hi d b))%Q) /\
      (forall p, In p (tpts r) -> ((1#2) * (lo d b + hi d b) < coord d p)%Q) /\
      tree_wf l /\ tree_wf r
  end.

(** The points of a sphere query: [found] with the rest makes up all points. *)
Definition sphere_exact (all found : list pt) (c : Q * Q) (r2 : Q) : Prop :=
  exists rest, Permutation (found ++ rest) all /\
    (forall p, In p found -> (pdist c p <= r2)%Q) /\ (forall p, In p rest -> (r2 <= pdist c p)%Q).

(** Exactly two different values occur in the map. *)
Definition two_values (seg : img Q) : Prop :=
  exists a b, ~ (a == b)%Q /\ (exists r c v, px seg r c = Some v /\ (v == a)%Q) /\
    (exists r c v, px seg r c = Some v /\ (v == b)%Q) /\
    forall r c v, px seg r c = Some v -> (v == a)%Q \/ (v == b)%Q.
