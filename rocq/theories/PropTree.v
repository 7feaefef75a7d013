(** Property theorems on the next closest distance of the tree: C70. *)
From Coq Require Import QArith.
From Verif Require Import Base BoundsM Fast3tree SpecUberseg.
From Verif Require FtLemmas3.
Open Scope Z_scope.

(** From a position that is no point of the tree the result can be the diagonal of
    a box, to which no point corresponds. *)
Theorem C70_any_position_refuted : exists pts t c r2, pts <> [] /\ fast3tree_build pts = Ok t /\
  find_next_closest_distance t c = Ok r2 /\ forall p, In p pts -> ~ (pdist c p == r2)%Q.
Proof.
  exists [mkPt 0 1 0 0; mkPt 1 1 1 0]. eexists. exists (10, 0)%Q. eexists.
  split; [discriminate|]. split; [vm_compute; reflexivity|]. split; [vm_compute; reflexivity|].
  intros p [<-|[<-|[]]]; vm_compute; discriminate.
Qed.
Print Assumptions C70_any_position_refuted.

(** From anywhere it is no larger than the distance of any point not at the position itself. *)
Theorem C70_lower_bound_partial : forall pts c, pts <> [] ->
  exists t r2, fast3tree_build pts = Ok t /\ find_next_closest_distance t c = Ok r2 /\
  forall p, In p pts -> (pdist c p == 0)%Q \/ (r2 <= pdist c p)%Q.
Proof. exact FtLemmas3.next_lower. Qed.
Print Assumptions C70_lower_bound_partial.

(** From a point of the tree it is the smallest distance to a point elsewhere. *)
Theorem C70_from_a_point_partial : forall pts p0 q0, In p0 pts -> In q0 pts ->
  let c := (p_0 p0, p_1 p0) in (0 < pdist c q0)%Q ->
  exists t r2, fast3tree_build pts = Ok t /\ find_next_closest_distance t c = Ok r2 /\ (0 < r2)%Q /\
  (exists q, In q pts /\ (r2 == pdist c q)%Q) /\
  forall p, In p pts -> (pdist c p == 0)%Q \/ (r2 <= pdist c p)%Q.
Proof. exact FtLemmas3.next_exact. Qed.
Print Assumptions C70_from_a_point_partial.

(** A tree with several leaves. *)
Example C70_example : let pts := map (fun i => mkPt i 1 (inject_Z (i * i)) (inject_Z (i mod 7))) (zrange 90) in
  exists t, fast3tree_build pts = Ok t /\ (exists b d l r, t = TNode b d l r) /\
  exists r2, find_next_closest_distance t (inject_Z 400, inject_Z 6) = Ok r2 /\ (r2 == 39 * 39 + 1)%Q.
Proof.
  eexists. split; [vm_compute; reflexivity|]. split; [do 4 eexists; reflexivity|]. eexists. split; [vm_compute; reflexivity|].
  vm_compute. reflexivity.
Qed.
