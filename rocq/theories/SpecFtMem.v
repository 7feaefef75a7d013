(** Specification vocabulary for the memory of the tree. *)
From Verif Require Import Base Fast3tree FtMem.
Open Scope Z_scope.

(** Node [i] of the array, with points from [off] on, is the root of the tree [t];
    [ix] are the places of its nodes.  [mk] makes a pointer from a place. *)
Inductive held (nodes : list mnode) (points : list pt) (mk : Z -> ptr) : Z -> Z -> tree -> list Z -> Prop :=
| H_leaf i off nd b pts :
    zget nodes i = Some nd -> n_div nd = None -> n_box nd = b -> n_points nd = off -> n_num nd = zlen pts -> 0 <= off ->
    (forall k, 0 <= k < zlen pts -> zget points (off + k) = zget pts k) ->
    held nodes points mk i off (TLeaf b pts) [i]
| H_node i off nd b d l r li ri il ir :
    zget nodes i = Some nd -> n_div nd = Some d -> n_box nd = b -> n_points nd = off -> n_num nd = zlen (tpts l) + zlen (tpts r) ->
    n_left nd = mk li -> n_right nd = mk ri ->
    (exists nl, zget nodes li = Some nl /\ n_parent nl = mk i) -> (exists nr, zget nodes ri = Some nr /\ n_parent nr = mk i) ->
    held nodes points mk li off l il -> held nodes points mk ri (off + zlen (tpts l)) r ir ->
    held nodes points mk i off (TNode b d l r) (i :: il ++ ir).

(** The places of the points found. *)
Definition found (r : results) : list Z := firstn (Z.to_nat (r_num r)) (r_buf r).

(** The number found fits the buffer. *)
Definition fits (r : results) : Prop := zlen (r_buf r) = r_alloc r /\ 0 <= r_num r <= r_alloc r.

(** Searches one after the other with the same results structure; what it holds after
    each of them. *)
Fixpoint searches (junk : Z) (m : mtree) (r : results) (qs : list ((Q * Q) * Q)) : res (list results) :=
  match qs with
  | [] => Ok []
  | (c, r2) :: qs' =>
    let* r := find_sphere_mem junk m r c r2 in
    let* rs := searches junk m r qs' in
    Ok (r :: rs)
  end.

(** Memory of the examples: a structure that held another tree. *)
Definition node_x : mnode := mkN (mkBox 7 7 7 7) 99 (Some true) (PAt 0 5) (POff 77) (PAt 3 3) 1234.
Definition used_tree : mtree := mkT [mkPt 5 5 5 5] 4 [node_x; node_x] 2 2.
(** Points whose tree is deep: every division splits off one point. *)
Definition pts_deep : list pt := map (fun i => mkPt i 1 (inject_Z (2 ^ i)) 0) (zrange 60).
