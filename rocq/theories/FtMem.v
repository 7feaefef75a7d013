(** Model of the memory of meds/fast3tree.c: the array of nodes that is moved
    when it grows, pointers into it, the array of points and the buffer of results.
    Definitions only.  Every access is checked: a pointer into an earlier place of
    the array (freed by realloc), or beyond the array, is an error.  [realloc]
    always moves, never fails, and new memory has arbitrary content.  Coordinates
    are finite. *)
From Verif Require Import Base BoundsM Fast3tree.
Open Scope Z_scope.

(** [null_ptr + i] and [t->root + i], the latter for one place of the array. *)
Inductive ptr : Type := POff (i : Z) | PAt (g i : Z).

(** meds/fast3tree.c 171-180 [struct tree3_node]; div_dim -1 is [None]; [points] is
    the offset from the points of the tree. *)
Record mnode : Type := mkN { n_box : box; n_num : Z; n_div : option bool;
  n_left : ptr; n_right : ptr; n_parent : ptr; n_points : Z }.

(** meds/fast3tree.c 182-188 [struct fast3tree]; [t_gen] counts the places of the
    array of nodes. *)
Record mtree : Type := mkT { t_points : list pt; t_gen : Z; t_root : list mnode; t_num_nodes : Z; t_alloc : Z }.

(** [memset] to zero: div_dim is dimension 0. *)
Definition zero_node : mnode := mkN (mkBox 0 0 0 0) 0 (Some false) (POff 0) (POff 0) (POff 0) 0.

Definition set_box (n : mnode) b := mkN b (n_num n) (n_div n) (n_left n) (n_right n) (n_parent n) (n_points n).
Definition set_div (n : mnode) d := mkN (n_box n) (n_num n) d (n_left n) (n_right n) (n_parent n) (n_points n).
Definition set_kids (n : mnode) l r := mkN (n_box n) (n_num n) (n_div n) l r (n_parent n) (n_points n).

(** Reading and writing through a pointer. *)
Definition deref (m : mtree) (p : ptr) : res mnode :=
  match p with
  | POff _ => Err IndexError
  | PAt g i => if g =? t_gen m then
                 match zget (t_root m) i with Some n => Ok n | None => Err IndexError end
               else Err IndexError
  end.
Definition store (m : mtree) (p : ptr) (n : mnode) : res mtree :=
  let* _ := deref m p in
  match p with
  | POff _ => Err IndexError
  | PAt _ i => Ok (mkT (t_points m) (t_gen m) (upd (t_root m) (Z.to_nat i) n) (t_num_nodes m) (t_alloc m))
  end.

(** [p - t->root] *)
Definition index_of (m : mtree) (p : ptr) : res Z :=
  match p with PAt g i => if g =? t_gen m then Ok i else Err IndexError | POff _ => Err IndexError end.

(** A range of the points, and writing it back. *)
Definition get_range (m : mtree) (off n : Z) : res (list pt) :=
  if (0 <=? off) && (0 <=? n) && (off + n <=? zlen (t_points m))
  then Ok (firstn (Z.to_nat n) (skipn (Z.to_nat off) (t_points m))) else Err IndexError.
Definition put_range (m : mtree) (off : Z) (l : list pt) : mtree :=
  mkT (firstn (Z.to_nat off) (t_points m) ++ l ++ skipn (Z.to_nat off + length l) (t_points m))
      (t_gen m) (t_root m) (t_num_nodes m) (t_alloc m).

Section Mem.
(** What new memory holds. *)
Variable junk : mnode.

(** meds/fast3tree.c 794-801 [_fast3tree_check_realloc] of the array of nodes, with
    [allocated_nodes] set to [n]. *)
Definition realloc_nodes (m : mtree) (n : Z) : mtree :=
  mkT (t_points m) (t_gen m + 1)
      (firstn (Z.to_nat n) (t_root m) ++ repeat junk (Z.to_nat n - length (t_root m)))
      (t_num_nodes m) n.

(** meds/fast3tree.c 647-662 [_fast3tree_find_minmax] *)
Definition minmax_node (m : mtree) (p : ptr) : res mtree :=
  let* n := deref m p in
  let* pts := get_range m (n_points n) (n_num n) in
  let* b := find_minmax pts in
  store m p (set_box n b).

(** meds/fast3tree.c 666-712 [_fast3tree_split_node] with 621-643
    [_fast3tree_sort_dim_pos].  [allocated_nodes*1.05 + 1000] is computed exactly and
    rounded down. *)
Fixpoint split_mem (fuel : nat) (m : mtree) (node : ptr) : res mtree :=
  match fuel with
  | O => Err OutOfFuel
  | S fuel' =>
    let* nd := deref m node in
    let* range := get_range m (n_points nd) (n_num nd) in
    let* x := sort_dim_pos (n_box nd) range in
    let m := put_range m (n_points nd) (fst x) in
    let num_left := snd x in
    let* m := store m node (set_div nd (Some (find_largest_dim (n_box nd)))) in
    if (num_left =? n_num nd) || (num_left =? 0) then
      let* nd := deref m node in
      store m node (set_div nd None)
    else
      let* node_index := index_of m node in
      let '(m, node) :=
        if t_alloc m <? t_num_nodes m + 2 then
          let m := realloc_nodes m (t_alloc m * 105 / 100 + 1000) in
          (m, PAt (t_gen m) node_index)
        else (m, node) in
      let left_index := t_num_nodes m in
      let m := mkT (t_points m) (t_gen m) (t_root m) (t_num_nodes m + 2) (t_alloc m) in
      let* nd := deref m node in
      let* m := store m node (set_kids nd (POff left_index) (POff (left_index + 1))) in
      let left := PAt (t_gen m) left_index in
      let right := PAt (t_gen m) (left_index + 1) in
      let* nd := deref m node in
      let* m := store m left (mkN (n_box zero_node) num_left None (n_left zero_node) (n_right zero_node)
                                  (POff node_index) (n_points nd)) in
      let* m := store m right (mkN (n_box zero_node) (n_num nd - num_left) None (n_left zero_node) (n_right zero_node)
                                   (POff node_index) (n_points nd + num_left)) in
      let* m := minmax_node m left in
      let* m := minmax_node m right in
      let* ln := deref m left in
      let* m := if points_per_leaf <? n_num ln then split_mem fuel' m left else Ok m in
      let right := PAt (t_gen m) (left_index + 1) in
      let* rn := deref m right in
      if points_per_leaf <? n_num rn then split_mem fuel' m right else Ok m
  end.

(** meds/fast3tree.c 716-726 [_fast3tree_rebuild_pointers] *)
Definition rebuild_ptr (m : mtree) (p : ptr) : res ptr :=
  match p with POff i => Ok (PAt (t_gen m) i) | PAt _ _ => Err IndexError end.
Definition rebuild_node (m : mtree) (i : Z) : res mtree :=
  let* n := deref m (PAt (t_gen m) i) in
  let* l := rebuild_ptr m (n_left n) in
  let* r := rebuild_ptr m (n_right n) in
  let* p := rebuild_ptr m (n_parent n) in
  store m (PAt (t_gen m) i) (mkN (n_box n) (n_num n) (n_div n) l r p (n_points n)).
Definition rebuild_pointers (m : mtree) : res mtree := foldM rebuild_node (zrange (t_num_nodes m)) m.

(** meds/fast3tree.c 730-771 [_fast3tree_build] of a tree structure that may have
    held another tree before (222-226 [fast3tree_rebuild]). *)
Definition build_mem (m : mtree) (pts : list pt) : res mtree :=
  let n := zlen pts in
  let m := mkT pts (t_gen m) (t_root m) (t_num_nodes m) (t_alloc m) in
  let m := realloc_nodes m (3 + n / (points_per_leaf / 2)) in
  let m := mkT pts (t_gen m) (t_root m) 1 (t_alloc m) in
  let root := PAt (t_gen m) 0 in
  let* m := store m root (mkN (n_box zero_node) n None (n_left zero_node) (n_right zero_node) (n_parent zero_node) 0) in
  let* m := if n =? 0 then Ok m else minmax_node m root in
  let* m := if points_per_leaf <? n then split_mem (length pts) m root else Ok m in
  let m := realloc_nodes m (t_num_nodes m) in
  rebuild_pointers m.
End Mem.

(** meds/fast3tree.c 190-194 [struct fast3tree_results]: the buffer holds offsets
    from the points of the tree. *)
Record results : Type := mkR { r_num : Z; r_alloc : Z; r_buf : list Z }.

(** meds/fast3tree.c 415-423 [fast3tree_results_init], 593-596 [fast3tree_results_clear] *)
Definition results_empty : results := mkR 0 0 [].

Section Results.
(** What new memory holds. *)
Variable junk : Z.

(** meds/fast3tree.c 322-328 [_fast3tree_check_results_space] *)
Definition check_results_space (n : mnode) (r : results) : results :=
  if r_alloc r <? r_num r + n_num n then
    let alloc := r_num r + n_num n + 1000 in
    mkR (r_num r) alloc (firstn (Z.to_nat alloc) (r_buf r) ++ repeat junk (Z.to_nat alloc - length (r_buf r)))
  else r.

(** [res->points[k] = x] *)
Definition put_result (r : results) (k x : Z) : res results :=
  if (0 <=? k) && (k <? zlen (r_buf r)) then Ok (mkR (r_num r) (r_alloc r) (upd (r_buf r) (Z.to_nat k) x))
  else Err IndexError.

(** meds/fast3tree.c 338-344: all points of a node. *)
Definition put_all (n : mnode) (r : results) : res results :=
  let* r := foldM (fun r i => put_result r (r_num r + i) (n_points n + i)) (zrange (n_num n)) r in
  Ok (mkR (r_num r + n_num n) (r_alloc r) (r_buf r)).

(** meds/fast3tree.c 347-361: the points of a leaf within the radius. *)
Definition put_near (m : mtree) (n : mnode) (c : Q * Q) (r2 : Q) (r : results) : res results :=
  foldM (fun r i =>
    match zget (t_points m) (n_points n + i) with
    | None => Err IndexError
    | Some p =>
      if qltb (pdist c p) r2 then
        let* r := put_result r (r_num r) (n_points n + i) in
        Ok (mkR (r_num r + 1) (r_alloc r) (r_buf r))
      else Ok r
    end) (zrange (n_num n)) r.

(** meds/fast3tree.c 332-366 [_fast3tree_find_sphere] *)
Fixpoint sphere_mem (fuel : nat) (m : mtree) (p : ptr) (c : Q * Q) (r2 : Q) (r : results) : res results :=
  match fuel with
  | O => Err OutOfFuel
  | S fuel' =>
    let* n := deref m p in
    if box_not_intersect_sphere (n_box n) c r2 then Ok r
    else if box_inside_sphere (n_box n) c r2 then put_all n (check_results_space n r)
    else match n_div n with
         | None => put_near m n c r2 (check_results_space n r)
         | Some _ =>
           let* r := sphere_mem fuel' m (n_left n) c r2 r in
           sphere_mem fuel' m (n_right n) c r2 r
         end
  end.

(** meds/fast3tree.c 425-428 [fast3tree_find_sphere]; the depth of the tree is less
    than the number of its nodes. *)
Definition find_sphere_mem (m : mtree) (r : results) (c : Q * Q) (r2 : Q) : res results :=
  sphere_mem (Z.to_nat (t_num_nodes m)) m (PAt (t_gen m) 0) c r2 (mkR 0 (r_alloc r) (r_buf r)).
End Results.
