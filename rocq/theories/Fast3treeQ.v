(** Model of the further public functions of meds/fast3tree.c (two dimensions,
    as included by meds/_uberseg.c): the queries for a box, for a sphere from one
    point on and for a sphere with periodic boundaries, the renewal of the boxes
    and the removal of points that are not finite.  Definitions only.
    As in Fast3tree.v: exact rationals, memory allocation never fails, the points
    of a node are a list. *)
From Coq Require Import Qabs.
From Verif Require Import Base BoundsM Fast3tree.
Open Scope Z_scope.

(** meds/fast3tree.c 247-254 [_fast3tree_box_inside_box]; [b] is the box asked for. *)
Definition box_inside_box (n b : box) : bool :=
  negb (qltb (hi_0 b) (hi_0 n)) && negb (qltb (lo_0 n) (lo_0 b)) &&
  negb (qltb (hi_1 b) (hi_1 n)) && negb (qltb (lo_1 n) (lo_1 b)).

(** meds/fast3tree.c 260-267 [_fast3tree_box_intersect_box] *)
Definition box_intersect_box (n b : box) : bool :=
  negb (qltb (hi_0 n) (lo_0 b)) && negb (qltb (hi_0 b) (lo_0 n)) &&
  negb (qltb (hi_1 n) (lo_1 b)) && negb (qltb (hi_1 b) (lo_1 n)).

(** The loops of meds/fast3tree.c 534-537 and 571-574: no [break]. *)
Definition point_in_box (b : box) (p : pt) : bool :=
  negb (qltb (p_0 p) (lo_0 b)) && negb (qltb (hi_0 b) (p_0 p)) &&
  negb (qltb (p_1 p) (lo_1 b)) && negb (qltb (hi_1 b) (p_1 p)).

(** meds/fast3tree.c 520-548 [_fast3tree_find_outside_of_box], 550-553: the points
    appended to the results. *)
Fixpoint find_outside_of_box (n : tree) (b : box) : list pt :=
  if box_inside_box (tbox n) b then []
  else if negb (box_intersect_box (tbox n) b) then tpts n
  else match n with
       | TLeaf _ pts => filter (fun p => negb (point_in_box b p)) pts
       | TNode _ _ l r => find_outside_of_box l b ++ find_outside_of_box r b
       end.

(** meds/fast3tree.c 557-585 [_fast3tree_find_inside_of_box], 587-590 *)
Fixpoint find_inside_of_box (n : tree) (b : box) : list pt :=
  if negb (box_intersect_box (tbox n) b) then []
  else if box_inside_box (tbox n) b then tpts n
  else match n with
       | TLeaf _ pts => filter (point_in_box b) pts
       | TNode _ _ l r => find_inside_of_box l b ++ find_inside_of_box r b
       end.

(** meds/fast3tree.c 371-412 [_fast3tree_find_sphere_skip] on the node whose points
    begin at place [off] of the array; [tp] is a place in the array.  The results
    are places in the array. *)
Fixpoint find_sphere_skip_node (n : tree) (off : Z) (c : Q * Q) (r2 : Q) (tp : Z) : list Z :=
  if off + zlen (tpts n) <=? tp then []
  else if box_not_intersect_sphere (tbox n) c r2 then []
  else if box_inside_sphere (tbox n) c r2 then map (fun i => off + i) (zrange (zlen (tpts n)))
  else match n with
       | TLeaf _ pts =>
         let i0 := if off <? tp then tp - off + 1 else 0 in
         (if off <? tp then [tp] else []) ++
         flat_map (fun ip => if (i0 <=? fst ip) && qltb (pdist c (snd ip)) r2 then [off + fst ip] else [])
                  (combine (zrange (zlen pts)) pts)
       | TNode _ _ l r =>
         find_sphere_skip_node l off c r2 tp ++ find_sphere_skip_node r (off + zlen (tpts l)) c r2 tp
       end.

(** meds/fast3tree.c 430-433 [fast3tree_find_sphere_skip] *)
Definition find_sphere_skip (t : tree) (tp : Z) (r2 : Q) : res (list Z) :=
  let* p := cget (tpts t) tp in
  Ok (find_sphere_skip_node t 0 (p_0 p, p_1 p) r2 tp).

(** meds/fast3tree.c 311-318 [_fast3tree_sphere_inside_box] *)
Definition sphere_inside_box (b : box) (c : Q * Q) (r : Q) : bool :=
  negb (qltb (fst c - r) (lo_0 b)) && negb (qltb (hi_0 b) (fst c + r)) &&
  negb (qltb (snd c - r) (lo_1 b)) && negb (qltb (hi_1 b) (snd c + r)).

(** meds/fast3tree.c 460-463: the distance of the leaf test; [o] holds the periods. *)
Definition offset_dist (c o : Q * Q) (p : pt) : Q :=
  let dx0 := (fst o - Qabs (fst c - p_0 p))%Q in
  let dx1 := (snd o - Qabs (snd c - p_1 p))%Q in
  (dx0 * dx0 + dx1 * dx1)%Q.

(** meds/fast3tree.c 439-473 [_fast3tree_find_sphere_offset] *)
Fixpoint find_sphere_offset (n : tree) (c c2 o : Q * Q) (r : Q) : list pt :=
  if box_not_intersect_sphere (tbox n) c2 ((r * (101#100)) * (r * (101#100)))%Q then []
  else if box_inside_sphere (tbox n) c2 ((r * (99#100)) * (r * (99#100)))%Q then tpts n
  else match n with
       | TLeaf _ pts => filter (fun p => qltb (offset_dist c o p) (r * r)%Q) pts
       | TNode _ _ l r' => find_sphere_offset l c c2 o r ++ find_sphere_offset r' c c2 o r
       end.

(** meds/fast3tree.c 477-496 [_fast3tree_find_sphere_periodic_dim] for dim 0; the
    array [o] is written by the callee only in places the caller sets again. *)
Definition periodic_dim_0 (t : tree) (c c2 o : Q * Q) (r : Q) (dims : Q * Q) : list pt :=
  find_sphere_offset t c c2 (0%Q, snd o) r ++
  (if qltb (hi_0 (tbox t)) (fst c + r)
   then find_sphere_offset t c (fst c - fst dims, snd c2)%Q (fst dims, snd o) r else []) ++
  (if qltb (fst c - r) (lo_0 (tbox t))
   then find_sphere_offset t c (fst c + fst dims, snd c2)%Q (fst dims, snd o) r else []).

(** The same for dim 1. *)
Definition periodic_dim_1 (t : tree) (c c2 o : Q * Q) (r : Q) (dims : Q * Q) : list pt :=
  periodic_dim_0 t c c2 (fst o, 0%Q) r dims ++
  (if qltb (hi_1 (tbox t)) (snd c + r)
   then periodic_dim_0 t c (fst c2, snd c - snd dims)%Q (fst o, snd dims) r dims else []) ++
  (if qltb (snd c - r) (lo_1 (tbox t))
   then periodic_dim_0 t c (fst c2, snd c + snd dims)%Q (fst o, snd dims) r dims else []).

(** meds/fast3tree.c 498-516 [fast3tree_find_sphere_periodic]: the returned number
    and the results, [found] being what they were before. *)
Definition find_sphere_periodic (t : tree) (found : list pt) (c : Q * Q) (r : Q) : Z * list pt :=
  let b := tbox t in
  if sphere_inside_box b c r then (2, find_sphere t c (r * r)%Q)
  else
    let dims := (hi_0 b - lo_0 b, hi_1 b - lo_1 b)%Q in
    if qltb (fst dims) (r * 2)%Q then (0, found)
    else if qltb (snd dims) (r * 2)%Q then (0, found)
    else (1, periodic_dim_1 t c c (0, 0)%Q r dims).

(** meds/fast3tree.c 806-812 [fast3tree_set_minmax] *)
Definition set_minmax (t : tree) (mn mx : Q) : tree :=
  let b := mkBox mn mn mx mx in
  match t with TLeaf _ pts => TLeaf b pts | TNode _ d l r => TNode b d l r end.

(** meds/fast3tree.c 785-788, one dimension: starting from the left minimum and
    the right maximum. *)
Definition join_dim (ll lh rl rh : Q) : Q * Q :=
  (if qltb rl ll then rl else ll, if qltb rh lh then lh else rh).

(** meds/fast3tree.c 775-789 [_fast3tree_maxmin_rebuild].  A leaf without points
    goes on to its [left], which after [_fast3tree_rebuild_pointers] (716-726) is
    the root again: the calls do not end. *)
Fixpoint maxmin_rebuild (n : tree) : res tree :=
  match n with
  | TLeaf _ pts =>
    if 0 <? zlen pts then let* b := find_minmax pts in Ok (TLeaf b pts) else Err OutOfFuel
  | TNode _ d l r =>
    let* l := maxmin_rebuild l in
    let* r := maxmin_rebuild r in
    let j0 := join_dim (lo_0 (tbox l)) (hi_0 (tbox l)) (lo_0 (tbox r)) (hi_0 (tbox r)) in
    let j1 := join_dim (lo_1 (tbox l)) (hi_1 (tbox l)) (lo_1 (tbox r)) (hi_1 (tbox r)) in
    Ok (TNode (mkBox (fst j0) (fst j1) (snd j0) (snd j1)) d l r)
  end.

(** The caller writes new positions into its array of points, which the tree
    refers to: the tree seen afterwards, and the part of the array not reached. *)
Fixpoint set_points (t : tree) (l : list pt) : tree * list pt :=
  match t with
  | TLeaf b pts => (TLeaf b (firstn (length pts) l), skipn (length pts) l)
  | TNode b d t1 t2 =>
    let '(t1, l) := set_points t1 l in
    let '(t2, l) := set_points t2 l in
    (TNode b d t1 t2, l)
  end.

(** A point whose coordinates may be NaN or infinite ([None]). *)
Record fpt : Type := mkFpt { f_idx : Z; f_seg : Z; f_0 : option Q; f_1 : option Q }.
Definition to_pt (p : fpt) : option pt :=
  match f_0 p, f_1 p with Some x, Some y => Some (mkPt (f_idx p) (f_seg p) x y) | _, _ => None end.
Definition finite (p : fpt) : bool := match to_pt p with Some _ => true | None => false end.

(** The loop of meds/fast3tree.c 739-748: the array and [t->num_points]; [i] is
    decremented and incremented again after an exchange. *)
Fixpoint drop_loop (fuel : nat) (p : list fpt) (i n : Z) : res (list fpt * Z) :=
  if i <? n then
    match fuel with
    | O => Err OutOfFuel
    | S fuel' =>
      match zget p i, zget p (n - 1) with
      | Some x, Some y =>
        if finite x then drop_loop fuel' p (i + 1) n
        else drop_loop fuel' (upd (upd p (Z.to_nat i) y) (Z.to_nat (n - 1)) x) i (n - 1)
      | _, _ => Err IndexError
      end
    end
  else Ok (p, n).

(** The points of the tree, all finite. *)
Definition as_pts (l : list fpt) : res (list pt) :=
  mapM (fun p => match to_pt p with Some q => Ok q | None => Err ValueError end) l.

(** meds/fast3tree.c 730-771 [_fast3tree_build] with 739-748: the tree and the rest
    of the array. *)
Definition fast3tree_build_any (p : list fpt) : res (tree * list fpt) :=
  let* pn := drop_loop (length p) p 0 (zlen p) in
  let '(p, n) := pn in
  let* q := as_pts (firstn (Z.to_nat n) p) in
  let* t := fast3tree_build q in
  Ok (t, skipn (Z.to_nat n) p).
