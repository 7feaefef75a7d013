(** Model of the k-d tree meds/fast3tree.c as used by meds/_uberseg.c
    (FAST3TREE_DIM 2, POINTS_PER_LEAF 40).  Definitions only.
    Coordinates are exact rationals, radii are given by their squares; memory
    allocation never fails.  The points of a node are a range of the array of
    points, here the list of the points in the order of that range. *)
From Verif Require Import Base BoundsM.
Open Scope Z_scope.

(** meds/_uberseg.c 78 [struct mytype] *)
Record pt : Type := mkPt { p_idx : Z; p_seg : Z; p_0 : Q; p_1 : Q }.

(** Dimensions: false is 0, true is 1. *)
Definition coord (d : bool) (p : pt) : Q := if d then p_1 p else p_0 p.

(** min and max of a node: meds/fast3tree.c 171-180 *)
Record box : Type := mkBox { lo_0 : Q; lo_1 : Q; hi_0 : Q; hi_1 : Q }.
Definition lo (d : bool) (b : box) : Q := if d then lo_1 b else lo_0 b.
Definition hi (d : bool) (b : box) : Q := if d then hi_1 b else hi_0 b.

(** meds/fast3tree.c 171-180 [struct tree3_node]: a leaf has div_dim -1. *)
Inductive tree : Type :=
| TLeaf (b : box) (pts : list pt)
| TNode (b : box) (div_dim : bool) (left right : tree).

Definition tbox (t : tree) : box := match t with TLeaf b _ => b | TNode b _ _ _ => b end.

(** The range of points of a node: those of the left child, then of the right. *)
Fixpoint tpts (t : tree) : list pt :=
  match t with TLeaf _ pts => pts | TNode _ _ l r => tpts l ++ tpts r end.

(** meds/fast3tree.c 609-617 [_fast3tree_find_largest_dim] *)
Definition find_largest_dim (b : box) : bool :=
  let d := (hi_1 b - lo_1 b)%Q in
  let d2 := (hi_0 b - lo_0 b)%Q in
  if qltb d d2 then false else true.

(** meds/fast3tree.c 647-662 [_fast3tree_find_minmax] *)
Definition minmax_step (m : Q * Q) (x : Q) : Q * Q :=
  if qltb x (fst m) then (x, snd m) else if qltb (snd m) x then (fst m, x) else m.
Definition find_minmax (pts : list pt) : res box :=
  match pts with
  | [] => Err CExit
  | p :: ps =>
    let m0 := fold_left minmax_step (map p_0 ps) (p_0 p, p_0 p) in
    let m1 := fold_left minmax_step (map p_1 ps) (p_1 p, p_1 p) in
    Ok (mkBox (fst m0) (fst m1) (snd m0) (snd m1))
  end.

(** The loop of meds/fast3tree.c 633-641: after an exchange [i] is decremented
    and incremented again. *)
Definition cget (p : list pt) (i : Z) : res pt :=
  match zget p i with Some x => Ok x | None => Err IndexError end.
Fixpoint sort_loop (fuel : nat) (d : bool) (lim : Q) (p : list pt) (i j : Z) : res (list pt * Z) :=
  if i <? j then
    match fuel with
    | O => Err OutOfFuel
    | S fuel' =>
      let* pi := cget p i in
      if qltb lim (coord d pi) then
        let* pj := cget p j in
        sort_loop fuel' d lim (upd (upd p (Z.to_nat j) pi) (Z.to_nat i) pj) i (j - 1)
      else sort_loop fuel' d lim p (i + 1) j
    end
  else if i =? j then
    let* pi := cget p i in
    Ok (p, if Qle_bool (coord d pi) lim then i + 1 else i)
  else Ok (p, i).

(** meds/fast3tree.c 621-643 [_fast3tree_sort_dim_pos]: the points in their new
    order and the number of points of the left child. *)
Definition sort_dim_pos (b : box) (p : list pt) : res (list pt * Z) :=
  let dim := find_largest_dim b in
  if Qeq_bool (hi dim b) (lo dim b) then Ok (p, zlen p)
  else sort_loop (length p) dim ((1#2) * (hi dim b + lo dim b))%Q p 0 (zlen p - 1).

Definition points_per_leaf : Z := 40.

(** meds/fast3tree.c 666-712 [_fast3tree_split_node] of the node with box [b]
    and points [p]. *)
Fixpoint split_node (fuel : nat) (b : box) (p : list pt) : res tree :=
  match fuel with
  | O => Err OutOfFuel
  | S fuel' =>
    let* x := sort_dim_pos b p in
    let '(p, num_left) := x in
    if (num_left =? zlen p) || (num_left =? 0) then Ok (TLeaf b p)
    else
      let left := firstn (Z.to_nat num_left) p in
      let right := skipn (Z.to_nat num_left) p in
      let* lb := find_minmax left in
      let* rb := find_minmax right in
      let* l := if points_per_leaf <? zlen left then split_node fuel' lb left else Ok (TLeaf lb left) in
      let* r := if points_per_leaf <? zlen right then split_node fuel' rb right else Ok (TLeaf rb right) in
      Ok (TNode b (find_largest_dim b) l r)
  end.

(** meds/fast3tree.c 730-771 [_fast3tree_build] (coordinates are finite). *)
Definition fast3tree_build (p : list pt) : res tree :=
  let* b := match p with [] => Ok (mkBox 0 0 0 0) | _ :: _ => find_minmax p end in
  if points_per_leaf <? zlen p then split_node (length p) b p else Ok (TLeaf b p).

(** Squared distance between a position and a point. *)
Definition pdist (c : Q * Q) (p : pt) : Q :=
  ((fst c - p_0 p) * (fst c - p_0 p) + (snd c - p_1 p) * (snd c - p_1 p))%Q.

(** One round of the loop of meds/fast3tree.c 278-286: the distance so far, and
    whether the function returns 1. *)
Definition gap_step (d r2 l h c : Q) : Q * bool :=
  if qltb (c - l) 0 then let d := (d + (c - l) * (c - l))%Q in (d, Qle_bool r2 d)
  else if qltb 0 (c - h) then let d := (d + (c - h) * (c - h))%Q in (d, Qle_bool r2 d)
  else (d, false).

(** meds/fast3tree.c 274-288 [_fast3tree_box_not_intersect_sphere] *)
Definition box_not_intersect_sphere (b : box) (c : Q * Q) (r2 : Q) : bool :=
  let '(d, out) := gap_step 0 r2 (lo_0 b) (hi_0 b) (fst c) in
  if out then true else snd (gap_step d r2 (lo_1 b) (hi_1 b) (snd c)).

(** One round of the loop of meds/fast3tree.c 297-305. *)
Definition far2 (l h c : Q) : Q :=
  let dx := ((l - c) * (l - c))%Q in
  let dx2 := ((c - h) * (c - h))%Q in
  if qltb dx dx2 then dx2 else dx.

(** meds/fast3tree.c 293-307 [_fast3tree_box_inside_sphere] *)
Definition box_inside_sphere (b : box) (c : Q * Q) (r2 : Q) : bool :=
  if qltb r2 ((fst c - lo_0 b) * (fst c - lo_0 b)) then false
  else
    let dist := far2 (lo_0 b) (hi_0 b) (fst c) in
    if qltb r2 dist then false
    else
      let dist := (dist + far2 (lo_1 b) (hi_1 b) (snd c))%Q in
      if qltb r2 dist then false else true.

(** meds/fast3tree.c 332-366 [_fast3tree_find_sphere], 425-428: the points appended
    to the results. *)
Fixpoint find_sphere (n : tree) (c : Q * Q) (r2 : Q) : list pt :=
  if box_not_intersect_sphere (tbox n) c r2 then []
  else if box_inside_sphere (tbox n) c r2 then tpts n
  else match n with
       | TLeaf _ pts => filter (fun p => qltb (pdist c p) r2) pts
       | TNode _ _ l r => find_sphere l c r2 ++ find_sphere r c r2
       end.

(** Address of a node: the turns from the root, last turn first. *)
Definition addr : Type := list bool.
Fixpoint addr_eqb (a b : addr) : bool :=
  match a, b with
  | [], [] => true
  | x :: a', y :: b' => Bool.eqb x y && addr_eqb a' b'
  | _, _ => false
  end.

(** meds/fast3tree.c 817-843 [_fast3tree_find_next_closest_dist] on squares; the
    node [o_n] is skipped. *)
Fixpoint find_next_closest_dist (n : tree) (a : addr) (c : Q * Q) (r2 : Q) (o_n : addr) : Q :=
  if box_not_intersect_sphere (tbox n) c r2 || addr_eqb o_n a then r2
  else match n with
       | TLeaf _ pts => fold_left (fun r2 p => if qltb (pdist c p) r2 then pdist c p else r2) pts r2
       | TNode b d l r =>
         let cd := if d then snd c else fst c in
         if qltb ((1#2) * (lo d b + hi d b))%Q cd then
           let r2 := find_next_closest_dist r (true :: a) c r2 o_n in
           find_next_closest_dist l (false :: a) c r2 o_n
         else
           let r2 := find_next_closest_dist l (false :: a) c r2 o_n in
           find_next_closest_dist r (true :: a) c r2 o_n
       end.

(** meds/fast3tree.c 853-856: the way down to a leaf; the visited nodes, last first. *)
Fixpoint descend (n : tree) (a : addr) (stack : list (addr * tree)) (c : Q * Q) : list (addr * tree) :=
  match n with
  | TLeaf _ _ => (a, n) :: stack
  | TNode _ d l r =>
    let cd := if d then snd c else fst c in
    if Qle_bool cd (hi d (tbox l)) then descend l (false :: a) ((a, n) :: stack) c
    else descend r (true :: a) ((a, n) :: stack) c
  end.

(** meds/fast3tree.c 858: up while flat in the dimension the parent is divided in. *)
Fixpoint climb (stack : list (addr * tree)) : option (addr * tree) :=
  match stack with
  | [] => None
  | (a, nd) :: rest =>
    match rest with
    | (_, TNode _ d _ _) :: _ =>
      if Qeq_bool (lo d (tbox nd)) (hi d (tbox nd)) then climb rest else Some (a, nd)
    | _ => Some (a, nd)
    end
  end.

(** meds/fast3tree.c 848-877 [fast3tree_find_next_closest_distance], squared. *)
Definition find_next_closest_distance (root : tree) (c : Q * Q) : res Q :=
  match climb (descend root [] [] c) with
  | None => Err IndexError
  | Some (a, nd) =>
    let b := tbox nd in
    let diag := ((hi_0 b - lo_0 b) * (hi_0 b - lo_0 b) + (hi_1 b - lo_1 b) * (hi_1 b - lo_1 b))%Q in
    let min_dist := fold_left (fun m p =>
      let dist := pdist c p in
      if negb (Qeq_bool dist 0) && qltb dist m then dist else m) (tpts nd) diag in
    Ok (find_next_closest_dist root [] c min_dist a)
  end.
