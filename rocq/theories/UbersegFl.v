(** The search of meds/_uberseg.c [uberseg_tree] and the queries of
    meds/fast3tree.c it uses, in single precision: every operation on floats is
    rounded, and sqrt and the factor 1.1 are of double precision.  Definitions
    only.  The functions follow those of Fast3tree.v and Uberseg.v, which are exact
    and work on squared radii. *)
From Verif Require Import Base Img Types Reader BoundsM MakerLayout Composite Fast3tree Uberseg Single.
Open Scope Z_scope.

Definition fadd (a b : Q) : Q := f32 (a + b).
Definition fsub (a b : Q) : Q := f32 (a - b).
Definition fmul (a b : Q) : Q := f32 (a * b).
(** [float r = sqrt(x)] *)
Definition fsqrt (x : Q) : Q := f32 (sqrt64 x).

(** * Building *)
(** meds/fast3tree.c 609-617 [_fast3tree_find_largest_dim] *)
Definition find_largest_dim_f (b : box) : bool :=
  let d := fsub (hi_1 b) (lo_1 b) in
  let d2 := fsub (hi_0 b) (lo_0 b) in
  if qltb d d2 then false else true.

(** meds/fast3tree.c 621-643 [_fast3tree_sort_dim_pos]: max + min is a float, the
    product with 0.5 a double, lim a float. *)
Definition sort_dim_pos_f (b : box) (p : list pt) : res (list pt * Z) :=
  let dim := find_largest_dim_f b in
  if Qeq_bool (hi dim b) (lo dim b) then Ok (p, zlen p)
  else sort_loop (length p) dim (f32 (f64 ((1#2) * fadd (hi dim b) (lo dim b)))) p 0 (zlen p - 1).

(** meds/fast3tree.c 666-712 [_fast3tree_split_node] *)
Fixpoint split_node_f (fuel : nat) (b : box) (p : list pt) : res tree :=
  match fuel with
  | O => Err OutOfFuel
  | S fuel' =>
    let* x := sort_dim_pos_f b p in
    let '(p, num_left) := x in
    if (num_left =? zlen p) || (num_left =? 0) then Ok (TLeaf b p)
    else
      let left := firstn (Z.to_nat num_left) p in
      let right := skipn (Z.to_nat num_left) p in
      let* lb := find_minmax left in
      let* rb := find_minmax right in
      let* l := if points_per_leaf <? zlen left then split_node_f fuel' lb left else Ok (TLeaf lb left) in
      let* r := if points_per_leaf <? zlen right then split_node_f fuel' rb right else Ok (TLeaf rb right) in
      Ok (TNode b (find_largest_dim_f b) l r)
  end.

(** meds/fast3tree.c 730-771 [_fast3tree_build] *)
Definition fast3tree_build_f (p : list pt) : res tree :=
  let* b := match p with [] => Ok (mkBox 0 0 0 0) | _ :: _ => find_minmax p end in
  if points_per_leaf <? zlen p then split_node_f (length p) b p else Ok (TLeaf b p).

(** * Queries *)
(** The loops of meds/fast3tree.c 351-357, 825-830, 867-871: dist += dx*dx. *)
Definition pdist_f (c : Q * Q) (p : pt) : Q :=
  let dx := fsub (fst c) (p_0 p) in
  let dist := fadd 0 (fmul dx dx) in
  let dx := fsub (snd c) (p_1 p) in
  fadd dist (fmul dx dx).

(** meds/fast3tree.c 278-286 *)
Definition gap_step_f (d r2 l h c : Q) : Q * bool :=
  if qltb (fsub c l) 0 then let d := fadd d (fmul (fsub c l) (fsub c l)) in (d, Qle_bool r2 d)
  else if qltb 0 (fsub c h) then let d := fadd d (fmul (fsub c h) (fsub c h)) in (d, Qle_bool r2 d)
  else (d, false).

(** meds/fast3tree.c 274-288 [_fast3tree_box_not_intersect_sphere] of radius [r] *)
Definition box_not_intersect_sphere_f (b : box) (c : Q * Q) (r : Q) : bool :=
  let r2 := fmul r r in
  let '(d, out) := gap_step_f 0 r2 (lo_0 b) (hi_0 b) (fst c) in
  if out then true else snd (gap_step_f d r2 (lo_1 b) (hi_1 b) (snd c)).

(** meds/fast3tree.c 298-302 *)
Definition far2_f (l h c : Q) : Q :=
  let dx := fsub l c in
  let dx := fmul dx dx in
  let dx2 := fsub c h in
  let dx2 := fmul dx2 dx2 in
  if qltb dx dx2 then dx2 else dx.

(** meds/fast3tree.c 293-307 [_fast3tree_box_inside_sphere] *)
Definition box_inside_sphere_f (b : box) (c : Q * Q) (r : Q) : bool :=
  let r2 := fmul r r in
  let e := fsub (fst c) (lo_0 b) in
  if qltb r (if qltb e 0 then - e else e)%Q then false
  else
    let dist := fadd 0 (far2_f (lo_0 b) (hi_0 b) (fst c)) in
    if qltb r2 dist then false
    else
      let dist := fadd dist (far2_f (lo_1 b) (hi_1 b) (snd c)) in
      if qltb r2 dist then false else true.

(** meds/fast3tree.c 332-366 [_fast3tree_find_sphere], 425-428 *)
Fixpoint find_sphere_f (n : tree) (c : Q * Q) (r : Q) : list pt :=
  if box_not_intersect_sphere_f (tbox n) c r then []
  else if box_inside_sphere_f (tbox n) c r then tpts n
  else match n with
       | TLeaf _ pts => filter (fun p => qltb (pdist_f c p) (fmul r r)) pts
       | TNode _ _ l r' => find_sphere_f l c r ++ find_sphere_f r' c r
       end.

(** meds/fast3tree.c 817-843 [_fast3tree_find_next_closest_dist]: a radius; the
    middle of the box is compared in double precision. *)
Fixpoint find_next_closest_dist_f (n : tree) (a : addr) (c : Q * Q) (r : Q) (o_n : addr) : Q :=
  if box_not_intersect_sphere_f (tbox n) c r || addr_eqb o_n a then r
  else match n with
       | TLeaf _ pts =>
         fsqrt (fold_left (fun r2 p => if qltb (pdist_f c p) r2 then pdist_f c p else r2) pts (fmul r r))
       | TNode b d l r' =>
         let cd := if d then snd c else fst c in
         if qltb (f64 ((1#2) * fadd (lo d b) (hi d b))) cd then
           let r := find_next_closest_dist_f r' (true :: a) c r o_n in
           find_next_closest_dist_f l (false :: a) c r o_n
         else
           let r := find_next_closest_dist_f l (false :: a) c r o_n in
           find_next_closest_dist_f r' (true :: a) c r o_n
       end.

(** meds/fast3tree.c 848-877 [fast3tree_find_next_closest_distance]: a radius. *)
Definition find_next_closest_distance_f (root : tree) (c : Q * Q) : res Q :=
  match climb (descend root [] [] c) with
  | None => Err IndexError
  | Some (a, nd) =>
    let b := tbox nd in
    let d0 := fsub (hi_0 b) (lo_0 b) in
    let d1 := fsub (hi_1 b) (lo_1 b) in
    let diag := fadd (fadd 0 (fmul d0 d0)) (fmul d1 d1) in
    let min_dist := fold_left (fun m p =>
      let dist := pdist_f c p in
      if negb (Qeq_bool dist 0) && qltb dist m then dist else m) (tpts nd) diag in
    Ok (find_next_closest_dist_f root [] c (fsqrt min_dist) a)
  end.

(** * The search of meds/_uberseg.c *)
(** The constant 1.1 and line 147: [fac = 1.0/1.1] *)
Definition d11 : Q := f64 (11#10).
Definition fac0 : Q := f32 (f64 (1 / d11)).
(** Line 149: [fac *= 1.1] *)
Definition fac_grow (fac : Q) : Q := f32 (f64 (fac * d11)).
(** Line 127: [maxr = 1.1*sqrt(Nx*Nx+Ny*Ny)] *)
Definition maxr_f (nx ny : Z) : Q := f32 (f64 (d11 * sqrt64 (inject_Z (nx * nx + ny * ny)))).

(** Lines 147-152 *)
Fixpoint search_loop_f (fuel : nat) (t : tree) (c : Q * Q) (r fac maxr : Q) : res (list pt) :=
  match fuel with
  | O => Err OutOfFuel
  | S fuel' =>
    let fac := fac_grow fac in
    match find_sphere_f t c (fmul r fac) with
    | [] => if Qle_bool (fmul r fac) maxr then search_loop_f fuel' t c r fac maxr else Ok []
    | pts => Ok pts
    end
  end.

(** Lines 154-164 *)
Definition closest_dist_f (c : Q * Q) (p : pt) : Q :=
  let dx := fsub (p_0 p) (fst c) in
  let d := fmul dx dx in
  let dx := fsub (p_1 p) (snd c) in
  fadd d (fmul dx dx).
Definition closest_step_f (c : Q * Q) (m : Z * Q) (p : pt) : Z * Q :=
  if (fst m =? -1) || qltb (closest_dist_f c p) (snd m) then (p_seg p, closest_dist_f c p) else m.
Definition closest_seg_f (c : Q * Q) (pts : list pt) : Z := fst (fold_left (closest_step_f c) pts (-1, 0%Q)).

(** Lines 110-118: the coordinates are made floats. *)
Definition tree_points_f (seg : img Z) (inds : list (Z * Z)) : res (list pt) :=
  mapM (fun k => match zget inds k with
                 | Some p => let* s := px_res seg (fst p) (snd p) in
                             Ok (mkPt k s (f32 (inject_Z (fst p))) (f32 (inject_Z (snd p))))
                 | None => Err IndexError end) (zrange (zlen inds)).

(** Lines 143-164: the number found for the pixel (x, y), -1 for none. *)
Definition nearest_seg_f (fuel : nat) (t : tree) (maxr : Q) (x y : Z) : res Z :=
  let c := (f32 (inject_Z x), f32 (inject_Z y)) in
  let* r := find_next_closest_distance_f t c in
  let* found := search_loop_f fuel t c r fac0 maxr in
  Ok (closest_seg_f c found).

(** Lines 84-184 [uberseg_tree] *)
Definition uberseg_tree_f (fuel : nat) (seg : img Z) (weight : img Q) (object_number : Z) (inds : list (Z * Z))
  : res (img Q) :=
  let* points := tree_points_f seg inds in
  let* t := fast3tree_build_f points in
  let maxr := maxr_f (nr seg) (nc seg) in
  tab2M (nr seg) (nc seg) (fun x y =>
    let* s := px_res seg x y in
    let* w := px_res weight x y in
    if s =? object_number then Ok w
    else if (0 <? s) && negb (s =? object_number) then Ok 0%Q
    else
      let* segmin := nearest_seg_f fuel t maxr x y in
      if segmin =? -1 then Ok w
      else if negb (segmin =? object_number) then Ok 0%Q
      else Ok w).

(** meds/meds.py 445-508 [get_uberseg] with fast *)
Definition get_uberseg_f (fuel : nat) (f : medsfile) (iobj icutout : Z) : res (img Q) :=
  let* weight := get_cweight_cutout f iobj icutout false in
  let* seg := interpolate_coadd_seg f iobj icutout in
  if zlen (quniq (dat seg)) =? 2 then Ok weight
  else
    let inds := obj_inds seg in
    let* object_number := number_col f iobj in
    uberseg_tree_f fuel (imap qtrunc seg) weight object_number inds.
