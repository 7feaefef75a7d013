(** Model of get_uberseg, meds/meds.py 445-539, and of meds/_uberseg.c.
    Definitions only.  Integer overflow and rounding to 32 bit floats are not
    modelled: radii are compared by their exact squares. *)
From Verif Require Import Base Img Types Reader BoundsM MakerLayout Composite Fast3tree.
Open Scope Z_scope.

(** Number of distinct values: [len(numpy.unique(seg))]. *)
Fixpoint quniq (l : list Q) : list Q :=
  match l with
  | [] => []
  | x :: l' => if existsb (Qeq_bool x) l' then quniq l' else x :: quniq l'
  end.

(** [numpy.where(seg != 0)], row-major. *)
Definition obj_inds (seg : img Q) : list (Z * Z) :=
  filter (fun p => match px seg (fst p) (snd p) with Some s => negb (Qeq_bool s 0) | None => false end)
         (positions (nr seg) (nc seg)).

Definition idist2 (i j : Z) (p : Z * Z) : Z := (i - fst p) * (i - fst p) + (j - snd p) * (j - snd p).

(** The first element of smallest key: [numpy.argmin] and the loop of
    meds/_uberseg.c 46-58. *)
Fixpoint argmin_from {A} (key : A -> Z) (best : A) (l : list A) : A :=
  match l with
  | [] => best
  | x :: l' => argmin_from key (if key x <? key best then x else best) l'
  end.
Definition argmin {A} (key : A -> Z) (l : list A) : res A :=
  match l with [] => Err ValueError | x :: l' => Ok (argmin_from key x l') end.

(** meds/meds.py 492-504: the Python loops; seg and weight have the same shape. *)
Definition uberseg_slow (seg weight : img Q) (object_number : Z) (inds : list (Z * Z)) : res (img Q) :=
  tab2M (nr seg) (nc seg) (fun i j =>
    let* p := argmin (idist2 i j) inds in
    let* segval := px_res seg (fst p) (snd p) in
    let* w := px_res weight i j in
    Ok (if negb (Qeq_bool segval (inject_Z object_number)) then 0%Q else w)).

(** meds/_uberseg.c 10-75 [uberseg_direct] *)
Definition uberseg_direct (seg : img Z) (weight : img Q) (object_number : Z) (inds : list (Z * Z)) : res (img Q) :=
  tab2M (nr seg) (nc seg) (fun x y =>
    let* s := px_res seg x y in
    let* w := px_res weight x y in
    if s =? object_number then Ok w
    else if (0 <? s) && negb (s =? object_number) then Ok 0%Q
    else match inds with
         | [] => Ok w
         | p0 :: ps =>
           let p := argmin_from (idist2 x y) p0 ps in
           let* s' := px_res seg (fst p) (snd p) in
           Ok (if negb (s' =? object_number) then 0%Q else w)
         end).

(** meds/_uberseg.c 110-118: the points of the tree. *)
Definition tree_points (seg : img Z) (inds : list (Z * Z)) : res (list pt) :=
  mapM (fun k => match zget inds k with
                 | Some p => let* s := px_res seg (fst p) (snd p) in
                             Ok (mkPt k s (inject_Z (fst p)) (inject_Z (snd p)))
                 | None => Err IndexError end) (zrange (zlen inds)).

(** meds/_uberseg.c 148-153: the radius grows by 1.1 until a point is inside or
    the radius exceeds maxr. *)
Fixpoint search_loop (fuel : nat) (t : tree) (c : Q * Q) (r2 maxr2 : Q) : res (list pt) :=
  match fuel with
  | O => Err OutOfFuel
  | S fuel' =>
    match find_sphere t c r2 with
    | [] => if Qle_bool r2 maxr2 then search_loop fuel' t c (r2 * (121#100))%Q maxr2 else Ok []
    | pts => Ok pts
    end
  end.

(** meds/_uberseg.c 155-165: the first closest point, with -1 for "none yet". *)
Definition closest_step (c : Q * Q) (m : Z * Q) (p : pt) : Z * Q :=
  if (fst m =? -1) || qltb (pdist c p) (snd m) then (p_seg p, pdist c p) else m.
Definition closest_seg (c : Q * Q) (pts : list pt) : Z := fst (fold_left (closest_step c) pts (-1, 0%Q)).

(** meds/_uberseg.c 84-184 [uberseg_tree]; [fuel] bounds the search loop. *)
Definition uberseg_tree (fuel : nat) (seg : img Z) (weight : img Q) (object_number : Z) (inds : list (Z * Z))
  : res (img Q) :=
  let* points := tree_points seg inds in
  let* t := fast3tree_build points in
  let maxr2 := ((121#100) * inject_Z (nr seg * nr seg + nc seg * nc seg))%Q in
  tab2M (nr seg) (nc seg) (fun x y =>
    let* s := px_res seg x y in
    let* w := px_res weight x y in
    if s =? object_number then Ok w
    else if (0 <? s) && negb (s =? object_number) then Ok 0%Q
    else
      let c := (inject_Z x, inject_Z y) in
      let* r2 := find_next_closest_distance t c in
      let* found := search_loop fuel t c r2 maxr2 in
      let segmin := closest_seg c found in
      if segmin =? -1 then Ok w
      else if negb (segmin =? object_number) then Ok 0%Q
      else Ok w).

(** meds/meds.py 445-508 [get_uberseg]; [fast] stands for [fast and _have_c_ubserseg]. *)
Definition get_uberseg (fuel : nat) (f : medsfile) (iobj icutout : Z) (fast : bool) : res (img Q) :=
  let* weight := get_cweight_cutout f iobj icutout false in
  let* seg := interpolate_coadd_seg f iobj icutout in
  if zlen (quniq (dat seg)) =? 2 then Ok weight
  else
    let inds := obj_inds seg in
    let* object_number := number_col f iobj in
    if fast then uberseg_tree fuel (imap qtrunc seg) weight object_number inds
    else uberseg_slow seg weight object_number inds.

(** meds/meds.py 510-539 [get_uberseg_list] *)
Definition get_uberseg_list (fuel : nat) (f : medsfile) (iobj : Z) (fast : bool) : res (list (img Q)) :=
  let* o := py_index (m_cat f) iobj in
  mapM (fun i => get_uberseg fuel f iobj i fast) (zrange (o_ncut o)).
