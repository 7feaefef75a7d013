(** Model of the checks of meds/compare.py on one pair of cutouts with floating point
    numbers (rounding, infinities, NaN).  Definitions only.  The order in which numpy adds
    the elements of an array, its square root, and the types it divides and compares in
    are parameters. *)
From Coq Require Import Qabs.
From Verif Require Import Base Img Types BoundsM Typed LayoutFl OutlierFl.
Open Scope Z_scope.

(** An order of summation: a tree over the indices of the array. *)
Inductive order : Type := Leaf (i : Z) | Node (a b : order).
Fixpoint tree_sum (d : bool) (t : order) (l : list fl) : res fl :=
  match t with
  | Leaf i => match zget l i with Some x => Ok x | None => Err IndexError end
  | Node a b =>
    let* x := tree_sum d a l in
    let* y := tree_sum d b l in
    Ok (fadd d x y)
  end.

(** numpy: the tree for a number of elements, square root, division by the number of
    elements in double precision, comparison with a Python float in the type of the
    array. *)
Record numpy : Type := mkNumpy {
  np_order : Z -> order; np_sqrt : fl -> fl; np_wide : bool; np_weak : bool }.

(** Division by the number of elements, stored in the type of the array. *)
Definition div_count (np : numpy) (d : bool) (x : fl) (n : Z) : fl :=
  let w := d || np_wide np in
  match x, fround w (inject_Z n) with
  | Fin a, Fin b => if Qeq_bool b 0 then NaN else fcast d (fround w (a / b))
  | Inf s, Fin _ => Inf s
  | _, _ => NaN
  end.
(** [a.mean()] *)
Definition np_mean (np : numpy) (d : bool) (l : list fl) : res fl :=
  if zlen l =? 0 then Ok NaN
  else let* s := tree_sum d (np_order np (zlen l)) l in Ok (div_count np d s (zlen l)).
(** [a.std()] *)
Definition np_std (np : numpy) (d : bool) (l : list fl) : res fl :=
  let* m := np_mean np d l in
  let* v := np_mean np d (map (fun x => let y := fsub d x m in fmul d y y) l) in
  Ok (np_sqrt np v).

Definition differ_fl (a b : img fl) : bool := negb ((nr a =? nr b) && (nc a =? nc b)).
(** [im1 - im2] *)
Definition diff_fl (d : bool) (a b : img fl) : list fl :=
  map (fun p => fsub d (fst p) (snd p)) (combine (dat a) (dat b)).

(** meds/compare.py 190-214 [_compare_images]: ok and std; [d]: double precision. *)
Definition compare_rms_fl (np : numpy) (d : bool) (tol : Q) (im1 im2 : img fl) : res (bool * fl) :=
  if differ_fl im1 im2 then Err ValueError
  else
    let* std := np_std np d (diff_fl d im1 im2) in
    let t := if np_weak np then fround d tol else Fin tol in
    Ok (negb (fl_ltb t std), std).

(** meds/compare.py 216-231 [_compare_weights]: the number of pixels that matched worse
    than the tolerance. *)
Definition compare_weights_fl (d : bool) (tol : Q) (im1 im2 : img fl) : res Z :=
  if differ_fl im1 im2 then Err ValueError
  else Ok (zlen (filter (fun x => negb (fl_ltb (fl_abs x) (fround d tol))) (diff_fl d im1 im2))).

(** meds/compare.py 233-244 [_compare_images_exact]; [x != y] holds for NaN. *)
Definition fl_neqb (x y : fl) : bool :=
  match x, y with
  | Fin a, Fin b => negb (Qeq_bool a b)
  | Inf s, Inf s' => negb (Bool.eqb s s')
  | _, _ => true
  end.
Definition compare_exact_fl (im1 im2 : img fl) : res unit :=
  if differ_fl im1 im2 then Err ValueError
  else if existsb (fun p => fl_neqb (fst p) (snd p)) (combine (dat im1) (dat im2)) then Err ValueError else Ok tt.
