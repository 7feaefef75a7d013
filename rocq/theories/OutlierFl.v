(** Model of reject_outliers, meds/meds.py 1098-1183, with numpy's floating point
    numbers: images and weight maps are float32 or float64 ([di], [dw]: true for
    float64), with rounding, overflow, infinities and NaN.  The arrays are distinct
    (sharing is in Outlier.v); arrays of different shapes raise ValueError
    (broadcasting is not modelled), and the arrays after an exception are not
    modelled here.  Definitions only. *)
From Coq Require Import Qabs.
From Verif Require Import Base Img Types BoundsM Outlier Typed LayoutFl.
Open Scope Z_scope.

(** [<] of numpy: false for NaN. *)
Definition fl_ltb (x y : fl) : bool :=
  match x, y with
  | Fin a, Fin b => qltb a b
  | Inf true, Fin _ | Inf true, Inf false | Fin _, Inf false => true
  | _, _ => false
  end.
Definition fl_nan (x : fl) : bool := match x with NaN => true | _ => false end.
Definition fl_abs (x : fl) : fl := match x with Fin a => Fin (Qabs a) | Inf _ => Inf false | NaN => NaN end.
(** meds/meds.py 1160: [wt.clip(0.0)] keeps NaN. *)
Definition fl_clip (x : fl) : fl := if fl_ltb x (Fin 0) then Fin 0 else x.

Fixpoint fl_insert (x : fl) (l : list fl) : list fl :=
  match l with
  | [] => [x]
  | y :: l' => if fl_ltb y x then y :: fl_insert x l' else x :: l
  end.
Definition fl_sort (l : list fl) : list fl := fold_right fl_insert [] l.

(** meds/meds.py 1148-1154: [numpy.median] of doubles: NaN if there is a NaN, else the
    middle value or the mean of the two middle values. *)
Definition fl_median (l : list fl) : res fl :=
  if existsb fl_nan l then Ok NaN
  else
    let s := fl_sort l in
    let n := zlen s in
    if Z.even n
    then match zget s (n / 2 - 1), zget s (n / 2) with
         | Some a, Some b => Ok (fmul true (fadd true a b) (Fin (1#2)))
         | _, _ => Err ValueError end
    else match zget s (n / 2) with Some a => Ok a | None => Err ValueError end.
Definition stack_median_fl (ims : list (img fl)) : res (img fl) :=
  match ims with
  | [] => Err IndexError
  | im0 :: _ =>
    if forallb (shape_eqb im0) ims
    then tab2M (nr im0) (nc im0) (fun r c =>
           let* vs := mapM (fun im => px_res im r c) ims in fl_median vs)
    else Err ValueError
  end.

(** meds/meds.py 1162-1177 at one pixel: [wt] is the clipped weight, [med] a double,
    [sq] numpy.sqrt.  An in-place operation is done in the larger of the two types and
    stored in the type of the left array. *)
Definition is_outlier_fl (di dw : bool) (sq : fl -> fl) (nsigma A : Q) (med x wt : fl) : bool :=
  let ierr := sq wt in
  let chi2 := fcast di (fsub true x med) in
  let chi2 := fmul di chi2 chi2 in
  let chi2 := fcast di (fmul (di || dw) chi2 wt) in
  let m := fl_abs med in
  let m := fmul true m (Fin A) in
  let m := fmul true m ierr in
  let m := fadd true m (Fin nsigma) in
  let m := fmul true m m in
  fl_ltb m chi2.

(** meds/meds.py 1156-1181: the body of the loop, the new weight map and the number of
    rejected pixels. *)
Definition reject_one_fl (di dw : bool) (sq : fl -> fl) (nsigma A : Q) (med im wt : img fl) : res (img fl * Z) :=
  if shape_eqb med im && shape_eqb med wt then
    let* out := tab2M (nr med) (nc med) (fun r c =>
      let* m := px_res med r c in
      let* x := px_res im r c in
      let* v := px_res wt r c in
      let v := fl_clip v in
      Ok (v, is_outlier_fl di dw sq nsigma A m x v)) in
    Ok (imap (fun p : fl * bool => if snd p then Fin 0 else fst p) out, zlen (filter snd (dat out)))
  else Err ValueError.
Fixpoint reject_all_fl (di dw : bool) (sq : fl -> fl) (nsigma A : Q) (med : img fl) (ims wts : list (img fl)) : res (list (img fl) * Z) :=
  match ims, wts with
  | [], _ => Ok (wts, 0)
  | im :: ims', wt :: wts' =>
    let* a := reject_one_fl di dw sq nsigma A med im wt in
    let* b := reject_all_fl di dw sq nsigma A med ims' wts' in
    Ok (fst a :: fst b, snd a + snd b)
  | _ :: _, [] => Err IndexError
  end.

(** meds/meds.py 1098-1183: the weight maps after the call and the number returned. *)
Definition reject_outliers_fl (di dw : bool) (sq : fl -> fl) (nsigma A : Q) (ims wts : list (img fl)) : res (list (img fl) * Z) :=
  if zlen ims <? 3 then Ok (wts, 0)
  else let* med := stack_median_fl ims in reject_all_fl di dw sq nsigma A med ims wts.
