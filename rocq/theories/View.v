(** Model of scripts/meds-view.  Definitions only.
    What the program leaves behind is a list of events.  numpy's logarithm and
    square root are parameters; pixels are exact rationals or inf, -inf, nan.
    A cutout has no nan pixels, so that lines 1055-1058 do nothing. *)
From Verif Require Import Base Img Types Reader BoundsM Composite Uberseg.
Open Scope Z_scope.

(** Floating point values. *)
Inductive fv : Type := Fin (q : Q) | PInf | NInf | Nan.
Definition fmul (a b : fv) : fv :=
  match a, b with
  | Nan, _ | _, Nan => Nan
  | Fin x, Fin y => Fin (x * y)
  | Fin x, PInf | PInf, Fin x => if Qeq_bool x 0 then Nan else if qltb 0 x then PInf else NInf
  | Fin x, NInf | NInf, Fin x => if Qeq_bool x 0 then Nan else if qltb 0 x then NInf else PInf
  | PInf, PInf | NInf, NInf => PInf
  | PInf, NInf | NInf, PInf => NInf
  end.
(** [a + y] and [a - y] of arrays and a finite number are [fadd a y]. *)
Definition fadd (a : fv) (y : Q) : fv := match a with Fin x => Fin (x + y) | _ => a end.
(** [1.0/x]; the zero is the positive zero. *)
Definition finv (a : fv) : fv :=
  match a with
  | Fin x => if Qeq_bool x 0 then PInf else Fin (1 / x)
  | PInf | NInf => Fin 0
  | Nan => Nan
  end.
(** numpy's max of two numbers: a nan wins. *)
Definition fmax (a b : fv) : fv :=
  match a, b with
  | Nan, _ | _, Nan => Nan
  | PInf, _ | _, PInf => PInf
  | NInf, x | x, NInf => x
  | Fin x, Fin y => if qltb x y then Fin y else Fin x
  end.
(** [clip(0.0, 1.0)] *)
Definition fclip (a : fv) : fv :=
  match a with
  | Fin x => if qltb x 0 then Fin 0 else if qltb 1 x then Fin 1 else Fin x
  | PInf => Fin 1
  | NInf => Fin 0
  | Nan => Nan
  end.
(** [x.max()]; the maximum of nothing raises. *)
Definition np_max (l : list fv) : res fv :=
  match l with [] => Err ValueError | a :: l' => Ok (fold_left fmax l' a) end.
(** The same of finite numbers. *)
Definition qmax2 (a b : Q) : Q := if qltb a b then b else a.
Definition qmin2 (a b : Q) : Q := if qltb b a then b else a.
Definition np_qmax (l : list Q) : res Q := match l with [] => Err ValueError | a :: l' => Ok (fold_left qmax2 l' a) end.
Definition np_qmin (l : list Q) : res Q := match l with [] => Err ValueError | a :: l' => Ok (fold_left qmin2 l' a) end.

(** Titles of the plots. *)
Inductive title : Type := TCoadd | TFile (file_id : Z).

(** The types that can be asked for: those of the accessors and 'uberseg'. *)
Inductive vtype : Type := VUber | VType (t : rtype).

(** A plot, or a table of plots. *)
Inductive drawing : Type :=
| Plot (t : option title) (im : img fv)
| Table (nrow ncol : Z) (cells : list (Z * Z * (option title * img fv))).

(** A picture is named after the index and the type (lines 1106-1107). *)
Inductive event : Type :=
| WriteFile (index : Z) (t : vtype) (d : drawing)
| ShowWindow (d : drawing)
| HtmlHead | HtmlRow | HtmlItem (index : Z) (t : vtype) | HtmlRowEnd | HtmlFoot.

(** Computations with events; the events before an exception remain. *)
Definition out (A : Type) : Type := (list event * res A)%type.
Definition ret {A} (a : A) : out A := ([], Ok a).
Definition lift {A} (r : res A) : out A := ([], r).
Definition emit (e : event) : out unit := ([e], Ok tt).
Definition obind {A B} (x : out A) (f : A -> out B) : out B :=
  match snd x with
  | Ok a => (fst x ++ fst (f a), snd (f a))
  | Err e => (fst x, Err e)
  end.
Notation "'do*' x ':=' e 'in' k" := (obind e (fun x => k))
  (at level 200, x pattern, e at level 100, k at level 200, right associativity).
(** A loop that may stop early: [f] answers whether to go on. *)
Fixpoint oloop {X} (f : X -> out bool) (l : list X) : out bool :=
  match l with
  | [] => ret true
  | x :: l' => do* b := f x in if b then oloop f l' else ret false
  end.
Fixpoint ofor {X} (f : X -> out unit) (l : list X) : out unit :=
  match l with [] => ret tt | x :: l' => do* _ := f x in ofor f l' end.
Fixpoint omap {X Y} (f : X -> out Y) (l : list X) : out (list Y) :=
  match l with [] => ret [] | x :: l' => do* y := f x in do* ys := omap f l' in ret (y :: ys) end.

(** scripts/meds-view 343-364 [set_grid] for the length of a list; [int(sqrt(n))]
    of numbers below 2^52. *)
Definition set_grid (nplot : Z) : Z * Z :=
  if nplot =? 8 then (2, 4)
  else
    let sq := Z.sqrt nplot in
    if nplot =? sq * sq then (sq, sq)
    else if nplot <=? sq * (sq + 1) then (sq, sq + 1)
    else (sq + 1, sq + 1).

(** scripts/meds-view 366-395 [get_rowcol] *)
Definition get_rowcol (grid : Z * Z) (index : Z) : res (Z * Z) :=
  let '(nrow, ncol) := grid in
  let imax := nrow * ncol - 1 in
  if imax <? index then Err ValueError
  else if ncol =? 0 then Err ZeroDivisionError
  else Ok (index / ncol, index mod ncol).

(** [numpy.flipud] and [transpose] *)
Definition flipud {A} (im : img A) : res (img A) := tab2M (nr im) (nc im) (fun r c => px_res im (nr im - 1 - r) c).
Definition transpose {A} (im : img A) : res (img A) := tab2M (nc im) (nr im) (fun r c => px_res im c r).

(** scripts/meds-view 248-277 [make_combined_mosaic]; [paste] raises for images
    of another shape (numpy would repeat an image with one row or column). *)
Definition make_combined_mosaic (imlist : list (img fv)) : res (img fv) :=
  let nimage := zlen imlist in
  let grid := set_grid nimage in
  let* im0 := py_index imlist 0 in
  let h := nr im0 in
  let w := nc im0 in
  let* imtot := full (fst grid * h) (snd grid * w) (Fin 0) in
  let* imtot := foldM (fun imtot i =>
      let* im := py_index imlist i in
      let* rc := get_rowcol grid i in
      paste imtot (fst rc * h) ((fst rc + 1) * h) (snd rc * w) ((snd rc + 1) * w) im) (zrange nimage) imtot in
  flipud imtot.

(** scripts/meds-view 822-833 [linear_scale] with autoscale; [scale_image] (815-820)
    is never given a nonlinear scale by this program. *)
Definition linear_scale (im : img fv) : res (img fv) :=
  let* m := np_max (dat im) in
  Ok (imap (fun x => fclip (fmul x (finv m))) im).

(** scripts/meds-view 84-133 [view]: the scaled and transposed image is given to
    biggles; 197-230: the plot is written when a name is given, shown when asked for. *)
Definition finish (file : option (Z * vtype)) (show : bool) (d : drawing) : out unit :=
  do* _ := match file with Some (i, t) => emit (WriteFile i t d) | None => ret tt end in
  if show then emit (ShowWindow d) else ret tt.
Definition view (file : option (Z * vtype)) (show : bool) (t : option title) (im : img fv) : out (img fv) :=
  do* s := lift (linear_scale im) in
  do* s := lift (transpose s) in
  do* _ := finish file show (Plot t s) in
  ret s.

(** scripts/meds-view 279-322 [view_mosaic]; the file name is also passed to the
    single plots, the table is written last. *)
Definition view_mosaic (file : option (Z * vtype)) (show combine : bool) (titles : list title) (imlist : list (img fv)) : out unit :=
  if combine then
    do* imtot := lift (make_combined_mosaic imlist) in
    do* _ := view file show None imtot in ret tt
  else
    let grid := set_grid (zlen imlist) in
    do* cells := omap (fun i =>
        do* im := lift (py_index imlist i) in
        do* rc := lift (get_rowcol grid i) in
        do* t := lift (py_index titles i) in
        do* s := view file false (Some t) im in
        ret (rc, (Some t, s))) (zrange (zlen imlist)) in
    finish file show (Table (fst grid) (snd grid) cells).

Section Viewer.
(** [1/sqrt(w)] of a positive weight, log10 of a positive number. *)
Variable sd : Q -> Q.
Variable lg : Q -> Q.
Definition flog (x : Q) : fv := if qltb 0 x then Fin (lg x) else if Qeq_bool x 0 then NInf else Nan.

(** scripts/meds-view 1053-1067: the image cutouts. *)
Definition prepare_image (im wt : img Q) : res (img fv) :=
  let* wtmax := np_qmax (dat wt) in
  if qltb 0 wtmax then
    let im1 := imap (fun x => fadd (Fin x) (sd wtmax)) im in
    let* m := np_max (dat im1) in
    Ok (imap (fun x => fmul x (finv m)) im1)
  else Ok (imap Fin im).

(** scripts/meds-view 1069-1079: the psf images. *)
Definition prepare_psf (im : img Q) : res (img fv) :=
  let im1 := imap (fun x => lg (qmax2 x (1#1000000))) im in
  let* lo := np_qmin (dat im1) in
  let im2 := imap (fun x => fadd (Fin x) (- lo)) im1 in
  let* m := np_max (dat im2) in
  Ok (imap (fun x => fmul x (finv m)) im2).

(** scripts/meds-view 1081-1088: the segmentation maps and bitmasks. *)
Definition prepare_seg (im : img Q) : img fv := imap (fun x => flog (x + 1)) im.

Variable fuel : nat.
Variable fast : bool.
Variable f : medsfile.

(** scripts/meds-view 1039-1088: the images to draw. *)
Definition images_of (index : Z) (t : vtype) : res (list (img fv)) :=
  let* imlist := match t with
                 | VUber => get_uberseg_list fuel f index fast
                 | VType r => get_cutout_list_any f index r
                 end in
  match t with
  | VType (RCut TImage) =>
    let* wtlist := get_cutout_list_any f index (RCut TWeight) in
    mapM (fun p => prepare_image (fst p) (snd p)) (combine imlist wtlist)
  | VType RPsf => mapM prepare_psf imlist
  | VType (RCut TSeg) | VType (RCut TBmask) => Ok (map prepare_seg imlist)
  | _ => Ok (map (imap Fin) imlist)
  end.

(** scripts/meds-view 1090-1094: the titles, from all columns of file_id. *)
Definition titles_of (has_coadd : bool) (o : obj) : list title :=
  let ids := map (fun s => TFile (s_file s)) (o_slots o) in
  if has_coadd then TCoadd :: tl ids else ids.

Variable combine_them has_coadd : bool.

(** scripts/meds-view 1039-1097 [plot_one] *)
Definition plot_one (index : Z) (t : vtype) (show save : bool) : out unit :=
  do* ims := lift (images_of index t) in
  do* o := lift (py_index (m_cat f) index) in
  view_mosaic (if save then Some (index, t) else None) show combine_them (titles_of has_coadd o) ims.

(** scripts/meds-view 1109-1127 [_get_indices] *)
Definition arange (a b : Z) : list Z := map (Z.add a) (zrange (b - a)).
Definition get_indices (start end_ : option Z) (indices : option (list Z)) : list Z :=
  match indices with
  | Some l => l
  | None =>
    match start, end_ with
    | None, None => arange 0 (zlen (m_cat f))
    | _, _ =>
      let a := match start with Some a => a | None => 0 end in
      let b := match end_ with Some b => b + 1 | None => zlen (m_cat f) end in
      arange a b
    end
  end.

(** scripts/meds-view 994-1034: one object; [quit] is the answer of the user. *)
Definition view_object (types : list vtype) (save show html quit : bool) (index : Z) : out bool :=
  do* o := lift (py_index (m_cat f) index) in
  if o_ncut o =? 0 then ret true
  else
    do* _ := (if html then emit HtmlRow else ret tt) in
    do* _ := ofor (fun t =>
        do* _ := plot_one index t show save in
        if html then emit (HtmlItem index t) else ret tt) types in
    do* _ := (if html then emit HtmlRowEnd else ret tt) in
    if show then ret (negb quit) else ret true.

(** scripts/meds-view 961-1037 [go]; [answer i]: the user quits after the i-th
    object of the list.  The result is false when the user quits. *)
Definition go (types : list vtype) (save show : bool) (start end_ : option Z) (indices : option (list Z)) (html : bool)
  (answer : Z -> bool) : out bool :=
  let save := if html then true else save in
  if negb save && negb show then lift (Err RuntimeError)
  else
    do* _ := (if html then emit HtmlHead else ret tt) in
    let indices := get_indices start end_ indices in
    do* b := oloop (fun p => view_object types save show html (answer (fst p)) (snd p)) (List.combine (zrange (zlen indices)) indices) in
    if b then do* _ := (if html then emit HtmlFoot else ret tt) in ret true
    else ret false.

(** scripts/meds-view 1163-1189 [main] *)
Definition main (types : option (list vtype)) := go (match types with Some l => l | None => [VType (RCut TImage)] end).
End Viewer.
