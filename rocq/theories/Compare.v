(** Model of meds/compare.py.  Definitions only.
    What is printed or drawn is a list of reports.  The packages images, biggles
    and esutil are taken to be installed; esutil's match, its random subset and
    its sigma clipping are parameters. *)
From Coq Require Import Qabs.
From Verif Require Import Base Img Types Reader BoundsM Composite.
Open Scope Z_scope.

(** The argument png_prefix: None, False (the default) or a string. *)
Inductive png_prefix : Type := PngNone | PngFalse | PngString.

Inductive report : Type :=
| RmsAbove (index icut : Z)            (* "rms ... greater than tolerance" *)
| WeightsWorse (index icut n : Z)      (* "n matched worse than ..." *)
| Picture (index icut : Z) (ok : bool) (* images.compare_images *)
| Histogram.                           (* biggles.plot_hist *)

(** meds/compare.py 169-188 [_check_ncutout] *)
Definition check_ncutout (same_nepoch : bool) (n1 n2 : Z) : res Z :=
  if negb same_nepoch then Ok (Z.min n1 n2)
  else if negb (n1 =? n2) then Err ValueError else Ok n1.

Definition shapes_differ (a b : img Q) : bool := negb ((nr a =? nr b) && (nc a =? nc b)).

(** [im1 - im2] of arrays of one shape. *)
Definition img_diff (a b : img Q) : list Q := map (fun p => (fst p - snd p)%Q) (combine (dat a) (dat b)).
Definition qsum (l : list Q) : Q := fold_right Qplus 0%Q l.
Definition qmean (l : list Q) : Q := (qsum l / inject_Z (zlen l))%Q.
(** Variance: the square of numpy's [std]. *)
Definition qvar (l : list Q) : Q := qmean (map (fun x => (x - qmean l) * (x - qmean l))%Q l).
(** [std > tol] *)
Definition std_above (tol : Q) (l : list Q) : bool := qltb tol 0 || qltb (tol * tol) (qvar l).

(** meds/compare.py 190-214 [_compare_images]: ok and mean. *)
Definition compare_rms (tol : Q) (im1 im2 : img Q) : res (bool * Q) :=
  if shapes_differ im1 im2 then Err ValueError
  else let diff := img_diff im1 im2 in Ok (negb (std_above tol diff), qmean diff).

(** meds/compare.py 216-231 [_compare_weights]: the number of bad pixels. *)
Definition compare_weights (tol : Q) (im1 im2 : img Q) : res Z :=
  if shapes_differ im1 im2 then Err ValueError
  else Ok (zlen (filter (fun d => negb (qltb (Qabs d) tol)) (img_diff im1 im2))).

(** meds/compare.py 233-244 [_compare_images_exact] *)
Definition compare_exact (im1 im2 : img Q) : res unit :=
  if shapes_differ im1 im2 then Err ValueError
  else if existsb (fun d => negb (Qeq_bool d 0)) (img_diff im1 im2) then Err ValueError else Ok tt.

(** Arguments of the constructor. *)
Record comparator : Type := mkComp {
  k_rms_tol : Q; k_weight_tol : Q; k_same_nepoch : bool; k_png : png_prefix;
  k_clip : list Q -> res unit }.      (* eu.stat.sigma_clip *)

(** State of the loop: reports, means, and the variables (ok, icut) that live on
    from one object to the next. *)
Record cstate : Type := mkCstate { cs_reports : list report; cs_means : list Q; cs_last : option (bool * Z) }.

(** meds/compare.py 103-119 for one cutout. *)
Definition compare_cutout (k : comparator) (f1 f2 : medsfile) (t : ctype) (index i1 i2 : Z) (st : cstate) (icut : Z) : res cstate :=
  let* im2 := get_cutout f2 i2 icut t in
  let* im1 := get_cutout f1 i1 icut t in
  match t with
  | TImage =>
    let* r := compare_rms (k_rms_tol k) im1 im2 in
    Ok (mkCstate (cs_reports st ++ if fst r then [] else [RmsAbove index icut]) (cs_means st ++ [snd r]) (Some (fst r, icut)))
  | TWeight =>
    let* n := compare_weights (k_weight_tol k) im1 im2 in
    Ok (mkCstate (cs_reports st ++ if n =? 0 then [] else [WeightsWorse index icut n]) (cs_means st) (cs_last st))
  | _ =>
    let* _ := compare_exact im1 im2 in Ok st
  end.

(** meds/compare.py 121-143: the picture of an object. *)
Definition draw (k : comparator) (index : Z) (st : cstate) : res cstate :=
  match k_png k with
  | PngNone => Ok st
  | p => match cs_last st with
         | None => Err UnboundLocalError
         | Some (ok, icut) =>
           match p with
           | PngFalse => Err TypeError
           | _ => Ok (mkCstate (cs_reports st ++ [Picture index icut ok]) (cs_means st) (cs_last st))
           end
         end
  end.

(** meds/compare.py 96-143: one matched object. *)
Definition compare_object (k : comparator) (f1 f2 : medsfile) (t : ctype) (pairs : list (Z * Z)) (st : cstate) (index : Z) : res cstate :=
  let* p := py_index pairs index in
  let '(i1, i2) := p in
  let* o1 := py_index (m_cat f1) i1 in
  let* o2 := py_index (m_cat f2) i2 in
  let* ncut := check_ncutout (k_same_nepoch k) (o_ncut o1) (o_ncut o2) in
  let* st := foldM (compare_cutout k f1 f2 t index i1 i2) (zrange ncut) st in
  if ctype_eqb t TImage then draw k index st else Ok st.

(** meds/compare.py 72-167 [compare_images]; [ids]: all indices, or the random
    subset. *)
Definition compare_images (k : comparator) (f1 f2 : medsfile) (pairs : list (Z * Z)) (ids : list Z) (t : ctype) : res (list report) :=
  let* st := foldM (compare_object k f1 f2 t pairs) ids (mkCstate [] [] None) in
  if ctype_eqb t TImage then
    let* _ := k_clip k (cs_means st) in
    match k_png k with
    | PngNone => Ok (cs_reports st)
    | PngFalse => Err TypeError
    | PngString => Ok (cs_reports st ++ [Histogram])
    end
  else Ok (cs_reports st).

(** meds/compare.py 44-70 [compare_object_data]: only the column names can make
    it raise; columns are numeric and sigma clipping works. *)
Definition psf_cols_eqb (a b : psf_cols) : bool :=
  match a, b with
  | PsfRCCut, PsfRCCut | PsfRCObj, PsfRCObj | PsfBoxCut, PsfBoxCut | PsfBoxObj, PsfBoxObj | PsfNone, PsfNone => true
  | _, _ => false
  end.
Definition compare_object_data (f1 f2 : medsfile) : res unit :=
  if Bool.eqb (m_number_col f1) (m_number_col f2) && psf_cols_eqb (m_psf_cols f1) (m_psf_cols f2)
  then Ok tt else Err ValueError.

(** meds/compare.py 31-42 [go]; [match_ids] is eu.numpy_util.match as a list of
    pairs, [subset size nrand] eu.random.random_indices, drawn anew for each type. *)
Definition go (k : comparator) (match_ids : list Z -> list Z -> list (Z * Z)) (subset : ctype -> Z -> Z -> list Z)
  (f1 f2 : medsfile) (nrand : option Z) : res (list report) :=
  let pairs := match_ids (map o_id (m_cat f1)) (map o_id (m_cat f2)) in
  if zlen pairs =? 0 then Err RuntimeError
  else
    let* _ := compare_object_data f1 f2 in
    let* l := mapM (fun t =>
        let ids := match nrand with
                   | Some n => subset t (zlen pairs) (Z.min n (zlen pairs))
                   | None => zrange (zlen pairs) end in
        compare_images k f1 f2 pairs ids t) [TImage; TWeight; TBmask; TSeg] in
    Ok (concat l).

(** The default arguments. *)
Definition default_comparator (clip : list Q -> res unit) : comparator :=
  mkComp (8#10) (1#10000) true PngFalse clip.
