(** Model of meds/coadd.py.  Definitions only.
    The observation and coadd objects of the packages ngmix and psc are
    records: an Observation keeps the arrays it is given, so that the in-place
    changes of [obs.weight.ravel()] reach [obs.weight].  What other packages,
    the random generator and the sub class compute is a parameter ([oracle]). *)
From Verif Require Import Base Img Types Reader BoundsM MakerLayout MakerWrite Composite.
Open Scope Z_scope.

(** meds/coadd.py 28-35 *)
Definition NO_GOOD_CUTOUTS : Z := 2 ^ 0.
Definition CUTOUT_HITS_EDGE : Z := 2 ^ 1.
Definition CUTOUT_MASK_FRAC : Z := 2 ^ 2.
Definition CUTOUT_CENTRAL_MASKED : Z := 2 ^ 3.
Definition CUTOUT_FULL_EDGE_MASKED : Z := 2 ^ 4.
Definition CUTOUT_ALL_WEIGHT_ZERO : Z := 2 ^ 5.

(** Configuration of the coadder; the entries without default are present. *)
Record cconf : Type := mkCconf {
  c_bmask_flags : option (list Z);    (* 'bmask_flags', if given *)
  c_edge_flags : option (list Z);     (* 'edge_flags', if given *)
  c_reject : bool;                    (* 'reject_outliers' *)
  c_symmetrize : bool;                (* 'symmetrize_mask' *)
  c_max_masked_frac : Q;
  c_central_check : bool; c_central_size : Q;    (* 'central_region' *)
  c_edge_check : bool;                (* 'stamp_edge' *)
  c_cubic : bool }.                   (* 'interp' has type 'cubic' *)

(** Python's [sum] of a list of integers. *)
Definition py_sum (l : list Z) : Z := fold_left Z.add l 0.

(** meds/coadd.py 413-419 [_set_bad_flags] *)
Definition bad_flags (c : cconf) : option Z := option_map py_sum (c_bmask_flags c).
(** meds/coadd.py 421-427 [_set_edge_flags] *)
Definition edge_flags (c : cconf) : option Z := option_map py_sum (c_edge_flags c).

(** [(bmask & flags) != 0] at a pixel; no flags: False. *)
Definition has_flag (flags : option Z) (b : Z) : bool :=
  match flags with None => false | Some e => negb (Z.land b e =? 0) end.

(** meds/coadd.py 604-611 [_hits_the_edge] *)
Definition hits_the_edge (c : cconf) (bmask : img Z) : bool :=
  existsb (has_flag (edge_flags c)) (dat bmask).

(** The pixel is unusable: meds/coadd.py 614-616, 737-740. *)
Definition pix_bad (bad : option Z) (w : Q) (b : Z) : bool := Qle_bool w 0 || has_flag bad b.

(** meds/coadd.py 613-631 [_get_mask_frac] *)
Definition get_mask_frac (c : cconf) (bmask : img Z) (wt : img Q) : res Q :=
  let* logic := img_zip (pix_bad (bad_flags c)) wt bmask in
  let size := zlen (dat bmask) in
  if size =? 0 then Err ZeroDivisionError
  else Ok (inject_Z (zlen (filter (fun x => x) (dat logic))) / inject_Z size)%Q.

(** [numpy.rot90(m)[i, j]] is m[j, ncol - 1 - i]. *)
Definition rot90 {A} (m : img A) : res (img A) :=
  tab2M (nc m) (nr m) (fun i j => px_res m j (nc m - 1 - i)).

(** meds/coadd.py 633-643 [_symmetrize_weight], the array after it. *)
Definition symmetrize_weight (wt : img Q) : res (img Q) :=
  if negb (nr wt =? nc wt) then Err AssertionError
  else let* wt_rot := rot90 wt in
       img_zip (fun x y => if Qeq_bool y 0 then 0%Q else x) wt wt_rot.

(** meds/coadd.py 645-658 [_symmetrize_bmask]; [bm_rot] is a view, but
    [bm_rot[wbad]] is copied before the assignment. *)
Definition symmetrize_bmask (c : cconf) (bmask : img Z) : res (img Z) :=
  match bad_flags c with
  | None => Ok bmask
  | Some _ =>
    if negb (nr bmask =? nc bmask) then Err AssertionError
    else let* bm_rot := rot90 bmask in
         img_zip (fun x y => if has_flag (bad_flags c) y then y else x) bmask bm_rot
  end.

(** meds/coadd.py 660-679 [_central_region_is_masked]; numpy.all of an empty
    array is True. *)
Definition central_low (c : cconf) (n : Z) : Z :=
  qround ((inject_Z n - 1) / 2 - c_central_size c / 2)%Q.
Definition central_high (c : cconf) (n : Z) : Z :=
  qround ((inject_Z n - 1) / 2 + c_central_size c / 2 + 1)%Q.
Definition central_region_is_masked (c : cconf) (bmask : img Z) (wt : img Q) : res bool :=
  if c_central_check c then
    let low := central_low c (nr wt) in
    let high := central_high c (nr wt) in
    let* w := sub2d wt low high low high in
    let* b := sub2d bmask low high low high in
    let* logic := img_zip (fun x y => qltb 0 x && negb (has_flag (bad_flags c) y)) w b in
    Ok (negb (forallb (fun x => x) (dat logic)))
  else Ok false.

(** [im[r, :]] and [im[:, c]] *)
Definition get_row {A} (im : img A) (r : Z) : res (list A) :=
  mapM (fun c => px_res im r c) (zrange (nc im)).
Definition get_col {A} (im : img A) (c : Z) : res (list A) :=
  mapM (fun r => px_res im r c) (zrange (nr im)).

(** One of the four sides is masked entirely. *)
Definition any_side {A} (p : A -> bool) (im : img A) : res bool :=
  if (nr im =? 0) || (nc im =? 0) then Err IndexError
  else
    let* a := get_row im 0 in
    let* b := get_row im (nr im - 1) in
    let* c := get_col im 0 in
    let* d := get_col im (nc im - 1) in
    Ok (forallb p a || forallb p b || forallb p c || forallb p d).

(** meds/coadd.py 681-706 [_ps_edge_pixels_are_masked]: without the check the
    local variable is never set. *)
Definition ps_edge_pixels_are_masked (c : cconf) (bmask : img Z) (wt : img Q) : res bool :=
  if c_edge_check c then
    let* sides_bad := any_side (fun w => Qeq_bool w 0) wt in
    if sides_bad then Ok true
    else match bad_flags c with
         | None => Ok false
         | Some _ => any_side (has_flag (bad_flags c)) bmask
         end
  else Err UnboundLocalError.

(** The tests of meds/coadd.py 508-540 in order: the flag, or 0. *)
Definition cutout_flag (c : cconf) (bmask : img Z) (wt : img Q) : res Z :=
  if hits_the_edge c bmask then Ok CUTOUT_HITS_EDGE
  else
    let* mask_frac := get_mask_frac c bmask wt in
    if qltb (c_max_masked_frac c) mask_frac then Ok CUTOUT_MASK_FRAC
    else
      let* central := central_region_is_masked c bmask wt in
      if central then Ok CUTOUT_CENTRAL_MASKED
      else
        let* sides := ps_edge_pixels_are_masked c bmask wt in
        if sides then Ok CUTOUT_FULL_EDGE_MASKED
        else if negb (existsb (fun w => qltb 0 w) (dat wt)) then Ok CUTOUT_ALL_WEIGHT_ZERO
        else Ok 0.

(** [numpy.median] of rationals. *)
Fixpoint qinsert (x : Q) (l : list Q) : list Q :=
  match l with
  | [] => [x]
  | y :: l' => if qltb y x then y :: qinsert x l' else x :: l
  end.
Definition qsort (l : list Q) : list Q := fold_right qinsert [] l.
Definition qmedian (l : list Q) : res Q :=
  let s := qsort l in
  let n := zlen s in
  if Z.even n
  then match zget s (n / 2 - 1), zget s (n / 2) with
       | Some a, Some b => Ok ((a + b) / 2)%Q
       | _, _ => Err ValueError end
  else match zget s (n / 2) with Some a => Ok a | None => Err ValueError end.

(** An observation: meds/coadd.py 574-591. *)
Record obs : Type := mkObs {
  ob_image : img Q; ob_weight : img Q; ob_bmask : img Z; ob_seg : img Q; ob_noise : img Q;
  ob_jac : jacob; ob_offset : Q * Q; ob_psf : img Q; ob_ninterp : Z }.

(** A coadd: psc's result with the attributes set in meds/coadd.py 375-391. *)
Record cobs : Type := mkCobs {
  co_image : img Q; co_weight : img Q; co_seg : img Q; co_bmask : img Z; co_ormask : img Z;
  co_noise : img Q; co_jac : jacob; co_psf : img Q; co_psf_row0 : Q; co_psf_col0 : Q;
  co_ncoadd : Z; co_imflags : list Z }.

(** What is computed elsewhere, for one call of [get_coadd_obs]. *)
Record oracle : Type := mkOracle {
  or_reject : list (img Q) -> list (img Q) -> res (list (img Q));  (* the weights after reject_outliers *)
  or_psf : Z -> jacob -> res (img Q);                      (* [_get_psf_obs] of a cutout *)
  or_noise : Z -> img Q -> Z -> Z -> Q;                    (* noise value of a cutout at a pixel *)
  or_interp : list (Z * Z) -> list Q -> list (Z * Z) -> res (list Q);  (* CloughTocher2DInterpolator *)
  or_coadd : list obs -> res (img Q * img Q * img Q * jacob * img Q * Q * Q) }. (* psc.Coadder *)

(** [a[inds]] and [a[inds] = vals] of a flat array, indices in range. *)
Definition take {A} (d : list A) (inds : list Z) : res (list A) := mapM (py_index d) inds.
Definition put_at {A} (d : list A) (inds : list Z) (vals : list A) : res (list A) :=
  if zlen inds =? zlen vals
  then Ok (fold_left (fun d p => upd d (Z.to_nat (fst p)) (snd p)) (combine inds vals) d)
  else Err ValueError.

(** meds/coadd.py 792-809 [_do_interp] *)
Definition yx (w : Z) (p : Z) : Z * Z := (p / w, p mod w).
Definition do_interp (o : oracle) (im : img Q) (wgood wbad : list Z) : res (img Q) :=
  let* vgood := take (dat im) wgood in
  let* vals := or_interp o (map (yx (nc im)) wgood) vgood (map (yx (nc im)) wbad) in
  let* d := put_at (dat im) wbad vals in
  Ok (mkImg (nr im) (nc im) d).

(** meds/coadd.py 781-790 [_make_noise_image] *)
Definition make_noise_image (o : oracle) (icut : Z) (weight : img Q) : img Q :=
  tab2 (nr weight) (nc weight) (or_noise o icut weight).

(** [numpy.where(logic)] of a flat array. *)
Definition where_ (l : list bool) : list Z :=
  filter (fun i => match zget l i with Some b => b | None => false end) (zrange (zlen l)).

(** meds/coadd.py 717-779 [_interp_bad_pixels]: image, weight, noise, count. *)
Definition interp_bad_pixels (c : cconf) (o : oracle) (icut : Z) (im weight : img Q) (bmask : img Z)
  : res (img Q * img Q * img Q * Z) :=
  if negb (c_cubic c) then Err AssertionError
  else
    let* bad := img_zip (pix_bad (bad_flags c)) weight bmask in
    let wbad := where_ (dat bad) in
    match wbad with
    | [] => Ok (im, weight, make_noise_image o icut weight, 0)
    | _ :: _ =>
      let wgood := where_ (map negb (dat bad)) in
      let* gw := take (dat weight) wgood in
      let* medwt := qmedian gw in
      let* wd := put_at (dat weight) wbad (map (fun _ => medwt) wbad) in
      let weight := mkImg (nr weight) (nc weight) wd in
      let* im_interp := do_interp o im wgood wbad in
      let tmp_noise := make_noise_image o icut weight in
      let* noise_interp := do_interp o tmp_noise wgood wbad in
      Ok (im_interp, weight, noise_interp, zlen wbad)
    end.

(** meds/coadd.py 497-602: the body of the loop for cutout [i + 1]. *)
Definition obslist_step (c : cconf) (o : oracle) (f : medsfile) (iobj : Z)
  (ims wts segs : list (img Q)) (bms : list (img Z)) (st : list obs * list Z) (i : Z)
  : res (list obs * list Z) :=
  let icut := i + 1 in
  let* im := py_index ims i in
  let* wt := py_index wts i in
  let* seg := py_index segs i in
  let* bmask := py_index bms i in
  let* wt := if c_symmetrize c then symmetrize_weight wt else Ok wt in
  let* bmask := if c_symmetrize c then symmetrize_bmask c bmask else Ok bmask in
  let* flag := cutout_flag c bmask wt in
  if negb (flag =? 0)
  then let* imflags := modify (snd st) (Z.to_nat i) (fun x => Z.lor x flag) in Ok (fst st, imflags)
  else
    let* j := get_jacobian f iobj icut in
    let offset := (j_row0 j - (inject_Z (nr im) - 1) / 2, j_col0 j - (inject_Z (nc im) - 1) / 2)%Q in
    let* psf := or_psf o icut j in
    let* r := interp_bad_pixels c o icut im wt bmask in
    let '(im, wt, noise, ninterp) := r in
    Ok (fst st ++ [mkObs im wt bmask seg noise j offset psf ninterp], snd st).

(** meds/coadd.py 449-602 [_get_obslist]; bmask cutouts are integers. *)
Definition get_obslist (c : cconf) (o : oracle) (f : medsfile) (iobj : Z)
  : res (list obs * option (list Z)) :=
  let* ims := get_cutout_list f iobj TImage in
  if zlen ims =? 1 then Ok ([], None)
  else
    let* wts := get_cutout_list f iobj TWeight in
    let* bms := get_cutout_list f iobj TBmask in
    let ims := tl ims in
    let wts := tl wts in
    let bms := map (imap qtrunc) (tl bms) in
    let* wts := if c_reject c then or_reject o ims wts else Ok wts in
    let ncutout := zlen ims in
    let* segs := mapM (fun i => interpolate_coadd_seg f iobj (i + 1)) (zrange ncutout) in
    let* st := foldM (obslist_step c o f iobj ims wts segs bms) (zrange ncutout)
                 ([], map (fun _ => 0) (zrange ncutout)) in
    Ok (fst st, Some (snd st)).

(** [a | b] of integer arrays of one shape. *)
Definition img_lor (a b : img Z) : res (img Z) := img_zip Z.lor a b.

(** meds/coadd.py 350-391 [get_coadd_obs]; [jmatrix] is the target jacobian. *)
Definition get_coadd_obs (c : cconf) (o : oracle) (f : medsfile) (jmatrix : mat) (iobj : Z)
  : res (option cobs * Z) :=
  let* l := get_obslist c o f iobj in
  let '(obslist, imflags) := l in
  match obslist with
  | [] => Ok (None, Z.lor 0 NO_GOOD_CUTOUTS)
  | ob0 :: _ =>
    let bmask := imap (fun b => b * 0) (ob_bmask ob0) in
    let* ormask := foldM (fun m ob => img_lor m (ob_bmask ob)) obslist (imap (fun b => b * 0) (ob_bmask ob0)) in
    let* r := or_coadd o obslist in
    let '(im, wt, noise, jac, psf, prow, pcol) := r in
    let* seg := interpolate_coadd_seg_image f iobj jmatrix None in
    let* fl := match imflags with Some l => Ok l | None => Err TypeError end in
    Ok (Some (mkCobs im wt seg bmask ormask noise jac psf prow pcol (zlen obslist) fl), 0)
  end.

(** meds/coadd.py 429-447 [_set_target_jacobian]; no object with two cutouts
    gives nan, here ValueError. *)
Definition target_jacobian (f : medsfile) : res mat :=
  let* s := mapM (fun o => get_slot o 1) (filter (fun o => 1 <? o_ncut o) (m_cat f)) in
  let* a := qmedian (map s_dudrow s) in
  let* b := qmedian (map s_dudcol s) in
  let* d := qmedian (map s_dvdrow s) in
  let* e := qmedian (map s_dvdcol s) in
  Ok (a, b, d, e).

(** * Configuration of the coadder *)

(** The dictionaries given as the 'coadd' entry, by reference: the entry
    'dither_psfs' if present, and the other entries. *)
Record cdict (K : Type) : Type := mkCdict { cd_dither : option bool; cd_rest : K }.
Arguments mkCdict {K} cd_dither cd_rest.
Arguments cd_dither {K} c.
Arguments cd_rest {K} c.

(** meds/coadd.py 406-411 [_set_config]: the dictionaries afterwards, and the
    settings dither_psfs and the keywords for psc; [dflt] are no keywords. *)
Definition set_config {K} (dflt : K) (h : list (cdict K)) (coadd : option nat)
  : res (list (cdict K) * (bool * K)) :=
  match coadd with
  | None => Ok (h, (true, dflt))
  | Some r =>
    match nth_error h r with
    | None => Err KeyError
    | Some d => Ok (upd h r (mkCdict None (cd_rest d)),
                    (match cd_dither d with Some b => b | None => true end, cd_rest d))
    end
  end.

(** Constructing coadders one after another. *)
Fixpoint construct_all {K} (dflt : K) (h : list (cdict K)) (cs : list (option nat)) : res (list (bool * K)) :=
  match cs with
  | [] => Ok []
  | c :: cs' => let* r := set_config dflt h c in
                let* l := construct_all dflt (fst r) cs' in Ok (snd r :: l)
  end.

(** * The file of coadds *)

(** A row of the coadd catalog, meds/coadd.py 214-260. *)
Record crow : Type := mkCrow {
  cr_obj : obj; cr_orig_ncutout : Z; cr_orig_flags : list Z; cr_ncoadd : Z; cr_coadd_flags : Z }.

Definition coadd_slot (s : slot) : slot :=
  mkSlot 0 DEFVAL (s_orow s) (s_ocol s) (s_osr s) (s_osc s) qdef qdef qdef qdef qdef qdef
         DEFVAL DEFVAL DEFVAL qdef qdef DEFVAL.
Definition empty_coadd_slot : slot :=
  mkSlot 0 DEFVAL qdef qdef DEFVAL DEFVAL qdef qdef qdef qdef qdef qdef
         DEFVAL DEFVAL DEFVAL qdef qdef DEFVAL.

(** [a.max()] of an integer array. *)
Definition zmax (l : list Z) : res Z :=
  match l with [] => Err ValueError | x :: l' => Ok (fold_left Z.max l' x) end.

(** meds/coadd.py 214-260 [_set_obj_data] *)
Definition coadd_row (nmax_orig : Z) (o : obj) : res crow :=
  let* s := get_slot o 0 in
  Ok (mkCrow (mkObj (o_id o) (o_number o) (o_box o) (o_ra o) (o_dec o) qdef qdef qdef
                    DEFVAL DEFVAL DEFVAL 0 [coadd_slot s; empty_coadd_slot])
             (o_ncut o - 1) (map (fun _ => DEFVAL) (zrange nmax_orig)) 0 0).
Definition coadd_obj_data (f : medsfile) : res (list crow) :=
  let* m := zmax (map o_ncut (m_cat f)) in
  if negb (m_number_col f) then Err ValueError
  else mapM (coadd_row (Z.max (m - 1) 2)) (m_cat f).

(** The arrays written by meds/coadd.py 186-212 [_write_cutout]. *)
Definition coadd_data (co : cobs) (t : ctype) : list Q :=
  match t with
  | TImage => dat (co_image co)
  | TWeight => dat (co_weight co)
  | TSeg => dat (co_seg co)
  | TBmask => map inject_Z (dat (co_bmask co))
  | TOrmask => map inject_Z (dat (co_ormask co))
  | TNoise => dat (co_noise co)
  end.

(** State of the writing: rows, mosaics, psf mosaic, and the attributes
    last_row_start, last_size, last_psf_row_start, last_psf_size. *)
Record wstate : Type := mkWstate {
  ws_rows : list crow; ws_ext : list (ctype * list Q); ws_psf : list Q;
  ws_row_start : Z; ws_size : Z; ws_psf_row_start : Z; ws_psf_size : Z }.

(** [d['orig_flags'][iobj, 0:norig] = imflags] *)
Definition set_prefix (l vals : list Z) : res (list Z) :=
  if zlen vals <=? zlen l then Ok (vals ++ skipn (length vals) l) else Err ValueError.

(** Row and slot 0 after meds/coadd.py 144-184. *)
Definition filled_slot (s : slot) (co : cobs) (start psf_start : Z) : slot :=
  let j := co_jac co in
  mkSlot (s_file s) start (s_orow s) (s_ocol s) (s_osr s) (s_osc s) (j_row0 j) (j_col0 j)
         (j_dudrow j) (j_dudcol j) (j_dvdrow j) (j_dvdcol j)
         (s_psf_nr s) (s_psf_nc s) (s_psf_box s) (co_psf_row0 co) (co_psf_col0 co) psf_start.
Definition filled_row (r : crow) (co : cobs) (flags start psf_start : Z) : res crow :=
  let* fl := set_prefix (cr_orig_flags r) (co_imflags co) in
  let o := cr_obj r in
  match o_slots o with
  | [] => Err IndexError
  | s :: rest =>
    Ok (mkCrow (mkObj (o_id o) (o_number o) (o_box o) (o_ra o) (o_dec o) (o_color o) (o_wcs_color o)
                      (o_psf_color o) (o_psf_nr o) (o_psf_nc o) (nr (co_psf co)) 1
                      (filled_slot s co start psf_start :: rest))
               (cr_orig_ncutout r) fl (co_ncoadd co) flags)
  end.
Definition failed_row (r : crow) (flags : Z) : crow :=
  mkCrow (cr_obj r) (cr_orig_ncutout r) (cr_orig_flags r) (cr_ncoadd r) flags.

Definition write_type (co : cobs) (start : Z) (ext : list (ctype * list Q)) (t : ctype)
  : res (list (ctype * list Q)) :=
  match ext_find ext t with
  | None => Err FitsError
  | Some m => let* m' := write_at m start (coadd_data co t) in Ok (ext_set ext t m')
  end.

(** meds/coadd.py 137-184 [_write_object_cutouts]; [coadder iobj] is
    [self.coadder.get_coadd_obs(iobj)]. *)
Definition write_object_cutouts (types : list ctype) (coadder : Z -> res (option cobs * Z))
  (st : wstate) (iobj : Z) : res wstate :=
  let* x := coadder iobj in
  let '(coadd_obs, flags) := x in
  let* r := match zget (ws_rows st) iobj with Some r => Ok r | None => Err IndexError end in
  match coadd_obs with
  | None => Ok (mkWstate (upd (ws_rows st) (Z.to_nat iobj) (failed_row r flags)) (ws_ext st) (ws_psf st)
                         (ws_row_start st) (ws_size st) (ws_psf_row_start st) (ws_psf_size st))
  | Some co =>
    if negb (o_box (cr_obj r) =? nr (co_image co)) then Err AssertionError
    else
      let start := ws_row_start st + ws_size st in
      let psf_start := ws_psf_row_start st + ws_psf_size st in
      let* r' := filled_row r co flags start psf_start in
      let* ext := foldM (write_type co start) types (ws_ext st) in
      let* psf := write_at (ws_psf st) psf_start (dat (co_psf co)) in
      Ok (mkWstate (upd (ws_rows st) (Z.to_nat iobj) r') ext psf
                   start (o_box (cr_obj r) ^ 2) psf_start (nr (co_psf co) ^ 2))
  end.

(** [range(a, b)] *)
Definition zrange2 (a b : Z) : list Z := map (fun k => a + k) (zrange (b - a)).

(** meds/coadd.py 97-135, 89-95 [write] and the constructor: the catalog of the
    result and the file.  [types]: cutout_types after [_load_config];
    [total_psf]: total_psf_pixels of the sub class; [junk], [pjunk]: what the
    reserved disk space holds; [obj_range] given as a pair.  A negative index in
    the range is IndexError here; CoaddRange.v counts from the end. *)
Definition add_types (types : list ctype) : list ctype :=
  fold_left (fun l t => if existsb (ctype_eqb t) l then l else l ++ [t]) [TOrmask; TNoise] types.
Definition zsum (l : list Z) : Z := fold_right Z.add 0 l.
Definition write_coadds (f : medsfile) (config_types : list ctype) (total_psf : Z)
  (junk : ctype -> Z -> Q) (pjunk : Z -> Q) (coadder : Z -> res (option cobs * Z))
  (obj_range : option (Z * Z)) : res (list crow * medsfile) :=
  let types := add_types config_types in
  let* rows := coadd_obj_data f in
  let total_pixels := zsum (map (fun o => o_box o ^ 2) (m_cat f)) in
  let '(a, b) := match obj_range with Some r => r | None => (0, zlen (m_cat f)) end in
  let* st := foldM (write_object_cutouts types coadder) (zrange2 a b)
    (mkWstate rows (reserve types total_pixels junk) (map pjunk (zrange total_psf)) 0 0 0 0) in
  Ok (ws_rows st,
      mkMeds (map cr_obj (ws_rows st)) true PsfBoxObj (firstn 1 (m_info f)) (ws_ext st) (Some (ws_psf st))).
