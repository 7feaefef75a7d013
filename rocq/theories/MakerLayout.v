(** Model of the layout part of class MEDSMaker, meds/maker.py.  Definitions only. *)
From Verif Require Import Base Img Types BoundsM.
Open Scope Z_scope.

(** meds/util.py 321-338 [make_wcs_positions], one element. *)
Record wpos : Type := mkWpos { wcs_row : Q; wcs_col : Q; zrow : Q; zcol : Q }.
Definition make_wcs_position (row col offset : Q) (inverse : bool) : wpos :=
  if inverse then mkWpos (row + offset)%Q (col + offset)%Q row col
  else mkWpos row col (row - offset)%Q (col - offset)%Q.

(** The wcs object and the quantities derived from it, as an oracle.
    [w_cut ra dec]: the rough sky cut accepts the position
    (meds/maker.py 1058-1069; its geometry is modelled in Sky.v).
    [w_pos ra dec color] = (col, row) of wcs.sky2image, pointwise; the colour is
    [None] when the code passes none (meds/maker.py 1497-1503).
    [w_jac x y color] = (dudcol, dudrow, dvdcol, dvdrow) of wcs.get_jacobian. *)
Record wcs : Type := mkWcs {
  w_nrow : Z; w_ncol : Z;
  w_cut : Q -> Q -> bool;
  w_pos : Q -> Q -> option Q -> Q * Q;
  w_jac : Q -> Q -> option Q -> Q * Q * Q * Q }.

(** One row of image_info with its wcs. *)
Record image : Type := mkImage { im_wcs : wcs; im_offset : Q }.

(** Configuration used by the layout (meds/defaults.py 15-50) and which optional
    colour columns the catalog has. *)
Record lconf : Type := mkLconf {
  first_image_is_coadd : bool; check_in_coadd : bool;
  force_into_coadd_bounds : bool; trim_to_coadd : bool;
  coadd_bounds_buffer_rowcol : Q;
  ncutout_max : option Z;
  has_color : bool; has_wcs_color : bool;
  coadd_astrom_color : bool; se_astrom_color : bool }.

(** [x.astype("i4")] / [int(x)]: truncation toward zero (32 bit overflow not modelled). *)
Definition qtrunc (x : Q) : Z := if Qle_bool 0 x then Qfloor x else Qceiling x.

(** meds/maker.py 630-634 [_wcs_uses_color] *)
Definition wcs_uses_color (c : lconf) (file_id : Z) : bool :=
  if (file_id =? 0) && first_image_is_coadd c then coadd_astrom_color c else se_astrom_color c.

(** The colour handed to the wcs for an object, meds/maker.py 802-807, 737-742;
    without either column [color] is None; it is only used if use_color. *)
Definition obj_color (c : lconf) (o : obj) : option Q :=
  if has_color c then Some (o_color o) else if has_wcs_color c then Some (o_wcs_color o) else None.
Definition color_arg (c : lconf) (file_id : Z) (o : obj) : option Q :=
  if wcs_uses_color c file_id then obj_color c o else None.

(** meds/maker.py 1130-1147 [_get_image_bounds] *)
Definition get_image_bounds (im : image) : bounds :=
  let w := im_wcs im in
  let p0 := make_wcs_position 1 1 (im_offset im) false in
  let p1 := make_wcs_position (inject_Z (w_nrow w)) (inject_Z (w_ncol w)) (im_offset im) false in
  mkBounds (zrow p0) (zrow p1) (zcol p0) (zcol p1).

(** [numpy.where(mask)] *)
Definition where_ (mask : list bool) : list nat :=
  map fst (filter snd (combine (seq 0 (length mask)) mask)).

(** [a[idx]] with an integer index array. *)
Definition take {A} (a : list A) (idx : list nat) : res (list A) :=
  mapM (fun i => match nth_error a i with Some x => Ok x | None => Err IndexError end) idx.

(** meds/maker.py 781-829 [_get_pos_and_bounds]: positions of the objects
    passing the sky cut, the bounds, and the indices of these objects. *)
Definition get_pos_and_bounds (c : lconf) (cat : list obj) (im : image) (file_id : Z)
  : res (list wpos * bounds * list nat) :=
  let w := im_wcs im in
  let q := where_ (map (fun o => w_cut w (o_ra o) (o_dec o)) cat) in
  let* objs := take cat q in
  let pos := map (fun o =>
      let cr := w_pos w (o_ra o) (o_dec o) (color_arg c file_id o) in
      make_wcs_position (snd cr) (fst cr) (im_offset im) false) objs in
  let b := get_image_bounds im in
  let b' := if (file_id =? 0) && first_image_is_coadd c
            then let d := coadd_bounds_buffer_rowcol c in
                 mkBounds (rowmin b - d)%Q (rowmax b + d)%Q (colmin b - d)%Q (colmax b + d)%Q
            else b in
  Ok (pos, b', q).

(** [numpy.clip(x, lo, hi)], one element. *)
Definition qclip (x lo hi : Q) : Q :=
  let y := if qltb x lo then lo else x in if qltb hi y then hi else y.

(** meds/maker.py 831-875 [_force_into_coadd_bounds].  The printed minima and
    maxima raise ValueError on an empty selection. *)
Definition force_into_bounds (q_rc : list nat) (pos : list wpos) (b : bounds) : res (list wpos) :=
  let* sel := take pos q_rc in
  let* _ := qmin (map zrow sel) in
  let pos' := fold_left (fun ps i =>
     match nth_error ps i with
     | Some p => upd ps i (mkWpos (wcs_row p) (wcs_col p)
                            (qclip (zrow p) (rowmin b) (rowmax b))
                            (qclip (zcol p) (colmin b) (colmax b)))
     | None => ps end) q_rc pos in
  let* sel' := take pos' q_rc in
  if forallb (fun x => x) (contains_points b (map (fun p => (zrow p, zcol p)) sel'))
  then Ok pos' else Err MEDSCreationError.

(** The assignments of meds/maker.py 711-752 for one selected object: set slot
    number [ncutout] and increment [ncutout].  The code assigns column by column
    with index arrays [q, icut]; [q] has no repetition, so doing it row by row
    is the same.  Slots beyond the array raise IndexError. *)
Definition set_cutout (c : lconf) (im : image) (file_id : Z) (o : obj) (p : wpos) : res obj :=
  let half_box_size := o_box o / 2 in
  let qrow := zrow p in let qcol := zcol p in
  let ostart_row := qtrunc qrow - half_box_size + 1 in
  let ostart_col := qtrunc qcol - half_box_size + 1 in
  let '(dudcol, dudrow, dvdcol, dvdrow) :=
      w_jac (im_wcs im) (wcs_col p) (wcs_row p) (color_arg c file_id o) in
  let icut := o_ncut o in
  if (icut <? 0) then Err IndexError  (* negative counts cannot occur here *)
  else
    let* sl := modify (o_slots o) (Z.to_nat icut) (fun s =>
        mkSlot file_id (s_start s) qrow qcol ostart_row ostart_col
               (qrow - inject_Z ostart_row)%Q (qcol - inject_Z ostart_col)%Q
               dudrow dudcol dvdrow dvdcol
               (s_psf_nr s) (s_psf_nc s) (s_psf_box s) (s_psf_crow s) (s_psf_ccol s)
               (s_psf_start s)) in
    Ok (set_ncut (set_slots o sl) (icut + 1)).

Definition set_cutout_at (c : lconf) (im : image) (file_id : Z) (cat : list obj) (ip : nat * wpos)
  : res (list obj) :=
  match nth_error cat (fst ip) with
  | None => Err IndexError
  | Some o => let* o' := set_cutout c im file_id o (snd ip) in Ok (upd cat (fst ip) o')
  end.

(** One iteration of the loop over files, meds/maker.py 669-758. *)
Definition layout_file (c : lconf) (cat : list obj) (fi : Z * image) : res (list obj) :=
  let '(file_id, im) := fi in
  let* pbq := get_pos_and_bounds c cat im file_id in
  let '(pos, bnds, q) := pbq in
  let q_rc := where_ (contains_points bnds (map (fun p => (zrow p, zcol p)) pos)) in
  let* pos := if first_image_is_coadd c && (file_id =? 0) && force_into_coadd_bounds c
              then force_into_bounds q_rc pos bnds else Ok pos in
  if first_image_is_coadd c && check_in_coadd c && (file_id =? 0)
     && negb (length cat =? length q_rc)%nat
  then Err MEDSCreationError
  else
    let* q' := take q q_rc in
    let* sel := take pos q_rc in
    foldM (set_cutout_at c im file_id) (combine q' sel) cat.

(** meds/maker.py 649-664: trimming to the coadd. *)
Definition trim_cat (c : lconf) (images : list image) (cat : list obj) : res (list obj) :=
  if first_image_is_coadd c && trim_to_coadd c then
    match images with
    | [] => Err IndexError
    | im :: _ =>
      let* pbq := get_pos_and_bounds c cat im 0 in
      let '(pos, bnds, q) := pbq in
      let w := where_ (contains_points bnds (map (fun p => (zrow p, zcol p)) pos)) in
      if (length w =? 0)%nat then Err AssertionError
      else let* w' := take q w in take cat w'
    end
  else Ok cat.

(** meds/maker.py 949-986 [_make_resized_data]: [.max()] of an empty catalog raises. *)
Definition zmax_list (l : list Z) : res Z :=
  match l with [] => Err ValueError | x :: l' => Ok (fold_left Z.max l' x) end.
Definition make_resized (cat : list obj) : res (list obj) :=
  let* m := zmax_list (map o_ncut cat) in
  let new_nmax := if m <? 2 then 2 else m in
  Ok (map (fun o => set_slots o (firstn (Z.to_nat new_nmax) (o_slots o))) cat).

(** meds/maker.py 893-901: the start rows of one object; state is
    (slots, current_row, npix). *)
Definition start_rows_obj (o : obj) (row npix : Z) : res (obj * Z * Z) :=
  if 0 <? o_ncut o then
    let npix_per_cutout := o_box o * o_box o in
    let* st := foldM (fun (st : list slot * Z * Z) (icut : Z) =>
        let '(sl, row, npix) := st in
        let* sl' := modify sl (Z.to_nat icut) (fun s => set_start s row) in
        Ok (sl', row + npix_per_cutout, npix + npix_per_cutout))
      (zrange (o_ncut o)) (o_slots o, row, npix) in
    let '(sl, row', npix') := st in
    Ok (set_slots o sl, row', npix')
  else Ok (o, row, npix).

Fixpoint start_rows_loop (cat : list obj) (row npix : Z) : res (list obj * Z * Z) :=
  match cat with
  | [] => Ok ([], row, npix)
  | o :: cat' =>
    let* st := start_rows_obj o row npix in
    let '(o', row', npix') := st in
    let* st' := start_rows_loop cat' row' npix' in
    let '(cat'', row'', npix'') := st' in
    Ok (o' :: cat'', row'', npix'')
  end.

Definition zsum (l : list Z) : Z := fold_left Z.add l 0.

(** meds/maker.py 877-912 [_set_start_rows_and_pixel_count]: new catalog and total_pixels. *)
Definition set_start_rows (cat : list obj) : res (list obj * Z) :=
  let total_pixels := zsum (map (fun o => o_ncut o * (o_box o) ^ 2) cat) in
  let* st := start_rows_loop cat 0 0 in
  let '(cat', _, npix) := st in
  if total_pixels =? npix then Ok (cat', total_pixels) else Err ValueError.

(** meds/maker.py 636-758, 766-767: layout without psf; catalog and total_pixels. *)
Definition build_layout (c : lconf) (images : list image) (cat : list obj) : res (list obj * Z) :=
  let* cat0 := trim_cat c images cat in
  let* cat1 := foldM (layout_file c) (combine (zrange (zlen images)) images) cat0 in
  let* cat2 := make_resized cat1 in
  set_start_rows cat2.

(** meds/maker.py 1149-1159 [_force_box_sizes_even] *)
Definition force_box_even (cat : list obj) : list obj :=
  map (fun o => if negb (o_box o mod 2 =? 0) then set_box o (o_box o + 1) else o) cat.

(** meds/maker.py 1329-1355 [_get_full_obj_data] for an input catalog that has none
    of the per-cutout fields and no 'ncutout': default slots, ncutout 0.
    (An input 'ncutout' column is copied over: see [full_obj_data_with].) *)
Definition nmax_of (c : lconf) (images : list image) : Z :=
  let n := match ncutout_max c with Some n => n | None => zlen images end in
  if n <? 2 then 2 else n.
Definition full_obj_data (c : lconf) (images : list image) (cat : list obj) : list obj :=
  map (fun o => set_ncut (set_slots o (repeat def_slot (Z.to_nat (nmax_of c images)))) 0) cat.
(** Same when the input has an 'ncutout' column ([copy_fields], line 1353). *)
Definition full_obj_data_with (c : lconf) (images : list image) (cat : list obj) : list obj :=
  map (fun o => set_slots o (repeat def_slot (Z.to_nat (nmax_of c images)))) cat.

(** The constructor's preparation of obj_data (meds/maker.py 79-83). *)
Definition init_cat (c : lconf) (images : list image) (input : list obj) : list obj :=
  force_box_even (full_obj_data c images input).
