(** Model of the C library src/meds.c, src/meds.h and of the program
    src/make-meds-input.c.  Definitions only.
    A NULL (or 0) return is [None]; an access outside allocated memory is
    [Err IndexError].  Memory allocation succeeds; C integers do not overflow;
    column names are lower case. *)
From Coq Require Import String.
From Verif Require Import Base Img Types Reader.
Open Scope Z_scope.

(** src/meds.h 165-181 [struct meds_obj] (without the columns that no accessor
    uses); src/meds.h 156-161 [struct meds_distort]. *)
Record distort : Type := mkDistort { d_dudrow : Q; d_dudcol : Q; d_dvdrow : Q; d_dvdcol : Q }.
Record cobj : Type := mkCobj {
  co_ncutout : Z; co_box : Z; co_file : list Z; co_start : list Z; co_crow : list Q; co_ccol : list Q;
  co_dist : list distort }.

(** src/meds.h 183-245: what meds_open keeps.  [cl_ext]: the open file. *)
Record clib : Type := mkClib { cl_cat : list cobj; cl_info : list info; cl_ext : list (ctype * list Q) }.

(** A file as the C library sees it: the column names of image_info and the
    metadata table, if there is one. *)
Record cfile : Type := mkCfile { cf_file : medsfile; cf_info_cols : list string; cf_meta : option (list (string * Z)) }.

(** src/meds.c 31-63, 234-250, 294-308: arrays filled with the default, of which the first
    [n] cells are read from the file. *)
Definition load_array {A B} (def : B) (g : A -> B) (n : Z) (l : list A) : list B :=
  map g (firstn (Z.to_nat n) l) ++ repeat def (length l - Z.to_nat n)%nat.

(** src/meds.c 385-453 [load_table] for one row; the arrays have as many cells as
    the columns (src/meds.c 347-369, 468-474). *)
Definition load_row (o : obj) : res cobj :=
  let n := o_ncut o in
  if (n <? 0) || (zlen (o_slots o) <? n) then Err IndexError
  else Ok (mkCobj n (o_box o)
        (load_array DEFVAL s_file n (o_slots o)) (load_array DEFVAL s_start n (o_slots o))
        (load_array qdef s_crow n (o_slots o)) (load_array qdef s_ccol n (o_slots o))
        (load_array (mkDistort qdef qdef qdef qdef)
           (fun s => mkDistort (s_dudrow s) (s_dudcol s) (s_dvdrow s) (s_dvdcol s)) n (o_slots o))).

(** src/meds.c 455-483 [read_object_table]; the columns are always there. *)
Definition read_object_table (f : medsfile) : res (option (list cobj)) :=
  match m_cat f with
  | [] => Ok None
  | _ :: _ => let* l := mapM load_row (m_cat f) in Ok (Some l)
  end.

(** src/meds.c 553-627 [load_image_info], 650-671 [read_image_info]: the read of a
    column that is missing fails. *)
Definition INFO_COLUMNS : list string :=
  ["image_id"; "image_flags"; "image_path"; "wcs_path"; "sky_path"; "seg_path"; "magzp"; "scale"]%string.
Definition has_col (cols : list string) (n : string) : bool := existsb (String.eqb n) cols.
Definition read_image_info (f : cfile) : option (list info) :=
  match m_info (cf_file f) with
  | [] => None
  | l => if forallb (has_col (cf_info_cols f)) INFO_COLUMNS then Some l else None
  end.

(** src/meds.c 991-1043 [meds_open] (reading the metadata only fails without the
    extension, 746-752). *)
Definition meds_open (f : cfile) : res (option clib) :=
  let* cat := read_object_table (cf_file f) in
  match cat, read_image_info f, cf_meta f with
  | Some cat, Some inf, Some _ => Ok (Some (mkClib cat inf (m_ext (cf_file f))))
  | _, _, _ => Ok None
  end.

(** src/meds.c 1071-1080 [check_iobj], 1095-1102 [meds_get_obj] *)
Definition c_get_obj (m : clib) (iobj : Z) : option cobj :=
  if (iobj <? 0) || (zlen (cl_cat m) <=? iobj) then None else zget (cl_cat m) iobj.

(** src/meds.c 1103-1110 [meds_get_ncutout] *)
Definition c_get_ncutout (m : clib) (iobj : Z) : Z :=
  match c_get_obj m iobj with None => 0 | Some o => co_ncutout o end.

(** src/meds.c 1132-1150 [check_iobj_icutout] *)
Definition check_iobj_icutout (m : clib) (iobj icutout : Z) : option cobj :=
  match c_get_obj m iobj with
  | None => None
  | Some o => if (icutout <? 0) || (co_ncutout o <=? icutout) then None else Some o
  end.

(** Array element [a[i]]. *)
Definition mem {A} (a : list A) (i : Z) : res A := match zget a i with Some x => Ok x | None => Err IndexError end.

(** src/meds.c 1152-1167 [meds_get_cutout_cen]: the returned truth value and the two outputs. *)
Definition c_get_cutout_cen (m : clib) (iobj icutout : Z) : res (bool * Q * Q) :=
  match check_iobj_icutout m iobj icutout with
  | None => Ok (false, qdef, qdef)
  | Some o => let* r := mem (co_crow o) icutout in let* c := mem (co_ccol o) icutout in Ok (true, r, c)
  end.

(** src/meds.c 1169-1178 [meds_get_source_file_id] *)
Definition c_get_source_file_id (m : clib) (iobj icutout : Z) : res Z :=
  match check_iobj_icutout m iobj icutout with None => Ok DEFVAL | Some o => mem (co_file o) icutout end.

(** src/meds.c 1180-1189 [meds_get_source_info] *)
Definition c_get_source_info (m : clib) (iobj icutout : Z) : res (option info) :=
  let* file_id := c_get_source_file_id m iobj icutout in
  if file_id <? 0 then Ok None else let* i := mem (cl_info m) file_id in Ok (Some i).

(** src/meds.c 1202-1213 [meds_get_distortion]: a pointer to the array, that is to its first element. *)
Definition c_get_distortion (m : clib) (iobj icutout : Z) : res (option distort) :=
  match check_iobj_icutout m iobj icutout with
  | None => Ok None
  | Some o => let* d := mem (co_dist o) 0 in Ok (Some d)
  end.

(** src/meds.c 1222-1239 [get_cutout_data_dbl], 1240-1257 [get_cutout_data_int] *)
Definition get_cutout_data (m : clib) (t : ctype) (start_row npix : Z) : option (list Q) :=
  match ext_find (cl_ext m) t with
  | None => None
  | Some mos => match slice mos start_row (start_row + npix) with Ok xs => Some xs | Err _ => None end
  end.

(** src/meds.c 1262-1322 [get_cutoutp_dbl], [get_cutoutp_int]: pixels, nrow, ncol. *)
Definition c_get_cutoutp (m : clib) (t : ctype) (iobj icutout : Z) : res (option (list Q * Z * Z)) :=
  match check_iobj_icutout m iobj icutout with
  | None => Ok None
  | Some o =>
    let* start_row := mem (co_start o) icutout in
    let nrow := co_box o in let ncol := co_box o in
    match get_cutout_data m t start_row (nrow * ncol) with
    | None => Ok None
    | Some xs => Ok (Some (xs, nrow, ncol))
    end
  end.

(** src/meds.c 1324-1388 [get_mosaicp_dbl], [get_mosaicp_int]: pixels, ncutout, nrow, ncol. *)
Definition c_get_mosaicp (m : clib) (t : ctype) (iobj : Z) : res (option (list Q * Z * Z * Z)) :=
  match check_iobj_icutout m iobj 0 with
  | None => Ok None
  | Some o =>
    let* start_row := mem (co_start o) 0 in
    let ncutout := co_ncutout o in let nrow := co_box o in let ncol := co_box o in
    match get_cutout_data m t start_row (nrow * ncol * ncutout) with
    | None => Ok None
    | Some xs => Ok (Some (xs, ncutout, nrow, ncol))
    end
  end.

(** src/meds.h 359-370 [struct meds_cutout]; pointers into the pixels are offsets. *)
Record cimage : Type := mkCimage {
  ci_ncutout : Z; ci_mosaic_size : Z; ci_mosaic_nrow : Z; ci_mosaic_ncol : Z;
  ci_cutout_size : Z; ci_cutout_nrow : Z; ci_cutout_ncol : Z; ci_rows : list Z; ci_pix : list Q }.

(** src/meds.c 942-945: rows[i] = rows[i-1] + ncol *)
Fixpoint row_pointers (n : nat) (p ncol : Z) : list Z :=
  match n with O => [] | S n' => p :: row_pointers n' (p + ncol) ncol end.

(** src/meds.c 915-983 [cutout_from_ptr], [icutout_from_ptr] *)
Definition cutout_from_ptr (pix : list Q) (ncutout nrow ncol : Z) : cimage :=
  mkCimage ncutout (ncutout * nrow * ncol) (ncutout * nrow) ncol (nrow * ncol) nrow ncol
    (row_pointers (Z.to_nat (ncutout * nrow)) 0 ncol) pix.

(** src/meds.c 1453-1540: [meds_get_cutout], [meds_get_mosaic] and those of weight and seg. *)
Definition c_get_cutout (m : clib) (t : ctype) (iobj icutout : Z) : res (option cimage) :=
  let* p := c_get_cutoutp m t iobj icutout in
  match p with None => Ok None | Some (xs, nrow, ncol) => Ok (Some (cutout_from_ptr xs 1 nrow ncol)) end.
Definition c_get_mosaic (m : clib) (t : ctype) (iobj : Z) : res (option cimage) :=
  let* p := c_get_mosaicp m t iobj in
  match p with None => Ok None | Some (xs, n, nrow, ncol) => Ok (Some (cutout_from_ptr xs n nrow ncol)) end.

(** src/meds.h 389 [CUTOUT_GET], 399-400 [MOSAIC_GET] *)
Definition CUTOUT_GET (im : cimage) (row col : Z) : res Q :=
  let* p := mem (ci_rows im) row in mem (ci_pix im) (p + col).
Definition MOSAIC_GET (im : cimage) (cutout row col : Z) : res Q :=
  let* p := mem (ci_rows im) (cutout * ci_cutout_nrow im + row) in mem (ci_pix im) (p + col).

(** src/meds.c 629-649 [get_namelen_max] from the widths of the columns. *)
Definition get_namelen_max (src wcs sky seg : Z) : Z :=
  let n := src in
  let n := if n <? wcs then sky else n in
  let n := if n <? sky then sky else n in
  let n := if n <? seg then seg else n in n.

(** src/meds.c 746-814 [read_meta]: the fields in the order of reading.  The status
    is never reset, and cfitsio does nothing once it is set. *)
Definition META_FIELDS : list string :=
  ["cat_file"; "coadd_file"; "coadd_srclist"; "cutout_file"; "magzp_ref"; "desdata"; "se_hdu"; "se_wt_hdu";
   "se_badpix_hdu"; "sky_hdu"; "seg_hdu"; "coadd_hdu"; "coadd_wt_hdu"; "coadd_seg_hdu"; "fake_coadd_seg";
   "coaddcat_file"; "medsconf"; "min_boxsize"; "max_boxsize"]%string.
Fixpoint table_get (tbl : list (string * Z)) (n : string) : option Z :=
  match tbl with [] => None | (k, v) :: l => if String.eqb k n then Some v else table_get l n end.
(** src/meds.c 678-740: one field; the value is kept abstract, [None] stands for
    NULL or -9999. *)
Definition read_field (tbl : list (string * Z)) (failed : bool) (n : string) : bool * option Z :=
  match table_get tbl n with
  | None => (true, None)
  | Some v => if failed then (true, None) else (false, Some v)
  end.
Fixpoint read_fields (tbl : list (string * Z)) (failed : bool) (l : list string) : list (string * option Z) :=
  match l with
  | [] => []
  | n :: l' => let '(failed, v) := read_field tbl failed n in (n, v) :: read_fields tbl failed l'
  end.
Definition read_meta (tbl : list (string * Z)) : list (string * option Z) := read_fields tbl false META_FIELDS.

(** src/make-meds-input.c 29-31 *)
Definition SIZES : list Z :=
  [2; 3; 4; 6; 8; 12; 16; 24; 32; 48; 64; 96; 128; 192; 256; 384; 512; 768; 1024; 1536; 2048; 3072; 4096; 6144].

(** src/make-meds-input.c 305-321 [fft_round_size] *)
Fixpoint round_loop (sizes : list Z) (newsize size : Z) : Z :=
  match sizes with
  | [] => newsize
  | s :: l => if size <=? s then s else round_loop l s size
  end.
Definition fft_round_size (size : Z) : Z := round_loop SIZES 0 size.

(** src/make-meds-input.c 324-337 [get_sigma_size], exact arithmetic; the cast
    of the integral value of ceil is exact. *)
Definition FWHM_FAC : Q := 23548200450309493 # 10000000000000000.
Definition get_sigma_size (flux_radius ellipticity : Q) : Z :=
  let sigma := (flux_radius * 2 / FWHM_FAC)%Q in
  2 * Qceiling (sigma * 5 * (1 + ellipticity))%Q.

(** src/make-meds-input.c 338-354 [get_box_size] *)
Definition get_box_size (rowmin rowmax colmin colmax : Z) (flux_radius ellipticity : Q) (minsize maxsize : Z) : Z :=
  let rowsize := rowmax - rowmin + 1 in
  let colsize := colmax - colmin + 1 in
  let sigma_size := get_sigma_size flux_radius ellipticity in
  let box_size := if colsize <? rowsize then rowsize else colsize in
  let box_size := if box_size <? sigma_size then sigma_size else box_size in
  let box_size := if box_size <? minsize then minsize else box_size in
  let box_size := if maxsize <? box_size then maxsize else box_size in
  fft_round_size box_size.

(** src/make-meds-input.c 366-393 [main]: the box size written for an object. *)
Definition input_box_size (rowmin rowmax colmin colmax : Z) (flux_radius ellipticity : Q) (minarg maxarg : Z) : Z :=
  get_box_size rowmin rowmax colmin colmax flux_radius ellipticity (fft_round_size minarg) (fft_round_size maxarg).
