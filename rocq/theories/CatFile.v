(** Model of a catalog that is used as input again (meds/maker.py 1329-1355), and of
    the metadata of the file of coadds (meds/coadd.py 286-321).  Definitions only. *)
From Coq Require Import String.
From Verif Require Import Base Img Types MakerLayout MakerFile Meta.
Open Scope Z_scope.

(** The psf columns of the input are not taken over without psf_data
    (meds/maker.py 1357-1377). *)
Definition clear_psf (s : slot) : slot :=
  mkSlot (s_file s) (s_start s) (s_orow s) (s_ocol s) (s_osr s) (s_osc s) (s_crow s) (s_ccol s)
         (s_dudrow s) (s_dudcol s) (s_dvdrow s) (s_dvdcol s)
         (s_psf_nr def_slot) (s_psf_nc def_slot) (s_psf_box def_slot) (s_psf_crow def_slot) (s_psf_ccol def_slot)
         (s_psf_start def_slot).

(** meds/maker.py 1329-1355 [_get_full_obj_data] for the object_data of a MEDS file:
    line 1353 [copy_fields] takes over ncutout and the columns of the cutouts, and
    fails if their width is not the one of the new array.  (A width of 1 would
    be repeated; object_data of the maker is at least 2 wide.) *)
Definition reused_obj_data (c : lconf) (images : list image) (psf : bool) (cat : list obj) : res (list obj) :=
  mapM (fun o => if zlen (o_slots o) =? nmax_of c images
                 then Ok (if psf then o else set_slots o (map clear_psf (o_slots o)))
                 else Err ValueError) cat.

(** Constructor and [write] (meds/maker.py 61-90) with the object_data of a MEDS
    file as obj_data. *)
Definition remake_meds (k : mconf) (types : list string) (rows : list imrow)
  (psf : option (list psfobj)) (cat : list obj) (junk : ctype -> Z -> Q) (pjunk : Z -> Q)
  : res medsfile :=
  let* m := new_maker k types rows psf cat in
  let* d := reused_obj_data (k_l k) (map ir_image rows) (match psf with Some _ => true | None => false end) cat in
  let* mf := write (mkMaker (mk_conf m) (mk_rows m) (mk_psf m) (force_box_even d)) junk pjunk in
  Ok (snd mf).

(** meds/coadd.py 286-321 [_set_meta]; [ometa], [nmeta]: the metadata of the original
    and its number of rows.  Line 313 is esutil's copy_fields, which wants arrays of
    one size; the columns holding versions are set afterwards. *)
Definition set_coadd_meta (vs : versions) (ometa : table) (nmeta : Z) : res table :=
  let dt := VERSION_NAMES ++ filter (fun n => negb (mem_str n VERSION_NAMES)) (names ometa) in
  let* meta := zeros_table 1 dt in
  if negb (nmeta =? 1) then Err ValueError
  else
    let meta := fold_left (fun m c => set_col m (fst c) (snd c)) ometa meta in
    let put m n v := set_col m n [v] in
    let meta := put meta "numpy_version"%string (v_numpy vs) in
    let meta := put meta "esutil_version"%string (v_esutil vs) in
    let meta := put meta "fitsio_version"%string (v_fitsio vs) in
    let meta := put meta "meds_version"%string (v_meds vs) in
    Ok (put meta "meds_fmt_version"%string (v_fmt vs)).
