(** Model of the PSF images with their number types: rendered as arrays of any
    type, kept in an extension of type f4 (meds/maker.py).  Definitions only. *)
From Coq Require Import String Qabs Qpower.
From Verif Require Import Base Img Types BoundsM Reader MakerLayout MakerWrite MakerFile Typed.
Open Scope Z_scope.

(** A PSF object, as [psfobj], whose get_rec returns an array with a type. *)
Record tpsf : Type := mkTpsf {
  tp_rec : Q -> Q -> option Q -> arr;
  tp_rec_shape : option (Q -> Q -> option Q -> Z * Z);
  tp_center : Q -> Q -> Q * Q }.

(** The object as the layout sees it (meds/maker.py 1253-1309): only shapes and
    centres count, the pixels do not. *)
Definition shape_of (p : tpsf) : psfobj :=
  mkPsf (fun r c col => imap (fun _ => 0%Q) (a_im (tp_rec p r c col))) (tp_rec_shape p) (tp_center p).

(** The largest number of type f4. *)
Definition flt_max : Q := inject_Z ((2 ^ 24 - 1) * 2 ^ 104).

(** Writing a number to an extension of type f4 (created by meds/maker.py 192-206):
    cfitsio converts; a double beyond the largest f4 is an error, NaN is kept,
    and numbers of type f4 are copied. *)
Definition store_single (k : kind) (x : num) : res fl :=
  match k, x with
  | KF true, NF (Fin q) => if qltb flt_max (Qabs q) then Err FitsError else Ok (fround false q)
  | KF true, NF (Inf _) => Err FitsError
  | _, _ => Ok (to_fl false x)
  end.

(** Shape check and write, meds/maker.py 441-447. *)
Definition put_typed (s : slot) (a : arr) (hdu : list fl) : res (list fl) :=
  if (nr (a_im a) =? s_psf_nr s) && (nc (a_im a) =? s_psf_nc s)
  then let* d := mapM (store_single (a_kind a)) (dat (a_im a)) in write_at hdu (s_psf_start s) d
  else Err ValueError.

(** meds/maker.py 434-439: the call of get_rec. *)
Definition render_typed (c : lconf) (pc : pconf) (psfs : list tpsf) (o : obj) (s : slot) : res arr :=
  let* p := py_index psfs (s_file s) in
  Ok (tp_rec p (s_orow s) (s_ocol s) (psf_color_arg c pc (s_file s) o)).

(** meds/maker.py 409-447 [_write_psf_cutouts_serial] *)
Definition write_psf_typed (c : lconf) (pc : pconf) (psfs : list tpsf) (cat : list obj) (hdu : list fl) : res (list fl) :=
  foldM (fun hdu o =>
    foldM (fun hdu icut =>
      let* s := get_slot o icut in
      let* a := render_typed c pc psfs o s in
      put_typed s a hdu) (zrange (o_ncut o)) hdu) cat hdu.

(** A file: everything but the PSF extension, and that extension. *)
Record pfile : Type := mkPfile { pf_meds : medsfile; pf_psf : list fl }.

(** meds/maker.py 61-132 with psf_data and without joblib, as [make_meds]; the
    other extensions hold exact numbers as there. *)
Definition make_psf_typed (k : mconf) (types : list string) (rows : list imrow) (psfs : list tpsf) (input : list obj)
  (junk : ctype -> Z -> Q) (pjunk : Z -> fl) : res pfile :=
  let* m := new_maker k types rows (Some (map shape_of psfs)) input in
  let* l := full_layout (mk_conf m) rows (mk_psf m) (mk_cat m) in
  let '(cat, total, total_psf) := l in
  let* ext := write_types (k_unusable k) cat (map ir_src rows) (k_types (mk_conf m))
                (reserve (k_types (mk_conf m)) total junk) in
  let* h := write_psf_typed (k_l k) (k_p k) psfs cat (map pjunk (zrange total_psf)) in
  Ok (mkPfile (mkMeds cat (k_number_col k) PsfRCCut (map ir_info rows) ext None) h).

(** meds/meds.py 290-319 [get_psf]: an array of type f4. *)
Definition get_psf_typed (f : pfile) (iobj icut : Z) : res (img fl) :=
  let* o := check_indices (pf_meds f) iobj (Some icut) in
  let* shape := get_psf_shape (pf_meds f) o icut in
  let npix := fst shape * snd shape in
  let* s := get_slot o icut in
  let* imflat := slice (pf_psf f) (s_psf_start s) (s_psf_start s + npix) in
  reshape imflat (fst shape) (snd shape).

(** meds/meds.py 344-358 [get_psf_list] *)
Definition get_psf_list_typed (f : pfile) (iobj : Z) : res (list (img fl)) :=
  let* o := py_index (m_cat (pf_meds f)) iobj in
  mapM (fun icut => get_psf_typed f iobj icut) (zrange (o_ncut o)).
