(** Model of MEDSMaker from the constructor to the finished file, meds/maker.py.
    Definitions only. *)
From Coq Require Import String.
From Verif Require Import Base Img Types BoundsM MakerLayout MakerWrite.
Open Scope Z_scope.

(** * PSFs *)

(** A PSF object: get_rec, get_rec_shape if it has one, get_center. *)
Record psfobj : Type := mkPsf {
  p_rec : Q -> Q -> option Q -> img Q;
  p_rec_shape : option (Q -> Q -> option Q -> Z * Z);
  p_center : Q -> Q -> Q * Q }.

(** Configuration entries for the PSFs and whether the catalog has 'psf_color'. *)
Record pconf : Type := mkPconf { has_psf_color : bool; psf_coadd_color : bool; psf_se_color : bool }.

(** meds/maker.py 295-299 [_psf_uses_color] *)
Definition psf_uses_color (c : lconf) (pc : pconf) (file_id : Z) : bool :=
  if (file_id =? 0) && first_image_is_coadd c then psf_coadd_color pc else psf_se_color pc.

(** The colour handed to the PSF object (meds/maker.py 1273-1276, 1286-1295). *)
Definition psf_color_arg (c : lconf) (pc : pconf) (file_id : Z) (o : obj) : option Q :=
  if psf_uses_color c pc file_id
  then (if has_psf_color pc then Some (o_psf_color o) else None) else None.

(** meds/maker.py 1286-1297: announced shape. *)
Definition psf_shape (p : psfobj) (row col : Q) (color : option Q) : Z * Z :=
  match p_rec_shape p with
  | Some g => g row col color
  | None => let im := p_rec p row col color in (nr im, nc im)
  end.

(** Body of the inner loop, meds/maker.py 1278-1307; state (slots, psf_start_row, total). *)
Definition psf_layout_cut (c : lconf) (pc : pconf) (psfs : list psfobj) (o : obj)
  (st : list slot * Z * Z) (icut : Z) : res (list slot * Z * Z) :=
  let '(sl, start, total) := st in
  let* s := py_index sl icut in
  let* p := py_index psfs (s_file s) in
  let sh := psf_shape p (s_orow s) (s_ocol s) (psf_color_arg c pc (s_file s) o) in
  let npix := fst sh * snd sh in
  let cen := p_center p (s_orow s) (s_ocol s) in
  let* sl' := modify sl (Z.to_nat icut) (fun s => set_psf s (fst sh) (snd sh) (fst cen) (snd cen) start) in
  Ok (sl', start + npix, total + npix).

(** meds/maker.py 1253-1309 [_set_psf_layout]: new catalog and total_psf_pixels. *)
Fixpoint psf_layout_loop (c : lconf) (pc : pconf) (psfs : list psfobj) (cat : list obj)
  (start total : Z) : res (list obj * Z * Z) :=
  match cat with
  | [] => Ok ([], start, total)
  | o :: cat' =>
    let* st := foldM (psf_layout_cut c pc psfs o) (zrange (o_ncut o)) (o_slots o, start, total) in
    let '(sl, start', total') := st in
    let* st' := psf_layout_loop c pc psfs cat' start' total' in
    let '(cat'', start'', total'') := st' in
    Ok (set_slots o sl :: cat'', start'', total'')
  end.
Definition set_psf_layout (c : lconf) (pc : pconf) (psfs : list psfobj) (cat : list obj)
  : res (list obj * Z) :=
  let* st := psf_layout_loop c pc psfs cat 0 0 in
  let '(cat', _, total) := st in Ok (cat', total).

(** The shape check and write shared by both writers, meds/maker.py 392-403, 441-447. *)
Definition put_psf (s : slot) (psfim : img Q) (hdu : list Q) : res (list Q) :=
  if (nr psfim =? s_psf_nr s) && (nc psfim =? s_psf_nc s)
  then write_at hdu (s_psf_start s) (dat psfim)
  else Err ValueError.

(** [psf_data[file_id].get_rec(...)] for a cutout. *)
Definition render (c : lconf) (pc : pconf) (psfs : list psfobj) (o : obj) (s : slot) : res (img Q) :=
  let* p := py_index psfs (s_file s) in
  Ok (p_rec p (s_orow s) (s_ocol s) (psf_color_arg c pc (s_file s) o)).

(** meds/maker.py 409-447 [_write_psf_cutouts_serial] *)
Definition write_psf_serial (c : lconf) (pc : pconf) (psfs : list psfobj) (cat : list obj)
  (hdu : list Q) : res (list Q) :=
  foldM (fun hdu o =>
    foldM (fun hdu icut =>
      let* s := get_slot o icut in
      let* psfim := render c pc psfs o s in
      put_psf s psfim hdu) (zrange (o_ncut o)) hdu) cat hdu.

(** meds/maker.py 327-365, 1477-1494: the images rendered by one job for its
    objects, in order. *)
Definition psf_job (c : lconf) (pc : pconf) (psfs : list psfobj) (objs : list obj) : res (list (img Q)) :=
  foldM (fun acc o =>
    foldM (fun acc icut =>
      let* s := get_slot o icut in
      let* psfim := render c pc psfs o s in
      Ok (acc ++ [psfim])) (zrange (o_ncut o)) acc) objs [].

(** meds/maker.py 384-405: write the output of one job; state (hdu, loc). *)
Definition psf_write_job (objs : list obj) (output : list (img Q)) (hdu : list Q) : res (list Q) :=
  let* st := foldM (fun (st : list Q * Z) o =>
    foldM (fun (st : list Q * Z) icut =>
      let '(hdu, loc) := st in
      let* s := get_slot o icut in
      let* psfim := py_index output loc in
      let* hdu' := put_psf s psfim hdu in
      Ok (hdu', loc + 1)) (zrange (o_ncut o)) st) objs (hdu, 0) in
  Ok (fst st).

(** [range(start, end)] chunk of the catalog, meds/maker.py 325-329. *)
Definition job_objs (cat : list obj) (n_per_job job : Z) : list obj :=
  let start := job * n_per_job in
  let end_ := Z.min (start + n_per_job) (zlen cat) in
  firstn (Z.to_nat (end_ - start)) (skipn (Z.to_nat start) cat).

(** meds/maker.py 301-407 [_write_psf_cutouts_joblib]; n_per_job is 2000 in the
    code.  All jobs finish before anything is written; joblib returns the
    outputs in submission order. *)
Definition write_psf_joblib (n_per_job : Z) (c : lconf) (pc : pconf) (psfs : list psfobj)
  (cat : list obj) (hdu : list Q) : res (list Q) :=
  let nobj := zlen cat in
  let n_jobs := nobj / n_per_job in
  let n_jobs := if n_jobs * n_per_job <? nobj then n_jobs + 1 else n_jobs in
  let jobs := zrange n_jobs in
  let* outputs := mapM (fun job => psf_job c pc psfs (job_objs cat n_per_job job)) jobs in
  foldM (fun hdu jo => psf_write_job (job_objs cat n_per_job (fst jo)) (snd jo) hdu)
        (combine jobs outputs) hdu.

(** * Sky to image conversion *)

(** The loop building the jobs, meds/maker.py 1010-1029, leaving at the first
    start beyond the list. *)
Fixpoint sky_jobs {A} (ra : list A) (n_per_job : Z) (is : list Z) : list (list A) :=
  match is with
  | [] => []
  | i :: is' =>
    let start := i * n_per_job in
    let end_ := Z.min (start + n_per_job) (zlen ra) in
    if zlen ra <=? start then []
    else firstn (Z.to_nat (end_ - start)) (skipn (Z.to_nat start) ra) :: sky_jobs ra n_per_job is'
  end.

(** meds/maker.py 988-1056 [_do_sky2image], the conversion of a list of
    positions: [conv] is wcs.sky2image on an array, [ncpu] the number of cpus,
    [max_workers] the configured maximum (-1: none). *)
Definition sky2image {A B} (conv : list A -> list B) (use_joblib : bool) (ncpu max_workers : Z)
  (ra : list A) : res (list B) :=
  if use_joblib && (250 <? zlen ra) then
    let n_jobs := if 0 <? max_workers then Z.min max_workers ncpu else ncpu in
    if n_jobs =? 0 then Err ZeroDivisionError else
    let n_per_job := zlen ra / n_jobs in
    let n_per_job := if n_jobs * n_per_job <? zlen ra then n_per_job + 1 else n_per_job in
    if n_per_job * n_jobs <? zlen ra then Err AssertionError else
    let jobs := sky_jobs ra n_per_job (zrange n_jobs) in
    let out := flat_map conv jobs in
    if negb (zlen out =? zlen ra) then Err AssertionError else Ok out
  else Ok (conv ra).

(** * Configuration *)

(** SUPPORTED_CUTOUT_TYPES, meds/maker.py 29-36. *)
Definition ctype_name (t : ctype) : string :=
  match t with
  | TImage => "image" | TWeight => "weight" | TSeg => "seg"
  | TBmask => "bmask" | TOrmask => "ormask" | TNoise => "noise"
  end%string.
Definition SUPPORTED : list ctype := [TImage; TWeight; TSeg; TBmask; TOrmask; TNoise].
Definition ctype_of (s : string) : option ctype :=
  find (fun t => String.eqb (ctype_name t) s) SUPPORTED.

(** Python's list.remove: the first equal element. *)
Fixpoint py_remove (l : list string) (x : string) : list string :=
  match l with
  | [] => []
  | y :: l' => if String.eqb y x then l' else y :: py_remove l' x
  end.

(** meds/maker.py 1160-1183 [_set_cutout_types] *)
Definition set_cutout_types (cutout_types : list string) : res (list string) :=
  let l := if existsb (String.eqb "image") cutout_types
           then py_remove cutout_types "image" else cutout_types in
  let l := ("image" :: l)%string in
  if existsb (fun s => match ctype_of s with Some _ => false | None => true end) l
  then Err ValueError else Ok l.

(** meds/maker.py 1448-1452: u4 conversion (32 bit wrap) and bitwise complement. *)
Definition u4 (x : Z) : Z := x mod 2 ^ 32.
Definition bitmask_allowed_inv (allowed : Z) : Z := u4 (Z.lnot (u4 allowed)).

(** * The maker object *)

(** One row of image_info with everything reached through it. *)
Record imrow : Type := mkImrow { ir_image : image; ir_src : source; ir_path : Z; ir_id : Z }.
Definition ir_info (r : imrow) : info :=
  mkInfo (ir_path r) (ir_id r) (im_offset (ir_image r)) (src_scale (ir_src r)).

Record mconf : Type := mkMconf {
  k_l : lconf; k_p : pconf; k_unusable : option Z; k_types : list ctype;
  k_joblib : bool; k_njob : Z; k_number_col : bool }.

Record maker : Type := mkMaker {
  mk_conf : mconf; mk_rows : list imrow; mk_psf : option (list psfobj); mk_cat : list obj }.

(** meds/maker.py 61-83 [__init__]: the parts that matter later;
    psf_data of another length than image_info raises ValueError (1242-1247). *)
Definition new_maker (k : mconf) (types : list string) (rows : list imrow)
  (psf : option (list psfobj)) (input : list obj) : res maker :=
  let* names := set_cutout_types types in
  let* tys := mapM (fun s => match ctype_of s with Some t => Ok t | None => Err ValueError end) names in
  let k' := mkMconf (k_l k) (k_p k) (k_unusable k) tys (k_joblib k) (k_njob k) (k_number_col k) in
  let* _ := match psf with
            | Some p => if zlen p =? zlen rows then Ok tt else Err ValueError
            | None => Ok tt end in
  Ok (mkMaker k' rows psf (init_cat (k_l k) (map ir_image rows) input)).

(** meds/maker.py 636-779 [_build_meds_layout] including the psf layout:
    catalog, total_pixels, total_psf_pixels. *)
Definition full_layout (k : mconf) (rows : list imrow) (psf : option (list psfobj)) (cat : list obj)
  : res (list obj * Z * Z) :=
  let* ct := build_layout (k_l k) (map ir_image rows) cat in
  match psf with
  | None => Ok (fst ct, snd ct, 0)
  | Some p => let* ct' := set_psf_layout (k_l k) (k_p k) p (fst ct) in
              Ok (fst ct', snd ct, snd ct')
  end.

(** meds/maker.py 92-132 [_write_data]; [junk]/[pjunk] is what the reserved disk
    space holds.  Duplicate names in cutout_types make two extensions of the same
    name; lookup by name finds the first. *)
Definition write_data (k : mconf) (rows : list imrow) (psf : option (list psfobj)) (cat : list obj)
  (total total_psf : Z) (junk : ctype -> Z -> Q) (pjunk : Z -> Q) : res medsfile :=
  let* ext := write_types (k_unusable k) cat (map ir_src rows) (k_types k)
                (reserve (k_types k) total junk) in
  let* p := match psf with
            | None => Ok None
            | Some ps =>
              let hdu := map pjunk (zrange total_psf) in
              let* h := if k_joblib k then write_psf_joblib (k_njob k) (k_l k) (k_p k) ps cat hdu
                        else write_psf_serial (k_l k) (k_p k) ps cat hdu in
              Ok (Some h)
            end in
  Ok (mkMeds cat (k_number_col k) (match psf with Some _ => PsfRCCut | None => PsfNone end)
             (map ir_info rows) ext p).

(** meds/maker.py 85-90 [write]: the maker keeps its modified catalog. *)
Definition write (m : maker) (junk : ctype -> Z -> Q) (pjunk : Z -> Q) : res (maker * medsfile) :=
  let* l := full_layout (mk_conf m) (mk_rows m) (mk_psf m) (mk_cat m) in
  let '(cat, total, total_psf) := l in
  let* f := write_data (mk_conf m) (mk_rows m) (mk_psf m) cat total total_psf junk pjunk in
  Ok (mkMaker (mk_conf m) (mk_rows m) (mk_psf m) cat, f).

(** Construct a maker and write one file. *)
Definition make_meds (k : mconf) (types : list string) (rows : list imrow)
  (psf : option (list psfobj)) (input : list obj) (junk : ctype -> Z -> Q) (pjunk : Z -> Q)
  : res medsfile :=
  let* m := new_maker k types rows psf input in
  let* mf := write m junk pjunk in Ok (snd mf).
