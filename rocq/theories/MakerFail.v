(** What [MEDSMaker.write] leaves on the disk, also when it raises, meds/maker.py.
    Definitions only.

    The writers of MakerWrite.v and MakerFile.v give the complete mosaics or an
    error; here the same loops are run on a state that survives the error.  One
    [hdu.write] of a cutout happens completely or not at all.  Writing the tables and
    reserving the mosaics does not fail.  The [with] statement closes the file and
    lets the exception pass (meds/maker.py 111-128), so that what was written stays. *)
From Coq Require Import String.
From Verif Require Import Base Img Types MakerLayout MakerWrite MakerFile.

(** State and exception of a program that was left at the first exception. *)
Definition run (S : Type) : Type := (S * option err)%type.

(** [for x in xs: body] *)
Fixpoint loop {S X} (body : S -> X -> run S) (xs : list X) (s : S) : run S :=
  match xs with
  | [] => (s, None)
  | x :: xs' => match body s x with
                | (s', None) => loop body xs' s'
                | (s', Some e) => (s', Some e)
                end
  end.

(** A step that changes the state completely or not at all. *)
Definition step {S} (s : S) (r : res S) : run S :=
  match r with Ok s' => (s', None) | Err e => (s, Some e) end.

(** meds/maker.py 211-254 [_write_cutouts]: the mosaic on the disk. *)
Definition cutouts_on_disk {A} (fill : res A) (cat : list obj) (nfile : Z)
  (read : Z -> res (option (img A))) (hdu : list A) : run (list A) :=
  loop (fun hdu file_id =>
    match read file_id with
    | Err e => (hdu, Some e)
    | Ok None => (hdu, None)
    | Ok (Some im_data) =>
      loop (fun hdu o =>
        loop (fun hdu icut => step hdu (
          let* s := get_slot o icut in
          if s_file s =? file_id then write_cutout fill o icut hdu im_data else Ok hdu))
        (zrange (o_ncut o)) hdu) cat hdu
    end) (zrange nfile) hdu.

(** meds/maker.py 119-120 *)
Definition types_on_disk (unusable : option Z) (cat : list obj) (srcs : list source)
  (types : list ctype) (ext : list (ctype * list Q)) : run (list (ctype * list Q)) :=
  loop (fun ext t =>
    match ext_find ext t with
    | None => (ext, Some FitsError)
    | Some hdu =>
      let '(hdu', e) := cutouts_on_disk (default_values t) cat (zlen srcs)
        (fun file_id => let* s := py_index srcs file_id in read_image unusable s t) hdu in
      (ext_set ext t hdu', e)
    end) types ext.

(** meds/maker.py 409-447 [_write_psf_cutouts_serial] *)
Definition psf_serial_on_disk (c : lconf) (pc : pconf) (psfs : list psfobj) (cat : list obj)
  (hdu : list Q) : run (list Q) :=
  loop (fun hdu o =>
    loop (fun hdu icut => step hdu (
      let* s := get_slot o icut in
      let* psfim := render c pc psfs o s in
      put_psf s psfim hdu)) (zrange (o_ncut o)) hdu) cat hdu.

(** meds/maker.py 384-405, the output of one job *)
Definition psf_job_on_disk (objs : list obj) (output : list (img Q)) (hdu : list Q) : run (list Q) :=
  let '((hdu', _), e) := loop (fun (st : list Q * Z) o =>
    loop (fun (st : list Q * Z) icut => step st (
      let '(hdu, loc) := st in
      let* s := get_slot o icut in
      let* psfim := py_index output loc in
      let* hdu' := put_psf s psfim hdu in
      Ok (hdu', loc + 1))) (zrange (o_ncut o)) st) objs (hdu, 0) in
  (hdu', e).

(** meds/maker.py 301-407 [_write_psf_cutouts_joblib]: nothing is written before all
    jobs are done; the temporary directory is removed in any case (406-407). *)
Definition psf_joblib_on_disk (n_per_job : Z) (c : lconf) (pc : pconf) (psfs : list psfobj)
  (cat : list obj) (hdu : list Q) : run (list Q) :=
  let nobj := zlen cat in
  let n_jobs := nobj / n_per_job in
  let n_jobs := if n_jobs * n_per_job <? nobj then n_jobs + 1 else n_jobs in
  let jobs := zrange n_jobs in
  match mapM (fun job => psf_job c pc psfs (job_objs cat n_per_job job)) jobs with
  | Err e => (hdu, Some e)
  | Ok outputs =>
    loop (fun hdu jo => psf_job_on_disk (job_objs cat n_per_job (fst jo)) (snd jo) hdu)
         (combine jobs outputs) hdu
  end.

(** A MEDS file on the disk, and whether it has the psf_info table, the last one to
    be written (meds/maker.py 125-126). *)
Definition disk : Type := string -> option (medsfile * bool).
Definition put (d : disk) (path : string) (f : medsfile * bool) : disk :=
  fun p => if String.eqb p path then Some f else d p.

(** meds/maker.py 92-132 [_write_data].  [fitsio.FITS(filename, "rw", clobber=True)]
    removes a file of that name. *)
Definition write_data_on_disk (k : mconf) (rows : list imrow) (psf : option (list psfobj))
  (psf_info : bool) (cat : list obj) (total total_psf : Z) (junk : ctype -> Z -> Q) (pjunk : Z -> Q)
  (path : string) (d : disk) : run disk :=
  let file ext p := mkMeds cat (k_number_col k)
        (match psf with Some _ => PsfRCCut | None => PsfNone end) (map ir_info rows) ext p in
  let p0 := match psf with None => None | Some _ => Some (map pjunk (zrange total_psf)) end in
  let '(ext, e) := types_on_disk (k_unusable k) cat (map ir_src rows) (k_types k)
                     (reserve (k_types k) total junk) in
  match e with
  | Some e => (put d path (file ext p0, false), Some e)
  | None =>
    match psf with
    | None => (put d path (file ext None, psf_info), None)
    | Some ps =>
      let hdu := map pjunk (zrange total_psf) in
      let '(h, e) := if k_joblib k then psf_joblib_on_disk (k_njob k) (k_l k) (k_p k) ps cat hdu
                     else psf_serial_on_disk (k_l k) (k_p k) ps cat hdu in
      match e with
      | Some e => (put d path (file ext (Some h), false), Some e)
      | None => (put d path (file ext (Some h), psf_info), None)
      end
    end
  end.

(** meds/maker.py 85-90 [write]: the layout is made before the file is opened. *)
Definition write_on_disk (m : maker) (psf_info : bool) (junk : ctype -> Z -> Q) (pjunk : Z -> Q)
  (path : string) (d : disk) : run disk :=
  match full_layout (mk_conf m) (mk_rows m) (mk_psf m) (mk_cat m) with
  | Err e => (d, Some e)
  | Ok (cat, total, total_psf) =>
    write_data_on_disk (mk_conf m) (mk_rows m) (mk_psf m) psf_info cat total total_psf junk pjunk path d
  end.
