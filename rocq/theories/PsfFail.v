(** What the two PSF writers leave on the disk when a PSF object raises or returns
    an array that cannot be written (meds/maker.py).  Definitions only.

    As MakerFail.v, for the PSF objects of PsfState.v, which may raise.  One
    [hdu.write] of an image happens completely or not at all. *)
From Coq Require Import String.
From Verif Require Import Base Img Types MakerLayout MakerWrite MakerFile MakerFail Typed PsfTy PsfState.
Open Scope Z_scope.

Section Disk.
  Context {St : Type}.
  Implicit Types (psfs : list (spsf St)) (st : St).

  (** meds/maker.py 409-447 [_write_psf_cutouts_serial] *)
  Definition serial_disk (c : lconf) (pc : pconf) psfs (cat : list obj) st (hdu : list fl) : run (list fl) :=
    let '((hdu', _), e) := loop (fun x o =>
      loop (fun (x : list fl * St) icut => step x (
        let* s := get_slot o icut in
        let* r := render_state c pc psfs o s (snd x) in
        let* hdu' := put_typed s (fst r (snd r)) (fst x) in
        Ok (hdu', snd r))) (zrange (o_ncut o)) x) cat (hdu, st) in
    (hdu', e).

  (** meds/maker.py 384-405: write the output of one job. *)
  Definition write_job_disk (objs : list obj) (output : list arr) (hdu : list fl) : run (list fl) :=
    let '((hdu', _), e) := loop (fun x o =>
      loop (fun (x : list fl * Z) icut => step x (
        let* s := get_slot o icut in
        let* a := py_index output (snd x) in
        let* hdu' := put_typed s a (fst x) in
        Ok (hdu', snd x + 1))) (zrange (o_ncut o)) x) objs (hdu, 0) in
    (hdu', e).

  (** meds/maker.py 301-407 [_write_psf_cutouts_joblib]: nothing is written before all
      jobs are done.  An exception of a job passes through joblib; here the one of the
      first job that fails. *)
  Definition joblib_disk (n_per_job : Z) (fresh : Z -> bool) (c : lconf) (pc : pconf) psfs (cat : list obj) st
    (hdu : list fl) : run (list fl) :=
    let nobj := zlen cat in
    let n_jobs := nobj / n_per_job in
    let n_jobs := if n_jobs * n_per_job <? nobj then n_jobs + 1 else n_jobs in
    let jobs := zrange n_jobs in
    match foldM (fun (x : list (list arr) * St) job =>
      let* r := job_state c pc psfs (job_objs cat n_per_job job) (if fresh job then st else snd x) in
      Ok (fst x ++ [fst r], snd r)) jobs ([], st) with
    | Err e => (hdu, Some e)
    | Ok x => loop (fun hdu jo => write_job_disk (job_objs cat n_per_job (fst jo)) (snd jo) hdu) (combine jobs (fst x)) hdu
    end.

  (** The constructor and write, meds/maker.py 61-132, as [make_state]: the file of
      the given name, [old] before, and the exception.  The layout is made before the
      file is opened, and opening it replaces the old one. *)
  Definition make_disk (k : mconf) (joblib : option (Z * (Z -> bool))) (types : list string) (rows : list imrow) psfs st
    (input : list obj) (junk : ctype -> Z -> Q) (pjunk : Z -> fl) (old : option pfile) : run (option pfile) :=
    match (let* m := new_maker k types rows None input in
           let* _ := if zlen psfs =? zlen rows then Ok tt else Err ValueError in
           let* ct := build_layout (k_l k) (map ir_image rows) (mk_cat m) in
           let* y := layout_state (k_l k) (k_p k) psfs (fst ct) 0 0 st in
           Ok (k_types (mk_conf m), snd ct, y)) with
    | Err e => (old, Some e)
    | Ok (tys, total, (cat, _, total_psf, st')) =>
      let file ext h := mkPfile (mkMeds cat (k_number_col k) PsfRCCut (map ir_info rows) ext None) h in
      let hdu := map pjunk (zrange total_psf) in
      match types_on_disk (k_unusable k) cat (map ir_src rows) tys (reserve tys total junk) with
      | (ext, Some e) => (Some (file ext hdu), Some e)
      | (ext, None) =>
        let '(h, e) := match joblib with
                       | None => serial_disk (k_l k) (k_p k) psfs cat st' hdu
                       | Some (n, fresh) => joblib_disk n fresh (k_l k) (k_p k) psfs cat st' hdu
                       end in
        (Some (file ext h), e)
      end
    end.
End Disk.
