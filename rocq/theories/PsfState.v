(** Model of the two PSF writers for PSF objects that change while they render:
    caches, random numbers, work buffers (meds/maker.py).  Definitions only. *)
From Coq Require Import String.
From Verif Require Import Base Img Types BoundsM Reader MakerLayout MakerWrite MakerFile Typed PsfTy.
Open Scope Z_scope.

(** A PSF object.  [St] is the memory of all objects of psf_data together.  A call
    of get_rec may raise; it returns an array, that is what one reads there at any
    later moment, and changes the memory.  get_rec_shape and get_center do not
    change it. *)
Record spsf (St : Type) : Type := mkSpsf {
  sp_rec : St -> Q -> Q -> option Q -> res ((St -> arr) * St);
  sp_rec_shape : option (Q -> Q -> option Q -> Z * Z);
  sp_center : Q -> Q -> Q * Q }.
Arguments mkSpsf {St}. Arguments sp_rec {St}. Arguments sp_rec_shape {St}. Arguments sp_center {St}.

Section State.
  Context {St : Type}.
  Implicit Types (psfs : list (spsf St)) (st : St).

  (** meds/maker.py 1286-1297 *)
  Definition shape_state (p : spsf St) st (row col : Q) (color : option Q) : res (Z * Z * St) :=
    match sp_rec_shape p with
    | Some g => Ok (g row col color, st)
    | None => let* r := sp_rec p st row col color in
              let im := a_im (fst r (snd r)) in Ok (nr im, nc im, snd r)
    end.

  (** Body of the inner loop, meds/maker.py 1278-1307. *)
  Definition layout_cut_state (c : lconf) (pc : pconf) psfs (o : obj) (x : list slot * Z * Z * St) (icut : Z)
    : res (list slot * Z * Z * St) :=
    let '(sl, start, total, st) := x in
    let* s := py_index sl icut in
    let* p := py_index psfs (s_file s) in
    let* r := shape_state p st (s_orow s) (s_ocol s) (psf_color_arg c pc (s_file s) o) in
    let '(sh, st') := r in
    let npix := fst sh * snd sh in
    let cen := sp_center p (s_orow s) (s_ocol s) in
    let* sl' := modify sl (Z.to_nat icut) (fun s => set_psf s (fst sh) (snd sh) (fst cen) (snd cen) start) in
    Ok (sl', start + npix, total + npix, st').

  (** meds/maker.py 1253-1309 [_set_psf_layout]: new catalog, psf_start_row,
      total_psf_pixels and the memory. *)
  Fixpoint layout_state (c : lconf) (pc : pconf) psfs (cat : list obj) (start total : Z) st : res (list obj * Z * Z * St) :=
    match cat with
    | [] => Ok ([], start, total, st)
    | o :: cat' =>
      let* x := foldM (layout_cut_state c pc psfs o) (zrange (o_ncut o)) (o_slots o, start, total, st) in
      let '(sl, start', total', st') := x in
      let* y := layout_state c pc psfs cat' start' total' st' in
      let '(cat'', start'', total'', st'') := y in
      Ok (set_slots o sl :: cat'', start'', total'', st'')
    end.

  (** The call of get_rec for a cutout, meds/maker.py 434-439, 1484-1490. *)
  Definition render_state (c : lconf) (pc : pconf) psfs (o : obj) (s : slot) st : res ((St -> arr) * St) :=
    let* p := py_index psfs (s_file s) in
    sp_rec p st (s_orow s) (s_ocol s) (psf_color_arg c pc (s_file s) o).

  (** meds/maker.py 409-447 [_write_psf_cutouts_serial]: each array is written as
      soon as it is rendered. *)
  Definition serial_state (c : lconf) (pc : pconf) psfs (cat : list obj) st (hdu : list fl) : res (list fl) :=
    let* x := foldM (fun x o =>
      foldM (fun (x : list fl * St) icut =>
        let* s := get_slot o icut in
        let* r := render_state c pc psfs o s (snd x) in
        let* hdu' := put_typed s (fst r (snd r)) (fst x) in
        Ok (hdu', snd r)) (zrange (o_ncut o)) x) cat (hdu, st) in
    Ok (fst x).

  (** meds/maker.py 331-346, 1477-1494 [_psf_rec_func]: one job renders all its
      images and then dumps them; also the memory it leaves. *)
  Definition job_state (c : lconf) (pc : pconf) psfs (objs : list obj) st : res (list arr * St) :=
    let* x := foldM (fun x o =>
      foldM (fun (x : list (St -> arr) * St) icut =>
        let* s := get_slot o icut in
        let* r := render_state c pc psfs o s (snd x) in
        Ok (fst x ++ [fst r], snd r)) (zrange (o_ncut o)) x) objs ([], st) in
    Ok (map (fun a => a (snd x)) (fst x), snd x).

  (** meds/maker.py 384-405: write the output of one job. *)
  Definition write_job_typed (objs : list obj) (output : list arr) (hdu : list fl) : res (list fl) :=
    let* x := foldM (fun x o =>
      foldM (fun (x : list fl * Z) icut =>
        let* s := get_slot o icut in
        let* a := py_index output (snd x) in
        let* hdu' := put_typed s a (fst x) in
        Ok (hdu', snd x + 1)) (zrange (o_ncut o)) x) objs (hdu, 0) in
    Ok (fst x).

  (** meds/maker.py 301-407 [_write_psf_cutouts_joblib].  joblib sends the jobs to
      its workers in groups; with a group go copies of the PSF objects as they are
      in the parent process, which does not render.  [fresh job]: the job is the
      first of a group; other jobs find the objects as the job before left them.
      Without workers (max_workers 1) there is one group.  The groups depend on
      timing.  Threads as workers are not modelled. *)
  Definition joblib_state (n_per_job : Z) (fresh : Z -> bool) (c : lconf) (pc : pconf) psfs (cat : list obj) st
    (hdu : list fl) : res (list fl) :=
    let nobj := zlen cat in
    let n_jobs := nobj / n_per_job in
    let n_jobs := if n_jobs * n_per_job <? nobj then n_jobs + 1 else n_jobs in
    let jobs := zrange n_jobs in
    let* x := foldM (fun (x : list (list arr) * St) job =>
      let* r := job_state c pc psfs (job_objs cat n_per_job job) (if fresh job then st else snd x) in
      Ok (fst x ++ [fst r], snd r)) jobs ([], st) in
    foldM (fun hdu jo => write_job_typed (job_objs cat n_per_job (fst jo)) (snd jo) hdu) (combine jobs (fst x)) hdu.

  (** The constructor and write, meds/maker.py 61-132, as [make_psf_typed], with the
      serial writer ([None]) or with joblib. *)
  Definition make_state (k : mconf) (joblib : option (Z * (Z -> bool))) (types : list string) (rows : list imrow) psfs st
    (input : list obj) (junk : ctype -> Z -> Q) (pjunk : Z -> fl) : res pfile :=
    let* m := new_maker k types rows None input in
    let* _ := if zlen psfs =? zlen rows then Ok tt else Err ValueError in
    let* ct := build_layout (k_l k) (map ir_image rows) (mk_cat m) in
    let* y := layout_state (k_l k) (k_p k) psfs (fst ct) 0 0 st in
    let '(cat, _, total_psf, st') := y in
    let* ext := write_types (k_unusable k) cat (map ir_src rows) (k_types (mk_conf m))
                  (reserve (k_types (mk_conf m)) (snd ct) junk) in
    let hdu := map pjunk (zrange total_psf) in
    let* h := match joblib with
              | None => serial_state (k_l k) (k_p k) psfs cat st' hdu
              | Some (n, fresh) => joblib_state n fresh (k_l k) (k_p k) psfs cat st' hdu
              end in
    Ok (mkPfile (mkMeds cat (k_number_col k) PsfRCCut (map ir_info rows) ext None) h).
End State.
