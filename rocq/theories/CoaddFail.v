(** What [MEDSCoaddMaker.write] leaves on the disk and in the maker, also when it
    raises, meds/coadd.py.  Definitions only.

    As MakerFail.v: one [hdu.write] happens completely or not at all, writing the
    tables and reserving the mosaics does not fail, and the [with] statement closes
    the file and lets the exception pass (meds/coadd.py 103-115). *)
From Coq Require Import String.
From Verif Require Import Base Img Types MakerLayout MakerWrite MakerFile Coadd CoaddRng MakerFail Meta.

(** meds/coadd.py 186-212 for the types in turn: the mosaics on the disk *)
Definition planes_on_disk (types : list ctype) (co : cobs) (start : Z) (ext : list (ctype * list Q))
  : run (list (ctype * list Q)) :=
  loop (fun ext t => step ext (write_type co start ext t)) types ext.

Definition with_row (st : wstate) (iobj : Z) (r : crow) : wstate :=
  mkWstate (upd (ws_rows st) (Z.to_nat iobj) r) (ws_ext st) (ws_psf st)
           (ws_row_start st) (ws_size st) (ws_psf_row_start st) (ws_psf_size st).
Definition with_planes (st : wstate) (ext : list (ctype * list Q)) : wstate :=
  mkWstate (ws_rows st) ext (ws_psf st) (ws_row_start st) (ws_size st) (ws_psf_row_start st) (ws_psf_size st).

(** [d['ncoadd'][iobj] = ...] and [d['ncutout'][iobj] = ...] *)
Definition set_ncoadd (r : crow) (n : Z) : crow :=
  mkCrow (cr_obj r) (cr_orig_ncutout r) (cr_orig_flags r) n (cr_coadd_flags r).
Definition set_row_ncut (r : crow) (n : Z) : crow :=
  mkCrow (set_ncut (cr_obj r) n) (cr_orig_ncutout r) (cr_orig_flags r) (cr_ncoadd r) (cr_coadd_flags r).

(** meds/coadd.py 137-184 [_write_object_cutouts]: the row is filled in field by
    field before the cutouts are written, ncutout at the end.  [x]: what
    get_coadd_obs returned. *)
Definition object_on_disk (types : list ctype) (x : option cobs * Z) (st : wstate) (iobj : Z) : run wstate :=
  match zget (ws_rows st) iobj with
  | None => (st, Some IndexError)
  | Some r =>
    match x with
    | (None, flags) => (with_row st iobj (failed_row r flags), None)
    | (Some co, flags) =>
      if negb (o_box (cr_obj r) =? nr (co_image co))
      then (with_row st iobj (failed_row r flags), Some AssertionError)
      else
        let start := ws_row_start st + ws_size st in
        let psf_start := ws_psf_row_start st + ws_psf_size st in
        match filled_row r co flags start psf_start with
        | Err e => (with_row st iobj (set_ncoadd (failed_row r flags) (co_ncoadd co)), Some e)
        | Ok r' =>
          let '(ext, e) := planes_on_disk types co start (ws_ext st) in
          let st1 := with_planes (with_row st iobj (set_row_ncut r' (o_ncut (cr_obj r)))) ext in
          match e with
          | Some e => (st1, Some e)
          | None =>
            match write_at (ws_psf st) psf_start (dat (co_psf co)) with
            | Err e => (st1, Some e)
            | Ok psf =>
              (mkWstate (upd (ws_rows st) (Z.to_nat iobj) r') ext psf
                        start (o_box (cr_obj r) ^ 2) psf_start (nr (co_psf co) ^ 2), None)
            end
          end
        end
    end
  end.

(** meds/coadd.py 117-135 [_write_cutouts]; [left p j]: where the generator stands
    after a call of get_coadd_obs that raised. *)
Definition objects_on_disk (types : list ctype) (cs : Z -> Z -> res (option cobs * Z * Z)) (left : Z -> Z -> Z)
  (js : list Z) (st : wstate * Z) : run (wstate * Z) :=
  loop (fun st j =>
    match cs (snd st) j with
    | Err e => ((fst st, left (snd st) j), Some e)
    | Ok x => let '(st', e) := object_on_disk types (fst x) (fst st) j in ((st', snd x), e)
    end) js st.

(** A file of coadds; the catalog is the last thing to be written (meds/coadd.py 112-113). *)
Record cofile : Type := mkCofile {
  fd_cat : option (list crow); fd_info : list info; fd_ext : list (ctype * list Q); fd_psf : list Q }.
Definition codisk : Type := string -> option cofile.
Definition co_put (d : codisk) (path : string) (f : cofile) : codisk :=
  fun p => if String.eqb p path then Some f else d p.

(** The names in it; the columns are those of meds/coadd.py 219-229. *)
Definition co_names (info_cols : list string) (fd : cofile) : vfile :=
  mkVfile (["image_info"; "metadata"]%string
           ++ map (fun e => (ctype_name (fst e) ++ "_cutouts")%string) (fd_ext fd) ++ ["psf"%string]
           ++ match fd_cat fd with Some _ => ["object_data"%string] | None => [] end)
    (output_names ["number"; "psf_box_size"; "psf_cutout_row"; "psf_cutout_col"; "psf_start_row"; "orig_ncutout";
                   "orig_flags"; "ncoadd"; "coadd_flags"]%string) info_cols.

(** meds/coadd.py 97-115 [write]: the maker and the disk afterwards. *)
Definition coadd_write_on_disk (f : medsfile) (config_types : list ctype) (total_psf : Z)
  (cs : Z -> Z -> res (option cobs * Z * Z)) (left : Z -> Z -> Z) (junk : ctype -> Z -> Q) (pjunk : Z -> Q)
  (mk : cmaker) (obj_range : option (Z * Z)) (path : string) (d : codisk) : run (cmaker * codisk) :=
  let types := add_types config_types in
  let total_pixels := Coadd.zsum (map (fun o => o_box o ^ 2) (m_cat f)) in
  let '(a, b) := match obj_range with Some r => r | None => (0, zlen (m_cat f)) end in
  let '(st, e) := objects_on_disk types cs left (zrange2 a b)
    (mkWstate (cm_rows mk) (reserve types total_pixels junk) (map pjunk (zrange total_psf)) 0 0 0 0, cm_pos mk) in
  let mk' := mkCmaker (ws_rows (fst st)) (snd st) in
  let fd cat := mkCofile cat (firstn 1 (m_info f)) (ws_ext (fst st)) (ws_psf (fst st)) in
  match e with
  | Some e => ((mk', co_put d path (fd None)), Some e)
  | None => ((mk', co_put d path (fd (Some (ws_rows (fst st))))), None)
  end.
