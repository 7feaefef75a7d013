(** [MEDSCoaddMaker.write] with any [obj_range]: numpy counts negative indices
    from the end. *)
From Verif Require Import Base Img Types Reader Composite MakerWrite Coadd.
Open Scope Z_scope.

(** The row that [d[...][iobj]] names in a table of [n] rows, when it names one
    (numpy indexing, as in meds/coadd.py 144-183). *)
Definition row_of (n iobj : Z) : Z := if iobj <? 0 then iobj + n else iobj.

(** meds/coadd.py 137-184 [_write_object_cutouts]; as [write_object_cutouts] of
    Coadd.v, for any [iobj]. *)
Definition write_object_any (types : list ctype) (coadder : Z -> res (option cobs * Z))
  (st : wstate) (iobj : Z) : res wstate :=
  let* x := coadder iobj in
  let '(coadd_obs, flags) := x in
  let* r := py_index (ws_rows st) iobj in
  let put r' := upd (ws_rows st) (Z.to_nat (row_of (zlen (ws_rows st)) iobj)) r' in
  match coadd_obs with
  | None => Ok (mkWstate (put (failed_row r flags)) (ws_ext st) (ws_psf st)
                         (ws_row_start st) (ws_size st) (ws_psf_row_start st) (ws_psf_size st))
  | Some co =>
    if negb (o_box (cr_obj r) =? nr (co_image co)) then Err AssertionError
    else
      let start := ws_row_start st + ws_size st in
      let psf_start := ws_psf_row_start st + ws_psf_size st in
      let* r' := filled_row r co flags start psf_start in
      let* ext := foldM (write_type co start) types (ws_ext st) in
      let* psf := write_at (ws_psf st) psf_start (dat (co_psf co)) in
      Ok (mkWstate (put r') ext psf
                   start (o_box (cr_obj r) ^ 2) psf_start (nr (co_psf co) ^ 2))
  end.

(** meds/coadd.py 97-135, 89-95 [write] and the constructor; as [write_coadds]
    of Coadd.v, for any [obj_range]. *)
Definition write_coadds_any (f : medsfile) (config_types : list ctype) (total_psf : Z)
  (junk : ctype -> Z -> Q) (pjunk : Z -> Q) (coadder : Z -> res (option cobs * Z))
  (obj_range : option (Z * Z)) : res (list crow * medsfile) :=
  let types := add_types config_types in
  let* rows := coadd_obj_data f in
  let total_pixels := zsum (map (fun o => o_box o ^ 2) (m_cat f)) in
  let '(a, b) := match obj_range with Some r => r | None => (0, zlen (m_cat f)) end in
  let* st := foldM (write_object_any types coadder) (zrange2 a b)
    (mkWstate rows (reserve types total_pixels junk) (map pjunk (zrange total_psf)) 0 0 0 0) in
  Ok (ws_rows st,
      mkMeds (map cr_obj (ws_rows st)) true PsfBoxObj (firstn 1 (m_info f)) (ws_ext st) (Some (ws_psf st))).
