(** Model of where the maker's WCS objects come from, meds/maker.py.  Definitions only. *)
From Coq Require Import String.
From Verif Require Import Base Img Types BoundsM MakerLayout.
Open Scope Z_scope.

(** * WCS objects *)

(** What a WCS object knows apart from its size and the offset: the transformations.
    The rough sky cut also depends on size (ncol, nrow) and offset (meds/maker.py 1058-1128). *)
Record sky : Type := mkSky {
  sk_cut : Z * Z -> Q -> Q -> Q -> bool;
  sk_pos : Q -> Q -> option Q -> Q * Q;
  sk_jac : Q -> Q -> option Q -> Q * Q * Q * Q }.

(** A WCS object: transformations, naxis = (ncol, nrow), and the attribute
    position_offset that the maker adds. *)
Record wobj : Type := mkWobj { wo_sky : sky; wo_naxis : Z * Z; wo_offset : option Q }.
(** The objects in memory; a reference is a position in the list. *)
Definition heap : Type := list wobj.
Definition ref : Type := nat.

(** What read_header or json.loads give: ZNAXIS1/2, NAXIS1/2 and the rest. *)
Record header : Type := mkHeader { h_z : option (Z * Z); h_n : option (Z * Z); h_sky : sky }.

(** One row of image_info, as far as it matters here. *)
Record irow : Type := mkIrow { i_path : string; i_ext : Z; i_offset : Q; i_text : string }.

(** An element of psf_data: without get_wcs, or with a get_wcs that returns
    the same object each time, or a new copy each time. *)
Inductive psfw : Type := NoWcs | Same (r : ref) | Copy (w : wobj).

(** Everything outside: fitsio.read_header, json.loads and eu.wcsutil.WCS. *)
Record world : Type := mkWorld {
  read_header : string -> Z -> res header;
  json_loads : string -> res header;
  construct : header -> res (sky * (Z * Z)) }.

(** [wcs.set_naxis(naxis)] and [wcs.position_offset = offset] *)
Definition set_naxis (n : Z * Z) (w : wobj) : wobj := mkWobj (wo_sky w) n (wo_offset w).
Definition set_offset (o : Q) (w : wobj) : wobj := mkWobj (wo_sky w) (wo_naxis w) (Some o).

(** meds/maker.py 929-932: the size in the header of a (possibly compressed) image. *)
Definition header_size (h : header) : res (Z * Z) :=
  match h_z h with
  | Some n => Ok n
  | None => match h_n h with Some n => Ok n | None => Err KeyError end
  end.

(** meds/maker.py 914-947 [_get_wcs] *)
Definition get_wcs (W : world) (psf : option (list psfw)) (has_text : bool) (rows : list irow)
  (h : heap) (file_id : Z) : res (heap * ref) :=
  let* row := py_index rows file_id in
  let* p := match psf with Some l => py_index l file_id | None => Ok NoWcs end in
  match p with
  | Same r =>
    let* hdr := read_header W (i_path row) (i_ext row) in
    let* n := header_size hdr in
    let* h' := modify h r (set_naxis n) in
    Ok (h', r)
  | Copy w =>
    let* hdr := read_header W (i_path row) (i_ext row) in
    let* n := header_size hdr in
    Ok (h ++ [set_naxis n w], length h)
  | NoWcs =>
    let* data := if has_text then json_loads W (i_text row)
                 else read_header W (i_path row) (i_ext row) in
    let* sn := construct W data in
    Ok (h ++ [mkWobj (fst sn) (snd sn) None], length h)
  end.

(** What the layout sees of an object. *)
Definition image_of (w : wobj) : res image :=
  match wo_offset w with
  | None => Err AttributeError
  | Some o => Ok (mkImage (mkWcs (snd (wo_naxis w)) (fst (wo_naxis w)) (sk_cut (wo_sky w) (wo_naxis w) o)
                                 (sk_pos (wo_sky w)) (sk_jac (wo_sky w))) o)
  end.

(** meds/maker.py 781-794: get the object, set the offset. *)
Definition take_wcs (W : world) (psf : option (list psfw)) (has_text : bool) (rows : list irow)
  (h : heap) (file_id : Z) : res (heap * image) :=
  let* row := py_index rows file_id in
  let* hr := get_wcs W psf has_text rows h file_id in
  let* h' := modify (fst hr) (snd hr) (set_offset (i_offset row)) in
  let* w := match nth_error h' (snd hr) with Some w => Ok w | None => Err IndexError end in
  let* im := image_of w in
  Ok (h', im).

(** meds/maker.py 649-664 and 669-758 with the objects in memory. *)
Definition trim_with (W : world) (psf : option (list psfw)) (has_text : bool) (rows : list irow)
  (c : lconf) (h : heap) (cat : list obj) : res (heap * list obj) :=
  if first_image_is_coadd c && trim_to_coadd c then
    let* hi := take_wcs W psf has_text rows h 0 in
    let* cat' := trim_cat c [snd hi] cat in
    Ok (fst hi, cat')
  else Ok (h, cat).

Definition file_with (W : world) (psf : option (list psfw)) (has_text : bool) (rows : list irow)
  (c : lconf) (st : heap * list obj) (file_id : Z) : res (heap * list obj) :=
  let* hi := take_wcs W psf has_text rows (fst st) file_id in
  let* cat := layout_file c (snd st) (file_id, snd hi) in
  Ok (fst hi, cat).

Definition layout_with (W : world) (psf : option (list psfw)) (has_text : bool) (rows : list irow)
  (c : lconf) (h : heap) (cat : list obj) : res (heap * (list obj * Z)) :=
  let* hc := trim_with W psf has_text rows c h cat in
  let* hc := foldM (file_with W psf has_text rows c) (zrange (zlen rows)) hc in
  let* cat := make_resized (snd hc) in
  let* r := set_start_rows cat in
  Ok (fst hc, r).
