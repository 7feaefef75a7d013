(** Model of the plain accessors of class MEDS, meds/meds.py.  Definitions only. *)
From Verif Require Import Base Img Types.

(** meds/meds.py 1039-1052 [_check_indices]; returns the row of the object
    ([self._cat[...][iobj]] wraps negative indices as numpy does). *)
Definition check_indices (f : medsfile) (iobj : Z) (icut : option Z) : res obj :=
  if zlen (m_cat f) <=? iobj then Err ValueError
  else
    let* o := py_index (m_cat f) iobj in
    if o_ncut o =? 0 then Err ValueError
    else match icut with
         | None => Ok o
         | Some k => if o_ncut o <=? k then Err ValueError else Ok o
         end.

(** meds/meds.py 1033-1037 [_get_extension_name] followed by [self._fits[extname]]. *)
Definition get_extension (f : medsfile) (t : ctype) : res (list Q) :=
  match ext_find (m_ext f) t with Some m => Ok m | None => Err ValueError end.

(** meds/meds.py 191-223 [get_cutout], types other than 'psf'. *)
Definition get_cutout (f : medsfile) (iobj icut : Z) (t : ctype) : res (img Q) :=
  let* o := check_indices f iobj (Some icut) in
  let box_size := o_box o in
  let* s := get_slot o icut in
  let start_row := s_start s in
  let row_end := start_row + box_size * box_size in
  let* m := get_extension f t in
  let* imflat := slice m start_row row_end in
  reshape imflat box_size box_size.

(** meds/meds.py 225-255 [get_mosaic]. *)
Definition get_mosaic (f : medsfile) (iobj : Z) (t : ctype) : res (img Q) :=
  let* o := check_indices f iobj None in
  let ncutout := o_ncut o in
  let box_size := o_box o in
  let* s := get_slot o 0 in
  let start_row := s_start s in
  let row_end := start_row + box_size * box_size * ncutout in
  let* m := get_extension f t in
  let* mflat := slice m start_row row_end in
  reshape mflat (ncutout * box_size) box_size.

(** meds/meds.py 1071-1095 [split_mosaic]: integer division by a zero width raises. *)
Definition split_mosaic {A} (mosaic : img A) : res (list (img A)) :=
  let box_size := nc mosaic in
  if box_size =? 0 then Err ZeroDivisionError
  else
    let ncutout := nr mosaic / box_size in
    mapM (fun i => sub2d mosaic (i * box_size) ((i + 1) * box_size) 0 box_size) (zrange ncutout).

(** meds/meds.py 257-282 [get_cutout_list], types other than 'psf'. *)
Definition get_cutout_list (f : medsfile) (iobj : Z) (t : ctype) : res (list (img Q)) :=
  let* mosaic := get_mosaic f iobj t in
  split_mosaic mosaic.

(** meds/meds.py 321-342 [_get_psf_shape]. *)
Definition get_psf_shape (f : medsfile) (o : obj) (icut : Z) : res (Z * Z) :=
  match m_psf_cols f with
  | PsfRCCut => let* s := get_slot o icut in Ok (s_psf_nr s, s_psf_nc s)
  | PsfRCObj => Ok (o_psf_nr o, o_psf_nc o)
  | PsfBoxCut => let* s := get_slot o icut in Ok (s_psf_box s, s_psf_box s)
  | PsfBoxObj => Ok (o_psf_box o, o_psf_box o)
  | PsfNone => Err ValueError     (* no field of name psf_box_size *)
  end.

(** meds/meds.py 290-319 [get_psf]. *)
Definition get_psf (f : medsfile) (iobj icut : Z) : res (img Q) :=
  match m_psf f with
  | None => Err ValueError
  | Some m =>
    let* o := check_indices f iobj (Some icut) in
    let* shape := get_psf_shape f o icut in
    let npix := fst shape * snd shape in
    let* s := get_slot o icut in
    let start_row := s_psf_start s in
    let* imflat := slice m start_row (start_row + npix) in
    reshape imflat (fst shape) (snd shape)
  end.

(** meds/meds.py 344-358 [get_psf_list]. *)
Definition get_psf_list (f : medsfile) (iobj : Z) : res (list (img Q)) :=
  let* o := py_index (m_cat f) iobj in
  mapM (fun icut => get_psf f iobj icut) (zrange (o_ncut o)).

(** The 'type' argument of the accessors (meds/meds.py 195-199). *)
Inductive rtype : Type := RPsf | RCut (t : ctype).

Definition get_cutout_any (f : medsfile) (iobj icut : Z) (t : rtype) : res (img Q) :=
  match t with RPsf => get_psf f iobj icut | RCut t => get_cutout f iobj icut t end.

(** [get_mosaic] does not treat 'psf' specially: the extension name becomes
    'psf_cutouts', which is not in the file (meds/meds.py 241-250, 1033-1037). *)
Definition get_mosaic_any (f : medsfile) (iobj : Z) (t : rtype) : res (img Q) :=
  match t with
  | RPsf => let* o := check_indices f iobj None in
            let* _ := get_slot o 0 in Err ValueError
  | RCut t => get_mosaic f iobj t
  end.

Definition get_cutout_list_any (f : medsfile) (iobj : Z) (t : rtype) : res (list (img Q)) :=
  match t with RPsf => get_psf_list f iobj | RCut t => get_cutout_list f iobj t end.

(** meds/meds.py 786-803 [get_source_info]. *)
Definition get_source_info (f : medsfile) (iobj icut : Z) : res info :=
  let* o := check_indices f iobj (Some icut) in
  let* s := get_slot o icut in
  py_index (m_info f) (s_file s).

(** meds/meds.py 805-822 [get_source_path]. *)
Definition get_source_path (f : medsfile) (iobj icut : Z) : res Z :=
  let* i := get_source_info f iobj icut in Ok (i_path i).

Record jacob : Type := mkJac { j_row0 : Q; j_col0 : Q; j_dudrow : Q; j_dudcol : Q; j_dvdrow : Q; j_dvdcol : Q }.

(** meds/meds.py 942-961 [get_cutout_rowcol]. *)
Definition get_cutout_rowcol (f : medsfile) (iobj icut : Z) : res (Q * Q) :=
  let* o := py_index (m_cat f) iobj in
  let* s := get_slot o icut in Ok (s_crow s, s_ccol s).

(** meds/meds.py 839-874 [get_jacobian]. *)
Definition get_jacobian (f : medsfile) (iobj icut : Z) : res jacob :=
  let* o := check_indices f iobj (Some icut) in
  let* rc := get_cutout_rowcol f iobj icut in
  let* s := get_slot o icut in
  Ok (mkJac (fst rc) (snd rc) (s_dudrow s) (s_dudcol s) (s_dvdrow s) (s_dvdcol s)).

(** meds/meds.py 876-900 [get_jacobian_matrix], no index check. *)
Definition get_jacobian_matrix (f : medsfile) (iobj icut : Z) : res (Q * Q * Q * Q) :=
  let* o := py_index (m_cat f) iobj in
  let* s := get_slot o icut in
  Ok (s_dudrow s, s_dudcol s, s_dvdrow s, s_dvdcol s).

(** meds/meds.py 902-922 [get_jacobian_list]. *)
Definition get_jacobian_list (f : medsfile) (iobj : Z) : res (list jacob) :=
  let* o := check_indices f iobj None in
  mapM (fun icut => get_jacobian f iobj icut) (zrange (o_ncut o)).

(** meds/meds.py 924-940 [get_number]. *)
Definition get_number (f : medsfile) (iobj : Z) : res Z :=
  if m_number_col f then let* o := py_index (m_cat f) iobj in Ok (o_number o)
  else Ok (iobj + 1).
