(** Data structures of a MEDS file.  Definitions only. *)
From Verif Require Import Base Img.

(** Supported cutout types, meds/maker.py 29-36. *)
Inductive ctype : Type := TImage | TWeight | TSeg | TBmask | TOrmask | TNoise.

Definition ctype_eqb (a b : ctype) : bool :=
  match a, b with
  | TImage, TImage | TWeight, TWeight | TSeg, TSeg
  | TBmask, TBmask | TOrmask, TOrmask | TNoise, TNoise => true
  | _, _ => false
  end.

(** One column index of the per-cutout arrays of object_data,
    meds/util.py 184-197 and the psf fields of meds/maker.py 1382-1394.
    [s_psf_box] is the older psf_box_size column read by
    meds/meds.py 335-341. *)
Record slot : Type := mkSlot {
  s_file : Z;  s_start : Z;
  s_orow : Q;  s_ocol : Q;
  s_osr : Z;   s_osc : Z;
  s_crow : Q;  s_ccol : Q;
  s_dudrow : Q; s_dudcol : Q; s_dvdrow : Q; s_dvdcol : Q;
  s_psf_nr : Z; s_psf_nc : Z; s_psf_box : Z;
  s_psf_crow : Q; s_psf_ccol : Q; s_psf_start : Z }.

(** DEFVAL, meds/util.py 4. *)
Definition DEFVAL : Z := -9999.
Definition qdef : Q := inject_Z DEFVAL.

(** A slot of get_meds_output_struct, meds/util.py 95-118. *)
Definition def_slot : slot :=
  mkSlot DEFVAL DEFVAL qdef qdef DEFVAL DEFVAL qdef qdef qdef qdef qdef qdef
         DEFVAL DEFVAL DEFVAL qdef qdef DEFVAL.

(** One row of object_data, meds/util.py 179-197, with the optional extra
    columns the package itself looks at. *)
Record obj : Type := mkObj {
  o_id : Z; o_number : Z; o_box : Z; o_ra : Q; o_dec : Q;
  o_color : Q; o_wcs_color : Q; o_psf_color : Q;
  o_psf_nr : Z; o_psf_nc : Z; o_psf_box : Z;   (* per-object psf sizes of other makers *)
  o_ncut : Z; o_slots : list slot }.

Definition set_ncut (o : obj) (n : Z) : obj :=
  mkObj (o_id o) (o_number o) (o_box o) (o_ra o) (o_dec o) (o_color o) (o_wcs_color o)
        (o_psf_color o) (o_psf_nr o) (o_psf_nc o) (o_psf_box o) n (o_slots o).
Definition set_slots (o : obj) (s : list slot) : obj :=
  mkObj (o_id o) (o_number o) (o_box o) (o_ra o) (o_dec o) (o_color o) (o_wcs_color o)
        (o_psf_color o) (o_psf_nr o) (o_psf_nc o) (o_psf_box o) (o_ncut o) s.
Definition set_box (o : obj) (b : Z) : obj :=
  mkObj (o_id o) (o_number o) b (o_ra o) (o_dec o) (o_color o) (o_wcs_color o)
        (o_psf_color o) (o_psf_nr o) (o_psf_nc o) (o_psf_box o) (o_ncut o) (o_slots o).

Definition set_start (s : slot) (v : Z) : slot :=
  mkSlot (s_file s) v (s_orow s) (s_ocol s) (s_osr s) (s_osc s) (s_crow s) (s_ccol s)
         (s_dudrow s) (s_dudcol s) (s_dvdrow s) (s_dvdcol s)
         (s_psf_nr s) (s_psf_nc s) (s_psf_box s) (s_psf_crow s) (s_psf_ccol s) (s_psf_start s).
Definition set_psf_start (s : slot) (v : Z) : slot :=
  mkSlot (s_file s) (s_start s) (s_orow s) (s_ocol s) (s_osr s) (s_osc s) (s_crow s) (s_ccol s)
         (s_dudrow s) (s_dudcol s) (s_dvdrow s) (s_dvdcol s)
         (s_psf_nr s) (s_psf_nc s) (s_psf_box s) (s_psf_crow s) (s_psf_ccol s) v.
Definition set_psf (s : slot) (h w : Z) (cr cc : Q) (st : Z) : slot :=
  mkSlot (s_file s) (s_start s) (s_orow s) (s_ocol s) (s_osr s) (s_osc s) (s_crow s) (s_ccol s)
         (s_dudrow s) (s_dudcol s) (s_dvdrow s) (s_dvdcol s)
         h w (s_psf_box s) cr cc st.

(** Which psf size columns the catalog has, meds/meds.py 321-342:
    psf_row_size/psf_col_size or psf_box_size, per cutout or per object. *)
Inductive psf_cols : Type := PsfNone | PsfRCCut | PsfRCObj | PsfBoxCut | PsfBoxObj.

(** A row of image_info as far as the package uses it after writing. *)
Record info : Type := mkInfo { i_path : Z; i_id : Z; i_offset : Q; i_scale : Q }.

(** A MEDS file as its readers see it.  Mosaics hold exact rationals; integer
    types hold integers.  [m_number_col]: the catalog has a 'number' column. *)
Record medsfile : Type := mkMeds {
  m_cat : list obj;
  m_number_col : bool;
  m_psf_cols : psf_cols;
  m_info : list info;
  m_ext : list (ctype * list Q);   (* the <type>_cutouts extensions in file order *)
  m_psf : option (list Q) }.       (* the psf extension *)

(** First extension with the name (FITS name lookup). *)
Fixpoint ext_find (e : list (ctype * list Q)) (t : ctype) : option (list Q) :=
  match e with
  | [] => None
  | (t', m) :: e' => if ctype_eqb t' t then Some m else ext_find e' t
  end.
Fixpoint ext_set (e : list (ctype * list Q)) (t : ctype) (m : list Q) : list (ctype * list Q) :=
  match e with
  | [] => []
  | (t', m') :: e' => if ctype_eqb t' t then (t', m) :: e' else (t', m') :: ext_set e' t m
  end.

Definition get_slot (o : obj) (k : Z) : res slot := py_index (o_slots o) k.
