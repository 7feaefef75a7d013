(** Specification vocabulary for the extractors. *)
From Verif Require Import Base Img Types Reader MakerWrite MakerFile SpecTiles SpecFile.
Open Scope Z_scope.

(** Pixels of one psf, for the layouts the reader knows. *)
Definition psf_npix (cols : psf_cols) (o : obj) (s : slot) : Z :=
  match cols with
  | PsfRCCut => s_psf_nr s * s_psf_nc s
  | PsfRCObj => o_psf_nr o * o_psf_nc o
  | PsfBoxCut => s_psf_box s * s_psf_box s
  | PsfBoxObj => o_psf_box o * o_psf_box o
  | PsfNone => 0
  end.

Definition psf_pixel_ranges (cols : psf_cols) (cat : list obj) : list (Z * Z) :=
  flat_map (fun o => map (fun s => (s_psf_start s, s_psf_start s + psf_npix cols o s)) (used_slots o)) cat.

(** The psf extension, if any, is exactly tiled by psfs that are not empty. *)
Definition psf_wf (f : medsfile) : Prop :=
  forall p, m_psf f = Some p ->
    m_psf_cols f <> PsfNone /\ tiles 0 (psf_pixel_ranges (m_psf_cols f) (m_cat f)) (zlen p) /\
    forall o s, In o (m_cat f) -> In s (used_slots o) -> 0 < psf_npix (m_psf_cols f) o s.

(** A well formed file with the extensions the extractors ask for. *)
Definition has_ext (f : medsfile) (t : ctype) : Prop := exists m, ext_find (m_ext f) t = Some m.

(** Equal rows up to the start_row and psf_start_row entries. *)
Definition same_but_starts (o o' : obj) : Prop :=
  o' = set_slots o (o_slots o') /\
  Forall2 (fun s s' => s' = set_psf_start (set_start s (s_start s')) (s_psf_start s')) (o_slots o) (o_slots o').

(** All accessors by cutout agree on object [i] of [g] and object [j] of [f]. *)
Definition same_cutouts (f : medsfile) (j : Z) (g : medsfile) (i : Z) (t : ctype) : Prop :=
  forall k, 0 <= k -> get_cutout g i k t = get_cutout f j k t.
Definition same_psfs (f : medsfile) (j : Z) (g : medsfile) (i : Z) : Prop :=
  forall k, 0 <= k -> get_psf g i k = get_psf f j k.

(** The psf column layouts get_psf_row_range handles. *)
Definition psf_extractable (cols : psf_cols) : Prop := cols = PsfRCCut \/ cols = PsfBoxCut \/ cols = PsfBoxObj.

(** How many rows carry a number. *)
Definition occurrences (cat : list obj) (n : Z) : Z := zlen (filter (fun o => o_number o =? n) cat).

(** Psf images given to the maker are proper arrays with at least one pixel. *)
Definition psfs_fit (psf : option (list psfobj)) : Prop :=
  forall ps p r c col, psf = Some ps -> In p ps -> img_ok (p_rec p r c col) /\ 0 < nr (p_rec p r c col) * nc (p_rec p r c col).
