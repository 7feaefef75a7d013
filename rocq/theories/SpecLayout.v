(** Specification of the maker's layout, object by object. *)
From Coq Require Import Sorted.
From Verif Require Import Base Img Types MakerLayout.
Open Scope Z_scope.

(** Buffer added around the image: only the coadd (image 0) has one. *)
Definition spec_buffer (c : lconf) (f : Z) : Q :=
  if (f =? 0) && first_image_is_coadd c then coadd_bounds_buffer_rowcol c else 0%Q.

(** Zero-offset position of an object in image [f]: what the wcs gives, minus
    the position offset of the image. *)
Definition spec_row (c : lconf) (f : Z) (im : image) (o : obj) : Q :=
  (snd (w_pos (im_wcs im) (o_ra o) (o_dec o) (color_arg c f o)) - im_offset im)%Q.
Definition spec_col (c : lconf) (f : Z) (im : image) (o : obj) : Q :=
  (fst (w_pos (im_wcs im) (o_ra o) (o_dec o) (color_arg c f o)) - im_offset im)%Q.

(** Image [f] gets a cutout of the object: the sky cut accepts it and its
    position is within the first and last pixel positions of the image
    (1 .. nrow in wcs coordinates), plus the buffer. *)
Definition accepted (c : lconf) (f : Z) (im : image) (o : obj) : Prop :=
  w_cut (im_wcs im) (o_ra o) (o_dec o) = true /\
  (1 - im_offset im - spec_buffer c f <= spec_row c f im o)%Q /\
  (spec_row c f im o <= inject_Z (w_nrow (im_wcs im)) - im_offset im + spec_buffer c f)%Q /\
  (1 - im_offset im - spec_buffer c f <= spec_col c f im o)%Q /\
  (spec_col c f im o <= inject_Z (w_ncol (im_wcs im)) - im_offset im + spec_buffer c f)%Q.

(** Contents of a used slot: which image, where in it, the Jacobian there. *)
Definition slot_describes (c : lconf) (images : list image) (o : obj) (box : Z) (s : slot) : Prop :=
  exists im, zget images (s_file s) = Some im /\
    s_orow s = spec_row c (s_file s) im o /\
    s_ocol s = spec_col c (s_file s) im o /\
    s_osr s = qtrunc (s_orow s) - box / 2 + 1 /\
    s_osc s = qtrunc (s_ocol s) - box / 2 + 1 /\
    s_crow s = (s_orow s - inject_Z (s_osr s))%Q /\
    s_ccol s = (s_ocol s - inject_Z (s_osc s))%Q /\
    (let '(col, row) := w_pos (im_wcs im) (o_ra o) (o_dec o) (color_arg c (s_file s) o) in
     w_jac (im_wcs im) col row (color_arg c (s_file s) o)
     = (s_dudcol s, s_dudrow s, s_dvdcol s, s_dvdrow s)).

(** [o'] is the catalog row laid out for the input row [o]. *)
Definition laid_out (c : lconf) (images : list image) (nslots : Z) (o o' : obj) : Prop :=
  o_id o' = o_id o /\ o_number o' = o_number o /\ o_ra o' = o_ra o /\ o_dec o' = o_dec o /\
  o_color o' = o_color o /\ o_wcs_color o' = o_wcs_color o /\ o_psf_color o' = o_psf_color o /\
  o_box o' = o_box o + o_box o mod 2 /\
  zlen (o_slots o') = nslots /\
  0 <= o_ncut o' <= nslots /\
  (* exactly the accepting images, in increasing order *)
  StronglySorted Z.lt (map s_file (firstn (Z.to_nat (o_ncut o')) (o_slots o'))) /\
  (forall f, In f (map s_file (firstn (Z.to_nat (o_ncut o')) (o_slots o'))) <->
     exists im, zget images f = Some im /\ accepted c f im o) /\
  (* contents of the used and the unused slots *)
  (forall k s, zget (o_slots o') k = Some s ->
     (k < o_ncut o' -> slot_describes c images o (o_box o') s) /\
     (o_ncut o' <= k -> s = def_slot)).
