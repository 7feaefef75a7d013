(** What the maker may use of an input row. *)
From Verif Require Import Base Img Types Reader MakerLayout MakerWrite MakerFile SpecFile.
Open Scope Z_scope.

(** Two input rows with the same position and box size, and the same colours as
    far as the configuration asks for them: the wcs colour is 'color', or
    'wcs_color' without such a column. *)
Definition same_input (k : mconf) (o1 o2 : obj) : Prop :=
  o_ra o1 = o_ra o2 /\ o_dec o1 = o_dec o2 /\ o_box o1 = o_box o2 /\
  (coadd_astrom_color (k_l k) = true \/ se_astrom_color (k_l k) = true ->
     (has_color (k_l k) = true -> o_color o1 = o_color o2) /\
     (has_color (k_l k) = false -> has_wcs_color (k_l k) = true -> o_wcs_color o1 = o_wcs_color o2)) /\
  (psf_coadd_color (k_p k) = true \/ psf_se_color (k_p k) = true ->
     has_psf_color (k_p k) = true -> o_psf_color o1 = o_psf_color o2).

(** The same place in the same image. *)
Definition same_place (s1 s2 : slot) : Prop :=
  s_file s1 = s_file s2 /\ s_orow s1 = s_orow s2 /\ s_ocol s1 = s_ocol s2 /\
  s_osr s1 = s_osr s2 /\ s_osc s1 = s_osc s2 /\ s_crow s1 = s_crow s2 /\ s_ccol s1 = s_ccol s2.

(** Everything the accessors give for cutout [icut] of object [i1] of the first file
    and object [i2] of the second is the same: place, source, Jacobian, the pixels of every type both
    files have and the source supplies. *)
Definition same_cutout (rows : list imrow) (f1 : medsfile) (i1 : Z) (f2 : medsfile) (i2 icut : Z) : Prop :=
  exists o1 o2 s1 s2 row,
    zget (m_cat f1) i1 = Some o1 /\ zget (o_slots o1) icut = Some s1 /\
    zget (m_cat f2) i2 = Some o2 /\ zget (o_slots o2) icut = Some s2 /\
    zget rows (s_file s1) = Some row /\ same_place s1 s2 /\
    (exists j, get_jacobian f1 i1 icut = Ok j /\ get_jacobian f2 i2 icut = Ok j) /\
    (exists i, get_source_info f1 i1 icut = Ok i /\ get_source_info f2 i2 icut = Ok i) /\
    forall t, In t (map fst (m_ext f1)) -> In t (map fst (m_ext f2)) ->
      has_file (ir_src row) t ->
      exists im, get_cutout f1 i1 icut t = Ok im /\ get_cutout f2 i2 icut t = Ok im.

(** The psf of that cutout, for files made with psf_data. *)
Definition same_psf (f1 : medsfile) (i1 : Z) (f2 : medsfile) (i2 icut : Z) : Prop :=
  exists im, get_psf f1 i1 icut = Ok im /\ get_psf f2 i2 icut = Ok im.

(** The psf objects of the common images are the same, and give proper images. *)
Definition psfs_agree (n : Z) (psf1 psf2 : option (list psfobj)) : Prop :=
  match psf1, psf2 with
  | None, None => True
  | Some ps1, Some ps2 => forall f, 0 <= f < n -> zget ps1 f = zget ps2 f
  | _, _ => False
  end.
