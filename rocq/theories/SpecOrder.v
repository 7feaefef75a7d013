(** The images of a file in another order (meds/maker.py 636-758, the loop over the
    files; the file ids are the row numbers of image_info). *)
From Verif Require Import Base Img Types Reader MakerLayout MakerWrite MakerFile SpecFile.
Open Scope Z_scope.

(** The second list has the same rows as the first; row [g] of the first is row
    [move g] of the second. *)
Definition reordered (rows1 rows2 : list imrow) (move : Z -> Z) : Prop :=
  zlen rows1 = zlen rows2 /\
  (forall g, 0 <= g < zlen rows1 -> 0 <= move g < zlen rows1 /\ zget rows2 (move g) = zget rows1 g) /\
  (forall g g', 0 <= g < zlen rows1 -> 0 <= g' < zlen rows1 -> move g = move g' -> g = g').

(** A coadd stays the first image. *)
Definition coadd_stays (k : mconf) (move : Z -> Z) : Prop :=
  first_image_is_coadd (k_l k) = true -> move 0 = 0.

(** The psf objects are moved along with the images. *)
Definition psfs_moved (n : Z) (move : Z -> Z) (psf1 psf2 : option (list psfobj)) : Prop :=
  match psf1, psf2 with
  | None, None => True
  | Some ps1, Some ps2 => forall g, 0 <= g < n -> zget ps2 (move g) = zget ps1 g
  | _, _ => False
  end.

(** Cutout [c1] of object [i] of the first file and cutout [c2] of object [i] of the
    second are from the same image, and all the accessors give the same for them:
    place, source, Jacobian, the pixels of every type the files have and the source
    supplies. *)
Definition moved_cutout (rows1 : list imrow) (move : Z -> Z) (f1 f2 : medsfile) (i c1 c2 : Z) : Prop :=
  exists o1 o2 s1 s2 row,
    zget (m_cat f1) i = Some o1 /\ zget (o_slots o1) c1 = Some s1 /\
    zget (m_cat f2) i = Some o2 /\ zget (o_slots o2) c2 = Some s2 /\
    zget rows1 (s_file s1) = Some row /\ s_file s2 = move (s_file s1) /\
    s_orow s1 = s_orow s2 /\ s_ocol s1 = s_ocol s2 /\ s_osr s1 = s_osr s2 /\ s_osc s1 = s_osc s2 /\
    s_crow s1 = s_crow s2 /\ s_ccol s1 = s_ccol s2 /\
    (exists j, get_jacobian f1 i c1 = Ok j /\ get_jacobian f2 i c2 = Ok j) /\
    (exists x, get_source_info f1 i c1 = Ok x /\ get_source_info f2 i c2 = Ok x) /\
    (exists p, get_source_path f1 i c1 = Ok p /\ get_source_path f2 i c2 = Ok p) /\
    forall t, In t (map fst (m_ext f1)) -> In t (map fst (m_ext f2)) -> has_file (ir_src row) t ->
      exists im, get_cutout f1 i c1 t = Ok im /\ get_cutout f2 i c2 t = Ok im.

(** And so is the psf, in files made with psf_data. *)
Definition moved_psf (f1 f2 : medsfile) (i c1 c2 : Z) : Prop :=
  exists im, get_psf f1 i c1 = Ok im /\ get_psf f2 i c2 = Ok im.
