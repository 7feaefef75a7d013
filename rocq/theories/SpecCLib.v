(** Words of the statements about the C library and the input program. *)
From Coq Require Import String.
From Verif Require Import Base Img Types Reader CLib Meta SpecFile.
Open Scope Z_scope.

(** There is no such object, or it has no such cutout. *)
Definition no_cutout (f : medsfile) (iobj icut : Z) : Prop := forall o s, ~ cutout_at f iobj icut o s.

(** A C image holds a cutout: its sizes, and both accessor macros at every pixel. *)
Definition holds_cutout (ci : cimage) (im : img Q) : Prop :=
  ci_ncutout ci = 1 /\ ci_cutout_nrow ci = nr im /\ ci_cutout_ncol ci = nc im /\
  ci_cutout_size ci = nr im * nc im /\
  forall r c x, px im r c = Some x -> CUTOUT_GET ci r c = Ok x /\ MOSAIC_GET ci 0 r c = Ok x.

(** A C image holds the cutouts of an object, numbered from zero. *)
Definition holds_mosaic (ci : cimage) (n b : Z) (cutout : Z -> img Q -> Prop) : Prop :=
  ci_ncutout ci = n /\ ci_cutout_nrow ci = b /\ ci_cutout_ncol ci = b /\
  ci_mosaic_nrow ci = n * b /\ ci_mosaic_ncol ci = b /\ ci_mosaic_size ci = n * b * b /\
  forall k, 0 <= k < n -> exists im, cutout k im /\
    forall r c x, px im r c = Some x -> MOSAIC_GET ci k r c = Ok x /\ CUTOUT_GET ci (k * b + r) c = Ok x.

(** The derivatives stored with a cutout. *)
Definition distortion_of (s : slot) : distort := mkDistort (s_dudrow s) (s_dudcol s) (s_dvdrow s) (s_dvdcol s).

(** 2^N or 3 2^N, at least 2. *)
Definition fft_size (n : Z) : Prop := exists k, 0 <= k /\ (n = 2 * 2 ^ k \/ n = 3 * 2 ^ k).

(** What a box must contain: the rows and columns of the detection, and ten sigma
    along each side, stretched by the ellipticity. *)
Definition box_needs (rowmin rowmax colmin colmax : Z) (flux_radius ellipticity : Q) (n : Z) : Prop :=
  rowmax - rowmin + 1 <= n /\ colmax - colmin + 1 <= n /\
  ((10 * (flux_radius * 2 / FWHM_FAC)) * (1 + ellipticity) <= inject_Z n)%Q.

(** The columns the C library reads are there. *)
Definition c_columns (cols : list string) : Prop :=
  forall n, In n ["image_id"; "image_flags"; "image_path"; "wcs_path"; "sky_path"; "seg_path"; "magzp"; "scale"]%string ->
    In n cols.
