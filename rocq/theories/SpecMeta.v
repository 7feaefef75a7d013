(** Words of the statements about metadata, image_info and validation. *)
From Coq Require Import String.
From Verif Require Import Base Img Types Meta.
Open Scope Z_scope.

Definition required_object_columns : list string :=
  ["id"; "box_size"; "ra"; "dec"; "ncutout"; "file_id"; "start_row"; "orig_row"; "orig_col"; "orig_start_row";
   "orig_start_col"; "cutout_row"; "cutout_col"; "dudrow"; "dudcol"; "dvdrow"; "dvdcol"]%string.
Definition required_info_columns : list string :=
  ["image_path"; "image_ext"; "image_id"; "image_flags"; "magzp"; "scale"]%string.
Definition required_extensions : list string := ["object_data"; "image_info"; "image_cutouts"]%string.

(** Columns of the documented image_info table. *)
Definition documented_info_columns : list string :=
  ["image_path"; "image_ext"; "weight_path"; "weight_ext"; "seg_path"; "seg_ext"; "bmask_path"; "bmask_ext";
   "bkg_path"; "bkg_ext"; "image_id"; "image_flags"; "magzp"; "scale"; "position_offset"]%string.

(** A name is present, up to case. *)
Definition present (n : string) (l : list string) : Prop := exists c, In c l /\ lower c = lower n.

(** The values of a column. *)
Definition column (t : table) (n : string) (v : list string) : Prop := In (n, v) t.

Definition version_columns (vs : versions) : list (string * string) :=
  [("numpy_version", v_numpy vs); ("esutil_version", v_esutil vs); ("fitsio_version", v_fitsio vs);
   ("meds_version", v_meds vs); ("meds_fmt_version", v_fmt vs)]%string.
