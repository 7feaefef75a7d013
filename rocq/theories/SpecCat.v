(** Words of the statements about the columns of the catalog. *)
From Coq Require Import String.
From Verif Require Import Base CatCols.
Open Scope Z_scope.

(** A structured array of [n] rows. *)
Definition table_ok {A} (n : Z) (t : ctable A) : Prop := 0 <= n /\ NoDup (cnames t) /\
  forall c, In c t -> zlen (c_rows c) = n /\ forall r, In r (c_rows c) -> zlen r = len_of (c_width c).

Definition scalar {A} (t : ctable A) (n : string) : Prop := exists c, In c t /\ c_name c = n /\ c_width c = None.

(** What a user must supply, what the maker computes for each cutout, and what it
    computes for each psf. *)
Definition must_have : list string := ["id"; "box_size"; "ra"; "dec"]%string.
Definition cutout_columns : list string :=
  ["file_id"; "start_row"; "orig_row"; "orig_col"; "orig_start_row"; "orig_start_col";
   "cutout_row"; "cutout_col"; "dudrow"; "dudcol"; "dvdrow"; "dvdcol"]%string.
Definition psf_columns : list string :=
  ["psf_row_size"; "psf_col_size"; "psf_cutout_row"; "psf_cutout_col"; "psf_start_row"]%string.
Definition computed_columns : list string := ("ncutout" :: cutout_columns ++ psf_columns)%string.

(** [c'] holds the rows [idx] of [c], under the same name and with the same shape. *)
Definition same_column {A} (idx : list Z) (c c' : col A) : Prop :=
  c_name c' = c_name c /\ c_width c' = c_width c /\ zlen (c_rows c') = zlen idx /\
  forall k i, zget idx k = Some i -> zget (c_rows c') k = zget (c_rows c) i.
