(** Model of the layout of one object in one image in the number types of the
    code: doubles for the positions, int32 for the truncated position, int64 for
    the corner (meds/maker.py, meds/util.py, meds/bounds.py).  Definitions only.
    Clipping to the bounds of the coadd (meds/maker.py 831-862) only replaces a
    position found inside by itself and is left out. *)
From Coq Require Import Qabs.
From Verif Require Import Base Img Types BoundsM MakerLayout Single Typed.
Open Scope Z_scope.

(** [x <= y] of doubles: false if one is NaN. *)
Definition fle (x y : fl) : bool :=
  match x, y with
  | NaN, _ | _, NaN => false
  | Inf true, _ => true
  | Inf false, Inf false => true
  | Inf false, _ => false
  | Fin _, Inf neg => negb neg
  | Fin a, Fin b => Qle_bool a b
  end.
Definition fneg (x : fl) : fl :=
  match x with Fin a => Fin (- a) | Inf neg => Inf (negb neg) | NaN => NaN end.
Definition fadd (dbl : bool) (x y : fl) : fl := fsub dbl x (fneg y).

(** An image: sizes of wcs.get_naxis, the f8 column position_offset
    (meds/util.py 288) and, for the first image if it is the coadd, the
    configured coadd_bounds_buffer_rowcol. *)
Record fimage : Type := mkFimage { fi_nrow : Z; fi_ncol : Z; fi_offset : fl; fi_buffer : option fl }.

(** One axis of [_get_image_bounds], meds/maker.py 1136-1147 with
    meds/util.py 333-334, and of the buffer, meds/maker.py 823-827. *)
Definition axis_bounds (n : Z) (im : fimage) : fl * fl :=
  let lo := fsub true (Fin 1) (fi_offset im) in
  let hi := fsub true (fround true (inject_Z n)) (fi_offset im) in
  match fi_buffer im with
  | Some b => (fsub true lo b, fadd true hi b)
  | None => (lo, hi)
  end.

(** One axis of [contains_points], meds/bounds.py 33-46. *)
Definition axis_contains (b : fl * fl) (z : fl) : bool := fle z (snd b) && fle (fst b) z.

(** orig_row, orig_start_row, cutout_row; meds/maker.py 711-729. *)
Record axis_cut : Type := mkAxis { ax_orig : fl; ax_start : Z; ax_cutout : fl }.
Definition cut_axis (ub : fl -> Z) (half : Z) (z : fl) : axis_cut :=
  let start := wrap true 64 (to_int ub true 32 (NF z) - half + 1) in
  mkAxis z start (fsub true z (fround true (inject_Z start))).

(** The cutout of an object at (row, col) in an image, if it has one:
    meds/maker.py 669-730.  [half] is box_size // 2. *)
Definition fl_cutout (ub : fl -> Z) (im : fimage) (half : Z) (row col : fl) : option (axis_cut * axis_cut) :=
  let zrow := fsub true row (fi_offset im) in
  let zcol := fsub true col (fi_offset im) in
  if axis_contains (axis_bounds (fi_nrow im) im) zrow && axis_contains (axis_bounds (fi_ncol im) im) zcol
  then Some (cut_axis ub half zrow, cut_axis ub half zcol) else None.
