(** Specification for positions in double precision (C117). *)
From Coq Require Import Qabs.
From Verif Require Import Base Img Types MakerLayout Typed SpecTyped SpecLayout LayoutFl.
Open Scope Z_scope.

(** Images of at most 2^30 pixels a side, offsets and buffers of at most 2^20
    pixels, boxes of at most 2^21. *)
Definition fi_sane (im : fimage) : Prop :=
  1 <= fi_nrow im <= 2 ^ 30 /\ 1 <= fi_ncol im <= 2 ^ 30 /\
  (exists o, fi_offset im = Fin o /\ is_float true o /\ (Qabs o <= inject_Z (2 ^ 20))%Q) /\
  match fi_buffer im with
  | Some b => exists q, b = Fin q /\ is_float true q /\ (0 <= q <= inject_Z (2 ^ 20))%Q
  | None => True
  end.
Definition half_sane (half : Z) : Prop := 0 <= half <= 2 ^ 20.
Definition offset_of (im : fimage) : Q := match fi_offset im with Fin o => o | _ => 0%Q end.
Definition buffer_of (im : fimage) : Q := match fi_buffer im with Some (Fin b) => b | _ => 0%Q end.

(** The integer part. *)
Definition int_part (x : Q) (t : Z) : Prop :=
  ((0 <= x)%Q /\ (inject_Z t <= x < inject_Z t + 1)%Q) \/
  ((x < 0)%Q /\ (inject_Z t - 1 < x <= inject_Z t)%Q).

(** A whole number of units of 2^-20. *)
Definition coarse (x : Q) : Prop := exists m, (x == inject_Z m / inject_Z (2 ^ 20))%Q.

(** What is stored for an object at [x] along one axis: the position without the
    offset, the corner from its integer part, the position in the cutout. *)
Definition axis_ok (half : Z) (off : Q) (x : Q) (a : axis_cut) : Prop :=
  exists z c t, ax_orig a = Fin z /\ ax_cutout a = Fin c /\ int_part z t /\ ax_start a = t - half + 1 /\
    (Qabs (z - (x - off)) <= 1 # 2097152)%Q /\
    (Qabs (c - (z - inject_Z (ax_start a))) <= 1 # 1073741824)%Q /\
    ((0 <= z)%Q -> (inject_Z half - 1 <= c <= inject_Z half)%Q) /\
    ((z < 0)%Q -> (inject_Z half - 2 <= c <= inject_Z half - 1)%Q).

(** The same without any rounding. *)
Definition axis_exact (off : Q) (x : Q) (a : axis_cut) : Prop :=
  exists z c, ax_orig a = Fin z /\ ax_cutout a = Fin c /\ (z == x - off)%Q /\ (inject_Z (ax_start a) + c == z)%Q.

(** Image number [f] of the layout in exact numbers, its offset and buffer as
    doubles. *)
Definition fimage_of (c : lconf) (f : Z) (im : image) : fimage :=
  mkFimage (w_nrow (im_wcs im)) (w_ncol (im_wcs im)) (Fin (im_offset im))
    (if (f =? 0) && first_image_is_coadd c then Some (Fin (coadd_bounds_buffer_rowcol c)) else None).

(** The doubles are the numbers [orig], [start] and [cutout]. *)
Definition axis_is (orig : Q) (start : Z) (cutout : Q) (a : axis_cut) : Prop :=
  exists z p, ax_orig a = Fin z /\ (z == orig)%Q /\ ax_start a = start /\ ax_cutout a = Fin p /\ (p == cutout)%Q.

(** The cutout of an object on image number [f] computed in doubles. *)
Definition double_cutout (ub : fl -> Z) (c : lconf) (f : Z) (im : image) (o : obj) (half : Z) : option (axis_cut * axis_cut) :=
  let '(col, row) := w_pos (im_wcs im) (o_ra o) (o_dec o) (color_arg c f o) in
  fl_cutout ub (fimage_of c f im) half (Fin row) (Fin col).

(** Image, offset, buffer and the position of the object in units of 2^-20. *)
Definition image_coarse (c : lconf) (f : Z) (im : image) (o : obj) : Prop :=
  fi_sane (fimage_of c f im) /\ coarse (im_offset im) /\ coarse (spec_buffer c f) /\
  coarse (fst (w_pos (im_wcs im) (o_ra o) (o_dec o) (color_arg c f o))) /\
  coarse (snd (w_pos (im_wcs im) (o_ra o) (o_dec o) (color_arg c f o))).

Definition ex_flim : fimage := mkFimage 4096 2048 (Fin 1) None.
Definition ex_flim0 : fimage := mkFimage 100 100 (Fin 0) None.
Definition ex_flim_coadd : fimage := mkFimage 10000 10000 (Fin 1) (Some (Fin 64)).
Definition ex_flim_tenth : fimage :=
  mkFimage 100 100 (Fin (inject_Z 3602879701896397 * Qpower (2#1) (-55))%Q) (Some (Fin 1)).
