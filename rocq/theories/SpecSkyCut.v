(** Words of the statements about images and the sky cut. *)
From Coq Require Import Reals.
From Verif Require Import Base Sky SpecSky.
Open Scope R_scope.

(** The unit vector towards a sky position. *)
Definition direction (ra dec : R) : vec :=
  (cos (drad dec) * cos (drad ra), cos (drad dec) * sin (drad ra), sin (drad dec)).

Definition vadd (a b : vec) : vec :=
  let '(a1, a2, a3) := a in let '(b1, b2, b3) := b in (a1 + b1, a2 + b2, a3 + b3).
Definition vscale (k : R) (a : vec) : vec := let '(a1, a2, a3) := a in (k * a1, k * a2, k * a3).

(** Sky position of the pixel position (row, col), counted from 0. *)
Definition sky_of (w : skywcs) (row col : R) : R * R := sw_image2sky w (col + sw_offset w) (row + sw_offset w).

Definition on_image (w : skywcs) (row col : R) : Prop :=
  0 <= row <= IZR (sw_nrow w) - 1 /\ 0 <= col <= IZR (sw_ncol w) - 1.

Definition corner (w : skywcs) (row col : R) : Prop :=
  (row = 0 \/ row = IZR (sw_nrow w) - 1) /\ (col = 0 \/ col = IZR (sw_ncol w) - 1).

(** The image is a parallelogram of equal pixels on some plane, seen from the centre
    of the sphere: a tangent-plane (TAN) WCS with any reference point, reference
    pixel and matrix. *)
Definition flat_image (w : skywcs) : Prop := exists p0 p1 p2 : vec, forall row col, on_image w row col ->
  exists k, 0 < k /\ direction (fst (sky_of w row col)) (snd (sky_of w row col)) = vscale k (vadd p0 (vadd (vscale row p1) (vscale col p2))).

(** Distance of two sky positions at most [a]. *)
Definition within (a : R) (s s0 : R * R) : Prop := cos a <= cos_dist (fst s) (snd s) (fst s0) (snd s0).
