(** Specification vocabulary for the tangent plane. *)
From Coq Require Import Reals.
Open Scope R_scope.

Definition drad (x : R) : R := x * PI / 180.

(** Cosine of the angular distance of two sky positions. *)
Definition cos_dist (ra dec ra0 dec0 : R) : R :=
  sin (drad dec) * sin (drad dec0) + cos (drad dec) * cos (drad dec0) * cos (drad (ra - ra0)).

(** Standard coordinates of the gnomonic projection, [xi] to the east, in radians. *)
Definition xi (ra dec ra0 dec0 : R) : R := cos (drad dec) * sin (drad (ra - ra0)) / cos_dist ra dec ra0 dec0.
Definition eta (ra dec ra0 dec0 : R) : R :=
  (cos (drad dec0) * sin (drad dec) - sin (drad dec0) * cos (drad dec) * cos (drad (ra - ra0))) / cos_dist ra dec ra0 dec0.

Definition arcsec : R := 180 / PI * 3600.
