(** Specification for composite maps in double precision (C125). *)
From Coq Require Import Qabs.
From Verif Require Import Base Img Types Composite Typed SpecComposite CompositeFl.
Open Scope Z_scope.

(** Sizes: [B] bounds the distances in pixels, [M] the Jacobian of the cutout, [N] the
    inverse of the coadd's Jacobian; [delta] is the error of the computed inverse
    relative to [N]. *)
Record sizes : Type := mkSizes { z_B : Q; z_M : Q; z_N : Q; z_delta : Q }.
Definition sizes_ok (z : sizes) : Prop :=
  (1 <= z_B z)%Q /\ (1 <= z_M z)%Q /\ (1 <= z_N z)%Q /\ (0 <= z_delta z <= 1)%Q /\
  (z_B z * z_M z * z_N z <= 1073741824)%Q.
(** The error of a position in the coadd, in pixels: 2^-46 of the sizes and four times
    the error of the inverse. *)
Definition tolerance (z : sizes) : Q := (z_B z * z_M z * z_N z * ((1 # 70368744177664) + 4 * z_delta z))%Q.

(** [i] is, up to the error, the inverse of the Jacobian of [s]. *)
Definition near (N delta : Q) (i : fl) (x : Q) : Prop :=
  (Qabs x <= N)%Q /\ exists q, i = Fin q /\ (Qabs (q - x) <= delta * N)%Q.
Definition near_inverse (z : sizes) (s : slot) (i : fmat) : Prop :=
  let '(i00, i01, i10, i11) := i in
  exists a b c d,
    (a * s_dudrow s + b * s_dvdrow s == 1)%Q /\ (a * s_dudcol s + b * s_dvdcol s == 0)%Q /\
    (c * s_dudrow s + d * s_dvdrow s == 0)%Q /\ (c * s_dudcol s + d * s_dvdcol s == 1)%Q /\
    near (z_N z) (z_delta z) i00 a /\ near (z_N z) (z_delta z) i01 b /\
    near (z_N z) (z_delta z) i10 c /\ near (z_N z) (z_delta z) i11 d.

(** The sizes hold for the pixel (r, c) of the cutout [s] and the coadd cutout [s0]. *)
Definition within (z : sizes) (s0 s : slot) (r c : Z) : Prop :=
  (Qabs (inject_Z r - s_crow s) <= z_B z)%Q /\ (Qabs (inject_Z c - s_ccol s) <= z_B z)%Q /\
  Z.abs r <= 2 ^ 50 /\ Z.abs c <= 2 ^ 50 /\
  (Qabs (s_crow s0) <= z_B z)%Q /\ (Qabs (s_ccol s0) <= z_B z)%Q /\
  (Qabs (s_dudrow s) <= z_M z)%Q /\ (Qabs (s_dudcol s) <= z_M z)%Q /\
  (Qabs (s_dvdrow s) <= z_M z)%Q /\ (Qabs (s_dvdcol s) <= z_M z)%Q.

(** No position of a pixel of the box is within the error of the boundary of two coadd
    pixels. *)
Definition away (t x : Q) : Prop := forall k : Z, (t < Qabs (x - (inject_Z k + (1#2))))%Q.
Definition no_ties (z : sizes) (s0 s : slot) (box : Z) : Prop :=
  forall r c x y, 0 <= r < box -> 0 <= c < box -> same_sky s0 s r c x y ->
    away (tolerance z) x /\ away (tolerance z) y.
Definition box_within (z : sizes) (s0 s : slot) (box : Z) : Prop :=
  forall r c, 0 <= r < box -> 0 <= c < box -> within z s0 s r c.

(** The pixel [i'] of an axis of length [n] is within half a pixel and the error of the
    position [x], or at the end of the axis nearest to it. *)
Definition near_pixel (t x : Q) (n i' : Z) : Prop :=
  exists i, (Qabs (x - inject_Z i) <= (1#2) + t)%Q /\ clamped n i i'.

(** Jacobian of a slot, and the same Jacobian and centre. *)
Definition jac_of (s : slot) : mat := (s_dudrow s, s_dudcol s, s_dvdrow s, s_dvdcol s).
Definition same_frame (s0 s : slot) : Prop :=
  (s_dudrow s == s_dudrow s0)%Q /\ (s_dudcol s == s_dudcol s0)%Q /\ (s_dvdrow s == s_dvdrow s0)%Q /\
  (s_dvdcol s == s_dvdcol s0)%Q /\ (s_crow s == s_crow s0)%Q /\ (s_ccol s == s_ccol s0)%Q.

(** The exact inverse with every entry rounded: no algorithm does better. *)
Definition best_inverse (m : mat) : res fmat :=
  let* i := mat_inv m in
  let '(a, b, c, d) := i in Ok (fround true a, fround true b, fround true c, fround true d).

(** Example files: one object with two cutouts in slots of the given Jacobians and
    centres; the coadd seg map has the rows 2, 1, 1, 1 or the pixels 0 to 3. *)
Definition cx_slot (start : Z) (crow ccol : Q) (j : mat) : slot :=
  let '(a, b, c, d) := j in mkSlot 0 start 5 5 4 4 crow ccol a b c d DEFVAL DEFVAL DEFVAL qdef qdef DEFVAL.
Definition cx_file (box : Z) (s0 s : slot) (seg : list Z) : medsfile :=
  mkMeds [mkObj 1 1 box 0 0 0 0 0 0 0 0 2 [s0; s]] true PsfNone [mkInfo 7 1 0 1]
    [(TWeight, repeat 1%Q (Z.to_nat (2 * box * box))); (TSeg, map inject_Z seg)] None.
(** 0.168 arc seconds per pixel, as a double *)
Definition cx_scale : Q := 6052837899185947 # 36028797018963968.
Definition cx_jac : mat := (cx_scale, 0, 0, cx_scale)%Q.
Definition cx_seg : list Z := [2; 2; 2; 2; 1; 1; 1; 1; 1; 1; 1; 1; 1; 1; 1; 1] ++ repeat 0 16.
Definition cx_s0 : slot := cx_slot 0 2 2 cx_jac.
Definition cx_half : slot := cx_slot 16 (3#2) (3#2) cx_jac.
Definition cx_quarter : slot := cx_slot 16 (7#4) 2 cx_jac.
Definition cx_tie : medsfile := cx_file 4 cx_s0 cx_half cx_seg.
Definition cx_good : medsfile := cx_file 4 cx_s0 cx_quarter cx_seg.
Definition cx_sizes : sizes := mkSizes 4 1 8 (1 # 9007199254740992).
(** Almost singular: the rows (1, 1) and (1, 1 + 2^-52) *)
Definition cx_steep : mat := (1, 1, 1, 4503599627370497 # 4503599627370496)%Q.
Definition cx_narrow : medsfile := cx_file 2 (cx_slot 0 0 0 cx_steep) (cx_slot 4 0 0 cx_steep) [1; 2; 3; 4; 0; 0; 0; 0].

(** The numbers of a slot are doubles. *)
Definition is_double (q : Q) : Prop := exists q', fround true q = Fin q' /\ (q' == q)%Q.
Definition slot_doubles (s : slot) : Prop :=
  is_double (s_crow s) /\ is_double (s_ccol s) /\ is_double (s_dudrow s) /\ is_double (s_dudcol s) /\
  is_double (s_dvdrow s) /\ is_double (s_dvdcol s).
