(** Specification vocabulary for composite images. *)
From Coq Require Import Qabs.
From Verif Require Import Base Img Types SpecFile.
Open Scope Z_scope.

(** [i] is the integer nearest to [x], the even one of two equally near. *)
Definition nearest_int (x : Q) (i : Z) : Prop :=
  (Qabs (x - inject_Z i) <= 1#2)%Q /\ ((Qabs (x - inject_Z i) == 1#2)%Q -> Z.even i = true).

(** Nearest index of an axis of length [n]. *)
Definition clamped (n i j : Z) : Prop :=
  (0 <= i < n -> j = i) /\ (i < 0 -> j = 0) /\ (n <= i -> j = n - 1).

(** The sky vector from the object to pixel position (x, y) of a cutout. *)
Definition sky_u (s : slot) (x y : Q) : Q := (s_dudrow s * (x - s_crow s) + s_dudcol s * (y - s_ccol s))%Q.
Definition sky_v (s : slot) (x y : Q) : Q := (s_dvdrow s * (x - s_crow s) + s_dvdcol s * (y - s_ccol s))%Q.

(** The position (x, y) of the coadd cutout [s0] is at the same sky offset as the
    pixel (r, c) of the cutout [s]. *)
Definition same_sky (s0 s : slot) (r c : Z) (x y : Q) : Prop :=
  (sky_u s0 x y == sky_u s (inject_Z r) (inject_Z c))%Q /\
  (sky_v s0 x y == sky_v s (inject_Z r) (inject_Z c))%Q.

Definition jac_det (s : slot) : Q := (s_dudrow s * s_dvdcol s - s_dudcol s * s_dvdrow s)%Q.

(** Value of the coadd seg map [seg] (of cutout [s0]) seen by pixel (r, c) of
    the cutout number [k] in slot [s]. *)
Definition seen (seg : img Q) (s0 s : slot) (k r c : Z) (v : Q) : Prop :=
  if k =? 0 then px seg r c = Some v
  else exists x y i j i' j', same_sky s0 s r c x y /\ nearest_int x i /\ nearest_int y j /\
         clamped (nr seg) i i' /\ clamped (nc seg) j j' /\ px seg i' j' = Some v.

(** Seg value at the position of the object in the coadd cutout. *)
Definition central_seg (seg : img Q) (s0 : slot) (v : Q) : Prop :=
  px seg (Qfloor (s_crow s0)) (Qfloor (s_ccol s0)) = Some v.

(** The seg value belongs to another object than [segid] (with restrict: is not [segid]). *)
Definition masked_seg (restrict : bool) (segid v : Q) : Prop :=
  ~ (v == segid)%Q /\ (restrict = true \/ ~ (v == 0)%Q).

(** What becomes of a pixel: [x] before, [y] after masking. *)
Definition composite_px (restrict : bool) (seg : img Q) (s0 s : slot) (k : Z) (segid : Q)
  (r c : Z) (x y : Q) : Prop :=
  (k <> 0 /\ (jac_det s0 == 0)%Q /\ y = 0%Q) \/
  ((k = 0 \/ ~ (jac_det s0 == 0)%Q) /\
   exists v, seen seg s0 s k r c v /\
     (masked_seg restrict segid v -> y = 0%Q) /\ (~ masked_seg restrict segid v -> y = x)).

(** Squared distance of a pixel from a centre. *)
Definition dist2 (cen : Q * Q) (r c : Z) : Q :=
  ((inject_Z r - fst cen) * (inject_Z r - fst cen) + (inject_Z c - snd cen) * (inject_Z c - snd cen))%Q.

(** (r, c) is a pixel of another object than number [num]. *)
Definition other_pixel (seg : img Q) (num : Z) (r c : Z) : Prop :=
  exists v, px seg r c = Some v /\ ~ (v == 0)%Q /\ ~ (v == inject_Z num)%Q.

(** (r, c) is closer to the centre than every pixel of another object. *)
Definition in_free_disc (seg : img Q) (num : Z) (cen : Q * Q) (r c : Z) : Prop :=
  forall r' c', other_pixel seg num r' c' -> (dist2 cen r c < dist2 cen r' c')%Q.

(** The centre used for circular masks. *)
Definition disc_centre (canonical : bool) (o : obj) (s : slot) : Q * Q :=
  if canonical then ((inject_Z (o_box o) - 1) / 2, (inject_Z (o_box o) - 1) / 2)%Q else (s_crow s, s_ccol s).
