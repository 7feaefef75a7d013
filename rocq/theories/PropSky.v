(** Property theorems on bounds, offsets and the tangent plane: C38 to C42. *)
From Coq Require Import Reals.
From Verif Require Import Base Img BoundsM MakerLayout Sky SpecBounds SpecSky.
From Verif Require BoundsLemmas SkyLemmas SkyLemmas2 SkyLemmas3.

(** * C38 *)
Open Scope Q_scope.
Theorem C38_contains_point : forall b r c, contains_point b r c = true <-> inside b r c.
Proof. exact BoundsLemmas.contains_point_iff. Qed.
Print Assumptions C38_contains_point.

Theorem C38_contains_points : forall b rc,
  Forall2 (fun p v => v = true <-> inside b (fst p) (snd p)) rc (contains_points b rc) /\
  contains_points b rc = map (fun p => contains_point b (fst p) (snd p)) rc.
Proof. exact BoundsLemmas.contains_points_iff. Qed.
Print Assumptions C38_contains_points.

Theorem C38_contains_bounds : forall a b, proper b ->
  (contains_bounds a b = true <-> forall r c, inside b r c -> inside a r c).
Proof. exact BoundsLemmas.contains_bounds_points. Qed.
Print Assumptions C38_contains_bounds.

Theorem C38_contains_bounds_transitive : forall a b c,
  contains_bounds a b = true -> contains_bounds b c = true -> contains_bounds a c = true.
Proof. exact BoundsLemmas.contains_bounds_trans. Qed.
Print Assumptions C38_contains_bounds_transitive.

Theorem C38_contained_points : forall a b r c,
  contains_bounds a b = true -> contains_point b r c = true -> contains_point a r c = true.
Proof. exact BoundsLemmas.contains_bounds_pt. Qed.
Print Assumptions C38_contained_points.

Theorem C38_expand_points : forall b rc, rc <> [] ->
  exists b', expand_points b rc = Ok b' /\
    smallest b' (fun x => contains_bounds x b = true /\ forall r c, In (r, c) rc -> inside x r c).
Proof. exact BoundsLemmas.expand_points_ok. Qed.
Print Assumptions C38_expand_points.

Theorem C38_expand_point : forall b r c, proper b ->
  smallest (expand_point b r c) (fun x => contains_bounds x b = true /\ inside x r c).
Proof. exact BoundsLemmas.expand_point_ok. Qed.
Print Assumptions C38_expand_point.

Theorem C38_intersects : forall a b,
  rowmin a < rowmax a -> colmin a < colmax a -> rowmin b < rowmax b -> colmin b < colmax b ->
  (intersects_bounds a b = true <-> exists r c, interior a r c /\ interior b r c).
Proof. exact BoundsLemmas.intersects_iff. Qed.
Print Assumptions C38_intersects.

Theorem C38_intersects_symmetric : forall a b, intersects_bounds a b = intersects_bounds b a.
Proof. exact BoundsLemmas.intersects_sym. Qed.
Print Assumptions C38_intersects_symmetric.

Example C38_example : let b := mkBounds 0 10 (-3) (7#2) in let b2 := mkBounds 10 11 0 1 in
  proper b /\ contains_point b 10 (7#2) = true /\ contains_point b 10 4 = false /\
  contains_points b [(0, 0); (11, 0)] = [true; false] /\ contains_bounds b (mkBounds 1 2 3 3) = true /\
  intersects_bounds b b2 = false /\ intersects_bounds b (mkBounds (-5) 50 0 1) = true /\
  expand_points b [(-1, 0); (12, -4)] = Ok (mkBounds (-1) 12 (-4) (7#2)) /\
  expand_point b 12 (-4) = mkBounds 0 12 (-4) (7#2).
Proof. repeat split; vm_compute; first [reflexivity|discriminate]. Qed.

(** * C39: false when the second bounds stick out on both sides *)
Theorem C39_expand_bounds_refuted : exists a b, proper a /\ proper b /\
  contains_bounds (expand_bounds a b) b = false.
Proof. exists (mkBounds 0 1 0 1), (mkBounds (-1) 2 0 1). repeat split; vm_compute; first [reflexivity|discriminate]. Qed.
Print Assumptions C39_expand_bounds_refuted.

Theorem C39_contains_old : forall a b, contains_bounds (expand_bounds a b) a = true.
Proof. exact BoundsLemmas.expand_bounds_old. Qed.
Print Assumptions C39_contains_old.

Theorem C39_contains_new_partial : forall a b, contains_bounds (expand_bounds a b) b = true <->
  ~ (rowmin b < rowmin a /\ rowmax a < rowmax b) /\ ~ (colmin b < colmin a /\ colmax a < colmax b).
Proof. exact BoundsLemmas.expand_bounds_iff. Qed.
Print Assumptions C39_contains_new_partial.

Example C39_example : expand_bounds (mkBounds 0 1 0 1) (mkBounds (-1) (1#2) (1#2) 2) = mkBounds (-1) 1 0 2 /\
  contains_bounds (mkBounds (-1) 1 0 2) (mkBounds (-1) (1#2) (1#2) 2) = true.
Proof. split; vm_compute; reflexivity. Qed.

(** * C40 *)
Theorem C40_offset_round_trip : forall row col offset,
  let p := make_wcs_position row col offset false in
  let q := make_wcs_position (zrow p) (zcol p) offset true in
  wcs_row p = row /\ wcs_col p = col /\
  (wcs_row q == wcs_row p /\ wcs_col q == wcs_col p /\ zrow q == zrow p /\ zcol q == zcol p).
Proof. exact BoundsLemmas.offset_round_trip. Qed.
Print Assumptions C40_offset_round_trip.

Theorem C40_inverse_round_trip : forall row col offset,
  let p := make_wcs_position row col offset true in
  let q := make_wcs_position (wcs_row p) (wcs_col p) offset false in
  zrow p = row /\ zcol p = col /\
  (wcs_row q == wcs_row p /\ wcs_col q == wcs_col p /\ zrow q == zrow p /\ zcol q == zcol p).
Proof. exact BoundsLemmas.offset_round_trip_inverse. Qed.
Print Assumptions C40_inverse_round_trip.

Theorem C40_difference_is_offset : forall row col offset inverse,
  let p := make_wcs_position row col offset inverse in
  wcs_row p - zrow p == offset /\ wcs_col p - zcol p == offset.
Proof. exact BoundsLemmas.offset_difference. Qed.
Print Assumptions C40_difference_is_offset.

Example C40_example : make_wcs_position (5#2) 3 1 false = mkWpos (5#2) 3 (3#2) 2.
Proof. reflexivity. Qed.

(** * C41 *)
Open Scope R_scope.
Theorem C41_gnomonic : forall ra dec ra0 dec0, cos_dist ra dec ra0 dec0 <> 0 ->
  radec_to_uv ra dec ra0 dec0 = Some (- xi ra dec ra0 dec0 * arcsec, eta ra dec ra0 dec0 * arcsec).
Proof. exact SkyLemmas.uv_eq. Qed.
Print Assumptions C41_gnomonic.

Theorem C41_undefined_at_90_degrees : forall ra dec ra0 dec0,
  radec_to_uv ra dec ra0 dec0 = None <-> cos_dist ra dec ra0 dec0 = 0.
Proof. exact SkyLemmas.uv_none. Qed.
Print Assumptions C41_undefined_at_90_degrees.

Theorem C41_centre : forall ra dec, radec_to_uv ra dec ra dec = Some (0, 0).
Proof. exact SkyLemmas.uv_centre. Qed.
Print Assumptions C41_centre.

Theorem C41_periodic : forall ra dec ra0 dec0,
  radec_to_uv (ra + 360) dec ra0 dec0 = radec_to_uv ra dec ra0 dec0 /\
  radec_to_uv ra dec (ra0 + 360) dec0 = radec_to_uv ra dec ra0 dec0.
Proof. exact SkyLemmas.uv_period. Qed.
Print Assumptions C41_periodic.

Theorem C41_norm : forall ra dec ra0 dec0 u v, radec_to_uv ra dec ra0 dec0 = Some (u, v) ->
  1 + (u / arcsec) * (u / arcsec) + (v / arcsec) * (v / arcsec)
    = 1 / (cos_dist ra dec ra0 dec0 * cos_dist ra dec ra0 dec0).
Proof. exact SkyLemmas.uv_norm. Qed.
Print Assumptions C41_norm.

Theorem C41_u_direction : forall ra dec ra0 dec0 u v, radec_to_uv ra dec ra0 dec0 = Some (u, v) ->
  0 < cos_dist ra dec ra0 dec0 -> -90 < dec < 90 -> 0 < ra0 - ra < 180 -> 0 < u.
Proof. exact SkyLemmas.uv_sign. Qed.
Print Assumptions C41_u_direction.

Theorem C41_v_on_the_meridian : forall ra dec dec0, cos (drad (dec - dec0)) <> 0 ->
  radec_to_uv ra dec ra dec0 = Some (0, tan (drad (dec - dec0)) * arcsec).
Proof. exact SkyLemmas.uv_meridian. Qed.
Print Assumptions C41_v_on_the_meridian.

Theorem C41_orthonormal : forall ra dec, let '(r, u, v) := radec_to_unitvecs_ruv ra dec in
  dot r r = 1 /\ dot u u = 1 /\ dot v v = 1 /\ dot r u = 0 /\ dot r v = 0 /\ dot u v = 0.
Proof. exact SkyLemmas.unitvecs_orthonormal. Qed.
Print Assumptions C41_orthonormal.

Example C41_example : forall x y, let '(ra, dec) := SkyLemmas3.tan_sky x y in
  radec_to_uv ra dec 0 0 = Some (- x * arcsec, y * arcsec) /\ 0 < cos_dist ra dec 0 0.
Proof. exact SkyLemmas3.tan_sky_uv. Qed.

(** * C42: the position opposite to the image is accepted *)
Theorem C42_hemisphere_refuted : exists buffer w ra dec ra0 dec0 bnds, 0 <= buffer /\
  rough_sky_bounds buffer w = Ok (bnds, (ra0, dec0)) /\
  rough_sky_cut buffer w ra dec = Ok true /\ cos_dist ra dec ra0 dec0 < 0.
Proof. exact SkyLemmas3.hemisphere_witness. Qed.
Print Assumptions C42_hemisphere_refuted.

Theorem C42_antipodes_always_together : forall buffer w ra dec,
  rough_sky_cut buffer w (ra + 180) (- dec) = rough_sky_cut buffer w ra dec.
Proof. exact SkyLemmas2.sky_cut_antipode. Qed.
Print Assumptions C42_antipodes_always_together.

(** What the cut decides: the tangent-plane coordinates lie in the bounds. *)
Theorem C42_cut_is_bounds_partial : forall buffer w ra dec bnds ra0 dec0,
  rough_sky_bounds buffer w = Ok (bnds, (ra0, dec0)) ->
  (rough_sky_cut buffer w ra dec = Ok true <->
   cos_dist ra dec ra0 dec0 <> 0 /\
   umin bnds <= - xi ra dec ra0 dec0 * arcsec <= umax bnds /\ vmin bnds <= eta ra dec ra0 dec0 * arcsec <= vmax bnds).
Proof. exact SkyLemmas2.sky_cut_bounds. Qed.
Print Assumptions C42_cut_is_bounds_partial.

(** For an image whose pixels map linearly to its tangent plane no position on the image is lost. *)
Theorem C42_nothing_on_the_image_is_cut : forall buffer w ra0 dec0 a b k a' b' k',
  0 <= buffer -> (1 <= sw_nrow w)%Z -> (1 <= sw_ncol w)%Z ->
  sw_image2sky w (IZR (sw_ncol w) / 2 + sw_offset w) (IZR (sw_nrow w) / 2 + sw_offset w) = (ra0, dec0) ->
  (forall row col, 0 <= row <= IZR (sw_nrow w) - 1 -> 0 <= col <= IZR (sw_ncol w) - 1 ->
     radec_to_uv (fst (sw_image2sky w (col + sw_offset w) (row + sw_offset w)))
                 (snd (sw_image2sky w (col + sw_offset w) (row + sw_offset w))) ra0 dec0
       = Some (a * row + b * col + k, a' * row + b' * col + k') /\
     - (PI / 2) < (a' * row + b' * col + k') / 3600 * (PI / 180) < PI / 2) ->
  forall row col ra dec, 0 <= row <= IZR (sw_nrow w) - 1 -> 0 <= col <= IZR (sw_ncol w) - 1 ->
    sw_image2sky w (col + sw_offset w) (row + sw_offset w) = (ra, dec) ->
    rough_sky_cut buffer w ra dec = Ok true.
Proof. exact SkyLemmas2.sky_cut_keeps. Qed.
Print Assumptions C42_nothing_on_the_image_is_cut.

Example C42_example : forall nrow ncol off, (1 <= nrow <= 10000)%Z ->
  sw_image2sky (SkyLemmas3.tan_wcs nrow ncol off) (IZR ncol / 2 + off) (IZR nrow / 2 + off) = (0, 0) /\
  forall row col, 0 <= row <= IZR nrow - 1 ->
     radec_to_uv (fst (sw_image2sky (SkyLemmas3.tan_wcs nrow ncol off) (col + off) (row + off)))
                 (snd (sw_image2sky (SkyLemmas3.tan_wcs nrow ncol off) (col + off) (row + off))) 0 0
       = Some (0 * row + 1 * col + - (IZR ncol / 2), 1 * row + 0 * col + - (IZR nrow / 2)) /\
     - (PI / 2) < (1 * row + 0 * col + - (IZR nrow / 2)) / 3600 * (PI / 180) < PI / 2.
Proof. exact SkyLemmas3.tan_wcs_affine. Qed.
