(** Model of the tangent-plane coordinates of meds/util.py 342-382 and of the
    rough sky cut of meds/maker.py 1058-1128, over the real numbers.
    Definitions only. *)
From Coq Require Import Reals.
From Verif Require Import Base Img Outlier.
Open Scope R_scope.

Definition vec : Type := R * R * R.
Definition dot (a b : vec) : R :=
  let '(a1, a2, a3) := a in let '(b1, b2, b3) := b in a1 * b1 + a2 * b2 + a3 * b3.

(** meds/util.py 369-370 [radec_to_thetaphi] *)
Definition radec_to_thetaphi (ra dec : R) : R * R := ((90 - dec) / 180 * PI, -1 * ra / 180 * PI).

(** meds/util.py 373-382 [thetaphi_to_unitvecs_ruv] *)
Definition thetaphi_to_unitvecs_ruv (theta phi : R) : vec * vec * vec :=
  let sint := sin theta in
  let cost := cos theta in
  let sinp := sin phi in
  let cosp := cos phi in
  let rhat := (sint * cosp, sint * sinp, cost) in
  let phat := (-1 * sinp, cosp, 0) in
  let mthat := (-1 * (cost * cosp), -1 * (cost * sinp), -1 * (-1 * sint)) in
  (rhat, phat, mthat).

(** meds/util.py 364-366 [radec_to_unitvecs_ruv] *)
Definition radec_to_unitvecs_ruv (ra dec : R) : vec * vec * vec :=
  let '(theta, phi) := radec_to_thetaphi ra dec in thetaphi_to_unitvecs_ruv theta phi.

(** meds/util.py 357 *)
Definition arcsec_fac : R := 1 / PI * 180 * 60 * 60.

(** meds/util.py 352-361 [radec_to_uv]; [None]: division by zero, which in
    numpy gives inf or nan, outside of all bounds. *)
Definition radec_to_uv (ra dec ra_cen dec_cen : R) : option (R * R) :=
  let '(rhat_cen, uhat_cen, vhat_cen) := radec_to_unitvecs_ruv ra_cen dec_cen in
  let '(rhat, uhat, vhat) := radec_to_unitvecs_ruv ra dec in
  let cosang := dot rhat rhat_cen in
  if Req_EM_T cosang 0 then None
  else Some (dot rhat uhat_cen / cosang * arcsec_fac, dot rhat vhat_cen / cosang * arcsec_fac).

(** meds/bounds.py over the real numbers: here (u, v) take the places of (row, col). *)
Record rbounds : Type := mkRB { umin : R; umax : R; vmin : R; vmax : R }.
Definition rleb (a b : R) : bool := if Rle_dec a b then true else false.
Definition rb_contains (b : rbounds) (u v : R) : bool :=
  rleb u (umax b) && rleb (umin b) u && rleb v (vmax b) && rleb (vmin b) v.

(** The part of a WCS used by the cut. *)
Record skywcs : Type := mkSkywcs {
  sw_nrow : Z; sw_ncol : Z;                (* get_naxis() *)
  sw_offset : R;                           (* position_offset *)
  sw_image2sky : R -> R -> R * R           (* image2sky(col, row) -> ra, dec *)
}.

(** [numpy.arange(order + 1) * (n - 1.0) / order] *)
Definition grid (n order : Z) : list R := map (fun k => IZR k * (IZR n - 1) / IZR order) (zrange (order + 1)).

(** [ceil(float(a) / float(b))] *)
Definition ceil_div (a b : Z) : Z := (- (- a / b))%Z.

Fixpoint rmin_from (m : R) (l : list R) : R :=
  match l with [] => m | x :: l' => rmin_from (if rltb x m then x else m) l' end.
Fixpoint rmax_from (m : R) (l : list R) : R :=
  match l with [] => m | x :: l' => rmax_from (if rltb m x then x else m) l' end.
Definition rmin (l : list R) : res R := match l with [] => Err ValueError | x :: l' => Ok (rmin_from x l') end.
Definition rmax (l : list R) : res R := match l with [] => Err ValueError | x :: l' => Ok (rmax_from x l') end.

(** A zero-offset pixel position on the sky: meds/maker.py 1102-1103, with
    [make_wcs_positions(..., inverse=True)]. *)
Definition pix2sky (w : skywcs) (row col : R) : R * R :=
  sw_image2sky w (col + sw_offset w) (row + sw_offset w).

(** meds/maker.py 1082-1089 *)
Definition grid_orders (nrow ncol : Z) : Z * Z :=
  if (ncol <? nrow)%Z then (ceil_div nrow ncol, 4%Z) else (4%Z, ceil_div ncol nrow).

(** meds/maker.py 1091-1098: the points (row, col) of the grid. *)
Definition grid_points (nrow ncol : Z) : list (R * R) :=
  let '(order_row, order_col) := grid_orders nrow ncol in
  flat_map (fun c => map (fun r => (r, c)) (grid nrow order_row)) (grid ncol order_col).

(** meds/maker.py 1071-1128 [_get_rough_sky_bounds], [buffer] is
    bounds_buffer_uv.  A grid point 90 degrees from the centre (inf or nan in
    numpy) is a ValueError here. *)
Definition rough_sky_bounds (buffer : R) (w : skywcs) : res (rbounds * (R * R)) :=
  let nrow := sw_nrow w in
  let ncol := sw_ncol w in
  if (nrow =? 0)%Z || (ncol =? 0)%Z then Err ZeroDivisionError
  else
    let '(ra_ccd, dec_ccd) := pix2sky w (IZR nrow / 2) (IZR ncol / 2) in
    let* uv := mapM (fun p => let '(ra, dec) := pix2sky w (fst p) (snd p) in
                 match radec_to_uv ra dec ra_ccd dec_ccd with
                 | Some q => Ok q | None => Err ValueError end) (grid_points nrow ncol) in
    let us := map fst uv in
    let vs := map snd uv in
    let vrad := map (fun v => v / 3600 * (PI / 180)) vs in
    let* ufac := rmin (map cos vrad) in
    if Req_EM_T ufac 0 then Err ValueError
    else
      let ubuff := buffer / ufac in
      let vbuff := buffer in
      let* u0 := rmin us in
      let* u1 := rmax us in
      let* v0 := rmin vs in
      let* v1 := rmax vs in
      Ok (mkRB (u0 - ubuff) (u1 + ubuff) (v0 - vbuff) (v1 + vbuff), (ra_ccd, dec_ccd)).

(** meds/maker.py 1058-1069 [_do_rough_sky_cut], for one position. *)
Definition rough_sky_cut (buffer : R) (w : skywcs) (ra dec : R) : res bool :=
  let* bc := rough_sky_bounds buffer w in
  let '(bnds, (ra_ccd, dec_ccd)) := bc in
  Ok match radec_to_uv ra dec ra_ccd dec_ccd with
     | Some (u, v) => rb_contains bnds u v
     | None => false
     end.
