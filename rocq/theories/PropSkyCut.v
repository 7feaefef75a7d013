(** Property theorems on objects that the sky cut must not lose: C118. *)
From Coq Require Import Reals.
From Verif Require Import Base Sky SpecSky SpecSkyCut.
From Verif Require SkyLemmas3 SkyLemmas4.
Open Scope R_scope.

(** An image of 1000 x 1000 pixels of one arc second whose rows are bent by 25 arc
    seconds: the grid of the cut has points in its first and last column only, and an
    object in the middle of the first row is lost although bounds_buffer_uv is the
    default of 16 arc seconds. *)
Theorem C118_distorted_refuted : exists w row col, on_image w row col /\
  (forall r c r' c', sky_of w r c = sky_of w r' c' -> r = r' /\ c = c') /\
  (forall r c, radec_to_uv (fst (sky_of w r c)) (snd (sky_of w r c)) (fst (sky_of w 500 500)) (snd (sky_of w 500 500)) =
     Some (c - 500, r - 500 + (c - 500) * (c - 500) / 10000)) /\
  rough_sky_cut 16 w (fst (sky_of w row col)) (snd (sky_of w row col)) = Ok false.
Proof. exact SkyLemmas4.bent_refutes. Qed.
Print Assumptions C118_distorted_refuted.

(** Every image with a tangent-plane WCS, whatever its reference point, pixel and
    matrix, no corner of which is more than 45 degrees from its centre, keeps all
    positions, with any buffer. *)
Theorem C118_tangent_plane_partial : forall buffer w row col, 0 <= buffer -> (1 <= sw_nrow w)%Z -> (1 <= sw_ncol w)%Z -> flat_image w ->
  (forall r c, corner w r c -> within (PI / 4) (sky_of w r c) (sky_of w (IZR (sw_nrow w) / 2) (IZR (sw_ncol w) / 2))) ->
  on_image w row col ->
  rough_sky_cut buffer w (fst (sky_of w row col)) (snd (sky_of w row col)) = Ok true.
Proof. exact SkyLemmas4.cut_flat. Qed.
Print Assumptions C118_tangent_plane_partial.

(** A distorted image keeps all positions if its tangent-plane coordinates are at
    most half the buffer away from an affine map. *)
Theorem C118_distortion_partial : forall buffer e w ra0 dec0 a b k a' b' k' row col, 2 * e <= buffer -> (1 <= sw_nrow w)%Z -> (1 <= sw_ncol w)%Z ->
  sky_of w (IZR (sw_nrow w) / 2) (IZR (sw_ncol w) / 2) = (ra0, dec0) ->
  (forall r c, on_image w r c -> exists u v,
     radec_to_uv (fst (sky_of w r c)) (snd (sky_of w r c)) ra0 dec0 = Some (u, v) /\
     Rabs (u - (a * r + b * c + k)) <= e /\ Rabs (v - (a' * r + b' * c + k')) <= e /\ Rabs v < 90 * 3600) ->
  on_image w row col ->
  rough_sky_cut buffer w (fst (sky_of w row col)) (snd (sky_of w row col)) = Ok true.
Proof. exact SkyLemmas4.cut_nearly_flat. Qed.
Print Assumptions C118_distortion_partial.

Example C118_example_flat : forall nrow ncol off, (1 <= nrow <= 10000)%Z -> (1 <= ncol <= 10000)%Z ->
  let w := SkyLemmas3.tan_wcs nrow ncol off in
  flat_image w /\ forall r c, corner w r c -> within (PI / 4) (sky_of w r c) (sky_of w (IZR (sw_nrow w) / 2) (IZR (sw_ncol w) / 2)).
Proof.
  intros nrow ncol off Hn Hm w. split; [apply SkyLemmas4.tan_wcs_flat|]. intros r c Hc. apply SkyLemmas4.tan_wcs_within; assumption.
Qed.

(** The bent image with a buffer of 26 arc seconds. *)
Example C118_example_bent : let w := SkyLemmas4.bent in
  sky_of w (IZR (sw_nrow w) / 2) (IZR (sw_ncol w) / 2) = (0, 0) /\
  (forall r c, on_image w r c -> exists u v,
     radec_to_uv (fst (sky_of w r c)) (snd (sky_of w r c)) 0 0 = Some (u, v) /\
     Rabs (u - (0 * r + 1 * c + - 500)) <= 13 /\ Rabs (v - (1 * r + 0 * c + (- 500 + 25 / 2))) <= 13 /\ Rabs v < 90 * 3600) /\
  rough_sky_cut 26 w (fst (sky_of w 0 500)) (snd (sky_of w 0 500)) = Ok true.
Proof. exact SkyLemmas4.bent_wide. Qed.
