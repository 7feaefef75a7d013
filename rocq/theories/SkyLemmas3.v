(** A tangent-plane WCS (pixels of one arc second), used as an example. *)
From Coq Require Import Reals Lra Lia ZifyBool.
From Verif Require Import Base BaseLemmas Img Outlier OutlierLemmas Sky SpecSky SkyLemmas SkyLemmas2.
Open Scope R_scope.

Definition tan_sky (x y : R) : R * R :=
  let ra := atan x in (ra * 180 / PI, atan (y * cos ra) * 180 / PI).

Definition tan_wcs (nrow ncol : Z) (off : R) : skywcs :=
  mkSkywcs nrow ncol off (fun col row =>
    tan_sky ((IZR ncol / 2 + off - col) / arcsec) ((row - (IZR nrow / 2 + off)) / arcsec)).

Lemma drad_deg x : drad (x * 180 / PI) = x.
Proof. unfold drad. field. apply PI_neq0. Qed.

Lemma drad_0 : drad 0 = 0.
Proof. unfold drad. field. Qed.

Lemma cos_atan_pos x : 0 < cos (atan x).
Proof. destruct (atan_bound x). apply cos_gt_0; lra. Qed.

Lemma tan_sky_uv x y : let '(ra, dec) := tan_sky x y in
  radec_to_uv ra dec 0 0 = Some (- x * arcsec, y * arcsec) /\ 0 < cos_dist ra dec 0 0.
Proof.
  unfold tan_sky. set (ra := atan x). set (dec := atan (y * cos ra)).
  assert (C1 : 0 < cos ra) by apply cos_atan_pos. assert (C2 : 0 < cos dec) by apply cos_atan_pos.
  assert (T1 : sin ra = x * cos ra).
  { pose proof (tan_atan x) as H. fold ra in H. unfold tan in H. rewrite <- H. field. lra. }
  assert (T2 : sin dec = y * cos ra * cos dec).
  { pose proof (tan_atan (y * cos ra)) as H. fold dec in H. unfold tan in H. rewrite <- H. field. lra. }
  assert (D : cos_dist (ra * 180 / PI) (dec * 180 / PI) 0 0 = cos dec * cos ra).
  { unfold cos_dist. rewrite drad_minus, !drad_deg, drad_0, sin_0, cos_0. replace (ra - 0) with ra by ring. ring. }
  assert (P : 0 < cos dec * cos ra) by (apply Rmult_lt_0_compat; assumption).
  split; [|rewrite D; exact P]. rewrite uv_eq by (rewrite D; lra). unfold xi, eta. rewrite D, drad_minus, !drad_deg, drad_0, sin_0, cos_0.
  replace (ra - 0) with ra by ring. rewrite T1, T2. f_equal. f_equal; f_equal; field; lra.
Qed.

Lemma tan_sky_0 : tan_sky 0 0 = (0, 0).
Proof. unfold tan_sky. cbv zeta. rewrite !atan_0, !Rmult_0_l, atan_0. unfold Rdiv. rewrite !Rmult_0_l. reflexivity. Qed.

Lemma tan_wcs_affine nrow ncol off : (1 <= nrow <= 10000)%Z ->
  sw_image2sky (tan_wcs nrow ncol off) (IZR ncol / 2 + off) (IZR nrow / 2 + off) = (0, 0) /\
  forall row col, 0 <= row <= IZR nrow - 1 ->
     radec_to_uv (fst (sw_image2sky (tan_wcs nrow ncol off) (col + off) (row + off)))
                 (snd (sw_image2sky (tan_wcs nrow ncol off) (col + off) (row + off))) 0 0
       = Some (0 * row + 1 * col + - (IZR ncol / 2), 1 * row + 0 * col + - (IZR nrow / 2)) /\
     - (PI / 2) < (1 * row + 0 * col + - (IZR nrow / 2)) / 3600 * (PI / 180) < PI / 2.
Proof.
  intros Hn. pose proof arcsec_pos as HA. split.
  - cbn [tan_wcs sw_image2sky]. replace ((IZR ncol / 2 + off - (IZR ncol / 2 + off)) / arcsec) with 0 by (field; lra).
    replace ((IZR nrow / 2 + off - (IZR nrow / 2 + off)) / arcsec) with 0 by (field; lra). apply tan_sky_0.
  - intros row col Hr. split.
    + cbn [tan_wcs sw_image2sky].
      pose proof (tan_sky_uv ((IZR ncol / 2 + off - (col + off)) / arcsec) ((row + off - (IZR nrow / 2 + off)) / arcsec)) as H.
      destruct (tan_sky _ _) as [ra dec]. destruct H as (H & _). cbn [fst snd]. rewrite H. f_equal. f_equal; field; lra.
    + assert (N1 : 1 <= IZR nrow) by (apply IZR_le; lia). assert (N2 : IZR nrow <= 10000) by (apply IZR_le; lia).
      pose proof PI_RGT_0 as HP. split.
      * apply Rmult_lt_reg_r with (180 * 3600 / PI); [apply Rdiv_lt_0_compat; lra|].
        replace (- (PI / 2) * (180 * 3600 / PI)) with (-324000) by (field; lra).
        replace ((1 * row + 0 * col + - (IZR nrow / 2)) / 3600 * (PI / 180) * (180 * 3600 / PI)) with (row - IZR nrow / 2) by (field; lra). lra.
      * apply Rmult_lt_reg_r with (180 * 3600 / PI); [apply Rdiv_lt_0_compat; lra|].
        replace (PI / 2 * (180 * 3600 / PI)) with 324000 by (field; lra).
        replace ((1 * row + 0 * col + - (IZR nrow / 2)) / 3600 * (PI / 180) * (180 * 3600 / PI)) with (row - IZR nrow / 2) by (field; lra). lra.
Qed.

Lemma tan_wcs_keeps buffer nrow ncol off row col ra dec : 0 <= buffer -> (1 <= nrow <= 10000)%Z -> (1 <= ncol)%Z ->
  0 <= row <= IZR nrow - 1 -> 0 <= col <= IZR ncol - 1 ->
  sw_image2sky (tan_wcs nrow ncol off) (col + off) (row + off) = (ra, dec) ->
  rough_sky_cut buffer (tan_wcs nrow ncol off) ra dec = Ok true.
Proof.
  intros HB Hn Hc Hr Hcc Hs. destruct (tan_wcs_affine nrow ncol off Hn) as (A1 & A2).
  apply (sky_cut_keeps buffer (tan_wcs nrow ncol off) 0 0 0 1 (- (IZR ncol / 2)) 1 0 (- (IZR nrow / 2))) with (row := row) (col := col);
    cbn [tan_wcs sw_nrow sw_ncol sw_offset]; try assumption; try lia.
  intros r c R1 _. apply A2. exact R1.
Qed.

(** The position opposite to the centre passes the cut. *)
Lemma tan_wcs_antipode buffer nrow ncol off : 0 <= buffer -> (2 <= nrow <= 10000)%Z -> (2 <= ncol)%Z ->
  rough_sky_cut buffer (tan_wcs nrow ncol off) 180 0 = Ok true /\
  rough_sky_bounds buffer (tan_wcs nrow ncol off) <> Err ValueError /\
  cos_dist 180 0 0 0 = -1.
Proof.
  intros HB Hn Hc. assert (C : rough_sky_cut buffer (tan_wcs nrow ncol off) 0 0 = Ok true).
  { assert (N : 2 <= IZR nrow) by (apply IZR_le; lia). assert (M : 2 <= IZR ncol) by (apply IZR_le; lia).
    apply tan_wcs_keeps with (row := IZR nrow / 2) (col := IZR ncol / 2); try assumption; try lia; try lra.
    apply (tan_wcs_affine nrow ncol off). lia. }
  split.
  - pose proof (sky_cut_antipode buffer (tan_wcs nrow ncol off) 0 0) as A. replace (0 + 180) with 180 in A by ring.
    replace (- 0) with 0 in A by ring. rewrite A. exact C.
  - split.
    + intros E. unfold rough_sky_cut in C. rewrite E in C. discriminate.
    + destruct (uv_antipode 0 0 0 0) as (_ & E). replace (0 + 180) with 180 in E by ring. replace (- 0) with 0 in E by ring.
      rewrite E, cos_dist_self. ring.
Qed.

Lemma hemisphere_witness : exists buffer w ra dec ra0 dec0 bnds, 0 <= buffer /\
  rough_sky_bounds buffer w = Ok (bnds, (ra0, dec0)) /\
  rough_sky_cut buffer w ra dec = Ok true /\ cos_dist ra dec ra0 dec0 < 0.
Proof.
  destruct (tan_wcs_antipode 16 100 200 1) as (H1 & _ & H2); [lra|lia|lia|].
  destruct (rough_sky_bounds 16 (tan_wcs 100 200 1)) as [[bnds [ra0 dec0]]|e] eqn:E.
  - exists 16, (tan_wcs 100 200 1), 180, 0, ra0, dec0, bnds. split; [lra|]. split; [exact E|]. split; [exact H1|].
    assert (C : (ra0, dec0) = (0, 0)).
    { rewrite <- (proj1 (tan_wcs_affine 100 200 1 ltac:(lia))). unfold rough_sky_bounds in E.
      change ((sw_nrow (tan_wcs 100 200 1) =? 0)%Z || (sw_ncol (tan_wcs 100 200 1) =? 0)%Z) with false in E. cbv iota in E.
      unfold pix2sky at 1 in E. cbn [sw_nrow sw_ncol sw_offset tan_wcs] in E.
      change (mkSkywcs 100 200 1 _) with (tan_wcs 100 200 1) in E.
      destruct (sw_image2sky (tan_wcs 100 200 1) (200 / 2 + 1) (100 / 2 + 1)) as [x y].
      destruct (mapM _ _) in E; cbn [bind] in E; [|discriminate]. destruct (rmin _) in E; cbn [bind] in E; [|discriminate].
      destruct (Req_EM_T _ 0) in E; [discriminate|]. destruct (rmin _) in E; cbn [bind] in E; [|discriminate].
      destruct (rmax _) in E; cbn [bind] in E; [|discriminate]. destruct (rmin _) in E; cbn [bind] in E; [|discriminate].
      destruct (rmax _) in E; cbn [bind] in E; [|discriminate]. inversion E. reflexivity. }
    inversion C; subst. rewrite H2. lra.
  - unfold rough_sky_cut in H1. rewrite E in H1. discriminate.
Qed.
