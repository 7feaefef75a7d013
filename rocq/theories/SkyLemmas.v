(** Proofs on the tangent plane and the sky cut. *)
From Coq Require Import Reals Lra Lia ZifyBool.
From Verif Require Import Base BaseLemmas Img Outlier OutlierLemmas Sky SpecSky.
Open Scope R_scope.

Lemma sin_theta dec : sin ((90 - dec) / 180 * PI) = cos (drad dec).
Proof. replace ((90 - dec) / 180 * PI) with (PI / 2 - drad dec) by (unfold drad; field). apply sin_shift. Qed.

Lemma cos_theta dec : cos ((90 - dec) / 180 * PI) = sin (drad dec).
Proof. replace ((90 - dec) / 180 * PI) with (PI / 2 - drad dec) by (unfold drad; field). apply cos_shift. Qed.

Lemma sin_phi ra : sin (-1 * ra / 180 * PI) = - sin (drad ra).
Proof. replace (-1 * ra / 180 * PI) with (- drad ra) by (unfold drad; field). apply sin_neg. Qed.

Lemma cos_phi ra : cos (-1 * ra / 180 * PI) = cos (drad ra).
Proof. replace (-1 * ra / 180 * PI) with (- drad ra) by (unfold drad; field). apply cos_neg. Qed.

Lemma drad_minus a b : drad (a - b) = drad a - drad b.
Proof. unfold drad. field. Qed.

Lemma sc x : sin x * sin x + cos x * cos x = 1.
Proof. pose proof (sin2_cos2 x) as H. unfold Rsqr in H. exact H. Qed.

Lemma arcsec_eq : arcsec_fac = arcsec.
Proof. unfold arcsec_fac, arcsec. field. apply PI_neq0. Qed.

Lemma uv_eq ra dec ra0 dec0 : cos_dist ra dec ra0 dec0 <> 0 ->
  radec_to_uv ra dec ra0 dec0 = Some (- xi ra dec ra0 dec0 * arcsec, eta ra dec ra0 dec0 * arcsec).
Proof.
  intros H. unfold radec_to_uv, radec_to_unitvecs_ruv, radec_to_thetaphi, thetaphi_to_unitvecs_ruv, dot.
  rewrite !sin_theta, !cos_theta, !sin_phi, !cos_phi, arcsec_eq.
  match goal with |- context [Req_EM_T ?a 0] => replace a with (cos_dist ra dec ra0 dec0)
    by (unfold cos_dist; rewrite drad_minus, cos_minus; ring) end.
  destruct (Req_EM_T _ 0) as [C|_]; [contradiction|]. f_equal. f_equal.
  - unfold xi. rewrite drad_minus, sin_minus. unfold Rdiv. ring.
  - unfold eta. rewrite drad_minus, cos_minus. f_equal. f_equal.
    replace (cos (drad dec0) * sin (drad dec) - sin (drad dec0) * cos (drad dec) * (cos (drad ra) * cos (drad ra0) + sin (drad ra) * sin (drad ra0)))
      with (cos (drad dec) * cos (drad ra) * (-1 * (sin (drad dec0) * cos (drad ra0))) +
            cos (drad dec) * - sin (drad ra) * (-1 * (sin (drad dec0) * - sin (drad ra0))) + sin (drad dec) * (-1 * (-1 * cos (drad dec0)))) by ring.
    reflexivity.
Qed.

Lemma uv_none ra dec ra0 dec0 : radec_to_uv ra dec ra0 dec0 = None <-> cos_dist ra dec ra0 dec0 = 0.
Proof.
  split.
  - intros H. destruct (Req_EM_T (cos_dist ra dec ra0 dec0) 0) as [E|E]; [exact E|]. rewrite uv_eq in H by exact E. discriminate.
  - intros H. unfold radec_to_uv, radec_to_unitvecs_ruv, radec_to_thetaphi, thetaphi_to_unitvecs_ruv, dot.
    rewrite !sin_theta, !cos_theta, !sin_phi, !cos_phi.
    match goal with |- context [Req_EM_T ?a 0] => replace a with (cos_dist ra dec ra0 dec0)
      by (unfold cos_dist; rewrite drad_minus, cos_minus; ring) end.
    destruct (Req_EM_T _ 0) as [_|C]; [reflexivity|contradiction].
Qed.

Lemma cos_dist_self ra dec : cos_dist ra dec ra dec = 1.
Proof. unfold cos_dist. replace (drad (ra - ra)) with 0 by (unfold drad; field). rewrite cos_0, Rmult_1_r. apply sc. Qed.

Lemma uv_centre ra dec : radec_to_uv ra dec ra dec = Some (0, 0).
Proof.
  rewrite uv_eq by (rewrite cos_dist_self; lra). unfold xi, eta. rewrite cos_dist_self.
  replace (drad (ra - ra)) with 0 by (unfold drad; field). rewrite sin_0, cos_0. f_equal. f_equal; field.
Qed.

Lemma drad_period x : drad (x + 360) = drad x + 2 * PI.
Proof. unfold drad. field. Qed.

Lemma trig_2pi x : sin (x + 2 * PI) = sin x /\ cos (x + 2 * PI) = cos x.
Proof. rewrite sin_plus, cos_plus, sin_2PI, cos_2PI. split; ring. Qed.

Lemma uv_period ra dec ra0 dec0 : radec_to_uv (ra + 360) dec ra0 dec0 = radec_to_uv ra dec ra0 dec0 /\
  radec_to_uv ra dec (ra0 + 360) dec0 = radec_to_uv ra dec ra0 dec0.
Proof.
  unfold radec_to_uv, radec_to_unitvecs_ruv, radec_to_thetaphi, thetaphi_to_unitvecs_ruv, dot.
  rewrite !sin_theta, !cos_theta, !sin_phi, !cos_phi, !drad_period.
  destruct (trig_2pi (drad ra)) as [-> ->]. destruct (trig_2pi (drad ra0)) as [-> ->]. split; reflexivity.
Qed.

Lemma uv_norm ra dec ra0 dec0 u v : radec_to_uv ra dec ra0 dec0 = Some (u, v) ->
  1 + (u / arcsec) * (u / arcsec) + (v / arcsec) * (v / arcsec) = 1 / (cos_dist ra dec ra0 dec0 * cos_dist ra dec ra0 dec0).
Proof.
  intros H. destruct (Req_EM_T (cos_dist ra dec ra0 dec0) 0) as [E|E]; [apply uv_none in E; congruence|].
  rewrite uv_eq in H by exact E. inversion H; subst.
  assert (HA : arcsec <> 0).
  { unfold arcsec. pose proof PI_RGT_0. apply Rgt_not_eq. apply Rmult_lt_0_compat; [|lra]. apply Rdiv_lt_0_compat; lra. }
  replace (- xi ra dec ra0 dec0 * arcsec / arcsec) with (- xi ra dec ra0 dec0) by (field; exact HA).
  replace (eta ra dec ra0 dec0 * arcsec / arcsec) with (eta ra dec ra0 dec0) by (field; exact HA).
  unfold xi, eta. set (k := cos_dist ra dec ra0 dec0) in *.
  assert (K : k * k + (cos (drad dec) * sin (drad (ra - ra0))) * (cos (drad dec) * sin (drad (ra - ra0)))
     + (cos (drad dec0) * sin (drad dec) - sin (drad dec0) * cos (drad dec) * cos (drad (ra - ra0))) *
       (cos (drad dec0) * sin (drad dec) - sin (drad dec0) * cos (drad dec) * cos (drad (ra - ra0))) = 1).
  { unfold k, cos_dist. pose proof (sc (drad dec)) as A. pose proof (sc (drad dec0)) as B. pose proof (sc (drad (ra - ra0))) as C.
    set (s := sin (drad dec)) in *. set (c := cos (drad dec)) in *. set (s0 := sin (drad dec0)) in *. set (c0 := cos (drad dec0)) in *.
    set (sd := sin (drad (ra - ra0))) in *. set (cd := cos (drad (ra - ra0))) in *.
    replace ((s * s0 + c * c0 * cd) * (s * s0 + c * c0 * cd) + c * sd * (c * sd) + (c0 * s - s0 * c * cd) * (c0 * s - s0 * c * cd))
      with ((s * s + c * c * (cd * cd)) * (s0 * s0 + c0 * c0) + c * c * (sd * sd)) by ring.
    rewrite B. replace ((s * s + c * c * (cd * cd)) * 1 + c * c * (sd * sd)) with (s * s + c * c * (sd * sd + cd * cd)) by ring.
    rewrite C. lra. }
  apply Rmult_eq_reg_l with (k * k); [|apply Rmult_integral_contrapositive; split; exact E].
  set (a := cos (drad dec) * sin (drad (ra - ra0))) in *.
  set (b := cos (drad dec0) * sin (drad dec) - sin (drad dec0) * cos (drad dec) * cos (drad (ra - ra0))) in *.
  replace (k * k * (1 / (k * k))) with 1 by (field; exact E).
  replace (k * k * (1 + - (a / k) * - (a / k) + b / k * (b / k))) with (k * k + a * a + b * b) by (field; exact E). exact K.
Qed.

Lemma unitvecs_orthonormal ra dec : let '(r, u, v) := radec_to_unitvecs_ruv ra dec in
  dot r r = 1 /\ dot u u = 1 /\ dot v v = 1 /\ dot r u = 0 /\ dot r v = 0 /\ dot u v = 0.
Proof.
  unfold radec_to_unitvecs_ruv, radec_to_thetaphi, thetaphi_to_unitvecs_ruv, dot.
  rewrite !sin_theta, !cos_theta, !sin_phi, !cos_phi.
  pose proof (sc (drad dec)) as A. pose proof (sc (drad ra)) as B.
  set (s := sin (drad dec)) in *. set (c := cos (drad dec)) in *. set (sr := sin (drad ra)) in *. set (cr := cos (drad ra)) in *.
  repeat split.
  - replace (c * cr * (c * cr) + c * - sr * (c * - sr) + s * s) with (c * c * (sr * sr + cr * cr) + s * s) by ring. rewrite B. lra.
  - replace (-1 * - sr * (-1 * - sr) + cr * cr + 0 * 0) with (sr * sr + cr * cr) by ring. exact B.
  - replace (-1 * (s * cr) * (-1 * (s * cr)) + -1 * (s * - sr) * (-1 * (s * - sr)) + -1 * (-1 * c) * (-1 * (-1 * c)))
      with (s * s * (sr * sr + cr * cr) + c * c) by ring. rewrite B. lra.
  - ring.
  - replace (c * cr * (-1 * (s * cr)) + c * - sr * (-1 * (s * - sr)) + s * (-1 * (-1 * c))) with (c * s * (1 - (sr * sr + cr * cr))) by ring.
    rewrite B. ring.
  - ring.
Qed.

Lemma uv_meridian ra dec dec0 : cos (drad (dec - dec0)) <> 0 ->
  radec_to_uv ra dec ra dec0 = Some (0, tan (drad (dec - dec0)) * arcsec).
Proof.
  intros H. assert (E : cos_dist ra dec ra dec0 = cos (drad (dec - dec0))).
  { unfold cos_dist. replace (drad (ra - ra)) with 0 by (unfold drad; field). rewrite cos_0, (drad_minus dec dec0), cos_minus. ring. }
  rewrite uv_eq by (rewrite E; exact H). unfold xi, eta. rewrite E. replace (drad (ra - ra)) with 0 by (unfold drad; field).
  rewrite sin_0, cos_0. f_equal. f_equal; [field; exact H|]. unfold tan. rewrite (drad_minus dec dec0), sin_minus.
  f_equal. f_equal. ring.
Qed.

Lemma arcsec_pos : 0 < arcsec.
Proof. unfold arcsec. pose proof PI_RGT_0. apply Rmult_lt_0_compat; [|lra]. apply Rdiv_lt_0_compat; lra. Qed.

Lemma uv_sign ra dec ra0 dec0 u v : radec_to_uv ra dec ra0 dec0 = Some (u, v) -> 0 < cos_dist ra dec ra0 dec0 ->
  -90 < dec < 90 -> 0 < ra0 - ra < 180 -> 0 < u.
Proof.
  intros H Hc Hd Hr. rewrite uv_eq in H by lra. inversion H; subst. apply Rmult_lt_0_compat; [|apply arcsec_pos].
  unfold xi. assert (HP := PI_RGT_0).
  assert (C : 0 < cos (drad dec)). { apply cos_gt_0; unfold drad; [|]. 
    - apply Rmult_lt_reg_r with (180 / PI); [apply Rdiv_lt_0_compat; lra|]. replace (- (PI / 2) * (180 / PI)) with (-90) by (field; lra).
      replace (dec * PI / 180 * (180 / PI)) with dec by (field; lra). lra.
    - apply Rmult_lt_reg_r with (180 / PI); [apply Rdiv_lt_0_compat; lra|]. replace (PI / 2 * (180 / PI)) with 90 by (field; lra).
      replace (dec * PI / 180 * (180 / PI)) with dec by (field; lra). lra. }
  assert (S : 0 < sin (drad (ra0 - ra))).
  { apply sin_gt_0; unfold drad.
    - apply Rmult_lt_0_compat; [|lra]. apply Rmult_lt_0_compat; lra.
    - apply Rmult_lt_reg_r with (180 / PI); [apply Rdiv_lt_0_compat; lra|]. replace (PI * (180 / PI)) with 180 by (field; lra).
      replace ((ra0 - ra) * PI / 180 * (180 / PI)) with (ra0 - ra) by (field; lra). lra. }
  replace (drad (ra - ra0)) with (- drad (ra0 - ra)) by (unfold drad; field). rewrite sin_neg.
  replace (- (cos (drad dec) * - sin (drad (ra0 - ra)) / cos_dist ra dec ra0 dec0))
    with (cos (drad dec) * sin (drad (ra0 - ra)) / cos_dist ra dec ra0 dec0) by (field; lra).
  apply Rdiv_lt_0_compat; [|exact Hc]. apply Rmult_lt_0_compat; assumption.
Qed.

(** * The antipode *)
Lemma uv_antipode ra dec ra0 dec0 : radec_to_uv (ra + 180) (- dec) ra0 dec0 = radec_to_uv ra dec ra0 dec0 /\
  cos_dist (ra + 180) (- dec) ra0 dec0 = - cos_dist ra dec ra0 dec0.
Proof.
  assert (T : sin (drad (ra + 180)) = - sin (drad ra) /\ cos (drad (ra + 180)) = - cos (drad ra)).
  { replace (drad (ra + 180)) with (drad ra + PI) by (unfold drad; field). split; [apply neg_sin|apply neg_cos]. }
  assert (D : sin (drad (- dec)) = - sin (drad dec) /\ cos (drad (- dec)) = cos (drad dec)).
  { replace (drad (- dec)) with (- drad dec) by (unfold drad; field). split; [apply sin_neg|apply cos_neg]. }
  destruct T as [T1 T2]. destruct D as [D1 D2].
  assert (E : cos_dist (ra + 180) (- dec) ra0 dec0 = - cos_dist ra dec ra0 dec0).
  { unfold cos_dist. rewrite !drad_minus, !cos_minus, T1, T2, D1, D2. ring. }
  split; [|exact E]. destruct (Req_EM_T (cos_dist ra dec ra0 dec0) 0) as [Z|Z].
  - rewrite (proj2 (uv_none ra dec ra0 dec0) Z). apply uv_none. rewrite E, Z. ring.
  - rewrite !uv_eq by (try rewrite E; lra). unfold xi, eta. rewrite E, !drad_minus, !cos_minus, !sin_minus, T1, T2, D1, D2.
    f_equal. f_equal; field; exact Z.
Qed.
