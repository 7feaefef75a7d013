(** The sky cut: flat and distorted images. *)
From Coq Require Import Reals Lra Lia ZifyBool.
From Verif Require Import Base BaseLemmas Img Outlier OutlierLemmas OutlierLemmas3 Sky SpecSky SpecSkyCut SkyLemmas SkyLemmas2 SkyLemmas3.
Open Scope R_scope.

(** Tangent-plane coordinates by vectors. *)
Definition east (ra0 : R) : vec := (- sin (drad ra0), cos (drad ra0), 0).
Definition north (ra0 dec0 : R) : vec := (- sin (drad dec0) * cos (drad ra0), - sin (drad dec0) * sin (drad ra0), cos (drad dec0)).

Lemma dist_dot ra dec ra0 dec0 : cos_dist ra dec ra0 dec0 = dot (direction ra dec) (direction ra0 dec0).
Proof. unfold cos_dist, dot, direction. rewrite drad_minus, cos_minus. ring. Qed.
Lemma xi_dot ra dec ra0 dec0 : xi ra dec ra0 dec0 = dot (direction ra dec) (east ra0) / dot (direction ra dec) (direction ra0 dec0).
Proof. unfold xi. rewrite dist_dot. f_equal. unfold dot, direction, east. rewrite drad_minus, sin_minus. ring. Qed.
Lemma eta_dot ra dec ra0 dec0 : eta ra dec ra0 dec0 = dot (direction ra dec) (north ra0 dec0) / dot (direction ra dec) (direction ra0 dec0).
Proof. unfold eta. rewrite dist_dot. f_equal. unfold dot, direction, north. rewrite drad_minus, cos_minus. ring. Qed.

Lemma dot_scale k a b : dot (vscale k a) b = k * dot a b.
Proof. destruct a as [[]], b as [[]]. unfold dot, vscale. ring. Qed.
Lemma dot_add a a' b : dot (vadd a a') b = dot a b + dot a' b.
Proof. destruct a as [[]], a' as [[]], b as [[]]. unfold dot, vadd. ring. Qed.

(** What keeps a position. *)
Lemma cut_keeps buffer w ra0 dec0 (fu fv : R * R -> R) u v ra dec :
  0 <= buffer -> (1 <= sw_nrow w)%Z -> (1 <= sw_ncol w)%Z ->
  sky_of w (IZR (sw_nrow w) / 2) (IZR (sw_ncol w) / 2) = (ra0, dec0) ->
  (forall p, on_image w (fst p) (snd p) ->
     radec_to_uv (fst (sky_of w (fst p) (snd p))) (snd (sky_of w (fst p) (snd p))) ra0 dec0 = Some (fu p, fv p) /\
     0 < cos (fv p / 3600 * (PI / 180))) ->
  radec_to_uv ra dec ra0 dec0 = Some (u, v) ->
  (exists p, corner w (fst p) (snd p) /\ fu p - buffer <= u) -> (exists p, corner w (fst p) (snd p) /\ u <= fu p + buffer) ->
  (exists p, corner w (fst p) (snd p) /\ fv p - buffer <= v) -> (exists p, corner w (fst p) (snd p) /\ v <= fv p + buffer) ->
  rough_sky_cut buffer w ra dec = Ok true.
Proof.
  intros HB H1 H2 Hcen Haff HU A1 A2 A3 A4.
  destruct (grid_corners (sw_nrow w) (sw_ncol w) H1 H2) as (G1 & G2).
  set (pts := grid_points (sw_nrow w) (sw_ncol w)) in *.
  assert (HM : mapM (fun p => let '(ra, dec) := pix2sky w (fst p) (snd p) in
                 match radec_to_uv ra dec ra0 dec0 with
                 | Some q => Ok q | None => Err ValueError end) pts = Ok (map (fun p => (fu p, fv p)) pts)).
  { apply mapM_map_ok. intros p Hp. destruct (G2 p Hp) as (P1 & P2). destruct (Haff p (conj P1 P2)) as (P3 & _). unfold pix2sky. unfold sky_of in P3.
    destruct (sw_image2sky w (snd p + sw_offset w) (fst p + sw_offset w)) as [x y] eqn:E. cbn [fst snd] in P3. rewrite P3. reflexivity. }
  assert (I0 : In (0, 0) pts) by (apply G1; left; reflexivity).
  unfold rough_sky_cut, rough_sky_bounds.
  replace ((sw_nrow w =? 0)%Z || (sw_ncol w =? 0)%Z) with false by lia.
  unfold pix2sky at 1. unfold sky_of in Hcen. rewrite Hcen. fold pts. rewrite HM. cbn [bind]. rewrite !map_map. cbn [fst snd].
  destruct (rmin_ne (fun x => cos (fv x / 3600 * (PI / 180))) pts (0, 0) I0) as (ufac & EF). rewrite EF. cbn [bind].
  destruct (rmin_spec _ _ EF) as (F1 & _). apply in_map_iff in F1. destruct F1 as (p & <- & Hp).
  assert (UF : 0 < cos (fv p / 3600 * (PI / 180))) by (destruct (G2 p Hp) as (P1 & P2); apply (Haff p (conj P1 P2))).
  destruct (Req_EM_T _ 0) as [C|_]; [lra|].
  destruct (rmin_ne fu pts (0, 0) I0) as (u0 & E1). destruct (rmax_ne fu pts (0, 0) I0) as (u1 & E2).
  destruct (rmin_ne fv pts (0, 0) I0) as (v0 & E3). destruct (rmax_ne fv pts (0, 0) I0) as (v1 & E4).
  change (map (fun x => fu x) pts) with (map fu pts). change (map (fun x => fv x) pts) with (map fv pts).
  rewrite E1, E2, E3, E4. cbn [bind]. rewrite HU.
  f_equal. unfold rb_contains. cbn [umin umax vmin vmax].
  set (cf := cos (fv p / 3600 * (PI / 180))) in *. set (ub := buffer / cf).
  assert (UB : buffer <= ub).
  { unfold ub. pose proof (COS_bound (fv p / 3600 * (PI / 180))) as (_ & CB). fold cf in CB. apply Rmult_le_reg_r with cf; [exact UF|].
    replace (buffer / cf * cf) with buffer by (field; lra). rewrite <- (Rmult_1_r buffer) at 2. apply Rmult_le_compat_l; lra. }
  apply rmin_spec in E1. apply rmax_spec in E2. apply rmin_spec in E3. apply rmax_spec in E4.
  assert (CI : forall q, corner w (fst q) (snd q) -> In q pts) by (intros [r c] [Q1 Q2]; apply G1; assumption).
  destruct A1 as (q1 & C1 & A1), A2 as (q2 & C2 & A2), A3 as (q3 & C3 & A3), A4 as (q4 & C4 & A4).
  pose proof (proj2 E1 _ (in_map fu _ _ (CI _ C1))). pose proof (proj2 E2 _ (in_map fu _ _ (CI _ C2))).
  pose proof (proj2 E3 _ (in_map fv _ _ (CI _ C3))). pose proof (proj2 E4 _ (in_map fv _ _ (CI _ C4))).
  rewrite !andb_true_iff, !rleb_true. repeat split; lra.
Qed.

(** Quotients of affine functions on a rectangle lie between their values at corners. *)
Lemma quotient_corner (w : skywcs) a b k a' b' k' r c : on_image w r c ->
  let n := fun r c => a * r + b * c + k in let d := fun r c => a' * r + b' * c + k' in
  (forall r c, on_image w r c -> 0 < d r c) ->
  exists r' c', corner w r' c' /\ n r' c' / d r' c' <= n r c / d r c.
Proof.
  intros Ho n d Hd. set (q := n r c / d r c). pose proof (Hd r c Ho) as D.
  destruct Ho as (Hr & Hc).
  destruct (affine_corner (a - q * a') (b - q * b') (k - q * k') _ _ r c Hr Hc) as (r' & c' & Hr' & Hc' & L).
  exists r', c'. split; [split; assumption|].
  assert (O' : on_image w r' c') by (split; [destruct Hr' as [->| ->]|destruct Hc' as [->| ->]]; lra).
  pose proof (Hd r' c' O') as D'.
  assert (Z : n r c - q * d r c = 0) by (unfold q; field; lra).
  apply Rmult_le_reg_r with (d r' c'); [exact D'|]. replace (n r' c' / d r' c' * d r' c') with (n r' c') by (field; lra).
  unfold n, d in *. lra.
Qed.

Lemma cos_quarter : 0 < cos (PI / 4) /\ cos (PI / 4) * cos (PI / 4) = 1 / 2.
Proof.
  split; [apply cos_gt_0; pose proof PI_RGT_0; lra|]. pose proof (sc (PI / 4)) as H. rewrite sin_cos_PI4 in H. lra.
Qed.

Lemma corner_on w r c : (1 <= sw_nrow w)%Z -> (1 <= sw_ncol w)%Z -> corner w r c -> on_image w r c.
Proof.
  intros H1 H2 [Hr Hc]. apply IZR_le in H1. apply IZR_le in H2. split; [destruct Hr as [->| ->]|destruct Hc as [->| ->]]; lra.
Qed.

Lemma cut_flat buffer w row col : 0 <= buffer -> (1 <= sw_nrow w)%Z -> (1 <= sw_ncol w)%Z -> flat_image w ->
  (forall r c, corner w r c -> within (PI / 4) (sky_of w r c) (sky_of w (IZR (sw_nrow w) / 2) (IZR (sw_ncol w) / 2))) ->
  on_image w row col ->
  rough_sky_cut buffer w (fst (sky_of w row col)) (snd (sky_of w row col)) = Ok true.
Proof.
  intros HB H1 H2 (p0 & p1 & p2 & HF) HN Ho.
  destruct (sky_of w (IZR (sw_nrow w) / 2) (IZR (sw_ncol w) / 2)) as [ra0 dec0] eqn:Ec. unfold within in HN. cbn [fst snd] in HN.
  set (C := direction ra0 dec0). set (E := east ra0). set (N := north ra0 dec0).
  set (lin := fun e r c => dot p1 e * r + dot p2 e * c + dot p0 e).
  assert (LD : forall e r c k, dot (vscale k (vadd p0 (vadd (vscale r p1) (vscale c p2)))) e = k * lin e r c).
  { intros e r c k. unfold lin. rewrite dot_scale, !dot_add, !dot_scale. ring. }
  destruct cos_quarter as (Q0 & Q1).
  (* the denominator is positive *)
  assert (DC : forall r c, corner w r c -> 0 < lin C r c).
  { intros r c Hc. specialize (HN r c Hc). destruct (HF r c (corner_on w r c H1 H2 Hc)) as (k & Hk & Hd). rewrite dist_dot, Hd, LD in HN. fold C in HN.
    assert (P : 0 < k * lin C r c) by (fold C; lra). apply Rmult_lt_reg_l with k; [exact Hk|]. rewrite Rmult_0_r. exact P. }
  assert (DP : forall r c, on_image w r c -> 0 < lin C r c).
  { intros r c (Hr & Hc). destruct (affine_corner (dot p1 C) (dot p2 C) (dot p0 C) _ _ r c Hr Hc) as (r' & c' & Hr' & Hc' & L).
    pose proof (DC r' c' (conj Hr' Hc')) as D. unfold lin in *. lra. }
  (* the coordinates *)
  set (qu := fun p : R * R => lin E (fst p) (snd p) / lin C (fst p) (snd p)). set (qv := fun p : R * R => lin N (fst p) (snd p) / lin C (fst p) (snd p)).
  assert (XE : forall p, on_image w (fst p) (snd p) ->
    let s := sky_of w (fst p) (snd p) in xi (fst s) (snd s) ra0 dec0 = qu p /\ eta (fst s) (snd s) ra0 dec0 = qv p /\ cos_dist (fst s) (snd s) ra0 dec0 <> 0).
  { intros p Hp s. destruct (HF _ _ Hp) as (k & Hk & Hd). fold s in Hd. pose proof (DP _ _ Hp) as D.
    rewrite xi_dot, eta_dot, dist_dot, Hd, !LD. fold C E N. unfold qu, qv. split; [|split]; [field; split; lra|field; split; lra|].
    apply Rgt_not_eq. apply Rmult_lt_0_compat; assumption. }
  pose proof arcsec_pos as HA.
  (* at the corners the coordinates are at most 1 *)
  assert (VC : forall p, corner w (fst p) (snd p) -> -1 <= qv p <= 1).
  { intros p Hp. pose proof (corner_on w _ _ H1 H2 Hp) as Hp'. destruct (XE p Hp') as (X1 & X2 & X3). cbv zeta in *. pose proof (HN _ _ Hp) as Hn.
    set (s := sky_of w (fst p) (snd p)) in *.
    pose proof (uv_norm (fst s) (snd s) ra0 dec0 _ _ (uv_eq _ _ _ _ X3)) as Hu. rewrite X1, X2 in Hu.
    replace (- qu p * arcsec / arcsec) with (- qu p) in Hu by (field; lra). replace (qv p * arcsec / arcsec) with (qv p) in Hu by (field; lra).
    set (cd := cos_dist (fst s) (snd s) ra0 dec0) in *.
    assert (HC : 1 / 2 <= cd * cd) by (rewrite <- Q1; apply Rmult_le_compat; lra).
    assert (HI : 1 / (cd * cd) <= 2).
    { apply Rmult_le_reg_r with (cd * cd); [lra|]. replace (1 / (cd * cd) * (cd * cd)) with 1 by (field; assumption). lra. }
    pose proof (Rle_0_sqr (- qu p)) as S1. unfold Rsqr in S1. assert (S2 : qv p * qv p <= 1) by lra. clear - S2.
    split; apply Rnot_lt_le; intros L.
    - assert (1 < qv p * qv p); [|lra]. replace (qv p * qv p) with ((- qv p) * (- qv p)) by ring. rewrite <- (Rmult_1_r 1). apply Rmult_le_0_lt_compat; lra.
    - assert (1 < qv p * qv p); [|lra]. rewrite <- (Rmult_1_r 1). apply Rmult_le_0_lt_compat; lra. }
  assert (BT : forall e p, on_image w (fst p) (snd p) ->
    (exists q, corner w (fst q) (snd q) /\ lin e (fst q) (snd q) / lin C (fst q) (snd q) <= lin e (fst p) (snd p) / lin C (fst p) (snd p)) /\
    (exists q, corner w (fst q) (snd q) /\ lin e (fst p) (snd p) / lin C (fst p) (snd p) <= lin e (fst q) (snd q) / lin C (fst q) (snd q))).
  { intros e p Hp. split.
    - destruct (quotient_corner w (dot p1 e) (dot p2 e) (dot p0 e) (dot p1 C) (dot p2 C) (dot p0 C) _ _ Hp DP) as (r' & c' & Hc & L).
      exists (r', c'). split; [exact Hc|exact L].
    - destruct (quotient_corner w (- dot p1 e) (- dot p2 e) (- dot p0 e) (dot p1 C) (dot p2 C) (dot p0 C) _ _ Hp DP) as (r' & c' & Hc & L).
      exists (r', c'). split; [exact Hc|]. cbn [fst snd]. cbv beta in L. fold (lin C r' c') in L. fold (lin C (fst p) (snd p)) in L.
      replace (- dot p1 e * r' + - dot p2 e * c' + - dot p0 e) with (- lin e r' c') in L by (unfold lin; ring).
      replace (- dot p1 e * fst p + - dot p2 e * snd p + - dot p0 e) with (- lin e (fst p) (snd p)) in L by (unfold lin; ring).
      unfold Rdiv in *. rewrite !Ropp_mult_distr_l_reverse in L. lra. }
  assert (VI : forall p, on_image w (fst p) (snd p) -> -1 <= qv p <= 1).
  { intros p Hp. destruct (BT N p Hp) as ((q & Hq & L) & (q' & Hq' & L')). pose proof (VC q Hq). pose proof (VC q' Hq'). unfold qv in *. lra. }
  destruct (XE (row, col) Ho) as (X1 & X2 & X3). cbn [fst snd] in X1, X2, X3.
  apply (cut_keeps buffer w ra0 dec0 (fun p => - qu p * arcsec) (fun p => qv p * arcsec) (- qu (row, col) * arcsec) (qv (row, col) * arcsec)).
  - exact HB.
  - exact H1.
  - exact H2.
  - exact Ec.
  - intros p Hp. destruct (XE p Hp) as (Y1 & Y2 & Y3). cbv zeta in *. split; [rewrite uv_eq by exact Y3; rewrite Y1, Y2; reflexivity|].
    destruct (VI p Hp) as (V1 & V2). replace (qv p * arcsec / 3600 * (PI / 180)) with (qv p) by (unfold arcsec; field; apply PI_neq0).
    pose proof PI2_1. pose proof PI2_RGT_0. unfold PI2 in *. apply cos_gt_0; lra.
  - rewrite uv_eq by exact X3. rewrite X1, X2. reflexivity.
  - destruct (BT E (row, col) Ho) as (_ & (q & Hq & L)). exists q. split; [exact Hq|]. fold (qu q) (qu (row, col)) in L.
    apply (Rmult_le_compat_r arcsec) in L; lra.
  - destruct (BT E (row, col) Ho) as ((q & Hq & L) & _). exists q. split; [exact Hq|]. fold (qu q) (qu (row, col)) in L.
    apply (Rmult_le_compat_r arcsec) in L; lra.
  - destruct (BT N (row, col) Ho) as ((q & Hq & L) & _). exists q. split; [exact Hq|]. fold (qv q) (qv (row, col)) in L.
    apply (Rmult_le_compat_r arcsec) in L; lra.
  - destruct (BT N (row, col) Ho) as (_ & (q & Hq & L)). exists q. split; [exact Hq|]. fold (qv q) (qv (row, col)) in L.
    apply (Rmult_le_compat_r arcsec) in L; lra.
Qed.

(** Nearly flat images: at most half the buffer away from an affine map. *)
Lemma cut_nearly_flat buffer e w ra0 dec0 a b k a' b' k' row col : 2 * e <= buffer -> (1 <= sw_nrow w)%Z -> (1 <= sw_ncol w)%Z ->
  sky_of w (IZR (sw_nrow w) / 2) (IZR (sw_ncol w) / 2) = (ra0, dec0) ->
  (forall r c, on_image w r c -> exists u v,
     radec_to_uv (fst (sky_of w r c)) (snd (sky_of w r c)) ra0 dec0 = Some (u, v) /\
     Rabs (u - (a * r + b * c + k)) <= e /\ Rabs (v - (a' * r + b' * c + k')) <= e /\ Rabs v < 90 * 3600) ->
  on_image w row col ->
  rough_sky_cut buffer w (fst (sky_of w row col)) (snd (sky_of w row col)) = Ok true.
Proof.
  intros HB H1 H2 Hc HA Ho.
  assert (HB0 : 0 <= e) by (destruct (HA row col Ho) as (u & v & _ & A & _); pose proof (Rabs_pos (u - (a * row + b * col + k))); lra).
  set (g := fun p : R * R => match radec_to_uv (fst (sky_of w (fst p) (snd p))) (snd (sky_of w (fst p) (snd p))) ra0 dec0 with Some q => q | None => (0, 0) end).
  assert (G : forall p, on_image w (fst p) (snd p) ->
    radec_to_uv (fst (sky_of w (fst p) (snd p))) (snd (sky_of w (fst p) (snd p))) ra0 dec0 = Some (fst (g p), snd (g p)) /\
    (a * fst p + b * snd p + k) - e <= fst (g p) <= (a * fst p + b * snd p + k) + e /\
    (a' * fst p + b' * snd p + k') - e <= snd (g p) <= (a' * fst p + b' * snd p + k') + e /\ - 324000 < snd (g p) < 324000).
  { intros p Hp. destruct (HA _ _ Hp) as (u & v & E & A1 & A2 & A3). unfold g. rewrite E. cbn [fst snd]. split; [reflexivity|].
    assert (AB : forall x y, Rabs x <= y -> - y <= x <= y) by (intros x y; unfold Rabs; destruct (Rcase_abs x); lra).
    apply AB in A1. apply AB in A2. unfold Rabs in A3. destruct (Rcase_abs v) in A3; lra. }
  assert (LO : forall x y z, exists q, corner w (fst q) (snd q) /\ on_image w (fst q) (snd q) /\ x * fst q + y * snd q + z <= x * row + y * col + z).
  { intros x y z. destruct Ho as (Hr & Hcc). destruct (affine_corner x y z _ _ row col Hr Hcc) as (r' & c' & Hr' & Hc' & L).
    assert (K : corner w r' c') by (split; assumption). exists (r', c'). split; [exact K|]. split; [apply corner_on; assumption|exact L]. }
  destruct (G (row, col) Ho) as (E & A1 & A2 & _). cbn [fst snd] in E, A1, A2.
  apply (cut_keeps buffer w ra0 dec0 (fun p => fst (g p)) (fun p => snd (g p)) (fst (g (row, col))) (snd (g (row, col))) _ _ ltac:(lra) H1 H2 Hc); [|exact E| | | |].
  - intros p Hp. destruct (G p Hp) as (E' & _ & _ & V). split; [exact E'|]. pose proof PI_RGT_0.
    apply cos_gt_0.
    + apply Rmult_lt_reg_r with (648000 / PI); [apply Rdiv_lt_0_compat; lra|].
      replace (- (PI / 2) * (648000 / PI)) with (-324000) by (field; lra).
      replace (snd (g p) / 3600 * (PI / 180) * (648000 / PI)) with (snd (g p)) by (field; lra). lra.
    + apply Rmult_lt_reg_r with (648000 / PI); [apply Rdiv_lt_0_compat; lra|].
      replace (PI / 2 * (648000 / PI)) with 324000 by (field; lra).
      replace (snd (g p) / 3600 * (PI / 180) * (648000 / PI)) with (snd (g p)) by (field; lra). lra.
  - destruct (LO a b k) as (q & C & O & L). exists q. split; [exact C|]. destruct (G q O) as (_ & B & _). lra.
  - destruct (LO (- a) (- b) (- k)) as (q & C & O & L). exists q. split; [exact C|]. destruct (G q O) as (_ & B & _). lra.
  - destruct (LO a' b' k') as (q & C & O & L). exists q. split; [exact C|]. destruct (G q O) as (_ & _ & B & _). lra.
  - destruct (LO (- a') (- b') (- k')) as (q & C & O & L). exists q. split; [exact C|]. destruct (G q O) as (_ & _ & B & _). lra.
Qed.

(** An image of 1000 x 1000 pixels of one arc second whose rows are bent by 25 of
    them. *)
Definition bent_u (row col : R) : R := col - 500.
Definition bent_v (row col : R) : R := row - 500 + (col - 500) * (col - 500) / 10000.
Definition bent : skywcs := mkSkywcs 1000 1000 1 (fun col row =>
  tan_sky (- bent_u (row - 1) (col - 1) / arcsec) (bent_v (row - 1) (col - 1) / arcsec)).

Lemma bent_uv row col : radec_to_uv (fst (sky_of bent row col)) (snd (sky_of bent row col)) 0 0 = Some (bent_u row col, bent_v row col).
Proof.
  unfold sky_of. cbn [bent sw_image2sky sw_offset]. pose proof arcsec_pos as HA.
  pose proof (tan_sky_uv (- bent_u (row + 1 - 1) (col + 1 - 1) / arcsec) (bent_v (row + 1 - 1) (col + 1 - 1) / arcsec)) as H.
  destruct (tan_sky _ _) as [ra dec]. destruct H as (H & _). cbn [fst snd]. rewrite H.
  replace (row + 1 - 1) with row by ring. replace (col + 1 - 1) with col by ring. f_equal. f_equal; field; lra.
Qed.

Lemma bent_centre : sky_of bent (IZR (sw_nrow bent) / 2) (IZR (sw_ncol bent) / 2) = (0, 0).
Proof.
  unfold sky_of. cbn [bent sw_image2sky sw_offset sw_nrow sw_ncol]. pose proof arcsec_pos as HA. rewrite <- tan_sky_0.
  f_equal; unfold bent_u, bent_v; field; lra.
Qed.

Lemma cut_cases buffer w ra0 dec0 (fu fv : R * R -> R) u v ra dec (lo : R) :
  (1 <= sw_nrow w)%Z -> (1 <= sw_ncol w)%Z ->
  sky_of w (IZR (sw_nrow w) / 2) (IZR (sw_ncol w) / 2) = (ra0, dec0) ->
  (forall p, radec_to_uv (fst (sky_of w (fst p) (snd p))) (snd (sky_of w (fst p) (snd p))) ra0 dec0 = Some (fu p, fv p)) ->
  (forall p, In p (grid_points (sw_nrow w) (sw_ncol w)) -> 0 < cos (fv p / 3600 * (PI / 180))) ->
  radec_to_uv ra dec ra0 dec0 = Some (u, v) ->
  (forall p, In p (grid_points (sw_nrow w) (sw_ncol w)) -> lo <= fv p) -> v < lo - buffer ->
  rough_sky_cut buffer w ra dec = Ok false.
Proof.
  intros H1 H2 Hcen Haff HP HU HL HV.
  destruct (grid_corners (sw_nrow w) (sw_ncol w) H1 H2) as (G1 & G2).
  set (pts := grid_points (sw_nrow w) (sw_ncol w)) in *.
  assert (HM : mapM (fun p => let '(ra, dec) := pix2sky w (fst p) (snd p) in
                 match radec_to_uv ra dec ra0 dec0 with
                 | Some q => Ok q | None => Err ValueError end) pts = Ok (map (fun p => (fu p, fv p)) pts)).
  { apply mapM_map_ok. intros p Hp. pose proof (Haff p) as P3. unfold pix2sky. unfold sky_of in P3.
    destruct (sw_image2sky w (snd p + sw_offset w) (fst p + sw_offset w)) as [x y] eqn:E. cbn [fst snd] in P3. rewrite P3. reflexivity. }
  assert (I0 : In (0, 0) pts) by (apply G1; left; reflexivity).
  unfold rough_sky_cut, rough_sky_bounds.
  replace ((sw_nrow w =? 0)%Z || (sw_ncol w =? 0)%Z) with false by lia.
  unfold pix2sky at 1. unfold sky_of in Hcen. rewrite Hcen. fold pts. rewrite HM. cbn [bind]. rewrite !map_map. cbn [fst snd].
  destruct (rmin_ne (fun x => cos (fv x / 3600 * (PI / 180))) pts (0, 0) I0) as (ufac & EF). rewrite EF. cbn [bind].
  destruct (rmin_spec _ _ EF) as (F1 & _). apply in_map_iff in F1. destruct F1 as (p & <- & Hp). pose proof (HP p Hp) as UF.
  destruct (Req_EM_T _ 0) as [C|_]; [lra|].
  destruct (rmin_ne fu pts (0, 0) I0) as (u0 & E1). destruct (rmax_ne fu pts (0, 0) I0) as (u1 & E2).
  destruct (rmin_ne fv pts (0, 0) I0) as (v0 & E3). destruct (rmax_ne fv pts (0, 0) I0) as (v1 & E4).
  change (map (fun x => fu x) pts) with (map fu pts). change (map (fun x => fv x) pts) with (map fv pts).
  rewrite E1, E2, E3, E4. cbn [bind]. rewrite HU.
  f_equal. unfold rb_contains. cbn [umin umax vmin vmax]. apply rmin_spec in E3. destruct E3 as (E3 & _).
  apply in_map_iff in E3. destruct E3 as (q & <- & Hq). pose proof (HL q Hq).
  apply andb_false_intro2. unfold rleb. destruct (Rle_dec (fv q - buffer) v); [lra|reflexivity].
Qed.

Lemma bent_grid p : In p (grid_points 1000 1000) -> (snd p = 0 \/ snd p = 999) /\ 0 <= fst p <= 999.
Proof.
  intros H. pose proof (proj2 (grid_corners 1000 1000 ltac:(lia) ltac:(lia)) p H) as (B & _). split; [|lra].
  unfold grid_points in H. change (grid_orders 1000 1000) with (4, 1)%Z in H. cbv iota beta in H. apply in_flat_map in H. destruct H as (c & Hc & Hp).
  apply in_map_iff in Hp. destruct Hp as (r & <- & _). cbn [snd]. unfold grid in Hc. apply in_map_iff in Hc. destruct Hc as (k & <- & Hk).
  apply In_zrange in Hk. assert (K : k = 0%Z \/ k = 1%Z) by lia. destruct K as [->| ->]; [left|right]; field.
Qed.

Lemma bent_lost : rough_sky_cut 16 bent (fst (sky_of bent 0 500)) (snd (sky_of bent 0 500)) = Ok false.
Proof.
  apply (cut_cases 16 bent 0 0 (fun p => bent_u (fst p) (snd p)) (fun p => bent_v (fst p) (snd p)) (bent_u 0 500) (bent_v 0 500) _ _ (- 500 + 499 * 499 / 10000)).
  - cbn. lia.
  - cbn. lia.
  - apply bent_centre.
  - intros p. apply bent_uv.
  - intros p H. cbn [bent sw_nrow sw_ncol] in H. apply bent_grid in H. destruct H as (Hc & Hr). pose proof PI_RGT_0.
    assert (B : -1000 < bent_v (fst p) (snd p) < 1000) by (unfold bent_v; destruct Hc as [->| ->]; lra).
    set (v := bent_v (fst p) (snd p)) in *. apply cos_gt_0.
    + apply Rmult_lt_reg_r with (648000 / PI); [apply Rdiv_lt_0_compat; lra|].
      replace (- (PI / 2) * (648000 / PI)) with (-324000) by (field; lra). replace (v / 3600 * (PI / 180) * (648000 / PI)) with v by (field; lra). lra.
    + apply Rmult_lt_reg_r with (648000 / PI); [apply Rdiv_lt_0_compat; lra|].
      replace (PI / 2 * (648000 / PI)) with 324000 by (field; lra). replace (v / 3600 * (PI / 180) * (648000 / PI)) with v by (field; lra). lra.
  - apply bent_uv.
  - intros p H. cbn [bent sw_nrow sw_ncol] in H. apply bent_grid in H. destruct H as (Hc & Hr). unfold bent_v. destruct Hc as [->| ->]; lra.
  - unfold bent_v. lra.
Qed.

Lemma bent_injective row col row' col' : sky_of bent row col = sky_of bent row' col' -> row = row' /\ col = col'.
Proof.
  intros H. pose proof (bent_uv row col) as A. rewrite H, bent_uv in A. injection A as A1 A2. unfold bent_u, bent_v in *.
  assert (C : col = col') by lra. subst col'. split; [lra|reflexivity].
Qed.
Lemma bent_refutes : exists w row col, on_image w row col /\
  (forall r c r' c', sky_of w r c = sky_of w r' c' -> r = r' /\ c = c') /\
  (forall r c, radec_to_uv (fst (sky_of w r c)) (snd (sky_of w r c)) (fst (sky_of w 500 500)) (snd (sky_of w 500 500)) =
     Some (c - 500, r - 500 + (c - 500) * (c - 500) / 10000)) /\
  rough_sky_cut 16 w (fst (sky_of w row col)) (snd (sky_of w row col)) = Ok false.
Proof.
  exists bent, 0, 500. split; [split; cbn [bent sw_nrow sw_ncol]; lra|]. split; [intros; apply bent_injective; assumption|]. split; [|exact bent_lost].
  intros r c. pose proof bent_centre as H. cbn [bent sw_nrow sw_ncol] in H. replace (1000 / 2) with 500 in H by field. fold bent in H.
  change (mkSkywcs 1000 1000 1 _) with bent in H. rewrite H. apply bent_uv.
Qed.

(** The example: pixels of one arc second around the centre. *)
Lemma tan_sky_direction x y : exists k, 0 < k /\ direction (fst (tan_sky x y)) (snd (tan_sky x y)) = (k, k * x, k * y).
Proof.
  unfold tan_sky. cbn [fst snd]. set (ra := atan x). set (dec := atan (y * cos ra)). unfold direction. rewrite !drad_deg.
  assert (C1 : 0 < cos ra) by apply cos_atan_pos. assert (C2 : 0 < cos dec) by apply cos_atan_pos.
  assert (T1 : sin ra = x * cos ra).
  { pose proof (tan_atan x) as H. fold ra in H. unfold tan in H. rewrite <- H. field. lra. }
  assert (T2 : sin dec = y * cos ra * cos dec).
  { pose proof (tan_atan (y * cos ra)) as H. fold dec in H. unfold tan in H. rewrite <- H. field. lra. }
  exists (cos dec * cos ra). split; [apply Rmult_lt_0_compat; assumption|]. rewrite T1, T2. f_equal; [f_equal|]; ring.
Qed.

Lemma tan_wcs_flat nrow ncol off : flat_image (tan_wcs nrow ncol off).
Proof.
  pose proof arcsec_pos as HA.
  exists (1, IZR ncol / 2 / arcsec, - (IZR nrow / 2) / arcsec), (0, 0, / arcsec), (0, - / arcsec, 0). intros row col _.
  unfold sky_of. cbn [tan_wcs sw_image2sky sw_offset].
  destruct (tan_sky_direction ((IZR ncol / 2 + off - (col + off)) / arcsec) ((row + off - (IZR nrow / 2 + off)) / arcsec)) as (k & Hk & E).
  exists k. split; [exact Hk|]. rewrite E. unfold vscale, vadd. f_equal; [f_equal|]; field; lra.
Qed.

Lemma tan_wcs_within nrow ncol off r c : (1 <= nrow <= 10000)%Z -> (1 <= ncol <= 10000)%Z -> corner (tan_wcs nrow ncol off) r c ->
  within (PI / 4) (sky_of (tan_wcs nrow ncol off) r c)
    (sky_of (tan_wcs nrow ncol off) (IZR (sw_nrow (tan_wcs nrow ncol off)) / 2) (IZR (sw_ncol (tan_wcs nrow ncol off)) / 2)).
Proof.
  intros Hn Hm Hc. destruct (corner_on (tan_wcs nrow ncol off) r c ltac:(cbn; lia) ltac:(cbn; lia) Hc) as (Hr & Hcc). cbn [tan_wcs sw_nrow sw_ncol] in Hr, Hcc.
  destruct (tan_wcs_affine nrow ncol off Hn) as (A & _). 
  change (sky_of (tan_wcs nrow ncol off) (IZR (sw_nrow (tan_wcs nrow ncol off)) / 2) (IZR (sw_ncol (tan_wcs nrow ncol off)) / 2))
    with (sw_image2sky (tan_wcs nrow ncol off) (IZR ncol / 2 + off) (IZR nrow / 2 + off)). rewrite A. unfold within. cbn [fst snd].
  unfold sky_of. cbn [tan_wcs sw_image2sky sw_offset]. pose proof arcsec_pos as HA.
  assert (HL : 100000 <= arcsec).
  { unfold arcsec. pose proof PI_4. pose proof PI_RGT_0. apply Rmult_le_reg_r with PI; [assumption|]. replace (180 / PI * 3600 * PI) with 648000 by (field; lra).
    apply Rle_trans with (100000 * 4); [apply Rmult_le_compat_l; lra|lra]. }
  set (x := (IZR ncol / 2 + off - (c + off)) / arcsec). set (y := (r + off - (IZR nrow / 2 + off)) / arcsec).
  assert (SM : forall t, -10000 <= t <= 10000 -> - (1 / 2) <= t / arcsec <= 1 / 2).
  { intros t Ht. split; apply Rmult_le_reg_r with arcsec; try assumption; replace (t / arcsec * arcsec) with t by (field; lra); lra. }
  destruct Hn as (N1 & N2), Hm as (M1 & M2). apply IZR_le in N1, N2, M1, M2.
  assert (X : - (1 / 2) <= x <= 1 / 2) by (apply SM; lra). assert (Y : - (1 / 2) <= y <= 1 / 2) by (apply SM; lra).
  pose proof (tan_sky_uv x y) as H. destruct (tan_sky x y) as [ra dec]. destruct H as (H & P). cbn [fst snd].
  pose proof (uv_norm _ _ _ _ _ _ H) as Hu. replace (- x * arcsec / arcsec) with (- x) in Hu by (field; lra). replace (y * arcsec / arcsec) with y in Hu by (field; lra).
  set (cd := cos_dist ra dec 0 0) in *. destruct cos_quarter as (Q0 & Q1).
  assert (SQ : forall t, - (1 / 2) <= t <= 1 / 2 -> t * t <= 1 / 2).
  { intros t Ht. destruct (Rle_dec 0 t); [apply Rle_trans with (1 / 2 * (1 / 2)); [apply Rmult_le_compat; lra|lra]|].
    replace (t * t) with ((- t) * (- t)) by ring. apply Rle_trans with (1 / 2 * (1 / 2)); [apply Rmult_le_compat; lra|lra]. }
  pose proof (SQ (- x) ltac:(lra)) as S1. pose proof (SQ y Y) as S2.
  assert (PP : 0 < cd * cd) by (apply Rmult_lt_0_compat; assumption).
  assert (I : 1 / (cd * cd) <= 2) by lra. assert (J : 1 / 2 <= cd * cd).
  { apply (Rmult_le_compat_r (cd * cd)) in I; [|lra]. replace (1 / (cd * cd) * (cd * cd)) with 1 in I by (field; lra). lra. }
  apply Rnot_lt_le. intros L. assert (cd * cd < cos (PI / 4) * cos (PI / 4)); [|lra]. apply Rmult_le_0_lt_compat; lra.
Qed.

Lemma bent_near r c : on_image bent r c -> exists u v,
  radec_to_uv (fst (sky_of bent r c)) (snd (sky_of bent r c)) 0 0 = Some (u, v) /\
  Rabs (u - (0 * r + 1 * c + - 500)) <= 13 /\ Rabs (v - (1 * r + 0 * c + (- 500 + 25 / 2))) <= 13 /\ Rabs v < 90 * 3600.
Proof.
  intros (Hr & Hc). cbn [bent sw_nrow sw_ncol] in Hr, Hc. exists (bent_u r c), (bent_v r c). split; [apply bent_uv|]. unfold bent_u, bent_v.
  assert (S : 0 <= (c - 500) * (c - 500) <= 250000).
  { split; [pose proof (Rle_0_sqr (c - 500)) as H; unfold Rsqr in H; exact H|].
    destruct (Rle_dec 0 (c - 500)); [apply Rle_trans with (500 * 500); [apply Rmult_le_compat; lra|lra]|].
    replace ((c - 500) * (c - 500)) with ((500 - c) * (500 - c)) by ring. apply Rle_trans with (500 * 500); [apply Rmult_le_compat; lra|lra]. }
  set (q := (c - 500) * (c - 500)) in *. unfold Rabs. split; [|split]; destruct (Rcase_abs _); lra.
Qed.

Lemma bent_wide : let w := bent in
  sky_of w (IZR (sw_nrow w) / 2) (IZR (sw_ncol w) / 2) = (0, 0) /\
  (forall r c, on_image w r c -> exists u v,
     radec_to_uv (fst (sky_of w r c)) (snd (sky_of w r c)) 0 0 = Some (u, v) /\
     Rabs (u - (0 * r + 1 * c + - 500)) <= 13 /\ Rabs (v - (1 * r + 0 * c + (- 500 + 25 / 2))) <= 13 /\ Rabs v < 90 * 3600) /\
  rough_sky_cut 26 w (fst (sky_of w 0 500)) (snd (sky_of w 0 500)) = Ok true.
Proof.
  cbv zeta. split; [exact bent_centre|]. split; [exact bent_near|].
  apply (cut_nearly_flat 26 13 bent 0 0 0 1 (- 500) 1 0 (- 500 + 25 / 2)); [lra|cbn; lia|cbn; lia|exact bent_centre|exact bent_near|].
  split; cbn [bent sw_nrow sw_ncol]; lra.
Qed.
