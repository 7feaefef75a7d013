(** The sky cut keeps what is on the image. *)
From Coq Require Import Reals Lra Lia ZifyBool.
From Verif Require Import Base BaseLemmas Img Outlier OutlierLemmas OutlierLemmas3 Sky SpecSky SkyLemmas.
Open Scope R_scope.

Lemma rmin_spec l m : rmin l = Ok m -> In m l /\ forall x, In x l -> m <= x.
Proof.
  destruct l as [|a l]; cbn [rmin]; [discriminate|]. intros H. inversion H; clear H. subst m. revert a.
  induction l as [|y l IH]; intros a; cbn [rmin_from].
  - split; [left; reflexivity|]. intros x [<-|[]]. lra.
  - destruct (IH (if rltb y a then y else a)) as [I1 I2]. split.
    + destruct I1 as [I1|I1]; [|right; right; exact I1]. rewrite <- I1. destruct (rltb y a); [right; left; reflexivity|left; reflexivity].
    + intros x [<-|[<-|Hx]].
      * apply Rle_trans with (if rltb y a then y else a); [apply I2; left; reflexivity|]. destruct (rltb y a) eqn:E; [apply rltb_true in E; lra|lra].
      * apply Rle_trans with (if rltb y a then y else a); [apply I2; left; reflexivity|]. destruct (rltb y a) eqn:E; [lra|apply rltb_false in E; lra].
      * apply I2. right. exact Hx.
Qed.

Lemma rmax_spec l m : rmax l = Ok m -> In m l /\ forall x, In x l -> x <= m.
Proof.
  destruct l as [|a l]; cbn [rmax]; [discriminate|]. intros H. inversion H; clear H. subst m. revert a.
  induction l as [|y l IH]; intros a; cbn [rmax_from].
  - split; [left; reflexivity|]. intros x [<-|[]]. lra.
  - destruct (IH (if rltb a y then y else a)) as [I1 I2]. split.
    + destruct I1 as [I1|I1]; [|right; right; exact I1]. rewrite <- I1. destruct (rltb a y); [right; left; reflexivity|left; reflexivity].
    + intros x [<-|[<-|Hx]].
      * apply Rle_trans with (if rltb a y then y else a); [|apply I2; left; reflexivity]. destruct (rltb a y) eqn:E; [apply rltb_true in E; lra|lra].
      * apply Rle_trans with (if rltb a y then y else a); [|apply I2; left; reflexivity]. destruct (rltb a y) eqn:E; [lra|apply rltb_false in E; lra].
      * apply I2. right. exact Hx.
Qed.

Lemma rmin_ne {A} (f : A -> R) (l : list A) a : In a l -> exists m, rmin (map f l) = Ok m.
Proof. destruct l; [intros []|]. intros _. eexists. reflexivity. Qed.
Lemma rmax_ne {A} (f : A -> R) (l : list A) a : In a l -> exists m, rmax (map f l) = Ok m.
Proof. destruct l; [intros []|]. intros _. eexists. reflexivity. Qed.

Lemma rleb_true a b : rleb a b = true <-> a <= b.
Proof. unfold rleb. destruct (Rle_dec a b); split; intros; auto; try discriminate; contradiction. Qed.

Lemma grid_ends n order : (1 <= n)%Z -> (1 <= order)%Z -> In 0 (grid n order) /\ In (IZR n - 1) (grid n order) /\
  forall x, In x (grid n order) -> 0 <= x <= IZR n - 1.
Proof.
  intros Hn Ho. unfold grid. assert (O : 0 < IZR order) by (apply IZR_lt; lia). assert (N : 1 <= IZR n) by (apply IZR_le; lia). split; [|split].
  - apply in_map_iff. exists 0%Z. split; [field; lra|]. apply In_zrange. lia.
  - apply in_map_iff. exists order. split; [field; lra|]. apply In_zrange. lia.
  - intros x Hx. apply in_map_iff in Hx. destruct Hx as (k & <- & Hk). apply In_zrange in Hk.
    assert (K1 : 0 <= IZR k) by (apply IZR_le; lia). assert (K2 : IZR k <= IZR order) by (apply IZR_le; lia). split.
    + apply Rmult_le_pos; [apply Rmult_le_pos; lra|]. left. apply Rinv_0_lt_compat. exact O.
    + apply Rmult_le_reg_r with (IZR order); [exact O|]. replace (IZR k * (IZR n - 1) / IZR order * IZR order) with (IZR k * (IZR n - 1)) by (field; lra).
      rewrite (Rmult_comm (IZR n - 1)). apply Rmult_le_compat_r; lra.
Qed.

Lemma ceil_div_pos a b : (0 < b <= a)%Z -> (1 <= ceil_div a b)%Z.
Proof. intros H. unfold ceil_div. assert (- a / b <= -1)%Z; [|lia]. apply Z.div_le_upper_bound; lia. Qed.

Lemma grid_corners nrow ncol : (1 <= nrow)%Z -> (1 <= ncol)%Z ->
  (forall r c, (r = 0 \/ r = IZR nrow - 1) -> (c = 0 \/ c = IZR ncol - 1) -> In (r, c) (grid_points nrow ncol)) /\
  (forall p, In p (grid_points nrow ncol) -> 0 <= fst p <= IZR nrow - 1 /\ 0 <= snd p <= IZR ncol - 1).
Proof.
  intros H1 H2. unfold grid_points. destruct (grid_orders nrow ncol) as [orow ocol] eqn:E.
  assert (O : (1 <= orow /\ 1 <= ocol)%Z).
  { unfold grid_orders in E. destruct (ncol <? nrow)%Z eqn:F; inversion E; subst; split; try lia; apply ceil_div_pos; lia. }
  destruct (grid_ends nrow orow H1 ltac:(lia)) as (R1 & R2 & R3). destruct (grid_ends ncol ocol H2 ltac:(lia)) as (C1 & C2 & C3). split.
  - intros r c Hr Hc. apply in_flat_map. exists c. split; [destruct Hc as [->| ->]; assumption|]. apply in_map_iff. exists r.
    split; [reflexivity|]. destruct Hr as [->| ->]; assumption.
  - intros p Hp. apply in_flat_map in Hp. destruct Hp as (c & Hc & Hp). apply in_map_iff in Hp. destruct Hp as (r & <- & Hr). cbn [fst snd]. auto.
Qed.

(** An affine function on a rectangle lies between its values at corners. *)
Lemma affine_corner a b k rmax cmax r c : 0 <= r <= rmax -> 0 <= c <= cmax ->
  exists r' c', (r' = 0 \/ r' = rmax) /\ (c' = 0 \/ c' = cmax) /\ a * r' + b * c' + k <= a * r + b * c + k.
Proof.
  intros Hr Hc.
  assert (HA : exists r', (r' = 0 \/ r' = rmax) /\ a * r' <= a * r).
  { destruct (Rle_dec 0 a); [exists 0|exists rmax]; (split; [auto|]); [rewrite Rmult_0_r; apply Rmult_le_pos; lra|].
    apply Ropp_le_cancel. rewrite <- !Ropp_mult_distr_l_reverse. apply Rmult_le_compat_l; lra. }
  assert (HB : exists c', (c' = 0 \/ c' = cmax) /\ b * c' <= b * c).
  { destruct (Rle_dec 0 b); [exists 0|exists cmax]; (split; [auto|]); [rewrite Rmult_0_r; apply Rmult_le_pos; lra|].
    apply Ropp_le_cancel. rewrite <- !Ropp_mult_distr_l_reverse. apply Rmult_le_compat_l; lra. }
  destruct HA as (r' & Hr' & A), HB as (c' & Hc' & B). exists r', c'. split; [exact Hr'|]. split; [exact Hc'|]. lra.
Qed.

Lemma sky_cut_keeps buffer w ra0 dec0 a b k a' b' k' :
  0 <= buffer -> (1 <= sw_nrow w)%Z -> (1 <= sw_ncol w)%Z ->
  sw_image2sky w (IZR (sw_ncol w) / 2 + sw_offset w) (IZR (sw_nrow w) / 2 + sw_offset w) = (ra0, dec0) ->
  (forall row col, 0 <= row <= IZR (sw_nrow w) - 1 -> 0 <= col <= IZR (sw_ncol w) - 1 ->
     radec_to_uv (fst (sw_image2sky w (col + sw_offset w) (row + sw_offset w)))
                 (snd (sw_image2sky w (col + sw_offset w) (row + sw_offset w))) ra0 dec0
       = Some (a * row + b * col + k, a' * row + b' * col + k') /\
     - (PI / 2) < (a' * row + b' * col + k') / 3600 * (PI / 180) < PI / 2) ->
  forall row col ra dec, 0 <= row <= IZR (sw_nrow w) - 1 -> 0 <= col <= IZR (sw_ncol w) - 1 ->
    sw_image2sky w (col + sw_offset w) (row + sw_offset w) = (ra, dec) ->
    rough_sky_cut buffer w ra dec = Ok true.
Proof.
  intros HB H1 H2 Hcen Haff row col ra dec Hr Hc Hsky.
  destruct (grid_corners (sw_nrow w) (sw_ncol w) H1 H2) as (G1 & G2).
  set (pts := grid_points (sw_nrow w) (sw_ncol w)) in *.
  set (fu := fun p : R * R => a * fst p + b * snd p + k). set (fv := fun p : R * R => a' * fst p + b' * snd p + k').
  assert (HM : mapM (fun p => let '(ra, dec) := pix2sky w (fst p) (snd p) in
                 match radec_to_uv ra dec ra0 dec0 with
                 | Some q => Ok q | None => Err ValueError end) pts = Ok (map (fun p => (fu p, fv p)) pts)).
  { apply mapM_map_ok. intros p Hp. destruct (G2 p Hp) as (P1 & P2). destruct (Haff _ _ P1 P2) as (P3 & _). unfold pix2sky.
    destruct (sw_image2sky w (snd p + sw_offset w) (fst p + sw_offset w)) as [x y] eqn:E. cbn [fst snd] in P3. rewrite P3. reflexivity. }
  assert (I0 : In (0, 0) pts) by (apply G1; left; reflexivity).
  unfold rough_sky_cut, rough_sky_bounds.
  replace ((sw_nrow w =? 0)%Z || (sw_ncol w =? 0)%Z) with false by lia.
  unfold pix2sky at 1. rewrite Hcen. fold pts. rewrite HM. cbn [bind]. rewrite !map_map. cbn [fst snd].
  destruct (rmin_ne (fun x => cos (fv x / 3600 * (PI / 180))) pts (0, 0) I0) as (ufac & EF). rewrite EF. cbn [bind].
  destruct (rmin_spec _ _ EF) as (F1 & _). apply in_map_iff in F1. destruct F1 as (p & <- & Hp).
  assert (UF : 0 < cos (fv p / 3600 * (PI / 180))).
  { destruct (G2 p Hp) as (P1 & P2). destruct (Haff _ _ P1 P2) as (_ & P3). unfold fv. apply cos_gt_0; lra. }
  destruct (Req_EM_T _ 0) as [C|_]; [lra|].
  destruct (rmin_ne fu pts (0, 0) I0) as (u0 & E1). destruct (rmax_ne fu pts (0, 0) I0) as (u1 & E2).
  destruct (rmin_ne fv pts (0, 0) I0) as (v0 & E3). destruct (rmax_ne fv pts (0, 0) I0) as (v1 & E4).
  change (map (fun x => fu x) pts) with (map fu pts). change (map (fun x => fv x) pts) with (map fv pts).
  rewrite E1, E2, E3, E4. cbn [bind]. destruct (Haff row col Hr Hc) as (HU & _). rewrite Hsky in HU. cbn [fst snd] in HU. rewrite HU.
  f_equal. unfold rb_contains. cbn [umin umax vmin vmax].
  set (ub := buffer / cos (fv p / 3600 * (PI / 180))). assert (UB : 0 <= ub).
  { apply Rmult_le_pos; [exact HB|]. left. apply Rinv_0_lt_compat. exact UF. }
  apply rmin_spec in E1. apply rmax_spec in E2. apply rmin_spec in E3. apply rmax_spec in E4.
  assert (LO : forall x y z, exists q, In q pts /\ x * fst q + y * snd q + z <= x * row + y * col + z).
  { intros x y z. destruct (affine_corner x y z _ _ row col Hr Hc) as (r' & c' & Hr' & Hc' & L). exists (r', c'). split; [apply G1; assumption|exact L]. }
  assert (U0 : u0 <= a * row + b * col + k).
  { destruct (LO a b k) as (q & Iq & L). apply Rle_trans with (fu q); [apply E1; apply in_map; exact Iq|exact L]. }
  assert (V0 : v0 <= a' * row + b' * col + k').
  { destruct (LO a' b' k') as (q & Iq & L). apply Rle_trans with (fv q); [apply E3; apply in_map; exact Iq|exact L]. }
  assert (U1 : a * row + b * col + k <= u1).
  { destruct (LO (-a) (-b) (-k)) as (q & Iq & L). apply Rle_trans with (fu q); [unfold fu; lra|apply E2; apply in_map; exact Iq]. }
  assert (V1 : a' * row + b' * col + k' <= v1).
  { destruct (LO (-a') (-b') (-k')) as (q & Iq & L). apply Rle_trans with (fv q); [unfold fv; lra|apply E4; apply in_map; exact Iq]. }
  rewrite !andb_true_iff, !rleb_true. repeat split; lra.
Qed.

Lemma sky_cut_antipode buffer w ra dec : rough_sky_cut buffer w (ra + 180) (- dec) = rough_sky_cut buffer w ra dec.
Proof.
  unfold rough_sky_cut. destruct (rough_sky_bounds buffer w) as [[bnds [ra0 dec0]]|e]; [|reflexivity]. cbn [bind].
  destruct (uv_antipode ra dec ra0 dec0) as [-> _]. reflexivity.
Qed.

Lemma sky_cut_bounds buffer w ra dec bnds ra0 dec0 : rough_sky_bounds buffer w = Ok (bnds, (ra0, dec0)) ->
  (rough_sky_cut buffer w ra dec = Ok true <->
   cos_dist ra dec ra0 dec0 <> 0 /\
   umin bnds <= - xi ra dec ra0 dec0 * arcsec <= umax bnds /\ vmin bnds <= eta ra dec ra0 dec0 * arcsec <= vmax bnds).
Proof.
  intros H. unfold rough_sky_cut. rewrite H. cbn [bind]. destruct (Req_EM_T (cos_dist ra dec ra0 dec0) 0) as [E|E].
  - rewrite (proj2 (uv_none _ _ _ _) E). split; [discriminate|]. intros (C & _). contradiction.
  - rewrite uv_eq by exact E. unfold rb_contains. split.
    + intros Q. injection Q as Q. rewrite !andb_true_iff, !rleb_true in Q. tauto.
    + intros (_ & Q). f_equal. rewrite !andb_true_iff, !rleb_true. tauto.
Qed.
