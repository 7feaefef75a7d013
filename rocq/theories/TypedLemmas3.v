(** Pixels of calibrated images and weights. *)
From Coq Require Import Lia ZifyBool ZifyNat Lqa Qround Qpower Qabs.
From Verif Require Import Base BaseLemmas Img Types BoundsM MakerWrite Single SingleLemmas CompositeLemmas Typed SpecTyped TypedLemmas TypedLemmas2.
Open Scope Z_scope.

Lemma ww_small : (0 <= ww <= 1#10000000)%Q.
Proof. split; discriminate. Qed.
Lemma eta_small : (0 <= eta <= two (-150))%Q.
Proof. split; discriminate. Qed.

Lemma fcast_step d k c x X : approx k c x X -> (0 <= k <= 1#16)%Q -> (0 <= c <= 1)%Q -> (Qabs X <= two 124)%Q ->
  exists v, fcast d (Fin x) = Fin v /\ approx (k + ww) (2 * c + eta) v X.
Proof. exact (fround_step d k c x X). Qed.

Lemma fcast_exact d d' x : is_float d x -> d = false \/ d' = true -> exists v, fcast d' (Fin x) = Fin v /\ (v == x)%Q.
Proof.
  intros H C. apply fround_exact. destruct C as [-> | ->]; [|apply (is_float_dbl d); exact H]. destruct d'; [apply (is_float_dbl false); exact H|exact H].
Qed.
Lemma is_float_compat d x y : (x == y)%Q -> is_float d x -> is_float d y.
Proof.
  intros E (m & e & H & B). exists m, e. split; [rewrite <- E; exact H|]. destruct d; rewrite <- E; exact B.
Qed.

(** The scale: one rounding. *)
Lemma scale_cast d S s : (s == S)%Q -> (two (-100) <= Qabs S)%Q -> (Qabs S <= two 100)%Q -> exists v, fcast d (Fin s) = Fin v /\ approx ww 0 v S.
Proof.
  intros E H1 H2. destruct (fround_step0 d 0 s S) as (v & F & A).
  - apply approx_refl. exact E.
  - split; discriminate.
  - eapply Qle_trans; [|exact H1]. apply two_le. lia.
  - eapply Qle_trans; [exact H2|]. apply two_le. lia.
  - exists v. split; [exact F|]. eapply approx_weaken; [exact A|lra|lra].
Qed.

(** A number times the scale, rounded, cast, and stored. *)
Lemma mul_chain d d' d2 k c k2 x X s S : approx k c x X -> approx k2 0 s S ->
  (0 <= k <= 8 * ww)%Q -> (0 <= k2 <= 7 * ww)%Q -> (0 <= c <= 64 * eta)%Q -> (Qabs X <= two 62)%Q -> (Qabs S <= two 61)%Q ->
  exists v, fcast d2 (fcast d (fmul d' (Fin x) (Fin s))) = Fin v /\
    approx (k + (9#8) * k2 + 3 * ww) (16 * c * Qabs S + 7 * eta) v (X * S).
Proof.
  intros A B Hk Hk2 Hc HX HS. pose proof ww_small as W. pose proof eta_small as Et.
  pose proof (approx_mul k c k2 x X s S A B ltac:(lra) ltac:(lra) ltac:(lra)) as M.
  pose proof (Qabs_nonneg S) as PS. pose proof (Qabs_nonneg X) as PX.
  assert (HXS : (Qabs (X * S) <= two 124)%Q).
  { rewrite Qabs_Qmult. apply Qle_trans with (two 62 * two 61)%Q; [|rewrite <- two_plus; apply two_le; lia].
    apply Qle_trans with (two 62 * Qabs S)%Q; [apply Qmult_le_compat_r; assumption|]. apply Qmult_le_l; [apply two_pos|exact HS]. }
  assert (Hc1 : (c * Qabs S <= two (-80))%Q).
  { apply Qle_trans with (two (-143) * Qabs S)%Q.
    - apply Qmult_le_compat_r; [|exact PS]. assert (64 * two (-150) <= two (-143))%Q by discriminate. lra.
    - apply Qle_trans with (two (-143) * two 61)%Q; [apply Qmult_le_l; [apply two_pos|exact HS]|]. rewrite <- two_plus. apply two_le. lia. }
  assert (Hc2 : (0 <= c * Qabs S)%Q) by (apply Qmult_le_0_compat; lra).
  assert (T : (two (-80) <= 1#1000)%Q) by discriminate. assert (T2 : (two (-150) <= 1#1000)%Q) by discriminate.
  cbn [fmul].
  destruct (fround_step d' _ _ (x * s) (X * S) M) as (v1 & F1 & A1); [lra|lra|exact HXS|]. rewrite F1.
  destruct (fcast_step d _ _ v1 (X * S) A1) as (v2 & F2 & A2); [lra|lra|exact HXS|]. rewrite F2.
  destruct (fcast_step d2 _ _ v2 (X * S) A2) as (v3 & F3 & A3); [lra|lra|exact HXS|].
  exists v3. split; [exact F3|]. eapply approx_weaken; [exact A3|lra|lra].
Qed.

(** What becomes of a pixel in [imul] and when stored. *)
Definition mul_op (R : rules) (d : bool) (s : scalar) (x : fl) : fl :=
  match s with
  | SOne => fmul d x (Fin 1)
  | SNp ds y => fmul (r_mul R d ds) (fcast (r_mul R d ds) x) (fcast (r_mul R d ds) y)
  end.

Lemma mul_op_near R d d2 sc S k c x X : approx k c x X -> (0 <= k <= 3 * ww)%Q -> (0 <= c <= 7 * eta)%Q ->
  (Qabs X <= two 62)%Q -> scale_value sc S -> (two (-100) <= Qabs S)%Q -> (Qabs S <= two 61)%Q ->
  exists v, fcast d2 (fcast d (mul_op R d sc (Fin x))) = Fin v /\
    approx (k + 6 * ww) (16 * 15 * eta * Qabs S + 7 * eta) v (X * S).
Proof.
  intros A Hk Hc HX HS L1 L2. pose proof ww_small as W. pose proof eta_small as Et. pose proof (Qabs_nonneg S) as PS.
  assert (T2 : (two (-150) <= 1#1000)%Q) by discriminate.
  assert (PE : (0 <= eta * Qabs S)%Q) by (apply Qmult_le_0_compat; lra).
  assert (CE : (c * Qabs S <= 7 * eta * Qabs S)%Q) by (apply Qmult_le_compat_r; lra).
  destruct sc as [|ds [y| |]]; cbn [scale_value] in HS; try contradiction; unfold mul_op.
  - destruct (mul_chain d d d2 k c 0 x X 1 S A) as (v & F & M); try lra; [apply approx_refl; lra|].
    exists v. split; [exact F|]. eapply approx_weaken; [exact M|lra|lra].
  - destruct (scale_cast (r_mul R d ds) S y) as (s' & Fs & As); [symmetry; exact HS|exact L1|eapply Qle_trans; [exact L2|apply two_le; lia]|]. rewrite Fs.
    destruct (fcast_step (r_mul R d ds) k c x X A) as (x' & Fx & Ax); [lra|lra|eapply Qle_trans; [exact HX|apply two_le; lia]|]. rewrite Fx.
    assert (CE2 : ((2 * c + eta) * Qabs S <= 15 * eta * Qabs S)%Q) by (apply Qmult_le_compat_r; lra).
    destruct (mul_chain d (r_mul R d ds) d2 (k + ww) (2 * c + eta) ww x' X s' S Ax As) as (v & F & M); try lra.
    exists v. split; [exact F|]. eapply approx_weaken; [exact M|lra|lra].
Qed.

(** Subtraction of the background. *)
Lemma sub_near d db A B : is_float d A -> is_float db B -> (Qabs (A - B) <= two 61)%Q ->
  exists v, to_fl d (NF (fcast d (fsub (d || db) (fcast (d || db) (Fin A)) (fcast (d || db) (Fin B))))) = Fin v /\
    approx (3 * ww) (7 * eta) v (A - B).
Proof.
  intros HA HB HD. pose proof ww_small as W. pose proof eta_small as Et. assert (T2 : (two (-150) <= 1#1000)%Q) by discriminate.
  destruct (fround_exact (d || db) A (is_float_or d db A HA)) as (a & Fa & Ea).
  assert (HB' : is_float (d || db) B) by (rewrite Bool.orb_comm; apply is_float_or; exact HB).
  destruct (fround_exact (d || db) B HB') as (b & Fb & Eb). cbn [fcast to_fl]. rewrite Fa, Fb. cbn [fsub].
  assert (H1 : (Qabs (A - B) <= two 124)%Q) by (eapply Qle_trans; [exact HD|apply two_le; lia]).
  destruct (fround_step (d || db) 0 0 (a - b) (A - B)) as (v1 & F1 & A1); [apply approx_refl; rewrite Ea, Eb; ring|lra|lra|exact H1|]. rewrite F1.
  destruct (fcast_step d _ _ v1 (A - B) A1) as (v2 & F2 & A2); [lra|lra|exact H1|]. rewrite F2.
  destruct (fcast_step d _ _ v2 (A - B) A2) as (v3 & F3 & A3); [lra|lra|exact H1|]. rewrite F3.
  exists v3. split; [reflexivity|]. eapply approx_weaken; [exact A3|lra|lra].
Qed.

(** [1.0 / scale ** 2] *)
Lemma inv_square_near R sc S : scale_value sc S -> moderate_scale S ->
  exists T, scale_value (inv_square R sc) T /\ approx (5 * ww) 0 T (1 / (S * S)).
Proof.
  intros HS (L1 & L2). pose proof ww_small as W.
  assert (NS : ~ (S == 0)%Q).
  { intros Z0. rewrite Z0 in L1. revert L1. apply Qlt_not_le. reflexivity. }
  assert (NSS : ~ (S * S == 0)%Q) by (intros Z0; apply Qmult_integral in Z0; tauto).
  assert (LSS : (two (-60) <= Qabs (S * S))%Q).
  { rewrite Qabs_Qmult. apply Qle_trans with (two (-30) * two (-30))%Q; [rewrite <- two_plus; apply two_le; lia|].
    apply Qle_trans with (two (-30) * Qabs S)%Q; [apply Qmult_le_l; [apply two_pos|exact L1]|]. apply Qmult_le_compat_r; [exact L1|apply Qabs_nonneg]. }
  assert (USS : (Qabs (S * S) <= two 60)%Q).
  { rewrite Qabs_Qmult. apply Qle_trans with (two 30 * two 30)%Q; [|rewrite <- two_plus; apply two_le; lia].
    apply Qmult_le_compat_nonneg; (split; [apply Qabs_nonneg|exact L2]). }
  destruct sc as [|ds [y| |]]; cbn [scale_value] in HS; try contradiction; cbn [inv_square].
  - exists 1%Q. split; [reflexivity|]. eapply approx_weaken; [apply approx_refl|lra|lra]. rewrite HS. reflexivity.
  - set (d := r_pow R ds). destruct (scale_cast d S y) as (s' & Fs & As); [symmetry; exact HS| | |].
    { eapply Qle_trans; [|exact L1]. apply two_le. lia. } { eapply Qle_trans; [exact L2|]. apply two_le. lia. }
    rewrite Fs. cbn [fmul].
    pose proof (approx_mul ww 0 ww s' S s' S As As ltac:(lra) ltac:(lra) ltac:(lra)) as M.
    assert (M' : approx (ww + (9#8) * ww) 0 (s' * s') (S * S)) by (eapply approx_weaken; [exact M|lra|lra]). clear M.
    destruct (fround_step0 d _ _ _ M') as (s2 & F2 & A2).
    { lra. } { eapply Qle_trans; [|exact LSS]. apply two_le. lia. } { eapply Qle_trans; [exact USS|]. apply two_le. lia. }
    rewrite F2. destruct (approx_inv _ _ _ A2 ltac:(lra) NSS) as (N2 & A3). cbn [finv].
    replace (Qeq_bool s2 0) with false by (symmetry; destruct (Qeq_bool s2 0) eqn:E; [apply Qeq_bool_iff in E; contradiction|reflexivity]).
    assert (I1 : (Qabs (1 / (S * S)) * Qabs (S * S) == 1)%Q).
    { rewrite <- Qabs_Qmult. assert (E : (1 / (S * S) * (S * S) == 1)%Q) by (field; exact NS). rewrite E. reflexivity. }
    assert (P0 : (0 < Qabs (S * S))%Q) by (apply Qabs_pos_neq; exact NSS).
    destruct (fround_step0 d _ _ _ A3) as (v & F3 & A4).
    { lra. }
    { apply Qmult_lt_0_le_reg_r with (Qabs (S * S)); [exact P0|]. rewrite I1.
      apply Qle_trans with (two (-120) * two 60)%Q; [apply Qmult_le_l; [apply two_pos|exact USS]|]. discriminate. }
    { apply Qmult_lt_0_le_reg_r with (Qabs (S * S)); [exact P0|]. rewrite I1.
      apply Qle_trans with (two 124 * two (-60))%Q; [discriminate|]. apply Qmult_le_l; [apply two_pos|exact LSS]. }
    rewrite F3. exists v. split; [reflexivity|]. eapply approx_weaken; [exact A4|lra|lra].
Qed.

(** A finite number stays zero. *)
Lemma fround_zero d x : (x == 0)%Q -> exists v, fround d x = Fin v /\ (v == 0)%Q.
Proof.
  intros E. destruct (fround_spec d x) as (v & F & _ & _ & Z0); [rewrite E; discriminate|]. exists v. split; [exact F|apply Z0; exact E].
Qed.
