(** Typed files: pixels of image and weight cutouts. *)
From Coq Require Import Lia ZifyBool ZifyNat Lqa Qround Qpower Qabs String.
From Verif Require Import Base BaseLemmas Img ImgLemmas Types BoundsM Reader MakerLayout MakerWrite MakerFile Single SingleLemmas
  SpecTiles SpecLayout SpecFile MakerLemmas
  Typed SpecTyped TypedLemmas TypedLemmas2 TypedLemmas3 TypedLemmas4 TypedLemmas5.
Open Scope Z_scope.

Lemma px_num_ok a r c x : arr_ok a -> px (a_im a) r c = Some x -> num_ok (a_kind a) x.
Proof. intros (_ & F & _) H. rewrite Forall_forall in F. apply F. unfold px in H. destruct (_ && _); [|discriminate]. eapply zget_In; exact H. Qed.
Lemma float_px a d r c x : arr_ok a -> a_kind a = KF d -> px (a_im a) r c = Some x -> exists y, x = NF y /\ fl_ok d y.
Proof. intros A K H. pose proof (px_num_ok a r c x A H) as N. rewrite K in N. destruct x; [contradiction|]. exists x. auto. Qed.

Lemma near_mono x y a b : near x y a -> (a <= b)%Q -> near x y b.
Proof. unfold near. lra. Qed.
Lemma approx_near k c x X : approx k c x X -> (k <= 10 * ww)%Q -> near x X c.
Proof.
  intros A K. unfold near, approx in *. assert (10 * ww <= Qpower (2#1) (-20))%Q by (unfold ww, uu; vm_compute; discriminate).
  pose proof (Qabs_nonneg X). nra.
Qed.

(** The number stored for a pixel of the image. *)
Lemma image_value R d d2 sc S db A B (hasb : bool) : is_float d A -> (hasb = true -> is_float db B) -> (hasb = false -> (B == 0)%Q) ->
  moderate A -> moderate B -> scale_value sc S -> moderate_scale S ->
  exists v, fcast d2 (fcast d (mul_op R d sc (to_fl d (if hasb then NF (fcast d (fsub (d || db) (fcast (d || db) (Fin A)) (fcast (d || db) (Fin B)))) else NF (Fin A))))) = Fin v /\
    near v ((A - B) * S) (Qpower (2#1) (-140) * (1 + Qabs S)).
Proof.
  intros FA FB B0 MA MB HS (S1 & S2). unfold moderate in MA, MB.
  assert (E61 : (two 61 == two 60 + two 60)%Q) by (vm_compute; reflexivity).
  assert (LD : (Qabs (A - B) <= two 61)%Q).
  { rewrite E61. eapply Qle_trans; [apply (Qabs_triangle A (- B))|]. rewrite Qabs_opp. lra. }
  assert (exists x, to_fl d (if hasb then NF (fcast d (fsub (d || db) (fcast (d || db) (Fin A)) (fcast (d || db) (Fin B)))) else NF (Fin A)) = Fin x /\ approx (3 * ww) (7 * eta) x (A - B)) as (x & Ex & Ax).
  { destruct hasb.
    - apply sub_near; auto.
    - cbn [to_fl]. destruct (fcast_exact d d A FA) as (v & -> & Ev); [destruct d; auto|]. exists v. split; [reflexivity|].
      eapply approx_weaken; [apply approx_refl; rewrite Ev, (B0 eq_refl); ring|..]; [pose proof ww_small; lra|pose proof eta_small; lra]. }
  rewrite Ex. pose proof ww_small as W. pose proof eta_small as Et.
  destruct (mul_op_near R d d2 sc S (3 * ww) (7 * eta) x (A - B) Ax) as (v & Ev & Av).
  - lra.
  - lra.
  - eapply Qle_trans; [exact LD|]. apply (two_le 61 62); lia.
  - exact HS.
  - eapply Qle_trans; [|exact S1]. apply (two_le (-100) (-30)); lia.
  - eapply Qle_trans; [exact S2|]. apply (two_le 30 61); lia.
  - exists v. split; [exact Ev|]. eapply near_mono; [eapply approx_near; [exact Av|lra]|].
    assert (256 * eta <= Qpower (2#1) (-140))%Q by (unfold eta; vm_compute; discriminate). pose proof (Qabs_nonneg S). nra.
Qed.

Lemma weight_value R d d2 sc S W : is_float d W -> moderate W -> scale_value sc S -> moderate_scale S ->
  exists v, fcast d2 (fcast d (mul_op R d (inv_square R sc) (to_fl d (NF (Fin W))))) = Fin v /\
    near v (W / (S * S)) (Qpower (2#1) (-140) * (1 + 1 / (S * S))).
Proof.
  intros FW MW HS MS. unfold moderate in MW. destruct (inv_square_near R sc S HS MS) as (T & HT & AT).
  destruct (fcast_exact d d W FW) as (x & Ex & Exx); [destruct d; auto|]. cbn [to_fl]. rewrite Ex.
  pose proof ww_small as Wn. pose proof eta_small as Et.
  set (I := (1 / (S * S))%Q) in *.
  destruct MS as (S1 & S2).
  assert (Sn : ~ (S == 0)%Q). { intros E. rewrite E in S1. change (Qabs 0) with 0%Q in S1. vm_compute in S1. apply S1. reflexivity. }
  assert (Sp : (0 < S * S)%Q).
  { destruct (Qlt_le_dec 0 S) as [L|L]; [nra|]. assert (S < 0)%Q by (apply Qle_lteq in L; destruct L as [L|L]; [exact L|contradiction]). nra. }
  assert (IP : (0 < I)%Q). { unfold I. apply Qlt_shift_div_l; [exact Sp|]. lra. }
  assert (SS : (S * S == Qabs S * Qabs S)%Q). { rewrite <- Qabs_Qmult. symmetry. apply Qabs_pos. lra. }
  assert (IU : (I <= two 60)%Q).
  { unfold I. apply Qle_shift_div_r; [exact Sp|]. rewrite SS. assert (two (-30) * two (-30) <= Qabs S * Qabs S)%Q.
    { apply Qmult_le_compat_nonneg; split; try exact S1; vm_compute; discriminate. }
    assert (two 60 * (two (-30) * two (-30)) == 1)%Q as <- by (vm_compute; reflexivity). rewrite !(Qmult_comm (two 60)). apply Qmult_le_compat_r; [exact H|vm_compute; discriminate]. }
  assert (IL : (two (-60) <= I)%Q).
  { unfold I. apply Qle_shift_div_l; [exact Sp|]. rewrite SS. assert (Qabs S * Qabs S <= two 30 * two 30)%Q.
    { apply Qmult_le_compat_nonneg; split; try exact S2; try apply Qabs_nonneg. }
    assert (two (-60) * (two 30 * two 30) == 1)%Q as <- by (vm_compute; reflexivity). rewrite !(Qmult_comm (two (-60))). apply Qmult_le_compat_r; [exact H|vm_compute; discriminate]. }
  assert (AI : (Qabs I == I)%Q) by (apply Qabs_pos; lra).
  pose proof (approx_abs _ _ _ _ AT) as TU. pose proof (approx_abs_low _ _ _ AT) as TL. rewrite AI in TU, TL.
  assert (E61 : (two 61 == 2 * two 60)%Q) by (vm_compute; reflexivity).
  assert (E62 : (two (-60) == 2 * two (-61))%Q) by (vm_compute; reflexivity).
  assert (P60 : (0 < two (-61))%Q) by (vm_compute; reflexivity).
  destruct (mul_op_near R d d2 (inv_square R sc) T 0 0 x W (approx_refl _ _ Exx)) as (v & Ev & Av).
  - lra.
  - lra.
  - eapply Qle_trans; [exact MW|]. apply (two_le 60 62); lia.
  - exact HT.
  - eapply Qle_trans; [apply (two_le (-100) (-61)); lia|]. eapply Qle_trans; [|exact TL]. nra.
  - eapply Qle_trans; [exact TU|]. nra.
  - exists v. split; [exact Ev|]. unfold near, approx in *. assert (EW : (W / (S * S) == W * I)%Q) by (unfold I; field; exact Sn).
    assert (E1 : (v - W / (S * S) == (v - W * T) + W * (T - I))%Q) by (rewrite EW; ring). rewrite E1.
    eapply Qle_trans; [apply Qabs_triangle|]. rewrite EW, !Qabs_Qmult, AI. rewrite Qabs_Qmult in Av. rewrite AI in AT.
    pose proof (Qabs_nonneg W) as AW. pose proof (Qabs_nonneg T) as ATn. set (w := Qabs W) in *. set (t := Qabs T) in *. set (dT := Qabs (T - I)) in *. set (dv := Qabs (v - W * T)) in *.
    assert (H1 : (12 * ww <= Qpower (2#1) (-20))%Q) by (unfold ww, uu; vm_compute; discriminate).
    assert (H2 : (512 * eta <= Qpower (2#1) (-140))%Q) by (unfold eta; vm_compute; discriminate).
    assert (H3 : (w * t <= (1 + (1#1000)) * (w * I))%Q) by (assert (t <= (1 + (1#1000)) * I)%Q by nra; nra).
    assert (H4 : (w * dT <= 5 * ww * (w * I))%Q) by (assert (dT <= 5 * ww * I)%Q by lra; nra).
    assert (H0 : (0 <= w * I)%Q) by nra.
    assert (H5 : (ww * (w * t) <= (1 + (1#1000)) * (ww * (w * I)))%Q) by nra.
    assert (H6 : (12 * (ww * (w * I)) <= Qpower (2#1) (-20) * (w * I))%Q) by nra.
    assert (H7 : (eta * t <= 2 * (eta * I))%Q) by (assert (t <= 2 * I)%Q by nra; nra).
    assert (H8 : (512 * eta * (1 + I) <= Qpower (2#1) (-140) * (1 + I))%Q) by nra.
    assert (H9 : (0 <= ww * (w * I))%Q) by nra. assert (H10 : (0 <= eta * I)%Q) by nra.
    set (p := Qpower (2#1) (-20)) in *. set (q := Qpower (2#1) (-140)) in *. lra.
Qed.

Lemma weight_zero R d d2 sc S W : (W == 0)%Q -> scale_value sc S -> moderate_scale S ->
  exists v, fcast d2 (fcast d (mul_op R d (inv_square R sc) (to_fl d (NF (Fin W))))) = Fin v /\ (v == 0)%Q.
Proof.
  intros EW HS MS. destruct (inv_square_near R sc S HS MS) as (T & HT & AT). cbn [to_fl fcast].
  destruct (fround_zero d W EW) as (x & -> & Ex).
  assert (Z : forall d' y, (y == 0)%Q -> exists v, fcast d' (Fin y) = Fin v /\ (v == 0)%Q) by (intros; apply fround_zero; assumption).
  assert (C : forall y, (y == 0)%Q -> exists v, fcast d2 (fcast d (Fin y)) = Fin v /\ (v == 0)%Q).
  { intros y Ey. destruct (Z d y Ey) as (y1 & -> & E1). apply Z; exact E1. }
  unfold mul_op. destruct (inv_square R sc) as [|ds y]; cbn [scale_value] in HT.
  - cbn [fmul]. destruct (fround_zero d (x * 1)) as (v & -> & Ev); [rewrite Ex; ring|]. apply C; exact Ev.
  - destruct y as [y| |]; [|contradiction|contradiction]. set (d' := r_mul R d ds). destruct (Z d' x Ex) as (x1 & -> & E1).
    destruct (inv_square_near R SOne 1) as (T1 & _); [reflexivity|split; vm_compute; discriminate|]. clear T1.
    assert (TB : (Qabs y <= two 126)%Q).
    { destruct MS as (S1 & S2). rewrite <- HT. pose proof (approx_abs _ _ _ _ AT) as TU. pose proof ww_small.
      assert (Sn : ~ (S == 0)%Q). { intros E. rewrite E in S1. change (Qabs 0) with 0%Q in S1. vm_compute in S1. apply S1. reflexivity. }
      assert (Sp : (0 < Qabs S)%Q) by (apply Qabs_pos_neq; exact Sn).
      assert (IU : (Qabs (1 / (S * S)) <= two 60)%Q).
      { unfold Qdiv. rewrite Qmult_1_l, Qabs_Qinv, Qabs_Qmult. assert (two (-30) * two (-30) <= Qabs S * Qabs S)%Q.
        { apply Qmult_le_compat_nonneg; split; try exact S1; vm_compute; discriminate. }
        assert (E : (/ (Qabs S * Qabs S) == 1 / (Qabs S * Qabs S))%Q) by (unfold Qdiv; ring). rewrite E.
        apply Qle_shift_div_r; [nra|].
        assert (two 60 * (two (-30) * two (-30)) == 1)%Q as <- by (vm_compute; reflexivity). rewrite !(Qmult_comm (two 60)). apply Qmult_le_compat_r; [assumption|vm_compute; discriminate]. }
      assert (E61 : (two 61 == 2 * two 60)%Q) by (vm_compute; reflexivity).
      eapply Qle_trans; [exact TU|]. eapply Qle_trans; [|apply (two_le 61 126); lia]. pose proof (Qabs_nonneg (1 / (S * S))). nra. }
    cbn [fcast]. destruct (fround_spec d' y TB) as (y1 & -> & _). cbn [fmul]. destruct (fround_zero d' (x1 * y1)) as (v & -> & Ev); [rewrite E1; ring|]. apply C; exact Ev.
Qed.
