(** Errors of chains of rounded operations. *)
From Coq Require Import Lia ZifyBool ZifyNat Lqa Qround Qpower Qabs.
From Verif Require Import Base BaseLemmas Img Types BoundsM Single SingleLemmas CompositeLemmas Typed SpecTyped TypedLemmas.
Open Scope Z_scope.

Definition approx (k c x X : Q) : Prop := (Qabs (x - X) <= k * Qabs X + c)%Q.
Definition ww : Q := ((9#8) * uu)%Q.

Lemma approx_abs k c x X : approx k c x X -> (Qabs x <= (1 + k) * Qabs X + c)%Q.
Proof.
  intros A. unfold approx in A. assert (E : (x == (x - X) + X)%Q) by ring.
  rewrite E at 1. eapply Qle_trans; [apply Qabs_triangle|]. lra.
Qed.

Lemma approx_abs_low x X k : approx k 0 x X -> ((1 - k) * Qabs X <= Qabs x)%Q.
Proof.
  intros A. unfold approx in A. assert (E : (X == x + - (x - X))%Q) by ring.
  pose proof (Qabs_triangle x (- (x - X))) as T. rewrite <- E in T. rewrite Qabs_opp in T. lra.
Qed.

Lemma approx_refl x X : (x == X)%Q -> approx 0 0 x X.
Proof. intros E. unfold approx. assert (D : (x - X == 0)%Q) by (rewrite E; ring). rewrite D. cbn. lra. Qed.

Lemma approx_weaken k c k' c' x X : approx k c x X -> (k <= k')%Q -> (c <= c')%Q -> approx k' c' x X.
Proof.
  intros A Hk Hc. unfold approx in *. pose proof (Qabs_nonneg X).
  assert (k * Qabs X <= k' * Qabs X)%Q by (apply Qmult_le_compat_r; assumption). lra.
Qed.

Lemma approx_compat k c x X Y : approx k c x X -> (X == Y)%Q -> approx k c x Y.
Proof. intros A E. unfold approx in *. rewrite <- E. exact A. Qed.
Lemma approx_compat_l k c x y X : approx k c x X -> (x == y)%Q -> approx k c y X.
Proof. intros A E. unfold approx in *. rewrite <- E. exact A. Qed.

Lemma rounds_approx k c x X v : approx k c x X -> (0 <= k <= 1#16)%Q -> (0 <= c)%Q -> rounds x v -> approx (k + ww) (2 * c + eta) v X.
Proof.
  intros A Hk Hc (R & _). pose proof (approx_abs _ _ _ _ A) as B. unfold approx in *.
  assert (E : (v - X == (v - x) + (x - X))%Q) by ring. rewrite E. eapply Qle_trans; [apply Qabs_triangle|].
  pose proof (Qabs_nonneg X) as P. unfold ww.
  assert (U : (0 <= uu <= 1)%Q) by (split; discriminate).
  assert (B1 : (uu * Qabs x <= uu * ((1 + k) * Qabs X + c))%Q) by (apply Qmult_le_l; [reflexivity|exact B]).
  assert (B2 : (uu * ((1 + k) * Qabs X) <= uu * ((9#8) * Qabs X))%Q).
  { apply Qmult_le_l; [reflexivity|]. apply Qmult_le_compat_r; lra. }
  assert (B3 : (uu * c <= 1 * c)%Q) by (apply Qmult_le_compat_r; lra).
  lra.
Qed.

Lemma rounds_approx0 k x X v : approx k 0 x X -> (0 <= k <= 1#16)%Q -> (two (-126) <= Qabs x)%Q -> rounds x v -> approx (k + ww) 0 v X.
Proof.
  intros A Hk L (_ & R & _). specialize (R L). pose proof (approx_abs _ _ _ _ A) as B. unfold approx in *.
  assert (E : (v - X == (v - x) + (x - X))%Q) by ring. rewrite E. eapply Qle_trans; [apply Qabs_triangle|].
  pose proof (Qabs_nonneg X) as P. unfold ww.
  assert (B1 : (uu * Qabs x <= uu * ((1 + k) * Qabs X + 0))%Q) by (apply Qmult_le_l; [reflexivity|exact B]).
  assert (B2 : (uu * ((1 + k) * Qabs X) <= uu * ((9#8) * Qabs X))%Q).
  { apply Qmult_le_l; [reflexivity|]. apply Qmult_le_compat_r; lra. }
  lra.
Qed.

(** Rounding an approximation. *)
Lemma fround_step d k c x X : approx k c x X -> (0 <= k <= 1#16)%Q -> (0 <= c <= 1)%Q -> (Qabs X <= two 124)%Q ->
  exists v, fround d x = Fin v /\ approx (k + ww) (2 * c + eta) v X.
Proof.
  intros A Hk Hc HX. pose proof (approx_abs _ _ _ _ A) as B. pose proof (Qabs_nonneg X) as P.
  assert (B2 : ((1 + k) * Qabs X <= 2 * Qabs X)%Q) by (apply Qmult_le_compat_r; lra).
  assert (T : (2 * two 124 + 1 <= two 126)%Q) by discriminate.
  destruct (fround_spec d x) as (v & E & R); [lra|]. exists v. split; [exact E|].
  eapply rounds_approx; [exact A|exact Hk|lra|exact R].
Qed.

Lemma fround_step0 d k x X : approx k 0 x X -> (0 <= k <= 1#16)%Q -> (two (-120) <= Qabs X)%Q -> (Qabs X <= two 124)%Q ->
  exists v, fround d x = Fin v /\ approx (k + ww) 0 v X.
Proof.
  intros A Hk HL HX. pose proof (approx_abs _ _ _ _ A) as B. pose proof (approx_abs_low _ _ _ A) as L. pose proof (Qabs_nonneg X) as P.
  assert (B2 : ((1 + k) * Qabs X <= 2 * Qabs X)%Q) by (apply Qmult_le_compat_r; lra).
  assert (B3 : ((1#2) * Qabs X <= (1 - k) * Qabs X)%Q) by (apply Qmult_le_compat_r; lra).
  assert (T : (2 * two 124 <= two 126)%Q) by discriminate. assert (T2 : (two (-126) <= (1#2) * two (-120))%Q) by discriminate.
  destruct (fround_spec d x) as (v & E & R); [lra|]. exists v. split; [exact E|].
  eapply rounds_approx0; [exact A|exact Hk| |exact R]. lra.
Qed.

Lemma approx_mul k c k2 d D s S : approx k c d D -> approx k2 0 s S -> (0 <= k <= 1#8)%Q -> (0 <= k2 <= 1)%Q -> (0 <= c)%Q ->
  approx (k + (9#8) * k2) (2 * c * Qabs S) (d * s) (D * S).
Proof.
  intros A B Hk Hk2 Hc. pose proof (approx_abs _ _ _ _ B) as SB. unfold approx in *.
  assert (E : (d * s - D * S == (d - D) * s + D * (s - S))%Q) by ring. rewrite E. eapply Qle_trans; [apply Qabs_triangle|].
  rewrite !Qabs_Qmult. pose proof (Qabs_nonneg D) as PD. pose proof (Qabs_nonneg S) as PS. pose proof (Qabs_nonneg s) as Ps.
  pose proof (Qabs_nonneg (d - D)) as P1. set (aD := Qabs D) in *. set (aS := Qabs S) in *. set (as_ := Qabs s) in *.
  set (x1 := Qabs (d - D)) in *. set (x2 := Qabs (s - S)) in *. clearbody aD aS as_ x1 x2. clear E.
  assert (H1 : (x1 * as_ <= (k * aD + c) * ((1 + k2) * aS))%Q).
  { apply Qle_trans with ((k * aD + c) * as_)%Q; [apply Qmult_le_compat_r; assumption|].
    rewrite !(Qmult_comm (k * aD + c)). apply Qmult_le_compat_r; [lra|]. pose proof (Qmult_le_0_compat k aD ltac:(lra) PD). lra. }
  assert (H2 : (aD * x2 <= aD * (k2 * aS))%Q).
  { rewrite !(Qmult_comm aD). apply Qmult_le_compat_r; [lra|exact PD]. }
  assert (M : (0 <= aD * aS)%Q) by (apply Qmult_le_0_compat; assumption).
  assert (H3 : (k * k2 * (aD * aS) <= (1#8) * k2 * (aD * aS))%Q).
  { apply Qmult_le_compat_r; [|exact M]. apply Qmult_le_compat_r; lra. }
  assert (H4 : (k2 * (c * aS) <= 1 * (c * aS))%Q).
  { apply Qmult_le_compat_r; [lra|]. apply Qmult_le_0_compat; assumption. }
  assert (X1 : ((k * aD + c) * ((1 + k2) * aS) == k * (aD * aS) + k * k2 * (aD * aS) + c * aS + k2 * (c * aS))%Q) by ring.
  assert (X2 : (aD * (k2 * aS) == k2 * (aD * aS))%Q) by ring.
  assert (X3 : ((k + (9#8) * k2) * (aD * aS) + 2 * c * aS == k * (aD * aS) + k2 * (aD * aS) + (1#8) * k2 * (aD * aS) + 2 * (c * aS))%Q) by ring.
  rewrite X1 in H1. rewrite X2 in H2. rewrite X3. lra.
Qed.

Lemma Qabs_pos_neq S : ~ (S == 0)%Q -> (0 < Qabs S)%Q.
Proof.
  intros N. pose proof (Qabs_nonneg S) as P. pose proof (Qle_Qabs S) as A. pose proof (Qle_Qabs (- S)) as B. rewrite Qabs_opp in B.
  destruct (Qlt_le_dec 0 (Qabs S)) as [C|C]; [exact C|]. exfalso. apply N. lra.
Qed.

Lemma approx_inv k s S : approx k 0 s S -> (0 <= k <= 1#16)%Q -> ~ (S == 0)%Q -> ~ (s == 0)%Q /\ approx ((9#8) * k) 0 (1 / s) (1 / S).
Proof.
  intros A Hk N. pose proof (approx_abs_low _ _ _ A) as L. pose proof (Qabs_pos_neq S N) as PS.
  assert (L2 : ((15#16) * Qabs S <= (1 - k) * Qabs S)%Q) by (apply Qmult_le_compat_r; lra).
  assert (Ps : (0 < Qabs s)%Q) by lra.
  assert (Ns : ~ (s == 0)%Q) by (intros Z0; rewrite Z0 in Ps; revert Ps; apply Qle_not_lt; discriminate).
  split; [exact Ns|]. unfold approx in *.
  assert (I1 : (1 / s * s == 1)%Q) by (field; exact Ns). assert (I2 : (1 / S * S == 1)%Q) by (field; exact N).
  assert (E : (1 / s - 1 / S == - (1 / s * (1 / S) * (s - S)))%Q) by (field; split; assumption).
  rewrite E, Qabs_opp, !Qabs_Qmult.
  assert (J1 : (Qabs (1 / s) * Qabs s == 1)%Q) by (rewrite <- Qabs_Qmult, I1; reflexivity).
  assert (J2 : (Qabs (1 / S) * Qabs S == 1)%Q) by (rewrite <- Qabs_Qmult, I2; reflexivity).
  pose proof (Qabs_nonneg (1 / s)) as Q1. pose proof (Qabs_nonneg (1 / S)) as Q2. pose proof (Qabs_nonneg (s - S)) as Q3.
  set (i := Qabs (1 / s)) in *. set (j := Qabs (1 / S)) in *. set (x := Qabs (s - S)) in *. set (a := Qabs s) in *. set (b := Qabs S) in *.
  clearbody i j x a b. clear E I1 I2.
  assert (H1 : (i * j * x <= i * j * (k * b))%Q).
  { rewrite !(Qmult_comm (i * j)). apply Qmult_le_compat_r; [lra|]. apply Qmult_le_0_compat; assumption. }
  assert (E1 : (i * j * (k * b) == k * i * (j * b))%Q) by ring. rewrite E1, J2 in H1.
  assert (H2 : (i * ((15#16) * b) <= 1)%Q).
  { rewrite <- J1. rewrite !(Qmult_comm i). apply Qmult_le_compat_r; [lra|exact Q1]. }
  assert (H3 : ((15#16) * i <= j)%Q).
  { assert (H4 : (i * ((15#16) * b) * j <= 1 * j)%Q) by (apply Qmult_le_compat_r; assumption).
    assert (E2 : (i * ((15#16) * b) * j == (15#16) * i * (j * b))%Q) by ring. rewrite E2, J2 in H4. lra. }
  assert (H5 : (k * i <= k * ((9#8) * j))%Q).
  { rewrite !(Qmult_comm k). apply Qmult_le_compat_r; lra. }
  assert (E3 : ((9#8) * k * j == k * ((9#8) * j))%Q) by ring. rewrite E3. lra.
Qed.
