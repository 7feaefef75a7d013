(** Rounding with gradual underflow and overflow: errors and exactness. *)
From Coq Require Import Lia ZifyBool ZifyNat Lqa Qround Qpower Qabs.
From Verif Require Import Base BaseLemmas Img Types BoundsM Single SingleLemmas CompositeLemmas Typed SpecTyped.
Open Scope Z_scope.

Definition uu : Q := Qpower (2#1) (-24).
Definition eta : Q := Qpower (2#1) (-150).

Lemma two_le a b : a <= b -> (two a <= two b)%Q.
Proof. intros H. apply Qpower_le_compat_l; [exact H|discriminate]. Qed.
Lemma two_lt_inv a b : (two a < two b)%Q -> a < b.
Proof. intros H. destruct (Z_lt_le_dec a b) as [C|C]; [exact C|]. pose proof (two_le b a C). lra. Qed.
Lemma f_prec_pos d : 24 <= f_prec d. Proof. destruct d; cbn; lia. Qed.
Lemma f_low_ge d : 149 <= f_low d. Proof. destruct d; cbn; lia. Qed.

Lemma fround_pos_err d x : (0 < x)%Q -> let v := fround_pos d x in
  (0 <= v)%Q /\ (x - (uu * x + eta) <= v <= x + (uu * x + eta))%Q /\
  ((two (-126) <= x)%Q -> (x - uu * x <= v <= x + uu * x)%Q).
Proof.
  intros H. unfold fround_pos. pose proof (f_prec_pos d) as Hp. destruct (scale_spec (f_prec d) x ltac:(lia) H) as (A & B).
  set (k0 := scale (f_prec d) x) in *. set (k := Z.min k0 (f_low d)). cbv zeta.
  pose proof (half_even_err (x * two k)) as (C & D). set (m := inject_Z (half_even (x * two k))) in *.
  pose proof (two_pos (- k)) as K. pose proof (two_inv k) as I. pose proof (two_pos k) as K'.
  assert (X : (x * two k * two (- k) == x)%Q) by (rewrite <- Qmult_assoc, I; ring).
  assert (C' : ((x * two k - (1#2)) * two (- k) <= m * two (- k))%Q) by (apply Qmult_le_r; assumption).
  assert (D' : (m * two (- k) <= (x * two k + (1#2)) * two (- k))%Q) by (apply Qmult_le_r; assumption).
  assert (G1 : k = k0 -> ((1#2) * two (- k) <= uu * x)%Q).
  { intros ->.
    assert (E : (two (f_prec d - 1) * two (- f_prec d) == 1#2)%Q) by (rewrite <- two_plus; replace (f_prec d - 1 + - f_prec d) with (-1) by lia; reflexivity).
    assert (F : ((1#2) <= x * two k0 * two (- f_prec d))%Q) by (rewrite <- E; apply Qmult_le_r; [apply two_pos|exact A]).
    assert (F2 : (x * two k0 * two (- f_prec d) <= x * two k0 * uu)%Q).
    { apply Qmult_le_l; [|apply two_le; lia]. apply Qlt_le_trans with (two (f_prec d - 1)); [apply two_pos|exact A]. }
    apply Qle_trans with (x * two k0 * uu * two (- k0))%Q; [apply Qmult_le_r; [exact K|lra]|].
    assert (E2 : (x * two k0 * uu * two (- k0) == uu * (x * two k0 * two (- k0)))%Q) by ring. rewrite E2, X. lra. }
  assert (G2 : k <> k0 -> ((1#2) * two (- k) <= eta)%Q).
  { intros N. assert (k = f_low d) by lia. assert (T : (1#2 == two (-1))%Q) by reflexivity. rewrite T, <- two_plus. apply two_le. pose proof (f_low_ge d). lia. }
  assert (U : (0 < uu)%Q) by reflexivity. assert (V : (0 < eta)%Q) by reflexivity.
  assert (UX : (0 <= uu * x)%Q) by (apply Qmult_le_0_compat; lra).
  split; [|split].
  - apply Qmult_le_0_compat; [|lra]. unfold m. change 0%Q with (inject_Z 0). rewrite <- Zle_Qle. 
    assert (P : (0 < x * two k)%Q) by (apply Qmult_lt_0_compat; assumption).
    assert (L : (inject_Z (-1) < inject_Z (half_even (x * two k)))%Q) by (fold m; change (inject_Z (-1)) with (-1)%Q; lra).
    rewrite <- Zlt_Qlt in L. lia.
  - destruct (Z.eq_dec k k0) as [Ek|Nk]; [specialize (G1 Ek)|specialize (G2 Nk)]; lra.
  - intros L. assert (Ek : k = k0).
    { assert (two (k0 + -126) < two (f_prec d))%Q.
      { rewrite two_plus. apply Qle_lt_trans with (x * two k0)%Q; [|exact B]. rewrite Qmult_comm. apply Qmult_le_r; [apply two_pos|exact L]. }
      apply two_lt_inv in H0. destruct d; cbn in *; lia. }
    specialize (G1 Ek). lra.
Qed.

(** The result of rounding [x]. *)
Definition rounds (x v : Q) : Prop :=
  (Qabs (v - x) <= uu * Qabs x + eta)%Q /\ ((two (-126) <= Qabs x)%Q -> (Qabs (v - x) <= uu * Qabs x)%Q) /\ ((x == 0)%Q -> (v == 0)%Q).

Lemma Qabs_bound a b : (- b <= a <= b)%Q -> (Qabs a <= b)%Q.
Proof. intros H. apply Qabs_Qle_condition. exact H. Qed.

Lemma fround_spec d x : (Qabs x <= two 126)%Q -> exists v, fround d x = Fin v /\ rounds x v.
Proof.
  intros B. unfold fround. pose proof (Qred_correct x) as R. set (y := Qred x) in *. cbv zeta. unfold rounds.
  setoid_rewrite <- R. rewrite <- R in B.
  assert (S : forall z, (0 < z)%Q -> (z <= two 126)%Q -> qltb (fround_pos d z) (inject_Z (2 ^ f_emax d)) = true).
  { intros z Hz Bz. destruct (fround_pos_err d z Hz) as (_ & P & _). apply qltb_true. rewrite two_Z by (destruct d; cbn; lia).
    apply Qle_lt_trans with (z + (uu * z + eta))%Q; [apply P|].
    apply Qlt_le_trans with (two 128); [|apply two_le; destruct d; cbn; lia].
    assert (uu * z <= 1 * z)%Q by (apply Qmult_le_r; [exact Hz|discriminate]).
    assert (eta <= 1)%Q by discriminate. assert (T : (two 126 * 2 + 1 < two 128)%Q) by reflexivity. lra. }
  destruct (qltb 0 y) eqn:E1.
  - apply qltb_true in E1. rewrite Qabs_pos in B by lra. rewrite S by assumption. eexists. split; [reflexivity|].
    destruct (fround_pos_err d y E1) as (P0 & P1 & P2). rewrite !(Qabs_pos y) by lra. split; [|split].
    + apply Qabs_bound. lra.
    + intros L. specialize (P2 L). apply Qabs_bound. lra.
    + intros Z0. lra.
  - apply qltb_false in E1. destruct (qltb y 0) eqn:E2.
    + apply qltb_true in E2. rewrite Qabs_neg in B by lra. assert (N : (0 < - y)%Q) by lra. rewrite S by (try assumption; lra). eexists. split; [reflexivity|].
      destruct (fround_pos_err d (- y) N) as (P0 & P1 & P2). rewrite !(Qabs_neg y) by lra. split; [|split].
      * apply Qabs_bound. lra.
      * intros L. specialize (P2 L). apply Qabs_bound. lra.
      * intros Z0. lra.
    + apply qltb_false in E2. assert (Z0 : (y == 0)%Q) by lra. exists 0%Q. split; [reflexivity|].
      assert (A0 : (Qabs y == 0)%Q) by (rewrite Z0; reflexivity). assert (A1 : (Qabs (0 - y) == 0)%Q) by (rewrite Z0; reflexivity).
      rewrite A0, A1. split; [discriminate|]. split; [intros L; exfalso; revert L; apply Qlt_not_le; reflexivity|]. reflexivity.
Qed.

(** Exact on the numbers of the type. *)
Lemma fround_pos_exact d x m e : (0 < x)%Q -> (x == inject_Z m * two e)%Q -> m < 2 ^ f_prec d -> - f_low d <= e -> (fround_pos d x == x)%Q.
Proof.
  intros H E Hm He. unfold fround_pos. pose proof (f_prec_pos d) as Hp. destruct (scale_spec (f_prec d) x ltac:(lia) H) as (A & B).
  set (k0 := scale (f_prec d) x) in *. set (k := Z.min k0 (f_low d)). cbv zeta.
  assert (Hk : 0 <= e + k).
  { destruct (Z_le_gt_dec (f_low d) k0) as [C|C]; [lia|]. assert (k = k0) by lia. rewrite H0.
    assert (two (f_prec d - 1) < two (f_prec d + e + k0))%Q.
    { eapply Qle_lt_trans; [exact A|]. rewrite two_plus. apply Qmult_lt_r; [apply two_pos|]. rewrite E, two_plus. apply Qmult_lt_r; [apply two_pos|].
      rewrite <- two_Z by lia. rewrite <- Zlt_Qlt. exact Hm. }
    apply two_lt_inv in H1. lia. }
  assert (Y : (x * two k == inject_Z (m * 2 ^ (e + k)))%Q).
  { rewrite inject_Z_mult, two_Z by exact Hk. rewrite two_plus, E. ring. }
  rewrite (half_even_int _ _ Y), <- Y, <- Qmult_assoc, two_inv. ring.
Qed.

Lemma fround_exact d x : is_float d x -> exists v, fround d x = Fin v /\ (v == x)%Q.
Proof.
  intros (m & e & E & B).
  assert (B' : - 2 ^ f_prec d < m < 2 ^ f_prec d /\ - f_low d <= e /\ (Qabs x < two (f_emax d))%Q) by (destruct d; exact B).
  clear B. destruct B' as (Hm & He & Hx). unfold fround. pose proof (Qred_correct x) as R. set (y := Qred x) in *. cbv zeta.
  rewrite <- R in E, Hx. setoid_rewrite <- R. assert (Hd : 0 <= f_emax d) by (destruct d; cbn; lia).
  destruct (qltb 0 y) eqn:E1.
  - apply qltb_true in E1. pose proof (fround_pos_exact d y m e E1 E (proj2 Hm) He) as P. rewrite Qabs_pos in Hx by lra.
    replace (qltb (fround_pos d y) (inject_Z (2 ^ f_emax d))) with true; [eexists; split; [reflexivity|exact P]|].
    symmetry. apply qltb_true. rewrite P, two_Z by exact Hd. exact Hx.
  - apply qltb_false in E1. destruct (qltb y 0) eqn:E2.
    + apply qltb_true in E2. assert (N : (0 < - y)%Q) by lra.
      assert (P : (fround_pos d (- y) == - y)%Q).
      { apply (fround_pos_exact d (- y) (- m) e); [exact N| |lia|exact He]. rewrite E, inject_Z_opp. ring. }
      rewrite Qabs_neg in Hx by lra.
      replace (qltb (fround_pos d (- y)) (inject_Z (2 ^ f_emax d))) with true; [eexists; split; [reflexivity|rewrite P; ring]|].
      symmetry. apply qltb_true. rewrite P, two_Z by exact Hd. exact Hx.
    + apply qltb_false in E2. exists 0%Q. split; [reflexivity|lra].
Qed.

Lemma is_float_dbl d x : is_float d x -> is_float true x.
Proof.
  destruct d; [auto|]. intros (m & e & E & H1 & H2 & H3). exists m, e. split; [exact E|]. split; [|split].
  - assert (2 ^ 24 < 2 ^ 53) by (apply Z.pow_lt_mono_r; lia). lia.
  - lia.
  - eapply Qlt_le_trans; [exact H3|]. apply two_le. lia.
Qed.
Lemma is_float_or d d' x : is_float d x -> is_float (d || d') x.
Proof. intros H. destruct d'; [rewrite Bool.orb_true_r; apply (is_float_dbl d); exact H|rewrite Bool.orb_false_r; exact H]. Qed.
