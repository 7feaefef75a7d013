(** Rounding: relative error, and exactness on small integers. *)
From Coq Require Import Lia ZifyBool ZifyNat Lqa Qround Qpower.
From Verif Require Import Base BaseLemmas BoundsM Single CompositeLemmas.
Open Scope Z_scope.

Notation "'two'" := (Qpower (2#1)) (only parsing).

Lemma two_pos k : (0 < two k)%Q.
Proof. apply Qpower_0_lt. reflexivity. Qed.

Lemma two_plus a b : (two (a + b) == two a * two b)%Q.
Proof. apply Qpower_plus. discriminate. Qed.

Lemma two_Z k : 0 <= k -> (inject_Z (2 ^ k) == two k)%Q.
Proof. intros H. rewrite Zpower_Qpower by exact H. reflexivity. Qed.

Lemma two_inv k : (two k * two (- k) == 1)%Q.
Proof. rewrite <- two_plus. replace (k + - k) with 0 by lia. reflexivity. Qed.

Lemma half_even_err y : (y - (1#2) <= inject_Z (half_even y) <= y + (1#2))%Q.
Proof.
  unfold half_even. pose proof (Qfloor_le y) as A. pose proof (Qlt_floor y) as B. rewrite inject_Z_plus in B. change (inject_Z 1) with 1%Q in B.
  cbv zeta. destruct (qltb (y - inject_Z (Qfloor y)) (1#2)) eqn:E1.
  - apply qltb_true in E1. lra.
  - apply qltb_false in E1. destruct (qltb (1#2) _) eqn:E2.
    + apply qltb_true in E2. rewrite inject_Z_plus. change (inject_Z 1) with 1%Q. lra.
    + apply qltb_false in E2. destruct (Z.even _); [lra|]. rewrite inject_Z_plus. change (inject_Z 1) with 1%Q. lra.
Qed.

Lemma half_even_int y z : (y == inject_Z z)%Q -> half_even y = z.
Proof.
  intros E. unfold half_even. assert (F : Qfloor y = z) by (rewrite E; apply Qfloor_Z). rewrite F. cbv zeta.
  replace (qltb (y - inject_Z z) (1#2)) with true; [reflexivity|]. symmetry. apply qltb_true. lra.
Qed.

(** A positive fraction between powers of two. *)
Lemma log_bounds x : (0 < x)%Q -> let e := Z.log2 (Qnum x) - Z.log2 (Zpos (Qden x)) in
  (two (e - 1) < x < two (e + 1))%Q.
Proof.
  intros H. destruct x as [n d]. assert (Hn : 0 < n) by (unfold Qlt in H; cbn in H; lia). cbn [Qnum Qden]. cbv zeta.
  pose proof (Z.log2_spec n Hn) as (A1 & A2). pose proof (Z.log2_spec (Zpos d) ltac:(lia)) as (B1 & B2).
  pose proof (Z.log2_nonneg n) as Ln. pose proof (Z.log2_nonneg (Zpos d)) as Ld.
  set (a := Z.log2 n) in *. set (b := Z.log2 (Zpos d)) in *. rewrite <- Z.add_1_r in A2, B2.
  assert (EX : (n # d == inject_Z n / inject_Z (Zpos d))%Q) by (rewrite <- Qmake_Qdiv; reflexivity).
  rewrite Zle_Qle in A1, B1. rewrite Zlt_Qlt in A2, B2. rewrite two_Z in A1, A2, B1, B2 by lia.
  assert (HD : (0 < inject_Z (Zpos d))%Q) by reflexivity.
  rewrite EX. pose proof (two_pos a). pose proof (two_pos b).
  assert (P : (two (a - b - 1) * two (b + 1) == two a)%Q) by (rewrite <- two_plus; replace (a - b - 1 + (b + 1)) with a by lia; reflexivity).
  assert (R : (two (a - b + 1) * two b == two (a + 1))%Q) by (rewrite <- two_plus; replace (a - b + 1 + b) with (a + 1) by lia; reflexivity).
  pose proof (two_pos (a - b - 1)) as Q1. pose proof (two_pos (a - b + 1)) as Q2.
  split.
  - apply Qlt_shift_div_l; [exact HD|]. eapply Qlt_le_trans; [|exact A1]. rewrite <- P.
    apply Qmult_lt_l; assumption.
  - apply Qlt_shift_div_r; [exact HD|]. eapply Qlt_le_trans; [exact A2|]. rewrite <- R.
    apply Qmult_le_l; assumption.
Qed.

Lemma scale_spec p x : 1 <= p -> (0 < x)%Q ->
  (two (p - 1) <= x * two (scale p x) < two p)%Q.
Proof.
  intros Hp H. unfold scale. pose proof (log_bounds x H) as (A & B). set (e := Z.log2 (Qnum x) - Z.log2 (Zpos (Qden x))) in *. cbv zeta.
  set (k := p - 1 - e). pose proof (two_pos k) as K.
  assert (A' : (two (p - 2) < x * two k)%Q).
  { assert (P : (two (e - 1) * two k == two (p - 2))%Q) by (rewrite <- two_plus; unfold k; replace (e - 1 + (p - 1 - e)) with (p - 2) by lia; reflexivity).
    rewrite <- P. apply Qmult_lt_r; assumption. }
  assert (B' : (x * two k < two p)%Q).
  { assert (P : (two (e + 1) * two k == two p)%Q) by (rewrite <- two_plus; unfold k; replace (e + 1 + (p - 1 - e)) with p by lia; reflexivity).
    rewrite <- P. apply Qmult_lt_r; assumption. }
  assert (D1 : (two (p - 1) == two (p - 2) * 2)%Q) by (change 2%Q with (two 1); rewrite <- two_plus; replace (p - 2 + 1) with (p - 1) by lia; reflexivity).
  assert (D2 : (two p == two (p - 1) * 2)%Q) by (change 2%Q with (two 1); rewrite <- two_plus; replace (p - 1 + 1) with p by lia; reflexivity).
  destruct (qltb _ _) eqn:E.
  - apply qltb_true in E. rewrite two_Z in E by lia.
    rewrite two_plus. change (two 1) with 2%Q. rewrite Qmult_assoc. lra.
  - apply qltb_false in E. rewrite two_Z in E by lia. lra.
Qed.

Lemma rnd_pos_err p x : 1 <= p -> (0 < x)%Q ->
  (x * (1 - two (- p)) <= rnd_pos p x <= x * (1 + two (- p)))%Q.
Proof.
  intros Hp H. unfold rnd_pos. destruct (scale_spec p x Hp H) as (A & B). set (k := scale p x) in *. cbv zeta.
  pose proof (half_even_err (x * two k)) as (C & D). set (m := inject_Z (half_even (x * two k))) in *.
  pose proof (two_pos (- k)) as K. pose proof (two_inv k) as I.
  assert (X : (x == x * two k * two (- k))%Q) by (rewrite <- Qmult_assoc, I; ring).
  assert (E : (two (p - 1) * two (- p) == 1#2)%Q) by (rewrite <- two_plus; replace (p - 1 + - p) with (-1) by lia; reflexivity).
  pose proof (two_pos (- p)) as Tp.
  assert (F : ((1#2) <= x * two k * two (- p))%Q).
  { rewrite <- E. apply Qmult_le_r; assumption. }
  assert (G : ((1#2) * two (- k) <= x * two (- p))%Q).
  { assert (G1 : (x * two (- p) == x * two k * two (- p) * two (- k))%Q).
    { transitivity (x * two k * two (- k) * two (- p))%Q; [rewrite <- X; reflexivity|ring]. }
    rewrite G1. apply Qmult_le_r; assumption. }
  assert (C' : ((x * two k - (1#2)) * two (- k) <= m * two (- k))%Q) by (apply Qmult_le_r; assumption).
  assert (D' : (m * two (- k) <= (x * two k + (1#2)) * two (- k))%Q) by (apply Qmult_le_r; assumption).
  lra.
Qed.

(** Exact when the scaled number is an integer. *)
Lemma rnd_pos_exact p x z : 1 <= p -> (x == inject_Z z)%Q -> 0 < z < 2 ^ p -> (rnd_pos p x == x)%Q.
Proof.
  intros Hp E Hz. assert (H : (0 < x)%Q) by (rewrite E; change 0%Q with (inject_Z 0); rewrite <- Zlt_Qlt; lia).
  unfold rnd_pos. destruct (scale_spec p x Hp H) as (A & B). set (k := scale p x) in *. cbv zeta.
  assert (Hk : 0 <= k).
  { destruct (Z_lt_le_dec k 0) as [C|C]; [|exact C]. exfalso.
    assert (x * two k < two (p - 1))%Q; [|lra].
    assert (C1 : (x < two p)%Q) by (rewrite E, <- two_Z, <- Zlt_Qlt by lia; lia).
    eapply Qlt_le_trans with (two p * two k)%Q; [apply Qmult_lt_r; [apply two_pos|exact C1]|].
    rewrite <- two_plus. apply Qpower_le_compat_l; [lia|discriminate]. }
  rewrite (half_even_int (x * two k) (z * 2 ^ k)).
  - rewrite inject_Z_mult, two_Z, <- E by exact Hk. rewrite <- Qmult_assoc, two_inv. ring.
  - rewrite inject_Z_mult, two_Z, <- E by exact Hk. reflexivity.
Qed.

(** Halves of integers too, with one bit less. *)
Lemma rnd_pos_exact_half p x z : 1 <= p -> (x == inject_Z z * (1#2))%Q -> 0 < z < 2 ^ p -> (rnd_pos p x == x)%Q.
Proof.
  intros Hp E Hz. assert (H : (0 < x)%Q).
  { assert (0 < inject_Z z)%Q by (change 0%Q with (inject_Z 0); rewrite <- Zlt_Qlt; lia). lra. }
  unfold rnd_pos. destruct (scale_spec p x Hp H) as (A & B). set (k := scale p x) in *. cbv zeta.
  assert (Hk : 1 <= k).
  { destruct (Z_lt_le_dec k 1) as [C|C]; [|exact C]. exfalso.
    assert (x * two k < two (p - 1))%Q; [|lra].
    assert (C1 : (x < two (p - 1))%Q).
    { assert (inject_Z z < two p)%Q by (rewrite <- two_Z, <- Zlt_Qlt by lia; lia).
      assert (D2 : (two p == two (p - 1) * 2)%Q) by (change 2%Q with (two 1); rewrite <- two_plus; replace (p - 1 + 1) with p by lia; reflexivity).
      lra. }
    eapply Qlt_le_trans with (two (p - 1) * two k)%Q; [apply Qmult_lt_r; [apply two_pos|exact C1]|].
    rewrite <- two_plus. apply Qpower_le_compat_l; [lia|discriminate]. }
  assert (D : (two k == two (k - 1) * 2)%Q) by (change 2%Q with (two 1); rewrite <- two_plus; replace (k - 1 + 1) with k by lia; reflexivity).
  assert (Y : (x * two k == inject_Z (z * 2 ^ (k - 1)))%Q).
  { rewrite inject_Z_mult, two_Z by lia. rewrite D, E. ring. }
  rewrite (half_even_int _ _ Y), <- Y, <- Qmult_assoc, two_inv. ring.
Qed.

(** * All numbers *)
Lemma rnd_pos_case p x : (0 < x)%Q -> rnd p x = rnd_pos p (Qred x).
Proof.
  intros H. unfold rnd. cbv zeta. replace (qltb 0 (Qred x)) with true; [reflexivity|].
  symmetry. apply qltb_true. rewrite Qred_correct. exact H.
Qed.

Lemma rnd_neg_case p x : (x < 0)%Q -> rnd p x = Qopp (rnd_pos p (Qopp (Qred x))).
Proof.
  intros H. unfold rnd. cbv zeta. replace (qltb 0 (Qred x)) with false.
  - replace (qltb (Qred x) 0) with true; [reflexivity|]. symmetry. apply qltb_true. rewrite Qred_correct. exact H.
  - symmetry. apply qltb_false. rewrite Qred_correct. lra.
Qed.

Lemma rnd_zero p x : (x == 0)%Q -> rnd p x = 0%Q.
Proof.
  intros H. unfold rnd. cbv zeta. replace (qltb 0 (Qred x)) with false; [replace (qltb (Qred x) 0) with false; [reflexivity|]|];
    symmetry; apply qltb_false; rewrite Qred_correct; lra.
Qed.

Lemma rnd_err p x : 1 <= p -> (0 <= x)%Q -> (x * (1 - two (- p)) <= rnd p x <= x * (1 + two (- p)))%Q.
Proof.
  intros Hp H. destruct (Qlt_le_dec 0 x) as [L|L].
  - rewrite rnd_pos_case by exact L. pose proof (Qred_correct x) as EQ. revert EQ. generalize (Qred x). intros y EQ.
    assert (Ly : (0 < y)%Q) by lra. pose proof (rnd_pos_err p y Hp Ly) as (E1 & E2).
    split; [eapply Qle_trans; [|exact E1]|eapply Qle_trans; [exact E2|]]; rewrite EQ; apply Qle_refl.
  - rewrite rnd_zero by lra. assert (x == 0)%Q by lra. rewrite H0. lra.
Qed.

Lemma rnd_compat p x y : (x == y)%Q -> rnd p x = rnd p y.
Proof. intros H. unfold rnd. rewrite (Qred_complete x y H). reflexivity. Qed.

Lemma rnd_exact p x z : 1 <= p -> (x == inject_Z z)%Q -> - 2 ^ p < z < 2 ^ p -> (rnd p x == inject_Z z)%Q.
Proof.
  intros Hp E Hz. destruct (Q_dec x 0) as [[L|L]|L].
  - rewrite rnd_neg_case by exact L. rewrite (rnd_pos_exact p _ (- z) Hp).
    + rewrite Qred_correct, E. ring.
    + rewrite Qred_correct, E, inject_Z_opp. reflexivity.
    + rewrite E in L. change 0%Q with (inject_Z 0) in L. rewrite <- Zlt_Qlt in L. lia.
  - rewrite rnd_pos_case by exact L. rewrite (rnd_pos_exact p _ z Hp).
    + rewrite Qred_correct. exact E.
    + rewrite Qred_correct. exact E.
    + rewrite E in L. change 0%Q with (inject_Z 0) in L. rewrite <- Zlt_Qlt in L. lia.
  - rewrite rnd_zero by exact L. rewrite <- E, L. reflexivity.
Qed.

Lemma rnd_exact_half p x z : 1 <= p -> (x == inject_Z z * (1#2))%Q -> 0 <= z < 2 ^ p -> (rnd p x == inject_Z z * (1#2))%Q.
Proof.
  intros Hp E Hz. destruct (Z.eq_dec z 0) as [-> |N].
  - rewrite rnd_zero; [reflexivity|]. rewrite E. reflexivity.
  - assert (0 < inject_Z z)%Q by (change 0%Q with (inject_Z 0); rewrite <- Zlt_Qlt; lia).
    rewrite rnd_pos_case by lra. rewrite (rnd_pos_exact_half p _ z Hp); rewrite ?Qred_correct; [exact E|exact E|lia].
Qed.

(** * Single and double *)
Definition eps : Q := 1#1000.

Lemma f32_err x : (0 <= x)%Q -> (x * (1 - eps) <= f32 x <= x * (1 + eps))%Q.
Proof.
  intros H. unfold f32. pose proof (rnd_err 24 x ltac:(lia) H) as (A & B).
  assert (T : (two (- (24)) <= eps)%Q) by discriminate. split; nra.
Qed.

Lemma f64_err x : (0 <= x)%Q -> (x * (1 - eps) <= f64 x <= x * (1 + eps))%Q.
Proof.
  intros H. unfold f64. pose proof (rnd_err 53 x ltac:(lia) H) as (A & B).
  assert (T : (two (- (53)) <= eps)%Q) by discriminate. split; nra.
Qed.

Lemma f32_int x z : (x == inject_Z z)%Q -> - 2 ^ 24 < z < 2 ^ 24 -> (f32 x == inject_Z z)%Q.
Proof. intros E H. apply rnd_exact; [lia|exact E|exact H]. Qed.

Lemma f32_half x z : (x == inject_Z z * (1#2))%Q -> 0 <= z < 2 ^ 24 -> (f32 x == inject_Z z * (1#2))%Q.
Proof. intros E H. apply rnd_exact_half; [lia|exact E|exact H]. Qed.

Lemma f64_half x z : (x == inject_Z z * (1#2))%Q -> 0 <= z < 2 ^ 24 -> (f64 x == inject_Z z * (1#2))%Q.
Proof. intros E H. apply rnd_exact_half; [lia|exact E|lia]. Qed.

Lemma sqrt64_spec x : (0 < x)%Q -> (0 < sqrt64 x)%Q /\ (x * (99#100) <= sqrt64 x * sqrt64 x)%Q.
Proof.
  intros H. unfold sqrt64. cbv zeta. assert (EQ : (Qred x == x)%Q) by apply Qred_correct.
  destruct (Qred x) as [n d] eqn:Ex. cbn [Qnum Qden].
  assert (Hn : 0 < n). { rewrite <- EQ in H. unfold Qlt in H; cbn in H; lia. }
  set (N := n * Zpos d * 4 ^ 64). set (r := Z.sqrt N).
  assert (HN : 4 ^ 64 <= N) by (unfold N; pose proof (Pos2Z.is_pos d); nia).
  pose proof (Z.sqrt_spec N ltac:(lia)) as (S1 & S2). fold r in S1, S2. rewrite <- Z.add_1_r in S2.
  assert (Hr : 2 ^ 64 <= r). { unfold r. change (2 ^ 64) with (Z.sqrt (4 ^ 64)). apply Z.sqrt_le_mono. exact HN. }
  set (v := if r * r =? N then 2 * r else 2 * r + 1).
  assert (Hv : 2 * r <= v) by (unfold v; destruct (_ =? _); lia).
  set (D := (2 * d * 2 ^ 64)%positive).
  assert (ED : inject_Z (Zpos D) == 2 * inject_Z (Zpos d) * inject_Z (2 ^ 64)).
  { unfold D. rewrite !Pos2Z.inj_mul, !inject_Z_mult, Pos2Z.inj_pow. reflexivity. }
  set (y := v # D). assert (EY : (y == inject_Z v / inject_Z (Zpos D))%Q) by (unfold y; rewrite <- Qmake_Qdiv; reflexivity).
  assert (HD : (0 < inject_Z (Zpos D))%Q) by reflexivity. assert (Hd : (0 < inject_Z (Zpos d))%Q) by reflexivity.
  assert (YV : (y * inject_Z (Zpos D) == inject_Z v)%Q) by (rewrite EY; field; lra).
  assert (Hv' : (2 * inject_Z r <= inject_Z v)%Q) by (change 2%Q with (inject_Z 2); rewrite <- inject_Z_mult, <- Zle_Qle; exact Hv).
  assert (Hr' : (inject_Z (2 ^ 64) <= inject_Z r)%Q) by (rewrite <- Zle_Qle; exact Hr).
  assert (T : (10000 <= inject_Z (2 ^ 64))%Q) by discriminate.
  assert (Y0 : (0 < y)%Q) by nra.
  assert (XN : (x * (inject_Z (Zpos d) * inject_Z (Zpos d)) * (inject_Z (2 ^ 64) * inject_Z (2 ^ 64)) == inject_Z N)%Q).
  { rewrite <- EQ. unfold N. rewrite !inject_Z_mult. change (inject_Z (4 ^ 64)) with (inject_Z (2 ^ 64 * 2 ^ 64)). rewrite inject_Z_mult.
    assert (E2 : (n # d == inject_Z n / inject_Z (Zpos d))%Q) by (rewrite <- Qmake_Qdiv; reflexivity). rewrite E2. field. lra. }
  assert (S2' : (inject_Z N < (inject_Z r + 1) * (inject_Z r + 1))%Q).
  { change 1%Q with (inject_Z 1). rewrite <- inject_Z_plus, <- inject_Z_mult, <- Zlt_Qlt. exact S2. }
  set (R := inject_Z r) in *. set (V := inject_Z v) in *. set (dd := inject_Z (Zpos d)) in *. set (t := inject_Z (2 ^ 64)) in *.
  assert (B1 : (x * (999#1000) <= y * y)%Q).
  { assert (B : (x * (999#1000) * ((dd * dd) * (t * t)) <= y * y * ((dd * dd) * (t * t)))%Q).
    { assert (YD : (y * y * (dd * dd * (t * t)) * 4 == V * V)%Q) by (rewrite <- YV, ED; ring).
      assert (V4 : (4 * (R * R) <= V * V)%Q) by nra.
      assert (R2 : ((R + 1) * (R + 1) * (999#1000) <= R * R)%Q).
      { assert (RT : (10000 <= R)%Q) by lra. assert (R * 10000 <= R * R)%Q by nra. lra. }
      assert (XX : (x * (999#1000) * (dd * dd * (t * t)) == (x * (dd * dd) * (t * t)) * (999#1000))%Q) by ring.
      rewrite XX, XN. lra. }
    apply Qmult_le_r in B; [exact B|]. assert (0 < dd * dd)%Q by nra. assert (0 < t * t)%Q by nra. nra. }
  pose proof (f64_err y ltac:(lra)) as (F1 & F2). unfold eps in F1, F2. split; [lra|].
  assert (y * (999#1000) * (y * (999#1000)) <= f64 y * f64 y)%Q by nra. nra.
Qed.
