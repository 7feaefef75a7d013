(** Rounding keeps the order, does not cross numbers of the type, and its error. *)
From Coq Require Import Lia ZifyBool ZifyNat Lqa Qround Qpower Qabs.
From Verif Require Import Base BaseLemmas Img Types BoundsM Single SingleLemmas CompositeLemmas Typed SpecTyped TypedLemmas.
Open Scope Z_scope.

Lemma half_even_floor y : Qfloor y <= half_even y <= Qfloor y + 1.
Proof. unfold half_even. cbv zeta. destruct (qltb _ _); [lia|]. destruct (qltb _ _); [lia|]. destruct (Z.even _); lia. Qed.

Lemma half_even_ge y n : (inject_Z n <= y)%Q -> n <= half_even y.
Proof. intros H. pose proof (Qfloor_resp_le _ _ H) as F. rewrite Qfloor_Z in F. pose proof (half_even_floor y). lia. Qed.

Lemma half_even_le y n : (y <= inject_Z n)%Q -> half_even y <= n.
Proof.
  intros H. destruct (Qlt_le_dec y (inject_Z n)) as [L|L].
  - assert (F : Qfloor y < n). { pose proof (Qfloor_le y). rewrite Zlt_Qlt. lra. }
    pose proof (half_even_floor y). lia.
  - rewrite (half_even_int y n) by lra. lia.
Qed.

Lemma half_even_mono a b : (a <= b)%Q -> half_even a <= half_even b.
Proof.
  intros H. pose proof (Qfloor_resp_le _ _ H) as F. pose proof (half_even_floor a) as A. pose proof (half_even_floor b) as B.
  destruct (Z.eq_dec (Qfloor a) (Qfloor b)) as [E|E]; [|lia].
  clear A B. unfold half_even. rewrite E. cbv zeta. set (q := Qfloor b) in *. clearbody q. clear E F.
  destruct (qltb (a - inject_Z q) (1#2)) eqn:A1.
  - clear A1 H. destruct (qltb _ _); [lia|]. destruct (qltb _ _); [lia|]. destruct (Z.even _); lia.
  - apply qltb_false in A1. replace (qltb (b - inject_Z q) (1#2)) with false by (symmetry; apply qltb_false; lra).
    destruct (qltb (1#2) (a - inject_Z q)) eqn:A2.
    + apply qltb_true in A2. replace (qltb (1#2) (b - inject_Z q)) with true by (symmetry; apply qltb_true; lra). lia.
    + clear A1 A2 H. destruct (qltb _ _); [destruct (Z.even q); lia|]. apply Z.le_refl.
Qed.

(** * Positive numbers *)
Definition expo (d : bool) (x : Q) : Z := Z.min (scale (f_prec d) x) (f_low d).

Lemma expo_spec d x : (0 < x)%Q -> (x * two (expo d x) < two (f_prec d))%Q /\
  (expo d x = f_low d \/ (two (f_prec d - 1) <= x * two (expo d x))%Q).
Proof.
  intros H. pose proof (f_prec_pos d) as Hp. destruct (scale_spec (f_prec d) x ltac:(lia) H) as (A & B).
  unfold expo. destruct (Z_le_gt_dec (scale (f_prec d) x) (f_low d)) as [C|C].
  - rewrite Z.min_l by exact C. split; [exact B|right; exact A].
  - rewrite Z.min_r by lia. split; [|left; reflexivity]. eapply Qle_lt_trans; [|exact B].
    apply Qmult_le_l; [exact H|]. apply two_le. lia.
Qed.

Lemma scaled_le x y k : (x <= y)%Q -> (x * two k <= y * two k)%Q.
Proof. intros H. apply Qmult_le_r; [apply two_pos|exact H]. Qed.

Lemma scaled_le_inv x y k : (x * two k <= y * two k)%Q -> (x <= y)%Q.
Proof. intros H. apply Qmult_le_r in H; [exact H|apply two_pos]. Qed.

Lemma fpos_scaled d x : (fround_pos d x * two (expo d x) == inject_Z (half_even (x * two (expo d x))))%Q.
Proof. unfold fround_pos. fold (expo d x). cbv zeta. rewrite <- Qmult_assoc, (Qmult_comm (two (- _))), two_inv. ring. Qed.

(** A number of the type as a multiple of the last place of [x], or below the range of [x]. *)
Lemma float_steps d x m e : (0 < x)%Q -> m < 2 ^ f_prec d -> - f_low d <= e ->
  (exists n, (inject_Z m * two e * two (expo d x) == inject_Z n)%Q) \/
  ((two (f_prec d - 1) <= x * two (expo d x))%Q /\ (inject_Z m * two e * two (expo d x) <= two (f_prec d - 1))%Q).
Proof.
  intros H Hm He. destruct (expo_spec d x H) as (_ & C). set (k := expo d x) in *.
  pose proof (f_prec_pos d) as Hp.
  destruct (Z_le_gt_dec 0 (e + k)) as [P|P].
  - left. exists (m * 2 ^ (e + k)). rewrite inject_Z_mult, two_Z by exact P. rewrite two_plus. ring.
  - right. destruct C as [C|C]; [lia|]. split; [exact C|].
    rewrite <- Qmult_assoc, <- two_plus.
    destruct (Z_le_gt_dec m 0) as [N|N].
    + apply Qle_trans with 0%Q; [|pose proof (two_pos (f_prec d - 1)); lra].
      pose proof (two_pos (e + k)). assert ((inject_Z m <= 0)%Q) by (change 0%Q with (inject_Z 0); rewrite <- Zle_Qle; lia).
      assert (E : (0 == 0 * two (e + k))%Q) by ring. rewrite E. apply Qmult_le_r; assumption.
    + apply Qle_trans with (two (f_prec d) * two (e + k))%Q.
      * apply Qmult_le_r; [apply two_pos|]. rewrite <- two_Z by lia. rewrite <- Zle_Qle. lia.
      * rewrite <- two_plus. apply two_le. lia.
Qed.

Lemma fpos_ge d x m e : (0 < x)%Q -> m < 2 ^ f_prec d -> - f_low d <= e ->
  (inject_Z m * two e <= x)%Q -> (inject_Z m * two e <= fround_pos d x)%Q.
Proof.
  intros H Hm He L. apply (scaled_le_inv _ _ (expo d x)). rewrite fpos_scaled. apply (scaled_le _ _ (expo d x)) in L.
  destruct (float_steps d x m e H Hm He) as [(n & E)|(A & B)].
  - rewrite E in *. rewrite <- Zle_Qle. apply half_even_ge. exact L.
  - eapply Qle_trans; [exact B|]. pose proof (f_prec_pos d). rewrite <- two_Z by lia. rewrite <- Zle_Qle.
    apply half_even_ge. rewrite two_Z by lia. exact A.
Qed.

Lemma fpos_le d x m e : (0 < x)%Q -> m < 2 ^ f_prec d -> - f_low d <= e ->
  (x <= inject_Z m * two e)%Q -> (fround_pos d x <= inject_Z m * two e)%Q.
Proof.
  intros H Hm He L. apply (scaled_le_inv _ _ (expo d x)). rewrite fpos_scaled. apply (scaled_le _ _ (expo d x)) in L.
  destruct (float_steps d x m e H Hm He) as [(n & E)|(A & B)].
  - rewrite E in *. rewrite <- Zle_Qle. apply half_even_le. exact L.
  - rewrite (half_even_int _ (2 ^ (f_prec d - 1))).
    + pose proof (f_prec_pos d). rewrite two_Z by lia. lra.
    + pose proof (f_prec_pos d). rewrite two_Z by lia. lra.
Qed.

Lemma expo_mono d x y : (0 < x)%Q -> (x <= y)%Q -> expo d y <= expo d x.
Proof.
  intros H L. assert (Hy : (0 < y)%Q) by lra. pose proof (f_prec_pos d) as Hp.
  destruct (scale_spec (f_prec d) x ltac:(lia) H) as (_ & B). destruct (scale_spec (f_prec d) y ltac:(lia) Hy) as (A & _).
  unfold expo. enough (scale (f_prec d) y <= scale (f_prec d) x) by lia.
  set (a := scale (f_prec d) x) in *. set (b := scale (f_prec d) y) in *.
  destruct (Z_le_gt_dec b a) as [C|C]; [exact C|exfalso].
  assert (S : (x * two b <= y * two b)%Q) by (apply scaled_le; exact L).
  (* with more than one place between them nothing follows from x <= y alone: use the other direction *)
  assert (T : (y * two b < two (f_prec d))%Q) by (apply (scale_spec (f_prec d) y ltac:(lia) Hy)).
  assert (A' : (two (f_prec d - 1) <= x * two a)%Q) by (apply (scale_spec (f_prec d) x ltac:(lia) H)).
  assert (U : (two (f_prec d - 1) * two (b - a) <= x * two b)%Q).
  { replace b with (a + (b - a)) at 2 by lia. rewrite two_plus, Qmult_assoc. apply Qmult_le_r; [apply two_pos|exact A']. }
  rewrite <- two_plus in U. assert (V : (two (f_prec d) <= two (f_prec d - 1 + (b - a)))%Q) by (apply two_le; lia). lra.
Qed.

Lemma fpos_mono d x y : (0 < x)%Q -> (x <= y)%Q -> (fround_pos d x <= fround_pos d y)%Q.
Proof.
  intros H L. assert (Hy : (0 < y)%Q) by lra. pose proof (expo_mono d x y H L) as K.
  destruct (Z.eq_dec (expo d y) (expo d x)) as [E|E].
  - apply (scaled_le_inv _ _ (expo d x)). rewrite fpos_scaled, <- E, fpos_scaled. rewrite E. rewrite <- Zle_Qle. apply half_even_mono.
    apply scaled_le. exact L.
  - destruct (expo_spec d x H) as (X & _). destruct (expo_spec d y Hy) as (_ & [Y|Y]).
    + exfalso. unfold expo in *. lia.
    + pose proof (f_prec_pos d) as Hp. set (a := expo d x) in *. set (b := expo d y) in *.
      assert (Hf : - f_low d <= f_prec d - 1 - b) by (unfold b, expo; lia).
      assert (P : (inject_Z 1 * two (f_prec d - 1 - b) <= y)%Q).
      { apply (scaled_le_inv _ _ b). rewrite <- Qmult_assoc, <- two_plus. replace (f_prec d - 1 - b + b) with (f_prec d - 1) by lia.
        change (inject_Z 1) with 1%Q. lra. }
      assert (R : (x <= inject_Z 1 * two (f_prec d - 1 - b))%Q).
      { apply (scaled_le_inv _ _ a). rewrite <- Qmult_assoc, <- two_plus. change (inject_Z 1) with 1%Q.
        assert ((two (f_prec d) <= two (f_prec d - 1 - b + a))%Q) by (apply two_le; lia). lra. }
      assert (1 < 2 ^ f_prec d) by (apply Z.pow_gt_1; lia).
      eapply Qle_trans; [apply (fpos_le d x 1); eassumption|]. apply (fpos_ge d y 1); assumption.
Qed.

Lemma fpos_nonneg d x : (0 < x)%Q -> (0 <= fround_pos d x)%Q.
Proof. intros H. apply (fround_pos_err d x H). Qed.

Lemma fpos_err d x : (0 < x)%Q -> (Qabs (fround_pos d x - x) <= two (- f_prec d) * x + two (- f_low d - 1))%Q.
Proof.
  intros H. destruct (expo_spec d x H) as (_ & C). pose proof (fpos_scaled d x) as F. set (k := expo d x) in *.
  pose proof (half_even_err (x * two k)) as (A & B). rewrite <- F in A, B.
  pose proof (two_pos (- k)) as K. pose proof (two_inv k) as I.
  assert (X : forall z, (z * two k * two (- k) == z)%Q) by (intros z; rewrite <- Qmult_assoc, I; ring).
  assert (A' : ((x * two k - (1#2)) * two (- k) <= fround_pos d x * two k * two (- k))%Q) by (apply Qmult_le_r; assumption).
  assert (B' : (fround_pos d x * two k * two (- k) <= (x * two k + (1#2)) * two (- k))%Q) by (apply Qmult_le_r; assumption).
  rewrite X in A', B'. assert (EA : ((x * two k - (1#2)) * two (- k) == x - (1#2) * two (- k))%Q) by (rewrite <- (X x) at 2; ring).
  assert (EB : ((x * two k + (1#2)) * two (- k) == x + (1#2) * two (- k))%Q) by (rewrite <- (X x) at 2; ring).
  rewrite EA in A'. rewrite EB in B'.
  assert (Pl : (0 < two (- f_low d - 1))%Q) by apply two_pos. assert (Pp : (0 < two (- f_prec d))%Q) by apply two_pos.
  assert (P0 : (0 <= two (- f_prec d) * x)%Q) by (apply Qmult_le_0_compat; lra).
  assert (G : ((1#2) * two (- k) <= two (- f_prec d) * x + two (- f_low d - 1))%Q).
  { change (1#2)%Q with (two (-1)). destruct C as [C|C].
    - rewrite C, <- two_plus. replace (-1 + - f_low d) with (- f_low d - 1) by lia. lra.
    - assert (W : (two (f_prec d - 1) * two (- k) <= x * two k * two (- k))%Q) by (apply Qmult_le_r; assumption). rewrite X in W.
      assert (W2 : (two (- f_prec d) * (two (f_prec d - 1) * two (- k)) <= two (- f_prec d) * x)%Q) by (apply Qmult_le_l; assumption).
      assert (W3 : (two (- f_prec d) * (two (f_prec d - 1) * two (- k)) == two (-1) * two (- k))%Q).
      { rewrite Qmult_assoc, <- two_plus. replace (- f_prec d + (f_prec d - 1)) with (-1) by lia. reflexivity. }
      rewrite W3 in W2. lra. }
  apply Qabs_bound. lra.
Qed.

(** * All numbers *)
Lemma fround_le d x m e v : - 2 ^ f_prec d < m < 2 ^ f_prec d -> - f_low d <= e ->
  fround d x = Fin v -> (x <= inject_Z m * two e)%Q -> (v <= inject_Z m * two e)%Q.
Proof.
  intros Hm He. unfold fround. pose proof (Qred_correct x) as R. set (y := Qred x) in *. cbv zeta. intros F L. rewrite <- R in L.
  destruct (qltb 0 y) eqn:E1.
  - apply qltb_true in E1. destruct (qltb _ _); [|discriminate]. injection F as <-. apply fpos_le; try lia; assumption.
  - apply qltb_false in E1. destruct (qltb y 0) eqn:E2.
    + apply qltb_true in E2. destruct (qltb _ _); [|discriminate]. injection F as <-.
      assert (N : (0 < - y)%Q) by lra.
      pose proof (fpos_ge d (- y) (- m) e N ltac:(lia) He) as G. rewrite inject_Z_opp in G.
      assert (Z : (- inject_Z m * two e == - (inject_Z m * two e))%Q) by ring. rewrite Z in G. lra.
    + apply qltb_false in E2. injection F as <-. lra.
Qed.

Lemma fround_ge d x m e v : - 2 ^ f_prec d < m < 2 ^ f_prec d -> - f_low d <= e ->
  fround d x = Fin v -> (inject_Z m * two e <= x)%Q -> (inject_Z m * two e <= v)%Q.
Proof.
  intros Hm He. unfold fround. pose proof (Qred_correct x) as R. set (y := Qred x) in *. cbv zeta. intros F L. rewrite <- R in L.
  destruct (qltb 0 y) eqn:E1.
  - apply qltb_true in E1. destruct (qltb _ _); [|discriminate]. injection F as <-. apply fpos_ge; try lia; assumption.
  - apply qltb_false in E1. destruct (qltb y 0) eqn:E2.
    + apply qltb_true in E2. destruct (qltb _ _); [|discriminate]. injection F as <-.
      assert (N : (0 < - y)%Q) by lra.
      pose proof (fpos_le d (- y) (- m) e N ltac:(lia) He) as G. rewrite inject_Z_opp in G.
      assert (Z : (- inject_Z m * two e == - (inject_Z m * two e))%Q) by ring. rewrite Z in G. lra.
    + apply qltb_false in E2. injection F as <-. lra.
Qed.

Lemma fround_mono d x y v w : fround d x = Fin v -> fround d y = Fin w -> (x <= y)%Q -> (v <= w)%Q.
Proof.
  unfold fround. pose proof (Qred_correct x) as Rx. set (a := Qred x) in *. pose proof (Qred_correct y) as Ry. set (b := Qred y) in *. cbv zeta.
  intros F G L. rewrite <- Rx, <- Ry in L.
  destruct (qltb 0 a) eqn:A1; [apply qltb_true in A1|apply qltb_false in A1].
  - replace (qltb 0 b) with true in G by (symmetry; apply qltb_true; lra).
    destruct (qltb _ _); [|discriminate]. destruct (qltb _ _); [|discriminate]. injection F as <-. injection G as <-.
    apply fpos_mono; assumption.
  - destruct (qltb a 0) eqn:A2; [apply qltb_true in A2|apply qltb_false in A2].
    + destruct (qltb _ _) in F; [|discriminate]. injection F as <-.
      pose proof (fpos_nonneg d (- a) ltac:(lra)) as N.
      destruct (qltb 0 b) eqn:B1; [apply qltb_true in B1|apply qltb_false in B1].
      * destruct (qltb _ _) in G; [|discriminate]. injection G as <-. pose proof (fpos_nonneg d b B1). lra.
      * destruct (qltb b 0) eqn:B2; [apply qltb_true in B2|apply qltb_false in B2].
        -- destruct (qltb _ _) in G; [|discriminate]. injection G as <-.
           pose proof (fpos_mono d (- b) (- a) ltac:(lra) ltac:(lra)). lra.
        -- injection G as <-. lra.
    + injection F as <-.
      destruct (qltb 0 b) eqn:B1; [apply qltb_true in B1|apply qltb_false in B1].
      * destruct (qltb _ _) in G; [|discriminate]. injection G as <-. pose proof (fpos_nonneg d b B1). lra.
      * replace (qltb b 0) with false in G by (symmetry; apply qltb_false; lra). injection G as <-. lra.
Qed.

Lemma fround_err d x v : fround d x = Fin v -> (Qabs (v - x) <= two (- f_prec d) * Qabs x + two (- f_low d - 1))%Q.
Proof.
  unfold fround. pose proof (Qred_correct x) as R. set (y := Qred x) in *. cbv zeta. intros F. rewrite <- R.
  pose proof (two_pos (- f_low d - 1)) as P.
  destruct (qltb 0 y) eqn:E1.
  - apply qltb_true in E1. destruct (qltb _ _); [|discriminate]. injection F as <-. rewrite (Qabs_pos y) by lra. apply fpos_err. exact E1.
  - apply qltb_false in E1. destruct (qltb y 0) eqn:E2.
    + apply qltb_true in E2. destruct (qltb _ _); [|discriminate]. injection F as <-. rewrite (Qabs_neg y) by lra.
      pose proof (fpos_err d (- y) ltac:(lra)) as G.
      assert (Z : (- fround_pos d (- y) - y == - (fround_pos d (- y) - - y))%Q) by ring. rewrite Z, Qabs_opp. exact G.
    + apply qltb_false in E2. injection F as <-. assert (Z : (y == 0)%Q) by lra. rewrite Z.
      assert (E : (Qabs (0 - 0) == 0)%Q) by reflexivity. rewrite E. change (Qabs 0) with 0%Q. lra.
Qed.

Lemma fround_fin d x : (Qabs x <= two 126)%Q -> exists v, fround d x = Fin v.
Proof. intros H. destruct (fround_spec d x H) as (v & E & _). eauto. Qed.
