(** The rms check in floating point. *)
From Coq Require Import Lia ZifyBool ZifyNat Lqa Qabs Qpower Permutation.
From Verif Require Import Base BaseLemmas Img ImgLemmas Types BoundsM Single SingleLemmas CompositeLemmas Typed SpecTyped TypedLemmas LayoutFl FlMonoLemmas
  LayoutFlLemmas OutlierFl CompareFl SpecCompareFl CompareFlLemmas CompareFlLemmas2.
Open Scope Z_scope.

Lemma map_fin {A} (f : A -> fl) (R : A -> Q -> Prop) l : (forall x, In x l -> exists v, f x = Fin v /\ R x v) ->
  exists vs, map f l = map Fin vs /\ Forall2 R l vs.
Proof.
  induction l as [|x l IH]; intros H; [exists []; split; [reflexivity|constructor]|].
  destruct (H x (or_introl eq_refl)) as (v & E & P). destruct IH as (vs & E2 & P2); [intros y Hy; apply H; right; exact Hy|].
  exists (v :: vs). cbn [map]. rewrite E, E2. split; [reflexivity|]. constructor; assumption.
Qed.
Lemma Forall2_join {A B C} (R : A -> B -> Prop) (S : B -> C -> Prop) a b c : Forall2 R a b -> Forall2 S b c -> Forall2 (fun x z => exists y, R x y /\ S y z) a c.
Proof. intros H. revert c. induction H as [|x y a b P F IH]; intros c G; inversion G; subst; constructor; eauto. Qed.
Lemma Forall2_In_r {A B} (R : A -> B -> Prop) a b y : Forall2 R a b -> In y b -> exists x, In x a /\ R x y.
Proof. induction 1 as [|x z a b P F IH]; intros []; [subst; exists x; split; [left; reflexivity|exact P]|]. destruct IH as (w & W1 & W2); [assumption|]. exists w. split; [right; exact W1|exact W2]. Qed.

Lemma F2_len {A B} {R : A -> B -> Prop} {a b} : Forall2 R a b -> length a = length b.
Proof. induction 1; cbn; congruence. Qed.

Lemma F2_impl {A B} {R S : A -> B -> Prop} {a b} : (forall x y, R x y -> S x y) -> Forall2 R a b -> Forall2 S a b.
Proof. intros H. induction 1; constructor; auto. Qed.

(** Averages *)
Lemma count_pos {A} (l : list A) : l <> [] -> (0 < inject_Z (Z.of_nat (length l)))%Q.
Proof. intros H. change 0%Q with (inject_Z 0). rewrite <- Zlt_Qlt. destruct l; [congruence|cbn; lia]. Qed.
Lemma total_F2 {A B} (f : A -> Q) (g : B -> Q) a b : Forall2 (fun x y => (f x <= g y)%Q) a b -> (total (map f a) <= total (map g b))%Q.
Proof. induction 1 as [|x y a b P F IH]; cbn [map total fold_right]; [apply Qle_refl|]. fold (total (map f a)). fold (total (map g b)). lra. Qed.
Lemma average_F2 {A B} (f : A -> Q) (g : B -> Q) a b : a <> [] -> Forall2 (fun x y => (f x <= g y)%Q) a b -> (average (map f a) <= average (map g b))%Q.
Proof.
  intros Hne H. unfold average. rewrite !map_length, (F2_len H). apply Qmult_le_compat_r; [apply total_F2; exact H|]. rewrite <- (F2_len H). apply Qlt_le_weak, Qinv_lt_0_compat, count_pos. exact Hne.
Qed.
Lemma average_lin {A} (c e : Q) (f : A -> Q) (l : list A) : l <> [] -> (average (map (fun x => c * f x + e)%Q l) == c * average (map f l) + e)%Q.
Proof.
  intros Hne. unfold average. rewrite !map_length. rewrite (total_plus (fun x => c * f x)%Q (fun _ => e) l), total_scale, total_const. unfold zlen. pose proof (count_pos l Hne). field. lra.
Qed.
Lemma average_close e a b : a <> [] -> Forall2 (fun x y => (Qabs (y - x) <= e)%Q) a b -> (Qabs (average b - average a) <= e)%Q.
Proof.
  intros Hne H. assert (Hb : b <> []) by (inversion H; subst; congruence).
  assert (X : Forall2 (fun x y => (y - e <= x <= y + e)%Q) a b).
  { eapply F2_impl; [|exact H]. intros x y P. apply abs_le in P. lra. }
  assert (L1 : (average (map (fun x => x) a) <= average (map (fun y => 1 * y + e)%Q b))%Q) by (apply average_F2; [exact Hne|]; eapply F2_impl; [|exact X]; cbv beta; intros; lra).
  assert (L2 : (average (map (fun x => 1 * x + - e)%Q b) <= average (map (fun y => y) a))%Q).
  { unfold average. rewrite !map_length, (F2_len H). apply Qmult_le_compat_r; [|apply Qlt_le_weak, Qinv_lt_0_compat, count_pos; exact Hb].
    clear - X. induction X as [|x y a b P F IH]; cbn [map total fold_right]; [apply Qle_refl|]. fold (total (map (fun x => 1 * x + - e)%Q b)). fold (total (map (fun y => y) a)). lra. }
  rewrite average_lin in L1, L2 by exact Hb. rewrite !map_id in L1, L2. apply abs_le. lra.
Qed.
Lemma sq_nonneg x : (0 <= x * x)%Q.
Proof. destruct (Qlt_le_dec x 0) as [L|L]; [|apply Qmult_le_0_compat; exact L]. assert (E : (x * x == (- x) * (- x))%Q) by ring. rewrite E. apply Qmult_le_0_compat; lra. Qed.
Lemma sq_mono a b : (0 <= a)%Q -> (a <= b)%Q -> (a * a <= b * b)%Q.
Proof. intros H L. apply Qle_trans with (a * b)%Q; [apply qmul_le; assumption|apply Qmult_le_compat_r; lra]. Qed.
Lemma sq_le a b : (0 <= b)%Q -> (a * a <= b * b)%Q -> (a <= b)%Q.
Proof.
  intros Hb H. destruct (Qlt_le_dec b a) as [L|L]; [|exact L]. exfalso. assert (b * b <= b * a)%Q by (apply qmul_le; lra).
  assert (b * a < a * a)%Q by (apply Qmult_lt_compat_r; lra). lra.
Qed.
Lemma total_sq_nonneg A l : (0 <= total (map (fun x => (Qabs x - A) * (Qabs x - A))%Q l))%Q.
Proof.
  induction l as [|x l IH]; cbn [map total fold_right]; [apply Qle_refl|]. fold (total (map (fun x => (Qabs x - A) * (Qabs x - A))%Q l)).
  pose proof (sq_nonneg (Qabs x - A)). lra.
Qed.
Lemma average_sq l : l <> [] -> (average (map Qabs l) * average (map Qabs l) <= average (map (fun x => x * x)%Q l))%Q.
Proof.
  intros Hne. set (A := average (map Qabs l)). pose proof (count_pos l Hne) as P.
  assert (N : (0 <= average (map (fun x => (Qabs x - A) * (Qabs x - A))%Q l))%Q).
  { unfold average. rewrite map_length. apply Qle_shift_div_l; [exact P|]. rewrite Qmult_0_l. apply total_sq_nonneg. }
  assert (E : (average (map (fun x => (Qabs x - A) * (Qabs x - A))%Q l) == average (map (fun x => x * x)%Q l) - A * A)%Q); [|lra].
  unfold average at 1 2. rewrite !map_length.
  assert (T : (total (map (fun x => (Qabs x - A) * (Qabs x - A))%Q l) == total (map (fun x => x * x)%Q l) + (- (2) * A) * total (map Qabs l) + inject_Z (zlen l) * (A * A))%Q).
  { rewrite <- total_scale, <- total_const, <- !total_plus. apply total_map_eq. intros x _.
    assert (S : (Qabs x * Qabs x == x * x)%Q) by (rewrite <- Qabs_Qmult; apply Qabs_pos, sq_nonneg). 
    transitivity (Qabs x * Qabs x + - (2) * A * Qabs x + A * A)%Q; [ring|]. rewrite S. reflexivity. }
  rewrite T. assert (TA : (total (map Qabs l) == A * inject_Z (Z.of_nat (length l)))%Q) by (unfold A, average; rewrite map_length; field; lra). rewrite TA. unfold zlen. field. lra.
Qed.
Lemma l2_close e s a b : (0 <= e)%Q -> (0 <= s)%Q -> a <> [] -> Forall2 (fun x y => (Qabs (y - x) <= e)%Q) a b ->
  (average (map (fun x => x * x)%Q a) <= s * s)%Q -> (average (map (fun x => x * x)%Q b) <= (s + e) * (s + e))%Q.
Proof.
  intros He Hs Hne H L. pose proof (average_sq a Hne) as AS. assert (AA : (average (map Qabs a) <= s)%Q) by (apply sq_le; [exact Hs|lra]).
  assert (X : Forall2 (fun x y => (y * y <= x * x + 2 * e * Qabs x + e * e)%Q) a b).
  { eapply F2_impl; [|exact H]. intros x y P. cbv beta in *. assert (Y : (Qabs y <= Qabs x + e)%Q).
    { assert (E : (y == x + (y - x))%Q) by ring. rewrite E at 1. eapply Qle_trans; [apply Qabs_triangle|]. lra. }
    assert (S1 : (Qabs x * Qabs x == x * x)%Q) by (rewrite <- Qabs_Qmult; apply Qabs_pos, sq_nonneg). assert (S2 : (Qabs y * Qabs y == y * y)%Q) by (rewrite <- Qabs_Qmult; apply Qabs_pos, sq_nonneg).
    rewrite <- S1, <- S2. pose proof (sq_mono _ _ (Qabs_nonneg y) Y). lra. }
  assert (M : (average (map (fun x => x * x)%Q b) <= average (map (fun x => x * x + 2 * e * Qabs x + e * e)%Q a))%Q).
  { unfold average. rewrite !map_length, (F2_len H). apply Qmult_le_compat_r.
    - clear - X. induction X as [|x y a b P F IH]; cbn [map total fold_right]; [apply Qle_refl|].
      fold (total (map (fun x => x * x)%Q b)). fold (total (map (fun x => x * x + 2 * e * Qabs x + e * e)%Q a)). lra.
    - apply Qlt_le_weak, Qinv_lt_0_compat, count_pos. intros ->. inversion H. subst. congruence. }
  assert (E : (average (map (fun x => x * x + 2 * e * Qabs x + e * e)%Q a) == average (map (fun x => x * x)%Q a) + 2 * e * average (map Qabs a) + e * e)%Q).
  { unfold average. rewrite !map_length, total_plus, total_plus, total_scale, total_const. unfold zlen. pose proof (count_pos a Hne). field. lra. }
  rewrite E in M. assert (2 * e * average (map Qabs a) <= 2 * e * s)%Q by (apply qmul_le; lra). lra.
Qed.

(** From the mean square of the rounded deviations to the result of the square root *)
Lemma upper_std (u t z : Q) P ret s T tol th : (0 < u <= 1#1000000)%Q -> (0 < t)%Q -> (0 <= z)%Q -> (z + 6 * u <= 1#8)%Q -> (0 < th)%Q -> (10 * t <= th * th)%Q -> (t <= th * (1#100))%Q ->
  (0 <= P)%Q -> (0 <= s)%Q -> (0 <= tol)%Q ->
  ((1 - z) * P - 10 * t <= ret)%Q -> (ret <= (s * (1 + 2 * u)) * (s * (1 + 2 * u)))%Q -> (s <= T)%Q -> (T <= tol + u * tol + t)%Q ->
  let w := (tol + (z + 6 * u) * tol + 2 * th)%Q in (P <= w * w)%Q.
Proof.
  intros U T0 Z0 Z1 TH TT TT2 P0 S0 TOL H1 H2 H3 H4. cbv zeta.
  set (c := (tol * (1 + 4 * u) + 2 * t)%Q). 
  assert (UT : (0 <= u * tol)%Q) by (apply Qmult_le_0_compat; lra). assert (UUT : (u * (u * tol) <= (1#1000000) * (u * tol))%Q) by (apply Qmult_le_compat_r; lra).
  assert (C1 : (s * (1 + 2 * u) <= c)%Q).
  { apply Qle_trans with ((tol + u * tol + t) * (1 + 2 * u))%Q; [apply Qmult_le_compat_r; lra|]. unfold c. assert (u * t <= (1#100) * t)%Q by (apply Qmult_le_compat_r; lra). lra. }
  assert (C0 : (0 <= s * (1 + 2 * u))%Q) by (apply Qmult_le_0_compat; lra).
  assert (C2 : (ret <= c * c)%Q).
  { eapply Qle_trans; [exact H2|]. apply Qle_trans with (c * (s * (1 + 2 * u)))%Q; [apply Qmult_le_compat_r; assumption|apply qmul_le; lra]. }
  assert (C3 : ((1 - z) * P <= (c + th) * (c + th))%Q).
  { assert (0 <= c * th)%Q by (apply Qmult_le_0_compat; lra). lra. }
  assert (Z2 : (1 <= (1 - z) * ((1 + z) * (1 + z)))%Q) by nra.
  set (b := ((1 + z) * (c + th))%Q). assert (C4 : (P <= b * b)%Q).
  { apply Qle_trans with (P * ((1 - z) * ((1 + z) * (1 + z))))%Q.
    - assert (P * 1 <= P * ((1 - z) * ((1 + z) * (1 + z))))%Q by (apply qmul_le; assumption). lra.
    - assert (E : (P * ((1 - z) * ((1 + z) * (1 + z))) == ((1 + z) * (1 + z)) * ((1 - z) * P))%Q) by ring. rewrite E.
      apply Qle_trans with (((1 + z) * (1 + z)) * ((c + th) * (c + th)))%Q; [apply qmul_le; [nra|exact C3]|]. unfold b. lra. }
  assert (ZT : (0 <= z * tol)%Q) by (apply Qmult_le_0_compat; lra).
  assert (B1 : (b <= tol + (z + 6 * u) * tol + 2 * th)%Q).
  { unfold b, c. assert (z * (u * tol) <= (1#8) * (u * tol))%Q by (apply Qmult_le_compat_r; lra). assert (z * t <= (1#8) * t)%Q by (apply Qmult_le_compat_r; lra).
    assert (z * th <= (1#8) * th)%Q by (apply Qmult_le_compat_r; lra). lra. }
  assert (B0 : (0 <= b)%Q) by (unfold b; apply Qmult_le_0_compat; [lra|]; unfold c; lra).
  eapply Qle_trans; [exact C4|]. apply Qle_trans with ((tol + (z + 6 * u) * tol + 2 * th) * b)%Q; [apply Qmult_le_compat_r; assumption|apply qmul_le; lra].
Qed.

Lemma lower_std (u t z : Q) P ret s T tol th g : (0 < u <= 1#1000000)%Q -> (0 < t)%Q -> (0 <= z)%Q -> (z + 6 * u <= 1#8)%Q -> (0 < th)%Q -> (10 * t <= th * th)%Q -> (t <= th * (1#100))%Q ->
  (0 <= g)%Q -> (P <= g * g)%Q -> (0 <= s)%Q -> (0 <= tol)%Q -> (0 <= P)%Q ->
  (ret <= (1 + z) * P + 10 * t)%Q -> ((s * (1 - 2 * u)) * (s * (1 - 2 * u)) <= ret)%Q -> (T <= s)%Q -> (tol - u * tol - t <= T)%Q ->
  (tol <= g + (z + 6 * u) * g + 2 * th)%Q.
Proof.
  intros U T0 Z0 Z1 TH TT TT2 G0 PG S0 TOL P0 H1 H2 H3 H4.
  set (b := ((1 + z) * g + th)%Q). assert (ZG : (0 <= z * g)%Q) by (apply Qmult_le_0_compat; lra). assert (UG : (0 <= u * g)%Q) by (apply Qmult_le_0_compat; lra). assert (B0 : (0 <= b)%Q) by (unfold b; lra).
  assert (C1 : (ret <= b * b)%Q).
  { eapply Qle_trans; [exact H1|]. assert ((1 + z) * P <= (1 + z) * (g * g))%Q by (apply qmul_le; lra). assert (0 <= z * (g * g))%Q by (repeat apply Qmult_le_0_compat; lra).
    assert (0 <= z * (z * (g * g)))%Q by (repeat apply Qmult_le_0_compat; lra). assert (0 <= (1 + z) * g * th)%Q by (repeat apply Qmult_le_0_compat; lra). unfold b. lra. }
  assert (C2 : (s * (1 - 2 * u) <= b)%Q) by (apply sq_le; [exact B0|lra]).
  assert (C3 : ((tol - u * tol - t) * (1 - 2 * u) <= b)%Q).
  { eapply Qle_trans; [|exact C2]. apply Qmult_le_compat_r; lra. }
  assert (UT : (0 <= u * tol)%Q) by (apply Qmult_le_0_compat; lra).
  assert (UUT : (0 <= u * (u * tol) <= (1#1000000) * (u * tol))%Q) by (split; [apply Qmult_le_0_compat; lra|apply Qmult_le_compat_r; lra]).
  assert (Ut : (0 <= u * t)%Q) by (apply Qmult_le_0_compat; lra).
  assert (C4 : (tol * (1 - 3 * u) <= b + t)%Q) by lra.
  assert (C5 : (tol <= (1 + 4 * u) * (b + t))%Q).
  { apply Qle_trans with ((1 + 4 * u) * (tol * (1 - 3 * u)))%Q; [|apply qmul_le; lra]. lra. }
  eapply Qle_trans; [exact C5|]. unfold b. assert (u * (z * g) <= u * ((1#8) * g))%Q by (apply qmul_le; [lra|apply Qmult_le_compat_r; lra]).
  assert (u * th <= (1#1000000) * th)%Q by (apply Qmult_le_compat_r; lra). assert (u * t <= (1#1000000) * t)%Q by (apply Qmult_le_compat_r; lra). lra.
Qed.
