(** numpy.isclose in floating point. *)
From Coq Require Import String Qabs Qpower Lia Lqa ZifyBool ZifyNat.
From Verif Require Import Base BaseLemmas Img Types BoundsM Single SingleLemmas Typed SpecTyped TypedLemmas LayoutFl FlMonoLemmas LayoutFlLemmas OutlierFl CompareFl SpecCompareFl
  CompareFlLemmas CompareFlLemmas2 PsfTyLemmas CmpCat SpecCmpCat.
From Verif Require CoaddFlLemmas CompareFlLemmas5.
Open Scope Z_scope.

Lemma ulp_and a b : (ulp a <= ulp (a && b) /\ ulp b <= ulp (a && b) /\ ulp (a || b) <= ulp (a && b))%Q.
Proof. destruct a, b; vm_compute; repeat split; discriminate. Qed.

Lemma tiny_tiny d u : (ulp true <= u)%Q -> (tiny d <= u * (1#10000000000))%Q.
Proof.
  intros H. assert (T : (tiny d <= ulp true * (1#10000000000))%Q) by (destruct d; vm_compute; discriminate). lra.
Qed.
Lemma ulp_min d : (ulp true <= ulp d)%Q.
Proof. destruct d; vm_compute; discriminate. Qed.

(** [y] is [x] up to [k] units. *)
Definition near (u k x y : Q) : Prop := (x - k * u * x <= y <= x + k * u * x)%Q.

Lemma near_round d u k x y : (ulp d <= u)%Q -> (u <= 1 # 16777216)%Q -> (0 <= k <= 10)%Q -> (1#1000000000 <= x)%Q -> (x <= Qpower (2#1) 124)%Q -> near u k x y ->
  exists v, fround d y = Fin v /\ near u (k + 2) x v.
Proof.
  intros HU HV K X1 X2 (N1 & N2).
  pose proof (ulp_bounds d) as UB. pose proof (tiny_pos d) as TP. assert (T := tiny_tiny d u ltac:(pose proof (ulp_min d); lra)).
  assert (KU : (0 <= k * u <= 1#1000000)%Q) by nra.
  assert (Y : (0 <= y <= 2 * x)%Q) by nra.
  destruct (round_ok d y) as (v & E & B).
  { rewrite Qabs_pos by apply Y. assert (P : (Qpower (2#1) 126 == 4 * Qpower (2#1) 124)%Q) by (vm_compute; reflexivity). lra. }
  exists v. split; [exact E|]. rewrite (Qabs_pos y) in B by apply Y. apply abs_le in B. fold (ulp d) in B. fold (tiny d) in B.
  assert (UY : (ulp d * y <= u * (x + k * u * x))%Q) by nra.
  assert (UU : (u * (k * u * x) <= (1#1000000) * (u * x))%Q) by nra.
  assert (TT : (tiny d <= (1#10) * (u * x))%Q) by nra.
  unfold near. nra.
Qed.

Lemma rhs_ok d u b : (ulp d <= u)%Q -> (u <= 1 # 16777216)%Q -> (Qabs b <= Qpower (2#1) 122)%Q ->
  exists v, fadd d (fround d (1#100000000)) (fmul d (fround d (1#100000)) (fl_abs (Fin b))) = Fin v /\ near u 8 (tolerance b) v.
Proof.
  intros HU HV HB. pose proof (ulp_bounds d) as UB. pose proof (tiny_pos d) as TP. assert (T := tiny_tiny d u ltac:(pose proof (ulp_min d); lra)).
  assert (BIG : (1000000 <= Qpower (2#1) 122)%Q) by (vm_compute; discriminate).
  assert (P4 : (Qpower (2#1) 124 == 4 * Qpower (2#1) 122)%Q) by (vm_compute; reflexivity).
  assert (P6 : (Qpower (2#1) 126 == 16 * Qpower (2#1) 122)%Q) by (vm_compute; reflexivity).
  set (M := Qpower (2#1) 122) in *. clearbody M.
  assert (N0 : forall x, (0 <= x)%Q -> near u 0 x x) by (intros x Hx; unfold near; lra).
  assert (KK : (0 <= 0 <= 10)%Q) by (split; discriminate).
  assert (A0 : (1#1000000000 <= 1#100000000)%Q) by discriminate. assert (R0 : (1#1000000000 <= 1#100000)%Q) by discriminate.
  destruct (near_round d u 0 (1#100000000) _ HU HV KK A0 ltac:(lra) (N0 (1#100000000) ltac:(discriminate))) as (a & Ea & Na).
  destruct (near_round d u 0 (1#100000) _ HU HV KK R0 ltac:(lra) (N0 (1#100000) ltac:(discriminate))) as (r & Er & Nr).
  rewrite Ea, Er. cbn [fl_abs fmul].
  pose proof (Qabs_nonneg b) as B0. set (B := Qabs b) in *. unfold near in Na, Nr.
  assert (UB0 : (0 <= u)%Q) by lra.
  assert (UB1 : (0 <= u * B)%Q) by nra.
  assert (RB : ((1#100000) * B - (2#100000) * (u * B) <= r * B <= (1#100000) * B + (2#100000) * (u * B))%Q) by nra.
  assert (UB2 : (u * B <= (1#16777216) * B)%Q) by nra.
  destruct (round_ok d (r * B)) as (m & Em & Bm); [rewrite Qabs_pos by lra; lra|].
  rewrite Em. rewrite (Qabs_pos (r * B)) in Bm by lra. apply abs_le in Bm. fold (ulp d) in Bm. fold (tiny d) in Bm.
  assert (UR : (ulp d * (r * B) <= (11#1000000) * (u * B))%Q).
  { assert (R1 : (0 <= r * B <= (11#1000000) * B)%Q) by lra. assert (ulp d * (r * B) <= u * ((11#1000000) * B))%Q by nra. lra. }
  assert (MB : ((1#100000) * B - (32#1000000) * (u * B) - u * (1#10000000000) <= m <= (1#100000) * B + (32#1000000) * (u * B) + u * (1#10000000000))%Q) by lra.
  destruct (near_round d u 6 (tolerance b) (a - - m)) as (v & Ev & Nv); try assumption; try lra.
  - unfold tolerance. fold B. lra.
  - unfold tolerance. fold B. lra.
  - unfold near, tolerance. fold B. nra.
  - exists v. unfold fadd. cbn [fneg fsub]. split; [exact Ev|]. unfold near in *.
    assert (0 <= u * tolerance b)%Q by (apply Qmult_le_0_compat; [lra|]; unfold tolerance; fold B; lra). lra.
Qed.

Lemma to_fl_exact d k x : (match k with KI _ _ => d = true | KF d' => (d' = true -> d = true) end) -> kind_ok k -> num_ok k x -> small x ->
  match exactly x with
  | Fin a => exists v, to_fl d x = Fin v /\ (v == a)%Q /\ (Qabs v <= Qpower (2#1) 120)%Q
  | y => to_fl d x = y
  end.
Proof.
  intros HD KO NO SM. destruct k as [s bits|d']; destruct x as [z|[q|s'|]]; cbn [num_ok fl_ok] in NO; try contradiction; cbn [exactly to_fl fcast small] in *; try reflexivity.
  - subst d. destruct (fround_exact true (inject_Z z)) as (v & E & V).
    { exists z, 0. split; [cbn; ring|]. split; [lia|]. split; [lia|].
      assert (A : (Qabs (inject_Z z) < inject_Z (2 ^ 53))%Q) by (rewrite <- (Qabs_pos (inject_Z (2 ^ 53))) by discriminate; unfold Qlt; cbn; lia).
      eapply Qlt_trans; [exact A|]. vm_compute. reflexivity. }
    exists v. split; [exact E|]. split; [exact V|]. rewrite V.
    assert (A : (Qabs (inject_Z z) <= inject_Z (2 ^ 53))%Q) by (unfold Qle; cbn; lia).
    eapply Qle_trans; [exact A|]. vm_compute. discriminate.
  - assert (F : is_float d q) by (destruct d; [eapply is_float_dbl; exact NO|destruct d'; [discriminate (HD eq_refl)|exact NO]]).
    destruct (fround_exact d q F) as (v & E & V). exists v. split; [exact E|]. split; [exact V|]. rewrite V. exact SM.
Qed.

Lemma tolerance_eq b b' : (b == b')%Q -> (tolerance b == tolerance b')%Q.
Proof. intros H. unfold tolerance. rewrite H. reflexivity. Qed.

Lemma close_fin k1 k2 x y a b : kind_ok k1 -> kind_ok k2 -> num_ok k1 x -> num_ok k2 y -> small x -> small y ->
  exactly x = Fin a -> exactly y = Fin b -> let e := ulp (float_of k1 && float_of k2) in
  ((Qabs (a - b) <= tolerance b * (1 - 10 * e))%Q -> isclose k1 k2 x y = true) /\
  ((tolerance b * (1 + 10 * e) < Qabs (a - b))%Q -> isclose k1 k2 x y = false).
Proof.
  intros K1 K2 N1 N2 S1 S2 Ex Ey e.
  pose proof (to_fl_exact (float_of k1 || float_of k2) k1 x) as T1. rewrite Ex in T1. destruct T1 as (a' & A1 & A2 & A3); try assumption.
  { destruct k1; cbn; [reflexivity|intros ->; reflexivity]. }
  pose proof (to_fl_exact (float_of k2) k2 y) as T2. rewrite Ey in T2. destruct T2 as (b' & B1 & B2 & B3); try assumption.
  { destruct k2; cbn; [reflexivity|intros ->; reflexivity]. }
  unfold isclose. rewrite A1, B1. destruct (ulp_and (float_of k1) (float_of k2)) as (U1 & U2 & U3). fold e in U1, U2, U3.
  assert (UE : (e <= 1 # 16777216)%Q) by apply ulp_bounds.
  assert (BIG : (4 * Qpower (2#1) 120 <= Qpower (2#1) 122)%Q) by (vm_compute; discriminate).
  destruct (rhs_ok (float_of k2) e b' U2 UE) as (r & Er & Nr); [assert (0 <= Qpower (2#1) 120)%Q by (vm_compute; discriminate); lra|].
  rewrite Er. cbn [fl_finite andb fsub].
  assert (AB : (Qabs (a' - b') <= 2 * Qpower (2#1) 120)%Q) by (eapply Qle_trans; [apply Qabs_triangle|]; rewrite Qabs_opp; lra).
  destruct (round_ok (float_of k1 || float_of k2) (a' - b')) as (s & Es & Bs).
  { assert (P : (2 * Qpower (2#1) 120 <= Qpower (2#1) 126)%Q) by (vm_compute; discriminate). lra. }
  rewrite Es. cbn [fl_abs fl_ltb fl_nan negb]. rewrite andb_true_r. cbn [andb].
  fold (ulp (float_of k1 || float_of k2)) in Bs. fold (tiny (float_of k1 || float_of k2)) in Bs.
  assert (T := tiny_tiny (float_of k1 || float_of k2) e ltac:(apply ulp_min)).
  rewrite <- (tolerance_eq _ _ B2). assert (EL : (Qabs (a - b) == Qabs (a' - b'))%Q) by (rewrite A2, B2; reflexivity). rewrite EL.
  assert (E0 : (0 < e)%Q) by apply ulp_bounds.
  assert (TB : (1#100000000 <= tolerance b')%Q) by (unfold tolerance; pose proof (Qabs_nonneg b'); lra).
  set (L := Qabs (a' - b')) in *. set (t := tolerance b') in *. pose proof (Qabs_nonneg (a' - b')) as L0. fold L in L0.
  assert (SL : (L - (e * L + e * (1#10000000000)) <= Qabs s <= L + (e * L + e * (1#10000000000)))%Q).
  { assert (G : (Qabs (s - (a' - b')) <= e * L + e * (1#10000000000))%Q) by (eapply Qle_trans; [exact Bs|]; fold L; nra).
    pose proof (Qabs_triangle (s - (a' - b')) (a' - b')) as G1. setoid_replace (s - (a' - b') + (a' - b'))%Q with s in G1 by ring. fold L in G1.
    pose proof (Qabs_triangle ((a' - b') - s) s) as G2. setoid_replace ((a' - b') - s + s)%Q with (a' - b')%Q in G2 by ring. fold L in G2.
    setoid_replace (a' - b' - s)%Q with (- (s - (a' - b')))%Q in G2 by ring. rewrite Qabs_opp in G2. lra. }
  unfold near in Nr. assert (ET : (0 < e * t)%Q) by nra. assert (EE : (e * (e * t) <= (1#1000000) * (e * t))%Q) by nra.
  split; intros H.
  - apply orb_true_iff. left. apply negb_true_iff. unfold qltb. apply negb_false_iff. apply Qle_bool_iff.
    assert (X1 : (e * L <= e * (t * (1 - 10 * e)))%Q) by nra. assert (X2 : (0 <= e * (e * t))%Q) by nra.
    assert (X3 : (e * (1#10000000000) <= (1#100) * (e * t))%Q) by nra. lra.
  - apply orb_false_iff. split.
    + apply negb_false_iff. unfold qltb. apply negb_true_iff. apply not_true_is_false. intros C. apply Qle_bool_iff in C.
      assert (LL : (t + 9 * (e * t) - 10 * (e * (e * t)) <= L - e * L)%Q) by nra. assert (X3 : (e * (1#10000000000) <= (1#100) * (e * t))%Q) by nra. lra.
    + apply negb_false_iff. cbn [fl_neqb]. apply negb_true_iff. apply not_true_is_false. intros C. apply Qeq_bool_iff in C.
      assert (Z : (L == 0)%Q) by (unfold L; rewrite C; assert (X : (b' - b' == 0)%Q) by ring; rewrite X; reflexivity). nra.
Qed.

Lemma close_iff k1 k2 x y : kind_ok k1 -> kind_ok k2 -> num_ok k1 x -> num_ok k2 y -> small x -> small y -> let e := ulp (float_of k1 && float_of k2) in
  (alike e x y -> isclose k1 k2 x y = true) /\ (apart e x y -> isclose k1 k2 x y = false).
Proof.
  intros K1 K2 N1 N2 S1 S2 e.
  pose proof (close_fin k1 k2 x y) as CF.
  pose proof (to_fl_exact (float_of k1 || float_of k2) k1 x) as T1. pose proof (to_fl_exact (float_of k2) k2 y) as T2.
  assert (D1 : match k1 with KI _ _ => float_of k1 || float_of k2 = true | KF d' => d' = true -> float_of k1 || float_of k2 = true end)
    by (destruct k1; cbn; [reflexivity|intros ->; reflexivity]).
  assert (D2 : match k2 with KI _ _ => float_of k2 = true | KF d' => d' = true -> float_of k2 = true end)
    by (destruct k2; cbn; [reflexivity|intros ->; reflexivity]).
  specialize (T1 D1 K1 N1 S1). specialize (T2 D2 K2 N2 S2). unfold alike, apart.
  destruct (exactly x) as [a|s|] eqn:Ex, (exactly y) as [b|s'|] eqn:Ey; try (apply (CF a b); assumption || reflexivity).
  all: split; intros H; try contradiction; unfold isclose.
  all: repeat match goal with T : exists v, to_fl _ _ = Fin v /\ _ |- _ => destruct T as (? & T & _ & ?) end.
  all: rewrite T1, T2; cbn [fl_finite andb orb fsub fl_abs fl_nan fl_neqb fl_ltb negb]; try reflexivity.
  all: repeat match goal with s : bool |- _ => destruct s end; try reflexivity; try congruence.
  all: rewrite ?andb_false_r; try reflexivity.
  all: match goal with B : (Qabs ?q <= _)%Q |- _ =>
    destruct (rhs_ok (float_of k2) (ulp (float_of k2)) q (Qle_refl _) (proj2 (ulp_bounds _))) as (r & Er & _);
      [eapply Qle_trans; [exact B|vm_compute; discriminate]|] end.
  all: cbn [fl_abs] in Er; rewrite Er; reflexivity.
Qed.
