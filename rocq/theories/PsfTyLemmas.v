(** Storing numbers as f4: the nearest one, its error, and what cannot be stored. *)
From Coq Require Import Lia ZifyBool ZifyNat Lqa Qround Qpower Qabs.
From Verif Require Import Base BaseLemmas Img Types BoundsM MakerLayout MakerWrite MakerFile Single SingleLemmas CompositeLemmas
  Typed SpecTyped TypedLemmas TypedLemmas3 FlMonoLemmas LayoutFlLemmas PsfTy SpecPsfTy.
Open Scope Z_scope.

Lemma scale_dist k x y : (Qabs (y - x) * two k == Qabs (y * two k - x * two k))%Q.
Proof.
  pose proof (two_pos k) as K. setoid_replace (y * two k - x * two k)%Q with ((y - x) * two k)%Q by ring.
  rewrite Qabs_Qmult, (Qabs_pos (two k)) by lra. reflexivity.
Qed.

(** No number of the type is nearer. *)
Lemma fpos_nearest d x m e : (0 < x)%Q -> - 2 ^ f_prec d < m < 2 ^ f_prec d -> - f_low d <= e ->
  (Qabs (fround_pos d x - x) <= Qabs (inject_Z m * two e - x))%Q.
Proof.
  intros H Hm He. set (k := expo d x). set (t := (x * two k)%Q).
  pose proof (fpos_scaled d x) as F. fold k in F. fold t in F.
  pose proof (half_even_err t) as (A & B).
  assert (I : forall n, (Qabs (inject_Z (half_even t) - t) <= Qabs (inject_Z n - t))%Q).
  { intros n. destruct (Z.eq_dec n (half_even t)) as [->|N]; [apply Qle_refl|].
    assert (D : (inject_Z n <= inject_Z (half_even t) - 1 \/ inject_Z (half_even t) + 1 <= inject_Z n)%Q).
    { destruct (Z_lt_le_dec n (half_even t)); [left|right].
      - change 1%Q with (inject_Z 1). unfold Qminus. rewrite <- inject_Z_opp, <- inject_Z_plus, <- Zle_Qle. lia.
      - change 1%Q with (inject_Z 1). rewrite <- inject_Z_plus, <- Zle_Qle. lia. }
    destruct (Qabs_cases (inject_Z (half_even t) - t)) as [(C1 & ->)|(C1 & ->)];
    destruct (Qabs_cases (inject_Z n - t)) as [(C2 & ->)|(C2 & ->)]; destruct D; lra. }
  pose proof (two_pos k) as K.
  assert (S : forall y, (Qabs (y - x) * two k == Qabs (y * two k - t))%Q).
  { intros y. apply scale_dist. }
  apply (scaled_le_inv _ _ k). rewrite !S. rewrite F.
  destruct (float_steps d x m e H (proj2 Hm) He) as [(n & En)|(L & U)].
  - fold k in En. rewrite En. apply I.
  - fold k in L, U. fold t in L. pose proof (I (2 ^ (f_prec d - 1))) as J. rewrite two_Z in J by (destruct d; cbn; lia).
    eapply Qle_trans; [exact J|].
    rewrite (Qabs_neg (two (f_prec d - 1) - t)) by lra. rewrite (Qabs_neg (inject_Z m * two e * two k - t)) by lra. lra.
Qed.

Lemma is_float_split d z : is_float d z <-> exists m e, (z == inject_Z m * two e)%Q /\ - 2 ^ f_prec d < m < 2 ^ f_prec d /\ - f_low d <= e /\ (Qabs z < two (f_emax d))%Q.
Proof. destruct d; split; intros (m & e & H); exists m, e; exact H. Qed.

Lemma fround_nearest d x v z : fround d x = Fin v -> is_float d z -> (Qabs (v - x) <= Qabs (z - x))%Q.
Proof.
  intros F Z. apply is_float_split in Z. destruct Z as (m & e & E & Hm & He & _). rewrite E. clear E.
  unfold fround in F. pose proof (Qred_correct x) as R. set (y := Qred x) in *. cbv zeta in F. rewrite <- R.
  destruct (qltb 0 y) eqn:E1.
  - apply qltb_true in E1. destruct (qltb _ _); [|discriminate]. injection F as <-. apply fpos_nearest; assumption.
  - apply qltb_false in E1. destruct (qltb y 0) eqn:E2.
    + apply qltb_true in E2. destruct (qltb _ _); [|discriminate]. injection F as <-.
      pose proof (fpos_nearest d (- y) (- m) e ltac:(lra) ltac:(lia) He) as G. rewrite inject_Z_opp in G.
      setoid_replace (- fround_pos d (- y) - y)%Q with (- (fround_pos d (- y) - - y))%Q by ring.
      setoid_replace (inject_Z m * two e - y)%Q with (- (- inject_Z m * two e - - y))%Q by ring.
      rewrite !Qabs_opp. exact G.
    + apply qltb_false in E2. injection F as <-. setoid_replace (0 - y)%Q with 0%Q by lra. change (Qabs 0) with 0%Q. apply Qabs_nonneg.
Qed.

Lemma qlt_le a b : qltb a b = true -> (a < b)%Q. Proof. apply qltb_true. Qed.

Lemma fround_below d x v : fround d x = Fin v -> (Qabs v < two (f_emax d))%Q.
Proof.
  assert (P : 0 <= f_emax d) by (destruct d; cbn; lia).
  unfold fround. set (y := Qred x). cbv zeta. rewrite <- (two_Z (f_emax d) P).
  set (big := inject_Z (2 ^ f_emax d)).
  destruct (qltb 0 y) eqn:E1.
  - apply qltb_true in E1. destruct (qltb (fround_pos d y) big) eqn:Q; [|discriminate]. intros F. injection F as <-.
    apply qltb_true in Q. destruct (fround_pos_err d y E1) as (N & _). rewrite Qabs_pos by exact N. exact Q.
  - destruct (qltb y 0) eqn:E2.
    + apply qltb_true in E2. destruct (qltb (fround_pos d (- y)) big) eqn:Q; [|discriminate]. intros F. injection F as <-.
      apply qltb_true in Q. destruct (fround_pos_err d (- y) ltac:(lra)) as (N & _). rewrite Qabs_opp, Qabs_pos by exact N. exact Q.
    + intros F. injection F as <-. unfold big. rewrite two_Z by exact P. apply two_pos.
Qed.

Lemma fround_is_float d x v : fround d x = Fin v -> is_float d v.
Proof.
  intros F. apply is_float_split. destruct (fround_form d x v F) as (m & e & E & M & X). exists m, e.
  split; [exact E|]. split; [exact M|]. split; [exact X|]. eapply fround_below; exact F.
Qed.

Lemma flt_max_eq : (flt_max == inject_Z (2 ^ 24 - 1) * two 104)%Q.
Proof. vm_compute. reflexivity. Qed.
Lemma flt_max_eq' : (flt_max == two 128 - two 104)%Q.
Proof. vm_compute. reflexivity. Qed.

(** Up to the largest f4 rounding stays finite. *)
Lemma fround_single_fin x : (Qabs x <= flt_max)%Q -> exists v, fround false x = Fin v.
Proof.
  intros B. unfold fround. pose proof (Qred_correct x) as R. set (y := Qred x) in *. cbv zeta.
  rewrite <- R in B. rewrite flt_max_eq in B.
  assert (G : forall z, (0 < z)%Q -> (z <= inject_Z (2 ^ 24 - 1) * two 104)%Q -> qltb (fround_pos false z) (inject_Z (2 ^ f_emax false)) = true).
  { intros z Hz Bz. apply qltb_true.
    apply Qle_lt_trans with (inject_Z (2 ^ 24 - 1) * two 104)%Q; [|vm_compute; reflexivity].
    apply (scaled_le_inv _ _ (expo false z)). rewrite fpos_scaled.
    apply (scaled_le _ _ (expo false z)) in Bz.
    destruct (float_steps false z (2 ^ 24 - 1) 104 Hz ltac:(cbn; lia) ltac:(cbn; lia)) as [(n & En)|(L & U)].
    - rewrite En in *. rewrite <- Zle_Qle. apply half_even_le. exact Bz.
    - cbn [f_prec] in *. change (24 - 1) with 23 in *.
      rewrite (half_even_int _ (2 ^ 23)); change (inject_Z (2 ^ 23)) with (two 23); lra. }
  destruct (qltb 0 y) eqn:E1.
  - apply qltb_true in E1. rewrite G; [eauto|exact E1|]. rewrite Qabs_pos in B by lra. exact B.
  - apply qltb_false in E1. destruct (qltb y 0) eqn:E2; [|eauto]. apply qltb_true in E2.
    rewrite G; [eauto|lra|]. rewrite Qabs_neg in B by lra. exact B.
Qed.

(** Numbers of type f4 are not beyond the largest one. *)
Lemma single_le_max q : is_float false q -> (Qabs q <= flt_max)%Q.
Proof.
  intros F. apply is_float_split in F. destruct F as (m & e & E & Hm & He & L). cbn [f_prec f_low f_emax] in *.
  assert (A : (Qabs q == inject_Z (Z.abs m) * two e)%Q).
  { rewrite E, Qabs_Qmult, (Qabs_pos (two e)) by (pose proof (two_pos e); lra). reflexivity. }
  rewrite A in *. rewrite flt_max_eq. destruct (Z_le_gt_dec e 104) as [C|C].
  - apply Qle_trans with (inject_Z (2 ^ 24 - 1) * two e)%Q.
    + apply Qmult_le_r; [apply two_pos|]. rewrite <- Zle_Qle. lia.
    + apply Qmult_le_l; [reflexivity|]. apply two_le. exact C.
  - (* a multiple of 2^104 below 2^128 *)
    assert (X : (inject_Z (Z.abs m) * two e == inject_Z (Z.abs m * 2 ^ (e - 104)) * two 104)%Q).
    { rewrite inject_Z_mult, (two_Z (e - 104)) by lia. rewrite <- Qmult_assoc, <- two_plus. replace (e - 104 + 104) with e by lia. reflexivity. }
    rewrite X in *. apply Qmult_le_r; [apply two_pos|]. rewrite <- Zle_Qle.
    assert (T : (two 128 == inject_Z (2 ^ 24) * two 104)%Q) by (vm_compute; reflexivity). rewrite T in L.
    apply Qmult_lt_r in L; [|apply two_pos]. rewrite <- Zlt_Qlt in L. lia.
Qed.

Lemma int_le_max s b z : 1 <= b <= 64 -> is_int s b z -> (Qabs (inject_Z z) <= flt_max)%Q.
Proof.
  intros Hb H. change (Qabs (inject_Z z)) with (inject_Z (Z.abs z)). unfold flt_max. rewrite <- Zle_Qle.
  assert (2 ^ (b - 1) <= 2 ^ 64) by (apply Z.pow_le_mono_r; lia). assert (2 ^ b <= 2 ^ 64) by (apply Z.pow_le_mono_r; lia).
  assert (2 ^ 64 <= (2 ^ 24 - 1) * 2 ^ 104) by (vm_compute; discriminate).
  unfold is_int in H. destruct s; lia.
Qed.

Definition kind_ok (k : kind) : Prop := match k with KI _ b => 1 <= b <= 64 | KF _ => True end.

(** What [store_single] gives. *)
Lemma store_value k x v : store_single k x = Ok v -> v = to_fl false x.
Proof.
  unfold store_single, to_fl, fcast. destruct k as [s b|[|]], x as [z|[q|g|]]; try congruence.
  destruct (qltb _ _); congruence.
Qed.

Lemma store_fails k x : (exists v, store_single k x = Ok v) \/ store_single k x = Err FitsError.
Proof.
  unfold store_single. destruct k as [s b|[|]], x as [z|[q|g|]]; eauto. destruct (qltb _ _); eauto.
Qed.

Lemma store_err a x : store_single (a_kind a) x = Err FitsError <-> too_large a x.
Proof.
  unfold store_single, too_large. destruct (a_kind a) as [s b|[|]], x as [z|[q|g|]];
    split; try discriminate; try (intros (Hk & H); try discriminate Hk; try contradiction); try (intros _; split; [reflexivity|exact I]); try reflexivity.
  - intros H. split; [reflexivity|]. destruct (qltb flt_max (Qabs q)) eqn:E; [|discriminate]. apply qltb_true in E. rewrite <- flt_max_eq'. exact E.
  - destruct (qltb flt_max (Qabs q)) eqn:E; [reflexivity|]. apply qltb_false in E. exfalso. rewrite flt_max_eq' in E.
    apply (Qlt_not_le _ _ H). exact E.
Qed.

Lemma kept_fin q y x : value x q -> fround false q = Fin y -> (forall g, x <> NF (Inf g)) -> x <> NF NaN -> kept x (Fin y).
Proof.
  intros V F N1 N2. assert (G : exists q y', value x q /\ Fin y = Fin y' /\ is_float false y' /\
      (forall z, is_float false z -> (Qabs (y' - q) <= Qabs (z - q))%Q) /\
      (Qabs (y' - q) <= two (-24) * Qabs q + two (-150))%Q).
  { exists q, y. split; [exact V|]. split; [reflexivity|]. split; [eapply fround_is_float; exact F|]. split.
    - intros z Z. eapply fround_nearest; eassumption.
    - apply (fround_err false). exact F. }
  destruct x as [z|[r|g|]]; [exact G|exact G|exfalso; eapply N1; reflexivity|exfalso; apply N2; reflexivity].
Qed.

Lemma store_kept k x v : kind_ok k -> num_ok k x -> store_single k x = Ok v -> kept x v.
Proof.
  intros Kk Ok_ E. pose proof (store_value _ _ _ E) as ->.
  destruct x as [z|[q|g|]].
  - destruct k as [s b|d]; [|contradiction]. cbn [num_ok kind_ok] in *. cbn [to_fl].
    destruct (fround_single_fin (inject_Z z)) as (y & F); [eapply int_le_max; eassumption|]. rewrite F.
    apply (kept_fin (inject_Z z)); [reflexivity|exact F|discriminate|discriminate].
  - destruct k as [s b|d]; [contradiction|]. cbn [to_fl fcast].
    assert (B : (Qabs q <= flt_max)%Q).
    { destruct d; cbn in E.
      - destruct (qltb flt_max (Qabs q)) eqn:Q; [discriminate|]. apply qltb_false in Q. exact Q.
      - apply single_le_max. exact Ok_. }
    destruct (fround_single_fin q B) as (y & F). rewrite F.
    apply (kept_fin q); [cbn; reflexivity|exact F|discriminate|discriminate].
  - reflexivity.
  - reflexivity.
Qed.
