(** Means and deviations in floating point. *)
From Coq Require Import Lia ZifyBool ZifyNat Lqa Qabs Qpower Permutation.
From Verif Require Import Base BaseLemmas Img ImgLemmas Types BoundsM Single SingleLemmas CompositeLemmas Typed SpecTyped TypedLemmas LayoutFl FlMonoLemmas
  LayoutFlLemmas OutlierFl CompareFl SpecCompareFl CompareFlLemmas.
Open Scope Z_scope.

Definition ulp (d : bool) : Q := Qpower (2#1) (- f_prec d).
Definition tiny (d : bool) : Q := Qpower (2#1) (- f_low d - 1).
Lemma eps_ulp d : eps d = ulp d.
Proof. destruct d; reflexivity. Qed.
Lemma ulp_wide d w : (ulp (d || w) <= ulp d)%Q.
Proof. destruct d, w; vm_compute; discriminate. Qed.
Lemma tiny_wide d w : (tiny (d || w) <= tiny d)%Q.
Proof. unfold tiny. apply two_le. destruct d, w; cbn; lia. Qed.
Lemma ulp_bounds d : (0 < ulp d <= 1 # 16777216)%Q.
Proof. apply u_bounds. Qed.
Lemma tiny_pos d : (0 < tiny d)%Q.
Proof. apply t_pos. Qed.
Lemma tiny_small d : (tiny d <= Qpower (2#1) (-150))%Q.
Proof. apply t_small. Qed.
Lemma tiny_ulp d : (tiny d <= ulp d * (1#100))%Q.
Proof. destruct d; vm_compute; discriminate. Qed.

Lemma round_wide d w x : (Qabs x <= Qpower (2#1) 126)%Q -> exists v, fround (d || w) x = Fin v /\ (Qabs (v - x) <= ulp d * Qabs x + tiny d)%Q.
Proof.
  intros H. destruct (round_ok (d || w) x H) as (v & E & B). exists v. split; [exact E|]. eapply Qle_trans; [exact B|].
  pose proof (Qmult_le_compat_r _ _ (Qabs x) (ulp_wide d w) (Qabs_nonneg x)). pose proof (tiny_wide d w). unfold ulp, tiny in *. lra.
Qed.

(** Dividing by the number of elements *)
Lemma quot_error (u : Q) a b n : (0 < u <= 1 # 1000)%Q -> (1 <= n)%Q -> (Qabs (b - n) <= 2 * u * n)%Q -> (0 < b)%Q /\ (Qabs (a / b - a / n) <= 3 * u * Qabs (a / n))%Q.
Proof.
  intros U N H. apply abs_le in H. assert (Hb : (n * (1 - 2 * u) <= b)%Q) by lra.
  assert (P : (0 < n * (1 - 2 * u))%Q) by (apply Qmult_lt_0_compat; lra). split; [lra|].
  assert (E : (a / b - a / n == (a / n) * ((n - b) / b))%Q) by (field; split; lra). rewrite E, Qabs_Qmult, Qmult_comm. apply Qmult_le_compat_r; [|apply Qabs_nonneg].
  assert (B0 : (0 < b)%Q) by lra. assert (G : (0 <= u * (1 - 6 * u) * n)%Q) by (repeat apply Qmult_le_0_compat; lra).
  assert (K : (2 * u * n <= 3 * u * b)%Q).
  { apply Qle_trans with (3 * u * (n * (1 - 2 * u)))%Q; [lra|]. apply qmul_le; lra. }
  apply abs_le. split.
  - apply Qle_shift_div_l; [exact B0|]. lra.
  - apply Qle_shift_div_r; [exact B0|]. lra.
Qed.

Lemma div_count_ok np d a n : 0 < n <= 2 ^ 40 -> (Qabs (a / inject_Z n) <= Qpower (2#1) 124)%Q ->
  exists m, div_count np d (Fin a) n = Fin m /\ (Qabs (m - a / inject_Z n) <= 6 * ulp d * Qabs (a / inject_Z n) + 3 * tiny d)%Q /\ ((0 <= a)%Q -> (0 <= m)%Q).
Proof.
  intros Hn HA. pose proof (ulp_bounds d) as U. pose proof (tiny_pos d) as T. pose proof (tiny_ulp d) as TU. unfold div_count.
  assert (N1 : (1 <= inject_Z n)%Q) by (change 1%Q with (inject_Z 1); apply inject_ge; lia).
  assert (N2 : (inject_Z n <= inject_Z (2 ^ 40))%Q) by (apply inject_ge; lia).
  set (y := (a / inject_Z n)%Q) in *. assert (Y : (0 <= Qabs y)%Q) by apply Qabs_nonneg.
  destruct (round_wide d (np_wide np) (inject_Z n)) as (b & Eb & Bb).
  { rewrite Qabs_pos by lra. eapply Qle_trans; [exact N2|vm_compute; discriminate]. }
  rewrite Eb. rewrite (Qabs_pos (inject_Z n)) in Bb by lra.
  destruct (quot_error (ulp d) a b (inject_Z n)) as (Pb & Q1); [lra|exact N1| |].
  { eapply Qle_trans; [exact Bb|]. assert (ulp d * 1 <= ulp d * inject_Z n)%Q by (apply qmul_le; lra). lra. }
  fold y in Q1. destruct (Qeq_bool b 0) eqn:B0; [apply Qeq_bool_iff in B0; lra|].
  assert (UY : (ulp d * Qabs y <= (1#1000) * Qabs y)%Q) by (apply Qmult_le_compat_r; lra).
  assert (UY0 : (0 <= ulp d * Qabs y)%Q) by (apply Qmult_le_0_compat; lra).
  set (y1 := (a / b)%Q) in *. assert (A1 : (Qabs y1 <= Qabs y + 3 * (ulp d * Qabs y))%Q).
  { assert (E : (y1 == y + (y1 - y))%Q) by ring. rewrite E. eapply Qle_trans; [apply Qabs_triangle|]. lra. }
  assert (S126 : (2 * Qpower (2#1) 124 + 1 <= Qpower (2#1) 126)%Q) by (vm_compute; discriminate).
  destruct (round_wide d (np_wide np) y1) as (y2 & E2 & B2).
  { eapply Qle_trans; [exact A1|]. lra. }
  assert (U1 : (ulp d * Qabs y1 <= ulp d * Qabs y + (1#100) * (ulp d * Qabs y))%Q).
  { apply Qle_trans with (ulp d * (Qabs y + 3 * (ulp d * Qabs y)))%Q; [apply qmul_le; lra|]. assert (ulp d * (ulp d * Qabs y) <= (1#1000) * (ulp d * Qabs y))%Q by (apply Qmult_le_compat_r; lra). lra. }
  rewrite E2. cbn [fcast].
  assert (A2 : (Qabs y2 <= Qabs y + 5 * (ulp d * Qabs y) + tiny d)%Q).
  { assert (E : (y2 == y1 + (y2 - y1))%Q) by ring. rewrite E. eapply Qle_trans; [apply Qabs_triangle|]. lra. }
  destruct (round_ok d y2) as (m & Em & Bm).
  { eapply Qle_trans; [exact A2|]. lra. }
  fold (ulp d) in Bm. fold (tiny d) in Bm. exists m. split; [exact Em|]. split.
  - assert (U2 : (ulp d * Qabs y2 <= ulp d * Qabs y + (1#100) * (ulp d * Qabs y) + tiny d)%Q).
    { apply Qle_trans with (ulp d * (Qabs y + 5 * (ulp d * Qabs y) + tiny d))%Q; [apply qmul_le; lra|].
      assert (ulp d * (ulp d * Qabs y) <= (1#1000) * (ulp d * Qabs y))%Q by (apply Qmult_le_compat_r; lra).
      assert (ulp d * tiny d <= 1 * tiny d)%Q by (apply Qmult_le_compat_r; lra). lra. }
    assert (E : (m - y == (m - y2) + (y2 - y1) + (y1 - y))%Q) by ring. rewrite E.
    eapply Qle_trans; [apply Qabs_triangle|]. pose proof (Qabs_triangle (m - y2) (y2 - y1)). lra.
  - intros Pa. assert (P1 : (0 <= y1)%Q) by (unfold y1; apply Qle_shift_div_l; [exact Pb|]; lra).
    assert (P2 : (inject_Z 0 * two 0 <= y2)%Q) by (apply (fround_ge (d || np_wide np) y1 0 0 y2); [apply prec_pos|apply low_pos|exact E2|rewrite Qmult_0_l; exact P1]).
    rewrite Qmult_0_l in P2. assert (P3 : (inject_Z 0 * two 0 <= m)%Q) by (apply (fround_ge d y2 0 0 m); [apply prec_pos|apply low_pos|exact Em|rewrite Qmult_0_l; exact P2]).
    rewrite Qmult_0_l in P3. exact P3.
Qed.

(** The mean *)
Lemma average_abs l : (Qabs (average l) <= average (map Qabs l))%Q.
Proof.
  unfold average. rewrite map_length. pose proof (total_abs (fun x => x) l) as H. rewrite map_id in H.
  destruct (length l) as [|n] eqn:E; [destruct l; [discriminate|discriminate]|]. set (N := inject_Z (Z.of_nat (S n))). assert (P : (0 < N)%Q) by (unfold N; change 0%Q with (inject_Z 0); rewrite <- Zlt_Qlt; lia).
  apply abs_le in H. change (map (fun x => Qabs x) l) with (map Qabs l) in H. apply abs_le. split.
  - apply Qle_shift_div_l; [exact P|]. assert (X : (- (total (map Qabs l) / N) * N == - total (map Qabs l))%Q) by (field; lra). rewrite X. apply H.
  - apply Qmult_le_compat_r; [apply H|]. apply Qlt_le_weak, Qinv_lt_0_compat. exact P.
Qed.
Lemma average_le {A} (f : A -> Q) (l : list A) C : l <> [] -> (forall x, In x l -> (f x <= C)%Q) -> (average (map f l) <= C)%Q.
Proof.
  intros Hne H. unfold average. rewrite map_length. assert (P : (0 < inject_Z (Z.of_nat (length l)))%Q) by (change 0%Q with (inject_Z 0); rewrite <- Zlt_Qlt; destruct l; [congruence|cbn; lia]).
  apply Qle_shift_div_r; [exact P|]. rewrite Qmult_comm. fold (zlen l). rewrite <- (total_const C l). apply total_map_le. exact H.
Qed.

Section Mean.
  Variables (np : numpy) (d : bool) (k N : Z).
  Hypothesis Hnp : adds_up N k np.
  Hypothesis Hk0 : 0 <= k.
  Hypothesis Hk : (inject_Z (2 * k + 20) * ulp d <= 1#8)%Q.
  Definition ku : Q := (inject_Z (2 * k) * ulp d)%Q.
  Lemma ku_bounds : (0 <= ku)%Q /\ (ku + 20 * ulp d <= 1#8)%Q.
  Proof.
    pose proof (ulp_bounds d). split.
    - unfold ku. apply Qmult_le_0_compat; [change 0%Q with (inject_Z 0); apply inject_ge; lia|lra].
    - rewrite inject_Z_plus in Hk. change (inject_Z 20) with 20%Q in Hk. unfold ku. lra.
  Qed.

  Lemma mean_ok xs C : xs <> [] -> zlen xs = N -> zlen xs <= 2 ^ 40 -> (0 <= C <= Qpower (2#1) 82)%Q -> (forall x, In x xs -> (Qabs x <= C)%Q) ->
    exists m, np_mean np d (map Fin xs) = Ok (Fin m) /\
      (Qabs (m - average xs) <= (ku + 12 * ulp d) * average (map Qabs xs) + 8 * tiny d)%Q /\
      ((forall x, In x xs -> (0 <= x)%Q) -> (0 <= m)%Q).
  Proof.
    intros Hne EN HN HC HB. pose proof (ulp_bounds d) as U. pose proof (tiny_pos d) as T. pose proof (tiny_small d) as TS. destruct ku_bounds as (K0 & K1).
    unfold np_mean. rewrite zlen_map. assert (N0 : 0 < zlen xs) by (unfold zlen; destruct xs; [congruence|cbn; lia]). dif E0; [lia|].
    pose proof Hnp as (PE & LY); rewrite <- EN in PE, LY. set (o := np_order np (zlen xs)) in *.
    assert (LL : zlen (leaves o) = zlen xs) by (unfold zlen; rewrite (Permutation_length PE); change (Z.of_nat (length (zrange (zlen xs))) = zlen xs); apply zlen_zrange; lia).
    assert (TE : (terr d (layers o) <= ku)%Q) by (change ku with (terr d k); apply terr_le; exact LY).
    pose proof (terr_nonneg d (layers o) (layers_nonneg o)) as TE0.
    destruct (tree_sum_ok d xs C o) as (s & Es & Bs & Ps); [lra|exact HB| | lra| |lia|].
    { intros i Hi. apply (Permutation_in _ PE) in Hi. apply In_zrange in Hi. exact Hi. }
    { rewrite LL. apply Qle_trans with (inject_Z (2 ^ 40) * Qpower (2#1) 82)%Q; [|vm_compute; discriminate].
      apply Qle_trans with (inject_Z (2 ^ 40) * C)%Q; [apply Qmult_le_compat_r; [apply inject_ge; lia|lra]|apply qmul_le; [discriminate|lra]]. }
    rewrite Es. cbn [bind]. fold (tiny d) in Bs.
    rewrite (total_perm _ _ (Permutation_map (pick (fun x => x) xs) PE)), (total_perm _ _ (Permutation_map (pick Qabs xs) PE)), !pick_all, map_id, LL in Bs.
    set (n := zlen xs) in *. assert (NP : (1 <= inject_Z n)%Q) by (change 1%Q with (inject_Z 1); apply inject_ge; lia).
    pose proof (average_abs xs) as AB.
    assert (AC : (average (map Qabs xs) <= C)%Q) by (apply average_le; assumption).
    assert (EA : (total xs == average xs * inject_Z n)%Q) by (unfold average; fold (zlen xs); fold n; field; lra).
    assert (EB : (total (map Qabs xs) == average (map Qabs xs) * inject_Z n)%Q) by (unfold average; rewrite map_length; fold (zlen xs); fold n; field; lra).
    set (av := average xs) in *. set (ab := average (map Qabs xs)) in *. assert (AB0 : (0 <= ab)%Q) by (eapply Qle_trans; [apply Qabs_nonneg|exact AB]).
    assert (Y : (Qabs (s / inject_Z n - av) <= ku * ab + 4 * tiny d)%Q).
    { assert (X : (s / inject_Z n - av == (s - total xs) * / inject_Z n)%Q) by (rewrite EA; field; lra). rewrite X, Qabs_Qmult.
      rewrite (Qabs_pos (/ inject_Z n)) by (apply Qlt_le_weak, Qinv_lt_0_compat; lra). change (Qabs (s - total xs) * / inject_Z n)%Q with (Qabs (s - total xs) / inject_Z n)%Q.
      apply Qle_shift_div_r; [lra|]. eapply Qle_trans; [exact Bs|]. rewrite EB.
      assert (X1 : (terr d (layers o) * (ab * inject_Z n) <= ku * (ab * inject_Z n))%Q) by (apply Qmult_le_compat_r; [exact TE|apply Qmult_le_0_compat; lra]).
      assert (X2 : (inject_Z (2 * n - 1) * (1 + terr d (layers o)) * tiny d <= (2 * inject_Z n) * 2 * tiny d)%Q).
      { apply Qmult_le_compat_r; [|lra]. assert (I1 : (0 <= inject_Z (2 * n - 1) <= 2 * inject_Z n)%Q).
        { change 2%Q with (inject_Z 2). rewrite <- inject_Z_mult. split; [change 0%Q with (inject_Z 0)|]; apply inject_ge; lia. }
        apply Qle_trans with (2 * inject_Z n * (1 + terr d (layers o)))%Q; [apply Qmult_le_compat_r; lra|apply qmul_le; lra]. }
      lra. }
    set (y := (s / inject_Z n)%Q) in *.
    assert (KA : (ku * ab <= (1#8) * ab)%Q) by (apply Qmult_le_compat_r; lra).
    assert (YB : (Qabs y <= 2 * ab + 4 * tiny d)%Q).
    { assert (X : (y == av + (y - av))%Q) by ring. rewrite X. eapply Qle_trans; [apply Qabs_triangle|]. lra. }
    assert (C124 : (2 * Qpower (2#1) 82 + 1 <= Qpower (2#1) 124)%Q) by (vm_compute; discriminate).
    assert (T1 : (4 * tiny d <= 1)%Q) by (assert (4 * Qpower (2#1) (-150) <= 1)%Q by (vm_compute; discriminate); lra).
    destruct (div_count_ok np d s n) as (m & Em & Bm & Pm); [lia| |].
    { fold y. eapply Qle_trans; [exact YB|]. lra. }
    fold y in Bm. exists m. split; [rewrite Em; reflexivity|]. split; [|intros H0; apply Pm; apply Ps; exact H0].
    assert (UB : (ulp d * Qabs y <= 2 * (ulp d * ab) + tiny d * (1#100))%Q).
    { apply Qle_trans with (ulp d * (2 * ab + 4 * tiny d))%Q; [apply qmul_le; lra|]. assert (ulp d * tiny d <= (1#1000) * tiny d)%Q by (apply Qmult_le_compat_r; lra). lra. }
    assert (X : (m - av == (m - y) + (y - av))%Q) by ring. rewrite X. eapply Qle_trans; [apply Qabs_triangle|]. lra.
  Qed.
End Mean.
