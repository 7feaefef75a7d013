(** Proofs on outlier rejection. *)
From Coq Require Import Reals Lra Lia ZifyBool ZifyNat Permutation Sorted.
From Verif Require Import Base BaseLemmas Img ImgLemmas Outlier SpecFile SpecOutlier.
Open Scope Z_scope.

Lemma rltb_true a b : rltb a b = true <-> (a < b)%R.
Proof. unfold rltb. destruct (Rlt_dec a b); split; intros; auto; try discriminate; contradiction. Qed.

Lemma rltb_false a b : rltb a b = false <-> (b <= a)%R.
Proof. unfold rltb. destruct (Rlt_dec a b); split; intros; auto; try discriminate; lra. Qed.

(** * Median *)
Lemma rinsert_perm x l : Permutation (rinsert x l) (x :: l).
Proof.
  induction l as [|y l IH]; cbn [rinsert]; [apply Permutation_refl|]. destruct (rltb y x); [|apply Permutation_refl].
  eapply perm_trans; [apply perm_skip; exact IH|apply perm_swap].
Qed.

Lemma rinsert_sorted x l : StronglySorted Rle l -> StronglySorted Rle (rinsert x l).
Proof.
  induction l as [|y l IH]; cbn [rinsert]; intros H; [constructor; constructor|].
  inversion H as [|? ? H1 H2]; subst. destruct (rltb y x) eqn:E.
  - apply rltb_true in E. constructor; [apply IH; exact H1|]. rewrite Forall_forall in *. intros z Hz.
    apply (Permutation_in _ (rinsert_perm x l)) in Hz. destruct Hz as [<-|Hz]; [lra|apply H2; exact Hz].
  - apply rltb_false in E. constructor; [exact H|]. constructor; [exact E|]. rewrite Forall_forall in *.
    intros z Hz. specialize (H2 z Hz). lra.
Qed.

Lemma rsort_ok l : Permutation (rsort l) l /\ StronglySorted Rle (rsort l).
Proof.
  induction l as [|x l IH]; cbn [rsort fold_right]; [split; constructor|]. destruct IH as [I1 I2]. split.
  - eapply perm_trans; [apply rinsert_perm|apply perm_skip; exact I1].
  - apply rinsert_sorted. exact I2.
Qed.

Lemma median_ok l : l <> [] -> exists m, median l = Ok m /\ median_of l m.
Proof.
  intros Hl. destruct (rsort_ok l) as [P S]. unfold median, median_of.
  assert (HL : zlen (rsort l) = zlen l) by (unfold zlen; rewrite (Permutation_length P); reflexivity).
  assert (H1 : 1 <= zlen l) by (destruct l; [congruence|unfold zlen; cbn [length]; lia]).
  set (s := rsort l) in *. cbv zeta. destruct (Z.even (zlen s)) eqn:E.
  - apply Z.even_spec in E. destruct E as (k & E).
    destruct (zget_range_Some s (zlen s / 2 - 1)) as (a & Ha); [rewrite E, Z.mul_comm, Z.div_mul by lia; lia|].
    destruct (zget_range_Some s (zlen s / 2)) as (b & Hb); [rewrite E, Z.mul_comm, Z.div_mul by lia; lia|].
    rewrite Ha, Hb. eexists. split; [reflexivity|]. exists s, a, b. repeat split; try assumption.
    replace ((zlen s - 1) / 2) with (zlen s / 2 - 1); [exact Ha|].
    rewrite E. rewrite (Z.mul_comm 2 k), Z.div_mul by lia. apply Z.div_unique with (r := 1); lia.
  - assert (O : Z.odd (zlen s) = true) by (rewrite <- Z.negb_even, E; reflexivity). apply Z.odd_spec in O. destruct O as (k & O).
    assert (D : zlen s / 2 = k) by (symmetry; apply Z.div_unique with (r := 1); lia).
    assert (D' : (zlen s - 1) / 2 = k) by (symmetry; apply Z.div_unique with (r := 0); lia).
    destruct (zget_range_Some s k) as (a & Ha); [lia|]. rewrite D, Ha. eexists. split; [reflexivity|].
    exists s, a, a. rewrite D', D. repeat split; try assumption. lra.
Qed.

(** * The criterion *)
Lemma criterion nsigma A med x w : (0 <= nsigma)%R -> (0 <= A)%R ->
  (is_outlier nsigma A med x (Rmax 0 w) = true <-> outlier nsigma A med x w).
Proof.
  intros Hn HA. unfold is_outlier, outlier. rewrite rltb_true. destruct (Rle_dec w 0) as [Hw|Hw].
  - rewrite Rmax_left by exact Hw. rewrite Rmult_0_r, sqrt_0, Rmult_0_r, Rplus_0_l. split; [|lra].
    intros H. pose proof (Rle_0_sqr nsigma) as S. unfold Rsqr in S. lra.
  - assert (W : (0 < w)%R) by lra. rewrite Rmax_right by lra. pose proof (sqrt_lt_R0 w W) as Hs.
    pose proof (sqrt_sqrt w ltac:(lra)) as Hss. set (s := sqrt w) in *.
    pose proof (Rabs_pos med) as Hm. pose proof (Rabs_pos (x - med)) as Hd.
    replace ((x - med) * (x - med) * w)%R with ((Rabs (x - med) * s) * (Rabs (x - med) * s))%R.
    2:{ rewrite <- Hss. pose proof (Rsqr_abs (x - med)) as E. unfold Rsqr in E.
        replace ((x - med) * (x - med) * (s * s))%R with ((Rabs (x - med) * Rabs (x - med)) * (s * s))%R by (rewrite <- E; reflexivity). ring. }
    set (d := Rabs (x - med)) in *. set (a := Rabs med) in *.
    assert (P1 : (0 <= a * A * s)%R) by (apply Rmult_le_pos; [apply Rmult_le_pos; assumption|lra]).
    assert (P2 : (0 <= d * s)%R) by (apply Rmult_le_pos; lra).
    assert (SQ : ((a * A * s + nsigma) * (a * A * s + nsigma) < d * s * (d * s))%R <-> (a * A * s + nsigma < d * s)%R).
    { split; intros H.
      - apply Rsqr_incrst_0; [exact H|lra|exact P2].
      - apply Rsqr_incrst_1; [exact H|lra|exact P2]. }
    rewrite SQ. split.
    + intros H. split; [exact W|]. unfold Rgt. apply Rmult_lt_reg_r with s; [exact Hs|].
      replace ((nsigma * (1 / s) + A * a) * s)%R with (a * A * s + nsigma)%R by (field; lra). exact H.
    + intros (_ & H). unfold Rgt in H. apply (Rmult_lt_compat_r s) in H; [|exact Hs].
      replace ((nsigma * (1 / s) + A * a) * s)%R with (a * A * s + nsigma)%R in H by (field; lra). exact H.
Qed.

(** * Counting *)
Lemma count_list {A} (f : A -> bool) (d : list A) :
  exists I, NoDup I /\ (forall k, In k I <-> exists a, zget d k = Some a /\ f a = true) /\ zlen I = zlen (filter f d).
Proof.
  induction d as [|a d (I & N & H & L)].
  - exists []. split; [constructor|]. split; [|reflexivity]. intros k. split; [intros []|].
    intros (a & E & _). apply zget_Some_range in E. unfold zlen in E. cbn in E. lia.
  - assert (HZ : forall k, 0 < k -> zget (a :: d) k = zget d (k - 1)).
    { intros k Hk. unfold zget. replace (k <? 0) with false by lia. replace (k - 1 <? 0) with false by lia.
      replace (Z.to_nat k) with (S (Z.to_nat (k - 1))) by lia. reflexivity. }
    assert (N2 : NoDup (map (fun k => k + 1) I)) by (apply FinFun.Injective_map_NoDup; [intros x y E; lia|exact N]).
    assert (H2 : forall k, In k (map (fun k => k + 1) I) <-> 0 < k /\ exists x, zget (a :: d) k = Some x /\ f x = true).
    { intros k. rewrite in_map_iff. split.
      - intros (j & <- & Hj). apply H in Hj. destruct Hj as (x & E & F). pose proof (zget_Some_range _ _ _ E). split; [lia|].
        exists x. split; [|exact F]. rewrite HZ by lia. replace (j + 1 - 1) with j by lia. exact E.
      - intros (Hk & x & E & F). exists (k - 1). split; [lia|]. apply H. exists x. split; [|exact F]. rewrite <- HZ by exact Hk. exact E. }
    assert (H0 : zget (a :: d) 0 = Some a) by reflexivity.
    cbn [filter]. destruct (f a) eqn:E.
    + exists (0 :: map (fun k => k + 1) I). split; [|split].
      * constructor; [|exact N2]. intros C. apply H2 in C. lia.
      * intros k. cbn [In]. rewrite H2. split.
        -- intros [<-|(Hk & H3)]; [exists a; split; [exact H0|exact E]|exact H3].
        -- intros (x & X & F). pose proof (zget_Some_range _ _ _ X). destruct (Z.eq_dec k 0) as [->|]; [left; reflexivity|].
           right. split; [lia|]. exists x. split; assumption.
      * unfold zlen in *. cbn [length]. rewrite map_length. lia.
    + exists (map (fun k => k + 1) I). split; [exact N2|]. split; [|unfold zlen in *; rewrite map_length; exact L].
      intros k. rewrite H2. split; [intros (_ & H3); exact H3|]. intros (x & X & F). pose proof (zget_Some_range _ _ _ X).
      split; [|exists x; split; assumption]. destruct (Z.eq_dec k 0) as [->|]; [|lia]. exfalso. rewrite H0 in X. congruence.
Qed.

Lemma count_px {A} (f : A -> bool) (im : img A) : img_ok im ->
  exists L, NoDup L /\ (forall r c, In (r, c) L <-> exists a, px im r c = Some a /\ f a = true) /\ zlen L = zlen (filter f (dat im)).
Proof.
  intros (I1 & I2 & I3). destruct (count_list f (dat im)) as (I & N & H & L).
  assert (HR : forall k, In k I -> 0 <= k < nr im * nc im).
  { intros k Hk. apply H in Hk. destruct Hk as (a & E & _). apply zget_Some_range in E. lia. }
  exists (map (fun k => (k / nc im, k mod nc im)) I). split; [|split].
  - clear H L. induction I as [|k I IH]; [constructor|]. inversion N as [|? ? N1 N2]; subst. cbn [map]. constructor.
    + rewrite in_map_iff. intros (j & E & Hj). apply N1. inversion E as [[E1 E2]].
      destruct (unflat _ _ j (HR j (or_intror Hj)) I1 I2) as (_ & _ & U1). destruct (unflat _ _ k (HR k (or_introl eq_refl)) I1 I2) as (_ & _ & U2).
      rewrite E1, E2 in U1. rewrite <- U2 in U1. subst. exact Hj.
    + apply IH; [exact N2|]. intros j Hj. apply HR. right. exact Hj.
  - intros r c. rewrite in_map_iff. split.
    + intros (k & E & Hk). inversion E; subst. pose proof (HR k Hk) as R. apply H in Hk. destruct Hk as (a & Ea & F).
      exists a. split; [|exact F]. destruct (unflat _ _ k R I1 I2) as (U1 & U2 & U3). unfold px.
      replace (0 <=? k / nc im) with true by lia. replace (k / nc im <? nr im) with true by lia.
      replace (0 <=? k mod nc im) with true by lia. replace (k mod nc im <? nc im) with true by lia. cbn [andb]. rewrite <- U3. exact Ea.
    + intros (a & E & F). destruct (px_Some_range _ _ _ _ E) as [R1 R2]. exists (r * nc im + c).
      destruct (flat_div (nr im) (nc im) r c R1 R2) as (D1 & D2). split; [rewrite D1, D2; reflexivity|]. apply H. exists a.
      split; [|exact F]. unfold px in E. dif_in E E0; [exact E|discriminate].
  - unfold zlen in *. rewrite map_length. exact L.
Qed.
