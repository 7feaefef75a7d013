(** Correctness of the k-d tree. *)
From Coq Require Import Lia ZifyBool ZifyNat Lqa Permutation.
From Verif Require Import Base BaseLemmas BoundsM Fast3tree SpecUberseg CompositeLemmas.
Open Scope Z_scope.

(** * Partition *)
Lemma upd_app {A} (a : list A) x b y : upd (a ++ x :: b) (length a) y = a ++ y :: b.
Proof. induction a as [|z a IH]; [reflexivity|]. cbn [app length upd]. rewrite IH. reflexivity. Qed.

Lemma swap_perm {A} (p : list A) i j x y : (i < j)%nat -> nth_error p i = Some x -> nth_error p j = Some y ->
  Permutation (upd (upd p j x) i y) p.
Proof.
  intros Hij Hi Hj. apply nth_error_split in Hj. destruct Hj as (a & c & -> & La).
  rewrite nth_error_app1 in Hi by lia. apply nth_error_split in Hi. destruct Hi as (a1 & b & -> & La1).
  subst j. rewrite upd_app. subst i. rewrite <- app_assoc. cbn [app]. rewrite upd_app.
  rewrite <- app_assoc. cbn [app]. apply Permutation_app_head.
  rewrite (Permutation_middle b). rewrite <- Permutation_middle.
  change (y :: x :: b ++ c) with ([y] ++ [x] ++ (b ++ c)). 
  etransitivity; [apply perm_skip; apply Permutation_sym; apply Permutation_middle|].
  apply Permutation_sym. etransitivity; [apply perm_skip; apply Permutation_sym; apply Permutation_middle|].
  apply perm_swap.
Qed.

Lemma zget_swap (p : list pt) i j x y : 0 <= i < j -> j < zlen p ->
  zget p i = Some x -> zget p j = Some y ->
  forall m, zget (upd (upd p (Z.to_nat j) x) (Z.to_nat i) y) m =
    if m =? i then Some y else if m =? j then Some x else zget p m.
Proof.
  intros Hi Hj Ei Ej m. unfold zget in *. dif E.
  - replace (m =? i) with false by lia. replace (m =? j) with false by lia. reflexivity.
  - rewrite !nth_error_upd, upd_length. unfold zlen in Hj.
    destruct (m =? i) eqn:E1.
    + replace (Z.to_nat i =? Z.to_nat m)%nat with true by lia.
      replace (Z.to_nat m <? length p)%nat with true by lia. reflexivity.
    + replace (Z.to_nat i =? Z.to_nat m)%nat with false by lia. destruct (m =? j) eqn:E2.
      * replace (Z.to_nat j =? Z.to_nat m)%nat with true by lia.
        replace (Z.to_nat m <? length p)%nat with true by lia. reflexivity.
      * replace (Z.to_nat j =? Z.to_nat m)%nat with false by lia. reflexivity.
Qed.

Lemma cget_ok p i x : cget p i = Ok x <-> zget p i = Some x.
Proof. unfold cget. destruct (zget p i); split; congruence. Qed.

Lemma sort_loop_spec d lim fuel : forall p i j, 0 <= i -> i <= j -> j < zlen p -> (Z.to_nat (j - i) <= fuel)%nat ->
  (forall k x, k < i -> zget p k = Some x -> (coord d x <= lim)%Q) ->
  (forall k x, j < k -> zget p k = Some x -> (lim < coord d x)%Q) ->
  exists p' k, sort_loop fuel d lim p i j = Ok (p', k) /\ Permutation p' p /\ i <= k <= j + 1 /\
    forall m x, zget p' m = Some x -> (m < k -> (coord d x <= lim)%Q) /\ (k <= m -> (lim < coord d x)%Q).
Proof.
  induction fuel as [|fuel IH]; intros p i j Hi Hij Hj Hf HL HR; cbn [sort_loop].
  - assert (i = j) by lia. subst j. replace (i <? i) with false by lia. rewrite Z.eqb_refl.
    destruct (zget_range_Some p i) as (x & Ex); [lia|]. rewrite (proj2 (cget_ok p i x) Ex). cbn [bind].
    exists p. destruct (Qle_bool (coord d x) lim) eqn:EQ.
    + apply Qle_bool_iff in EQ. exists (i + 1). split; [reflexivity|]. split; [reflexivity|]. split; [lia|].
      intros m y Hy. split; intros Hm.
      * destruct (Z.eq_dec m i) as [->|]; [congruence|]. apply (HL m); [lia|exact Hy].
      * apply (HR m); [lia|exact Hy].
    + assert (lim < coord d x)%Q. { apply Qnot_le_lt. intros HH. apply Qle_bool_iff in HH. congruence. }
      exists i. split; [reflexivity|]. split; [reflexivity|]. split; [lia|].
      intros m y Hy. split; intros Hm.
      * apply (HL m); [lia|exact Hy].
      * destruct (Z.eq_dec m i) as [->|]; [congruence|]. apply (HR m); [lia|exact Hy].
  - destruct (i <? j) eqn:E.
    + destruct (zget_range_Some p i) as (x & Ex); [lia|]. rewrite (proj2 (cget_ok p i x) Ex). cbn [bind].
      destruct (qltb lim (coord d x)) eqn:EQ.
      * apply qltb_true in EQ. destruct (zget_range_Some p j) as (y & Ey); [lia|].
        rewrite (proj2 (cget_ok p j y) Ey). cbn [bind].
        pose proof (zget_swap p i j x y ltac:(lia) Hj Ex Ey) as HZ.
        assert (HP : Permutation (upd (upd p (Z.to_nat j) x) (Z.to_nat i) y) p).
        { apply swap_perm; [lia| |].
          - rewrite <- Ex. unfold zget. replace (i <? 0) with false by lia. reflexivity.
          - rewrite <- Ey. unfold zget. replace (j <? 0) with false by lia. reflexivity. }
        destruct (IH (upd (upd p (Z.to_nat j) x) (Z.to_nat i) y) i (j - 1)) as (p' & k & I1 & I2 & I3 & I4);
          [lia|lia|unfold zlen; rewrite !upd_length; unfold zlen in Hj; lia|lia| | |].
        { intros k z Hk Hz. rewrite HZ in Hz. replace (k =? i) with false in Hz by lia.
          replace (k =? j) with false in Hz by lia. apply (HL k); assumption. }
        { intros k z Hk Hz. rewrite HZ in Hz. replace (k =? i) with false in Hz by lia.
          dif_in Hz E2; [congruence|]. apply (HR k); [lia|exact Hz]. }
        exists p', k. split; [exact I1|]. split; [etransitivity; [exact I2|exact HP]|]. split; [lia|exact I4].
      * apply qltb_false in EQ.
        destruct (IH p (i + 1) j) as (p' & k & I1 & I2 & I3 & I4); [lia|lia|lia|lia| |exact HR|].
        { intros k z Hk Hz. destruct (Z.eq_dec k i) as [->|]; [congruence|]. apply (HL k); [lia|exact Hz]. }
        exists p', k. split; [exact I1|]. split; [exact I2|]. split; [lia|exact I4].
    + assert (i = j) by lia. subst j. rewrite Z.eqb_refl.
      destruct (zget_range_Some p i) as (x & Ex); [lia|]. rewrite (proj2 (cget_ok p i x) Ex). cbn [bind].
      exists p. destruct (Qle_bool (coord d x) lim) eqn:EQ.
      * apply Qle_bool_iff in EQ. exists (i + 1). split; [reflexivity|]. split; [reflexivity|]. split; [lia|].
        intros m y Hy. split; intros Hm.
        -- destruct (Z.eq_dec m i) as [->|]; [congruence|]. apply (HL m); [lia|exact Hy].
        -- apply (HR m); [lia|exact Hy].
      * assert (lim < coord d x)%Q. { apply Qnot_le_lt. intros HH. apply Qle_bool_iff in HH. congruence. }
        exists i. split; [reflexivity|]. split; [reflexivity|]. split; [lia|].
        intros m y Hy. split; intros Hm.
        -- apply (HL m); [lia|exact Hy].
        -- destruct (Z.eq_dec m i) as [->|]; [congruence|]. apply (HR m); [lia|exact Hy].
Qed.

(** * Bounding boxes *)
Lemma minmax_fold l : forall m, (fst m <= snd m)%Q ->
  let m' := fold_left minmax_step l m in
  (fst m' <= fst m)%Q /\ (snd m <= snd m')%Q /\
  (forall x, In x l -> (fst m' <= x <= snd m')%Q) /\
  (fst m' = fst m \/ In (fst m') l) /\ (snd m' = snd m \/ In (snd m') l).
Proof.
  induction l as [|a l IH]; intros m Hm; cbn [fold_left].
  - cbv zeta. repeat split; try apply Qle_refl; try (left; reflexivity); match goal with H : In _ [] |- _ => destruct H end.
  - cbv zeta. assert (ES : minmax_step m a = if qltb a (fst m) then (a, snd m)
        else if qltb (snd m) a then (fst m, a) else m) by reflexivity.
    destruct (qltb a (fst m)) eqn:E1; [rewrite ES|].
    + apply qltb_true in E1. specialize (IH (a, snd m)). cbn [fst snd] in IH. destruct IH as (I1 & I2 & I3 & I4 & I5); [lra|].
      repeat split.
      * lra.
      * exact I2.
      * destruct H as [<- |H]; [exact I1|apply I3; exact H].
      * destruct H as [<- |H]; [|apply I3; exact H]. lra.
      * right. destruct I4 as [-> |I4]; [left; reflexivity|right; exact I4].
      * destruct I5 as [I5|I5]; [left; exact I5|right; right; exact I5].
    + apply qltb_false in E1. destruct (qltb (snd m) a) eqn:E2; rewrite ES.
      * apply qltb_true in E2. specialize (IH (fst m, a)). cbn [fst snd] in IH. destruct IH as (I1 & I2 & I3 & I4 & I5); [lra|].
        repeat split.
        -- exact I1.
        -- lra.
        -- destruct H as [<- |H]; [lra|apply I3; exact H].
        -- destruct H as [<- |H]; [exact I2|apply I3; exact H].
        -- destruct I4 as [I4|I4]; [left; exact I4|right; right; exact I4].
        -- right. destruct I5 as [-> |I5]; [left; reflexivity|right; exact I5].
      * apply qltb_false in E2. specialize (IH m Hm). cbv zeta in IH. destruct IH as (I1 & I2 & I3 & I4 & I5).
        repeat split.
        -- exact I1.
        -- exact I2.
        -- destruct H as [<- |H]; [lra|apply I3; exact H].
        -- destruct H as [<- |H]; [lra|apply I3; exact H].
        -- destruct I4 as [I4|I4]; [left; exact I4|right; right; exact I4].
        -- destruct I5 as [I5|I5]; [left; exact I5|right; right; exact I5].
Qed.

Lemma find_minmax_ok p ps : exists b, find_minmax (p :: ps) = Ok b /\ bounding b (p :: ps).
Proof.
  eexists. split; [reflexivity|]. 
  assert (H : forall f : pt -> Q,
    let m := fold_left minmax_step (map f ps) (f p, f p) in
    (forall q, In q (p :: ps) -> (fst m <= f q <= snd m)%Q) /\
    (exists q, In q (p :: ps) /\ (f q == fst m)%Q) /\ (exists q, In q (p :: ps) /\ (f q == snd m)%Q)).
  { intros f m. destruct (minmax_fold (map f ps) (f p, f p) (Qle_refl _)) as (I1 & I2 & I3 & I4 & I5).
    fold m in I1, I2, I3, I4, I5. cbn [fst snd] in *. split; [|split].
    - intros q [<- |Hq]; [split; assumption|]. apply I3. apply in_map. exact Hq.
    - destruct I4 as [I4|I4]; [exists p; split; [left; reflexivity|rewrite I4; reflexivity]|].
      apply in_map_iff in I4. destruct I4 as (q & Eq & Hq). exists q. split; [right; exact Hq|rewrite Eq; reflexivity].
    - destruct I5 as [I5|I5]; [exists p; split; [left; reflexivity|rewrite I5; reflexivity]|].
      apply in_map_iff in I5. destruct I5 as (q & Eq & Hq). exists q. split; [right; exact Hq|rewrite Eq; reflexivity]. }
  intros [|]; [apply (H p_1)|apply (H p_0)].
Qed.

Lemma bounding_perm b l l' : Permutation l l' -> bounding b l -> bounding b l'.
Proof.
  intros P H d. destruct (H d) as (H1 & (p & P1 & P2) & (q & Q1 & Q2)). split; [|split].
  - intros x Hx. apply H1. apply Permutation_sym in P. eapply Permutation_in; eassumption.
  - exists p. split; [eapply Permutation_in; eassumption|exact P2].
  - exists q. split; [eapply Permutation_in; eassumption|exact Q2].
Qed.

Lemma sort_dim_pos_ok b p : p <> [] -> bounding b p ->
  (exists p', sort_dim_pos b p = Ok (p', zlen p) /\ p' = p) \/
  (exists p' k, let d := find_largest_dim b in sort_dim_pos b p = Ok (p', k) /\ Permutation p' p /\ 0 < k < zlen p /\
    (lo d b < hi d b)%Q /\
    (forall x, In x (firstn (Z.to_nat k) p') -> (coord d x <= (1#2) * (lo d b + hi d b))%Q) /\
    (forall x, In x (skipn (Z.to_nat k) p') -> ((1#2) * (lo d b + hi d b) < coord d x)%Q)).
Proof.
  intros Hne Hb. unfold sort_dim_pos. set (d := find_largest_dim b).
  destruct (Qeq_bool (hi d b) (lo d b)) eqn:EQ.
  - left. exists p. split; reflexivity.
  - right. apply Qeq_bool_false in EQ. assert (HL : 0 < zlen p) by (unfold zlen; destruct p; [congruence|cbn; lia]).
    destruct (Hb d) as (B1 & (pl & L1 & L2) & (ph & H1 & H2)).
    assert (Hlt : (lo d b < hi d b)%Q).
    { pose proof (B1 pl L1). destruct (Qlt_le_dec (lo d b) (hi d b)) as [|C]; [assumption|]. exfalso. apply EQ. lra. }
    destruct (sort_loop_spec d ((1#2) * (hi d b + lo d b)) (length p) p 0 (zlen p - 1))
      as (p' & k & S1 & S2 & S3 & S4); [lia|lia|lia|unfold zlen; lia| | |].
    { intros k x Hk Hx. apply zget_Some_range in Hx. lia. }
    { intros k x Hk Hx. apply zget_Some_range in Hx. lia. }
    exists p', k. cbv zeta. assert (HLp : zlen p' = zlen p) by (unfold zlen; rewrite (Permutation_length S2); reflexivity).
    split; [exact S1|]. split; [exact S2|]. split; [|split; [exact Hlt|split]].
    + split.
      * destruct (Z.lt_ge_cases 0 k) as [|C]; [assumption|]. exfalso.
        apply Permutation_sym in S2. pose proof (Permutation_in _ S2 L1) as I. apply In_zget in I. destruct I as (m & Em).
        pose proof (zget_Some_range _ _ _ Em). destruct (S4 m pl Em) as (_ & C2). specialize (C2 ltac:(lia)). lra.
      * destruct (Z.lt_ge_cases k (zlen p)) as [|C]; [assumption|]. exfalso.
        apply Permutation_sym in S2. pose proof (Permutation_in _ S2 H1) as I. apply In_zget in I. destruct I as (m & Em).
        pose proof (zget_Some_range _ _ _ Em). destruct (S4 m ph Em) as (C2 & _). specialize (C2 ltac:(lia)). lra.
    + intros x Hx. apply In_zget in Hx. destruct Hx as (m & Em). rewrite zget_firstn in Em. dif_in Em E; [|discriminate].
      destruct (S4 m x Em) as (C & _). specialize (C ltac:(lia)). lra.
    + intros x Hx. apply In_zget in Hx. destruct Hx as (m & Em). pose proof (zget_Some_range _ _ _ Em).
      rewrite zget_skipn in Em by lia. destruct (S4 _ x Em) as (_ & C). specialize (C ltac:(lia)). lra.
Qed.

Lemma split_node_ok fuel : forall b p, p <> [] -> (length p <= fuel)%nat -> bounding b p ->
  exists t, split_node fuel b p = Ok t /\ Permutation (tpts t) p /\ tree_wf t /\ tbox t = b.
Proof.
  induction fuel as [|fuel IH]; intros b p Hne Hf Hb.
  - destruct p; [congruence|cbn in Hf; lia].
  - cbn [split_node]. destruct (sort_dim_pos_ok b p Hne Hb) as [(p' & E & ->)|(p' & k & E & S2 & S3 & S4 & S5 & S6)].
    + rewrite E. cbn [bind]. rewrite Z.eqb_refl. cbn [orb]. exists (TLeaf b p). cbn. auto.
    + rewrite E. cbn [bind]. assert (HLp : zlen p' = zlen p) by (unfold zlen; rewrite (Permutation_length S2); reflexivity).
      replace (k =? zlen p') with false by lia. replace (k =? 0) with false by lia. cbn [orb].
      set (left := firstn (Z.to_nat k) p') in *. set (right := skipn (Z.to_nat k) p') in *.
      assert (HC : left ++ right = p') by apply firstn_skipn.
      assert (Ll : length left = Z.to_nat k) by (unfold left; apply firstn_length_le; unfold zlen in *; lia).
      assert (Lr : length right = (length p' - Z.to_nat k)%nat) by (unfold right; apply skipn_length).
      assert (Hpn : forall q : list pt, q <> [] -> exists bq, find_minmax q = Ok bq /\ bounding bq q).
      { intros [|x q] Hq; [congruence|]. apply find_minmax_ok. }
      assert (Nl : left <> []) by (intros C; rewrite C in Ll; cbn in Ll; lia).
      assert (Nr : right <> []) by (intros C; rewrite C in Lr; cbn in Lr; unfold zlen in *; lia).
      destruct (Hpn left Nl) as (lb & Elb & Blb). destruct (Hpn right Nr) as (rb & Erb & Brb).
      rewrite Elb, Erb. cbn [bind].
      assert (HS : forall q bq, q <> [] -> (length q <= fuel)%nat -> bounding bq q ->
         exists t, (if points_per_leaf <? zlen q then split_node fuel bq q else Ok (TLeaf bq q)) = Ok t /\
           Permutation (tpts t) q /\ tree_wf t /\ tbox t = bq).
      { intros q bq Q1 Q2 Q3. destruct (points_per_leaf <? zlen q); [apply IH; assumption|].
        exists (TLeaf bq q). cbn. auto. }
      assert (Lp : length p' = length p) by (apply Permutation_length; exact S2).
      destruct (HS left lb Nl ltac:(unfold zlen in *; lia) Blb) as (tl & T1 & T2 & T3 & T4).
      destruct (HS right rb Nr ltac:(unfold zlen in *; lia) Brb) as (tr & U1 & U2 & U3 & U4).
      rewrite T1, U1. cbn [bind]. exists (TNode b (find_largest_dim b) tl tr). split; [reflexivity|].
      assert (HP : Permutation (tpts tl ++ tpts tr) p).
      { etransitivity; [apply Permutation_app; eassumption|]. rewrite HC. exact S2. }
      cbn [tpts tree_wf tbox]. split; [exact HP|]. split; [|reflexivity].
      split; [apply (bounding_perm b p); [apply Permutation_sym; exact HP|exact Hb]|]. split; [exact S4|].
      split; [intros x Hx; apply S5; eapply Permutation_in; eassumption|].
      split; [intros x Hx; apply S6; eapply Permutation_in; eassumption|]. split; assumption.
Qed.

Lemma build_ok p : exists t, fast3tree_build p = Ok t /\ Permutation (tpts t) p /\ (p <> [] -> tree_wf t).
Proof.
  unfold fast3tree_build. destruct p as [|x p].
  - cbn. eexists. split; [reflexivity|]. split; [reflexivity|congruence].
  - destruct (find_minmax_ok x p) as (b & Eb & Bb). rewrite Eb. cbn [bind].
    destruct (points_per_leaf <? zlen (x :: p)).
    + destruct (split_node_ok (length (x :: p)) b (x :: p) ltac:(discriminate) (Nat.le_refl _) Bb) as (t & T1 & T2 & T3 & _).
      exists t. auto.
    + exists (TLeaf b (x :: p)). cbn. auto.
Qed.

(** * Sphere query *)
Lemma sq_nonneg (x : Q) : (0 <= x * x)%Q.
Proof. nra. Qed.

Lemma not_intersect_far b c r2 pts p : bounding b pts -> In p pts -> box_not_intersect_sphere b c r2 = true -> (r2 <= pdist c p)%Q.
Proof.
  intros Hb Hp H. destruct (Hb false) as (B0 & _). destruct (Hb true) as (B1 & _).
  specialize (B0 p Hp). specialize (B1 p Hp). cbn [lo hi coord] in *.
  unfold box_not_intersect_sphere, gap_step in H. unfold pdist.
  pose proof (sq_nonneg (fst c - p_0 p)) as S0. pose proof (sq_nonneg (snd c - p_1 p)) as S1.
  assert (A0 : (fst c - lo_0 b < 0)%Q -> ((fst c - lo_0 b) * (fst c - lo_0 b) <= (fst c - p_0 p) * (fst c - p_0 p))%Q) by (intros; nra).
  assert (A1 : (0 < fst c - hi_0 b)%Q -> ((fst c - hi_0 b) * (fst c - hi_0 b) <= (fst c - p_0 p) * (fst c - p_0 p))%Q) by (intros; nra).
  assert (A2 : (snd c - lo_1 b < 0)%Q -> ((snd c - lo_1 b) * (snd c - lo_1 b) <= (snd c - p_1 p) * (snd c - p_1 p))%Q) by (intros; nra).
  assert (A3 : (0 < snd c - hi_1 b)%Q -> ((snd c - hi_1 b) * (snd c - hi_1 b) <= (snd c - p_1 p) * (snd c - p_1 p))%Q) by (intros; nra).
  repeat match type of H with context [if qltb ?a ?b then _ else _] => destruct (qltb a b) eqn:? end;
  repeat match goal with E : qltb _ _ = true |- _ => apply qltb_true in E | E : qltb _ _ = false |- _ => clear E end;
  cbn [snd] in H;
  repeat match type of H with context [if Qle_bool ?a ?b then _ else _] => destruct (Qle_bool a b) eqn:? end;
  repeat match goal with E : Qle_bool _ _ = true |- _ => apply Qle_bool_iff in E | E : Qle_bool _ _ = false |- _ => clear E end;
  try discriminate; intuition lra.
Qed.

Lemma inside_near b c r2 pts p : bounding b pts -> In p pts -> box_inside_sphere b c r2 = true -> (pdist c p <= r2)%Q.
Proof.
  intros Hb Hp H. destruct (Hb false) as (B0 & _). destruct (Hb true) as (B1 & _).
  specialize (B0 p Hp). specialize (B1 p Hp). cbn [lo hi coord] in *.
  unfold box_inside_sphere in H. unfold pdist.
  assert (F : forall l h x y, (l <= x <= h)%Q -> ((y - x) * (y - x) <= far2 l h y)%Q).
  { intros l h x y [L1 L2]. unfold far2; cbv zeta.
    assert (SQ : forall a b, (0 <= a)%Q -> (a <= b)%Q -> (a * a <= b * b)%Q) by (intros; nra).
    assert (C : ((y - x) * (y - x) <= (l - y) * (l - y))%Q \/ ((y - x) * (y - x) <= (y - h) * (y - h))%Q).
    { destruct (Qlt_le_dec y x) as [H1|H1].
      - right. setoid_replace ((y - x) * (y - x))%Q with ((x - y) * (x - y))%Q by ring.
        setoid_replace ((y - h) * (y - h))%Q with ((h - y) * (h - y))%Q by ring. apply SQ; lra.
      - left. setoid_replace ((l - y) * (l - y))%Q with ((y - l) * (y - l))%Q by ring. apply SQ; lra. }
    destruct (qltb ((l - y) * (l - y)) ((y - h) * (y - h))) eqn:E.
    - apply qltb_true in E. destruct C as [C|C]; [|exact C]. eapply Qle_trans; [exact C|apply Qlt_le_weak; exact E].
    - apply qltb_false in E. destruct C as [C|C]; [exact C|]. eapply Qle_trans; [exact C|exact E]. }
  pose proof (F _ _ _ (fst c) B0). pose proof (F _ _ _ (snd c) B1).
  destruct (qltb r2 ((fst c - lo_0 b) * (fst c - lo_0 b))); [discriminate|].
  destruct (qltb r2 (far2 (lo_0 b) (hi_0 b) (fst c))); [discriminate|].
  destruct (qltb r2 (far2 (lo_0 b) (hi_0 b) (fst c) + far2 (lo_1 b) (hi_1 b) (snd c))) eqn:E; [discriminate|].
  apply qltb_false in E. lra.
Qed.

Lemma find_sphere_exact t c r2 : tree_wf t -> sphere_exact (tpts t) (find_sphere t c r2) c r2.
Proof.
  assert (HB : forall t, tree_wf t -> bounding (tbox t) (tpts t)) by (intros [b p|b d l r]; cbn; tauto).
  induction t as [b pts|b d l IHl r IHr]; intros Hw; pose proof (HB _ Hw) as Hbound; cbn [find_sphere tbox] in *.
  - destruct (box_not_intersect_sphere b c r2) eqn:E1.
    { exists pts. split; [reflexivity|]. split; [intros p []|]. intros p Hp. eapply not_intersect_far; eassumption. }
    destruct (box_inside_sphere b c r2) eqn:E2.
    { exists []. rewrite app_nil_r. split; [reflexivity|]. split; [|intros p []]. intros p Hp. eapply inside_near; eassumption. }
    exists (filter (fun p => negb (qltb (pdist c p) r2)) pts). cbn [tpts]. split; [|split].
    + clear. induction pts as [|p pts IH]; [reflexivity|]. cbn [filter]. destruct (qltb (pdist c p) r2); cbn [negb app].
      * apply perm_skip. exact IH.
      * rewrite <- Permutation_middle. apply perm_skip. exact IH.
    + intros p Hp. apply filter_In in Hp. destruct Hp as (_ & Hp). apply qltb_true in Hp. lra.
    + intros p Hp. apply filter_In in Hp. destruct Hp as (_ & Hp). apply negb_true_iff in Hp. apply qltb_false in Hp. lra.
  - destruct (box_not_intersect_sphere b c r2) eqn:E1.
    { exists (tpts (TNode b d l r)). split; [reflexivity|]. split; [intros p []|]. intros p Hp. eapply not_intersect_far; eassumption. }
    destruct (box_inside_sphere b c r2) eqn:E2.
    { exists []. rewrite app_nil_r. split; [reflexivity|]. split; [|intros p []]. intros p Hp. eapply inside_near; eassumption. }
    cbn [tree_wf] in Hw. destruct Hw as (_ & _ & _ & _ & Wl & Wr).
    destruct (IHl Wl) as (r1 & P1 & F1 & N1). destruct (IHr Wr) as (r3 & P2 & F2 & N2).
    exists (r1 ++ r3). cbn [tpts]. split; [|split].
    + rewrite <- P1, <- P2. rewrite <- !app_assoc. apply Permutation_app_head. rewrite !app_assoc.
      apply Permutation_app_tail. apply Permutation_app_comm.
    + intros p Hp. apply in_app_iff in Hp. destruct Hp; [apply F1|apply F2]; assumption.
    + intros p Hp. apply in_app_iff in Hp. destruct Hp; [apply N1|apply N2]; assumption.
Qed.
