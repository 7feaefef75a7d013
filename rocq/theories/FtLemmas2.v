(** The growing search of uberseg_tree. *)
From Coq Require Import Lia ZifyBool ZifyNat Lqa Permutation.
From Verif Require Import Base BaseLemmas Img BoundsM Fast3tree Uberseg SpecUberseg CompositeLemmas FtLemmas.
Open Scope Z_scope.

Lemma pdist_nonneg c p : (0 <= pdist c p)%Q.
Proof. unfold pdist. pose proof (sq_nonneg (fst c - p_0 p)). pose proof (sq_nonneg (snd c - p_1 p)). lra. Qed.

Lemma closest_fold_pos c pts : forall r2, (0 < r2)%Q -> (forall p, In p pts -> (0 < pdist c p)%Q) ->
  (0 < fold_left (fun r2 p => if qltb (pdist c p) r2 then pdist c p else r2) pts r2)%Q.
Proof.
  induction pts as [|p pts IH]; intros r2 Hr Hp; cbn [fold_left]; [exact Hr|].
  apply IH; [|intros q Hq; apply Hp; right; exact Hq]. destruct (qltb _ _); [apply Hp; left; reflexivity|exact Hr].
Qed.

Lemma closest_dist_pos c o t : forall a r2, (0 < r2)%Q -> (forall p, In p (tpts t) -> (0 < pdist c p)%Q) ->
  (0 < find_next_closest_dist t a c r2 o)%Q.
Proof.
  induction t as [b pts|b d l IHl r IHr]; intros a r2 Hr Hp; cbn [find_next_closest_dist].
  - destruct (_ || _); [exact Hr|]. apply closest_fold_pos; assumption.
  - destruct (box_not_intersect_sphere _ _ _ || _); [exact Hr|]. cbn [tpts] in Hp.
    assert (Hl : forall p, In p (tpts l) -> (0 < pdist c p)%Q) by (intros p H; apply Hp; apply in_app_iff; left; exact H).
    assert (Hrr : forall p, In p (tpts r) -> (0 < pdist c p)%Q) by (intros p H; apply Hp; apply in_app_iff; right; exact H).
    destruct (qltb _ (if d then snd c else fst c)); cbv zeta.
    + apply IHl; [apply IHr|]; assumption.
    + apply IHr; [apply IHl|]; assumption.
Qed.

Lemma min_dist_pos c pts : forall m, (0 < m)%Q ->
  (0 < fold_left (fun m p =>
      let dist := pdist c p in
      if negb (Qeq_bool dist 0) && qltb dist m then dist else m) pts m)%Q.
Proof.
  induction pts as [|p pts IH]; intros m Hm; cbn [fold_left]; [exact Hm|]. apply IH. cbv zeta.
  destruct (negb (Qeq_bool (pdist c p) 0)) eqn:E; cbn [andb]; [|exact Hm]. destruct (qltb _ _); [|exact Hm].
  apply negb_true_iff in E. apply Qeq_bool_false in E. pose proof (pdist_nonneg c p).
  destruct (Qlt_le_dec 0 (pdist c p)) as [|C]; [assumption|]. exfalso. apply E. lra.
Qed.

Inductive chain (root : tree) : list (addr * tree) -> Prop :=
| chain_root : forall a, chain root [(a, root)]
| chain_cons : forall a n pa b d l r rest, chain root ((pa, TNode b d l r) :: rest) -> n = l \/ n = r ->
    chain root ((a, n) :: (pa, TNode b d l r) :: rest).

Lemma chain_wf root st : tree_wf root -> chain root st -> forall a n rest, st = (a, n) :: rest -> tree_wf n.
Proof.
  intros Hw. induction 1 as [a|a n pa b d l r rest H IH Hn]; intros a0 n0 rest0 E; inversion E; subst.
  - exact Hw.
  - specialize (IH _ _ _ eq_refl). cbn [tree_wf] in IH. destruct Hn as [-> | ->]; tauto.
Qed.

Lemma descend_chain root c n : forall a st, chain root ((a, n) :: st) -> chain root (descend n a st c).
Proof.
  induction n as [b pts|b d l IHl r IHr]; intros a st H; cbn [descend]; [exact H|]. cbv zeta.
  destruct (Qle_bool _ _).
  - apply IHl. constructor; [exact H|left; reflexivity].
  - apply IHr. constructor; [exact H|right; reflexivity].
Qed.

Lemma climb_ok root st : tree_wf root -> chain root st -> exists a nd, climb st = Some (a, nd) /\ tree_wf nd /\
  (nd = root \/ exists d, ~ (lo d (tbox nd) == hi d (tbox nd))%Q).
Proof.
  intros Hw H. pose proof (chain_wf root st Hw H) as HW.
  induction H as [a|a n pa b d l r rest H IH Hn]; cbn [climb].
  - exists a, root. split; [reflexivity|]. split; [exact Hw|left; reflexivity].
  - destruct (Qeq_bool (lo d (tbox n)) (hi d (tbox n))) eqn:E.
    + apply IH. exact (chain_wf root _ Hw H).
    + exists a, n. split; [reflexivity|]. split; [eapply HW; reflexivity|]. right. exists d. apply Qeq_bool_false. exact E.
Qed.

Lemma sq_pos (x : Q) : ~ (x == 0)%Q -> (0 < x * x)%Q.
Proof. intros H. destruct (Q_dec x 0) as [[?|?]|?]; [nra|nra|contradiction]. Qed.

(** The search radius is positive when the tree has two different positions,
    none of them the position searched from. *)
Lemma next_distance_pos t c p q : tree_wf t -> In p (tpts t) -> In q (tpts t) ->
  ~ ((p_0 p == p_0 q)%Q /\ (p_1 p == p_1 q)%Q) -> (forall x, In x (tpts t) -> (0 < pdist c x)%Q) ->
  exists r2, find_next_closest_distance t c = Ok r2 /\ (0 < r2)%Q.
Proof.
  intros Hw Hp Hq Hne Hc. unfold find_next_closest_distance.
  destruct (climb_ok t (descend t [] [] c) Hw (descend_chain t c t [] [] (chain_root t []))) as (a & nd & E & Wn & Hnd).
  rewrite E. cbv zeta. eexists. split; [reflexivity|]. apply closest_dist_pos; [|exact Hc]. apply min_dist_pos.
  pose proof (sq_nonneg (hi_0 (tbox nd) - lo_0 (tbox nd))) as S0.
  pose proof (sq_nonneg (hi_1 (tbox nd) - lo_1 (tbox nd))) as S1.
  assert (HD : exists d, ~ (lo d (tbox nd) == hi d (tbox nd))%Q).
  { destruct Hnd as [-> |Hd]; [|exact Hd].
    assert (HB : bounding (tbox t) (tpts t)) by (destruct t; cbn in *; tauto).
    destruct (Qeq_dec (p_0 p) (p_0 q)) as [E0|E0].
    - exists true. destruct (HB true) as (B & _). pose proof (B p Hp). pose proof (B q Hq). cbn [lo hi coord] in *.
      intros C. apply Hne. split; [exact E0|]. lra.
    - exists false. destruct (HB false) as (B & _). pose proof (B p Hp). pose proof (B q Hq). cbn [lo hi coord] in *.
      intros C. apply E0. lra. }
  destruct HD as ([|] & HD); cbn [lo hi] in HD.
  - assert (0 < (hi_1 (tbox nd) - lo_1 (tbox nd)) * (hi_1 (tbox nd) - lo_1 (tbox nd)))%Q; [|lra].
    apply sq_pos. intros C. apply HD. lra.
  - assert (0 < (hi_0 (tbox nd) - lo_0 (tbox nd)) * (hi_0 (tbox nd) - lo_0 (tbox nd)))%Q; [|lra].
    apply sq_pos. intros C. apply HD. lra.
Qed.

(** * The loop *)
Fixpoint grow (k : nat) (r : Q) : Q := match k with O => r | S k' => grow k' (r * (121#100))%Q end.

Lemma grow_lin k : forall r, (0 < r)%Q -> (r + inject_Z (Z.of_nat k) * (r * (21#100)) <= grow k r)%Q.
Proof.
  induction k as [|k IH]; intros r Hr; cbn [grow].
  - cbn [Z.of_nat]. unfold inject_Z. lra.
  - specialize (IH (r * (121#100))%Q ltac:(lra)). eapply Qle_trans; [|exact IH].
    rewrite Nat2Z.inj_succ. unfold Z.succ. rewrite inject_Z_plus.
    assert (0 <= inject_Z (Z.of_nat k))%Q. { change 0%Q with (inject_Z 0). rewrite <- Zle_Qle. lia. }
    change (inject_Z 1) with 1%Q. nra.
Qed.

Lemma grow_unbounded r M : (0 < r)%Q -> exists k, (M < grow k r)%Q.
Proof.
  intros Hr. exists (Z.to_nat (Z.max 0 (Qceiling (M / (r * (21#100)))))).
  eapply Qlt_le_trans; [|apply grow_lin; exact Hr]. set (s := (r * (21#100))%Q). assert (Hs : (0 < s)%Q) by (unfold s; lra).
  rewrite Z2Nat.id by lia. 
  assert (A : (M / s <= inject_Z (Z.max 0 (Qceiling (M / s))))%Q).
  { eapply Qle_trans; [apply Qle_ceiling|]. rewrite <- Zle_Qle. lia. }
  assert (B : (M == (M / s) * s)%Q) by (field; lra).
  rewrite B at 1. nra.
Qed.

Lemma search_loop_ok t c maxr2 : tree_wf t -> tpts t <> [] ->
  (forall p, In p (tpts t) -> (pdist c p <= maxr2)%Q) ->
  forall k r2, (maxr2 < grow k r2)%Q ->
  exists found r2', (forall fuel, (S k <= fuel)%nat -> search_loop fuel t c r2 maxr2 = Ok found) /\
    found <> [] /\ found = find_sphere t c r2'.
Proof.
  intros Hw Hne Hmax. induction k as [|k IH]; intros r2 Hk; cbn [grow] in Hk.
  - assert (HN : find_sphere t c r2 <> []).
    { intros C. destruct (find_sphere_exact t c r2 Hw) as (rest & P & _ & F). rewrite C in P. cbn [app] in P.
      destruct (tpts t) as [|x l] eqn:E; [congruence|].
      assert (I : In x rest) by (eapply Permutation_in; [apply Permutation_sym; exact P|left; reflexivity]).
      specialize (F x I). specialize (Hmax x (or_introl eq_refl)). lra. }
    exists (find_sphere t c r2), r2. split; [|split; [exact HN|reflexivity]].
    intros [|fuel] Hf; [lia|]. cbn [search_loop]. destruct (find_sphere t c r2); [congruence|reflexivity].
  - destruct (find_sphere t c r2) as [|x l] eqn:E.
    + destruct (Qle_bool r2 maxr2) eqn:EQ.
      * destruct (IH (r2 * (121#100))%Q Hk) as (found & r2' & I1 & I2 & I3). exists found, r2'. split; [|split; assumption].
        intros [|fuel] Hf; [lia|]. cbn [search_loop]. rewrite E, EQ. apply I1. lia.
      * exfalso. assert (maxr2 < r2)%Q. { apply Qnot_le_lt. intros HH. apply Qle_bool_iff in HH. congruence. }
        destruct (find_sphere_exact t c r2 Hw) as (rest & P & _ & F). rewrite E in P. cbn [app] in P.
        destruct (tpts t) as [|x l] eqn:Et; [congruence|].
        assert (I : In x rest) by (eapply Permutation_in; [apply Permutation_sym; exact P|left; reflexivity]).
        specialize (F x I). specialize (Hmax x (or_introl eq_refl)). lra.
    + exists (x :: l), r2. split; [|split; [discriminate|symmetry; exact E]].
      intros [|fuel] Hf; [lia|]. cbn [search_loop]. rewrite E. reflexivity.
Qed.

(** * The closest point found *)
Lemma closest_fold c pts : forall p0, 0 <= p_seg p0 -> (forall p, In p pts -> 0 <= p_seg p) ->
  exists p, In p (p0 :: pts) /\ fold_left (closest_step c) pts (p_seg p0, pdist c p0) = (p_seg p, pdist c p) /\
    forall q, In q (p0 :: pts) -> (pdist c p <= pdist c q)%Q.
Proof.
  induction pts as [|p pts IH]; intros p0 H0 Hp; cbn [fold_left].
  - exists p0. split; [left; reflexivity|]. split; [reflexivity|]. intros q [<- |[]]. apply Qle_refl.
  - assert (ES : closest_step c (p_seg p0, pdist c p0) p =
      let b := if qltb (pdist c p) (pdist c p0) then p else p0 in (p_seg b, pdist c b)).
    { unfold closest_step. cbn [fst snd]. replace (p_seg p0 =? -1) with false by lia. cbn [orb].
      destruct (qltb _ _); reflexivity. }
    rewrite ES. cbv zeta. destruct (qltb (pdist c p) (pdist c p0)) eqn:E.
    + apply qltb_true in E. destruct (IH p) as (x & I1 & I2 & I3);
        [apply Hp; left; reflexivity|intros q Hq; apply Hp; right; exact Hq|].
      exists x. split; [right; exact I1|]. split; [exact I2|]. intros q [<- |Hq]; [|apply I3; exact Hq].
      specialize (I3 p (or_introl eq_refl)). lra.
    + apply qltb_false in E. destruct (IH p0) as (x & I1 & I2 & I3);
        [exact H0|intros q Hq; apply Hp; right; exact Hq|].
      exists x. split; [destruct I1 as [<- |I1]; [left; reflexivity|right; right; exact I1]|]. split; [exact I2|].
      intros q [<- |[<- |Hq]].
      * apply I3. left; reflexivity.
      * specialize (I3 p0 (or_introl eq_refl)). lra.
      * apply I3. right; exact Hq.
Qed.

Lemma closest_seg_ok c pts : pts <> [] -> (forall p, In p pts -> 0 <= p_seg p) ->
  exists p, In p pts /\ closest_seg c pts = p_seg p /\ forall q, In q pts -> (pdist c p <= pdist c q)%Q.
Proof.
  destruct pts as [|p0 pts]; [congruence|]. intros _ Hp. unfold closest_seg. cbn [fold_left].
  replace (closest_step c (-1, 0%Q) p0) with (p_seg p0, pdist c p0) by reflexivity.
  destruct (closest_fold c pts p0) as (p & I1 & I2 & I3);
    [apply Hp; left; reflexivity|intros q Hq; apply Hp; right; exact Hq|].
  exists p. split; [exact I1|]. split; [rewrite I2; reflexivity|exact I3].
Qed.

(** One search: the closest point found is a closest point of the tree. *)
Lemma search_ok t c maxr2 p q : tree_wf t -> In p (tpts t) -> In q (tpts t) ->
  ~ ((p_0 p == p_0 q)%Q /\ (p_1 p == p_1 q)%Q) -> (forall x, In x (tpts t) -> (0 < pdist c x)%Q) ->
  (forall x, In x (tpts t) -> (pdist c x <= maxr2)%Q) -> (forall x, In x (tpts t) -> 0 <= p_seg x) ->
  exists r2 N found x, find_next_closest_distance t c = Ok r2 /\
    (forall fuel, (N <= fuel)%nat -> search_loop fuel t c r2 maxr2 = Ok found) /\
    closest_seg c found = p_seg x /\ In x (tpts t) /\ forall y, In y (tpts t) -> (pdist c x <= pdist c y)%Q.
Proof.
  intros Hw Hp Hq Hne Hpos Hmax Hseg.
  destruct (next_distance_pos t c p q Hw Hp Hq Hne Hpos) as (r2 & E & Hr).
  destruct (grow_unbounded r2 maxr2 Hr) as (k & Hk).
  assert (Hn : tpts t <> []) by (intros C; rewrite C in Hp; destruct Hp).
  destruct (search_loop_ok t c maxr2 Hw Hn Hmax k r2 Hk) as (found & r2' & L1 & L2 & L3).
  destruct (find_sphere_exact t c r2' Hw) as (rest & P & F1 & F2). rewrite <- L3 in *.
  assert (HI : forall y, In y (tpts t) <-> In y found \/ In y rest).
  { intros y. rewrite <- in_app_iff. split; apply Permutation_in; [apply Permutation_sym; exact P|exact P]. }
  destruct (closest_seg_ok c found L2) as (x & X1 & X2 & X3).
  { intros y Hy. apply Hseg. apply HI. left; exact Hy. }
  exists r2, (S k), found, x. split; [exact E|]. split; [exact L1|]. split; [exact X2|]. split; [apply HI; left; exact X1|].
  intros y Hy. apply HI in Hy. destruct Hy as [Hy|Hy]; [apply X3; exact Hy|].
  specialize (F1 x X1). specialize (F2 y Hy). lra.
Qed.
