(** The median is unique; a worked example of outlier rejection. *)
From Coq Require Import Reals Lra Lia Permutation Sorted ZifyBool.
From Verif Require Import Base BaseLemmas Img ImgLemmas Outlier SpecOutlier OutlierLemmas.
Open Scope Z_scope.

Lemma sorted_unique : forall s s', Permutation s s' -> StronglySorted Rle s -> StronglySorted Rle s' -> s = s'.
Proof.
  induction s as [|x s IH]; intros s' P S1 S2.
  - apply Permutation_nil in P. congruence.
  - destruct s' as [|y s']; [apply Permutation_sym, Permutation_nil in P; discriminate|].
    inversion S1 as [|? ? S1a S1b]; subst. inversion S2 as [|? ? S2a S2b]; subst.
    rewrite Forall_forall in S1b, S2b.
    assert (x = y).
    { apply Rle_antisym.
      - assert (I : In y (x :: s)) by (apply Permutation_in with (2 := or_introl eq_refl : In y (y :: s')); apply Permutation_sym; exact P).
        destruct I as [->|I]; [lra|apply S1b; exact I].
      - assert (I : In x (y :: s')) by (apply Permutation_in with (2 := or_introl eq_refl : In x (x :: s)); exact P).
        destruct I as [->|I]; [lra|apply S2b; exact I]. }
    subst. f_equal. apply IH; [apply Permutation_cons_inv in P; exact P|assumption|assumption].
Qed.

Lemma median_unique l m m' : median_of l m -> median_of l m' -> m = m'.
Proof.
  intros (s & a & b & P & S & A & B & ->) (s' & a' & b' & P' & S' & A' & B' & ->).
  assert (s = s') by (apply sorted_unique; [rewrite P, P'; reflexivity|assumption|assumption]). subst.
  rewrite A in A'. rewrite B in B'. inversion A'. inversion B'. reflexivity.
Qed.

Lemma rltb_yes a b : (a < b)%R -> rltb a b = true.
Proof. unfold rltb. destruct (Rlt_dec a b); [reflexivity|lra]. Qed.
Lemma rltb_no a b : (b <= a)%R -> rltb a b = false.
Proof. unfold rltb. destruct (Rlt_dec a b); [lra|reflexivity]. Qed.

Lemma example_three : let one x := mkImg 1 1 [x] in
  let st := [one 0%R; one 100%R; one 1%R; one 1%R; one 1%R; one (-1)%R] in
  reject_outliers [0%nat; 1%nat; 2%nat] [3%nat; 4%nat; 5%nat] 5 (3/10) st
    = ([one 0%R; one 100%R; one 1%R; one 1%R; one 0%R; one 0%R], Ok 1) /\
  (forall a, In a [0%nat; 1%nat; 2%nat] -> array_at st 1 1 a) /\ (forall b, In b [3%nat; 4%nat; 5%nat] -> array_at st 1 1 b).
Proof.
  intros one st. split.
  - assert (M : stack_median st [0%nat; 1%nat; 2%nat] = Ok (mkImg 1 1 [1%R])).
    { assert (M : median [0%R; 100%R; 1%R] = Ok 1%R).
      { unfold median, rsort. cbn [fold_right rinsert]. rewrite (rltb_yes 1 100) by lra. cbn [rinsert].
        rewrite (rltb_no 1 0) by lra. reflexivity. }
      lazy -[median IZR]. rewrite M. reflexivity. }
    assert (W1 : Rmax 0 1 = 1%R) by (apply Rmax_right; lra). assert (W2 : Rmax 0 (-1) = 0%R) by (apply Rmax_left; lra).
    assert (O : forall x v, is_outlier 5 (3/10) 1 x v = rltb ((3/10 * sqrt v + 5) * (3/10 * sqrt v + 5)) ((x - 1) * (x - 1) * v)).
    { intros. unfold is_outlier. rewrite Rabs_R1. f_equal; ring. }
    unfold reject_outliers. change (zlen [0%nat; 1%nat; 2%nat] <? 3) with false. cbv iota. rewrite M. clear M.
    unfold st, one. lazy -[is_outlier Rmax Rdiv IZR]. rewrite ?W1, ?W2, ?O, sqrt_1, sqrt_0.
    rewrite (rltb_no _ ((0 - 1) * (0 - 1) * 1)) by lra. rewrite (rltb_yes _ ((100 - 1) * (100 - 1) * 1)) by lra.
    rewrite (rltb_no _ ((1 - 1) * (1 - 1) * 0)) by lra. reflexivity.
  - assert (Q : forall x : R, img_ok (one x)) by (intros x; repeat split; vm_compute; try discriminate; reflexivity).
    split; intros a [<-|[<-|[<-|[]]]]; eexists; (split; [reflexivity|]); (split; [apply Q|split; reflexivity]).
Qed.
