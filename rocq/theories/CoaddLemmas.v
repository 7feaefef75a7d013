(** The tests of the coadder decide the specified reasons. *)
From Coq Require Import Lia ZifyBool ZifyNat Qabs Lqa Qfield.
From Verif Require Import Base BaseLemmas Img ImgLemmas Types Reader BoundsM MakerLayout MakerWrite Composite Coadd
  SpecTiles SpecFile SpecComposite SpecCoadd ReadLemmas CalibLemmas CompositeLemmas OutlierLemmas.
Open Scope Z_scope.

Lemma has_flag_spec m b : has_flag m b = true <-> flagged m b.
Proof.
  unfold has_flag, flagged. destruct m as [e|]; [|split; [discriminate|intros (m & k & E & _); discriminate]].
  split.
  - intros H. assert (N : Z.land b e <> 0) by lia.
    assert (P : exists k, 0 <= k /\ Z.testbit (Z.land b e) k = true).
    { destruct (Z_lt_dec (Z.land b e) 0) as [L|L].
      - exists (Z.log2 (- Z.land b e) + 1). split; [pose proof (Z.log2_nonneg (- Z.land b e)); lia|].
        apply Z.bits_above_log2_neg; [exact L|].
        pose proof (Z.log2_le_mono (Z.pred (- Z.land b e)) (- Z.land b e)). lia.
      - exists (Z.log2 (Z.land b e)). split; [apply Z.log2_nonneg|]. apply Z.bit_log2. lia. }
    destruct P as (k & K & T). rewrite Z.land_spec in T. apply andb_prop in T. destruct T as [T1 T2].
    exists e, k. repeat split; assumption.
  - intros (m & k & E & K & T1 & T2). inversion E; subst. apply negb_true_iff. apply Z.eqb_neq. intros C.
    assert (X : Z.testbit (Z.land b m) k = true) by (rewrite Z.land_spec, T1, T2; reflexivity).
    rewrite C, Z.bits_0 in X. discriminate.
Qed.

Lemma has_flag_false m b : has_flag m b = false <-> ~ flagged m b.
Proof. rewrite <- has_flag_spec. destruct (has_flag m b); split; congruence. Qed.

Lemma fold_left_add l : forall a, fold_left Z.add l a = a + fold_right Z.add 0 l.
Proof. induction l as [|x l IH]; intros a; simpl; [lia|]. rewrite IH. lia. Qed.

Lemma bad_flags_total c : bad_flags c = total_mask (c_bmask_flags c).
Proof. unfold bad_flags, total_mask, py_sum. destruct (c_bmask_flags c); [|reflexivity]. simpl. rewrite fold_left_add. reflexivity. Qed.
Lemma edge_flags_total c : edge_flags c = total_mask (c_edge_flags c).
Proof. unfold edge_flags, total_mask, py_sum. destruct (c_edge_flags c); [|reflexivity]. simpl. rewrite fold_left_add. reflexivity. Qed.

Lemma In_dat_px {A} (im : img A) a : img_ok im -> (In a (dat im) <-> exists r c, px im r c = Some a).
Proof.
  intros (I1 & I2 & I3). split.
  - intros H. destruct (In_zget _ _ H) as (p & P). pose proof (zget_Some_range _ _ _ P) as R. rewrite I3 in R.
    destruct (unflat _ _ p R I1 I2) as (U1 & U2 & U3). exists (p / nc im), (p mod nc im). unfold px.
    replace (0 <=? p / nc im) with true by lia. replace (p / nc im <? nr im) with true by lia.
    replace (0 <=? p mod nc im) with true by lia. replace (p mod nc im <? nc im) with true by lia. cbn [andb]. rewrite <- U3. exact P.
  - intros (r & c & P). unfold px in P. destruct ((0 <=? r) && (r <? nr im) && (0 <=? c) && (c <? nc im)); [|discriminate].
    eapply zget_In. exact P.
Qed.

Lemma edge_test_spec c bm : img_ok bm -> (hits_the_edge c bm = true <-> edge_test c bm).
Proof.
  intros Hb. unfold hits_the_edge, edge_test. rewrite existsb_exists, edge_flags_total. split.
  - intros (b & Hin & F). apply In_dat_px in Hin; [|exact Hb]. destruct Hin as (r & k & P). exists r, k, b.
    split; [exact P|]. apply has_flag_spec. exact F.
  - intros (r & k & b & P & F). exists b. split; [apply In_dat_px; [exact Hb|]; exists r, k; exact P|]. apply has_flag_spec. exact F.
Qed.

Lemma pix_bad_spec bad w b : pix_bad bad w b = true <-> ((w <= 0)%Q \/ flagged bad b).
Proof. unfold pix_bad. rewrite orb_true_iff, Qle_bool_iff, has_flag_spec. reflexivity. Qed.

Lemma count_unusable bad wt bm z : img_ok wt -> img_ok bm -> img_zip (pix_bad bad) wt bm = Ok z ->
  counted (unusable_px bad wt bm) (zlen (filter (fun x => x) (dat z))).
Proof.
  intros Hw Hb Z. apply img_zip_ok in Z; [|exact Hw|exact Hb]. destruct Z as (Z1 & Z2 & Z3 & Z4 & Z5 & Z6).
  destruct (count_px (fun x : bool => x) z Z3) as (L & N & H & LL). exists L. split; [exact N|]. split; [|exact LL].
  intros [r k]. rewrite H. unfold unusable_px. cbn [fst snd]. rewrite Z6. split.
  - intros (a & P & E). subst. destruct (px wt r k) as [w|] eqn:Pw; [|discriminate]. destruct (px bm r k) as [b|] eqn:Pb; [|discriminate].
    inversion P as [P']. exists w, b. repeat split. apply pix_bad_spec. exact P'.
  - intros (w & b & Pw & Pb & D). exists true. rewrite Pw, Pb. split; [|reflexivity]. f_equal. apply pix_bad_spec. exact D.
Qed.

Lemma counted_unique {A} (P : A -> Prop) n m : counted P n -> counted P m -> n = m.
Proof.
  intros (l & N & H & <-) (l' & N' & H' & <-). unfold zlen. f_equal. apply Nat.le_antisymm.
  - apply NoDup_incl_length; [exact N|]. intros a Ha. apply H', H, Ha.
  - apply NoDup_incl_length; [exact N'|]. intros a Ha. apply H, H', Ha.
Qed.

Lemma inject_pos n : 0 < n -> (0 < inject_Z n)%Q.
Proof. intros H. change 0%Q with (inject_Z 0). rewrite <- Zlt_Qlt. exact H. Qed.

Lemma frac_test_spec c wt bm fr : img_ok wt -> img_ok bm -> get_mask_frac c bm wt = Ok fr ->
  (qltb (c_max_masked_frac c) fr = true <-> frac_test c wt bm).
Proof.
  intros Hw Hb H. unfold get_mask_frac in H. apply bind_ok in H. destruct H as (z & Z & H).
  dif_in H E; [discriminate|]. inversion H; subst; clear H.
  rewrite bad_flags_total in Z. pose proof (count_unusable _ _ _ _ Hw Hb Z) as CU.
  apply img_zip_ok in Z; [|exact Hw|exact Hb]. destruct Z as (Z1 & Z2 & _).
  assert (SZ : zlen (dat bm) = nr wt * nc wt) by (destruct Hb as (B1 & B2 & B3); rewrite B3, Z1, Z2; reflexivity).
  set (N := zlen (filter (fun x => x) (dat z))) in *.
  assert (P : (0 < inject_Z (zlen (dat bm)))%Q) by (apply inject_pos; pose proof (zlen_nonneg (dat bm)); lia).
  rewrite qltb_true. unfold frac_test. rewrite <- SZ. split.
  - intros L. exists N. split; [exact CU|].
    apply (Qmult_lt_compat_r _ _ _ P) in L. unfold Qdiv in L. rewrite <- Qmult_assoc, (Qmult_comm (/ _)), Qmult_inv_r, Qmult_1_r in L; [exact L|lra].
  - intros (n & CN & L). rewrite (counted_unique _ _ _ CN CU) in L. apply Qlt_shift_div_l; [exact P|exact L].
Qed.

Lemma nearest_unique x i j : nearest_int x i -> nearest_int x j -> i = j.
Proof.
  intros [A1 A2] [B1 B2]. apply Qabs_Qle_condition in A1. apply Qabs_Qle_condition in B1.
  assert (D : - 1 <= i - j <= 1).
  { split; rewrite Zle_Qle; unfold Z.sub; rewrite inject_Z_plus, (inject_Z_opp j); change (inject_Z 1) with 1%Q;
      change (inject_Z (-1)) with (-1)%Q; lra. }
  destruct (Z.eq_dec i j) as [|N]; [assumption|exfalso].
  assert (E : i = j + 1 \/ j = i + 1) by lia.
  assert (G : forall i j, (- (1#2) <= x - inject_Z i <= 1#2)%Q -> (- (1#2) <= x - inject_Z j <= 1#2)%Q ->
    ((Qabs (x - inject_Z i) == 1#2)%Q -> Z.even i = true) -> ((Qabs (x - inject_Z j) == 1#2)%Q -> Z.even j = true) -> i = j + 1 -> False).
  { clear. intros i j A1 B1 A2 B2 ->. rewrite inject_Z_plus in A1, A2. change (inject_Z 1) with 1%Q in *.
    assert (X : (x - inject_Z j == 1#2)%Q) by lra.
    assert (E1 : Z.even j = true) by (apply B2; rewrite X; reflexivity).
    assert (E2 : Z.even (j + 1) = true).
    { apply A2. assert (Y : (x - (inject_Z j + 1) == -(1#2))%Q) by lra. rewrite Y. reflexivity. }
    rewrite Z.even_add, E1 in E2. discriminate. }
  destruct E as [E|E]; [exact (G i j A1 B1 A2 B2 E)|exact (G j i B1 A1 B2 A2 E)].
Qed.

Lemma in_slice_bound n lo hi i : in_slice n lo hi i <-> 0 <= i < n /\ np_bound n lo <= i < np_bound n hi.
Proof. unfold in_slice, np_bound. destruct (lo <? 0) eqn:E1, (hi <? 0) eqn:E2; lia. Qed.

Lemma sub2d_ok {A} (im : img A) a b c d z : img_ok im -> sub2d im a b c d = Ok z ->
  img_ok z /\ nr z = Z.max 0 (np_bound (nr im) b - np_bound (nr im) a) /\ nc z = Z.max 0 (np_bound (nc im) d - np_bound (nc im) c) /\
  forall i j, 0 <= i < nr z -> 0 <= j < nc z -> exists x, px z i j = Some x /\ px im (np_bound (nr im) a + i) (np_bound (nc im) c + j) = Some x.
Proof.
  intros Hok H. unfold sub2d in H. apply tab2M_ok in H; [|lia|lia]. destruct H as (I1 & I2 & I3 & I4).
  split; [exact I1|]. split; [exact I2|]. split; [exact I3|]. intros i j Hi Hj. rewrite I2 in Hi. rewrite I3 in Hj.
  destruct (I4 i j Hi Hj) as (x & X & P). exists x. split; [exact P|]. apply px_res_ok. exact X.
Qed.

Lemma np_bound_nonneg n a : 0 <= n -> 0 <= np_bound n a <= n.
Proof. unfold np_bound. destruct (a <? 0) eqn:E; lia. Qed.

Lemma qpos_bad bad w b : qltb 0 w && negb (has_flag bad b) = negb (pix_bad bad w b).
Proof. unfold pix_bad, qltb. rewrite negb_orb. reflexivity. Qed.

Lemma central_spec c wt bm x : img_ok wt -> img_ok bm -> nr bm = nr wt -> nc bm = nc wt ->
  central_region_is_masked c bm wt = Ok x -> (x = true <-> central_test c wt bm).
Proof.
  intros Hw Hb S1 S2 H. unfold central_region_is_masked in H. unfold central_test.
  destruct (c_central_check c) eqn:EC; [|inversion H; subst; split; [discriminate|intros [C _]; discriminate]].
  set (lo := central_low c (nr wt)) in *. set (hi := central_high c (nr wt)) in *.
  assert (HL : nearest_int ((inject_Z (nr wt) - 1) / 2 - c_central_size c / 2)%Q lo) by apply qround_nearest.
  assert (HH : nearest_int ((inject_Z (nr wt) - 1) / 2 + c_central_size c / 2 + 1)%Q hi) by apply qround_nearest.
  apply bind_ok in H. destruct H as (zw & ZW & H). apply bind_ok in H. destruct H as (zb & ZB & H).
  apply bind_ok in H. destruct H as (z & Z & H). inversion H; subst; clear H.
  apply sub2d_ok in ZW; [|exact Hw]. apply sub2d_ok in ZB; [|exact Hb]. rewrite S1, S2 in ZB.
  destruct ZW as (W1 & W2 & W3 & W4). destruct ZB as (B1 & B2 & B3 & B4).
  apply img_zip_ok in Z; [|exact W1|exact B1]. destruct Z as (_ & _ & Z3 & Z4 & Z5 & Z6).
  pose proof (np_bound_nonneg (nr wt) lo (proj1 Hw)) as P1. pose proof (np_bound_nonneg (nr wt) hi (proj1 Hw)) as P2.
  pose proof (np_bound_nonneg (nc wt) lo (proj1 (proj2 Hw))) as P3. pose proof (np_bound_nonneg (nc wt) hi (proj1 (proj2 Hw))) as P4.
  split.
  - intros F. split; [reflexivity|]. apply negb_true_iff in F.
    assert (E : exists a, In a (dat z) /\ a = false).
    { clear - F. induction (dat z) as [|a l IH]; [discriminate|]. cbn [forallb] in F. destruct a.
      - destruct IH as (a & I & E); [exact F|]. exists a. split; [right; exact I|exact E].
      - exists false. split; [left; reflexivity|reflexivity]. }
    destruct E as (a & Ia & ->). apply In_dat_px in Ia; [|exact Z3]. destruct Ia as (i & j & P).
    destruct (px_Some_range _ _ _ _ P) as [R1 R2]. rewrite Z4 in R1. rewrite Z5 in R2.
    destruct (W4 i j R1 R2) as (w & PW & QW). rewrite W2 in R1. rewrite W3 in R2.
    destruct (B4 i j) as (b & PB & QB); [rewrite B2; exact R1|rewrite B3; exact R2|].
    rewrite Z6, PW, PB in P. inversion P as [PP]. rewrite qpos_bad in PP. apply negb_false_iff in PP. apply pix_bad_spec in PP.
    exists lo, hi, (np_bound (nr wt) lo + i), (np_bound (nc wt) lo + j). split; [exact HL|]. split; [exact HH|].
    split; [apply in_slice_bound; lia|]. split; [apply in_slice_bound; lia|].
    exists w, b. cbn [fst snd]. rewrite <- bad_flags_total. repeat split; assumption.
  - intros (_ & lo' & hi' & r & k & HL' & HH' & IR & IK & w & b & PW & PB & D). cbn [fst snd] in *.
    rewrite (nearest_unique _ _ _ HL' HL) in *. rewrite (nearest_unique _ _ _ HH' HH) in *.
    apply in_slice_bound in IR. apply in_slice_bound in IK. apply negb_true_iff.
    destruct (forallb (fun x => x) (dat z)) eqn:FA; [exfalso|reflexivity]. rewrite forallb_forall in FA.
    destruct (W4 (r - np_bound (nr wt) lo) (k - np_bound (nc wt) lo)) as (w' & PW' & QW'); [lia|lia|].
    destruct (B4 (r - np_bound (nr wt) lo) (k - np_bound (nc wt) lo)) as (b' & PB' & QB'); [lia|lia|].
    replace (np_bound (nr wt) lo + (r - np_bound (nr wt) lo)) with r in * by lia.
    replace (np_bound (nc wt) lo + (k - np_bound (nc wt) lo)) with k in * by lia.
    rewrite PW in QW'. rewrite PB in QB'. inversion QW'; subst w'. inversion QB'; subst b'.
    specialize (Z6 (r - np_bound (nr wt) lo) (k - np_bound (nc wt) lo)). rewrite PW', PB', qpos_bad in Z6.
    assert (T : pix_bad (bad_flags c) w b = true) by (apply pix_bad_spec; rewrite bad_flags_total; exact D).
    rewrite T in Z6. cbn [negb] in Z6.
    assert (I : In false (dat z)) by (apply In_dat_px; [exact Z3|]; eexists; eexists; exact Z6).
    specialize (FA _ I). discriminate.
Qed.

Lemma get_row_ok {A} (im : img A) r l (p : A -> bool) : get_row im r = Ok l -> 0 <= nc im ->
  (forallb p l = true <-> forall k, 0 <= k < nc im -> exists a, px im r k = Some a /\ p a = true).
Proof.
  intros H Hn. unfold get_row in H. rewrite forallb_forall. split.
  - intros F k Hk. destruct (mapM_ok_nth _ _ _ (Z.to_nat k) k H) as (a & P & N); [rewrite zrange_nth by lia; f_equal; lia|].
    exists a. split; [apply px_res_ok; exact P|]. apply F. eapply nth_error_In. exact N.
  - intros G a Ha. apply mapM_ok_Forall2 in H. revert H Ha.
    assert (forall xs, (forall k, In k xs -> exists a, px im r k = Some a /\ p a = true) ->
      Forall2 (fun x y => px_res im r x = Ok y) xs l -> In a l -> p a = true) as K.
    { intros xs HX F2. induction F2 as [|x y xs l' E F2 IH]; [intros []|]. intros [<-|I].
      - destruct (HX x (or_introl eq_refl)) as (a' & P & T). apply px_res_ok in E. congruence.
      - apply IH; [|exact I]. intros k Hk. apply HX. right. exact Hk. }
    intros F2 I. eapply K; [|exact F2|exact I]. intros k Hk. apply In_zrange in Hk. apply G. exact Hk.
Qed.
Lemma get_col_ok {A} (im : img A) c l (p : A -> bool) : get_col im c = Ok l -> 0 <= nr im ->
  (forallb p l = true <-> forall k, 0 <= k < nr im -> exists a, px im k c = Some a /\ p a = true).
Proof.
  intros H Hn. unfold get_col in H. rewrite forallb_forall. split.
  - intros F k Hk. destruct (mapM_ok_nth _ _ _ (Z.to_nat k) k H) as (a & P & N); [rewrite zrange_nth by lia; f_equal; lia|].
    exists a. split; [apply px_res_ok; exact P|]. apply F. eapply nth_error_In. exact N.
  - intros G a Ha. apply mapM_ok_Forall2 in H. revert H Ha.
    assert (forall xs, (forall k, In k xs -> exists a, px im k c = Some a /\ p a = true) ->
      Forall2 (fun x y => px_res im x c = Ok y) xs l -> In a l -> p a = true) as K.
    { intros xs HX F2. induction F2 as [|x y xs l' E F2 IH]; [intros []|]. intros [<-|I].
      - destruct (HX x (or_introl eq_refl)) as (a' & P & T). apply px_res_ok in E. congruence.
      - apply IH; [|exact I]. intros k Hk. apply HX. right. exact Hk. }
    intros F2 I. eapply K; [|exact F2|exact I]. intros k Hk. apply In_zrange in Hk. apply G. exact Hk.
Qed.

Lemma any_side_ok {A} (p : A -> bool) im x : img_ok im -> any_side p im = Ok x ->
  0 < nr im /\ 0 < nc im /\
  (x = true <-> exists s, forall r k, on_side s (nr im) (nc im) r k -> exists a, px im r k = Some a /\ p a = true).
Proof.
  intros (I1 & I2 & I3) H. unfold any_side in H. dif_in H E; [discriminate|].
  apply bind_ok in H. destruct H as (la & A1 & H). apply bind_ok in H. destruct H as (lb & B1 & H).
  apply bind_ok in H. destruct H as (lc & C1 & H). apply bind_ok in H. destruct H as (ld & D1 & H).
  inversion H; subst; clear H. split; [lia|]. split; [lia|].
  rewrite !orb_true_iff, (get_row_ok _ _ _ p A1 I2), (get_row_ok _ _ _ p B1 I2), (get_col_ok _ _ _ p C1 I1), (get_col_ok _ _ _ p D1 I1).
  unfold on_side. split.
  - intros [[[F|F]|F]|F].
    + exists Bottom. intros r k (R & K & ->). apply F. lia.
    + exists Top. intros r k (R & K & ->). apply F. lia.
    + exists Left. intros r k (R & K & ->). apply F. lia.
    + exists Right. intros r k (R & K & ->). apply F. lia.
  - intros ([| | |] & F).
    + left; left; left. intros k Hk. apply F. lia.
    + left; left; right. intros k Hk. apply F. lia.
    + left; right. intros k Hk. apply F. lia.
    + right. intros k Hk. apply F. lia.
Qed.

Lemma not_flagged_none b : ~ flagged None b.
Proof. intros (m & k & E & _). discriminate. Qed.

Lemma on_side_exists s h w : 0 < h -> 0 < w -> exists r k, on_side s h w r k.
Proof.
  intros Hh Hw. unfold on_side. destruct s; [exists 0, 0|exists (h - 1), 0|exists 0, 0|exists 0, (w - 1)]; lia.
Qed.

Lemma sides_spec c wt bm x : img_ok wt -> img_ok bm -> nr bm = nr wt -> nc bm = nc wt ->
  ps_edge_pixels_are_masked c bm wt = Ok x -> (x = true <-> sides_test c wt bm).
Proof.
  intros Hw Hb S1 S2 H. unfold ps_edge_pixels_are_masked in H. destruct (c_edge_check c); [|discriminate].
  apply bind_ok in H. destruct H as (y & Y & H). apply any_side_ok in Y; [|exact Hw]. destruct Y as (N1 & N2 & Y).
  assert (Y' : y = true <-> exists s, forall r k, on_side s (nr wt) (nc wt) r k -> exists w, px wt r k = Some w /\ (w == 0)%Q).
  { rewrite Y. split; intros (s & F); exists s; intros r k O; destruct (F r k O) as (a & P & T); exists a; split; try exact P; apply Qeq_bool_iff; exact T. }
  unfold sides_test. rewrite <- bad_flags_total. destruct y.
  - inversion H; subst. split; [|reflexivity]. intros _. left. apply Y'. reflexivity.
  - destruct (bad_flags c) as [m|] eqn:EB.
    + apply any_side_ok in H; [|exact Hb]. destruct H as (_ & _ & H). rewrite H, S1, S2. split.
      * intros (s & F). right. exists s. intros r k O. destruct (F r k O) as (a & P & T). exists a. split; [exact P|]. apply has_flag_spec. exact T.
      * intros [F|(s & F)]; [exfalso; apply Y' in F; discriminate|]. exists s. intros r k O. destruct (F r k O) as (a & P & T).
        exists a. split; [exact P|]. apply has_flag_spec. exact T.
    + inversion H; subst. split; [discriminate|]. intros [F|(s & F)]; [apply Y' in F; exact F|].
      destruct (on_side_exists s (nr wt) (nc wt) N1 N2) as (r & k & O). destruct (F r k O) as (b & _ & C). destruct (not_flagged_none _ C).
Qed.

Lemma zero_test_spec wt : img_ok wt -> (existsb (fun w => qltb 0 w) (dat wt) = false <-> zero_test wt).
Proof.
  intros Hw. unfold zero_test. split.
  - intros E r k w P. destruct (Qlt_le_dec 0 w) as [L|L]; [exfalso|exact L].
    assert (T : existsb (fun w => qltb 0 w) (dat wt) = true).
    { apply existsb_exists. exists w. split; [apply In_dat_px; [exact Hw|]; exists r, k; exact P|]. apply qltb_true. exact L. }
    congruence.
  - intros F. destruct (existsb _ (dat wt)) eqn:E; [exfalso|reflexivity]. apply existsb_exists in E. destruct E as (w & I & L).
    apply qltb_true in L. apply In_dat_px in I; [|exact Hw]. destruct I as (r & k & P). pose proof (F r k w P). lra.
Qed.

(** The flag of a cutout is the first reason. *)
Lemma cutout_flag_spec c wt bm fl : img_ok wt -> img_ok bm -> nr bm = nr wt -> nc bm = nc wt ->
  cutout_flag c bm wt = Ok fl -> first_reason c wt bm fl.
Proof.
  intros Hw Hb S1 S2 H. unfold cutout_flag in H. unfold first_reason.
  pose proof (edge_test_spec c bm Hb) as T1. destruct (hits_the_edge c bm).
  { inversion H; subst. left. split; [reflexivity|]. apply T1. reflexivity. }
  right. split; [rewrite <- T1; discriminate|]. apply bind_ok in H. destruct H as (fr & F & H).
  pose proof (frac_test_spec c wt bm fr Hw Hb F) as T2. destruct (qltb (c_max_masked_frac c) fr).
  { inversion H; subst. left. split; [reflexivity|]. apply T2. reflexivity. }
  right. split; [rewrite <- T2; discriminate|]. apply bind_ok in H. destruct H as (ce & C & H).
  pose proof (central_spec c wt bm ce Hw Hb S1 S2 C) as T3. destruct ce.
  { inversion H; subst. left. split; [reflexivity|]. apply T3. reflexivity. }
  right. split; [rewrite <- T3; discriminate|]. apply bind_ok in H. destruct H as (si & S & H).
  pose proof (sides_spec c wt bm si Hw Hb S1 S2 S) as T4. destruct si.
  { inversion H; subst. left. split; [reflexivity|]. apply T4. reflexivity. }
  right. split; [rewrite <- T4; discriminate|].
  pose proof (zero_test_spec wt Hw) as T5. destruct (existsb _ (dat wt)); cbn [negb] in H; inversion H; subst.
  - right. split; [reflexivity|]. rewrite <- T5. discriminate.
  - left. split; [reflexivity|]. apply T5. reflexivity.
Qed.
