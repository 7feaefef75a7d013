(** Symmetrised masks, flag lists, switches, interpolation, construction. *)
From Coq Require Import Lia ZifyBool ZifyNat Qabs Lqa Qfield Permutation.
From Verif Require Import Base BaseLemmas Img ImgLemmas Types Reader BoundsM MakerLayout MakerWrite Composite Coadd
  SpecTiles SpecFile SpecComposite SpecCoadd ReadLemmas CalibLemmas CompositeLemmas OutlierLemmas CoaddLemmas CoaddLemmas2 CoaddLemmas3.
Open Scope Z_scope.

(** * Symmetrising *)
Lemma rot_in {A} (m : img A) r k : img_ok m -> nr m = nc m -> 0 <= r < nr m -> 0 <= k < nc m -> exists v, px m k (nc m - 1 - r) = Some v.
Proof. intros H S R K. apply px_in; [exact H|lia|lia]. Qed.

Lemma sym_weight_masked wt : img_ok wt -> nr wt = nc wt ->
  exists wt', symmetrize_weight wt = Ok wt' /\ img_ok wt' /\ nr wt' = nr wt /\ nc wt' = nc wt /\
    forall r k w', px wt' r k = Some w' ->
      exists w v, px wt r k = Some w /\ px wt k (nc wt - 1 - r) = Some v /\
        ((w' == 0)%Q <-> (w == 0)%Q \/ (v == 0)%Q) /\ (~ (w' == 0)%Q -> w' = w).
Proof.
  intros H S. destruct (symmetrize_weight_total wt H S) as (wt' & E). exists wt'. split; [exact E|].
  apply symmetrize_weight_ok in E; [|exact H]. destruct E as (_ & (E1 & E2 & E3 & E4)). split; [exact E1|]. split; [exact E2|]. split; [exact E3|].
  intros r k w' P. destruct (px_Some_range _ _ _ _ P) as [R K]. destruct (px_in wt r k H) as (w & Pw); [lia|lia|].
  destruct (rot_in wt r k H S) as (v & Pv); [lia|lia|]. exists w, v. split; [exact Pw|]. split; [exact Pv|].
  destruct (E4 r k w v Pw Pv) as (E5 & E6). destruct (Qeq_dec v 0) as [V|V].
  - rewrite (E5 V) in P. inversion P; subst. split; [split; [intros _; right; exact V|reflexivity]|]. intros C. destruct C. reflexivity.
  - rewrite (E6 V) in P. inversion P; subst. split; [|reflexivity]. tauto.
Qed.

Lemma sym_bmask_masked c bm : img_ok bm -> nr bm = nc bm ->
  exists bm', symmetrize_bmask c bm = Ok bm' /\ img_ok bm' /\ nr bm' = nr bm /\ nc bm' = nc bm /\
    forall r k b', px bm' r k = Some b' ->
      exists b v, px bm r k = Some b /\ px bm k (nc bm - 1 - r) = Some v /\
        (flagged (total_mask (c_bmask_flags c)) b' <-> flagged (total_mask (c_bmask_flags c)) b \/ flagged (total_mask (c_bmask_flags c)) v) /\
        (b' = b \/ b' = v).
Proof.
  intros H S. destruct (symmetrize_bmask_total c bm H S) as (bm' & E). exists bm'. split; [exact E|].
  apply symmetrize_bmask_ok in E; [|exact H|exact S]. destruct E as (E1 & E2 & E3 & E4). split; [exact E1|]. split; [exact E2|]. split; [exact E3|].
  set (m := total_mask (c_bmask_flags c)) in *.
  intros r k b' P. destruct (px_Some_range _ _ _ _ P) as [R K]. destruct (px_in bm r k H) as (b & Pb); [lia|lia|].
  destruct (rot_in bm r k H S) as (v & Pv); [lia|lia|]. exists b, v. split; [exact Pb|]. split; [exact Pv|].
  destruct (E4 r k b v Pb Pv) as (E5 & E6).
  assert (D : flagged m v \/ ~ flagged m v).
  { destruct (has_flag m v) eqn:F; [left; apply has_flag_spec; exact F|right; apply has_flag_false; exact F]. }
  destruct D as [V|V].
  - rewrite (E5 V) in P. inversion P; subst. tauto.
  - rewrite (E6 V) in P. inversion P; subst. tauto.
Qed.

Lemma sym_keeps_unusable c wt bm wt' bm' p : img_ok wt -> img_ok bm -> nr bm = nr wt -> nc bm = nc wt -> nr wt = nc wt ->
  symmetrize_weight wt = Ok wt' -> symmetrize_bmask c bm = Ok bm' ->
  unusable_px (total_mask (c_bmask_flags c)) wt bm p -> unusable_px (total_mask (c_bmask_flags c)) wt' bm' p.
Proof.
  intros HW HB S1 S2 S E1 E2 (w & b & Pw & Pb & D).
  destruct (sym_weight_masked wt HW S) as (wt2 & F1 & W1 & W2 & W3 & W4). rewrite E1 in F1. inversion F1; subst wt2.
  destruct (sym_bmask_masked c bm HB) as (bm2 & F2 & B1 & B2 & B3 & B4); [lia|]. rewrite E2 in F2. inversion F2; subst bm2.
  destruct p as [r k]. cbn [fst snd] in *. destruct (px_Some_range _ _ _ _ Pw) as [R K].
  destruct (px_in wt' r k W1) as (w' & Pw'); [lia|lia|]. destruct (px_in bm' r k B1) as (b' & Pb'); [lia|lia|].
  exists w', b'. cbn [fst snd]. split; [exact Pw'|]. split; [exact Pb'|]. destruct D as [D|D].
  - left. destruct (W4 _ _ _ Pw') as (x & v & X1 & X2 & X3 & X4). rewrite Pw in X1. inversion X1; subst x.
    destruct (Qeq_dec w' 0) as [Z|Z]; [rewrite Z; apply Qle_refl|]. rewrite (X4 Z). exact D.
  - right. destruct (B4 _ _ _ Pb') as (x & v & X1 & X2 & X3 & X4). rewrite Pb in X1. inversion X1; subst x. apply X3. left. exact D.
Qed.

(** * Lists of flags *)
Lemma add_lor_land x y : x + y = Z.lor x y + Z.land x y.
Proof.
  assert (H : Z.lor x y = x + Z.ldiff y x).
  { assert (E : Z.land x (Z.ldiff y x) = 0) by (apply Z.bits_inj'; intros n Hn; rewrite Z.land_spec, Z.ldiff_spec, Z.bits_0; destruct (Z.testbit x n), (Z.testbit y n); reflexivity).
    rewrite (Z.add_nocarry_lxor _ _ E), (Z.lxor_lor _ _ E). apply Z.bits_inj'. intros n Hn. rewrite !Z.lor_spec, Z.ldiff_spec. destruct (Z.testbit x n), (Z.testbit y n); reflexivity. }
  assert (G : y = Z.ldiff y x + Z.land x y).
  { assert (E : Z.land (Z.ldiff y x) (Z.land x y) = 0) by (apply Z.bits_inj'; intros n Hn; rewrite !Z.land_spec, Z.ldiff_spec, Z.bits_0; destruct (Z.testbit x n), (Z.testbit y n); reflexivity).
    rewrite (Z.add_nocarry_lxor _ _ E), (Z.lxor_lor _ _ E). apply Z.bits_inj'. intros n Hn. rewrite !Z.lor_spec, Z.ldiff_spec, Z.land_spec. destruct (Z.testbit x n), (Z.testbit y n); reflexivity. }
  lia.
Qed.

Definition lors (l : list Z) : Z := fold_right Z.lor 0 l.
Definition sums (l : list Z) : Z := fold_right Z.add 0 l.

Lemma lors_bit l i : Z.testbit (lors l) i = true <-> exists x, In x l /\ Z.testbit x i = true.
Proof.
  induction l as [|x l IH]; cbn [lors fold_right].
  - rewrite Z.bits_0. split; [discriminate|]. intros (x & [] & _).
  - fold (lors l). rewrite Z.lor_spec, orb_true_iff, IH. split.
    + intros [H|(y & Y1 & Y2)]; [exists x; split; [left; reflexivity|exact H]|exists y; split; [right; exact Y1|exact Y2]].
    + intros (y & [<-|Y1] & Y2); [left; exact Y2|right; exists y; split; assumption].
Qed.
Lemma lors_nonneg l : Forall (fun x => 0 <= x) l -> 0 <= lors l.
Proof. induction 1 as [|x l H F IH]; cbn [lors fold_right]; [lia|]. apply Z.lor_nonneg. split; [exact H|exact IH]. Qed.
Lemma has_one_lors l b : has_one_of l b <-> flagged (Some (lors l)) b.
Proof.
  unfold has_one_of, flagged. split.
  - intros (fl & i & H1 & H2 & H3 & H4). exists (lors l), i. split; [reflexivity|]. split; [exact H2|]. split; [|exact H4]. apply lors_bit. exists fl. split; assumption.
  - intros (m & i & E & H2 & H3 & H4). inversion E; subst m. apply lors_bit in H3. destruct H3 as (fl & F1 & F2). exists fl, i. repeat split; assumption.
Qed.
Lemma land_zero x y : Z.land x y = 0 <-> forall i, 0 <= i -> ~ (Z.testbit x i = true /\ Z.testbit y i = true).
Proof.
  split.
  - intros H i Hi [A B]. assert (T : Z.testbit (Z.land x y) i = true) by (rewrite Z.land_spec, A, B; reflexivity). rewrite H, Z.bits_0 in T. discriminate.
  - intros H. apply Z.bits_inj'. intros n Hn. rewrite Z.bits_0, Z.land_spec. specialize (H n Hn). destruct (Z.testbit x n), (Z.testbit y n); try reflexivity. tauto.
Qed.
Lemma disjoint_lors x l : Forall (fun y => forall i, 0 <= i -> ~ (Z.testbit x i = true /\ Z.testbit y i = true)) l <-> Z.land x (lors l) = 0.
Proof.
  rewrite land_zero, Forall_forall. split.
  - intros H i Hi [A B]. apply lors_bit in B. destruct B as (y & Y1 & Y2). exact (H y Y1 i Hi (conj A Y2)).
  - intros H y Y i Hi [A B]. apply (H i Hi). split; [exact A|]. apply lors_bit. exists y. split; assumption.
Qed.
Lemma sums_ge l : Forall (fun x => 0 <= x) l -> lors l <= sums l.
Proof.
  induction 1 as [|x l H F IH]; cbn [lors sums fold_right]; [lia|]. fold (lors l). fold (sums l).
  pose proof (add_lor_land x (lors l)). assert (0 <= Z.land x (lors l)) by (apply Z.land_nonneg; left; exact H). lia.
Qed.
Lemma sums_lors l : Forall (fun x => 0 <= x) l -> (sums l = lors l <-> no_shared_bits l).
Proof.
  induction 1 as [|x l H F IH]; cbn [lors sums fold_right].
  - split; [intros _; constructor|reflexivity].
  - fold (lors l). fold (sums l). pose proof (add_lor_land x (lors l)) as A. pose proof (sums_ge l F) as G.
    assert (N : 0 <= Z.land x (lors l)) by (apply Z.land_nonneg; left; exact H). split.
    + intros E. constructor; [apply disjoint_lors; lia|apply IH; lia].
    + intros P. inversion P as [|? ? P1 P2]; subst. apply disjoint_lors in P1. apply IH in P2. lia.
Qed.

Lemma flagged_ext m m' : 0 <= m -> 0 <= m' -> (forall b, flagged (Some m) b <-> flagged (Some m') b) -> m = m'.
Proof.
  intros H H' E. apply Z.bits_inj'. intros n Hn. specialize (E (2 ^ n)).
  assert (K : forall y, flagged (Some y) (2 ^ n) <-> Z.testbit y n = true).
  { intros y. unfold flagged. split.
    - intros (z & i & E1 & I & T1 & T2). inversion E1; subst z. rewrite Z.pow2_bits_eqb in T2 by exact Hn. apply Z.eqb_eq in T2. subst i. exact T1.
    - intros T. exists y, n. split; [reflexivity|]. split; [exact Hn|]. split; [exact T|]. apply Z.pow2_bits_true. exact Hn. }
  rewrite !K in E. destruct (Z.testbit m n), (Z.testbit m' n); intuition congruence.
Qed.

Lemma flag_list_exact l : Forall (fun x => 0 <= x) l ->
  ((forall b, has_flag (Some (py_sum l)) b = true <-> has_one_of l b) <-> no_shared_bits l).
Proof.
  intros H. rewrite <- sums_lors by exact H. unfold py_sum. rewrite fold_left_add. fold (sums l). rewrite Z.add_0_l. split.
  - intros E. apply flagged_ext.
    + pose proof (sums_ge l H). pose proof (lors_nonneg l H). lia.
    + apply lors_nonneg. exact H.
    + intros b. rewrite <- has_flag_spec, E. apply has_one_lors.
  - intros E b. rewrite has_flag_spec, E. symmetry. apply has_one_lors.
Qed.

Lemma bad_pixel_flags c l w b : c_bmask_flags c = Some l -> Forall (fun x => 0 <= x) l -> no_shared_bits l ->
  (pix_bad (bad_flags c) w b = true <-> (w <= 0)%Q \/ has_one_of l b).
Proof.
  intros E H N. unfold bad_flags. rewrite E. cbn [option_map]. unfold pix_bad. rewrite orb_true_iff.
  rewrite (proj2 (flag_list_exact l H) N b). rewrite Qle_bool_iff. tauto.
Qed.
Lemma edge_pixel_flags c l bm : c_edge_flags c = Some l -> Forall (fun x => 0 <= x) l -> no_shared_bits l -> img_ok bm ->
  (hits_the_edge c bm = true <-> exists r k b, px bm r k = Some b /\ has_one_of l b).
Proof.
  intros E H N B. unfold hits_the_edge, edge_flags. rewrite E. cbn [option_map]. rewrite existsb_exists. split.
  - intros (b & I & F). apply In_dat_px in I; [|exact B]. destruct I as (r & k & P). exists r, k, b. split; [exact P|]. apply (flag_list_exact l H); assumption.
  - intros (r & k & b & P & O). exists b. split; [apply In_dat_px; [exact B|]; exists r, k; exact P|]. apply (flag_list_exact l H); assumption.
Qed.

(** * Switches *)
Lemma zip_some (c : cconf) (wt : img Q) (bm : img Z) : img_ok wt -> 0 < nr wt -> 0 < nc wt -> nr bm = nr wt -> nc bm = nc wt -> img_ok bm ->
  exists x, get_mask_frac c bm wt = Ok x.
Proof.
  intros H H1 H2 S1 S2 HB. unfold get_mask_frac. destruct (img_zip_exists (pix_bad (bad_flags c)) wt bm) as (z & ->); [lia|lia|]. cbn [bind].
  destruct HB as (_ & _ & L). dif E; [|eexists; reflexivity]. exfalso. assert (0 < nr wt * nc wt) by nia. rewrite S1, S2 in L. lia.
Qed.
Lemma sub2d_exists {A} (im : img A) a b c d : img_ok im -> exists z, sub2d im a b c d = Ok z.
Proof.
  intros H. unfold sub2d. apply tab2M_exists; [lia|lia|]. intros r k R K.
  pose proof (np_bound_nonneg (nr im) a (proj1 H)). pose proof (np_bound_nonneg (nc im) c (proj1 (proj2 H))).
  pose proof (np_bound_nonneg (nr im) b (proj1 H)). pose proof (np_bound_nonneg (nc im) d (proj1 (proj2 H))).
  destruct (px_in im (np_bound (nr im) a + r) (np_bound (nc im) c + k) H) as (v & P); [lia|lia|]. exists v. apply px_res_ok. exact P.
Qed.
Lemma central_total c wt bm : img_ok wt -> img_ok bm -> nr bm = nr wt -> nc bm = nc wt -> exists x, central_region_is_masked c bm wt = Ok x.
Proof.
  intros H HB S1 S2. unfold central_region_is_masked. destruct (c_central_check c); [|eexists; reflexivity].
  set (lo := central_low c (nr wt)). set (hi := central_high c (nr wt)).
  destruct (sub2d_exists wt lo hi lo hi H) as (w & W). destruct (sub2d_exists bm lo hi lo hi HB) as (b & B). rewrite W, B. cbn [bind].
  apply sub2d_ok in W; [|exact H]. apply sub2d_ok in B; [|exact HB]. destruct W as (_ & W1 & W2 & _), B as (_ & B1 & B2 & _). rewrite S1 in B1. rewrite S2 in B2.
  match goal with |- context [img_zip ?F w b] => destruct (img_zip_exists F w b) as (z & ->); [lia|lia|] end. eexists; reflexivity.
Qed.

Lemma edge_off_raises c wt bm : c_edge_check c = false -> img_ok wt -> img_ok bm -> 0 < nr wt -> 0 < nc wt -> nr bm = nr wt -> nc bm = nc wt ->
  ~ edge_test c bm -> ~ frac_test c wt bm -> ~ central_test c wt bm -> cutout_flag c bm wt = Err UnboundLocalError.
Proof.
  intros HC H HB P1 P2 S1 S2 N1 N2 N3. unfold cutout_flag.
  destruct (hits_the_edge c bm) eqn:E1; [apply edge_test_spec in E1; [contradiction|exact HB]|].
  destruct (zip_some c wt bm) as (x & X); try assumption. rewrite X. cbn [bind].
  destruct (qltb (c_max_masked_frac c) x) eqn:E2; [apply (frac_test_spec c wt bm x H HB X) in E2; contradiction|].
  destruct (central_total c wt bm H HB S1 S2) as (y & Y). rewrite Y. cbn [bind].
  destruct y; [apply central_spec in Y; try assumption; exfalso; apply N3, Y; reflexivity|].
  unfold ps_edge_pixels_are_masked. rewrite HC. reflexivity.
Qed.
Lemma edge_off_never_used c wt bm : c_edge_check c = false -> cutout_flag c bm wt <> Ok 0.
Proof.
  intros HC. unfold cutout_flag. destruct (hits_the_edge c bm); [discriminate|]. destruct (get_mask_frac c bm wt); [|discriminate]. cbn [bind].
  destruct (qltb _ _); [discriminate|]. destruct (central_region_is_masked c bm wt) as [y|]; [|discriminate]. cbn [bind]. destruct y; [discriminate|].
  unfold ps_edge_pixels_are_masked. rewrite HC. discriminate.
Qed.

Lemma nearest_bounds x i : nearest_int x i -> (inject_Z i <= x + (1#2))%Q /\ (x - (1#2) <= inject_Z i)%Q.
Proof. intros (H & _). apply Qabs_Qle_condition in H. lra. Qed.

Lemma nearest_nonneg x i : nearest_int x i -> (-(1#2) <= x)%Q -> 0 <= i.
Proof.
  intros (H & T) L. apply Z.nlt_ge. intros C. assert (I : (inject_Z i <= -1)%Q) by (change (-1)%Q with (inject_Z (-1)); rewrite <- Zle_Qle; lia).
  pose proof (proj1 (Qabs_Qle_condition _ _) H) as B. assert (Ei : (inject_Z i == -1)%Q) by lra. assert (Ex : (x == -(1#2))%Q) by lra.
  assert (i = -1). { change (-1)%Q with (inject_Z (-1)) in Ei. unfold Qeq in Ei; cbn in Ei. lia. } subst i.
  assert (X : Z.even (-1) = true) by (apply T; rewrite Ex; reflexivity). discriminate.
Qed.

Lemma central_in_slice c n r lo hi : (0 < c_central_size c)%Q -> (c_central_size c <= inject_Z n)%Q -> 0 <= r < n ->
  nearest_int ((inject_Z n - 1) / 2 - c_central_size c / 2)%Q lo ->
  nearest_int ((inject_Z n - 1) / 2 + c_central_size c / 2 + 1)%Q hi ->
  half_box c n r -> in_slice n lo hi r.
Proof.
  intros HS HN R HL HH HB. assert (L0 : 0 <= lo).
  { apply (nearest_nonneg _ _ HL). assert (E : ((inject_Z n - 1) / 2 - c_central_size c / 2 == (inject_Z n - 1 - c_central_size c) * (1#2))%Q) by field. rewrite E. lra. }
  assert (N1 : (1 <= inject_Z n)%Q) by (change 1%Q with (inject_Z 1); rewrite <- Zle_Qle; lia).
  assert (H2 : (c_central_size c / 2 == c_central_size c * (1#2))%Q) by field. assert (C2 : ((inject_Z n - 1) / 2 == (inject_Z n - 1) * (1#2))%Q) by field.
  assert (H0 : 0 <= hi) by (apply (nearest_nonneg _ _ HH); rewrite H2, C2; lra).
  unfold half_box in HB. apply Qabs_Qle_condition in HB. apply nearest_bounds in HL. apply nearest_bounds in HH.
  rewrite H2, C2 in *. unfold in_slice. split; [exact R|].
  destruct (lo <? 0) eqn:E1; [lia|]. destruct (hi <? 0) eqn:E2; [lia|]. split.
  - apply Z.lt_succ_r. rewrite Zlt_Qlt. unfold Z.succ. rewrite inject_Z_plus. change (inject_Z 1) with 1%Q. lra.
  - rewrite Zlt_Qlt. lra.
Qed.
Lemma in_slice_central c n r lo hi : (0 < c_central_size c)%Q -> (c_central_size c <= inject_Z n)%Q ->
  nearest_int ((inject_Z n - 1) / 2 - c_central_size c / 2)%Q lo ->
  nearest_int ((inject_Z n - 1) / 2 + c_central_size c / 2 + 1)%Q hi ->
  in_slice n lo hi r -> (Qabs (inject_Z r - (inject_Z n - 1) / 2) <= c_central_size c / 2 + (1#2))%Q.
Proof.
  intros HS HN HL HH (R & HB). assert (L0 : 0 <= lo).
  { apply (nearest_nonneg _ _ HL). assert (E : ((inject_Z n - 1) / 2 - c_central_size c / 2 == (inject_Z n - 1 - c_central_size c) * (1#2))%Q) by field. rewrite E. lra. }
  assert (N1 : (1 <= inject_Z n)%Q) by (change 1%Q with (inject_Z 1); rewrite <- Zle_Qle; lia).
  assert (H2 : (c_central_size c / 2 == c_central_size c * (1#2))%Q) by field. assert (C2 : ((inject_Z n - 1) / 2 == (inject_Z n - 1) * (1#2))%Q) by field.
  assert (H0 : 0 <= hi) by (apply (nearest_nonneg _ _ HH); rewrite H2, C2; lra).
  apply nearest_bounds in HL. apply nearest_bounds in HH. rewrite H2, C2 in *.
  destruct (lo <? 0) eqn:E1; [lia|]. destruct (hi <? 0) eqn:E2; [lia|]. destruct HB as (B1 & B2).
  apply Qabs_Qle_condition. rewrite Zle_Qle in B1. assert (B3 : r + 1 <= hi) by lia. rewrite Zle_Qle, inject_Z_plus in B3. change (inject_Z 1) with 1%Q in B3. split; lra.
Qed.

Lemma central_detected c wt bm r k : c_central_check c = true -> img_ok wt -> img_ok bm -> nr bm = nr wt -> nc bm = nc wt -> nc wt = nr wt ->
  (0 < c_central_size c)%Q -> (c_central_size c <= inject_Z (nr wt))%Q ->
  half_box c (nr wt) r -> half_box c (nr wt) k -> unusable_px (total_mask (c_bmask_flags c)) wt bm (r, k) ->
  central_region_is_masked c bm wt = Ok true.
Proof.
  intros HC H HB S1 S2 S HS HN R K U. destruct (central_total c wt bm H HB S1 S2) as (x & X). rewrite X. f_equal.
  apply (central_spec c wt bm x H HB S1 S2 X). split; [exact HC|].
  exists (central_low c (nr wt)), (central_high c (nr wt)), r, k. pose proof U as (w & b & P & _). cbn [fst snd] in P. destruct (px_Some_range _ _ _ _ P) as [Rr Rk].
  split; [apply qround_nearest|]. split; [apply qround_nearest|].
  split; [eapply (central_in_slice c); try eassumption; apply qround_nearest|]. split; [|exact U].
  rewrite S in *. eapply (central_in_slice c); try eassumption; apply qround_nearest.
Qed.
Lemma central_only c wt bm : img_ok wt -> img_ok bm -> nr bm = nr wt -> nc bm = nc wt -> nc wt = nr wt ->
  (0 < c_central_size c)%Q -> (c_central_size c <= inject_Z (nr wt))%Q -> central_region_is_masked c bm wt = Ok true ->
  c_central_check c = true /\
  exists r k, unusable_px (total_mask (c_bmask_flags c)) wt bm (r, k) /\
    (Qabs (inject_Z r - (inject_Z (nr wt) - 1) / 2) <= c_central_size c / 2 + (1#2))%Q /\
    (Qabs (inject_Z k - (inject_Z (nr wt) - 1) / 2) <= c_central_size c / 2 + (1#2))%Q.
Proof.
  intros H HB S1 S2 S HS HN X. apply central_spec in X; try assumption. destruct X as (X & _). destruct (X eq_refl) as (C & lo & hi & r & k & L & Hh & I1 & I2 & U).
  split; [exact C|]. exists r, k. split; [exact U|]. rewrite S in I2. split; eapply (in_slice_central c); eassumption.
Qed.

(** * Interpolation *)
Lemma put_at_total {A} (d : list A) inds vals : length inds = length vals -> exists r, put_at d inds vals = Ok r.
Proof. intros L. unfold put_at. replace (zlen inds =? zlen vals) with true by (unfold zlen; lia). eexists; reflexivity. Qed.

Lemma do_interp_total o im wgood wbad : interp_total o -> wgood <> [] -> (forall i, In i wgood -> 0 <= i < zlen (dat im)) ->
  exists z, do_interp o im wgood wbad = Ok z.
Proof.
  intros HT HG HR. unfold do_interp. destruct (take_total (dat im) wgood HR) as (vg & V & _). rewrite V. cbn [bind].
  destruct (HT (map (yx (nc im)) wgood) vg (map (yx (nc im)) wbad)) as (v & E & L); [destruct wgood; [congruence|discriminate]|].
  rewrite E. cbn [bind]. rewrite map_length in L. destruct (put_at_total (dat im) wbad v) as (r & ->); [lia|]. eexists; reflexivity.
Qed.

Lemma interp_total_spec c o icut im wt bm : interp_total o -> c_cubic c = true ->
  img_ok im -> img_ok wt -> img_ok bm -> nr im = nr wt -> nc im = nc wt -> nr bm = nr wt -> nc bm = nc wt ->
  (exists r k, 0 <= r < nr wt /\ 0 <= k < nc wt /\ ~ unusable_px (total_mask (c_bmask_flags c)) wt bm (r, k)) ->
  exists im' wt' noise n, interp_bad_pixels c o icut im wt bm = Ok (im', wt', noise, n) /\
    repaired (total_mask (c_bmask_flags c)) im wt bm im' wt' noise n.
Proof.
  intros HT HC HI HW HB S1 S2 S3 S4 (r & k & R & K & G).
  assert (E : exists x, interp_bad_pixels c o icut im wt bm = Ok x).
  { unfold interp_bad_pixels. rewrite HC. cbn [negb]. destruct (img_zip_exists (pix_bad (bad_flags c)) wt bm) as (z & Z); [lia|lia|]. rewrite Z. cbn [bind].
    apply img_zip_ok in Z; [|exact HW|exact HB]. destruct Z as (Z1 & Z2 & Z3 & Z4 & Z5 & Z6).
    destruct (where_ (dat z)) as [|i0 wb0]; [eexists; reflexivity|]. set (wbad := i0 :: wb0).
    set (wg := where_ (map negb (dat z))).
    assert (LZ : zlen (dat z) = nr wt * nc wt) by (destruct Z3 as (_ & _ & Z3); rewrite Z3, Z4, Z5; reflexivity).
    assert (RG : forall i, In i wg -> 0 <= i < nr wt * nc wt) by (intros i I; apply In_where in I; apply zget_Some_range in I; rewrite zlen_map in I; lia).
    assert (GN : wg <> []).
    { intros C. assert (X : In (r * nc wt + k) wg); [|rewrite C in X; destruct X]. apply In_where. rewrite zget_map, <- Z5, <- px_flat by lia. rewrite Z6.
      destruct (px_in wt r k HW) as (w & Pw); [lia|lia|]. destruct (px_in bm r k HB) as (b & Pb); [lia|lia|]. rewrite Pw, Pb. cbn [option_map]. f_equal.
      apply negb_true_iff. apply not_true_iff_false. intros T. apply G. rewrite bad_flags_total in T. apply pix_bad_spec in T. exists w, b. cbn [fst snd]. repeat split; assumption. }
    destruct HW as (W1 & W2 & W3). destruct HI as (I1 & I2 & I3).
    destruct (take_total (dat wt) wg) as (gw & V & L); [intros i I; rewrite W3; apply RG; exact I|]. rewrite V. cbn [bind].
    destruct (qmedian_total gw) as (med & M); [destruct gw; [destruct wg; [congruence|discriminate]|discriminate]|]. rewrite M. cbn [bind].
    destruct (put_at_total (dat wt) wbad (map (fun _ => med) wbad)) as (wd & WD); [rewrite map_length; reflexivity|]. rewrite WD. cbn [bind].
    destruct (do_interp_total o im wg wbad HT GN) as (ii & II); [intros i I; rewrite I3, S1, S2; apply RG; exact I|]. rewrite II. cbn [bind].
    set (tn := make_noise_image o icut {| nr := nr wt; nc := nc wt; dat := wd |}).
    destruct (do_interp_total o tn wg wbad HT GN) as (ni & NI).
    { intros i I. assert (OK : img_ok tn) by (apply tab2_ok; assumption). destruct OK as (_ & _ & OK). rewrite OK. apply RG. exact I. }
    rewrite NI. cbn [bind]. eexists; reflexivity. }
  destruct E as ([[[im' wt'] noise] n] & E). exists im', wt', noise, n. split; [exact E|].
  eapply interp_spec; [exact HI|exact HW|exact HB|exact S1|exact S2|exact E].
Qed.

(** * Construction *)
Lemma construct_history {K} (dflt : K) cs : forall h l, construct_all dflt h cs = Ok l ->
  length l = length cs /\
  forall i x, nth_error cs i = Some x -> nth_error l i = setting dflt h (firstn i cs) x.
Proof.
  induction cs as [|c cs IH]; intros h l H.
  - inversion H; subst. split; [reflexivity|]. intros [|i] x X; discriminate.
  - cbn [construct_all] in H. apply bind_ok in H. destruct H as ([h' s] & S & H). apply bind_ok in H. destruct H as (l' & L & H).
    inversion H; subst; clear H. cbn [fst snd] in *. destruct (IH _ _ L) as (L1 & L2). split; [cbn [length]; lia|].
    intros [|i] x X; cbn [nth_error firstn] in *.
    + inversion X; subst x; clear X. unfold set_config in S. destruct c as [r|]; [|inversion S; reflexivity].
      unfold setting. destruct (nth_error h r) as [d|]; [|discriminate]. inversion S; reflexivity.
    + rewrite (L2 i x X). unfold set_config in S. destruct c as [r|].
      2:{ inversion S; subst. unfold setting. destruct x as [r'|]; reflexivity. }
      destruct (nth_error h r) as [d|] eqn:D; [|discriminate]. inversion S; subst; clear S. unfold setting. destruct x as [r'|]; [|reflexivity].
      rewrite nth_error_upd. unfold used_before. cbn [existsb]. destruct (Nat.eqb r r') eqn:E.
      * apply Nat.eqb_eq in E. subst r'. rewrite D. assert (LT : (r < length h)%nat) by (apply nth_error_Some; congruence).
        apply Nat.ltb_lt in LT. rewrite LT. cbn [cd_dither cd_rest]. rewrite Nat.eqb_refl. cbn [orb]. destruct (existsb _ _); reflexivity.
      * rewrite Nat.eqb_sym in E. rewrite E. reflexivity.
Qed.
