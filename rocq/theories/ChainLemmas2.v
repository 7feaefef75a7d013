(** Every answer of the reader along chains of extractions. *)
From Coq Require Import Lia ZifyBool ZifyNat Permutation.
From Verif Require Import Base BaseLemmas Img ImgLemmas Types Reader ReadLemmas Composite Uberseg Extract SpecTiles SpecFile SpecExtract SpecChain SpecChain2
  ExtractLemmas ExtractLemmas2 ExtractLemmas3 ExtractLemmas4 ExtractLemmas5 ExtractLemmas6 ChainLemmas.
Open Scope Z_scope.

Lemma inplace_ext g g' im : (forall k x, 0 <= k -> g k x = g' k x) -> inplace_blocks g im = inplace_blocks g' im.
Proof.
  intros H. unfold inplace_blocks. destruct (nc im =? 0); [reflexivity|]. apply foldM_ext_in. intros s x I.
  apply In_zrange in I. destruct (sub2d _ _ _ _ _); cbn [bind]; [|reflexivity]. rewrite H by lia. reflexivity.
Qed.
Lemma bind_ext {A B} (x : res A) (p q : A -> res B) : (forall a, p a = q a) -> bind x p = bind x q.
Proof. intros H. destruct x; cbn; [apply H|reflexivity]. Qed.

Section Same.
  Variables (f g : medsfile) (i j : Z) (o o' : obj).
  Hypothesis Zf : zget (m_cat f) j = Some o.
  Hypothesis Zg : zget (m_cat g) i = Some o'.
  Hypothesis S : same_but_starts o o'.
  Hypothesis F : 0 <= o_ncut o <= zlen (o_slots o).
  Hypothesis I : m_info g = m_info f.
  Hypothesis Nf : m_number_col f = true.
  Hypothesis Ng : m_number_col g = true.
  Hypothesis C : forall t, four t -> same_cutouts f j g i t.
  Hypothesis P : same_psfs f j g i.
  Hypothesis W : 0 < o_ncut o -> (file_wf f /\ forall t, four t -> has_ext f t) /\ (file_wf g /\ forall t, four t -> has_ext g t).

  Local Lemma oth k : 0 <= k -> get_source_info g i k = get_source_info f j k /\ get_jacobian g i k = get_jacobian f j k /\ get_cutout_rowcol g i k = get_cutout_rowcol f j k.
  Proof. intros K. apply (other_accessors f g i j o o' Zf Zg S F I k K). Qed.
  Local Lemma rc k : 0 <= k -> get_cutout_rowcol g i k = get_cutout_rowcol f j k.
  Proof. intros K. apply (oth k K). Qed.
  Local Lemma pyf : py_index (m_cat f) j = Ok o.
  Proof. pose proof (zget_Some_range _ _ _ Zf). rewrite py_index_nonneg, Zf by lia. reflexivity. Qed.
  Local Lemma pyg : py_index (m_cat g) i = Ok o'.
  Proof. pose proof (zget_Some_range _ _ _ Zg). rewrite py_index_nonneg, Zg by lia. reflexivity. Qed.
  Local Lemma same_n : o_number o' = o_number o /\ o_ncut o' = o_ncut o.
  Proof. destruct (same_number _ _ S) as (A & B & _). auto. Qed.
  Local Lemma jm k : 0 <= k -> get_jacobian_matrix g i k = get_jacobian_matrix f j k.
  Proof.
    intros K. unfold get_jacobian_matrix. rewrite pyf, pyg. cbn [bind]. unfold get_slot. rewrite !py_index_nonneg by lia.
    destruct (zget (o_slots o) k) as [s|] eqn:Es.
    - destruct (same_slot o o' k s S Es) as (s' & -> & E). cbn [bind]. rewrite E. reflexivity.
    - rewrite (same_slot_none o o' k S Es). reflexivity.
  Qed.
  Local Lemma num : number_col g i = number_col f j /\ get_number g i = get_number f j.
  Proof. unfold number_col, get_number. rewrite Nf, Ng, pyf, pyg. cbn [bind]. destruct same_n as (-> & _). auto. Qed.
  Local Lemma cut t k : four t -> 0 <= k -> get_cutout g i k t = get_cutout f j k t.
  Proof. intros T K. apply (C t T k K). Qed.
  Local Lemma check_none : o_ncut o <= 0 -> check_indices g i None = Err ValueError /\ check_indices f j None = Err ValueError.
  Proof.
    intros N. unfold check_indices. destruct same_n as (_ & E). pose proof (zget_Some_range _ _ _ Zf). pose proof (zget_Some_range _ _ _ Zg).
    rewrite pyf, pyg. cbn [bind]. replace (zlen (m_cat g) <=? i) with false by lia. replace (zlen (m_cat f) <=? j) with false by lia. rewrite E.
    replace (o_ncut o =? 0) with true by lia. auto.
  Qed.
  Local Lemma mos t : four t -> get_mosaic g i t = get_mosaic f j t.
  Proof.
    intros T. destruct (Z_le_gt_dec (o_ncut o) 0) as [N|N].
    { unfold get_mosaic. destruct (check_none N) as (-> & ->). reflexivity. }
    destruct W as ((W1 & X1) & W2 & X2); [lia|]. destruct (X1 t T) as (m1 & E1), (X2 t T) as (m2 & E2). destruct same_n as (_ & EN).
    destruct (same_number _ _ S) as (_ & _ & EB & _).
    destruct (mosaic_blocks f j o t m1 W1 Zf ltac:(lia) E1) as (a & l1 & A1 & A2 & A3 & A4 & _ & _ & A5).
    destruct (mosaic_blocks g i o' t m2 W2 Zg ltac:(lia) E2) as (b & l2 & B1 & B2 & B3 & B4 & _ & _ & B5).
    rewrite A1, B1. f_equal. rewrite EN, EB in B3. rewrite EB in B4. assert (HB : 0 < o_box o).
    { destruct W1 as [W1 _]. rewrite Forall_forall in W1. apply (W1 o (zget_In _ _ _ Zf)). }
    apply img_ext; try assumption; [lia|lia|]. intros r c R1 R2. rewrite B3 in R1. rewrite B4 in R2.
    assert (D := Z.div_mod r (o_box o) ltac:(lia)). assert (M := Z.mod_pos_bound r (o_box o) HB).
    set (q := r / o_box o) in *. set (u := r mod o_box o) in *.
    assert (0 <= q < o_ncut o) by nia. replace r with (q * o_box o + u) by lia.
    destruct (A5 q) as (x & X & _ & _ & _ & _ & Y); [lia|]. destruct (B5 q) as (x' & X' & _ & _ & _ & _ & Y'); [lia|].
    rewrite (cut t q T) in X' by lia. rewrite X in X'. injection X' as <-. rewrite EB in Y'. rewrite Y, Y' by lia. reflexivity.
  Qed.
  Local Lemma comp k im seg restrict : 0 <= k -> make_composite_image g i k im seg restrict = make_composite_image f j k im seg restrict.
  Proof. intros K. unfold make_composite_image. rewrite (rc 0), (rc k), (jm k), (jm 0) by lia. reflexivity. Qed.
  Local Lemma interp k : 0 <= k -> interpolate_coadd_seg g i k = interpolate_coadd_seg f j k.
  Proof.
    intros K. unfold interpolate_coadd_seg, interpolate_coadd_seg_image. rewrite (cut TSeg 0), (jm k), (jm 0), (rc k), (rc 0) by (unfold four; tauto || lia). reflexivity.
  Qed.
  Local Lemma cw k restrict : 0 <= k -> get_cweight_cutout g i k restrict = get_cweight_cutout f j k restrict.
  Proof.
    intros K. unfold get_cweight_cutout. rewrite (cut TSeg 0), (cut TWeight k) by (unfold four; tauto || lia).
    apply bind_ext. intros a. apply bind_ext. intros b. apply comp. exact K.
  Qed.
  Local Lemma ub k fuel fast : 0 <= k -> get_uberseg fuel g i k fast = get_uberseg fuel f j k fast.
  Proof. intros K. unfold get_uberseg. rewrite cw, interp by exact K. destruct num as (-> & _). reflexivity. Qed.
  Local Lemma cwm restrict : get_cweight_mosaic g i restrict = get_cweight_mosaic f j restrict.
  Proof.
    unfold get_cweight_mosaic. rewrite (cut TSeg 0), (mos TWeight) by (unfold four; tauto || lia). apply bind_ext. intros a. apply bind_ext. intros b.
    apply inplace_ext. intros k x K. apply comp. exact K.
  Qed.
  Local Lemma csm : get_cseg_mosaic g i = get_cseg_mosaic f j.
  Proof.
    unfold get_cseg_mosaic. rewrite (cut TSeg 0), (mos TSeg) by (unfold four; tauto || lia). destruct num as (_ & ->). apply bind_ext. intros a. apply bind_ext. intros n. apply bind_ext. intros b.
    apply inplace_ext. intros k x K. apply comp. exact K.
  Qed.

  Lemma same_all : same_answers g i f j.
  Proof.
    destruct same_n as (EN & EC). split; [|split; [|split; [|split; [|split; [|split; [|split; [|split]]]]]]].
    - intros t T. split; [exact (mos t T)|]. split; [unfold get_cutout_list; rewrite (mos t T); reflexivity|]. intros k K. exact (cut t k T K).
    - split; [apply num|]. split.
      + unfold get_psf_list. rewrite pyf, pyg. cbn [bind]. rewrite EC. apply mapM_ext_in. intros k K. apply In_zrange in K. apply P. lia.
      + unfold get_jacobian_list. destruct (Z_le_gt_dec (o_ncut o) 0) as [N|N]; [destruct (check_none N) as (-> & ->); reflexivity|].
        assert (check_indices g i None = Ok o' /\ check_indices f j None = Ok o) as (-> & ->).
        { unfold check_indices. pose proof (zget_Some_range _ _ _ Zf). pose proof (zget_Some_range _ _ _ Zg).
          rewrite pyf, pyg. cbn [bind]. replace (zlen (m_cat g) <=? i) with false by lia. replace (zlen (m_cat f) <=? j) with false by lia. rewrite EC.
          replace (o_ncut o =? 0) with false by lia. auto. }
        cbn [bind]. rewrite EC. apply mapM_ext_in. intros k K. apply In_zrange in K. apply oth. lia.
    - intros k K. destruct (oth k K) as (A & B & D). split; [exact (P k K)|]. split; [exact B|]. split; [exact (jm k K)|]. split; [exact D|]. split; [exact A|].
      unfold get_source_path. rewrite A. reflexivity.
    - intros k K. split; [intros r; apply cw; exact K|]. split.
      { unfold get_cseg_cutout. rewrite (cut TSeg k), (cut TSeg 0) by (unfold four; tauto || lia). destruct num as (_ & ->).
        apply bind_ext. intros a. apply bind_ext. intros n. cbv zeta. apply bind_ext. intros b. apply comp. exact K. }
      split; [apply interp; exact K|]. split; [|intros; apply ub; exact K].
      intros ca. unfold get_cseg_weight. rewrite (cut TSeg k), (cut TWeight k), (rc k) by (unfold four; tauto || lia). destruct num as (-> & _). reflexivity.
    - intros r. split; [apply cwm|]. unfold get_cweight_cutout_list. rewrite cwm. reflexivity.
    - apply csm.
    - unfold get_cseg_cutout_list. rewrite csm. reflexivity.
    - unfold interpolate_coadd_seg_mosaic. rewrite (mos TSeg) by (unfold four; tauto). apply bind_ext. intros a. apply inplace_ext. intros k x K. destruct (k =? 0); [reflexivity|]. apply interp. exact K.
    - intros fuel fast. unfold get_uberseg_list. rewrite pyf, pyg. cbn [bind]. rewrite EC. apply mapM_ext_in. intros k K. apply In_zrange in K. apply ub. lia.
  Qed.
End Same.

Theorem chain_answers f g i o' : extractable f -> derived f g -> zget (m_cat g) i = Some o' ->
  exists j o, zget (m_cat f) j = Some o /\ o_number o = o_number o' /\ same_answers g i f j.
Proof.
  intros E D Z. destruct (chain f g E D) as (G & R & I). destruct (R i o' Z) as (j & o & Zj & S & T1 & T2). exists j, o. split; [exact Zj|].
  split; [symmetry; apply (same_number _ _ S)|]. pose proof (extractable_good f E) as (Nf & _ & Ff & Cf). destruct G as (Ng & _ & _ & Cg).
  apply (same_all f g i j o o'); try assumption.
  - rewrite Forall_forall in Ff. apply (Ff o). eapply zget_In; exact Zj.
  - intros N. destruct (same_number _ _ S) as (_ & EC & _).
    destruct Cf as (A1 & _ & _ & A2); [exists o; split; [eapply zget_In; exact Zj|exact N]|].
    destruct Cg as (B1 & _ & _ & B2); [exists o'; split; [eapply zget_In; exact Z|lia]|]. auto.
Qed.

Lemma answers_agree g i h k f j : same_answers g i f j -> same_answers h k f j -> same_answers g i h k.
Proof.
  intros (A1 & (A2 & A3 & A4) & A5 & A6 & A7 & A8 & A9 & A10 & A11) (B1 & (B2 & B3 & B4) & B5 & B6 & B7 & B8 & B9 & B10 & B11).
  split; [|split; [|split; [|split; [|split; [|split; [|split; [|split]]]]]]].
  - intros t T. destruct (A1 t T) as (X1 & X2 & X3), (B1 t T) as (Y1 & Y2 & Y3). split; [congruence|]. split; [congruence|].
    intros n N. rewrite (X3 n N), (Y3 n N). reflexivity.
  - split; [congruence|]. split; congruence.
  - intros n N. destruct (A5 n N) as (X1 & X2 & X3 & X4 & X5 & X6), (B5 n N) as (Y1 & Y2 & Y3 & Y4 & Y5 & Y6). repeat split; congruence.
  - intros n N. destruct (A6 n N) as (X1 & X2 & X3 & X4 & X5), (B6 n N) as (Y1 & Y2 & Y3 & Y4 & Y5).
    split; [intros r; rewrite X1, Y1; reflexivity|]. split; [congruence|]. split; [congruence|]. split; [intros r; rewrite X4, Y4; reflexivity|].
    intros u v. rewrite X5, Y5. reflexivity.
  - intros r. destruct (A7 r) as (X1 & X2), (B7 r) as (Y1 & Y2). split; congruence.
  - congruence.
  - congruence.
  - congruence.
  - intros u v. rewrite A11, B11. reflexivity.
Qed.

Theorem chain_answers_agree f g h i j o p : extractable f -> derived f g -> derived f h ->
  zget (m_cat g) i = Some o -> zget (m_cat h) j = Some p -> o_number o = o_number p -> same_answers g i h j.
Proof.
  intros E D1 D2 Z1 Z2 N. destruct (chain_answers f g i o E D1 Z1) as (a & x & Za & Na & A).
  destruct (chain_answers f h j p E D2 Z2) as (b & y & Zb & Nb & B).
  assert (ND : NoDup (map o_number (m_cat f))) by (destruct E as (_ & _ & _ & _ & _ & _ & _ & _ & ND); exact ND).
  assert (a = b) by (apply (number_inj _ _ _ x y ND Za Zb); congruence). subst b. exact (answers_agree _ _ _ _ _ _ A B).
Qed.
