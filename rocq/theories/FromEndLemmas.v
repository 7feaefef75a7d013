(** Objects counted from the end: the readers. *)
From Coq Require Import Lia ZifyBool ZifyNat.
From Verif Require Import Base BaseLemmas Img ImgLemmas Types Reader ReadLemmas Composite Uberseg SpecChain2 ChainLemmas2.
Open Scope Z_scope.

Lemma py_from_end {A} (l : list A) j : 0 <= j < zlen l -> py_index l (j - zlen l) = py_index l j.
Proof. intros J. unfold py_index. replace (j - zlen l <? 0) with true by lia. replace (j <? 0) with false by lia. replace (j - zlen l + zlen l) with j by lia. reflexivity. Qed.
Lemma py_below {A} (l : list A) i : i < - zlen l -> py_index l i = Err IndexError.
Proof. intros J. pose proof (zlen_nonneg l). unfold py_index. replace (i <? 0) with true by lia. unfold zget. replace (i + zlen l <? 0) with true by lia. reflexivity. Qed.
Lemma py_ok_range {A} (l : list A) i a : py_index l i = Ok a -> - zlen l <= i < zlen l.
Proof.
  unfold py_index. pose proof (zlen_nonneg l). destruct (zget l (if i <? 0 then i + zlen l else i)) eqn:E; [|discriminate]. intros _.
  apply zget_Some_range in E. destruct (i <? 0) eqn:I; lia.
Qed.

Section End.
  Variables (f : medsfile) (i j : Z).
  Hypothesis P : py_index (m_cat f) i = py_index (m_cat f) j.
  Hypothesis B : (zlen (m_cat f) <=? i) = (zlen (m_cat f) <=? j).

  Local Lemma chk k : check_indices f i k = check_indices f j k.
  Proof. unfold check_indices. rewrite B, P. reflexivity. Qed.
  Local Lemma cut k t : get_cutout f i k t = get_cutout f j k t.
  Proof. unfold get_cutout. rewrite chk. reflexivity. Qed.
  Local Lemma mos t : get_mosaic f i t = get_mosaic f j t.
  Proof. unfold get_mosaic. rewrite chk. reflexivity. Qed.
  Local Lemma psf k : get_psf f i k = get_psf f j k.
  Proof. unfold get_psf. rewrite ?chk, ?P. reflexivity. Qed.
  Local Lemma rc k : get_cutout_rowcol f i k = get_cutout_rowcol f j k.
  Proof. unfold get_cutout_rowcol. rewrite ?chk, ?P. reflexivity. Qed.
  Local Lemma jac k : get_jacobian f i k = get_jacobian f j k.
  Proof. unfold get_jacobian. rewrite chk, rc. reflexivity. Qed.
  Local Lemma jm k : get_jacobian_matrix f i k = get_jacobian_matrix f j k.
  Proof. unfold get_jacobian_matrix. rewrite ?chk, ?P. reflexivity. Qed.
  Local Lemma si k : get_source_info f i k = get_source_info f j k.
  Proof. unfold get_source_info. rewrite ?chk, ?P. reflexivity. Qed.
  Local Lemma nc : number_col f i = number_col f j.
  Proof. unfold number_col. rewrite P. reflexivity. Qed.
  Local Lemma comp k im seg restrict : make_composite_image f i k im seg restrict = make_composite_image f j k im seg restrict.
  Proof. unfold make_composite_image. rewrite !rc, !jm. reflexivity. Qed.
  Local Lemma interp k : interpolate_coadd_seg f i k = interpolate_coadd_seg f j k.
  Proof. unfold interpolate_coadd_seg, interpolate_coadd_seg_image. rewrite !cut, !jm, !rc. reflexivity. Qed.
  Local Lemma cw k restrict : get_cweight_cutout f i k restrict = get_cweight_cutout f j k restrict.
  Proof. unfold get_cweight_cutout. rewrite !cut. apply bind_ext. intros a. apply bind_ext. intros b. apply comp. Qed.
  Local Lemma ub k fuel fast : get_uberseg fuel f i k fast = get_uberseg fuel f j k fast.
  Proof. unfold get_uberseg. rewrite cw, interp, nc. reflexivity. Qed.
  Local Lemma cwm restrict : get_cweight_mosaic f i restrict = get_cweight_mosaic f j restrict.
  Proof.
    unfold get_cweight_mosaic. rewrite cut, mos. apply bind_ext. intros a. apply bind_ext. intros b. apply inplace_ext. intros k x K. apply comp.
  Qed.
  Hypothesis N : get_number f i = get_number f j.
  Local Lemma csm : get_cseg_mosaic f i = get_cseg_mosaic f j.
  Proof.
    unfold get_cseg_mosaic. rewrite cut, mos, N. apply bind_ext. intros a. apply bind_ext. intros n. apply bind_ext. intros b. apply inplace_ext. intros k x K. apply comp.
  Qed.
  Lemma same_end : same_answers f i f j.
  Proof.
    split; [|split; [|split; [|split; [|split; [|split; [|split; [|split]]]]]]].
    - intros t _. split; [apply mos|]. split; [unfold get_cutout_list; rewrite mos; reflexivity|]. intros k _. apply cut.
    - split; [exact N|]. split.
      + unfold get_psf_list. rewrite P. apply bind_ext. intros o. apply mapM_ext_in. intros k _. apply psf.
      + unfold get_jacobian_list. rewrite chk. apply bind_ext. intros o. apply mapM_ext_in. intros k _. apply jac.
    - intros k _. split; [apply psf|]. split; [apply jac|]. split; [apply jm|]. split; [apply rc|]. split; [apply si|]. unfold get_source_path. rewrite si. reflexivity.
    - intros k _. split; [intros r; apply cw|]. split.
      { unfold get_cseg_cutout. rewrite !cut, N. apply bind_ext. intros a. apply bind_ext. intros n. cbv zeta. apply bind_ext. intros b. apply comp. }
      split; [apply interp|]. split; [|intros; apply ub]. intros ca. unfold get_cseg_weight. rewrite !cut, nc, rc. reflexivity.
    - intros r. split; [apply cwm|]. unfold get_cweight_cutout_list. rewrite cwm. reflexivity.
    - apply csm.
    - unfold get_cseg_cutout_list. rewrite csm. reflexivity.
    - unfold interpolate_coadd_seg_mosaic. rewrite mos. apply bind_ext. intros a. apply inplace_ext. intros k x K. destruct (k =? 0); [reflexivity|]. apply interp.
    - intros fuel fast. unfold get_uberseg_list. rewrite P. apply bind_ext. intros o. apply mapM_ext_in. intros k _. apply ub.
  Qed.
End End.

Lemma end_answers f j : m_number_col f = true -> 0 <= j < zlen (m_cat f) -> same_answers f (j - zlen (m_cat f)) f j.
Proof.
  intros N J. pose proof (py_from_end (m_cat f) j J) as P. apply same_end; [exact P|lia|]. unfold get_number. rewrite N, P. reflexivity.
Qed.
