(** Each cutout type has its own files: whole extensions (C150). *)
From Coq Require Import Lia ZifyBool ZifyNat.
From Verif Require Import Base Img Types Reader BoundsM MakerLayout MakerWrite MakerFile Composite Fast3tree Uberseg SpecFile SpecOwn
  BaseLemmas ImgLemmas FileLemmas FailLemmas2 OwnLemmas BitsLemmas.
Open Scope Z_scope.

Lemma types_own u cat rows1 rows2 t : zlen rows1 = zlen rows2 -> all_own u t rows1 rows2 ->
  forall types x y x' y', write_types u cat (map ir_src rows1) types x = Ok x' ->
  write_types u cat (map ir_src rows2) types y = Ok y' -> ext_find x t = ext_find y t -> ext_find x' t = ext_find y' t.
Proof.
  intros L A. induction types as [|t0 types IH]; intros x y x' y' H1 H2 E; rewrite !write_types_eq in *; cbn [foldM] in H1, H2.
  - injection H1 as <-. injection H2 as <-. exact E.
  - apply bind_ok in H1. destruct H1 as (x1 & X & H1). apply bind_ok in H2. destruct H2 as (y1 & Y & H2).
    refine (IH _ _ _ _ H1 H2 _). destruct (ctype_eq_dec t0 t) as [->|N].
    + unfold one_type in X, Y. rewrite <- E in Y. destruct (ext_find x t) as [h|] eqn:F; [|discriminate].
      apply bind_ok in X. destruct X as (a & X & X'). apply bind_ok in Y. destruct Y as (b & Y & Y').
      injection X' as <-. injection Y' as <-. rewrite !ext_set_find, F, <- E, ctype_eqb_refl. f_equal.
      rewrite !zlen_map, <- L in *. rewrite (write_cutouts_ext _ _ _ _ (fun g => let* s0 := py_index (map ir_src rows2) g in read_image u s0 t)) in X.
      * congruence.
      * intros g G. destruct (zget_range_Some rows1 g G) as (r1 & G1). destruct (zget_range_Some rows2 g) as (r2 & G2); [lia|].
        rewrite !py_index_nonneg by lia. rewrite !zget_map, G1, G2. cbn [option_map bind]. apply read_own. eapply A; eassumption.
    + rewrite (one_type_other _ _ _ _ _ _ _ X), (one_type_other _ _ _ _ _ _ _ Y) by congruence. exact E.
Qed.

Lemma own_extension k types rows1 rows2 psf input j1 j2 p f1 f2 t :
  make_meds k types rows1 psf input j1 p = Ok f1 -> make_meds k types rows2 psf input j2 p = Ok f2 ->
  same_sky rows1 rows2 -> all_own (k_unusable k) t rows1 rows2 -> (forall q, j1 t q = j2 t q) ->
  ext_find (m_ext f1) t = ext_find (m_ext f2) t /\
  (forall i c, get_cutout f1 i c t = get_cutout f2 i c t) /\ (forall i, get_mosaic f1 i t = get_mosaic f2 i t).
Proof.
  intros M1 M2 R A J. destruct (own_cat _ _ _ _ _ _ _ _ _ _ _ _ M1 M2 R) as (C & _).
  assert (X : ext_find (m_ext f1) t = ext_find (m_ext f2) t).
  { pose proof C as C'. revert C'. pose proof (f_equal zlen R) as L. rewrite !zlen_map in L. unfold same_sky in R.
    apply make_meds_inv in M1. apply make_meds_inv in M2.
    destruct M1 as (tys1 & c1 & t1 & cat1 & tp1 & ? & q1 & T1 & _ & B1 & _ & W1 & _ & ->).
    destruct M2 as (tys2 & c2 & t2 & cat2 & tp2 & ? & q2 & T2 & _ & B2 & _ & W2 & _ & ->).
    cbn [m_cat m_ext]. intros ->. rewrite R, B2 in B1. injection B1 as <- <-.
    assert (T : tys1 = tys2) by (destruct T1 as (n1 & N1 & T1), T2 as (n2 & N2 & T2); congruence). subst tys2.
    eapply types_own; [exact L|exact A|exact W1|exact W2|].
    unfold reserve. clear - J. induction tys1 as [|t0 l IH]; cbn [map ext_find]; [reflexivity|].
    destruct (ctype_eqb t0 t) eqn:E; [|exact IH]. apply ctype_eqb_eq in E. subst t0. f_equal. apply map_ext. exact J. }
  split; [exact X|]. split.
  - intros i c. unfold get_cutout, check_indices, get_extension. rewrite C, X. reflexivity.
  - intros i. unfold get_mosaic, check_indices, get_extension. rewrite C, X. reflexivity.
Qed.

Lemma own_masked k types1 types2 rows1 rows2 psf input j1 j2 p f1 f2 :
  make_meds k types1 rows1 psf input j1 p = Ok f1 -> make_meds k types2 rows2 psf input j2 p = Ok f2 ->
  same_sky rows1 rows2 ->
  Forall (fun o => 1 <= o_box o) input -> Forall (fun r => source_ok (ir_src r)) rows1 ->
  Forall (fun r => source_ok (ir_src r)) rows2 ->
  (forall t, t = TWeight \/ t = TSeg -> In t (map fst (m_ext f1)) /\ In t (map fst (m_ext f2))) ->
  forall i c o s s0 r1 r2 g1 g2, cutout_at f1 i c o s -> cutout_at f1 i 0 o s0 ->
  zget rows1 (s_file s) = Some r1 -> zget rows2 (s_file s) = Some r2 ->
  zget rows1 (s_file s0) = Some g1 -> zget rows2 (s_file s0) = Some g2 ->
  own_files (k_unusable k) TWeight (ir_src r1) (ir_src r2) -> has_file (ir_src r1) TWeight ->
  own_files (k_unusable k) TSeg (ir_src g1) (ir_src g2) -> has_file (ir_src g1) TSeg ->
  (forall b, get_cweight_cutout f1 i c b = get_cweight_cutout f2 i c b) /\
  interpolate_coadd_seg f1 i c = interpolate_coadd_seg f2 i c /\
  (forall fuel fast, get_uberseg fuel f1 i c fast = get_uberseg fuel f2 i c fast).
Proof.
  intros M1 M2 R Hb H1 H2 HT i c o s s0 r1 r2 g1 g2 C1 C0 Z1 Z2 Y1 Y2 OW FW OS FS.
  destruct (HT TWeight (or_introl eq_refl)) as (Tw1 & Tw2). destruct (HT TSeg (or_intror eq_refl)) as (Tg1 & Tg2).
  destruct (own_all _ _ _ _ _ _ _ _ _ _ _ _ M1 M2 R Hb H1 H2) as (C & _ & PX).
  assert (N : m_number_col f1 = m_number_col f2).
  { clear - M1 M2. apply make_meds_inv in M1. apply make_meds_inv in M2.
    destruct M1 as (? & ? & ? & ? & ? & ? & ? & _ & _ & _ & _ & _ & _ & ->). destruct M2 as (? & ? & ? & ? & ? & ? & ? & _ & _ & _ & _ & _ & _ & ->). reflexivity. }
  destruct (PX _ _ _ _ _ _ _ C1 Z1 Z2 OW FW Tw1 Tw2) as (w & W1 & W2 & _).
  destruct (PX _ _ _ _ _ _ _ C0 Y1 Y2 OS FS Tg1 Tg2) as (g & G1 & G2 & _).
  assert (W : forall b, get_cweight_cutout f1 i c b = get_cweight_cutout f2 i c b).
  { intros b. unfold get_cweight_cutout, make_composite_image, get_cutout_rowcol, get_jacobian_matrix. rewrite W1, W2, G1, G2, C. reflexivity. }
  assert (S : interpolate_coadd_seg f1 i c = interpolate_coadd_seg f2 i c).
  { unfold interpolate_coadd_seg, interpolate_coadd_seg_image, get_cutout_rowcol, get_jacobian_matrix. rewrite G1, G2, C. reflexivity. }
  split; [exact W|]. split; [exact S|]. intros fuel fast. unfold get_uberseg, number_col. rewrite W, S, C, N. reflexivity.
Qed.
