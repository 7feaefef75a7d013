(** Each cutout type has its own files (C150). *)
From Coq Require Import Lia ZifyBool ZifyNat.
From Verif Require Import Base Img Types Reader MakerLayout MakerWrite MakerFile
  SpecTiles SpecLayout SpecFile SpecOwn
  BaseLemmas ImgLemmas LayoutLemmas WriteLemmas CalibLemmas FileLemmas ReadLemmas MakerLemmas MakerLemmas2 MakerLemmas3 LocalLemmas.
Open Scope Z_scope.

Lemma read_own u s1 s2 t : own_files u t s1 s2 -> read_image u s1 t = read_image u s2 t.
Proof.
  intros (B & H). unfold read_image. rewrite <- B. destruct t.
  - destruct H as (<- & <- & <-). reflexivity.
  - destruct H as (<- & <- & H). destruct u as [bad|]; [rewrite <- H by discriminate|]; reflexivity.
  - rewrite <- H. reflexivity.
  - rewrite <- H. reflexivity.
  - rewrite <- H. reflexivity.
  - rewrite <- H. reflexivity.
Qed.

Section Own.
Variables (k : mconf) (types1 types2 : list String.string) (rows1 rows2 : list imrow)
  (psf : option (list psfobj)) (input : list obj) (j1 j2 : ctype -> Z -> Q) (p : Z -> Q) (f1 f2 : medsfile).
Hypothesis M1 : make_meds k types1 rows1 psf input j1 p = Ok f1.
Hypothesis M2 : make_meds k types2 rows2 psf input j2 p = Ok f2.
Hypothesis R : same_sky rows1 rows2.

Lemma own_cat : m_cat f1 = m_cat f2 /\ m_psf f1 = m_psf f2 /\ m_psf_cols f1 = m_psf_cols f2.
Proof.
  pose proof R as EI. pose proof M1 as H1. pose proof M2 as H2. clear - EI H1 H2. unfold same_sky in EI.
  apply make_meds_inv in H1. apply make_meds_inv in H2.
  destruct H1 as (? & c1 & t1 & cat1 & tp1 & ? & q1 & _ & _ & B1 & P1 & _ & W1 & ->).
  destruct H2 as (? & c2 & t2 & cat2 & tp2 & ? & q2 & _ & _ & B2 & P2 & _ & W2 & ->).
  cbn [m_cat m_psf m_psf_cols]. rewrite EI, B2 in B1. injection B1 as -> ->. destruct psf as [ps|].
  - rewrite P1 in P2. injection P2 as -> ->. destruct W1 as (h1 & -> & W1), W2 as (h2 & -> & W2).
    rewrite W1 in W2. injection W2 as ->. auto.
  - destruct P1 as [-> _], P2 as [-> _]. subst. auto.
Qed.

Hypothesis Hb : Forall (fun o => 1 <= o_box o) input.
Hypothesis Hs1 : Forall (fun r => source_ok (ir_src r)) rows1.
Hypothesis Hs2 : Forall (fun r => source_ok (ir_src r)) rows2.

Lemma own_all : m_cat f1 = m_cat f2 /\ (forall i c, get_psf f1 i c = get_psf f2 i c) /\
  forall i c o s row1 row2 t, cutout_at f1 i c o s ->
    zget rows1 (s_file s) = Some row1 -> zget rows2 (s_file s) = Some row2 ->
    own_files (k_unusable k) t (ir_src row1) (ir_src row2) -> has_file (ir_src row1) t ->
    In t (map fst (m_ext f1)) -> In t (map fst (m_ext f2)) ->
    exists im, get_cutout f1 i c t = Ok im /\ get_cutout f2 i c t = Ok im /\ nr im = o_box o /\ nc im = o_box o.
Proof.
  split; [apply own_cat|]. split.
  { intros i c. destruct own_cat as (A & B & C). unfold get_psf, get_psf_shape, check_indices. rewrite A, B, C. reflexivity. }
  intros i c o s row1 row2 t C1 Z1 Z2 W Hf T1 T2.
  assert (C2 : cutout_at f2 i c o s) by (unfold cutout_at in *; rewrite <- (proj1 own_cat); exact C1).
  assert (Hf2 : has_file (ir_src row2) t).
  { destruct W as (_ & W). destruct t; cbn in *; try (rewrite <- W; exact Hf).
    - destruct W as (<- & _). exact Hf.
    - destruct W as (<- & _). exact Hf. }
  destruct (fill_value t) as [v|] eqn:Ev; [|destruct (written_nofill _ _ _ _ _ _ _ _ M1 _ _ _ _ _ _ T1 Ev C1 Z1 Hf)].
  destruct (written_cutout_exact _ _ _ _ _ _ _ _ Hb Hs1 M1 _ _ _ _ _ _ _ C1 T1 Ev Z1 Hf) as (im1 & I1 & I2).
  destruct (written_cutout_exact _ _ _ _ _ _ _ _ Hb Hs2 M2 _ _ _ _ _ _ _ C2 T2 Ev Z2 Hf2) as (im2 & I3 & I4).
  rewrite (read_own _ _ _ _ W), I3 in I1. injection I1 as <-.
  eexists. split; [exact I2|]. split; [exact I4|]. split; reflexivity.
Qed.
End Own.
