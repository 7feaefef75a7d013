(** Backgrounds taken off before (C148). *)
From Coq Require Import Lia ZifyBool ZifyNat.
From Verif Require Import Base Img Types Reader MakerLayout MakerWrite MakerFile
  SpecTiles SpecLayout SpecFile SpecNet
  BaseLemmas ImgLemmas LayoutLemmas WriteLemmas CalibLemmas FileLemmas ReadLemmas MakerLemmas MakerLemmas2 MakerLemmas3 LocalLemmas.
Open Scope Z_scope.

Lemma pixel_there {A} (im : img A) r c : img_ok im -> 0 <= r < nr im -> 0 <= c < nc im -> exists x, px im r c = Some x.
Proof. intros H R C. destruct (px im r c) eqn:E; [eauto|]. destruct (px_in im r c H R C) as (x & X). congruence. Qed.

(** Equal shapes and equal pixels. *)
Definition equal_images (a b : img Q) : Prop :=
  nr a = nr b /\ nc a = nc b /\ forall r c, match px a r c, px b r c with Some x, Some y => (x == y)%Q | None, None => True | _, _ => False end.
Lemma equal_refl a : equal_images a a.
Proof. repeat split. intros r c. destruct (px a r c); [reflexivity|exact I]. Qed.

Lemma read_net u s1 s2 t im1 im2 : source_ok s1 -> source_ok s2 -> same_net s1 s2 ->
  read_image u s1 t = Ok (Some im1) -> read_image u s2 t = Ok (Some im2) -> equal_images im1 im2.
Proof.
  intros O1 O2 (E0 & E1 & E2 & E3 & E4 & E5 & E6 & raw1 & raw2 & W1 & W2 & N1 & N2 & D) R1 R2. destruct t.
  - pose proof (read_image_calibrated _ _ _ _ O1 R1) as (x1 & X1 & A1 & A2 & A3 & A).
    pose proof (read_image_calibrated _ _ _ _ O2 R2) as (x2 & X2 & B1 & B2 & B3 & B).
    rewrite W1 in X1. injection X1 as <-. rewrite W2 in X2. injection X2 as <-.
    assert (K1 : img_ok raw1) by (destruct O1 as (O1 & _); rewrite W1 in O1; exact O1).
    assert (K2 : img_ok raw2) by (destruct O2 as (O2 & _); rewrite W2 in O2; exact O2).
    split; [congruence|]. split; [congruence|]. intros r c.
    destruct (px im1 r c) as [x|] eqn:P1.
    + pose proof (px_Some_range _ _ _ _ P1) as G.
      destruct (pixel_there im2 r c B1) as (y & P2); [lia|lia|]. rewrite P2.
      destruct (pixel_there raw1 r c K1) as (u1 & U1); [lia|lia|]. destruct (pixel_there raw2 r c K2) as (u2 & U2); [lia|lia|].
      destruct (A _ _ _ _ U1 P1) as (b1 & G1 & ->). destruct (B _ _ _ _ U2 P2) as (b2 & G2 & ->).
      rewrite (D _ _ _ _ _ _ U1 U2 G1 G2), E6. reflexivity.
    + destruct (px im2 r c) as [y|] eqn:P2; [|exact I]. pose proof (px_Some_range _ _ _ _ P2) as G.
      destruct (pixel_there im1 r c A1) as (x & X); [lia|lia|]. congruence.
  - unfold read_image in R1, R2. rewrite <- E0, <- E1, <- E3, <- E6 in R2. rewrite R1 in R2. injection R2 as <-. apply equal_refl.
  - unfold read_image in R1, R2. rewrite <- E0, <- E2 in R2. rewrite R1 in R2. injection R2 as <-. apply equal_refl.
  - unfold read_image in R1, R2. rewrite <- E0, <- E3 in R2. rewrite R1 in R2. injection R2 as <-. apply equal_refl.
  - unfold read_image in R1, R2. rewrite <- E0, <- E4 in R2. rewrite R1 in R2. injection R2 as <-. apply equal_refl.
  - unfold read_image in R1, R2. rewrite <- E0, <- E5 in R2. rewrite R1 in R2. injection R2 as <-. apply equal_refl.
Qed.

Lemma crop_equal v a b r c n : 0 <= n -> equal_images a b ->
  pixelwise (fun _ _ x y => (x == y)%Q) (crop v a r c n) (crop v b r c n).
Proof.
  intros N (_ & _ & H). unfold crop. split; [apply tab2_ok; lia|]. split; [reflexivity|]. split; [reflexivity|].
  intros i j x y. rewrite !px_tab2. destruct (_ && _); [|discriminate]. intros H1 H2. injection H1 as <-. injection H2 as <-.
  specialize (H (r + i) (c + j)). destruct (px a (r + i) (c + j)), (px b (r + i) (c + j)); try contradiction; [exact H|reflexivity].
Qed.

Lemma net_images rows1 rows2 : nets_agree rows1 rows2 -> map ir_image rows1 = map ir_image rows2.
Proof.
  intros (L & H). apply list_zget_ext; [rewrite !zlen_map; exact L|]. intros g G. rewrite zlen_map in G. rewrite !zget_map.
  destruct (zget_range_Some rows1 g G) as (r1 & E1). destruct (zget_range_Some rows2 g) as (r2 & E2); [lia|]. rewrite E1, E2.
  destruct (H _ _ _ E1 E2) as (X & _). cbn. rewrite X. reflexivity.
Qed.

Section Net.
Variables (k : mconf) (types1 types2 : list String.string) (rows1 rows2 : list imrow)
  (psf : option (list psfobj)) (input : list obj) (j1 j2 : ctype -> Z -> Q) (p : Z -> Q) (f1 f2 : medsfile).
Hypothesis M1 : make_meds k types1 rows1 psf input j1 p = Ok f1.
Hypothesis M2 : make_meds k types2 rows2 psf input j2 p = Ok f2.
Hypothesis R : nets_agree rows1 rows2.

Lemma net_cat : m_cat f1 = m_cat f2 /\ m_psf f1 = m_psf f2 /\ m_psf_cols f1 = m_psf_cols f2.
Proof.
  pose proof (net_images _ _ R) as EI. pose proof M1 as H1. pose proof M2 as H2. clear - EI H1 H2.
  apply make_meds_inv in H1. apply make_meds_inv in H2.
  destruct H1 as (? & c1 & t1 & cat1 & tp1 & ? & q1 & _ & _ & B1 & P1 & _ & W1 & ->).
  destruct H2 as (? & c2 & t2 & cat2 & tp2 & ? & q2 & _ & _ & B2 & P2 & _ & W2 & ->).
  cbn [m_cat m_psf m_psf_cols]. rewrite EI, B2 in B1. injection B1 as -> ->. destruct psf as [ps|].
  - rewrite P1 in P2. injection P2 as -> ->. destruct W1 as (h1 & -> & W1), W2 as (h2 & -> & W2).
    rewrite W1 in W2. injection W2 as ->. auto.
  - destruct P1 as [-> _], P2 as [-> _]. subst. auto.
Qed.

Hypothesis Hb : Forall (fun o => 1 <= o_box o) input.
Hypothesis Hs1 : Forall (fun r => source_ok (ir_src r)) rows1.
Hypothesis Hs2 : Forall (fun r => source_ok (ir_src r)) rows2.

Lemma net_all : m_cat f1 = m_cat f2 /\ (forall i c, get_psf f1 i c = get_psf f2 i c) /\
  forall i c o s row t, cutout_at f1 i c o s -> zget rows1 (s_file s) = Some row -> has_file (ir_src row) t ->
    In t (map fst (m_ext f1)) -> In t (map fst (m_ext f2)) ->
    exists im1 im2, get_cutout f1 i c t = Ok im1 /\ get_cutout f2 i c t = Ok im2 /\
      nr im1 = o_box o /\ nc im1 = o_box o /\ pixelwise (fun _ _ x y => (x == y)%Q) im1 im2.
Proof.
  split; [apply net_cat|]. split.
  { intros i c. destruct net_cat as (A & B & C). unfold get_psf, get_psf_shape, check_indices. rewrite A, B, C. reflexivity. }
  intros i c o s row t C1 Z1 Hf T1 T2.
  assert (C2 : cutout_at f2 i c o s) by (unfold cutout_at in *; rewrite <- (proj1 net_cat); exact C1).
  pose proof (zget_Some_range _ _ _ Z1) as X. rewrite (proj1 R) in X. destruct (zget_range_Some rows2 _ X) as (r2 & Z2).
  destruct (proj2 R _ _ _ Z1 Z2) as (_ & SN).
  assert (Hf2 : has_file (ir_src r2) t).
  { destruct SN as (_ & E1 & E2 & E3 & E4 & E5 & _ & ? & raw & _ & W & _).
    destruct t; cbn in *; rewrite <- ?E1, <- ?E2, <- ?E3, <- ?E4, <- ?E5; eauto. }
  destruct (fill_value t) as [v|] eqn:Ev; [|destruct (written_nofill _ _ _ _ _ _ _ _ M1 _ _ _ _ _ _ T1 Ev C1 Z1 Hf)].
  destruct (written_cutout_exact _ _ _ _ _ _ _ _ Hb Hs1 M1 _ _ _ _ _ _ _ C1 T1 Ev Z1 Hf) as (im1 & I1 & I2).
  destruct (written_cutout_exact _ _ _ _ _ _ _ _ Hb Hs2 M2 _ _ _ _ _ _ _ C2 T2 Ev Z2 Hf2) as (im2 & I3 & I4).
  assert (B : 0 <= o_box o).
  { pose proof (written_file_wf _ _ _ _ _ _ _ _ Hb M1) as W. destruct W as [W _]. rewrite Forall_forall in W.
    destruct C1 as (G & _). specialize (W o (zget_In _ _ _ G)). cbn in W. lia. }
  do 2 eexists. split; [exact I2|]. split; [exact I4|]. split; [reflexivity|]. split; [reflexivity|].
  apply crop_equal; [exact B|]. rewrite Forall_forall in Hs1, Hs2.
  eapply read_net; [apply Hs1; eapply zget_In; exact Z1|apply Hs2; eapply zget_In; exact Z2|exact SN|exact I1|exact I3].
Qed.
End Net.
