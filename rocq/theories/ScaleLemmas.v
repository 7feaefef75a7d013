(** Images with other zero points (C147). *)
From Coq Require Import Lia Lqa ZifyBool ZifyNat Qfield.
From Verif Require Import Base Img Types Reader MakerLayout MakerWrite MakerFile
  SpecTiles SpecLayout SpecFile SpecScale
  BaseLemmas ImgLemmas LayoutLemmas WriteLemmas FileLemmas ReadLemmas MakerLemmas MakerLemmas2 MakerLemmas3 LocalLemmas.
Open Scope Z_scope.

Definition factor (t : ctype) (s : source) (x : Q) : Q :=
  match t with
  | TImage => (x * src_scale s)%Q
  | TWeight => (x * (1 / (src_scale s * src_scale s)))%Q
  | _ => x
  end.

Lemma imap_same {A} (im : img A) : imap (fun x => x) im = im.
Proof. destruct im as [n m d]. unfold imap. cbn. rewrite map_id. reflexivity. Qed.

Lemma read_factor u s1 s2 t im1 im2 : same_files s1 s2 ->
  read_image u s1 t = Ok (Some im1) -> read_image u s2 t = Ok (Some im2) ->
  exists base, im1 = imap (factor t s1) base /\ im2 = imap (factor t s2) base /\
    (t = TWeight -> ~ (src_scale s1 == 0)%Q /\ ~ (src_scale s2 == 0)%Q).
Proof.
  intros (E0 & E1 & E2 & E3 & E4 & E5 & E6 & E7). unfold read_image.
  rewrite <- E0, <- E1, <- E2, <- E3, <- E4, <- E5, <- E6, <- E7.
  destruct t; cbn [factor].
  - destruct (read_path (src_bytes s1) (src_image s1)) as [i|]; [|discriminate]. cbn [bind].
    destruct (read_path (src_bytes s1) (src_bkg s1)) as [b|]; [|discriminate]. cbn [bind].
    destruct i as [i|]; [|discriminate].
    match goal with |- (let* im := ?x in _) = _ -> _ => destruct x as [y|] end; cbn [bind]; [|discriminate].
    intros H1 H2. injection H1 as <-. injection H2 as <-. exists y. split; [reflexivity|]. split; [reflexivity|discriminate].
  - destruct (read_path (src_bytes s1) (src_weight s1)) as [i|]; [|discriminate]. cbn [bind].
    match goal with |- (let* im := ?x in _) = _ -> _ => destruct x as [[y|]|] end; cbn [bind]; [|discriminate..].
    destruct (Qeq_bool (src_scale s1) 0) eqn:Z1; [discriminate|]. destruct (Qeq_bool (src_scale s2) 0) eqn:Z2; [discriminate|].
    intros H1 H2. injection H1 as <-. injection H2 as <-. exists y. split; [reflexivity|]. split; [reflexivity|].
    intros _. split; intros Z; apply Qeq_bool_iff in Z; congruence.
  - intros H1 H2. rewrite H1 in H2. injection H2 as <-. exists im1. unfold factor. rewrite imap_same. split; [reflexivity|]. split; [reflexivity|discriminate].
  - intros H1 H2. rewrite H1 in H2. injection H2 as <-. exists im1. unfold factor. rewrite imap_same. split; [reflexivity|]. split; [reflexivity|discriminate].
  - intros H1 H2. rewrite H1 in H2. injection H2 as <-. exists im1. unfold factor. rewrite imap_same. split; [reflexivity|]. split; [reflexivity|discriminate].
  - intros H1 H2. rewrite H1 in H2. injection H2 as <-. exists im1. unfold factor. rewrite imap_same. split; [reflexivity|]. split; [reflexivity|discriminate].
Qed.

Lemma factor_scales t a s1 s2 x : ~ (a == 0)%Q -> (src_scale s2 == a * src_scale s1)%Q ->
  (t = TWeight -> ~ (src_scale s1 == 0)%Q /\ ~ (src_scale s2 == 0)%Q) ->
  scales_as t a (factor t s1 x) (factor t s2 x).
Proof.
  intros A E Z. destruct t; cbn; try reflexivity.
  - rewrite E. ring.
  - destruct (Z eq_refl) as (Z1 & _). rewrite E. field. auto.
Qed.

Lemma fill_scales t a v : fill_value t = Some v -> scales_as t a v v.
Proof. destruct t; cbn; intros H; try discriminate; injection H as <-; try reflexivity; ring. Qed.

Lemma crop_scales t a s1 s2 base v r c b : ~ (a == 0)%Q -> (src_scale s2 == a * src_scale s1)%Q ->
  (t = TWeight -> ~ (src_scale s1 == 0)%Q /\ ~ (src_scale s2 == 0)%Q) -> fill_value t = Some v -> 0 <= b ->
  pixelwise (fun _ _ x y => scales_as t a x y) (crop v (imap (factor t s1) base) r c b) (crop v (imap (factor t s2) base) r c b).
Proof.
  intros A E Z V B. unfold crop. split; [apply tab2_ok; lia|]. split; [reflexivity|]. split; [reflexivity|].
  intros i j x y. rewrite !px_tab2. destruct (_ && _); [|discriminate]. rewrite !px_imap.
  destruct (px base (r + i) (c + j)) as [q|]; cbn [option_map]; intros H1 H2.
  - injection H1 as <-. injection H2 as <-. apply factor_scales; assumption.
  - injection H1 as <-. injection H2 as <-. apply fill_scales. exact V.
Qed.

Lemma rescaled_images a rows1 rows2 : rescaled a rows1 rows2 -> map ir_image rows1 = map ir_image rows2.
Proof.
  intros (L & H). apply list_zget_ext; [rewrite !zlen_map; exact L|]. intros g _. rewrite !zget_map.
  destruct (zget rows1 g) as [r1|] eqn:E1, (zget rows2 g) as [r2|] eqn:E2; cbn [option_map]; try reflexivity.
  - destruct (H _ _ _ E1 E2) as (-> & _). reflexivity.
  - pose proof (zget_Some_range _ _ _ E1) as R. rewrite L in R. destruct (zget_range_Some rows2 g R) as (? & ?). congruence.
  - pose proof (zget_Some_range _ _ _ E2) as R. rewrite <- L in R. destruct (zget_range_Some rows1 g R) as (? & ?). congruence.
Qed.

Section Scale.
Variables (k : mconf) (types1 types2 : list String.string) (rows1 rows2 : list imrow) (a : Z -> Q)
  (psf : option (list psfobj)) (input : list obj) (j1 j2 : ctype -> Z -> Q) (p : Z -> Q) (f1 f2 : medsfile).
Hypothesis M1 : make_meds k types1 rows1 psf input j1 p = Ok f1.
Hypothesis M2 : make_meds k types2 rows2 psf input j2 p = Ok f2.
Hypothesis R : rescaled a rows1 rows2.

Lemma scale_cat : m_cat f1 = m_cat f2 /\ m_psf f1 = m_psf f2 /\ m_psf_cols f1 = m_psf_cols f2.
Proof.
  pose proof (rescaled_images _ _ _ R) as EI. pose proof M1 as H1. pose proof M2 as H2. clear - EI H1 H2.
  apply make_meds_inv in H1. apply make_meds_inv in H2.
  destruct H1 as (? & c1 & t1 & cat1 & tp1 & ? & q1 & _ & _ & B1 & P1 & _ & W1 & ->).
  destruct H2 as (? & c2 & t2 & cat2 & tp2 & ? & q2 & _ & _ & B2 & P2 & _ & W2 & ->).
  cbn [m_cat m_psf m_psf_cols]. rewrite EI, B2 in B1. injection B1 as -> ->. destruct psf as [ps|].
  - rewrite P1 in P2. injection P2 as -> ->. destruct W1 as (h1 & -> & W1), W2 as (h2 & -> & W2).
    rewrite W1 in W2. injection W2 as ->. auto.
  - destruct P1 as [-> _], P2 as [-> _]. subst. auto.
Qed.

Lemma scale_psf i c : get_psf f1 i c = get_psf f2 i c.
Proof.
  destruct scale_cat as (A & B & C). unfold get_psf, get_psf_shape, check_indices. rewrite A, B, C. reflexivity.
Qed.

Hypothesis Hb : Forall (fun o => 1 <= o_box o) input.
Hypothesis Hs : Forall (fun r => source_ok (ir_src r)) rows1.

Lemma scale_ok : Forall (fun r => source_ok (ir_src r)) rows2.
Proof.
  apply Forall_forall. intros r2 I. apply In_zget in I. destruct I as (g & G2).
  pose proof (zget_Some_range _ _ _ G2) as X. rewrite <- (proj1 R) in X. destruct (zget_range_Some rows1 g X) as (r1 & G1).
  destruct (proj2 R _ _ _ G1 G2) as (_ & (_ & E1 & E2 & E3 & E4 & E5 & E6 & E7) & _).
  rewrite Forall_forall in Hs. pose proof (Hs _ (zget_In _ _ _ G1)) as O. unfold source_ok in *.
  rewrite <- E1, <- E2, <- E3, <- E4, <- E5, <- E6, <- E7. exact O.
Qed.

Lemma scale_pixels i c o s row t : cutout_at f1 i c o s -> zget rows1 (s_file s) = Some row -> has_file (ir_src row) t ->
  In t (map fst (m_ext f1)) -> In t (map fst (m_ext f2)) ->
  exists im1 im2, get_cutout f1 i c t = Ok im1 /\ get_cutout f2 i c t = Ok im2 /\
    nr im1 = o_box o /\ nc im1 = o_box o /\
    pixelwise (fun _ _ x y => scales_as t (a (s_file s)) x y) im1 im2.
Proof.
  intros C1 Z1 Hf T1 T2.
  assert (C2 : cutout_at f2 i c o s) by (unfold cutout_at in *; rewrite <- (proj1 scale_cat); exact C1).
  pose proof (zget_Some_range _ _ _ Z1) as X. rewrite (proj1 R) in X. destruct (zget_range_Some rows2 _ X) as (r2 & Z2).
  destruct (proj2 R _ _ _ Z1 Z2) as (_ & SF & A0 & EA).
  assert (Hf2 : has_file (ir_src r2) t).
  { destruct SF as (_ & E1 & E2 & E3 & E4 & E5 & E6 & E7).
    destruct t; cbn in *; rewrite <- ?E1, <- ?E3, <- ?E4, <- ?E5, <- ?E6, <- ?E7; exact Hf. }
  destruct (fill_value t) as [v|] eqn:Ev; [|destruct (written_nofill _ _ _ _ _ _ _ _ M1 _ _ _ _ _ _ T1 Ev C1 Z1 Hf)].
  destruct (written_cutout_exact _ _ _ _ _ _ _ _ Hb Hs M1 _ _ _ _ _ _ _ C1 T1 Ev Z1 Hf) as (im1 & I1 & I2).
  destruct (written_cutout_exact _ _ _ _ _ _ _ _ Hb scale_ok M2 _ _ _ _ _ _ _ C2 T2 Ev Z2 Hf2) as (im2 & I3 & I4).
  destruct (read_factor _ _ _ _ _ _ SF I1 I3) as (base & -> & -> & NZ).
  assert (B : 0 <= o_box o).
  { pose proof (written_file_wf _ _ _ _ _ _ _ _ Hb M1) as W. destruct W as [W _]. rewrite Forall_forall in W.
    destruct C1 as (G & _). specialize (W o (zget_In _ _ _ G)). cbn in W. lia. }
  do 2 eexists. split; [exact I2|]. split; [exact I4|]. split; [reflexivity|]. split; [reflexivity|].
  apply crop_scales; assumption.
Qed.

Lemma scale_all : m_cat f1 = m_cat f2 /\ (forall i c, get_psf f1 i c = get_psf f2 i c) /\
  forall i c o s row t, cutout_at f1 i c o s -> zget rows1 (s_file s) = Some row -> has_file (ir_src row) t ->
    In t (map fst (m_ext f1)) -> In t (map fst (m_ext f2)) ->
    exists im1 im2, get_cutout f1 i c t = Ok im1 /\ get_cutout f2 i c t = Ok im2 /\
      nr im1 = o_box o /\ nc im1 = o_box o /\
      pixelwise (fun _ _ x y => scales_as t (a (s_file s)) x y) im1 im2.
Proof. split; [apply scale_cat|]. split; [exact scale_psf|exact scale_pixels]. Qed.

Lemma scale_significance i c o s row im1 wt1 im2 wt2 r q x1 w1 x2 w2 :
  cutout_at f1 i c o s -> zget rows1 (s_file s) = Some row -> has_file (ir_src row) TImage -> has_file (ir_src row) TWeight ->
  get_cutout f1 i c TImage = Ok im1 -> get_cutout f1 i c TWeight = Ok wt1 ->
  get_cutout f2 i c TImage = Ok im2 -> get_cutout f2 i c TWeight = Ok wt2 ->
  In TImage (map fst (m_ext f1)) -> In TImage (map fst (m_ext f2)) ->
  In TWeight (map fst (m_ext f1)) -> In TWeight (map fst (m_ext f2)) ->
  px im1 r q = Some x1 -> px wt1 r q = Some w1 -> px im2 r q = Some x2 -> px wt2 r q = Some w2 ->
  (x1 * x1 * w1 == x2 * x2 * w2)%Q.
Proof.
  intros C Z F1 F2 G1 G2 G3 G4 T1 T2 T3 T4 P1 P2 P3 P4.
  destruct (scale_pixels _ _ _ _ _ _ C Z F1 T1 T2) as (a1 & a2 & A1 & A2 & _ & _ & _ & _ & _ & A).
  destruct (scale_pixels _ _ _ _ _ _ C Z F2 T3 T4) as (b1 & b2 & B1 & B2 & _ & _ & _ & _ & _ & B).
  rewrite G1 in A1. injection A1 as <-. rewrite G3 in A2. injection A2 as <-.
  rewrite G2 in B1. injection B1 as <-. rewrite G4 in B2. injection B2 as <-.
  specialize (A _ _ _ _ P1 P3). specialize (B _ _ _ _ P2 P4). cbn in A, B. rewrite A, <- B. ring.
Qed.
End Scale.
