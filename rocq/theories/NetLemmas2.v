(** Backgrounds taken off before: both files can be made or neither (C148). *)
From Coq Require Import Lia ZifyBool ZifyNat.
From Verif Require Import Base Img Types Reader MakerLayout MakerWrite MakerFile SpecFile SpecNet
  BaseLemmas ImgLemmas CalibLemmas ScaleLemmas2 NetLemmas.
Open Scope Z_scope.

Lemma read_usable u s : source_ok s -> bkg_usable s -> forall raw, src_image s = PFile raw ->
  exists im, read_image u s TImage = Ok (Some im).
Proof.
  intros O B raw E. unfold read_image. rewrite E. cbn [read_path bind]. unfold bkg_usable in B.
  destruct (src_bkg s) as [| |bk]; cbn [read_path bind].
  - eauto.
  - rewrite B. cbn. eauto.
  - destruct B as (r & R & N1 & N2). rewrite E in R. injection R as <-. unfold img_zip.
    rewrite N1, N2, !Z.eqb_refl. cbn. eauto.
Qed.

Lemma equal_alike a b : img_ok a -> img_ok b -> equal_images a b -> alike a b.
Proof. intros [_ [_ A]] [_ [_ B]] (E1 & E2 & _). unfold alike. split; [exact E1|]. split; [exact E2|]. unfold zlen in A, B. rewrite E1, E2 in A. lia. Qed.

Lemma both_net u s1 s2 t : source_ok s1 -> source_ok s2 -> same_net s1 s2 -> bkg_usable s1 -> bkg_usable s2 ->
  both both_images (read_image u s1 t) (read_image u s2 t).
Proof.
  intros O1 O2 N B1 B2. pose proof N as (E0 & E1 & E2 & E3 & E4 & E5 & E6 & raw1 & raw2 & W1 & W2 & _). destruct t.
  - destruct (read_usable u _ O1 B1 _ W1) as (i1 & I1). destruct (read_usable u _ O2 B2 _ W2) as (i2 & I2). rewrite I1, I2. cbn.
    pose proof (read_image_calibrated _ _ _ _ O1 I1) as (_ & _ & A1 & _). pose proof (read_image_calibrated _ _ _ _ O2 I2) as (_ & _ & A2 & _).
    apply equal_alike; [exact A1|exact A2|]. exact (read_net u s1 s2 TImage _ _ O1 O2 N I1 I2).
  - unfold read_image. rewrite <- E0, <- E1, <- E3, <- E6. apply images_refl.
  - unfold read_image. rewrite <- E0, <- E2. apply images_refl.
  - unfold read_image. rewrite <- E0, <- E3. apply images_refl.
  - unfold read_image. rewrite <- E0, <- E4. apply images_refl.
  - unfold read_image. rewrite <- E0, <- E5. apply images_refl.
Qed.

Lemma net_types u cat rows1 rows2 types x y : nets_agree rows1 rows2 ->
  Forall (fun r => source_ok (ir_src r) /\ bkg_usable (ir_src r)) rows1 ->
  Forall (fun r => source_ok (ir_src r) /\ bkg_usable (ir_src r)) rows2 -> exts_alike x y ->
  both exts_alike (write_types u cat (map ir_src rows1) types x) (write_types u cat (map ir_src rows2) types y).
Proof.
  intros (L & R) F1 F2 E. unfold write_types. apply both_foldM; [|exact E]. intros s s' t _ Hs.
  pose proof (find_alike _ _ t Hs) as F. destruct (ext_find s t) as [h|], (ext_find s' t) as [h'|]; try contradiction; [|exact eq_refl].
  eapply both_bind; [|intros b c Hbc; apply set_alike; [exact Hs|exact Hbc]].
  rewrite !zlen_map, <- L. apply both_cutouts; [|exact F]. intros g G.
  destruct (zget_range_Some rows1 g G) as (r1 & G1). destruct (zget_range_Some rows2 g) as (r2 & G2); [lia|].
  destruct (R _ _ _ G1 G2) as (_ & SN). rewrite !py_index_nonneg by lia. rewrite !zget_map, G1, G2. cbn [option_map bind].
  rewrite Forall_forall in F1, F2. destruct (F1 _ (zget_In _ _ _ G1)) as (? & ?). destruct (F2 _ (zget_In _ _ _ G2)) as (? & ?).
  apply both_net; assumption.
Qed.

Lemma net_outcome k types rows1 rows2 psf input j1 j2 p : nets_agree rows1 rows2 ->
  Forall (fun r => source_ok (ir_src r) /\ bkg_usable (ir_src r)) rows1 ->
  Forall (fun r => source_ok (ir_src r) /\ bkg_usable (ir_src r)) rows2 ->
  match make_meds k types rows1 psf input j1 p, make_meds k types rows2 psf input j2 p with
  | Ok _, Ok _ => True | Err e, Err e' => e = e' | _, _ => False end.
Proof.
  intros R F1 F2. pose proof (net_images _ _ R) as EI. pose proof (proj1 R) as L.
  change (both (fun _ _ => True) (make_meds k types rows1 psf input j1 p) (make_meds k types rows2 psf input j2 p)).
  unfold make_meds, new_maker. rewrite EI, L.
  destruct (set_cutout_types types) as [names|e]; cbn [bind]; [|exact eq_refl].
  destruct (mapM _ names) as [tys|e]; cbn [bind]; [|exact eq_refl].
  match goal with |- context [bind (bind ?x _) _] => destruct x as [[]|e] end; cbn [bind]; [|exact eq_refl].
  eapply both_bind with (P := fun _ _ => True); [|intros [? ?] [? ?] _; exact I].
  unfold write. cbn [mk_conf mk_rows mk_psf mk_cat]. unfold full_layout. rewrite EI.
  eapply both_bind; [apply both_refl|]. intros [[cat total] tp] ? <-.
  eapply both_bind with (P := fun _ _ => True); [|intros ? ? _; exact I].
  unfold write_data. cbn [k_unusable k_types k_joblib k_njob k_l k_p k_number_col].
  eapply both_bind; [eapply net_types; [exact R|exact F1|exact F2|apply reserve_alike]|]. intros x y _.
  eapply both_bind; [apply both_refl|]. intros q ? <-. exact I.
Qed.
