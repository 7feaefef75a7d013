(** Bits that are not declared unusable (C149). *)
From Coq Require Import Lia ZifyBool ZifyNat.
From Verif Require Import Base Img Types Reader BoundsM MakerLayout MakerWrite MakerFile Composite Fast3tree Uberseg SpecFile SpecBits
  BaseLemmas ImgLemmas FileLemmas MakerLemmas ScaleLemmas2.
Open Scope Z_scope.

Lemma combine_map_r {A B C D} (f : A * B -> D) (g : C -> B) (l : list A) (m : list C) :
  map f (combine l (map g m)) = map (fun q => f (fst q, g (snd q))) (combine l m).
Proof. revert m. induction l as [|x l IH]; intros [|y m]; cbn; [reflexivity..|]. rewrite IH. reflexivity. Qed.

Lemma zip_flags bad (w : img Q) (a b : img Z) : img_ok a -> img_ok b -> nr a = nr b -> nc a = nc b ->
  (forall r c x y, px a r c = Some x -> px b r c = Some y -> (Z.land x bad = 0 <-> Z.land y bad = 0)) ->
  img_zip (fun x m => if negb (Z.land m bad =? 0) then 0%Q else x) w a = img_zip (fun x m => if negb (Z.land m bad =? 0) then 0%Q else x) w b.
Proof.
  intros A B N1 N2 H. set (g := fun m => Z.land m bad =? 0).
  assert (E : imap g a = imap g b).
  { apply img_ext; [apply imap_ok; exact A|apply imap_ok; exact B|exact N1|exact N2|]. intros r c R C. cbn in R, C.
    rewrite !px_imap. destruct (px_in a r c A R C) as (x & X). destruct (px_in b r c B) as (y & Y); [lia|lia|].
    rewrite X, Y. cbn. f_equal. specialize (H _ _ _ _ X Y). unfold g. lia. }
  apply (f_equal dat) in E. cbn [dat imap] in E. unfold img_zip. rewrite N1, N2. destruct (_ && _); [|reflexivity]. do 2 f_equal.
  pose (h := fun q : Q * bool => if negb (snd q) then 0%Q else fst q).
  transitivity (map h (combine (dat w) (map g (dat a)))); [rewrite combine_map_r; reflexivity|].
  rewrite E, combine_map_r. reflexivity.
Qed.

Lemma read_bits u s1 s2 t : source_ok s1 -> source_ok s2 -> other_bits u s1 s2 -> t <> TBmask -> read_image u s1 t = read_image u s2 t.
Proof.
  intros O1 O2 (E0 & E1 & E2 & E3 & E4 & E5 & E6 & E7 & F) N. unfold read_image.
  rewrite <- E0, <- E1, <- E2, <- E3, <- E4, <- E5, <- E6, <- E7. destruct t; try reflexivity; [|destruct (N eq_refl)].
  destruct (read_path (src_bytes s1) (src_weight s1)) as [w|e]; cbn [bind]; [|reflexivity]. f_equal.
  destruct u as [bad|]; [|reflexivity]. unfold same_flagged in F.
  destruct O1 as (_ & _ & _ & _ & O1 & _), O2 as (_ & _ & _ & _ & O2 & _).
  destruct (src_bmask s1) as [| |a], (src_bmask s2) as [| |b]; try contradiction; try reflexivity. cbn [read_path bind].
  destruct w as [w|]; [|reflexivity]. destruct F as (F1 & F2 & F). rewrite (zip_flags bad w a b O1 O2 F1 F2 (F _ eq_refl)). reflexivity.
Qed.

Lemma read_bmask u s1 s2 : source_ok s1 -> source_ok s2 -> other_bits u s1 s2 ->
  both both_images (read_image u s1 TBmask) (read_image u s2 TBmask).
Proof.
  intros O1 O2 (E0 & _ & _ & _ & _ & _ & _ & _ & F). unfold read_image. rewrite <- E0.
  destruct O1 as (_ & _ & _ & _ & O1 & _), O2 as (_ & _ & _ & _ & O2 & _). unfold same_flagged in F.
  destruct (src_bmask s1) as [| |a], (src_bmask s2) as [| |b]; try contradiction; try (apply images_refl).
  cbn. destruct F as (F1 & F2 & _), O1 as (_ & _ & O1), O2 as (_ & _ & O2). split; [exact F1|]. split; [exact F2|].
  cbn. rewrite !map_length. unfold zlen in O1, O2. rewrite F1, F2 in O1. lia.
Qed.

Definition exts_but (x y : list (ctype * list Q)) : Prop :=
  Forall2 (fun a b => fst a = fst b /\ as_long (snd a) (snd b) /\ (fst a <> TBmask -> snd a = snd b)) x y.

Lemma find_but x y t : exts_but x y ->
  match ext_find x t, ext_find y t with Some a, Some b => as_long a b /\ (t <> TBmask -> a = b) | None, None => True | _, _ => False end.
Proof.
  intros H. induction H as [|[t1 a] [t2 b] x y (E & L & G) H IH]; cbn [ext_find]; [exact I|]. cbn in E, L, G. subst t2.
  destruct (ctype_eqb t1 t) eqn:T; [|exact IH]. split; [exact L|]. intros N. apply G. destruct t1, t; try discriminate; congruence.
Qed.
Lemma set_but x y t a b : exts_but x y -> as_long a b -> (t <> TBmask -> a = b) -> exts_but (ext_set x t a) (ext_set y t b).
Proof.
  intros H L G. induction H as [|[t1 c] [t2 d] x y (E & L' & G') H IH]; cbn [ext_set]; [constructor|]. cbn in E, L', G'. subst t2.
  destruct (ctype_eqb t1 t) eqn:T; constructor; cbn; auto. split; [reflexivity|]. split; [exact L|].
  intros N. apply G. destruct t1, t; try discriminate; congruence.
Qed.
Lemma but_refl x : exts_but x x.
Proof. induction x as [|[t m] x IH]; constructor; [|exact IH]. repeat split. Qed.

Lemma write_cutouts_ext fill cat n r1 r2 (h : list Q) : (forall g, 0 <= g < n -> r1 g = r2 g) ->
  write_cutouts fill cat n r1 h = write_cutouts fill cat n r2 h.
Proof.
  intros H. unfold write_cutouts. apply foldM_ext_in. intros s g G. apply In_zrange in G. rewrite (H g G). reflexivity.
Qed.

Lemma bits_types u cat rows1 rows2 types x y : bits_agree u rows1 rows2 ->
  Forall (fun r => source_ok (ir_src r)) rows1 -> Forall (fun r => source_ok (ir_src r)) rows2 -> exts_but x y ->
  both exts_but (write_types u cat (map ir_src rows1) types x) (write_types u cat (map ir_src rows2) types y).
Proof.
  intros (L & R) F1 F2 E. rewrite Forall_forall in F1, F2. unfold write_types. apply both_foldM; [|exact E]. intros s s' t _ Hs.
  pose proof (find_but _ _ t Hs) as F. destruct (ext_find s t) as [h|], (ext_find s' t) as [h'|]; try contradiction; [|exact eq_refl].
  destruct F as (F & G). eapply both_bind with (P := fun a b => as_long a b /\ (t <> TBmask -> a = b));
    [|intros b c (B1 & B2); apply set_but; assumption].
  rewrite !zlen_map, <- L.
  assert (K : forall g, 0 <= g < zlen rows1 -> exists r1 r2, source_ok (ir_src r1) /\ source_ok (ir_src r2) /\ other_bits u (ir_src r1) (ir_src r2) /\
    py_index (map ir_src rows1) g = Ok (ir_src r1) /\ py_index (map ir_src rows2) g = Ok (ir_src r2)).
  { intros g Gg. destruct (zget_range_Some rows1 g Gg) as (r1 & G1). destruct (zget_range_Some rows2 g) as (r2 & G2); [lia|].
    exists r1, r2. destruct (R _ _ _ G1 G2) as (_ & OB). split; [apply F1; eapply zget_In; exact G1|].
    split; [apply F2; eapply zget_In; exact G2|]. split; [exact OB|]. rewrite !py_index_nonneg by lia. rewrite !zget_map, G1, G2. auto. }
  assert (D : t = TBmask \/ t <> TBmask) by (destruct t; (left; reflexivity) || (right; discriminate)).
  destruct D as [->|D].
  - assert (X : both as_long (write_cutouts (default_values TBmask) cat (zlen rows1) (fun g => let* s0 := py_index (map ir_src rows1) g in read_image u s0 TBmask) h)
                 (write_cutouts (default_values TBmask) cat (zlen rows1) (fun g => let* s0 := py_index (map ir_src rows2) g in read_image u s0 TBmask) h')).
    { apply both_cutouts; [|exact F]. intros g Gg. destruct (K g Gg) as (r1 & r2 & K1 & K2 & K3 & K4 & K5). rewrite K4, K5. cbn [bind].
      apply read_bmask; assumption. }
    destruct (write_cutouts _ _ _ _ h), (write_cutouts _ _ _ _ h'); cbn in X |- *; try contradiction; [|exact X].
    split; [exact X|]. intros N. destruct (N eq_refl).
  - rewrite <- (G D).
    rewrite (write_cutouts_ext _ _ _ _ (fun g => let* s0 := py_index (map ir_src rows2) g in read_image u s0 t)).
    + destruct (write_cutouts _ _ _ _ h); cbn; [|reflexivity]. split; reflexivity.
    + intros g Gg. destruct (K g Gg) as (r1 & r2 & K1 & K2 & K3 & K4 & K5). rewrite K4, K5. cbn [bind]. apply read_bits; assumption.
Qed.

Lemma bits_images u rows1 rows2 : bits_agree u rows1 rows2 -> map ir_image rows1 = map ir_image rows2.
Proof.
  intros (L & H). apply list_zget_ext; [rewrite !zlen_map; exact L|]. intros g G. rewrite zlen_map in G. rewrite !zget_map.
  destruct (zget_range_Some rows1 g G) as (r1 & E1). destruct (zget_range_Some rows2 g) as (r2 & E2); [lia|]. rewrite E1, E2.
  destruct (H _ _ _ E1 E2) as (X & _). cbn. rewrite X. reflexivity.
Qed.

Definition files_but (f1 f2 : medsfile) : Prop :=
  m_cat f1 = m_cat f2 /\ m_number_col f1 = m_number_col f2 /\ m_psf_cols f1 = m_psf_cols f2 /\ m_psf f1 = m_psf f2 /\
  exts_but (m_ext f1) (m_ext f2).

Lemma bits_both k types rows1 rows2 psf input j p : bits_agree (k_unusable k) rows1 rows2 ->
  Forall (fun r => source_ok (ir_src r)) rows1 -> Forall (fun r => source_ok (ir_src r)) rows2 ->
  both files_but (make_meds k types rows1 psf input j p) (make_meds k types rows2 psf input j p).
Proof.
  intros R F1 F2. pose proof (bits_images _ _ _ R) as EI. pose proof (proj1 R) as L.
  unfold make_meds, new_maker. rewrite EI, L.
  destruct (set_cutout_types types) as [names|e]; cbn [bind]; [|exact eq_refl].
  destruct (mapM _ names) as [tys|e]; cbn [bind]; [|exact eq_refl].
  match goal with |- context [bind (bind ?x _) _] => destruct x as [[]|e] end; cbn [bind]; [|exact eq_refl].
  eapply both_bind with (P := fun a b => files_but (snd a) (snd b)); [|intros a b H; exact H].
  unfold write. cbn [mk_conf mk_rows mk_psf mk_cat]. unfold full_layout. rewrite EI.
  eapply both_bind; [apply both_refl|]. intros [[cat total] tp] ? <-.
  eapply both_bind with (P := files_but); [|intros ? ? H; exact H].
  unfold write_data. cbn [k_unusable k_types k_joblib k_njob k_l k_p k_number_col].
  eapply both_bind; [eapply bits_types; [exact R|exact F1|exact F2|apply but_refl]|]. intros x y E.
  eapply both_bind; [apply both_refl|]. intros q ? <-. repeat split. exact E.
Qed.

Lemma bits_outcome k types rows1 rows2 psf input j p : bits_agree (k_unusable k) rows1 rows2 ->
  Forall (fun r => source_ok (ir_src r)) rows1 -> Forall (fun r => source_ok (ir_src r)) rows2 ->
  match make_meds k types rows1 psf input j p, make_meds k types rows2 psf input j p with
  | Ok _, Ok _ => True | Err e, Err e' => e = e' | _, _ => False end.
Proof.
  intros R F1 F2. pose proof (bits_both k types rows1 rows2 psf input j p R F1 F2) as H.
  destruct (make_meds k types rows1 _ _ _ _), (make_meds k types rows2 _ _ _ _); try exact I; exact H.
Qed.

Lemma bits_same k types rows1 rows2 psf input j p f1 f2 :
  make_meds k types rows1 psf input j p = Ok f1 -> make_meds k types rows2 psf input j p = Ok f2 ->
  bits_agree (k_unusable k) rows1 rows2 ->
  Forall (fun r => source_ok (ir_src r)) rows1 -> Forall (fun r => source_ok (ir_src r)) rows2 ->
  m_cat f1 = m_cat f2 /\ (forall i c, get_psf f1 i c = get_psf f2 i c) /\
  (forall t, t <> TBmask -> ext_find (m_ext f1) t = ext_find (m_ext f2) t /\
     (forall i c, get_cutout f1 i c t = get_cutout f2 i c t) /\ (forall i, get_mosaic f1 i t = get_mosaic f2 i t)) /\
  (forall i c b, get_cweight_cutout f1 i c b = get_cweight_cutout f2 i c b) /\
  (forall fuel i c fast, get_uberseg fuel f1 i c fast = get_uberseg fuel f2 i c fast) /\
  (forall i c b, get_cseg_weight f1 i c b = get_cseg_weight f2 i c b).
Proof.
  intros M1 M2 R F1 F2. pose proof (bits_both k types rows1 rows2 psf input j p R F1 F2) as H. rewrite M1, M2 in H.
  destruct H as (C & N & PC & PS & E).
  assert (X : forall t, t <> TBmask -> ext_find (m_ext f1) t = ext_find (m_ext f2) t).
  { intros t T. pose proof (find_but _ _ t E) as F. destruct (ext_find (m_ext f1) t), (ext_find (m_ext f2) t); try contradiction; [|reflexivity].
    rewrite (proj2 F T). reflexivity. }
  assert (G : forall t, t <> TBmask -> forall i c, get_cutout f1 i c t = get_cutout f2 i c t).
  { intros t T i c. unfold get_cutout, check_indices, get_extension. rewrite C, (X t T). reflexivity. }
  assert (W : forall i c b, get_cweight_cutout f1 i c b = get_cweight_cutout f2 i c b).
  { intros i c b. unfold get_cweight_cutout, make_composite_image, get_cutout_rowcol, get_jacobian_matrix.
    rewrite (G TWeight), (G TSeg), C by discriminate. reflexivity. }
  split; [exact C|]. split; [intros i c; unfold get_psf, get_psf_shape, check_indices; rewrite C, PC, PS; reflexivity|].
  split; [|split; [exact W|split]].
  - intros t T. split; [apply X; exact T|]. split; [apply G; exact T|].
    intros i. unfold get_mosaic, check_indices, get_extension. rewrite C, (X t T). reflexivity.
  - intros fuel i c fast. unfold get_uberseg, interpolate_coadd_seg, interpolate_coadd_seg_image, number_col, get_cutout_rowcol, get_jacobian_matrix.
    rewrite W, (G TSeg), C, N by discriminate. reflexivity.
  - intros i c b. unfold get_cseg_weight, number_col, get_cutout_rowcol. rewrite (G TWeight), (G TSeg), C, N by discriminate. reflexivity.
Qed.
