(** Typed files: the claims about image and weight cutouts. *)
From Coq Require Import Lia ZifyBool ZifyNat Lqa Qround Qpower Qabs String.
From Verif Require Import Base BaseLemmas Img ImgLemmas Types BoundsM Reader MakerLayout MakerWrite MakerFile Single SingleLemmas
  SpecTiles SpecLayout SpecFile StampLemmas WriteLemmas FileLemmas MakerLemmas MakerLemmas6
  Typed SpecTyped TypedLemmas TypedLemmas2 TypedLemmas3 TypedLemmas4 TypedLemmas5 TypedLemmas6.
Open Scope Z_scope.

Lemma fill_float R t k v : t = TImage \/ t = TWeight -> fill_typed R t k = Ok v -> exists d, k = KF d /\ v = NF (Fin 0).
Proof. intros [->| ->] H; cbn in H; destruct k; try discriminate; apply ok_inj in H; subst; eauto. Qed.

(** The cutout read, in terms of the array read from the source. *)
Lemma typed_pixel R ub c u kinds types rows input junk f : Forall (fun o => 1 <= o_box o) input -> Forall (fun r => tsource_ok (tr_src r)) rows ->
  make_typed R ub c u kinds types rows input junk = Ok f ->
  forall iobj icut o s t row a, stored f iobj icut o s -> tf_ext f t <> None -> zget rows (s_file s) = Some row ->
    tfile_of (tr_src row) t = QFile a ->
    exists a' v cut, read_typed R ub u (tr_src row) t = Ok (Some a') /\ fill_typed R t (kinds t) = Ok v /\ get_cutout_typed f iobj icut t = Ok cut /\
      nr cut = o_box o /\ nc cut = o_box o /\ img_ok cut /\ nr (a_im a') = nr (a_im a) /\ nc (a_im a') = nc (a_im a) /\ img_ok (a_im a') /\
      forall r k, 0 <= r < o_box o -> 0 <= k < o_box o ->
        px cut r k = Some (match px (a_im a') (s_osr s + r) (s_osc s + k) with Some x => conv ub (kinds t) x | None => v end).
Proof.
  intros Hb Hs H iobj icut o s t row a St Ht Hrow Hf.
  assert (Hsr : tsource_ok (tr_src row)) by (rewrite Forall_forall in Hs; apply Hs; eapply zget_In; exact Hrow).
  pose proof (make_typed_cat _ _ _ _ _ _ _ _ _ _ Hb H) as Hw.
  assert (Hbox : 0 < o_box o) by (destruct St as (Ho & _); rewrite Forall_forall in Hw; apply (Hw o (zget_In _ _ _ Ho))).
  destruct (make_typed_ext _ _ _ _ _ _ _ _ _ _ Hb Hs H) as (tys & T1 & T2 & T3).
  destruct (T3 t row (proj2 (T2 t) Ht) (zget_In _ _ _ Hrow)) as (oa & Ho).
  assert (exists a', oa = Some a' /\ nr (a_im a') = nr (a_im a) /\ nc (a_im a') = nc (a_im a)) as (a' & -> & E1 & E2).
  { destruct Hsr as (S1 & S2 & S3 & S4 & S5 & S6 & S7 & _). destruct t; cbn [tfile_of read_typed] in *; rewrite Hf in *; cbn [read_tpath bind] in Ho; try (apply ok_inj in Ho; subst oa; eauto; fail).
    - apply bind_ok in Ho. destruct Ho as (bk & B1 & Ho). apply bind_ok in Ho. destruct Ho as (i1 & B2 & Ho). apply bind_ok in Ho. destruct Ho as (i2 & B3 & Ho). apply ok_inj in Ho. subst oa.
      exists i2. split; [reflexivity|]. assert (img_ok (a_im i1) /\ nr (a_im i1) = nr (a_im a) /\ nc (a_im i1) = nc (a_im a)) as (I1 & I2 & I3).
      { destruct bk as [b|]; [|apply ok_inj in B2; subst i1; split; [apply S1|auto]]. destruct (read_tpath_ok _ _ _ S2 B1) as (Bo & _).
        destruct (isub_px ub a b i1 (proj1 S1) (proj1 Bo) B2) as (_ & Q1 & Q2 & Q3 & _). auto. }
      destruct (imul_px R i1 _ i2 I1 B3) as (d & _ & _ & _ & Q1 & Q2 & _). split; congruence.
    - apply bind_ok in Ho. destruct Ho as (bk & B1 & Ho). destruct bk as [i1|]; [|discriminate]. apply bind_ok in Ho. destruct Ho as (i2 & B3 & Ho). apply ok_inj in Ho. subst oa.
      exists i2. split; [reflexivity|]. assert (img_ok (a_im i1) /\ nr (a_im i1) = nr (a_im a) /\ nc (a_im i1) = nc (a_im a)) as (I1 & I2 & I3).
      { destruct u as [bad|]; [|apply ok_inj in B1; injection B1 as <-; split; [apply S3|auto]]. apply bind_ok in B1. destruct B1 as (bm & B0 & B1).
        destruct bm as [bm|]; [|apply ok_inj in B1; injection B1 as <-; split; [apply S3|auto]]. apply bind_ok in B1. destruct B1 as (i' & B1 & B2). apply ok_inj in B2. injection B2 as <-.
        destruct (read_tpath_ok _ _ _ S5 B0) as (Bo & _). unfold zero_unusable in B1. destruct (a_kind bm); [|discriminate]. destruct (_ && _); [discriminate|].
        apply bind_ok in B1. destruct B1 as (im & Z & B1). apply ok_inj in B1. subst i'. cbn [a_im]. apply CalibLemmas.img_zip_ok in Z; [|apply S3|apply Bo]. tauto. }
      destruct (imul_px R i1 _ i2 I1 B3) as (d & _ & _ & _ & Q1 & Q2 & _). split; congruence. }
  destruct (typed_cutout R ub c u kinds types rows input junk f Hb Hs H iobj icut o s t row a' St Ht Hrow Ho) as (v & V1 & V2).
  exists a', v, (crop v (imap (conv ub (kinds t)) (a_im a')) (s_osr s) (s_osc s) (o_box o)).
  split; [exact Ho|]. split; [exact V1|]. split; [exact V2|]. split; [reflexivity|]. split; [reflexivity|]. split; [apply crop_ok; lia|]. split; [exact E1|]. split; [exact E2|].
  split; [eapply read_typed_img; [exact Hsr|exact Ho]|].
  intros r k Hr Hk. rewrite crop_px by assumption. rewrite px_imap. destruct (px (a_im a') (s_osr s + r) (s_osc s + k)); reflexivity.
Qed.

Lemma px_same_shape {A B} (a : img A) (b : img B) r k x : img_ok a -> img_ok b -> nr a = nr b -> nc a = nc b -> px a r k = Some x -> exists y, px b r k = Some y.
Proof.
  intros (A1 & A2 & A3) (B1 & B2 & B3) E1 E2 H. unfold px in *. rewrite E1, E2 in H. destruct (_ && _) eqn:E; [|discriminate]. apply zget_range_Some. nia.
Qed.
Lemma px_same_none {A B} (a : img A) (b : img B) r k : img_ok a -> img_ok b -> nr a = nr b -> nc a = nc b -> px a r k = None -> px b r k = None.
Proof.
  intros Ha Hb E1 E2 H. destruct (px b r k) as [y|] eqn:E; [|reflexivity]. destruct (px_same_shape b a r k y Hb Ha (eq_sym E1) (eq_sym E2) E) as (x & X). congruence.
Qed.

Lemma tpath_of_type s t : tsource_ok s -> tpath_ok (tfile_of s t).
Proof. intros (S1 & S2 & S3 & S4 & S5 & S6 & S7 & _). destruct t; assumption. Qed.

(** C91: image pixels. *)
Lemma typed_image R ub c u kinds types rows input junk f : Forall (fun o => 1 <= o_box o) input -> Forall (fun r => tsource_ok (tr_src r)) rows ->
  make_typed R ub c u kinds types rows input junk = Ok f ->
  forall iobj icut o s row, stored f iobj icut o s -> zget rows (s_file s) = Some row -> tf_ext f TImage <> None ->
    ~ int_file (ts_bkg (tr_src row)) ->
    exists cut, get_cutout_typed f iobj icut TImage = Ok cut /\ nr cut = o_box o /\ nc cut = o_box o /\
      forall r k, 0 <= r < o_box o -> 0 <= k < o_box o -> exists p, px cut r k = Some p /\
        ((forall x, ~ file_px (ts_image (tr_src row)) (s_osr s + r) (s_osc s + k) x) -> p = NF (Fin 0)) /\
        (forall x, file_px (ts_image (tr_src row)) (s_osr s + r) (s_osc s + k) x -> not_finite x -> not_finite p) /\
        (forall x a b S, file_px (ts_image (tr_src row)) (s_osr s + r) (s_osc s + k) x -> value x a ->
           bkg_value (ts_bkg (tr_src row)) (s_osr s + r) (s_osc s + k) b -> scale_value (ts_scale (tr_src row)) S ->
           moderate a -> moderate b -> moderate_scale S ->
           exists v, value p v /\ near v ((a - b) * S) (Qpower (2#1) (-140) * (1 + Qabs S))).
Proof.
  intros Hb Hs H iobj icut o s row St Hrow Hi Hbk.
  assert (Hsr : tsource_ok (tr_src row)) by (rewrite Forall_forall in Hs; apply Hs; eapply zget_In; exact Hrow).
  assert (exists a, ts_image (tr_src row) = QFile a) as (a & Ha).
  { destruct (make_typed_ext _ _ _ _ _ _ _ _ _ _ Hb Hs H) as (tys & T1 & T2 & T3).
    destruct (T3 TImage row (proj2 (T2 TImage) Hi) (zget_In _ _ _ Hrow)) as (oa & Ho). cbn [read_typed] in Ho.
    destruct (ts_image (tr_src row)) as [| |a]; [|destruct (ts_bytes (tr_src row))|eauto]; cbn [read_tpath bind] in Ho; try discriminate;
      apply bind_ok in Ho; destruct Ho as (bk & _ & Ho); discriminate. }
  destruct (typed_pixel R ub c u kinds types rows input junk f Hb Hs H iobj icut o s TImage row a St Hi Hrow Ha) as (a' & v & cut & P1 & P2 & P3 & P4 & P5 & P6 & P7 & P8 & P9 & P10).
  destruct (image_px R ub u (tr_src row) a' Hsr P1) as (a0 & d & I1 & I2 & I3 & I4 & I5 & I6). rewrite Ha in I1. injection I1 as <-.
  destruct (fill_float R TImage _ v (or_introl eq_refl) P2) as (d2 & K2 & ->).
  exists cut. split; [exact P3|]. split; [exact P4|]. split; [exact P5|]. intros r k Hr Hk. specialize (P10 r k Hr Hk). rewrite K2 in P10.
  set (rr := s_osr s + r) in *. set (kk := s_osc s + k) in *. rewrite Ha. cbn [file_px].
  destruct (px (a_im a') rr kk) as [y|] eqn:Ey.
  - destruct (I6 rr kk y Ey) as (x & X1 & X2 & X3). exists (conv ub (KF d2) y). split; [exact P10|]. rewrite X1.
    destruct (float_px a d rr kk x I5 I2 X1) as (fx & -> & Fx).
    split; [intros N; exfalso; apply (N _ eq_refl)|].
    assert (BF : forall bb, ts_bkg (tr_src row) = QFile bb -> exists db, a_kind bb = KF db /\ arr_ok bb).
    { intros bb Eb. rewrite Eb in Hbk. destruct Hsr as (_ & S2 & _). rewrite Eb in S2. destruct bb as [[]]; cbn in Hbk; [tauto|]. cbn. eauto. }
    split.
    + intros x1 E1 N1. injection E1 as <-. rewrite X2. cbn [conv to_fl]. destruct fx as [q|ng|]; [contradiction| |].
      * destruct (ts_bkg (tr_src row)) as [| |bb] eqn:Eb.
        -- cbn [to_fl fcast]. unfold mul_op. destruct (ts_scale (tr_src row)) as [|ds [y0|sg|]]; cbn [fmul fcast];
             repeat (destruct (Qeq_bool _ _); cbn [fcast]); try destruct (fround _ y0) as [y1| |]; cbn [fmul fcast]; repeat (destruct (Qeq_bool _ _); cbn [fcast]); exact I.
        -- cbn [to_fl fcast]. unfold mul_op. destruct (ts_scale (tr_src row)) as [|ds [y0|sg|]]; cbn [fmul fcast];
             repeat (destruct (Qeq_bool _ _); cbn [fcast]); try destruct (fround _ y0) as [y1| |]; cbn [fmul fcast]; repeat (destruct (Qeq_bool _ _); cbn [fcast]); exact I.
        -- destruct (BF bb eq_refl) as (db & Kb & Ab). destruct X3 as (x' & X3). rewrite X3, Kb. cbn [promote conv to_fl fcast].
           destruct (float_px bb db rr kk x' Ab Kb X3) as (fb & -> & Fb). cbn [to_fl].
           assert (G : fsub (d || db) (Inf ng) (fcast (d || db) fb) = NaN \/ fsub (d || db) (Inf ng) (fcast (d || db) fb) = Inf ng).
           { destruct (fcast (d || db) fb) as [q|ng'|]; cbn [fsub]; [right; reflexivity| |left; reflexivity]. destruct (Bool.eqb ng ng'); auto. }
           assert (M : forall z, z = NaN \/ z = Inf ng -> match fcast d2 (fcast d (mul_op R d (ts_scale (tr_src row)) (fcast d (fcast d z)))) with Fin _ => False | _ => True end).
           { intros z [->| ->]; cbn [fcast]; unfold mul_op; destruct (ts_scale (tr_src row)) as [|ds [y0|sg|]]; cbn [fmul fcast];
             repeat (destruct (Qeq_bool _ _); cbn [fcast]); try destruct (fround _ y0) as [y1| |]; cbn [fmul fcast]; repeat (destruct (Qeq_bool _ _); cbn [fcast]); exact I. }
           specialize (M _ G). cbn [not_finite]. destruct (fcast d2 _); [contradiction|exact I|exact I].
      * assert (M : match fcast d2 (fcast d (mul_op R d (ts_scale (tr_src row)) NaN)) with Fin _ => False | _ => True end).
        { unfold mul_op. destruct (ts_scale (tr_src row)); cbn [fmul fcast]; exact I. }
        assert (N : forall n, n = NF NaN -> not_finite (NF (fcast d2 (fcast d (mul_op R d (ts_scale (tr_src row)) (to_fl d n)))))).
        { intros n ->. cbn [to_fl fcast not_finite]. destruct (fcast d2 _); [contradiction|exact I|exact I]. }
        apply N. destruct (ts_bkg (tr_src row)) as [| |bb] eqn:Eb; [reflexivity|reflexivity|].
        destruct (BF bb eq_refl) as (db & Kb & Ab). destruct X3 as (x' & X3). rewrite X3, Kb. cbn [promote conv to_fl fcast fsub]. reflexivity.
    + intros x1 av bv S E1 Va Vb Vs Ma Mb Ms. injection E1 as <-. cbn [value] in Va. destruct fx as [q| |]; [|contradiction|contradiction].
      rewrite X2. cbn [conv to_fl].
      destruct (ts_bkg (tr_src row)) as [| |bb] eqn:Eb; cbn [bkg_value] in Vb.
      * destruct (image_value R d d2 (ts_scale (tr_src row)) S true q 0 false) as (w & W1 & W2); auto; [discriminate|reflexivity|unfold moderate in *; rewrite <- Va; exact Ma|vm_compute; discriminate|].
        cbn [to_fl] in W1 |- *. exists w. rewrite W1. split; [reflexivity|]. unfold near in *. rewrite Va, Vb. exact W2.
      * destruct (image_value R d d2 (ts_scale (tr_src row)) S true q 0 false) as (w & W1 & W2); auto; [discriminate|reflexivity|unfold moderate in *; rewrite <- Va; exact Ma|vm_compute; discriminate|].
        cbn [to_fl] in W1 |- *. exists w. rewrite W1. split; [reflexivity|]. unfold near in *. rewrite Va, Vb. exact W2.
      * destruct (BF bb eq_refl) as (db & Kb & Ab). destruct X3 as (x' & X3). rewrite X3, Kb. cbn [promote conv to_fl].
        destruct (float_px bb db rr kk x' Ab Kb X3) as (fb & -> & Fb). destruct Vb as (xb & E & Vb). rewrite X3 in E. injection E as <-. cbn [value] in Vb. destruct fb as [qb| |]; [|contradiction|contradiction].
        destruct (image_value R d d2 (ts_scale (tr_src row)) S db q qb true) as (w & W1 & W2); auto; [discriminate|unfold moderate in *; rewrite <- Va; exact Ma|unfold moderate in *; rewrite <- Vb; exact Mb|].
        cbn [to_fl] in W1 |- *. exists w. rewrite W1. split; [reflexivity|]. unfold near in *. rewrite Va, Vb. exact W2.
  - exists (NF (Fin 0)). split; [exact P10|].
    assert (N : px (a_im a) rr kk = None) by (apply (px_same_none (a_im a') (a_im a)); auto; apply I5).
    split; [reflexivity|]. rewrite N. split; intros; discriminate.
Qed.

(** C91: weight pixels. *)
Lemma typed_weight R ub c u kinds types rows input junk f : Forall (fun o => 1 <= o_box o) input -> Forall (fun r => tsource_ok (tr_src r)) rows ->
  make_typed R ub c u kinds types rows input junk = Ok f ->
  forall iobj icut o s row S, stored f iobj icut o s -> zget rows (s_file s) = Some row -> tf_ext f TWeight <> None ->
    scale_value (ts_scale (tr_src row)) S -> moderate_scale S ->
    exists cut, get_cutout_typed f iobj icut TWeight = Ok cut /\ nr cut = o_box o /\ nc cut = o_box o /\
      forall r k, 0 <= r < o_box o -> 0 <= k < o_box o -> exists p, px cut r k = Some p /\
        ((forall x, ~ file_px (ts_weight (tr_src row)) (s_osr s + r) (s_osc s + k) x) -> value p 0) /\
        (unusable_px u (tr_src row) (s_osr s + r) (s_osc s + k) -> value p 0) /\
        (forall x, file_px (ts_weight (tr_src row)) (s_osr s + r) (s_osc s + k) x -> ~ unusable_px u (tr_src row) (s_osr s + r) (s_osc s + k) ->
           (not_finite x -> not_finite p) /\ (value x 0 -> value p 0) /\
           forall w, value x w -> moderate w -> exists v, value p v /\ near v (w / (S * S)) (Qpower (2#1) (-140) * (1 + 1 / (S * S)))).
Proof.
  intros Hb Hs H iobj icut o s row S St Hrow Hi Vs Ms.
  assert (Hsr : tsource_ok (tr_src row)) by (rewrite Forall_forall in Hs; apply Hs; eapply zget_In; exact Hrow).
  assert (exists a, ts_weight (tr_src row) = QFile a) as (a & Ha).
  { destruct (make_typed_ext _ _ _ _ _ _ _ _ _ _ Hb Hs H) as (tys & T1 & T2 & T3).
    destruct (T3 TWeight row (proj2 (T2 TWeight) Hi) (zget_In _ _ _ Hrow)) as (oa & Ho). cbn [read_typed] in Ho.
    destruct (ts_weight (tr_src row)) as [| |a]; [|destruct (ts_bytes (tr_src row))|eauto]; cbn [read_tpath bind] in Ho; try discriminate.
    all: exfalso; destruct u; [|discriminate Ho]; destruct (read_tpath _ (ts_bmask (tr_src row))) as [[bm|]|]; discriminate Ho. }
  destruct (typed_pixel R ub c u kinds types rows input junk f Hb Hs H iobj icut o s TWeight row a St Hi Hrow Ha) as (a' & v & cut & P1 & P2 & P3 & P4 & P5 & P6 & P7 & P8 & P9 & P10).
  destruct (weight_px R ub u (tr_src row) a' Hsr P1) as (a0 & d & I1 & I2 & I3 & I4 & I5 & I6). rewrite Ha in I1. injection I1 as <-.
  destruct (fill_float R TWeight _ v (or_intror eq_refl) P2) as (d2 & K2 & ->).
  exists cut. split; [exact P3|]. split; [exact P4|]. split; [exact P5|]. intros r k Hr Hk. specialize (P10 r k Hr Hk). rewrite K2 in P10.
  set (rr := s_osr s + r) in *. set (kk := s_osc s + k) in *. rewrite Ha. cbn [file_px].
  assert (Z0 : forall q, (q == 0)%Q -> value (conv ub (KF d2) (NF (fcast d (mul_op R d (inv_square R (ts_scale (tr_src row))) (to_fl d (NF (Fin q))))))) 0).
  { intros q Eq. cbn [conv]. destruct (weight_zero R d d2 (ts_scale (tr_src row)) S q Eq Vs Ms) as (w & W1 & W2). cbn [to_fl] in W1 |- *. rewrite W1. cbn [value]. symmetry; exact W2. }
  destruct (px (a_im a') rr kk) as [y|] eqn:Ey.
  - destruct (I6 rr kk y Ey) as (x & x0 & X1 & X2 & X3). exists (conv ub (KF d2) y). split; [exact P10|]. rewrite X1.
    destruct (float_px a d rr kk x I5 I2 X1) as (fx & -> & Fx).
    split; [intros N; exfalso; apply (N _ eq_refl)|]. rewrite X2.
    destruct X3 as [(Un & ->)|(Un & ->)].
    + split; [intros _; apply Z0; reflexivity|]. intros x1 _ N. contradiction.
    + split; [intros N; contradiction|]. intros x1 E1 _. injection E1 as <-. split; [|split].
      * intros N. cbn [conv to_fl]. destruct fx as [q|ng|]; [contradiction| |]; cbn [fcast]; unfold mul_op; destruct (inv_square R (ts_scale (tr_src row))) as [|ds [y0|sg|]]; cbn [fmul fcast];
             repeat (destruct (Qeq_bool _ _); cbn [fcast]); try destruct (fround _ y0) as [y1| |]; cbn [fmul fcast]; repeat (destruct (Qeq_bool _ _); cbn [fcast]); exact I.
      * intros V. cbn [value] in V. destruct fx as [q| |]; [|contradiction|contradiction]. apply Z0. symmetry; exact V.
      * intros w V Mw. cbn [value] in V. destruct fx as [q| |]; [|contradiction|contradiction]. cbn [conv].
        destruct (weight_value R d d2 (ts_scale (tr_src row)) S q Fx) as (vv & W1 & W2); [unfold moderate in *; rewrite <- V; exact Mw|exact Vs|exact Ms|].
        cbn [to_fl] in W1 |- *. rewrite W1. exists vv. split; [reflexivity|]. unfold near in *. rewrite V. exact W2.
  - exists (NF (Fin 0)). split; [exact P10|].
    assert (N : px (a_im a) rr kk = None) by (apply (px_same_none (a_im a') (a_im a)); auto; apply I5).
    split; [intros _; reflexivity|]. split; [intros _; reflexivity|]. rewrite N. intros; discriminate.
Qed.
