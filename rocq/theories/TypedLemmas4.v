(** Typed files: what the mosaics hold. *)
From Coq Require Import Lia ZifyBool ZifyNat Lqa Qround Qpower Qabs String.
From Verif Require Import Base BaseLemmas Img ImgLemmas Types BoundsM Reader MakerLayout MakerWrite MakerFile Single
  SpecTiles SpecLayout SpecFile StampLemmas CalibLemmas WriteLemmas FileLemmas ReadLemmas MakerLemmas MakerLemmas2 MakerLemmas4
  Typed SpecTyped TypedLemmas TypedLemmas2 TypedLemmas3.
Open Scope Z_scope.
Lemma ok_inj {A} (x y : A) : Ok x = Ok y -> x = y. Proof. congruence. Qed.

Lemma read_tpath_ok b p a : tpath_ok p -> read_tpath b p = Ok (Some a) -> arr_ok a /\ p = QFile a.
Proof. intros H E. destruct p; cbn in *; [discriminate|destruct b; discriminate|]. apply ok_inj in E. injection E as <-. split; [exact H|reflexivity]. Qed.

(** * What [_read_image] does to each pixel *)

Lemma isub_px ub a b c : img_ok (a_im a) -> img_ok (a_im b) -> isub ub a b = Ok c ->
  a_kind c = a_kind a /\ img_ok (a_im c) /\ nr (a_im c) = nr (a_im a) /\ nc (a_im c) = nc (a_im a) /\
  same_kind (promote (a_kind a) (a_kind b)) (a_kind a) = true /\
  forall r k, px (a_im c) r k = match px (a_im a) r k, px (a_im b) r k with
    | Some x, Some y => Some (conv ub (a_kind a) (match promote (a_kind a) (a_kind b) with
              | KI s n => NI (wrap s n (to_int ub s n x - to_int ub s n y))
              | KF d => NF (fsub d (to_fl d x) (to_fl d y)) end))
    | _, _ => None end.
Proof.
  intros Ha Hb H. unfold isub in H. destruct (same_kind _ _) eqn:E; [|discriminate]. apply bind_ok in H. destruct H as (im & Z & H). apply ok_inj in H. subst c. cbn [a_kind a_im].
  apply img_zip_ok in Z; [|exact Ha|exact Hb]. destruct Z as (Z1 & Z2 & Z3 & Z4 & Z5 & Z6). repeat split; try assumption; try reflexivity; apply Z3.
Qed.

Lemma imul_px R a s c : img_ok (a_im a) -> imul R a s = Ok c ->
  exists d, a_kind a = KF d /\ a_kind c = KF d /\ img_ok (a_im c) /\ nr (a_im c) = nr (a_im a) /\ nc (a_im c) = nc (a_im a) /\
    forall r k, px (a_im c) r k = option_map (fun x => NF (fcast d (mul_op R d s (to_fl d x)))) (px (a_im a) r k).
Proof.
  intros Ha H. unfold imul in H. destruct (a_kind a) as [|d] eqn:E; [discriminate|]. apply ok_inj in H. subst c. exists d. cbn [a_kind a_im].
  split; [reflexivity|]. split; [reflexivity|]. split; [apply imap_ok; exact Ha|]. split; [reflexivity|]. split; [reflexivity|].
  intros r k. rewrite px_imap. destruct (px (a_im a) r k); [|reflexivity]. cbn [option_map]. unfold mul_op. destruct s; reflexivity.
Qed.

Lemma zero_px R bad a bm c : img_ok (a_im a) -> img_ok (a_im bm) -> zero_unusable R bad a bm = Ok c ->
  (exists s n, a_kind bm = KI s n) /\ a_kind c = a_kind a /\ img_ok (a_im c) /\
  forall r k, px (a_im c) r k = match px (a_im a) r k, px (a_im bm) r k with
    | Some x, Some b => Some (match b with NI z => if negb (Z.land z bad =? 0) then zero_of (a_kind a) else x | NF _ => x end)
    | _, _ => None end.
Proof.
  intros Ha Hb H. unfold zero_unusable in H. destruct (a_kind bm) as [s n|] eqn:E; [|discriminate]. destruct (_ && _); [discriminate|].
  apply bind_ok in H. destruct H as (im & Z & H). apply ok_inj in H. subst c. cbn [a_kind a_im].
  apply img_zip_ok in Z; [|exact Ha|exact Hb]. destruct Z as (Z1 & Z2 & Z3 & Z4 & Z5 & Z6). repeat split; try assumption; try apply Z3. eauto.
Qed.

(** The image read: its type is a float type and each pixel is calibrated. *)
Lemma image_px R ub u s a : tsource_ok s -> read_typed R ub u s TImage = Ok (Some a) ->
  exists a0 d, ts_image s = QFile a0 /\ a_kind a0 = KF d /\ a_kind a = KF d /\ img_ok (a_im a) /\ arr_ok a0 /\
    forall r k y, px (a_im a) r k = Some y -> exists x, px (a_im a0) r k = Some x /\
      y = NF (fcast d (mul_op R d (ts_scale s) (to_fl d (match ts_bkg s with
          | QFile b => match px (a_im b) r k with
                       | Some x' => conv ub (KF d) (match promote (KF d) (a_kind b) with
                            | KI s n => NI (wrap s n (to_int ub s n x - to_int ub s n x'))
                            | KF d' => NF (fsub d' (to_fl d' x) (to_fl d' x')) end)
                       | None => x end
          | _ => x end)))) /\ (match ts_bkg s with QFile b => exists x', px (a_im b) r k = Some x' | _ => True end).
Proof.
  intros (S1 & S2 & _) H. cbn [read_typed] in H. apply bind_ok in H. destruct H as (im & H1 & H). apply bind_ok in H. destruct H as (bk & H2 & H).
  destruct im as [im|]; [|discriminate]. destruct (read_tpath_ok _ _ _ S1 H1) as (A0 & E0). apply bind_ok in H. destruct H as (im1 & H3 & H).
  apply bind_ok in H. destruct H as (im2 & H4 & H). apply ok_inj in H. injection H as <-.
  destruct bk as [b|].
  - destruct (read_tpath_ok _ _ _ S2 H2) as (B0 & Eb). destruct (isub_px ub im b im1 (proj1 A0) (proj1 B0) H3) as (I1 & I2 & I3 & I4 & I5 & I6).
    destruct (imul_px R im1 _ im2 I2 H4) as (d & M1 & M2 & M3 & _ & _ & M4). exists im, d. rewrite I1 in M1. rewrite M1 in I6.
    split; [exact E0|]. split; [exact M1|]. split; [exact M2|]. split; [exact M3|]. split; [exact A0|]. intros r k y Hy. rewrite M4, I6 in Hy. rewrite Eb.
    destruct (px (a_im im) r k) as [x|]; [|discriminate]. destruct (px (a_im b) r k) as [x'|]; [|discriminate]. cbn [option_map] in Hy. injection Hy as <-.
    exists x. split; [reflexivity|]. split; [reflexivity|eauto].
  - apply ok_inj in H3. subst im1. destruct (imul_px R im _ im2 (proj1 A0) H4) as (d & M1 & M2 & M3 & _ & _ & M4). exists im, d.
    split; [exact E0|]. split; [exact M1|]. split; [exact M2|]. split; [exact M3|]. split; [exact A0|]. intros r k y Hy. rewrite M4 in Hy.
    destruct (px (a_im im) r k) as [x|]; [|discriminate]. cbn [option_map] in Hy. injection Hy as <-. exists x. split; [reflexivity|].
    destruct (ts_bkg s) as [| |b]; [split; [reflexivity|exact I]|split; [reflexivity|exact I]|discriminate].
Qed.

(** The weight read. *)
Lemma weight_px R ub u s a : tsource_ok s -> read_typed R ub u s TWeight = Ok (Some a) ->
  exists a0 d, ts_weight s = QFile a0 /\ a_kind a0 = KF d /\ a_kind a = KF d /\ img_ok (a_im a) /\ arr_ok a0 /\
    forall r k y, px (a_im a) r k = Some y -> exists x x0, px (a_im a0) r k = Some x /\
      y = NF (fcast d (mul_op R d (inv_square R (ts_scale s)) (to_fl d x0))) /\
      ((unusable_px u s r k /\ x0 = NF (Fin 0)) \/ (~ unusable_px u s r k /\ x0 = x)).
Proof.
  intros (_ & _ & S3 & _ & S5 & _) H. cbn [read_typed] in H. apply bind_ok in H. destruct H as (im & H1 & H). apply bind_ok in H. destruct H as (im1 & H2 & H).
  destruct im1 as [im1|]; [|discriminate]. apply bind_ok in H. destruct H as (im2 & H4 & H). apply ok_inj in H. injection H as <-.
  assert (PL : u = None \/ (forall b, ts_bmask s <> QFile b) -> im = Some im1 -> exists a0 d, ts_weight s = QFile a0 /\ a_kind a0 = KF d /\ a_kind im2 = KF d /\ img_ok (a_im im2) /\ arr_ok a0 /\
    forall r k y, px (a_im im2) r k = Some y -> exists x x0, px (a_im a0) r k = Some x /\
      y = NF (fcast d (mul_op R d (inv_square R (ts_scale s)) (to_fl d x0))) /\
      ((unusable_px u s r k /\ x0 = NF (Fin 0)) \/ (~ unusable_px u s r k /\ x0 = x))).
  { intros N ->. destruct (read_tpath_ok _ _ _ S3 H1) as (A0 & E0). destruct (imul_px R im1 _ im2 (proj1 A0) H4) as (d & M1 & M2 & M3 & _ & _ & M4).
    exists im1, d. split; [exact E0|]. split; [exact M1|]. split; [exact M2|]. split; [exact M3|]. split; [exact A0|]. intros r k y Hy. rewrite M4 in Hy.
    destruct (px (a_im im1) r k) as [x|]; [|discriminate]. cbn [option_map] in Hy. injection Hy as <-. exists x, x. split; [reflexivity|]. split; [reflexivity|]. right. split; [|reflexivity].
    intros (bad & z & U & B & _). destruct N as [N|N]; [congruence|]. destruct (ts_bmask s) as [| |b]; [contradiction|contradiction|]. apply (N b eq_refl). }
  destruct u as [bad|]; [|apply ok_inj in H2; apply PL; [left; reflexivity|exact H2]].
  apply bind_ok in H2. destruct H2 as (bm & HB & H2). destruct bm as [bm|].
  - destruct (read_tpath_ok _ _ _ S5 HB) as (B0 & Eb). destruct im as [im|]; [|discriminate]. destruct (read_tpath_ok _ _ _ S3 H1) as (A0 & E0).
    apply bind_ok in H2. destruct H2 as (im' & HZ & H2). apply ok_inj in H2. injection H2 as ->.
    destruct (zero_px R bad im bm im1 (proj1 A0) (proj1 B0) HZ) as ((s' & n & Z0) & Z1 & Z2 & Z3).
    destruct (imul_px R im1 _ im2 Z2 H4) as (d & M1 & M2 & M3 & _ & _ & M4). exists im, d. rewrite Z1 in M1. rewrite M1 in Z3.
    split; [exact E0|]. split; [exact M1|]. split; [exact M2|]. split; [exact M3|]. split; [exact A0|]. intros r k y Hy. rewrite M4, Z3 in Hy.
    destruct (px (a_im im) r k) as [x|]; [|discriminate]. destruct (px (a_im bm) r k) as [b|] eqn:PB; [|discriminate]. cbn [option_map zero_of] in Hy. injection Hy as <-.
    assert (NB : exists z, b = NI z).
    { destruct B0 as (_ & F & _). rewrite Forall_forall in F. specialize (F b). rewrite Z0 in F. destruct b as [z|y]; [eauto|]. exfalso. apply F.
      unfold px in PB. destruct (_ && _); [|discriminate]. eapply zget_In; exact PB. }
    destruct NB as (z & ->). destruct (Z.land z bad =? 0) eqn:EL; cbn [negb].
    + exists x, x. split; [reflexivity|]. split; [reflexivity|]. right. split; [|reflexivity]. intros (bad' & z' & U & P & L). injection U as <-. rewrite Eb in P. cbn [file_px] in P. rewrite PB in P. injection P as <-. lia.
    + exists x, (NF (Fin 0)). split; [reflexivity|]. split; [reflexivity|]. left. split; [|reflexivity]. exists bad, z. rewrite Eb. repeat split; try assumption; lia.
  - apply ok_inj in H2. apply PL; [right|exact H2]. intros b Eb. rewrite Eb in HB. discriminate.
Qed.

Lemma read_typed_img R ub u s t a : tsource_ok s -> read_typed R ub u s t = Ok (Some a) -> img_ok (a_im a).
Proof.
  intros Hs H. destruct t.
  - destruct (image_px R ub u s a Hs H) as (a0 & d & _ & _ & _ & K & _). exact K.
  - destruct (weight_px R ub u s a Hs H) as (a0 & d & _ & _ & _ & K & _). exact K.
  - destruct Hs as (_ & _ & _ & S & _). exact (proj1 (proj1 (read_tpath_ok _ _ _ S H))).
  - destruct Hs as (_ & _ & _ & _ & S & _). exact (proj1 (proj1 (read_tpath_ok _ _ _ S H))).
  - destruct Hs as (_ & _ & _ & _ & _ & S & _). exact (proj1 (proj1 (read_tpath_ok _ _ _ S H))).
  - destruct Hs as (_ & _ & _ & _ & _ & _ & S & _). exact (proj1 (proj1 (read_tpath_ok _ _ _ S H))).
Qed.
