(** Typed files: exactness, integer types, and which types can be used. *)
From Coq Require Import Lia ZifyBool ZifyNat Lqa Qround Qpower Qabs String.
From Verif Require Import Base BaseLemmas Img ImgLemmas Types BoundsM Reader MakerLayout MakerWrite MakerFile Single SingleLemmas
  SpecTiles SpecLayout SpecFile StampLemmas WriteLemmas FileLemmas MakerLemmas MakerLemmas4 MakerLemmas6 MakerLemmas5
  Typed SpecTyped TypedLemmas TypedLemmas2 TypedLemmas3 TypedLemmas4 TypedLemmas5 TypedLemmas6 TypedLemmas7.
Open Scope Z_scope.

(** * Exactness *)

Lemma is_float_one d : is_float d 1.
Proof. exists 1, 0. split; [reflexivity|]. destruct d; repeat split; try lia; vm_compute; reflexivity. Qed.

Lemma fcast_eq d x y : is_float d y -> (x == y)%Q -> exists v, fcast d (Fin x) = Fin v /\ (v == y)%Q.
Proof. intros F E. destruct (fround_exact d x (is_float_compat d y x (Qeq_sym _ _ E) F)) as (v & V1 & V2). exists v. split; [exact V1|]. rewrite V2. exact E. Qed.

Definition keeps (R : rules) : Prop := forall d ds, d = true -> r_mul R d ds = true.
Lemma keeps_numpy R : R = numpy1 \/ R = numpy2 -> keeps R.
Proof. intros [->| ->] d ds ->; reflexivity. Qed.

Lemma mul_one R d sc q : keeps R -> is_float d q -> scale_value sc 1 -> exists v, mul_op R d sc (Fin q) = Fin v /\ (v == q)%Q.
Proof.
  intros K F S. unfold mul_op. destruct sc as [|ds [y| |]]; cbn [scale_value] in S; [| |contradiction|contradiction].
  - cbn [fmul]. destruct (fcast_eq d (q * 1) q F) as (v & V); [ring|]. exists v. exact V.
  - set (d' := r_mul R d ds). assert (F' : is_float d' q). { unfold d'. destruct d; [rewrite K by reflexivity; exact F|]. destruct (r_mul R false ds); [apply (is_float_dbl false); exact F|exact F]. }
    destruct (fcast_eq d' q q F' (Qeq_refl _)) as (x & -> & Ex). destruct (fcast_eq d' y 1 (is_float_one d') (Qeq_sym _ _ S)) as (z & -> & Ez). cbn [fmul].
    destruct (fcast_eq d' (x * z) q F') as (v & V); [rewrite Ex, Ez; ring|]. exists v. exact V.
Qed.

Lemma inv_square_one R sc : scale_value sc 1 -> scale_value (inv_square R sc) 1.
Proof.
  intros S. destruct sc as [|ds [y| |]]; cbn [scale_value inv_square] in *; [reflexivity| |contradiction|contradiction].
  set (d := r_pow R ds). destruct (fcast_eq d y 1 (is_float_one d) (Qeq_sym _ _ S)) as (z & -> & Ez). cbn [fmul].
  destruct (fcast_eq d (z * z) 1 (is_float_one d)) as (w & Ew & Ew'); [rewrite Ez; reflexivity|]. unfold fcast in Ew. rewrite Ew. cbn [finv].
  destruct (Qeq_bool w 0) eqn:E. { apply Qeq_bool_iff in E. rewrite Ew' in E. discriminate. }
  destruct (fcast_eq d (1 / w) 1 (is_float_one d)) as (x & Ex & Ex'); [rewrite Ew'; reflexivity|]. unfold fcast in Ex. rewrite Ex. symmetry; exact Ex'.
Qed.

Lemma chain_exact R d d2 sc q : keeps R -> is_float d q -> is_float d2 q -> scale_value sc 1 ->
  exists v, fcast d2 (fcast d (mul_op R d sc (to_fl d (NF (Fin q))))) = Fin v /\ (v == q)%Q.
Proof.
  intros K F F2 S. cbn [to_fl]. destruct (fcast_eq d q q F (Qeq_refl _)) as (x & -> & Ex).
  destruct (mul_one R d sc x K (is_float_compat d q x (Qeq_sym _ _ Ex) F) S) as (y & -> & Ey).
  destruct (fcast_eq d y q F) as (z & -> & Ez); [rewrite Ey; exact Ex|]. apply fcast_eq; assumption.
Qed.

Lemma typed_exact R ub c u kinds types rows input junk f : R = numpy1 \/ R = numpy2 ->
  Forall (fun o => 1 <= o_box o) input -> Forall (fun r => tsource_ok (tr_src r)) rows ->
  make_typed R ub c u kinds types rows input junk = Ok f ->
  forall iobj icut o s row t d, stored f iobj icut o s -> zget rows (s_file s) = Some row -> tf_ext f t <> None ->
    scale_value (ts_scale (tr_src row)) 1 -> kinds t = KF d ->
    (t = TImage /\ (forall b, ts_bkg (tr_src row) <> QFile b)) \/ t = TWeight ->
    exists cut, get_cutout_typed f iobj icut t = Ok cut /\
      forall r k x a, 0 <= r < o_box o -> 0 <= k < o_box o ->
        file_px (tfile_of (tr_src row) t) (s_osr s + r) (s_osc s + k) x -> value x a -> is_float d a ->
        ~ (t = TWeight /\ unusable_px u (tr_src row) (s_osr s + r) (s_osc s + k)) ->
        exists p, px cut r k = Some p /\ value p a.
Proof.
  intros HR Hb Hs H iobj icut o s row t d2 St Hrow Hi Vs K2 Ht. pose proof (keeps_numpy R HR) as K.
  assert (Hsr : tsource_ok (tr_src row)) by (rewrite Forall_forall in Hs; apply Hs; eapply zget_In; exact Hrow).
  assert (exists a, tfile_of (tr_src row) t = QFile a) as (a & Ha).
  { destruct (make_typed_ext _ _ _ _ _ _ _ _ _ _ Hb Hs H) as (tys & T1 & T2 & T3).
    destruct (T3 t row (proj2 (T2 t) Hi) (zget_In _ _ _ Hrow)) as (oa & Ho). destruct Ht as [(-> & _)| ->]; cbn [read_typed tfile_of] in *.
    - destruct (ts_image (tr_src row)) as [| |a]; [|destruct (ts_bytes (tr_src row))|eauto]; cbn [read_tpath bind] in Ho; try discriminate;
      apply bind_ok in Ho; destruct Ho as (bk & _ & Ho); discriminate.
    - destruct (ts_weight (tr_src row)) as [| |a]; [|destruct (ts_bytes (tr_src row))|eauto]; cbn [read_tpath bind] in Ho; try discriminate.
      all: exfalso; destruct u; [|discriminate Ho]; destruct (read_tpath _ (ts_bmask (tr_src row))) as [[bm|]|]; discriminate Ho. }
  destruct (typed_pixel R ub c u kinds types rows input junk f Hb Hs H iobj icut o s t row a St Hi Hrow Ha) as (a' & v & cut & P1 & P2 & P3 & P4 & P5 & P6 & P7 & P8 & P9 & P10).
  exists cut. split; [exact P3|]. intros r k x av Hr Hk Hx Va Fa Nu. specialize (P10 r k Hr Hk). rewrite K2 in P10.
  rewrite Ha in Hx. cbn [file_px] in Hx. set (rr := s_osr s + r) in *. set (kk := s_osc s + k) in *.
  assert (Aok : arr_ok a) by (pose proof (tpath_of_type _ t Hsr) as Q; rewrite Ha in Q; exact Q).
  destruct (px_same_shape (a_im a) (a_im a') rr kk x (proj1 Aok) P9 (eq_sym P7) (eq_sym P8) Hx) as (y & Ey). rewrite Ey in P10.
  exists (conv ub (KF d2) y). split; [exact P10|].
  destruct Ht as [(-> & Nb)| ->].
  - destruct (image_px R ub u (tr_src row) a' Hsr P1) as (a0 & d & I1 & I2 & I3 & I4 & I5 & I6). cbn [tfile_of] in Ha. rewrite Ha in I1. injection I1 as <-.
    destruct (I6 rr kk y Ey) as (x1 & X1 & X2 & X3). rewrite X1 in Hx. injection Hx as ->. rewrite X2.
    destruct (float_px a d rr kk x I5 I2 X1) as (fx & -> & Fx). cbn [value] in Va. destruct fx as [q| |]; [|contradiction|contradiction]. cbn [fl_ok] in Fx.
    cbn [conv]. destruct (chain_exact R d d2 (ts_scale (tr_src row)) q K Fx (is_float_compat d2 av q Va Fa) Vs) as (w & W1 & W2).
    assert (G : forall n, n = NF (Fin q) -> value (NF (to_fl d2 (NF (fcast d (mul_op R d (ts_scale (tr_src row)) (to_fl d n)))))) av).
    { intros n ->. cbn [to_fl] in W1 |- *. rewrite W1. cbn [value]. rewrite Va. symmetry. exact W2. }
    apply G. destruct (ts_bkg (tr_src row)) as [| |bb]; [reflexivity|reflexivity|]. destruct (Nb bb eq_refl).
  - destruct (weight_px R ub u (tr_src row) a' Hsr P1) as (a0 & d & I1 & I2 & I3 & I4 & I5 & I6). cbn [tfile_of] in Ha. rewrite Ha in I1. injection I1 as <-.
    destruct (I6 rr kk y Ey) as (x1 & x0 & X1 & X2 & X3). rewrite X1 in Hx. injection Hx as ->. rewrite X2.
    destruct X3 as [(Un & _)|(_ & ->)]; [exfalso; apply Nu; auto|].
    destruct (float_px a d rr kk x I5 I2 X1) as (fx & -> & Fx). cbn [value] in Va. destruct fx as [q| |]; [|contradiction|contradiction]. cbn [fl_ok] in Fx.
    cbn [conv]. destruct (chain_exact R d d2 (inv_square R (ts_scale (tr_src row))) q K Fx (is_float_compat d2 av q Va Fa) (inv_square_one R _ Vs)) as (w & W1 & W2).
    cbn [to_fl] in W1 |- *. rewrite W1. cbn [value]. rewrite Va. symmetry. exact W2.
Qed.

(** * Integers *)

Lemma pow_pos b : 0 <= b -> 0 < 2 ^ b. Proof. intros; apply Z.pow_pos_nonneg; lia. Qed.
Lemma wrap_exact s b z : 1 <= b -> is_int s b z -> wrap s b z = z.
Proof.
  intros Hb H. unfold wrap, is_int in *. assert (E : 2 ^ b = 2 * 2 ^ (b - 1)) by (rewrite <- Z.pow_succ_r by lia; f_equal; lia). pose proof (pow_pos (b - 1) ltac:(lia)).
  destruct s; cbn [andb].
  - destruct (Z_lt_le_dec z 0).
    + assert (M : z mod 2 ^ b = z + 2 ^ b). { symmetry. apply Z.mod_unique with (q := -1); lia. }
      rewrite M. destruct (2 ^ (b - 1) <=? z + 2 ^ b) eqn:L; lia.
    + rewrite Z.mod_small by lia. destruct (2 ^ (b - 1) <=? z) eqn:L; lia.
  - apply Z.mod_small. lia.
Qed.
Lemma wrap_int s b z : 1 <= b -> is_int s b (wrap s b z).
Proof.
  intros Hb. unfold wrap, is_int in *. assert (E : 2 ^ b = 2 * 2 ^ (b - 1)) by (rewrite <- Z.pow_succ_r by lia; f_equal; lia). pose proof (pow_pos (b - 1) ltac:(lia)).
  pose proof (Z.mod_pos_bound z (2 ^ b) ltac:(lia)) as M. destruct s; cbn [andb]; [|exact M]. destruct (2 ^ (b - 1) <=? z mod 2 ^ b) eqn:L; lia.
Qed.
Lemma wrap_bits s b z i : 1 <= b -> 0 <= i < b -> Z.testbit (wrap s b z) i = Z.testbit z i.
Proof.
  intros Hb Hi. assert (M : (wrap s b z) mod 2 ^ b = z mod 2 ^ b).
  { unfold wrap. pose proof (pow_pos b ltac:(lia)). destruct (_ && _).
    - replace (z mod 2 ^ b - 2 ^ b) with (z mod 2 ^ b + (-1) * 2 ^ b) by lia. rewrite Z.mod_add by lia. apply Z.mod_mod; lia.
    - apply Z.mod_mod; lia. }
  rewrite <- (Z.mod_pow2_bits_low (wrap s b z) b i) by lia. rewrite M. apply Z.mod_pow2_bits_low. lia.
Qed.
Lemma fits_is s b z : fits s b z = true <-> is_int s b z.
Proof. unfold fits, is_int. destruct s; lia. Qed.

(** C90: masks and segmentation maps. *)
Lemma typed_integers R ub c u kinds types rows input junk f : Forall (fun o => 1 <= o_box o) input -> Forall (fun r => tsource_ok (tr_src r)) rows ->
  make_typed R ub c u kinds types rows input junk = Ok f ->
  forall iobj icut o s row t sg bits a, stored f iobj icut o s -> zget rows (s_file s) = Some row -> tf_ext f t <> None ->
    t = TSeg \/ t = TBmask -> kinds t = KI sg bits -> 1 <= bits -> tfile_of (tr_src row) t = QFile a -> int_file (QFile a) ->
    exists cut, get_cutout_typed f iobj icut t = Ok cut /\ nr cut = o_box o /\ nc cut = o_box o /\
      forall r k, 0 <= r < o_box o -> 0 <= k < o_box o -> exists z, px cut r k = Some (NI z) /\ is_int sg bits z /\
        (px (a_im a) (s_osr s + r) (s_osc s + k) = None -> (t = TSeg -> z = 0) /\ (t = TBmask -> is_int sg bits (2 ^ 30) -> z = 2 ^ 30)) /\
        (forall n, px (a_im a) (s_osr s + r) (s_osc s + k) = Some (NI n) ->
           (is_int sg bits n -> z = n) /\ forall i, 0 <= i < bits -> Z.testbit z i = Z.testbit n i).
Proof.
  intros Hb Hs H iobj icut o s row t sg bits a St Hrow Hi Ht K Hbits Ha Hint.
  assert (Hsr : tsource_ok (tr_src row)) by (rewrite Forall_forall in Hs; apply Hs; eapply zget_In; exact Hrow).
  assert (Aok : arr_ok a) by (pose proof (tpath_of_type _ t Hsr) as Q; rewrite Ha in Q; exact Q).
  destruct (typed_pixel R ub c u kinds types rows input junk f Hb Hs H iobj icut o s t row a St Hi Hrow Ha) as (a' & v & cut & P1 & P2 & P3 & P4 & P5 & P6 & P7 & P8 & P9 & P10).
  assert (a' = a) as ->. { destruct Ht as [->| ->]; cbn [read_typed tfile_of] in *; rewrite Ha in P1; cbn [read_tpath] in P1; congruence. }
  exists cut. split; [exact P3|]. split; [exact P4|]. split; [exact P5|]. intros r k Hr Hk. specialize (P10 r k Hr Hk). rewrite K in P10, P2.
  destruct (px (a_im a) (s_osr s + r) (s_osc s + k)) as [x|] eqn:Ex.
  - pose proof (px_num_ok a _ _ x Aok Ex) as N. destruct a as [[s0 b0|] im0]; cbn in Hint; [|contradiction]. cbn [a_kind] in N. destruct x as [n|]; [|contradiction].
    cbn [conv to_int] in P10. exists (wrap sg bits n). split; [exact P10|]. split; [apply wrap_int; exact Hbits|]. split; [discriminate|].
    intros n' E. injection E as <-. split; [apply wrap_exact; exact Hbits|]. intros i Hi'. apply wrap_bits; assumption.
  - destruct Ht as [->| ->]; cbn [fill_typed zero_of] in P2.
    + apply ok_inj in P2. subst v. exists 0. split; [exact P10|]. split; [unfold is_int; pose proof (pow_pos (bits - 1) ltac:(lia)); pose proof (pow_pos bits ltac:(lia)); destruct sg; lia|].
      split; [intros _; split; [reflexivity|discriminate]|discriminate].
    + destruct (fits sg bits (2 ^ 30)) eqn:F.
      * apply ok_inj in P2. subst v. exists (2 ^ 30). split; [exact P10|]. split; [apply fits_is; exact F|]. split; [intros _; split; [discriminate|reflexivity]|discriminate].
      * destruct (r_strict R); [discriminate|]. apply ok_inj in P2. subst v. exists (wrap sg bits (2 ^ 30)). split; [exact P10|]. split; [apply wrap_int; exact Hbits|].
        split; [intros _; split; [discriminate|intros _ I; apply fits_is in I; congruence]|discriminate].
Qed.

(** * Which types can be used *)

Lemma image_always types tys : types_of types tys -> In TImage tys.
Proof.
  intros (names & H1 & H2). destruct (set_cutout_types_ok _ _ H1) as ((tl & ->) & _). cbn [mapM] in H2. apply bind_ok in H2. destruct H2 as (t & E & H2).
  apply bind_ok in H2. destruct H2 as (ts & _ & H2). apply ok_inj in H2. subst tys. cbn in E. apply ok_inj in E. subst. left; reflexivity.
Qed.

Lemma only_floats R ub c u kinds types rows input junk f : Forall (fun o => 1 <= o_box o) input -> Forall (fun r => tsource_ok (tr_src r)) rows ->
  make_typed R ub c u kinds types rows input junk = Ok f ->
  tf_ext f TImage <> None /\
  (forall r, In r rows -> float_file (ts_image (tr_src r)) /\ (tf_ext f TWeight <> None -> float_file (ts_weight (tr_src r)))) /\
  (forall iobj icut o s, stored f iobj icut o s -> (exists row, zget rows (s_file s) = Some row) ->
     (exists d, kinds TImage = KF d) /\ (tf_ext f TWeight <> None -> exists d, kinds TWeight = KF d)).
Proof.
  intros Hb Hs H. destruct (make_typed_ext _ _ _ _ _ _ _ _ _ _ Hb Hs H) as (tys & T1 & T2 & T3).
  assert (HI : tf_ext f TImage <> None) by (apply T2; eapply image_always; exact T1).
  assert (FF : forall r, In r rows -> float_file (ts_image (tr_src r)) /\ (tf_ext f TWeight <> None -> float_file (ts_weight (tr_src r)))).
  { intros r Hr. assert (Hsr : tsource_ok (tr_src r)) by (rewrite Forall_forall in Hs; apply Hs; exact Hr). split.
    - destruct (T3 TImage r (proj2 (T2 _) HI) Hr) as (oa & Ho). destruct oa as [a'|].
      + destruct (image_px R ub u (tr_src r) a' Hsr Ho) as (a0 & d & I1 & I2 & _). rewrite I1. destruct a0 as [k im]; cbn in *. subst k. exact I.
      + exfalso. cbn [read_typed] in Ho. apply bind_ok in Ho. destruct Ho as (im & _ & Ho). apply bind_ok in Ho. destruct Ho as (bk & _ & Ho). destruct im as [im|]; [|discriminate].
        apply bind_ok in Ho. destruct Ho as (i1 & _ & Ho). apply bind_ok in Ho. destruct Ho as (i2 & _ & Ho). discriminate.
    - intros HW. destruct (T3 TWeight r (proj2 (T2 _) HW) Hr) as (oa & Ho). destruct oa as [a'|].
      + destruct (weight_px R ub u (tr_src r) a' Hsr Ho) as (a0 & d & I1 & I2 & _). rewrite I1. destruct a0 as [k im]; cbn in *. subst k. exact I.
      + exfalso. cbn [read_typed] in Ho. apply bind_ok in Ho. destruct Ho as (im & _ & Ho). apply bind_ok in Ho. destruct Ho as (bk & _ & Ho). destruct bk as [bk|]; [|discriminate].
        apply bind_ok in Ho. destruct Ho as (i1 & _ & Ho). discriminate. }
  split; [exact HI|]. split; [exact FF|]. intros iobj icut o s St (row & Hrow). destruct (FF row (zget_In _ _ _ Hrow)) as (F1 & F2). split.
  - destruct (ts_image (tr_src row)) as [| |a] eqn:E; [contradiction|contradiction|].
    destruct (typed_pixel R ub c u kinds types rows input junk f Hb Hs H iobj icut o s TImage row a St HI Hrow E) as (a' & v & cut & P1 & P2 & _).
    destruct (fill_float R TImage _ v (or_introl eq_refl) P2) as (d & -> & _). eauto.
  - intros HW. specialize (F2 HW). destruct (ts_weight (tr_src row)) as [| |a] eqn:E; [contradiction|contradiction|].
    destruct (typed_pixel R ub c u kinds types rows input junk f Hb Hs H iobj icut o s TWeight row a St HW Hrow E) as (a' & v & cut & P1 & P2 & _).
    destruct (fill_float R TWeight _ v (or_intror eq_refl) P2) as (d & -> & _). eauto.
Qed.

Lemma read_opt s p : opt_tpath s p -> exists o, read_tpath (ts_bytes s) p = Ok o /\ forall a, o = Some a <-> p = QFile a.
Proof.
  intros H. destruct p as [| |a]; cbn in *; [exists None; split; [reflexivity|]|rewrite H; exists None; split; [reflexivity|]|exists (Some a); split; [reflexivity|]]; intros a'; split; congruence.
Qed.

Lemma treadable_ok R ub u s t : treadable u s t -> exists o, read_typed R ub u s t = Ok o.
Proof.
  intros H. destruct t; cbn [treadable read_typed tfile_of] in *; try (destruct (read_opt s _ H) as (o & E & _); eauto; fail).
  - destruct H as (d & im & E & HB & Hsh). rewrite E. cbn [read_tpath bind]. destruct (read_opt s _ HB) as (o & -> & Eo). cbn [bind].
    assert (exists i1, (match o with Some b => isub ub (mkArr (KF d) im) b | None => Ok (mkArr (KF d) im) end) = Ok i1 /\ a_kind i1 = KF d) as (i1 & -> & K1).
    { destruct o as [b|]; [|eauto]. destruct (Hsh b (proj1 (Eo b) eq_refl)) as (N1 & N2). unfold isub. cbn [a_kind a_im].
      assert (same_kind (promote (KF d) (a_kind b)) (KF d) = true) as -> by (destruct (a_kind b); reflexivity).
      match goal with |- context [img_zip ?g im (a_im b)] => destruct (img_zip_same g im (a_im b) (conj (eq_sym N1) (eq_sym N2))) as (z & ->) end. cbn [bind]. eauto. }
    cbn [bind]. unfold imul. rewrite K1. cbn [bind]. eauto.
  - destruct H as (d & im & E & HB). rewrite E. cbn [read_tpath bind]. destruct u as [bad|].
    + destruct (HB bad eq_refl) as (Ho & Hsh). destruct (read_opt s _ Ho) as (o & -> & Eo). cbn [bind]. destruct o as [b|].
      * destruct (Hsh b (proj1 (Eo b) eq_refl)) as (N1 & N2 & sg & n & Kb & Fb). unfold zero_unusable. rewrite Kb. apply fits_is in Fb. rewrite Fb. cbn [negb]. rewrite andb_false_r. cbn [a_kind a_im].
        match goal with |- context [img_zip ?g im (a_im b)] => destruct (img_zip_same g im (a_im b) (conj (eq_sym N1) (eq_sym N2))) as (z & ->) end. cbn [bind]. unfold imul. cbn [a_kind bind]. eauto.
      * cbn [bind]. unfold imul. cbn [a_kind bind]. eauto.
    + cbn [bind]. unfold imul. cbn [a_kind bind]. eauto.
Qed.

Lemma kind_suits_ok R t k : kind_suits t k -> exists v, fill_typed R t k = Ok v.
Proof.
  intros H. destruct t, k; cbn in *; try contradiction; eauto. apply fits_is in H. change (2 ^ 30) with 1073741824 in *. rewrite H. eauto.
Qed.

Lemma floats_writable R ub c u kinds req rows input junk :
  layout_possible c (map tr_image rows) input -> Forall (fun o => 1 <= o_box o) input -> Forall (fun r => tsource_ok (tr_src r)) rows ->
  (forall t, t = TImage \/ In t req -> kind_suits t (kinds t) /\ forall r, In r rows -> treadable u (tr_src r) t) ->
  exists f, make_typed R ub c u kinds (map ctype_name req) rows input junk = Ok f.
Proof.
  intros H1 H2 H3 H4. destruct (requested_types req) as (tys & T1 & T2).
  apply (typed_possible R ub c u kinds (map ctype_name req) tys); try assumption. intros t Ht. destruct (H4 t (T2 t Ht)) as (K & Rd). split; [apply kind_suits_ok; exact K|].
  intros r Hr. apply treadable_ok. apply Rd. exact Hr.
Qed.
