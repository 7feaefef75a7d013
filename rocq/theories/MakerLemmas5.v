(** Calibration, skipped sources, configuration, index checks. *)
From Coq Require Import Lia ZifyBool ZifyNat String Sorted.
From Verif Require Import Base BaseLemmas Img ImgLemmas Types Reader MakerLayout MakerWrite MakerFile
  SpecTiles SpecLayout SpecFile StartLemmas StampLemmas WriteLemmas LayoutLemmas BuildLemmas PsfLemmas
  ReadLemmas CalibLemmas FileLemmas MakerLemmas MakerLemmas2 MakerLemmas3 MakerLemmas4.
Open Scope Z_scope.
Ltac Zify.zify_post_hook ::= Z.div_mod_to_equations.

(** C16 *)
Lemma calibrated_significance u s im wt raw wraw r c x w y z :
  ~ (src_scale s == 0)%Q ->
  calibrated u s TImage im -> calibrated u s TWeight wt ->
  src_image s = PFile raw -> src_weight s = PFile wraw ->
  px raw r c = Some x -> px wraw r c = Some w -> px im r c = Some y -> px wt r c = Some z ->
  ~ unusable_at u s r c ->
  exists b, bkg_at s r c b /\ (y * y * z == (x - b) * (x - b) * w)%Q.
Proof.
  intros Hs (raw' & E1 & P1) (wraw' & E2 & P2) F1 F2 Hx Hw Hy Hz Hu.
  rewrite F1 in E1; inversion E1; subst raw'. rewrite F2 in E2; inversion E2; subst wraw'.
  destruct P1 as (_ & _ & _ & P1). destruct P2 as (_ & _ & _ & P2).
  destruct (P1 r c x y Hx Hy) as (b & Hb & Ey). destruct (P2 r c w z Hw Hz) as (_ & Ez). specialize (Ez Hu).
  exists b. split; [exact Hb|]. rewrite Ey, <- Ez. ring.
Qed.

Lemma calibrated_weight_sign u s wt wraw r c w z : ~ (src_scale s == 0)%Q ->
  calibrated u s TWeight wt -> src_weight s = PFile wraw ->
  px wraw r c = Some w -> px wt r c = Some z -> (0 < z)%Q -> (0 < w)%Q /\ ~ unusable_at u s r c.
Proof.
  intros Hs (wraw' & E2 & P2) F2 Hw Hz Hp. rewrite F2 in E2; inversion E2; subst wraw'.
  destruct P2 as (_ & _ & _ & P2). destruct (P2 r c w z Hw Hz) as (Eu & Ez).
  assert (Hn : ~ unusable_at u s r c) by (intros H; specialize (Eu H); rewrite Eu in Hp; discriminate).
  split; [|exact Hn]. specialize (Ez Hn). rewrite <- Ez.
  apply Qmult_lt_0_compat; [exact Hp|].
  destruct (Qlt_le_dec 0 (src_scale s)) as [H|H].
  - apply Qmult_lt_0_compat; assumption.
  - assert (H' : (src_scale s < 0)%Q).
    { apply Qle_lteq in H. destruct H as [H|H]; [exact H|contradiction]. }
    setoid_replace (src_scale s * src_scale s)%Q with ((- src_scale s) * (- src_scale s))%Q by ring.
    apply Qmult_lt_0_compat; apply Qopp_lt_compat in H'; exact H'.
Qed.

(** C17 *)
Lemma no_file_read {A} s (p : path A) : p = PBlank \/ p = PNone /\ src_bytes s = false ->
  read_path (src_bytes s) p = Ok None.
Proof. intros [->|[-> ->]]; reflexivity. Qed.

Lemma skipped_read u s t : optional_type t -> no_file s t -> read_image u s t = Ok None.
Proof.
  intros [H1 H2] H. destruct t; try contradiction; cbn [read_image no_file] in *; rewrite (no_file_read _ _ H); reflexivity.
Qed.

Lemma required_read u s t : ~ optional_type t -> no_file s t -> exists e, read_image u s t = Err e.
Proof.
  intros H1 H. destruct t; try (exfalso; apply H1; split; discriminate); cbn [read_image no_file] in *.
  - rewrite (no_file_read _ _ H). cbn [bind]. destruct (read_path _ (src_bkg s)); cbn [bind]; eexists; reflexivity.
  - rewrite (no_file_read _ _ H). cbn [bind]. destruct u as [bad|]; cbn [bind]; [|eexists; reflexivity].
    destruct (read_path _ (src_bmask s)) as [[bm|]|]; cbn [bind]; eexists; reflexivity.
Qed.

(** A skipped source leaves its cutouts as the reserved space was. *)
Lemma write_skipped u cat srcs total types t : cat_wf cat -> Forall source_ok srcs ->
  tiles 0 (cut_ranges cat) total -> fill_value t <> None ->
  forall ext ext' m,
  (forall t m, ext_find ext t = Some m -> zlen m = total) ->
  write_types u cat srcs types ext = Ok ext' -> ext_find ext t = Some m ->
  exists m', ext_find ext' t = Some m' /\
    forall k src j, In k (cat_keys cat) -> zget srcs (s_file (k_slot k)) = Some src ->
      read_image u src t = Ok None -> 0 <= j < o_box (k_obj k) * o_box (k_obj k) ->
      zget m' (s_start (k_slot k) + j) = zget m (s_start (k_slot k) + j).
Proof.
  intros Hwf Hsrc Ht Hv. induction types as [|t0 types IH]; intros ext ext' m HL H Hm; unfold write_types in H; cbn [foldM] in H.
  - inversion H; subst. exists m. split; [exact Hm|]. reflexivity.
  - apply bind_ok in H. destruct H as (ext1 & H1 & H2).
    destruct (ext_find ext t0) as [hdu|] eqn:EF; [|discriminate].
    apply bind_ok in H1. destruct H1 as (hdu' & W & E). inversion E; subst ext1; clear E.
    pose proof (write_cutouts_inv _ _ _ _ _ _ W) as [HR L1].
    assert (HL1 : forall t' m, ext_find (ext_set ext t0 hdu') t' = Some m -> zlen m = total).
    { intros t' m'. rewrite ext_set_find, EF. destruct (ctype_eqb t0 t'); [|apply HL].
      intros E; injection E as <-. rewrite L1. eapply HL; exact EF. }
    destruct (ctype_eqb t0 t) eqn:ET.
    + apply ctype_eqb_eq in ET; subst t0. rewrite Hm in EF. inversion EF; subst hdu.
      destruct (IH _ _ hdu' HL1 H2) as (m' & M1 & M2); [rewrite ext_set_find, Hm, ctype_eqb_refl; reflexivity|].
      exists m'. split; [exact M1|]. intros k src j Hk Hs Hr Hj. rewrite (M2 k src j Hk Hs Hr Hj).
      destruct (fill_value t) as [v|] eqn:Ev; [|contradiction]. rewrite (default_values_fill t v Ev) in W.
      set (read := fun file_id => let* s := py_index srcs file_id in read_image u s t) in *.
      set (imgs := fun f => match read f with Ok o => o | Err _ => None end).
      assert (Himgs : forall f im, imgs f = Some im -> img_ok im).
      { intros f im' E. unfold imgs, read in E. destruct (py_index srcs f) as [s|] eqn:Es; cbn [bind] in E; [|discriminate].
        destruct (read_image u s t) as [o|] eqn:Er; [|discriminate]. subst o.
        eapply calibrated_ok. eapply read_image_calibrated; [|exact Er].
        rewrite Forall_forall in Hsrc. apply Hsrc. unfold py_index in Es.
        destruct (zget srcs (if f <? 0 then f + zlen srcs else f)) eqn:Z0; [|discriminate].
        inversion Es; subst. eapply zget_In; exact Z0. }
      destruct (write_cutouts_spec v cat (zlen srcs) imgs Hwf Himgs read m) as (h & W1 & W2 & W3 & W4).
      * intros f Hf. destruct (HR f Hf) as (o & Ho). change (read f = Ok o) in Ho. unfold imgs. rewrite Ho. reflexivity.
      * rewrite (HL t m Hm). exact Ht.
      * rewrite W1 in W. inversion W; subst h. apply W4. intros k2 Hk2 Hf2 Hi2 Hp.
        pose proof Ht as Ht'. rewrite <- (cat_keys_ranges cat Hwf) in Ht'.
        destruct (tiles_keys k_range _ _ _ Ht') as [_ K2]. unfold k_range in *. cbn [fst snd] in *.
        destruct (K2 k k2 Hk Hk2) as [->|[D|D]]; cbn [fst snd] in *; try lia.
        apply Hi2. unfold imgs, read. pose proof (zget_Some_range _ _ _ Hs) as Hsr.
        rewrite (proj2 (py_index_ok_nonneg srcs _ src (proj1 Hsr)) Hs). cbn [bind]. rewrite Hr. reflexivity.
    + destruct (IH _ _ m HL1 H2) as (m' & M1 & M2); [rewrite ext_set_find, ET; exact Hm|].
      exists m'. split; assumption.
Qed.

Lemma skipped_cutout k types rows psf input junk pjunk f :
  Forall (fun o => 1 <= o_box o) input -> Forall (fun r => source_ok (ir_src r)) rows ->
  make_meds k types rows psf input junk pjunk = Ok f ->
  forall iobj icut o s t row,
    cutout_at f iobj icut o s -> In t (map fst (m_ext f)) -> fill_value t <> None -> optional_type t ->
    zget rows (s_file s) = Some row -> no_file (ir_src row) t ->
    exists im, get_cutout f iobj icut t = Ok im /\
      forall r c, 0 <= r < o_box o -> 0 <= c < o_box o ->
        px im r c = Some (junk t (s_start s + r * o_box o + c)).
Proof.
  intros Hb Hsrc H iobj icut o s t row Hc Ht Hv Hopt Hrow Hf.
  pose proof (written_file_wf _ _ _ _ _ _ _ _ Hb H) as Hwf.
  apply make_meds_layout in H.
  destruct H as (tys & objs & nslots & total & cat0 & H1 & H2 & H3 & H4 & H5 & H6 & H7 & H8 & H9 & _).
  pose proof (tiles_le _ _ _ H7) as Ht0.
  pose proof (fun t m E => reserve_len tys total junk t m Ht0 E) as L1.
  destruct (write_types_len _ _ _ _ total _ _ L1 H9) as [E L2].
  rewrite E, reserve_fst in Ht.
  assert (exists m, ext_find (reserve tys total junk) t = Some m) as (m & Hm).
  { clear -Ht. induction tys as [|t0 ty IH]; [contradiction|]. simpl. destruct (ctype_eqb t0 t) eqn:E; [eexists; reflexivity|].
    apply IH. destruct Ht as [<-|Ht]; [rewrite ctype_eqb_refl in E; discriminate|exact Ht]. }
  destruct (write_skipped (k_unusable k) (m_cat f) (map ir_src rows) total tys t
             (cat_wf_weaken _ (proj1 Hwf)) (proj2 (Forall_map _ _ _) Hsrc) H7 Hv _ _ m L1 H9 Hm) as (m' & M1 & M2).
  destruct (get_cutout_eq f iobj icut o s t m' Hwf Hc M1) as (xs & X1 & X2 & X3).
  eexists. split; [exact X2|]. intros r c Hr Hcc. unfold px. cbn [nr nc dat].
  assert (HB : 0 <= r * o_box o + c < o_box o * o_box o) by nia.
  dif EB; [|lia]. apply slice_ok in X1. destruct X1 as (Y1 & Y2 & Y3 & Y4). rewrite Y4 by lia.
  assert (Hk : In (o, icut, s) (cat_keys (m_cat f))).
  { apply (cutout_key f iobj); [|exact Hc]. eapply Forall_impl; [|exact (proj1 Hwf)]; simpl; tauto. }
  assert (Hz : zget (map ir_src rows) (s_file s) = Some (ir_src row)) by (rewrite zget_map, Hrow; reflexivity).
  pose proof (M2 (o, icut, s) (ir_src row) (r * o_box o + c) Hk Hz (skipped_read _ _ _ Hopt Hf) HB) as M3.
  cbn [k_slot k_obj fst snd] in M3. rewrite M3. apply reserve_find in Hm. subst m. rewrite zget_map.
  pose proof (L2 t m' M1) as L3. rewrite zget_zrange by lia. cbn [option_map]. f_equal. f_equal. lia.
Qed.

(** C20 *)
Lemma ctype_of_name t : ctype_of (ctype_name t) = Some t.
Proof. destruct t; reflexivity. Qed.

Lemma ctype_of_iff s : (exists t, ctype_of s = Some t) <-> exists t, s = ctype_name t.
Proof.
  split.
  - intros (t & H). exists t. unfold ctype_of in H. apply find_some in H. destruct H as [_ H].
    apply String.eqb_eq in H. congruence.
  - intros (t & ->). exists t. apply ctype_of_name.
Qed.

Lemma py_remove_In l x y : y <> x -> In y (py_remove l x) <-> In y l.
Proof.
  intros Hn. induction l as [|a l IH]; simpl; [tauto|]. destruct (String.eqb a x) eqn:E.
  - apply String.eqb_eq in E. subst. split; [auto|]. intros [->|H]; [contradiction|exact H].
  - simpl. rewrite IH. tauto.
Qed.

Lemma py_remove_filter l x : filter (fun s => negb (String.eqb s x)) (py_remove l x) =
                             filter (fun s => negb (String.eqb s x)) l.
Proof.
  induction l as [|a l IH]; simpl; [reflexivity|]. destruct (String.eqb a x) eqn:E; simpl.
  - reflexivity.
  - rewrite E. simpl. rewrite IH. reflexivity.
Qed.

Lemma set_cutout_types_ok l l' : set_cutout_types l = Ok l' ->
  (exists tl, l' = "image"%string :: tl) /\
  filter (fun s => negb (String.eqb s "image"%string)) l' = filter (fun s => negb (String.eqb s "image"%string)) l.
Proof.
  unfold set_cutout_types. intros H.
  set (tl := if existsb (String.eqb "image"%string) l then py_remove l "image"%string else l) in *.
  dif_in H E; [discriminate|]. inversion H; subst l'. split; [eexists; reflexivity|]. cbn [filter String.eqb Ascii.eqb Bool.eqb negb].
  unfold tl. destruct (existsb _ l); [apply py_remove_filter|reflexivity].
Qed.

Lemma set_cutout_types_count l l' : set_cutout_types l = Ok l' ->
  (count_occ string_dec l "image"%string <= 1)%nat -> count_occ string_dec l' "image"%string = 1%nat.
Proof.
  unfold set_cutout_types. intros H Hc.
  set (tl := if existsb (String.eqb "image"%string) l then py_remove l "image"%string else l) in *.
  dif_in H E; [discriminate|]. inversion H; subst l'. cbn [count_occ]. destruct (string_dec "image"%string "image"%string); [|contradiction].
  f_equal. unfold tl. destruct (existsb (String.eqb "image"%string) l) eqn:EX.
  - clear -Hc EX. induction l as [|a l IH]; cbn [count_occ existsb py_remove] in *; [reflexivity|].
    destruct (string_dec a "image"%string) as [->|Hn].
    + rewrite String.eqb_refl. lia.
    + assert (Ea : String.eqb a "image"%string = false) by (apply String.eqb_neq; exact Hn). rewrite Ea. cbn [count_occ].
      destruct (string_dec a "image"%string); [contradiction|].
      assert (Eb : String.eqb "image"%string a = false) by (apply String.eqb_neq; congruence). rewrite Eb in EX. cbn [orb] in EX.
      apply IH; assumption.
  - clear -EX. apply count_occ_not_In. intros Hi. assert (existsb (String.eqb "image"%string) l = true); [|congruence].
    apply existsb_exists. exists "image"%string. split; [exact Hi|apply String.eqb_refl].
Qed.

Lemma set_cutout_types_err l : (exists e, set_cutout_types l = Err e) <->
  exists s, In s l /\ forall t, s <> ctype_name t.
Proof.
  unfold set_cutout_types.
  set (tl := if existsb (String.eqb "image"%string) l then py_remove l "image"%string else l).
  assert (HT : forall s, s <> "image"%string -> In s tl <-> In s l).
  { intros s Hs. unfold tl. destruct (existsb _ l); [apply py_remove_In; exact Hs|reflexivity]. }
  set (bad := fun s => match ctype_of s with Some _ => false | None => true end).
  assert (HB : forall s, bad s = true <-> forall t, s <> ctype_name t).
  { intros s. unfold bad. destruct (ctype_of s) as [t|] eqn:E.
    - split; [discriminate|]. intros Hn. destruct (proj1 (ctype_of_iff s)) as (t' & Ht'); [exists t; exact E|].
      exfalso; apply (Hn t' Ht').
    - split; [|reflexivity]. intros _ t ->. rewrite ctype_of_name in E. discriminate. }
  split.
  - intros (e & H). dif_in H E; [|discriminate]. apply existsb_exists in E. destruct E as (s & Hs & Hb).
    pose proof (proj1 (HB s) Hb) as Hb'. clear Hb; rename Hb' into Hb. exists s. split; [|exact Hb]. destruct Hs as [<-|Hs].
    + exfalso. apply (Hb TImage). reflexivity.
    + apply HT; [|exact Hs]. intros ->. apply (Hb TImage). reflexivity.
  - intros (s & Hs & Hb). dif E; [eexists; reflexivity|]. exfalso.
    assert (EX : existsb bad ("image"%string :: tl) = true); [|congruence].
    apply existsb_exists. exists s. split; [|exact (proj2 (HB s) Hb)]. right. apply HT; [|exact Hs].
    intros ->. apply (Hb TImage). reflexivity.
Qed.

Lemma set_cutout_types_err_value l e : set_cutout_types l = Err e -> e = ValueError.
Proof. unfold set_cutout_types. intros H. dif_in H E; [|discriminate]. inversion H; reflexivity. Qed.

(** C21 *)
Lemma u4_testbit x i : 0 <= i < 32 -> Z.testbit (u4 x) i = Z.testbit x i.
Proof. intros Hi. unfold u4. rewrite Z.mod_pow2_bits_low by lia. reflexivity. Qed.

Lemma u4_range x : 0 <= u4 x < 2 ^ 32.
Proof. unfold u4. apply Z.mod_pos_bound. lia. Qed.

Lemma allowed_inv_bits a i : 0 <= i < 32 ->
  Z.testbit (bitmask_allowed_inv a) i = negb (Z.testbit a i).
Proof.
  intros Hi. unfold bitmask_allowed_inv. rewrite u4_testbit by exact Hi. rewrite Z.lnot_spec by lia.
  rewrite u4_testbit by exact Hi. reflexivity.
Qed.

Lemma allowed_only a x : 0 <= x < 2 ^ 32 ->
  Z.land x (bitmask_allowed_inv a) = 0 <->
  (forall i, 0 <= i < 32 -> Z.testbit x i = true -> Z.testbit a i = true).
Proof.
  intros Hx. split.
  - intros H i Hi Hb. assert (E : Z.testbit (Z.land x (bitmask_allowed_inv a)) i = false) by (rewrite H; apply Z.bits_0).
    rewrite Z.land_spec, allowed_inv_bits, Hb in E by exact Hi. simpl in E. destruct (Z.testbit a i); [reflexivity|discriminate].
  - intros H. apply Z.bits_inj'. intros i Hi. rewrite Z.land_spec, Z.bits_0.
    destruct (Z_lt_dec i 32) as [Hl|Hl].
    + rewrite allowed_inv_bits by lia. destruct (Z.testbit x i) eqn:E; [|reflexivity].
      rewrite (H i (conj Hi Hl) E). reflexivity.
    + assert (E : Z.testbit x i = false).
      { destruct (Z.eq_dec x 0) as [->|Hn]; [apply Z.bits_0|].
        apply Z.bits_above_log2; [lia|]. assert (Z.log2 x < 32) by (apply Z.log2_lt_pow2; lia). lia. }
      rewrite E. reflexivity.
Qed.

(** C22 *)
Lemma recorded_on_image k types rows psf input junk pjunk f :
  make_meds k types rows psf input junk pjunk = Ok f ->
  forall iobj icut o s row, cutout_at f iobj icut o s -> zget rows (s_file s) = Some row ->
  let b := spec_buffer (k_l k) (s_file s) in
  let off := im_offset (ir_image row) in
  let w := im_wcs (ir_image row) in
  (1 - off - b <= s_orow s /\ s_orow s <= inject_Z (w_nrow w) - off + b /\
   1 - off - b <= s_ocol s /\ s_ocol s <= inject_Z (w_ncol w) - off + b)%Q.
Proof.
  intros H iobj icut o s row Hc Hrow. cbv zeta.
  destruct (written_selected _ _ _ _ _ _ _ _ H) as (objs & Hs).
  pose proof (written_files _ _ _ _ _ _ _ _ _ H Hs) as WF.
  destruct (written_slots _ _ _ _ _ _ _ _ _ H Hs) as (HL & _).
  pose proof Hc as (Ho & Hk & Hsl).
  destruct (zget_range_Some objs iobj) as (oi & Hoi); [rewrite HL; eapply zget_Some_range; exact Ho|].
  destruct (WF iobj oi o Hoi Ho) as (F1 & F2 & F3).
  destruct (written_positions _ _ _ _ _ _ _ _ _ H Hs iobj oi o icut s Hoi Hc) as (im & P1 & P2 & P3 & _).
  assert (Him : im = ir_image row) by (rewrite zget_map, Hrow in P1; inversion P1; reflexivity). subst im.
  assert (Hin : In (s_file s) (map s_file (used_slots o))).
  { apply in_map. eapply nth_error_In with (n := Z.to_nat icut). rewrite used_slots_nth. dif E; [|lia].
    unfold zget in Hsl. destruct (icut <? 0) eqn:E0; [discriminate|exact Hsl]. }
  apply F3 in Hin. destruct Hin as (im & I1 & (A1 & A2 & A3 & A4 & A5)). rewrite P1 in I1. inversion I1; subst im.
  rewrite P2, P3. auto.
Qed.

(** C23 *)
Lemma check_indices_inv f iobj icut o : 0 <= iobj -> check_indices f iobj (Some icut) = Ok o ->
  zget (m_cat f) iobj = Some o /\ icut < o_ncut o.
Proof.
  intros Hi H. unfold check_indices in H. dif_in H E; [discriminate|]. apply bind_ok in H. destruct H as (o' & Ho & H).
  dif_in H E1; [discriminate|]. dif_in H E2; [discriminate|]. inversion H; subst o'.
  apply (py_index_ok_nonneg _ _ _ Hi) in Ho. split; [exact Ho|lia].
Qed.

Lemma check_indices_err f iobj icut e : 0 <= iobj -> check_indices f iobj (Some icut) = Err e -> e = ValueError.
Proof.
  intros Hi H. unfold check_indices in H. dif_in H E; [inversion H; reflexivity|].
  destruct (zget_range_Some (m_cat f) iobj) as (o & Ho); [lia|].
  rewrite (proj2 (py_index_ok_nonneg _ _ _ Hi) Ho) in H. cbn [bind] in H.
  dif_in H E1; [inversion H; reflexivity|]. dif_in H E2; [inversion H; reflexivity|discriminate].
Qed.

Lemma out_of_range_rejected f iobj icut : 0 <= iobj -> 0 <= icut ->
  ~ (exists o, zget (m_cat f) iobj = Some o /\ icut < o_ncut o) ->
  (forall t, get_cutout f iobj icut t = Err ValueError) /\
  get_psf f iobj icut = Err ValueError /\
  get_source_info f iobj icut = Err ValueError /\ get_source_path f iobj icut = Err ValueError /\
  get_jacobian f iobj icut = Err ValueError.
Proof.
  intros Hi Hk H. assert (E : check_indices f iobj (Some icut) = Err ValueError).
  { destruct (check_indices f iobj (Some icut)) as [o|e] eqn:E.
    - exfalso. apply H. exists o. apply check_indices_inv; assumption.
    - rewrite (check_indices_err _ _ _ _ Hi E). reflexivity. }
  unfold get_cutout, get_psf, get_source_path, get_source_info, get_jacobian. rewrite E. cbn [bind].
  split; [reflexivity|]. split; [destruct (m_psf f); reflexivity|]. repeat split; reflexivity.
Qed.

(** C24 *)
Lemma empty_object_rejected f iobj o : zget (m_cat f) iobj = Some o -> o_ncut o = 0 ->
  (forall t, get_mosaic f iobj t = Err ValueError /\ get_cutout_list f iobj t = Err ValueError) /\
  get_jacobian_list f iobj = Err ValueError /\
  get_psf_list f iobj = Ok [].
Proof.
  intros Ho Hn. pose proof (zget_Some_range _ _ _ Ho) as Hr.
  assert (E : check_indices f iobj None = Err ValueError).
  { unfold check_indices. dif E1; [lia|]. rewrite (proj2 (py_index_ok_nonneg _ _ _ (proj1 Hr)) Ho). cbn [bind].
    rewrite Hn. reflexivity. }
  split; [|split].
  - intros t. unfold get_cutout_list, get_mosaic. rewrite E. split; reflexivity.
  - unfold get_jacobian_list. rewrite E. reflexivity.
  - unfold get_psf_list. rewrite (proj2 (py_index_ok_nonneg _ _ _ (proj1 Hr)) Ho). cbn [bind]. rewrite Hn. reflexivity.
Qed.

Lemma psf_mosaic_never f iobj im : get_mosaic_any f iobj RPsf <> Ok im.
Proof.
  unfold get_mosaic_any. destruct (check_indices f iobj None); cbn [bind]; [|discriminate].
  destruct (get_slot a 0); cbn [bind]; discriminate.
Qed.
