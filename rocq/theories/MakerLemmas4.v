(** When the maker succeeds. *)
From Coq Require Import Lia ZifyBool ZifyNat String Sorted.
From Verif Require Import Base BaseLemmas Img ImgLemmas Types Reader MakerLayout MakerWrite MakerFile
  SpecTiles SpecLayout SpecFile StartLemmas StampLemmas WriteLemmas LayoutLemmas BuildLemmas PsfLemmas
  ReadLemmas CalibLemmas FileLemmas MakerLemmas MakerLemmas2 MakerLemmas3.
Open Scope Z_scope.
Ltac Zify.zify_post_hook ::= Z.div_mod_to_equations.

Lemma img_zip_same {A B C} (f : A -> B -> C) a b : same_shape a b -> exists c, img_zip f a b = Ok c.
Proof. intros [H1 H2]. unfold img_zip. rewrite H1, H2, !Z.eqb_refl. eexists; reflexivity. Qed.

Lemma opt_read {A} s (p : path A) : opt_path s p -> exists o, read_path (src_bytes s) p = Ok o /\
  (o = None \/ exists im, o = Some im /\ p = PFile im).
Proof.
  unfold opt_path. destruct p as [| |im]; simpl; intros H.
  - eexists; split; [reflexivity|left; reflexivity].
  - rewrite (H eq_refl). eexists; split; [reflexivity|left; reflexivity].
  - eexists; split; [reflexivity|right; exists im; auto].
Qed.

Lemma readable_ok u s t : readable u s t -> exists o, read_image u s t = Ok o.
Proof.
  destruct t; cbn [readable read_image].
  - intros (raw & E & Hb & Hs). rewrite E. cbn [read_path bind].
    destruct (opt_read s _ Hb) as (o & Ho & C). rewrite Ho. cbn [bind]. destruct C as [->|(im & -> & EP)].
    + cbn [bind]. eexists; reflexivity.
    + destruct (img_zip_same (fun x y => (x - y)%Q) raw im (Hs im EP)) as (z & ->). cbn [bind]. eexists; reflexivity.
  - intros (raw & E & Hz & Hs). rewrite E. cbn [read_path bind].
    assert (EZ : Qeq_bool (src_scale s) 0 = false).
    { destruct (Qeq_bool (src_scale s) 0) eqn:EZ; [|reflexivity]. apply Qeq_bool_iff in EZ. contradiction. }
    destruct u as [bad|]; cbn [bind].
    + destruct Hs as [Hb Hs]; [discriminate|]. destruct (opt_read s _ Hb) as (o & Ho & C). rewrite Ho. cbn [bind].
      destruct C as [->|(im & -> & EP)].
      * cbn [bind]. rewrite EZ. eexists; reflexivity.
      * destruct (img_zip_same (fun x b => if negb (Z.land b bad =? 0) then 0%Q else x) raw im (Hs im EP)) as (z & ->).
        cbn [bind]. rewrite EZ. eexists; reflexivity.
    + rewrite EZ. eexists; reflexivity.
  - intros H. destruct (opt_read s _ H) as (o & -> & _). eexists; reflexivity.
  - intros H. destruct (opt_read s _ H) as (o & -> & _). eexists; reflexivity.
  - intros H. destruct (opt_read s _ H) as (o & -> & _). eexists; reflexivity.
  - intros H. destruct (opt_read s _ H) as (o & -> & _). eexists; reflexivity.
Qed.

Lemma build_layout_possible c images input : layout_possible c images input ->
  exists cat total, build_layout c images (init_cat c images input) = Ok (cat, total).
Proof.
  intros (Hne & Hmax & Hc). rewrite build_layout_cases.
  assert (HK : kept c images input <> [] /\
     (first_image_is_coadd c && trim_to_coadd c = true -> zlen images <> 0 /\ length (kept c images input) <> 0%nat) /\
     match images with im :: _ => file_err c (kept c images input) 0 im | [] => None end = None).
  { destruct (first_image_is_coadd c) eqn:E1.
    - destruct Hc as [Hc1 Hc2]; [reflexivity|]. destruct images as [|im images].
      + assert (trim_to_coadd c = false) as ET.
        { destruct (trim_to_coadd c); [|reflexivity]. destruct Hc1 as (im & o & Him & _); [left; reflexivity|].
          discriminate. }
        rewrite ET. simpl. repeat split; auto; discriminate.
      + assert (EX : trim_to_coadd c = true \/ force_into_coadd_bounds c = true ->
                     exists o, In o input /\ acc c 0 im o = true).
        { intros HT. destruct (Hc1 HT) as (im' & o & Him & Ho & Ha). cbn in Him. inversion Him; subst.
          exists o. split; [exact Ho|]. apply acc_accepted. exact Ha. }
        assert (FN : trim_to_coadd c = true \/ force_into_coadd_bounds c = true ->
                     filter (acc c 0 im) input <> []).
        { intros HT. destruct (EX HT) as (o & Ho & Ha). intros EN.
          assert (Hin : In o (filter (acc c 0 im) input)) by (apply filter_In; auto). rewrite EN in Hin. contradiction. }
        assert (FF : filter (acc c 0 im) (filter (acc c 0 im) input) = filter (acc c 0 im) input).
        { rewrite filter_filter. clear. induction input as [|a l IH]; [reflexivity|]. simpl.
          destruct (acc c 0 im a); simpl; rewrite IH; reflexivity. }
        unfold kept, file_err. rewrite E1. cbn [andb Z.eqb]. destruct (trim_to_coadd c) eqn:ET.
        * specialize (FN (or_introl eq_refl)). split; [exact FN|]. split.
          { intros _. split; [unfold zlen; simpl; lia|]. destruct (filter _ input); [contradiction|simpl; lia]. }
          rewrite FF, Nat.eqb_refl. cbn [negb]. rewrite andb_false_r.
          destruct (filter (acc c 0 im) input) eqn:EF; [contradiction|]. cbn [length Nat.eqb]. rewrite andb_false_r. reflexivity.
        * split; [exact Hne|]. split; [discriminate|].
          assert (EC : check_in_coadd c = true -> length (filter (acc c 0 im) input) = length input).
          { intros HC. apply filter_all_length. intros x Hx. apply acc_accepted. apply (Hc2 HC eq_refl); [reflexivity|exact Hx]. }
          assert (EF : force_into_coadd_bounds c && (length (filter (acc c 0 im) input) =? 0)%nat = false).
          { destruct (force_into_coadd_bounds c) eqn:EF; [|reflexivity]. specialize (FN (or_intror eq_refl)).
            destruct (filter _ input); [contradiction|reflexivity]. }
          rewrite EF. destruct (check_in_coadd c); [|reflexivity]. rewrite EC by reflexivity. rewrite Nat.eqb_refl. reflexivity.
    - unfold kept, file_err. rewrite E1. cbn [andb]. destruct images; repeat split; auto; discriminate. }
  destruct HK as (K1 & K2 & K3). rewrite K3.
  destruct (first_image_is_coadd c && trim_to_coadd c) eqn:EB.
  - destruct (K2 eq_refl) as [K4 K5]. cbn [andb]. dif E1; [lia|]. dif E2; [lia|].
    rewrite over_enough.
    + destruct (finish_layout c images (Z.to_nat (nmax_of c images)) (kept c images input) K1) as (cat & total & ns & F1 & _).
      * apply over_enough. unfold nmax_of. rewrite Hmax, files_length. unfold zlen. destruct (_ <? 2) eqn:E; lia.
      * unfold nmax_of. destruct (_ <? 2) eqn:E; lia.
      * exists cat, total. exact F1.
    + unfold nmax_of. rewrite Hmax, files_length. unfold zlen. destruct (_ <? 2) eqn:E; lia.
  - cbn [andb]. rewrite over_enough.
    + destruct (finish_layout c images (Z.to_nat (nmax_of c images)) (kept c images input) K1) as (cat & total & ns & F1 & _).
      * apply over_enough. unfold nmax_of. rewrite Hmax, files_length. unfold zlen. destruct (_ <? 2) eqn:E; lia.
      * unfold nmax_of. destruct (_ <? 2) eqn:E; lia.
      * exists cat, total. exact F1.
    + unfold nmax_of. rewrite Hmax, files_length. unfold zlen. destruct (_ <? 2) eqn:E; lia.
Qed.

(** Writing the mosaics of the types with a fill value succeeds. *)
Lemma write_types_possible u cat srcs total types : forall ext,
  cat_wf cat -> Forall source_ok srcs -> tiles 0 (cut_ranges cat) total ->
  (forall t, In t types -> fill_value t <> None /\ forall s, In s srcs -> exists o, read_image u s t = Ok o) ->
  (forall t, In t types -> In t (map fst ext)) ->
  (forall t m, ext_find ext t = Some m -> zlen m = total) ->
  exists ext', write_types u cat srcs types ext = Ok ext'.
Proof.
  induction types as [|t types IH]; intros ext Hwf Hsrc Ht HT Hin HL; unfold write_types; cbn [foldM].
  - eexists; reflexivity.
  - assert (exists m, ext_find ext t = Some m) as (m & Hm).
    { specialize (Hin t (or_introl eq_refl)). clear -Hin. induction ext as [|[t0 m0] e IHe]; [contradiction|]. simpl.
      destruct (ctype_eqb t0 t) eqn:E; [eexists; reflexivity|]. apply IHe. destruct Hin as [<-|Ht]; [|exact Ht].
      simpl in E. rewrite ctype_eqb_refl in E. discriminate. }
    rewrite Hm. destruct (HT t (or_introl eq_refl)) as [Hv HR].
    destruct (fill_value t) as [v|] eqn:Ev; [clear Hv|contradiction]. rewrite (default_values_fill t v Ev).
    set (read := fun file_id => let* s := py_index srcs file_id in read_image u s t).
    set (imgs := fun f => match read f with Ok o => o | Err _ => None end).
    assert (Himgs : forall f im, imgs f = Some im -> img_ok im).
    { intros f im' E. unfold imgs, read in E. destruct (py_index srcs f) as [s|] eqn:Es; cbn [bind] in E; [|discriminate].
      destruct (read_image u s t) as [o|] eqn:Er; [|discriminate]. subst o.
      eapply calibrated_ok. eapply read_image_calibrated; [|exact Er].
      rewrite Forall_forall in Hsrc. apply Hsrc. unfold py_index in Es.
      destruct (zget srcs (if f <? 0 then f + zlen srcs else f)) eqn:Z0; [|discriminate].
      inversion Es; subst. eapply zget_In; exact Z0. }
    destruct (write_cutouts_spec v cat (zlen srcs) imgs Hwf Himgs read m) as (h & W1 & W2 & _).
    + intros f Hf. destruct (zget_range_Some srcs f Hf) as (s & Hs). unfold imgs, read.
      rewrite (proj2 (py_index_ok_nonneg srcs f s (proj1 Hf)) Hs). cbn [bind].
      destruct (HR s (zget_In _ _ _ Hs)) as (o & ->). reflexivity.
    + rewrite (HL t m Hm). exact Ht.
    + rewrite W1. cbn [bind]. apply (IH (ext_set ext t h)); try assumption.
      * intros t' Ht'. apply HT. right; exact Ht'.
      * intros t' Ht'. rewrite ext_set_fst. apply Hin. right; exact Ht'.
      * intros t' m'. rewrite ext_set_find, Hm. destruct (ctype_eqb t t'); [|apply HL].
        intros E; injection E as <-. rewrite W2. apply (HL t m Hm).
Qed.

Lemma laid_out_cat_wf0 c images nslots objs cat : Forall2 (laid_out c images nslots) objs cat ->
  Forall (fun o => 0 <= o_box o) objs -> cat_wf cat.
Proof.
  induction 1 as [|o o' objs cat Ho Hc IH]; intros Hb; constructor; inversion Hb; subst.
  - destruct Ho as (_ & _ & _ & _ & _ & _ & _ & L8 & L9 & L10 & _). split; [lia|]. rewrite L8. lia.
  - apply IH; assumption.
Qed.

Lemma make_meds_succeeds k types tys rows input junk pjunk :
  types_of types tys -> layout_possible (k_l k) (map ir_image rows) input ->
  Forall (fun o => 0 <= o_box o) input -> Forall (fun r => source_ok (ir_src r)) rows ->
  (forall t, In t tys -> fill_value t <> None /\ forall r, In r rows -> readable (k_unusable k) (ir_src r) t) ->
  exists f, make_meds k types rows None input junk pjunk = Ok f.
Proof.
  intros HT HL Hb Hsrc HR. destruct (build_layout_possible _ _ _ HL) as (cat & total & HB).
  destruct (build_layout_inv _ _ _ _ _ HB) as (objs & ns & B1 & B2 & B3 & B4 & B5 & B6 & B7).
  assert (Hwf : cat_wf cat).
  { eapply laid_out_cat_wf0; [exact B3|]. rewrite Forall_forall in *. intros o Ho. apply Hb.
    eapply selected_In; eassumption. }
  destruct (write_types_possible (k_unusable k) cat (map ir_src rows) total tys (reserve tys total junk)) as (ext & W).
  - exact Hwf.
  - apply Forall_map; exact Hsrc.
  - exact B6.
  - intros t Ht. destruct (HR t Ht) as [A B]. split; [exact A|]. intros s Hs. apply in_map_iff in Hs.
    destruct Hs as (r & <- & Hr). apply readable_ok. apply B. exact Hr.
  - intros t Ht. rewrite reserve_fst. exact Ht.
  - intros t m. apply reserve_len. eapply tiles_le; exact B6.
  - eexists. eapply (make_meds_intro k types rows None input junk pjunk tys cat total cat 0 ext None);
      auto; exact I.
Qed.

(** * With psfs *)

Definition wproj (k : obj * Z * slot) : Z * Z * Z * Z * Z :=
  (s_file (k_slot k), s_osr (k_slot k), s_osc (k_slot k), s_start (k_slot k), o_box (k_obj k)).

Lemma write_file_proj {A} (fill : res A) cat f im hdu : Forall ncut_ok cat ->
  write_file_cutouts fill cat f im hdu =
  foldM (fun st p => let '(fi, osr, osc, start, box) := p in
     if fi =? f then let* stamp := make_stamp fill box osr osc im in write_at st start (dat stamp) else Ok st)
    (map wproj (cat_keys cat)) hdu.
Proof.
  intros Hn. unfold write_file_cutouts.
  rewrite (foldM_cat_keys (fun hdu o icut s => if s_file s =? f then write_cutout fill o icut hdu im else Ok hdu) cat hdu Hn).
  rewrite foldM_map. apply foldM_ext_in. intros st [[o c] s] Hk. cbn [wproj k_slot k_obj k_cut fst snd].
  destruct (s_file s =? f); [|reflexivity]. unfold write_cutout. apply in_cat_keys' in Hk; [|exact Hn].
  destruct Hk as (_ & _ & Hs). rewrite (get_slot_ok _ _ _ Hs). reflexivity.
Qed.

Lemma obj_keys_proj o : ncut_ok o ->
  map wproj (map (fun ks => (o, fst ks, snd ks)) (combine (zrange (o_ncut o)) (used_slots o))) =
  map (fun s => (s_file s, s_osr s, s_osc s, s_start s, o_box o)) (used_slots o).
Proof.
  intros Ho. rewrite map_map. unfold wproj, k_slot, k_obj. cbn [snd fst].
  apply (map_combine_snd (fun s => (s_file s, s_osr s, s_osc s, s_start s, o_box o))).
  rewrite zrange_length. unfold used_slots. rewrite firstn_length. unfold ncut_ok, zlen in Ho. lia.
Qed.

Lemma pstarted_ncut_ok c pc ps st o : ncut_ok o -> ncut_ok (pstarted c pc ps st o).
Proof. unfold ncut_ok, pstarted, zlen. cbn [o_ncut o_slots set_slots]. rewrite pstarts_length. auto. Qed.

Lemma pstarted_cat_ncut_ok c pc ps cat : Forall ncut_ok cat -> forall st, Forall ncut_ok (pstarted_cat c pc ps st cat).
Proof.
  induction 1 as [|o cat Ho Hc IH]; intros st; cbn [pstarted_cat]; constructor;
    [apply pstarted_ncut_ok; exact Ho|apply IH].
Qed.

Lemma pstarted_proj c pc ps cat : Forall ncut_ok cat -> forall st,
  map wproj (cat_keys (pstarted_cat c pc ps st cat)) = map wproj (cat_keys cat).
Proof.
  induction 1 as [|o cat Ho Hc IH]; intros st; [reflexivity|]. cbn [pstarted_cat]. unfold cat_keys in *. cbn [flat_map].
  rewrite !map_app, IH. f_equal. rewrite (obj_keys_proj o Ho), (obj_keys_proj _ (pstarted_ncut_ok c pc ps st o Ho)).
  unfold used_slots, pstarted. cbn [o_ncut o_slots o_box set_slots].
  generalize (Z.to_nat (o_ncut o)) as n. generalize st. generalize (o_slots o). clear.
  induction l as [|s sl IH]; intros st [|n]; try reflexivity. cbn [pstarts firstn map]. f_equal. apply IH.
Qed.

Lemma write_types_psf u c pc ps cat srcs types ext : Forall ncut_ok cat ->
  write_types u (pstarted_cat c pc ps 0 cat) srcs types ext = write_types u cat srcs types ext.
Proof.
  intros Hn. unfold write_types. apply foldM_ext. intros e t. destruct (ext_find e t) as [m|]; [|reflexivity].
  apply (f_equal (fun r => bind r _)). unfold write_cutouts. apply foldM_ext. intros h f.
  apply bind_ext. intros o _. destruct o as [im|]; [|reflexivity].
  rewrite !write_file_proj; [|exact Hn|apply pstarted_cat_ncut_ok; exact Hn].
  rewrite pstarted_proj by exact Hn. reflexivity.
Qed.

(** put_psf over keys whose ranges tile the mosaic: ValueError at the first mismatch. *)
Lemma put_all_result c pc ps ks : forall h : list Q,
  (forall k, In k ks -> img_ok (rendered c pc ps (k_obj k) (k_slot k)) /\
     0 <= s_psf_start (k_slot k) /\
     s_psf_start (k_slot k) + s_psf_nr (k_slot k) * s_psf_nc (k_slot k) <= zlen h) ->
  let good := forallb (fun k => (nr (rendered c pc ps (k_obj k) (k_slot k)) =? s_psf_nr (k_slot k)) &&
                                (nc (rendered c pc ps (k_obj k) (k_slot k)) =? s_psf_nc (k_slot k))) ks in
  if good then exists h', foldM (fun h k => put_psf (k_slot k) (rendered c pc ps (k_obj k) (k_slot k)) h) ks h = Ok h'
  else foldM (fun h k => put_psf (k_slot k) (rendered c pc ps (k_obj k) (k_slot k)) h) ks h = Err ValueError.
Proof.
  induction ks as [|k ks IH]; intros h H; cbn [forallb foldM]; [eexists; reflexivity|].
  unfold put_psf at 1 3.
  destruct ((nr (rendered c pc ps (k_obj k) (k_slot k)) =? s_psf_nr (k_slot k)) &&
            (nc (rendered c pc ps (k_obj k) (k_slot k)) =? s_psf_nc (k_slot k))) eqn:E; cbn [andb bind]; [|reflexivity].
  destruct (H k (or_introl eq_refl)) as ((A1 & A2 & A3) & B & C).
  destruct (write_at_in_range h (s_psf_start (k_slot k)) (dat (rendered c pc ps (k_obj k) (k_slot k))) B) as (h1 & W).
  { rewrite A3. assert (nr (rendered c pc ps (k_obj k) (k_slot k)) = s_psf_nr (k_slot k) /\
                        nc (rendered c pc ps (k_obj k) (k_slot k)) = s_psf_nc (k_slot k)) as [-> ->] by lia. exact C. }
  rewrite W. cbn [bind]. apply (IH h1). intros k' Hk'. destruct (H k' (or_intror Hk')) as (A' & B' & C').
  apply write_at_ok in W. destruct W as (_ & _ & HL & _). rewrite HL. auto.
Qed.

Lemma make_meds_psf k types rows ps input junk pjunk f0 :
  make_meds k types rows None input junk pjunk = Ok f0 -> zlen ps = zlen rows -> 1 <= k_njob k ->
  (forall p r c col, In p ps -> img_ok (p_rec p r c col)) ->
  (forall p r c col, In p ps -> 0 <= fst (psf_shape p r c col) /\ 0 <= snd (psf_shape p r c col)) ->
  let matching := forall iobj icut o s p, cutout_at f0 iobj icut o s -> zget ps (s_file s) = Some p ->
     let col := psf_color_arg (k_l k) (k_p k) (s_file s) o in
     psf_shape p (s_orow s) (s_ocol s) col =
     (nr (p_rec p (s_orow s) (s_ocol s) col), nc (p_rec p (s_orow s) (s_ocol s) col)) in
  (matching -> exists f, make_meds k types rows (Some ps) input junk pjunk = Ok f) /\
  (~ matching -> make_meds k types rows (Some ps) input junk pjunk = Err ValueError).
Proof.
  intros H HL Hj Hok Hsh matching. apply make_meds_inv in H.
  destruct H as (tys & cat0 & total & cat & tp & ext & p & H1 & _ & H3 & [-> ->] & H5 & H6 & ->). subst p.
  destruct (build_layout_inv _ _ _ _ _ H3) as (objs & ns & B1 & B2 & B3 & B4 & B5 & B6 & B7).
  assert (HL' : zlen ps = zlen (map ir_image rows)) by (rewrite zlen_map; exact HL).
  pose proof (psf_files_valid _ _ _ _ _ ps HL' B3) as V0. pose proof (laid_out_ncut_ok _ _ _ _ _ B3) as N0.
  pose proof (pstarted_cat_laid_out _ (k_p k) ps _ _ _ _ B3 0) as F'.
  set (cat := pstarted_cat (k_l k) (k_p k) ps 0 cat0) in *.
  pose proof (psf_files_valid _ _ _ _ _ ps HL' F') as V. pose proof (laid_out_ncut_ok _ _ _ _ _ F') as N.
  set (tot := fold_right Z.add 0 (map (ptotal (k_l k) (k_p k) ps) cat0)).
  assert (HP : set_psf_layout (k_l k) (k_p k) ps cat0 = Ok (cat, tot)) by (apply set_psf_layout_eq; assumption).
  assert (SL : forall o s, In o cat -> In s (used_slots o) -> psf_slot_ok (k_l k) (k_p k) ps o s).
  { pose proof (pstarted_cat_slot_ok (k_l k) (k_p k) ps cat0 V0 0) as SL. fold cat in SL.
    rewrite Forall_forall in SL. intros o s Ho. specialize (SL o Ho). rewrite Forall_forall in SL. apply SL. }
  assert (NN : Forall (fun o => Forall (fun s => 0 <= pnpix (k_l k) (k_p k) ps o s) (used_slots o)) cat0).
  { apply (pnpix_nonneg _ _ _ _ 0). fold cat. intros o s Ho Hs. destruct (SL o s Ho Hs) as (p & Hp & Q1 & _).
    destruct (Hsh p (s_orow s) (s_ocol s) (psf_color_arg (k_l k) (k_p k) (s_file s) o) (zget_In _ _ _ Hp)) as [A B].
    rewrite <- Q1 in A, B. simpl in A, B. nia. }
  pose proof (pstarted_cat_tiles (k_l k) (k_p k) ps cat0 N0 NN 0) as TP. fold cat in TP. simpl in TP. fold tot in TP.
  pose proof (tiles_le _ _ _ TP) as Htot.
  assert (HB : zlen (map pjunk (zrange tot)) = tot) by (rewrite zlen_map, zlen_zrange; [reflexivity|lia]).
  pose proof TP as TP'. rewrite <- (cat_keys_psf_ranges _ N) in TP'.
  destruct (tiles_keys p_range _ _ _ TP') as [K1 _].
  pose proof (put_all_result (k_l k) (k_p k) ps (cat_keys cat) (map pjunk (zrange tot))) as PR.
  cbv zeta in PR.
  assert (PH : forall kk, In kk (cat_keys cat) -> img_ok (rendered (k_l k) (k_p k) ps (k_obj kk) (k_slot kk)) /\
     0 <= s_psf_start (k_slot kk) /\
     s_psf_start (k_slot kk) + s_psf_nr (k_slot kk) * s_psf_nc (k_slot kk) <= zlen (map pjunk (zrange tot))).
  { intros kk Hkk. destruct (key_used _ _ N Hkk) as [U1 U2]. destruct (SL _ _ U1 U2) as (p & Hp & _). split.
    - unfold rendered. rewrite Hp. apply Hok. eapply zget_In; exact Hp.
    - destruct (K1 kk Hkk) as (A & B & C). unfold p_range in *. cbn [fst snd] in *. lia. }
  specialize (PR PH).
  set (good := forallb _ (cat_keys cat)) in PR.
  (* relation between the two catalogs *)
  assert (REL : forall i o o', zget cat0 i = Some o -> zget cat i = Some o' -> exists st, o' = pstarted (k_l k) (k_p k) ps st o).
  { apply (Forall2_zget (fun o o' => exists st, o' = pstarted (k_l k) (k_p k) ps st o)). apply pstarted_cat_Forall2. }
  assert (LEN : zlen cat0 = zlen cat).
  { apply (Forall2_zget (fun o o' => exists st, o' = pstarted (k_l k) (k_p k) ps st o)). apply pstarted_cat_Forall2. }
  assert (MG : matching <-> good = true).
  { unfold good. rewrite forallb_forall. split.
    - intros M [[o' c] s'] Hk. cbn [k_obj k_slot fst snd].
      apply in_cat_keys' in Hk; [|exact N]. destruct Hk as (Ho' & Hc & Hs').
      destruct (In_zget _ _ Ho') as (i & Hi). destruct (zget_range_Some cat0 i) as (o & Ho);
        [rewrite LEN; eapply zget_Some_range; exact Hi|].
      destruct (REL i o o' Ho Hi) as (st & ->).
      pose proof Hs' as Hs2. unfold zget in Hs2. destruct (c <? 0) eqn:E0; [discriminate|].
      unfold pstarted in Hs2. cbn [o_slots set_slots] in Hs2. apply pstarts_nth in Hs2. destruct Hs2 as (s & st0 & Hs2 & ->).
      cbn [o_ncut pstarted set_slots] in Hc.
      assert (HV : file_valid ps s).
      { rewrite Forall_forall in V0. specialize (V0 o (zget_In _ _ _ Ho)). rewrite Forall_forall in V0. apply V0.
        eapply nth_error_In with (n := Z.to_nat c). rewrite used_slots_nth. dif E; [exact Hs2|lia]. }
      destruct (zget_range_Some ps (s_file s) HV) as (p & Hp).
      specialize (M i c o s p). cbv zeta in M. dif E; [|lia].
      assert (Hz : zget (o_slots o) c = Some s) by (unfold zget; rewrite E0; exact Hs2).
      assert (MM := M (conj Ho (conj Hc Hz)) Hp).
      unfold rendered. cbn [s_file set_psf s_psf_nr s_psf_nc s_orow s_ocol]. rewrite Hp.
      change (psf_color_arg (k_l k) (k_p k) (s_file s) (pstarted (k_l k) (k_p k) ps st o))
        with (psf_color_arg (k_l k) (k_p k) (s_file s) o).
      unfold psh. rewrite Hp, MM. cbn [fst snd]. rewrite !Z.eqb_refl. reflexivity.
    - intros G i c o s p (Ho & Hc & Hs) Hp. cbv zeta. cbn [m_cat] in Ho.
      destruct (zget_range_Some cat i) as (o' & Ho'); [rewrite <- LEN; eapply zget_Some_range; exact Ho|].
      destruct (REL i o o' Ho Ho') as (st & ->).
      pose proof (zget_Some_range _ _ _ Hs) as Hr.
      destruct (zget_range_Some (o_slots (pstarted (k_l k) (k_p k) ps st o)) c) as (s' & Hs').
      { unfold pstarted, zlen. cbn [o_slots set_slots]. rewrite pstarts_length. exact Hr. }
      assert (Hk : In (pstarted (k_l k) (k_p k) ps st o, c, s') (cat_keys cat)).
      { apply in_cat_keys'; [exact N|]. split; [eapply zget_In; exact Ho'|]. split; [exact Hc|exact Hs']. }
      specialize (G _ Hk). cbn [k_obj k_slot fst snd] in G.
      unfold zget in Hs', Hs. destruct (c <? 0) eqn:E0; [discriminate|].
      unfold pstarted in Hs'. cbn [o_slots set_slots] in Hs'. apply pstarts_nth in Hs'. destruct Hs' as (s0 & st0 & Hs0 & ->).
      rewrite Hs0 in Hs. inversion Hs; subst s0; clear Hs. dif_in G E; [|lia].
      unfold rendered in G. cbn [s_file set_psf s_psf_nr s_psf_nc s_orow s_ocol] in G. rewrite Hp in G.
      change (psf_color_arg (k_l k) (k_p k) (s_file s) (pstarted (k_l k) (k_p k) ps st o))
        with (psf_color_arg (k_l k) (k_p k) (s_file s) o) in G.
      unfold psh in G. rewrite Hp in G. apply andb_true_iff in G. destruct G as [G1 G2].
      rewrite (surjective_pairing (psf_shape p (s_orow s) (s_ocol s) (psf_color_arg (k_l k) (k_p k) (s_file s) o))).
      f_equal; lia. }
  assert (W' : write_types (k_unusable k) cat (map ir_src rows) tys (reserve tys total junk) = Ok ext)
    by (unfold cat; rewrite write_types_psf; assumption).
  rewrite <- (serial_flat (k_l k) (k_p k) ps cat (map pjunk (zrange tot)) N V) in PR.
  split.
  - intros M. apply MG in M. rewrite M in PR. destruct PR as (h & PR).
    eexists. eapply (make_meds_intro k types rows (Some ps) input junk pjunk tys cat0 total cat tot ext (Some h));
      try eassumption.
    exists h. split; [reflexivity|]. destruct (k_joblib k); [rewrite joblib_serial; assumption|exact PR].
  - intros M. assert (EG : good = false) by (destruct good; [exfalso; apply M; apply MG; reflexivity|reflexivity]).
    rewrite EG in PR. destruct H1 as (names & HN & HT).
    unfold make_meds, new_maker, write, full_layout, write_data.
    rewrite HN. cbn [bind]. rewrite HT. cbn [bind]. rewrite HL, Z.eqb_refl.
    cbn [bind mk_conf mk_rows mk_psf mk_cat k_l k_p k_unusable k_types k_joblib k_njob k_number_col].
    rewrite H3. cbn [bind fst snd]. rewrite HP. cbn [bind fst snd]. rewrite W'. cbn [bind].
    destruct (k_joblib k); [rewrite joblib_serial by assumption|]; rewrite PR; reflexivity.
Qed.
