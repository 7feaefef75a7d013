(** What a successfully written file contains. *)
From Coq Require Import Lia ZifyBool ZifyNat String.
From Verif Require Import Base BaseLemmas Img ImgLemmas Types Reader MakerLayout MakerWrite MakerFile
  SpecTiles SpecLayout SpecFile StartLemmas StampLemmas WriteLemmas LayoutLemmas BuildLemmas PsfLemmas
  ReadLemmas CalibLemmas.
Open Scope Z_scope.
Ltac Zify.zify_post_hook ::= Z.div_mod_to_equations.

Lemma ctype_eqb_eq a b : ctype_eqb a b = true <-> a = b.
Proof. destruct a, b; simpl; split; intros H; try reflexivity; discriminate. Qed.

Lemma ctype_eqb_refl t : ctype_eqb t t = true.
Proof. destruct t; reflexivity. Qed.

Lemma ctype_eq_dec (a b : ctype) : {a = b} + {a <> b}.
Proof. decide equality. Defined.

Lemma ext_set_find e t m t' : ext_find (ext_set e t m) t' =
  if ctype_eqb t t' then match ext_find e t with Some _ => Some m | None => None end
  else ext_find e t'.
Proof.
  induction e as [|[t0 m0] e IH]; simpl.
  - destruct (ctype_eqb t t'); reflexivity.
  - destruct (ctype_eqb t0 t) eqn:E; simpl.
    + apply ctype_eqb_eq in E; subst t0. destruct (ctype_eqb t t') eqn:E'; reflexivity.
    + destruct (ctype_eqb t0 t') eqn:E'.
      * apply ctype_eqb_eq in E'; subst t0. destruct (ctype_eqb t t') eqn:E2; [|reflexivity].
        apply ctype_eqb_eq in E2; subst. rewrite ctype_eqb_refl in E. discriminate.
      * exact IH.
Qed.

Lemma ext_set_fst e t m : map fst (ext_set e t m) = map fst e.
Proof.
  induction e as [|[t0 m0] e IH]; simpl; [reflexivity|]. destruct (ctype_eqb t0 t); simpl; [reflexivity|].
  rewrite IH; reflexivity.
Qed.

Lemma default_values_fill t v : fill_value t = Some v -> default_values t = Ok v.
Proof. destruct t; simpl; intros H; inversion H; reflexivity. Qed.

(** Success implies that every file could be read, and keeps the length. *)
Lemma write_cutouts_inv {A} (fill : res A) cat nfile read hdu hdu' :
  write_cutouts fill cat nfile read hdu = Ok hdu' ->
  (forall f, 0 <= f < nfile -> exists o, read f = Ok o) /\ zlen hdu' = zlen hdu.
Proof.
  unfold write_cutouts. intros H. split.
  - assert (G : forall fs h h', foldM (fun hdu file_id =>
        let* im := read file_id in
        match im with None => Ok hdu | Some im_data => write_file_cutouts fill cat file_id im_data hdu end) fs h = Ok h' ->
        forall f, In f fs -> exists o, read f = Ok o).
    { induction fs as [|f fs IH]; intros h h' E f' Hf'; [contradiction|]. cbn [foldM] in E.
      apply bind_ok in E. destruct E as (h1 & E1 & E2). destruct Hf' as [<-|Hf'].
      - apply bind_ok in E1. destruct E1 as (o & Ho & _). exists o; exact Ho.
      - eapply IH; eassumption. }
    intros f Hf. eapply G; [exact H|]. apply In_zrange. exact Hf.
  - revert H. apply (foldM_inv (fun h => zlen h = zlen hdu)); [reflexivity|].
    intros h f h' _ Hh E. apply bind_ok in E. destruct E as (o & _ & E). destruct o as [im|].
    + revert E. unfold write_file_cutouts. apply (foldM_inv (fun h => zlen h = zlen hdu)); [exact Hh|].
      intros h1 o h2 _ Hh1. apply (foldM_inv (fun h => zlen h = zlen hdu)); [exact Hh1|].
      intros h3 k h4 _ Hh3 E. apply bind_ok in E. destruct E as (s & _ & E).
      destruct (s_file s =? f); [|inversion E; subst; exact Hh3].
      unfold write_cutout in E. apply bind_ok in E. destruct E as (s' & _ & E).
      apply bind_ok in E. destruct E as (st & _ & E). apply write_at_ok in E. lia.
    + inversion E; subst. exact Hh.
Qed.

Section Types.
  Context (u : option Z) (cat : list obj) (srcs : list source) (total : Z).
  Hypothesis Hwf : cat_wf cat.
  Hypothesis Hsrc : Forall source_ok srcs.
  Hypothesis Htiles : tiles 0 (cut_ranges cat) total.

  (** Content of the mosaic of type [t]. *)
  Definition content (t : ctype) (m : list Q) : Prop :=
    forall v, fill_value t = Some v ->
    forall k src im, In k (cat_keys cat) -> zget srcs (s_file (k_slot k)) = Some src ->
      read_image u src t = Ok (Some im) ->
      forall j, 0 <= j < o_box (k_obj k) * o_box (k_obj k) ->
      zget m (s_start (k_slot k) + j) =
      zget (dat (crop v im (s_osr (k_slot k)) (s_osc (k_slot k)) (o_box (k_obj k)))) j.

  Lemma write_type_content t hdu hdu' : zlen hdu = total ->
    write_cutouts (default_values t) cat (zlen srcs)
      (fun file_id => let* s := py_index srcs file_id in read_image u s t) hdu = Ok hdu' ->
    zlen hdu' = total /\ content t hdu'.
  Proof.
    intros HL H. pose proof (write_cutouts_inv _ _ _ _ _ _ H) as [HR HL'].
    split; [lia|]. intros v Hv k src im Hk Hs Him j Hj.
    rewrite (default_values_fill t v Hv) in H.
    set (read := fun file_id => let* s := py_index srcs file_id in read_image u s t) in *.
    set (imgs := fun f => match read f with Ok o => o | Err _ => None end).
    assert (Himgs : forall f im, imgs f = Some im -> img_ok im).
    { intros f im' E. unfold imgs, read in E. destruct (py_index srcs f) as [s|] eqn:Es; cbn [bind] in E; [|discriminate].
      destruct (read_image u s t) as [o|] eqn:Er; [|discriminate]. subst o.
      eapply calibrated_ok. eapply read_image_calibrated; [|exact Er].
      rewrite Forall_forall in Hsrc. apply Hsrc. unfold py_index in Es.
      destruct (zget srcs (if f <? 0 then f + zlen srcs else f)) eqn:Z0; [|discriminate].
      inversion Es; subst. eapply zget_In; exact Z0. }
    destruct (write_cutouts_spec v cat (zlen srcs) imgs Hwf Himgs read hdu) as (h & W1 & W2 & W3 & _).
    - intros f Hf. destruct (HR f Hf) as (o & Ho). unfold imgs. fold read in Ho. change ((let* s := py_index srcs f in read_image u s t)) with (read f) in Ho. rewrite Ho. reflexivity.
    - rewrite HL. exact Htiles.
    - rewrite W1 in H. inversion H; subst. pose proof (zget_Some_range _ _ _ Hs) as Hr.
      apply W3; auto. unfold imgs, read.
      rewrite (proj2 (py_index_ok_nonneg srcs _ src (proj1 Hr)) Hs). cbn [bind]. rewrite Him. reflexivity.
  Qed.

  Lemma write_types_content types : forall ext ext',
    (forall t m, ext_find ext t = Some m -> zlen m = total) ->
    write_types u cat srcs types ext = Ok ext' ->
    map fst ext' = map fst ext /\
    (forall t m, ext_find ext' t = Some m -> zlen m = total) /\
    (forall t, ~ In t types -> ext_find ext' t = ext_find ext t) /\
    (forall t, In t types -> exists m, ext_find ext' t = Some m /\ content t m) /\
    (forall t f src, In t types -> zget srcs f = Some src -> exists o, read_image u src t = Ok o).
  Proof.
    induction types as [|t types IH]; intros ext ext' HL H; unfold write_types in H; cbn [foldM] in H.
    - inversion H; subst. repeat split; auto; intros; contradiction.
    - apply bind_ok in H. destruct H as (ext1 & H1 & H2).
      destruct (ext_find ext t) as [hdu|] eqn:EF; [|discriminate].
      apply bind_ok in H1. destruct H1 as (hdu' & W & E). inversion E; subst ext1; clear E.
      pose proof (write_cutouts_inv _ _ _ _ _ _ W) as [HR _].
      destruct (write_type_content t hdu hdu' (HL t hdu EF) W) as [L1 C1].
      assert (HL1 : forall t' m, ext_find (ext_set ext t hdu') t' = Some m -> zlen m = total).
      { intros t' m. rewrite ext_set_find, EF. destruct (ctype_eqb t t'); [|apply HL].
        intros E; injection E as <-; exact L1. }
      destruct (IH _ _ HL1 H2) as (I1 & I2 & I3 & I4 & I5).
      split; [rewrite I1; apply ext_set_fst|]. split; [exact I2|]. split; [|split].
      + intros t' Ht'. rewrite I3 by (intros ?; apply Ht'; right; assumption).
        rewrite ext_set_find. destruct (ctype_eqb t t') eqn:E; [|reflexivity].
        apply ctype_eqb_eq in E; subst. exfalso; apply Ht'; left; reflexivity.
      + intros t' Ht'. destruct (in_dec ctype_eq_dec t' types) as [Hin|Hn]; [apply I4; exact Hin|].
        destruct Ht' as [<-|Ht']; [|contradiction]. exists hdu'. split; [|exact C1].
        rewrite I3 by exact Hn. rewrite ext_set_find, EF, ctype_eqb_refl. reflexivity.
      + intros t' f src Ht' Hs. destruct (in_dec ctype_eq_dec t' types) as [Hin|Hn].
        * apply (I5 t' f src Hin Hs).
        * destruct Ht' as [<-|Ht']; [|contradiction]. pose proof (zget_Some_range _ _ _ Hs) as Hr.
          destruct (HR f Hr) as (o & Ho). rewrite (proj2 (py_index_ok_nonneg srcs _ src (proj1 Hr)) Hs) in Ho.
          exists o. exact Ho.
  Qed.
End Types.

(** * Trimming in specification terms *)

Lemma restricted_filter {A} (P : A -> Prop) (p : A -> bool) l :
  (forall a, p a = true <-> P a) -> restricted P l (filter p l).
Proof.
  intros H. induction l as [|a l IH]; simpl; [constructor|]. destruct (p a) eqn:E.
  - constructor; [apply H; exact E|exact IH].
  - constructor; [|exact IH]. intros HP. apply H in HP. congruence.
Qed.

Lemma kept_selected c images input :
  first_image_is_coadd c && trim_to_coadd c && (zlen images =? 0) = false ->
  selected c images input (kept c images input).
Proof.
  intros H. unfold selected, kept. destruct (first_image_is_coadd c && trim_to_coadd c) eqn:E.
  - destruct images as [|im ims]; [discriminate|]. exists im. split; [reflexivity|].
    apply restricted_filter. intros a. apply acc_accepted.
  - destruct images; reflexivity.
Qed.

Lemma build_layout_inv c images input cat total :
  build_layout c images (init_cat c images input) = Ok (cat, total) ->
  exists objs nslots,
    selected c images input objs /\ objs <> [] /\
    Forall2 (laid_out c images nslots) objs cat /\
    (nslots = 2 \/ exists o', In o' cat /\ o_ncut o' = nslots) /\ 2 <= nslots /\
    tiles 0 (cut_ranges cat) total /\
    (forall im, zget images 0 = Some im -> file_err c objs 0 im = None).
Proof.
  intros H. rewrite build_layout_cases in H.
  dif_in H E1; [discriminate|]. dif_in H E2; [discriminate|].
  destruct (match images with [] => None | im :: _ => file_err c (kept c images input) 0 im end) as [e|] eqn:E3;
    [discriminate|].
  dif_in H E4; [discriminate|].
  assert (Hne : kept c images input <> []).
  { intros E. rewrite E in H. discriminate. }
  destruct (finish_layout c images (Z.to_nat (nmax_of c images)) (kept c images input) Hne E4)
    as (cat' & total' & nslots & F1 & F2 & F3 & F4 & F5).
  { unfold nmax_of. destruct (_ <? 2) eqn:E; lia. }
  rewrite F1 in H. inversion H; subst.
  exists (kept c images input), nslots. split; [apply kept_selected; exact E1|].
  split; [exact Hne|]. split; [exact F2|]. split; [exact F3|]. split; [exact F4|]. split; [exact F5|].
  intros im Him. destruct images as [|im0 ims]; [discriminate|]. unfold zget in Him; simpl in Him.
  inversion Him; subst. exact E3.
Qed.

(** The psf layout keeps the layout. *)
Lemma pstarted_laid_out c pc psfs images nslots st o o' :
  laid_out c images nslots o o' -> laid_out c images nslots o (pstarted c pc psfs st o').
Proof.
  intros (L1 & L2 & L3 & L4 & L5 & L6 & L7 & L8 & L9 & L10 & L11 & L12 & L13).
  assert (EF : map s_file (firstn (Z.to_nat (o_ncut o')) (pstarts c pc psfs (Z.to_nat (o_ncut o')) st o' (o_slots o')))
             = map s_file (firstn (Z.to_nat (o_ncut o')) (o_slots o'))).
  { generalize (Z.to_nat (o_ncut o')) (o_slots o') st. clear. induction n as [|n IH]; intros [|s sl] st; try reflexivity.
    cbn [pstarts firstn map]. f_equal. apply IH. }
  unfold laid_out, pstarted. cbn [o_id o_number o_ra o_dec o_color o_wcs_color o_psf_color o_box o_ncut o_slots set_slots].
  repeat (split; [assumption|]). split; [unfold zlen; rewrite pstarts_length; exact L9|].
  split; [exact L10|]. rewrite EF. split; [exact L11|]. split; [exact L12|].
  intros k s Hs. pose proof (zget_Some_range _ _ _ Hs) as Hr. unfold zget in Hs.
  destruct (k <? 0) eqn:E0; [discriminate|].
  apply pstarts_nth in Hs. destruct Hs as (s0 & st0 & H0 & ->).
  destruct (L13 k s0) as [A B]; [unfold zget; rewrite E0; exact H0|]. split.
  - intros Hk. dif E; [|lia]. destruct (A Hk) as (im & D). exists im. exact D.
  - intros Hk. dif E; [lia|]. apply B. exact Hk.
Qed.

Lemma pstarted_cat_laid_out c pc psfs images nslots objs cat :
  Forall2 (laid_out c images nslots) objs cat -> forall st,
  Forall2 (laid_out c images nslots) objs (pstarted_cat c pc psfs st cat).
Proof.
  induction 1 as [|o o' objs cat Ho Hc IH]; intros st; cbn [pstarted_cat]; constructor.
  - apply pstarted_laid_out; exact Ho.
  - apply IH.
Qed.

Lemma pstarted_cut_ranges c pc psfs cat : forall st, cut_ranges (pstarted_cat c pc psfs st cat) = cut_ranges cat.
Proof.
  induction cat as [|o cat IH]; intros st; [reflexivity|]. cbn [pstarted_cat].
  unfold cut_ranges in *. cbn [flat_map]. rewrite IH. f_equal.
  unfold used_slots, pstarted. cbn [o_ncut o_slots o_box set_slots].
  generalize (Z.to_nat (o_ncut o)) (o_slots o) st. clear. induction n as [|n IH]; intros [|s sl] st; try reflexivity.
  cbn [pstarts firstn map]. f_equal. apply IH.
Qed.

Lemma laid_out_ncut_ok c images nslots objs cat :
  Forall2 (laid_out c images nslots) objs cat -> Forall ncut_ok cat.
Proof.
  induction 1 as [|o o' objs cat Ho Hc IH]; constructor; [|exact IH].
  destruct Ho as (_ & _ & _ & _ & _ & _ & _ & _ & L9 & L10 & _). unfold ncut_ok. lia.
Qed.

Lemma laid_out_files c images nslots o o' : laid_out c images nslots o o' ->
  Forall (fun s => 0 <= s_file s < zlen images) (used_slots o').
Proof.
  intros (_ & _ & _ & _ & _ & _ & _ & _ & _ & _ & _ & L12 & _). apply Forall_forall. intros s Hs.
  assert (Hin : In (s_file s) (map s_file (firstn (Z.to_nat (o_ncut o')) (o_slots o')))) by (apply in_map; exact Hs).
  apply L12 in Hin. destruct Hin as (im & Him & _). apply zget_Some_range in Him. exact Him.
Qed.

Lemma laid_out_cat_files c images nslots objs cat : Forall2 (laid_out c images nslots) objs cat ->
  Forall (fun o => Forall (fun s => 0 <= s_file s < zlen images) (used_slots o)) cat.
Proof.
  induction 1 as [|o o' objs cat Ho Hc IH]; constructor; [|exact IH].
  eapply laid_out_files; exact Ho.
Qed.

(** * Inversion of a successful write *)

Lemma reserve_find types total junk t m :
  ext_find (reserve types total junk) t = Some m -> m = map (junk t) (zrange total).
Proof.
  induction types as [|t0 types IH]; simpl; [discriminate|]. destruct (ctype_eqb t0 t) eqn:E; [|exact IH].
  apply ctype_eqb_eq in E; subst. intros H; inversion H; reflexivity.
Qed.

Lemma reserve_fst types total junk : map fst (reserve types total junk) = types.
Proof. unfold reserve. rewrite map_map. simpl. apply map_id. Qed.

(** The normalised list of types of a maker. *)
Definition types_of (types : list string) (tys : list ctype) : Prop :=
  exists names, set_cutout_types types = Ok names /\
    mapM (fun s => match ctype_of s with Some t => Ok t | None => Err ValueError end) names = Ok tys.

Lemma make_meds_inv k types rows psf input junk pjunk f :
  make_meds k types rows psf input junk pjunk = Ok f ->
  exists tys cat0 total cat total_psf ext p,
    types_of types tys /\
    (match psf with Some ps => zlen ps = zlen rows | None => True end) /\
    build_layout (k_l k) (map ir_image rows) (init_cat (k_l k) (map ir_image rows) input) = Ok (cat0, total) /\
    (match psf with
     | None => cat = cat0 /\ total_psf = 0
     | Some ps => set_psf_layout (k_l k) (k_p k) ps cat0 = Ok (cat, total_psf) end) /\
    write_types (k_unusable k) cat (map ir_src rows) tys (reserve tys total junk) = Ok ext /\
    (match psf with
     | None => p = None
     | Some ps => exists h, p = Some h /\
        (if k_joblib k then write_psf_joblib (k_njob k) (k_l k) (k_p k) ps cat (map pjunk (zrange total_psf))
         else write_psf_serial (k_l k) (k_p k) ps cat (map pjunk (zrange total_psf))) = Ok h end) /\
    f = mkMeds cat (k_number_col k) (match psf with Some _ => PsfRCCut | None => PsfNone end)
             (map ir_info rows) ext p.
Proof.
  unfold make_meds, new_maker, write, full_layout, write_data. intros H.
  apply bind_ok in H. destruct H as (m & Hm & H).
  apply bind_ok in Hm. destruct Hm as (names & HN & Hm).
  apply bind_ok in Hm. destruct Hm as (tys & HT & Hm).
  apply bind_ok in Hm. destruct Hm as (x & HP & Hm). inversion Hm; subst m; clear Hm.
  cbn [mk_conf mk_rows mk_psf mk_cat k_l k_p k_unusable k_types k_joblib k_njob k_number_col] in H.
  apply bind_ok in H. destruct H as ([mk' f'] & H & E). cbn [snd] in E. inversion E; subst f'; clear E.
  apply bind_ok in H. destruct H as ([[cat total] total_psf] & HL & H).
  apply bind_ok in H. destruct H as (f' & HW & E). inversion E; subst; clear E.
  apply bind_ok in HL. destruct HL as ([cat0 total0] & HB & HL). cbn [fst snd] in HL.
  apply bind_ok in HW. destruct HW as (ext & HE & HW).
  apply bind_ok in HW. destruct HW as (p & HPW & E). inversion E; subst; clear E.
  exists tys, cat0, total0, cat, total_psf, ext, p.
  destruct psf as [ps|].
  - apply bind_ok in HL. destruct HL as ([cat1 tp] & HS & E). cbn [fst snd] in E. inversion E; subst; clear E.
    apply bind_ok in HPW. destruct HPW as (h & Hh & E). inversion E; subst; clear E.
    split; [exists names; auto|]. split; [dif_in HP E; [lia|discriminate]|].
    split; [exact HB|]. split; [exact HS|]. split; [exact HE|]. split; [exists h; auto|reflexivity].
  - inversion HL; subst; clear HL. inversion HPW; subst.
    split; [exists names; auto|]. split; [exact I|]. split; [exact HB|]. split; [auto|]. split; [exact HE|].
    split; reflexivity.
Qed.

(** Layout facts of a written file. *)
Lemma make_meds_layout k types rows psf input junk pjunk f :
  make_meds k types rows psf input junk pjunk = Ok f ->
  exists tys objs nslots total cat0,
    types_of types tys /\
    selected (k_l k) (map ir_image rows) input objs /\ objs <> [] /\
    Forall2 (laid_out (k_l k) (map ir_image rows) nslots) objs (m_cat f) /\
    (nslots = 2 \/ exists o', In o' (m_cat f) /\ o_ncut o' = nslots) /\ 2 <= nslots /\
    tiles 0 (cut_ranges (m_cat f)) total /\
    (forall im, zget (map ir_image rows) 0 = Some im -> file_err (k_l k) objs 0 im = None) /\
    write_types (k_unusable k) (m_cat f) (map ir_src rows) tys (reserve tys total junk) = Ok (m_ext f) /\
    m_info f = map ir_info rows /\ m_number_col f = k_number_col k /\
    Forall2 (laid_out (k_l k) (map ir_image rows) nslots) objs cat0 /\
    (match psf with
     | None => m_psf f = None /\ m_cat f = cat0 /\ m_psf_cols f = PsfNone
     | Some ps => zlen ps = zlen rows /\ m_psf_cols f = PsfRCCut /\
        m_cat f = pstarted_cat (k_l k) (k_p k) ps 0 cat0 /\
        exists h, m_psf f = Some h /\
        (if k_joblib k
         then write_psf_joblib (k_njob k) (k_l k) (k_p k) ps (m_cat f)
                (map pjunk (zrange (fold_right Z.add 0 (map (ptotal (k_l k) (k_p k) ps) cat0))))
         else write_psf_serial (k_l k) (k_p k) ps (m_cat f)
                (map pjunk (zrange (fold_right Z.add 0 (map (ptotal (k_l k) (k_p k) ps) cat0))))) = Ok h end).
Proof.
  intros H. apply make_meds_inv in H.
  destruct H as (tys & cat0 & total & cat & tp & ext & p & H1 & H2 & H3 & H4 & H5 & H6 & ->).
  destruct (build_layout_inv _ _ _ _ _ H3) as (objs & nslots & B1 & B2 & B3 & B4 & B5 & B6 & B7).
  exists tys, objs, nslots, total, cat0. cbn [m_cat m_ext m_info m_number_col m_psf m_psf_cols].
  destruct psf as [ps|].
  - rewrite set_psf_layout_eq in H4.
    + inversion H4; subst; clear H4. destruct H6 as (h & -> & H6).
      split; [exact H1|]. split; [exact B1|]. split; [exact B2|].
      split; [apply pstarted_cat_laid_out; exact B3|].
      split.
      { destruct B4 as [B4|(o' & Ho' & E)]; [left; exact B4|right].
        pose proof (pstarted_cat_Forall2 (k_l k) (k_p k) ps cat0 0) as F.
        clear -Ho' E F. induction F as [|a b l l' (st & ->) F IH]; [contradiction|].
        destruct Ho' as [->|Ho'].
        - exists (pstarted (k_l k) (k_p k) ps st o'). split; [left; reflexivity|exact E].
        - destruct (IH Ho') as (o2 & O1 & O2). exists o2. split; [right; exact O1|exact O2]. }
      split; [exact B5|]. split; [rewrite pstarted_cut_ranges; exact B6|].
      split; [exact B7|]. split; [exact H5|]. split; [reflexivity|]. split; [reflexivity|].
      split; [exact B3|].
      split; [exact H2|]. split; [reflexivity|]. split; [reflexivity|].
      exists h. split; [reflexivity|exact H6].
    + eapply laid_out_ncut_ok; exact B3.
    + pose proof (laid_out_cat_files _ _ _ _ _ B3) as F. eapply Forall_impl; [|exact F].
      intros o Ho. eapply Forall_impl; [|exact Ho]. intros s Hs. unfold file_valid.
      rewrite zlen_map in Hs. lia.
  - destruct H4 as [-> ->]. subst p.
    repeat (split; [assumption|]). repeat (split; [reflexivity|]). split; [exact B3|].
    repeat split; reflexivity.
Qed.
