(** Typed files: the cutouts of a written file and when a file can be written. *)
From Coq Require Import Lia ZifyBool ZifyNat String.
From Verif Require Import Base BaseLemmas Img ImgLemmas Types BoundsM Reader MakerLayout MakerWrite MakerFile
  SpecTiles SpecLayout SpecFile StampLemmas StartLemmas CalibLemmas WriteLemmas FileLemmas ReadLemmas MakerLemmas MakerLemmas2 MakerLemmas4
  Typed SpecTyped TypedLemmas4.
Open Scope Z_scope.

Section Types.
  Context (R : rules) (ub : fl -> Z) (u : option Z) (kinds : ctype -> kind) (cat : list obj) (srcs : list tsource) (total : Z).
  Hypothesis Hwf : cat_wf cat.
  Hypothesis Hsrc : Forall tsource_ok srcs.
  Hypothesis Htiles : tiles 0 (cut_ranges cat) total.

  Definition tread (t : ctype) (file_id : Z) : res (option (img num)) :=
    let* s := py_index srcs file_id in let* o := read_typed R ub u s t in
    Ok (option_map (fun a => imap (conv ub (kinds t)) (a_im a)) o).

  Lemma tread_at t f s : zget srcs f = Some s ->
    tread t f = let* o := read_typed R ub u s t in Ok (option_map (fun a => imap (conv ub (kinds t)) (a_im a)) o).
  Proof. intros H. pose proof (zget_Some_range _ _ _ H) as Hr. unfold tread. rewrite (proj2 (py_index_ok_nonneg srcs _ s (proj1 Hr)) H). reflexivity. Qed.

  Lemma tread_ok t f im : tread t f = Ok (Some im) -> img_ok im.
  Proof.
    intros H. unfold tread in H. apply bind_ok in H. destruct H as (s & Es & H). apply bind_ok in H. destruct H as (o & Er & H).
    apply ok_inj in H. destruct o as [a|]; [|discriminate]. cbn [option_map] in H. injection H as <-. apply imap_ok.
    eapply read_typed_img; [|exact Er]. rewrite Forall_forall in Hsrc. apply Hsrc. unfold py_index in Es.
    destruct (zget srcs (if f <? 0 then f + zlen srcs else f)) eqn:Z0; [|discriminate]. apply ok_inj in Es. subst. eapply zget_In; exact Z0.
  Qed.

  (** Content of the mosaic of type [t]. *)
  Definition tcontent (t : ctype) (m : list num) : Prop :=
    forall v, fill_typed R t (kinds t) = Ok v ->
    forall k src a, In k (cat_keys cat) -> zget srcs (s_file (k_slot k)) = Some src ->
      read_typed R ub u src t = Ok (Some a) ->
      forall j, 0 <= j < o_box (k_obj k) * o_box (k_obj k) ->
      zget m (s_start (k_slot k) + j) =
      zget (dat (crop v (imap (conv ub (kinds t)) (a_im a)) (s_osr (k_slot k)) (s_osc (k_slot k)) (o_box (k_obj k)))) j.

  Definition readall (t : ctype) : Prop := forall s, In s srcs -> exists o, read_typed R ub u s t = Ok o.

  Lemma write_typed_content t hdu hdu' : zlen hdu = total ->
    write_typed R ub u (kinds t) cat srcs t hdu = Ok hdu' -> zlen hdu' = total /\ tcontent t hdu' /\ readall t.
  Proof.
    intros HL H. unfold write_typed in H. change (write_cutouts (fill_typed R t (kinds t)) cat (zlen srcs) (tread t) hdu = Ok hdu') in H.
    pose proof (write_cutouts_inv _ _ _ _ _ _ H) as [HR HL'].
    split; [lia|]. split.
    - intros v Hv k src a Hk Hs Ha j Hj. rewrite Hv in H.
      set (imgs := fun f => match tread t f with Ok o => o | Err _ => None end).
      assert (Himgs : forall f im, imgs f = Some im -> img_ok im).
      { intros f im' E. unfold imgs in E. destruct (tread t f) as [o|] eqn:Er; [|discriminate]. subst o. eapply tread_ok; exact Er. }
      destruct (write_cutouts_spec v cat (zlen srcs) imgs Hwf Himgs (tread t) hdu) as (h & W1 & W2 & W3 & _).
      + intros f Hf. destruct (HR f Hf) as (o & Ho). unfold imgs. rewrite Ho. reflexivity.
      + rewrite HL. exact Htiles.
      + rewrite W1 in H. apply ok_inj in H. subst h. pose proof (zget_Some_range _ _ _ Hs) as Hr.
        apply W3; auto. unfold imgs. rewrite (tread_at _ _ _ Hs), Ha. reflexivity.
    - intros s Hs. apply In_zget in Hs. destruct Hs as (f & Hf). destruct (HR f (zget_Some_range _ _ _ Hf)) as (o & Ho).
      rewrite (tread_at _ _ _ Hf) in Ho. apply bind_ok in Ho. destruct Ho as (o' & Ho & _). eauto.
  Qed.

  Lemma tset_at e t m t' : tset e t m t' = if ctype_eqb t t' then Some m else e t'.
  Proof. reflexivity. Qed.

  Lemma write_types_typed_content types : forall e e',
    (forall t m, e t = Some m -> zlen m = total) ->
    write_types_typed R ub u kinds cat srcs types e = Ok e' ->
    (forall t m, e' t = Some m -> zlen m = total) /\
    (forall t, ~ In t types -> e' t = e t) /\
    (forall t, In t types -> exists m, e' t = Some m /\ tcontent t m) /\
    (forall t, In t types -> readall t).
  Proof.
    induction types as [|t types IH]; intros e e' HL H; unfold write_types_typed in H; cbn [foldM] in H.
    - apply ok_inj in H. subst e'. repeat split; auto; intros; contradiction.
    - apply bind_ok in H. destruct H as (e1 & H1 & H2).
      destruct (e t) as [hdu|] eqn:EF; [|discriminate].
      apply bind_ok in H1. destruct H1 as (hdu' & W & E). apply ok_inj in E. subst e1.
      destruct (write_typed_content t hdu hdu' (HL t hdu EF) W) as (L1 & C1 & A1).
      assert (HL1 : forall t' m, tset e t hdu' t' = Some m -> zlen m = total).
      { intros t' m. rewrite tset_at. destruct (ctype_eqb t t'); [|apply HL]. intros E; injection E as <-; exact L1. }
      destruct (IH _ _ HL1 H2) as (I2 & I3 & I4 & I5).
      split; [exact I2|]. split; [|split].
      + intros t' Ht'. rewrite I3 by (intros ?; apply Ht'; right; assumption).
        rewrite tset_at. destruct (ctype_eqb t t') eqn:E; [|reflexivity].
        apply ctype_eqb_eq in E; subst. exfalso; apply Ht'; left; reflexivity.
      + intros t' Ht'. destruct (in_dec ctype_eq_dec t' types) as [Hin|Hn]; [apply I4; exact Hin|].
        destruct Ht' as [<-|Ht']; [|contradiction]. exists hdu'. split; [|exact C1].
        rewrite I3 by exact Hn. rewrite tset_at, ctype_eqb_refl. reflexivity.
      + intros t' [<-|Ht']; [exact A1|apply I5; exact Ht'].
  Qed.

  Lemma write_types_typed_possible types : forall e,
    (forall t, In t types -> (exists v, fill_typed R t (kinds t) = Ok v) /\ readall t) ->
    (forall t, In t types -> exists m, e t = Some m) ->
    (forall t m, e t = Some m -> zlen m = total) ->
    exists e', write_types_typed R ub u kinds cat srcs types e = Ok e'.
  Proof.
    induction types as [|t types IH]; intros e HT Hin HL; unfold write_types_typed; cbn [foldM]; [eexists; reflexivity|].
    destruct (Hin t (or_introl eq_refl)) as (m & Hm). rewrite Hm. destruct (HT t (or_introl eq_refl)) as ((v & Hv) & HR).
    unfold write_typed. rewrite Hv. change (fun file_id => let* s := py_index srcs file_id in let* o := read_typed R ub u s t in Ok (option_map (fun a => imap (conv ub (kinds t)) (a_im a)) o)) with (tread t).
    set (imgs := fun f => match tread t f with Ok o => o | Err _ => None end).
    assert (Himgs : forall f im, imgs f = Some im -> img_ok im).
    { intros f im' E. unfold imgs in E. destruct (tread t f) as [o|] eqn:Er; [|discriminate]. subst o. eapply tread_ok; exact Er. }
    destruct (write_cutouts_spec v cat (zlen srcs) imgs Hwf Himgs (tread t) m) as (h & W1 & W2 & _).
    + intros f Hf. destruct (zget_range_Some srcs f Hf) as (s & Hs). unfold imgs. rewrite (tread_at _ _ _ Hs).
      destruct (HR s (zget_In _ _ _ Hs)) as (o & ->). reflexivity.
    + rewrite (HL t m Hm). exact Htiles.
    + rewrite W1. cbn [bind]. apply (IH (tset e t h)).
      * intros t' Ht'. apply HT. right; exact Ht'.
      * intros t' Ht'. rewrite tset_at. destruct (ctype_eqb t t'); [eauto|]. apply Hin. right; exact Ht'.
      * intros t' m'. rewrite tset_at. destruct (ctype_eqb t t'); [|apply HL].
        intros E; injection E as <-. rewrite W2. apply (HL t m Hm).
  Qed.
End Types.

(** * Whole files *)

Lemma make_typed_inv R ub c u kinds types rows input junk f : make_typed R ub c u kinds types rows input junk = Ok f ->
  exists tys total e, types_of types tys /\ build_layout c (map tr_image rows) (init_cat c (map tr_image rows) input) = Ok (tf_cat f, total) /\
    write_types_typed R ub u kinds (tf_cat f) (map tr_src rows) tys
      (fun t => if existsb (ctype_eqb t) tys then Some (map (junk t) (zrange total)) else None) = Ok e /\ tf_ext f = e.
Proof.
  intros H. unfold make_typed in H. apply bind_ok in H. destruct H as (names & H1 & H). apply bind_ok in H. destruct H as (tys & H2 & H).
  apply bind_ok in H. destruct H as ([cat total] & H3 & H). apply bind_ok in H. destruct H as (e & H4 & H). apply ok_inj in H. subst f. cbn [tf_cat tf_ext fst snd] in *.
  exists tys, total, e. split; [exists names; auto|]. auto.
Qed.

Lemma make_typed_cat R ub c u kinds types rows input junk f : Forall (fun o => 1 <= o_box o) input ->
  make_typed R ub c u kinds types rows input junk = Ok f ->
  Forall (fun o => 0 <= o_ncut o <= zlen (o_slots o) /\ 0 < o_box o) (tf_cat f).
Proof.
  intros Hb H. apply make_typed_inv in H. destruct H as (tys & total & e & H1 & H2 & H3 & H4).
  destruct (build_layout_inv _ _ _ _ _ H2) as (objs & ns & B1 & B2 & B3 & B4 & B5 & B6 & B7).
  eapply laid_out_cat_wf; [exact B3|]. rewrite Forall_forall in *. intros o Ho. apply Hb. eapply selected_In; eassumption.
Qed.

(** The extensions are the normalised types, and every file could be read. *)
Lemma make_typed_ext R ub c u kinds types rows input junk f : Forall (fun o => 1 <= o_box o) input -> Forall (fun r => tsource_ok (tr_src r)) rows ->
  make_typed R ub c u kinds types rows input junk = Ok f ->
  exists tys, types_of types tys /\ (forall t, In t tys <-> tf_ext f t <> None) /\
    forall t r, In t tys -> In r rows -> exists o, read_typed R ub u (tr_src r) t = Ok o.
Proof.
  intros Hb Hs H. pose proof (make_typed_cat _ _ _ _ _ _ _ _ _ _ Hb H) as Hw. apply make_typed_inv in H. destruct H as (tys & total & e & H1 & H2 & H3 & H4).
  destruct (build_layout_inv _ _ _ _ _ H2) as (objs & ns & B1 & B2 & B3 & B4 & B5 & B6 & B7).
  pose proof (tiles_le _ _ _ B6) as Ht0.
  assert (HL : forall t' m, (if existsb (ctype_eqb t') tys then Some (map (junk t') (zrange total)) else None) = Some m -> zlen m = total).
  { intros t' m E. destruct (existsb _ _); [injection E as <-; rewrite zlen_map, zlen_zrange by exact Ht0; reflexivity|discriminate]. }
  destruct (write_types_typed_content R ub u kinds (tf_cat f) (map tr_src rows) total (cat_wf_weaken _ Hw) (proj2 (Forall_map _ _ _) Hs) B6 tys _ _ HL H3) as (W1 & W2 & W3 & W4).
  exists tys. split; [exact H1|]. split.
  - intros t. rewrite H4. split.
    + intros Hi. destruct (W3 t Hi) as (m & -> & _). discriminate.
    + intros Hn. destruct (in_dec ctype_eq_dec t tys) as [Hi|Hi]; [exact Hi|]. rewrite (W2 t Hi) in Hn. destruct (existsb (ctype_eqb t) tys) eqn:E; [|congruence].
      apply existsb_exists in E. destruct E as (t' & I & E). apply ctype_eqb_eq in E. subst. exact I.
  - intros t r Ht Hr. apply (W4 t Ht). apply in_map. exact Hr.
Qed.

(** The cutout read back. *)
Lemma typed_cutout R ub c u kinds types rows input junk f : Forall (fun o => 1 <= o_box o) input -> Forall (fun r => tsource_ok (tr_src r)) rows ->
  make_typed R ub c u kinds types rows input junk = Ok f ->
  forall iobj icut o s t row a, stored f iobj icut o s -> tf_ext f t <> None ->
    zget rows (s_file s) = Some row -> read_typed R ub u (tr_src row) t = Ok (Some a) ->
    exists v, fill_typed R t (kinds t) = Ok v /\
      get_cutout_typed f iobj icut t = Ok (crop v (imap (conv ub (kinds t)) (a_im a)) (s_osr s) (s_osc s) (o_box o)).
Proof.
  intros Hb Hs H iobj icut o s t row a (Ho & Hk & Hsl) Ht Hrow Hr.
  pose proof (make_typed_cat _ _ _ _ _ _ _ _ _ _ Hb H) as Hw.
  destruct (make_typed_ext _ _ _ _ _ _ _ _ _ _ Hb Hs H) as (tys' & T1 & T2 & _). apply T2 in Ht.
  apply make_typed_inv in H. destruct H as (tys & total & e & H1 & H2 & H3 & H4).
  assert (tys' = tys) as -> by (destruct T1 as (n1 & A1 & A2); destruct H1 as (n2 & C1 & C2); congruence). clear T1 T2.
  destruct (build_layout_inv _ _ _ _ _ H2) as (objs & ns & B1 & B2 & B3 & B4 & B5 & B6 & B7).
  pose proof (tiles_le _ _ _ B6) as Ht0.
  assert (HL : forall t' m, (if existsb (ctype_eqb t') tys then Some (map (junk t') (zrange total)) else None) = Some m -> zlen m = total).
  { intros t' m E. destruct (existsb _ _); [injection E as <-; rewrite zlen_map, zlen_zrange by exact Ht0; reflexivity|discriminate]. }
  destruct (write_types_typed_content R ub u kinds (tf_cat f) (map tr_src rows) total (cat_wf_weaken _ Hw) (proj2 (Forall_map _ _ _) Hs) B6 tys _ _ HL H3) as (W1 & W2 & W3 & W4).
  destruct (W3 t Ht) as (m & Em & Hc).
  assert (Hz : zget (map tr_src rows) (s_file s) = Some (tr_src row)) by (rewrite zget_map, Hrow; reflexivity).
  assert (Hin : In (o, icut, s) (cat_keys (tf_cat f))).
  { apply in_cat_keys'; [eapply Forall_impl; [|exact Hw]; simpl; tauto|]. split; [eapply zget_In; exact Ho|]. split; assumption. }
  (* the fill value *)
  assert (exists v, fill_typed R t (kinds t) = Ok v) as (v & Hv).
  { destruct (fill_typed R t (kinds t)) as [v|er] eqn:Ev; [eauto|exfalso].
    assert (NF : forall tl e0 e1, (forall t' m, e0 t' = Some m -> zlen m = total) -> write_types_typed R ub u kinds (tf_cat f) (map tr_src rows) tl e0 = Ok e1 -> ~ In t tl).
    { induction tl as [|t' tl IH]; intros e0 e1 HL0 F; [tauto|]. unfold write_types_typed in F. cbn [foldM] in F. apply bind_ok in F. destruct F as (e2 & F1 & F2).
      destruct (e0 t') as [hdu|] eqn:EF; [|discriminate]. apply bind_ok in F1. destruct F1 as (hdu' & F1 & F3). apply ok_inj in F3. subst e2.
      destruct (write_typed_content R ub u kinds (tf_cat f) (map tr_src rows) total (cat_wf_weaken _ Hw) (proj2 (Forall_map _ _ _) Hs) B6 t' hdu hdu' (HL0 _ _ EF) F1) as (L1 & _).
      intros [->|I].
      - unfold write_typed in F1. rewrite Ev in F1. eapply (write_cutouts_nofill er (tf_cat f) _ (tread R ub u kinds (map tr_src rows) t) _ _ ltac:(eapply Forall_impl; [|exact Hw]; simpl; tauto) F1 (o, icut, s)
             (imap (conv ub (kinds t)) (a_im a)) Hin).
        + eapply zget_Some_range; exact Hz.
        + unfold k_slot; cbn [snd]. rewrite (tread_at R ub u kinds _ _ _ _ Hz), Hr. reflexivity.
      - apply (IH (tset e0 t' hdu') e1); [|exact F2|exact I]. intros t1 m1. rewrite tset_at. destruct (ctype_eqb t' t1); [|apply HL0]. intros E; injection E as <-. exact L1. }
    exact (NF tys _ _ HL H3 Ht). }
  exists v. split; [exact Hv|].
  assert (Hcw : cat_wf (tf_cat f)) by (apply cat_wf_weaken; exact Hw).
  assert (HT : tiles 0 (cut_ranges (tf_cat f)) (zlen m)) by (rewrite (W1 t m Em); exact B6).
  rewrite <- cat_keys_ranges in HT by exact Hcw. destruct (tiles_keys k_range _ _ _ HT) as [T1 _].
  specialize (T1 _ Hin). unfold k_range, k_slot, k_obj in T1; simpl in T1.
  assert (Hbox : 0 < o_box o) by (rewrite Forall_forall in Hw; apply (Hw o (zget_In _ _ _ Ho))).
  destruct (slice_in_range m (s_start s) (s_start s + o_box o * o_box o)) as (xs & Hx); [lia|nia|lia|].
  pose proof (slice_ok _ _ _ _ Hx) as (S1 & S2 & S3 & S4).
  unfold get_cutout_typed. rewrite (check_indices_ok (mkMeds (tf_cat f) true PsfNone [] [] None) iobj icut o Ho Hk). cbn [bind].
  rewrite (get_slot_ok o icut s Hsl). cbn [bind]. rewrite H4, Em, Hx. cbn [bind]. unfold reshape. dif E; [|lia]. f_equal.
  set (im := crop v (imap (conv ub (kinds t)) (a_im a)) (s_osr s) (s_osc s) (o_box o)).
  assert (Him : img_ok im) by (apply crop_ok; lia).
  change im with (mkImg (nr im) (nc im) (dat im)). change (nr im) with (o_box o). change (nc im) with (o_box o). f_equal.
  destruct Him as (I1 & I2 & I3). change (nr im) with (o_box o) in I3. change (nc im) with (o_box o) in I3.
  apply list_zget_ext; [lia|]. intros i Hi. rewrite S4 by lia. apply (Hc v Hv (o, icut, s) _ a Hin Hz Hr). unfold k_obj; cbn [fst]. lia.
Qed.

(** When a file can be written. *)
Lemma typed_possible R ub c u kinds types tys rows input junk :
  types_of types tys -> layout_possible c (map tr_image rows) input ->
  Forall (fun o => 1 <= o_box o) input -> Forall (fun r => tsource_ok (tr_src r)) rows ->
  (forall t, In t tys -> (exists v, fill_typed R t (kinds t) = Ok v) /\ forall r, In r rows -> exists o, read_typed R ub u (tr_src r) t = Ok o) ->
  exists f, make_typed R ub c u kinds types rows input junk = Ok f.
Proof.
  intros HT HL Hb Hsrc HR. destruct (build_layout_possible _ _ _ HL) as (cat & total & HB).
  destruct (build_layout_inv _ _ _ _ _ HB) as (objs & ns & B1 & B2 & B3 & B4 & B5 & B6 & B7).
  assert (Hwf : cat_wf cat).
  { apply cat_wf_weaken. eapply laid_out_cat_wf; [exact B3|]. rewrite Forall_forall in *. intros o Ho. apply Hb. eapply selected_In; eassumption. }
  pose proof (tiles_le _ _ _ B6) as Ht0.
  destruct (write_types_typed_possible R ub u kinds cat (map tr_src rows) total Hwf (proj2 (Forall_map _ _ _) Hsrc) B6 tys
     (fun t => if existsb (ctype_eqb t) tys then Some (map (junk t) (zrange total)) else None)) as (e & W).
  - intros t Ht. destruct (HR t Ht) as [A B]. split; [exact A|]. intros s Hs. apply in_map_iff in Hs. destruct Hs as (r & <- & Hr). apply B; exact Hr.
  - intros t Ht. assert (existsb (ctype_eqb t) tys = true) as ->; [|eauto]. apply existsb_exists. exists t. split; [exact Ht|apply ctype_eqb_refl].
  - intros t m E. destruct (existsb _ _); [injection E as <-; rewrite zlen_map, zlen_zrange by exact Ht0; reflexivity|discriminate].
  - exists (mkTfile cat e). unfold make_typed. destruct HT as (names & N1 & N2). rewrite N1. cbn [bind]. rewrite N2. cbn [bind]. rewrite HB. cbn [bind fst snd].
    rewrite W. reflexivity.
Qed.
