(** Forcing into the coadd, success in terms of the requested types, start rows. *)
From Coq Require Import Lia ZifyBool ZifyNat String Sorted.
From Verif Require Import Base BaseLemmas Img ImgLemmas Types BoundsM Reader MakerLayout MakerWrite MakerFile
  SpecTiles SpecLayout SpecFile StartLemmas StampLemmas WriteLemmas LayoutLemmas BuildLemmas PsfLemmas
  ReadLemmas CalibLemmas FileLemmas MakerLemmas MakerLemmas2 MakerLemmas3 MakerLemmas4 MakerLemmas5.
Open Scope Z_scope.
Ltac Zify.zify_post_hook ::= Z.div_mod_to_equations.

Lemma start_rows_never_fail cat : Forall (fun o => 0 <= o_ncut o <= zlen (o_slots o)) cat ->
  exists cat' total, set_start_rows cat = Ok (cat', total) /\ tiles 0 (cut_ranges cat') total.
Proof.
  intros H. eexists _, _. split; [apply set_start_rows_eq; exact H|].
  pose proof (started_cat_tiles cat H 0) as T. rewrite zsum_eq. exact T.
Qed.

Lemma foldM_ok_impl {T A} (f g : T -> A -> res T) l : (forall s a s', f s a = Ok s' -> g s a = Ok s') ->
  forall s s', foldM f l s = Ok s' -> foldM g l s = Ok s'.
Proof.
  intros H. induction l as [|a l IH]; intros s s' E; cbn [foldM] in *; [exact E|].
  apply bind_ok in E. destruct E as (s1 & E1 & E2). rewrite (H _ _ _ E1). cbn [bind]. apply IH; exact E2.
Qed.

(** C12: forcing changes nothing except that it can fail. *)
Lemma layout_file_force k cat fi cat' :
  layout_file (k_l (with_force k true)) cat fi = Ok cat' -> layout_file (k_l (with_force k false)) cat fi = Ok cat'.
Proof.
  destruct fi as [f im]. unfold layout_file. intros H.
  apply bind_ok in H. destruct H as ([[pos b] q] & H0 & H).
  change (get_pos_and_bounds (k_l (with_force k false)) cat im f) with (get_pos_and_bounds (k_l (with_force k true)) cat im f).
  rewrite H0. cbn [bind]. rewrite contains_points_eq in *. apply bind_ok in H. destruct H as (pos' & H1 & H2).
  replace (first_image_is_coadd (k_l (with_force k false)) && (f =? 0)
           && force_into_coadd_bounds (k_l (with_force k false))) with false
    by (cbn; rewrite andb_false_r; reflexivity).
  cbn [bind]. assert (pos' = pos).
  { dif_in H1 E; [|inversion H1; reflexivity]. rewrite force_identity in H1. dif_in H1 E1; [discriminate|].
    inversion H1; reflexivity. }
  subst pos'. exact H2.
Qed.

Lemma trim_cat_force k images cat :
  trim_cat (k_l (with_force k true)) images cat = trim_cat (k_l (with_force k false)) images cat.
Proof. reflexivity. Qed.

Lemma init_cat_force k images input :
  init_cat (k_l (with_force k true)) images input = init_cat (k_l (with_force k false)) images input.
Proof. reflexivity. Qed.

Lemma build_layout_force k images cat ct :
  build_layout (k_l (with_force k true)) images cat = Ok ct ->
  build_layout (k_l (with_force k false)) images cat = Ok ct.
Proof.
  unfold build_layout. intros B. apply bind_ok in B. destruct B as (cat0 & B0 & B).
  rewrite <- trim_cat_force, B0. cbn [bind]. apply bind_ok in B. destruct B as (cat1 & B1 & B2).
  rewrite (foldM_ok_impl _ _ _ (layout_file_force k) _ _ B1). exact B2.
Qed.

Definition with_types (k : mconf) (tys : list ctype) : mconf :=
  mkMconf (k_l k) (k_p k) (k_unusable k) tys (k_joblib k) (k_njob k) (k_number_col k).

Lemma psf_layout_force k pc ps cat : forall start total,
  psf_layout_loop (k_l (with_force k true)) pc ps cat start total =
  psf_layout_loop (k_l (with_force k false)) pc ps cat start total.
Proof.
  induction cat as [|o cat IH]; intros start total; cbn [psf_layout_loop]; [reflexivity|].
  change (psf_layout_cut (k_l (with_force k true)) pc ps o) with (psf_layout_cut (k_l (with_force k false)) pc ps o).
  destruct (foldM _ _ _) as [[[sl st] t]|e]; cbn [bind]; [|reflexivity]. rewrite IH. reflexivity.
Qed.

Lemma full_layout_force k tys rows psf cat l :
  full_layout (with_types (with_force k true) tys) rows psf cat = Ok l ->
  full_layout (with_types (with_force k false) tys) rows psf cat = Ok l.
Proof.
  unfold full_layout. intros L. apply bind_ok in L. destruct L as (ct & B & L).
  apply (build_layout_force k) in B.
  change (k_l (with_types (with_force k false) tys)) with (k_l (with_force k false)).
  rewrite B. cbn [bind]. destruct psf as [ps|]; [|exact L].
  unfold set_psf_layout in *. rewrite <- psf_layout_force. exact L.
Qed.

Lemma force_noop k types rows psf input junk pjunk f :
  make_meds (with_force k true) types rows psf input junk pjunk = Ok f ->
  make_meds (with_force k false) types rows psf input junk pjunk = Ok f.
Proof.
  unfold make_meds. intros H. apply bind_ok in H. destruct H as (m & Hm & H).
  apply bind_ok in H. destruct H as (mf & Hw & Hf).
  unfold new_maker in *. apply bind_ok in Hm. destruct Hm as (names & N1 & Hm). rewrite N1. cbn [bind].
  apply bind_ok in Hm. destruct Hm as (tys & N2 & Hm). rewrite N2. cbn [bind].
  apply bind_ok in Hm. destruct Hm as ([] & N3 & Hm). rewrite N3. cbn [bind].
  inversion Hm; subst m; clear Hm. unfold write in *. cbn [mk_conf mk_rows mk_psf mk_cat] in *.
  apply bind_ok in Hw. destruct Hw as ([[cat total] tp] & L & Hw).
  apply full_layout_force in L.
  eapply eq_trans; [apply (f_equal (fun x => bind (bind x _) _)); exact L|].
  cbn [bind]. apply bind_ok in Hw. destruct Hw as (f0 & W & Hw). inversion Hw; subst mf; clear Hw.
  cbn [snd] in Hf. inversion Hf; subst f0.
  eapply eq_trans; [apply (f_equal (fun x => bind (bind x _) _)); exact W|]. reflexivity.
Qed.

(** C18 *)
Lemma mapM_ctype_In names : forall tys,
  mapM (fun s => match ctype_of s with Some t => Ok t | None => Err ValueError end) names = Ok tys ->
  forall t, In t tys -> In (ctype_name t) names.
Proof.
  induction names as [|n names IH]; intros tys H t Ht; cbn [mapM] in H.
  - inversion H; subst. contradiction.
  - destruct (ctype_of n) as [t0|] eqn:E; cbn [bind] in H; [|discriminate].
    apply bind_ok in H. destruct H as (tys' & H1 & H2). inversion H2; subst tys.
    destruct Ht as [<-|Ht].
    + left. unfold ctype_of in E. apply find_some in E. destruct E as [_ E]. apply String.eqb_eq in E. congruence.
    + right. eapply IH; eassumption.
Qed.

Lemma mapM_ctype_ok names : (forall s, In s names -> exists t, s = ctype_name t) ->
  exists tys, mapM (fun s => match ctype_of s with Some t => Ok t | None => Err ValueError end) names = Ok tys.
Proof.
  induction names as [|n names IH]; intros H; cbn [mapM]; [eexists; reflexivity|].
  destruct (H n (or_introl eq_refl)) as (t & ->). rewrite ctype_of_name. cbn [bind].
  destruct IH as (tys & E); [intros s Hs; apply H; right; exact Hs|]. rewrite E. cbn [bind]. eexists; reflexivity.
Qed.

Lemma requested_types req : exists tys, types_of (map ctype_name req) tys /\
  forall t, In t tys -> t = TImage \/ In t req.
Proof.
  destruct (set_cutout_types (map ctype_name req)) as [names|e] eqn:E.
  - destruct (set_cutout_types_ok _ _ E) as ((tl & ->) & F).
    assert (HN : forall s, In s ("image"%string :: tl) -> s = "image"%string \/ In s (map ctype_name req)).
    { intros s Hs. destruct (string_dec s "image"%string) as [->|Hn]; [left; reflexivity|right].
      assert (Hi : In s (filter (fun s => negb (String.eqb s "image")) ("image"%string :: tl))).
      { apply filter_In. split; [exact Hs|]. apply String.eqb_neq in Hn. rewrite Hn. reflexivity. }
      rewrite F in Hi. apply filter_In in Hi. tauto. }
    destruct (mapM_ctype_ok ("image"%string :: tl)) as (tys & M).
    { intros s Hs. destruct (HN s Hs) as [->|Hi]; [exists TImage; reflexivity|].
      apply in_map_iff in Hi. destruct Hi as (t & <- & _). exists t; reflexivity. }
    exists tys. split; [exists ("image"%string :: tl); split; assumption|].
    intros t Ht. pose proof (mapM_ctype_In _ _ M t Ht) as Hi. destruct (HN _ Hi) as [Hm|Hm].
    + left. destruct t; try discriminate; reflexivity.
    + right. apply in_map_iff in Hm. destruct Hm as (t' & E1 & E2).
      assert (Some t' = Some t) as Ett by (rewrite <- (ctype_of_name t'), <- (ctype_of_name t), E1; reflexivity).
      inversion Ett; subst. exact E2.
  - exfalso. destruct (proj1 (set_cutout_types_err _) (ex_intro _ e E)) as (s & Hs & Hb).
    apply in_map_iff in Hs. destruct Hs as (t & <- & _). apply (Hb t). reflexivity.
Qed.

Lemma writable k req rows input junk pjunk :
  layout_possible (k_l k) (map ir_image rows) input ->
  Forall (fun o => 0 <= o_box o) input -> Forall (fun r => source_ok (ir_src r)) rows ->
  (forall t, t = TImage \/ In t req ->
     fill_value t <> None /\ forall r, In r rows -> readable (k_unusable k) (ir_src r) t) ->
  exists f, make_meds k (map ctype_name req) rows None input junk pjunk = Ok f.
Proof.
  intros H1 H2 H3 H4. destruct (requested_types req) as (tys & T1 & T2).
  eapply make_meds_succeeds; eauto.
Qed.

(** C03 *)
Lemma clipped_boxes_spec dim start bs o0 o1 b0 b1 : 0 <= dim -> 0 <= bs ->
  get_clipped_boxes dim start bs = ((o0, o1), (b0, b1)) ->
  o1 - o0 = b1 - b0 /\ o0 = start + b0 /\ 0 <= o0 /\ o1 <= dim /\ 0 <= b0 /\ b1 <= bs /\
  (forall i, 0 <= i < bs -> (b0 <= i < b1 <-> 0 <= start + i < dim)).
Proof.
  intros Hd Hb H. apply clipped_boxes in H; [|lia|lia]. destruct H as (H1 & H2 & H3 & H4 & H5 & H6 & H7).
  repeat split; try lia; apply (H3 i); assumption.
Qed.

Lemma stamp_pixels t v bs orow ocol im : 0 <= bs -> img_ok im -> fill_value t = Some v ->
  exists st, make_stamp (default_values t) bs orow ocol im = Ok st /\ img_ok st /\ nr st = bs /\ nc st = bs /\
    forall r c, 0 <= r < bs -> 0 <= c < bs ->
      px st r c = match px im (orow + r) (ocol + c) with Some a => Some a | None => Some v end.
Proof.
  intros Hb Him Hv. rewrite (default_values_fill t v Hv). rewrite make_stamp_crop by assumption.
  eexists. split; [reflexivity|]. split; [apply crop_ok; exact Hb|]. split; [reflexivity|]. split; [reflexivity|].
  intros r c Hr Hc. rewrite crop_px by lia. destruct (px im _ _); reflexivity.
Qed.

(** C22 for the usual position offset 1. *)
Lemma offset_one_on_image k types rows psf input junk pjunk f :
  make_meds k types rows psf input junk pjunk = Ok f ->
  forall iobj icut o s row, cutout_at f iobj icut o s -> zget rows (s_file s) = Some row ->
  (im_offset (ir_image row) == 1)%Q ->
  let b := spec_buffer (k_l k) (s_file s) in
  let w := im_wcs (ir_image row) in
  (- b <= s_orow s /\ s_orow s <= inject_Z (w_nrow w - 1) + b /\
   - b <= s_ocol s /\ s_ocol s <= inject_Z (w_ncol w - 1) + b)%Q.
Proof.
  intros H iobj icut o s row Hc Hr H1. cbv zeta.
  destruct (recorded_on_image _ _ _ _ _ _ _ _ H _ _ _ _ _ Hc Hr) as (A & B & C & D). rewrite H1 in A, B, C, D.
  unfold Z.sub. rewrite !inject_Z_plus. change (inject_Z (-(1))) with (-(1))%Q.
  repeat split.
  - eapply Qle_trans; [|exact A]. apply Qle_lteq. right. ring.
  - eapply Qle_trans; [exact B|]. apply Qle_lteq. right. ring.
  - eapply Qle_trans; [|exact C]. apply Qle_lteq. right. ring.
  - eapply Qle_trans; [exact D|]. apply Qle_lteq. right. ring.
Qed.

(** C11 *)
Lemma trim_keeps k types rows psf input junk pjunk f im :
  make_meds k types rows psf input junk pjunk = Ok f ->
  first_image_is_coadd (k_l k) = true -> trim_to_coadd (k_l k) = true ->
  zget (map ir_image rows) 0 = Some im ->
  exists objs, restricted (accepted (k_l k) 0 im) input objs /\ map o_id (m_cat f) = map o_id objs.
Proof.
  intros H H1 H2 Him. destruct (written_selected _ _ _ _ _ _ _ _ H) as (objs & Hs).
  pose proof (written_slots _ _ _ _ _ _ _ _ _ H Hs) as (HL & nslots & _ & _ & W).
  exists objs. unfold selected in Hs. rewrite H1, H2 in Hs. cbn [andb] in Hs. destruct Hs as (im' & E & R).
  rewrite Him in E. inversion E; subst im'. split; [exact R|].
  apply list_zget_ext; [rewrite !zlen_map; symmetry; exact HL|]. intros i Hi. rewrite !zget_map.
  destruct (zget objs i) as [o|] eqn:Eo.
  - destruct (zget_range_Some (m_cat f) i) as (o' & Eo'); [rewrite <- HL; eapply zget_Some_range; exact Eo|].
    rewrite Eo'. cbn [option_map]. f_equal. destruct (W i o o' Eo Eo') as (W1 & _). exact W1.
  - destruct (zget (m_cat f) i) as [o'|] eqn:Eo'; [|reflexivity].
    destruct (zget_range_Some objs i) as (o & Eo2); [rewrite HL; eapply zget_Some_range; exact Eo'|]. congruence.
Qed.
