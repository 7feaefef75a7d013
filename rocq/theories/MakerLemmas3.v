(** Coadd rules, psf round trip, parallel psf writing. *)
From Coq Require Import Lia ZifyBool ZifyNat String Sorted.
From Verif Require Import Base BaseLemmas Img ImgLemmas Types Reader MakerLayout MakerWrite MakerFile
  SpecTiles SpecLayout SpecFile StartLemmas StampLemmas WriteLemmas LayoutLemmas BuildLemmas PsfLemmas
  ReadLemmas CalibLemmas FileLemmas MakerLemmas MakerLemmas2.
Open Scope Z_scope.
Ltac Zify.zify_post_hook ::= Z.div_mod_to_equations.

(** * Coadd *)

Lemma filter_all_length {A} (p : A -> bool) l : length (filter p l) = length l <-> (forall x, In x l -> p x = true).
Proof.
  induction l as [|a l IH]; simpl; [split; [intros _ x []|reflexivity]|].
  pose proof (filter_length_le p l) as HL. destruct (p a) eqn:E; simpl; split.
  - intros H x [<-|Hx]; [exact E|]. apply IH; [lia|exact Hx].
  - intros H. f_equal. apply IH. intros x Hx; apply H; right; exact Hx.
  - intros H; lia.
  - intros H. rewrite (H a (or_introl eq_refl)) in E. discriminate.
Qed.

Lemma set_start_rows_err cat e : set_start_rows cat = Err e -> e <> MEDSCreationError.
Proof.
  unfold set_start_rows. intros H Hc. subst e.
  assert (G : forall cat row npix, start_rows_loop cat row npix <> Err MEDSCreationError).
  { clear. induction cat as [|o cat IH]; intros row npix; cbn [start_rows_loop]; [discriminate|].
    assert (G1 : start_rows_obj o row npix <> Err MEDSCreationError).
    { unfold start_rows_obj. destruct (0 <? o_ncut o); [|discriminate].
      match goal with |- context [foldM ?g _ _] => set (gg := g) end.
      assert (GG : forall l st, foldM gg l st <> Err MEDSCreationError).
      { induction l as [|i l IHl]; intros [[sl r] np]; cbn [foldM]; [discriminate|].
        unfold gg at 1. unfold modify. destruct (nth_error sl (Z.to_nat i)); cbn [bind]; [apply IHl|discriminate]. }
      specialize (GG (zrange (o_ncut o)) (o_slots o, row, npix)).
      destruct (foldM gg (zrange (o_ncut o)) (o_slots o, row, npix)) as [[[? ?] ?]|]; cbn [bind]; [discriminate|congruence]. }
    destruct (start_rows_obj o row npix) as [[[o' r'] n']|e]; cbn [bind]; [|congruence].
    specialize (IH r' n'). destruct (start_rows_loop cat r' n') as [[[c r] n]|e']; cbn [bind]; [discriminate|congruence]. }
  specialize (G cat 0 0). destruct (start_rows_loop cat 0 0) as [[[c r] n]|e]; cbn [bind] in H; [|congruence].
  dif_in H E; discriminate.
Qed.

Lemma coadd_check_exact c im images input :
  first_image_is_coadd c = true -> check_in_coadd c = true -> force_into_coadd_bounds c = false ->
  trim_to_coadd c = false ->
  build_layout c (im :: images) (init_cat c (im :: images) input) = Err MEDSCreationError <->
  exists o, In o input /\ ~ accepted c 0 im o.
Proof.
  intros H1 H2 H3 H4. rewrite build_layout_cases, H1, H4. cbn [andb].
  unfold kept. rewrite H1, H4. cbn [andb]. unfold file_err. rewrite H1, H2, H3. cbn [andb Z.eqb].
  destruct (length input =? length (filter (acc c 0 im) input))%nat eqn:E; cbn [negb]; split.
  - intros H. exfalso. dif_in H E1; [discriminate|].
    match type of H with bind ?x _ = _ => destruct x as [cat2|e] eqn:ER end; cbn [bind] in H.
    + eapply set_start_rows_err in H. congruence.
    + inversion H; subst. unfold make_resized in ER.
      match type of ER with bind ?x _ = _ => destruct x as [m|e] eqn:EM end; cbn [bind] in ER; [discriminate|].
      inversion ER; subst. clear -EM. unfold zmax_list in EM. destruct (map o_ncut _); discriminate.
  - intros (o & Ho & Hn). exfalso. apply Hn. apply acc_accepted. apply Nat.eqb_eq in E. symmetry in E.
    rewrite filter_all_length in E. apply E. exact Ho.
  - intros _. apply Nat.eqb_neq in E.
    assert (G : existsb (fun o => negb (acc c 0 im o)) input = true).
    { destruct (existsb _ input) eqn:EX; [reflexivity|]. exfalso. apply E. symmetry. apply filter_all_length.
      intros x Hx. destruct (acc c 0 im x) eqn:EA; [reflexivity|].
      assert (existsb (fun o => negb (acc c 0 im o)) input = true); [|congruence].
      apply existsb_exists. exists x. rewrite EA. auto. }
    apply existsb_exists in G. destruct G as (o & Ho & Hb). exists o. split; [exact Ho|].
    intros Ha. apply acc_accepted in Ha. rewrite Ha in Hb. discriminate.
  - reflexivity.
Qed.

(** A sorted list of non-negative numbers containing 0 starts with it. *)
Lemma sorted_head l : StronglySorted Z.lt l -> (forall x, In x l -> 0 <= x) -> In 0 l -> exists l', l = 0 :: l'.
Proof.
  intros H Hn Hi. destruct l as [|a l]; [contradiction|]. destruct Hi as [->|Hi]; [exists l; reflexivity|].
  inversion H as [|? ? Hs Hf]; subst. rewrite Forall_forall in Hf. specialize (Hf 0 Hi).
  specialize (Hn a (or_introl eq_refl)). lia.
Qed.

Lemma first_cutout_coadd k types rows psf input junk pjunk f :
  make_meds k types rows psf input junk pjunk = Ok f -> rows <> [] ->
  first_image_is_coadd (k_l k) = true -> check_in_coadd (k_l k) = true \/ trim_to_coadd (k_l k) = true ->
  forall i o, zget (m_cat f) i = Some o ->
    0 < o_ncut o /\ exists s, zget (o_slots o) 0 = Some s /\ s_file s = 0.
Proof.
  intros H Hne H1 H2 i o Ho. destruct (written_selected _ _ _ _ _ _ _ _ H) as (objs & Hs).
  pose proof (written_files _ _ _ _ _ _ _ _ _ H Hs) as WF.
  destruct (written_slots _ _ _ _ _ _ _ _ _ H Hs) as (HL & nslots & _ & _ & WS).
  destruct (zget_range_Some objs i) as (oi & Hoi); [rewrite HL; eapply zget_Some_range; exact Ho|].
  destruct (WF i oi o Hoi Ho) as (F1 & F2 & F3).
  apply make_meds_layout in H.
  destruct H as (tys & objs' & ns & total & cat0 & _ & S2 & _ & _ & _ & _ & _ & E8 & _).
  pose proof (selected_fun _ _ _ _ _ Hs S2) as ->. clear S2.
  destruct rows as [|row rows]; [contradiction|].
  assert (Hacc : accepted (k_l k) 0 (ir_image row) oi).
  { pose proof (zget_In _ _ _ Hoi) as Hin.
    destruct (trim_to_coadd (k_l k)) eqn:ET.
    - unfold selected in Hs. rewrite H1, ET in Hs. cbn [andb] in Hs. destruct Hs as (im & Him & R).
      cbn in Him. inversion Him; subst. apply (restricted_In _ _ _ R) in Hin. apply Hin.
    - destruct H2 as [H2|H2]; [|discriminate].
      specialize (E8 (ir_image row) eq_refl). unfold file_err in E8. rewrite H1, H2 in E8. cbn [andb Z.eqb] in E8.
      dif_in E8 E9; [discriminate|]. dif_in E8 E10; [discriminate|].
      apply acc_accepted. apply negb_false_iff, Nat.eqb_eq in E10. symmetry in E10. rewrite filter_all_length in E10.
      apply E10. exact Hin. }
  assert (H0 : In 0 (map s_file (used_slots o))).
  { apply F3. exists (ir_image row). split; [reflexivity|exact Hacc]. }
  destruct (sorted_head _ F2) as (l' & El).
  { intros x Hx. apply F3 in Hx. destruct Hx as (im & Him & _). apply zget_Some_range in Him. lia. }
  { exact H0. }
  destruct (used_slots o) as [|s sl] eqn:EU; [discriminate|]. cbn [map] in El. injection El as Ef _.
  assert (Hpos : 0 < o_ncut o) by (unfold zlen in F1; simpl in F1; lia).
  split; [exact Hpos|]. exists s. split; [|exact Ef].
  assert (EN : nth_error (used_slots o) 0 = Some s) by (rewrite EU; reflexivity).
  rewrite used_slots_nth in EN. dif_in EN E; [|discriminate]. exact EN.
Qed.

(** C11 *)
Lemma trim_never_creation_error c images input :
  first_image_is_coadd c = true -> trim_to_coadd c = true ->
  build_layout c images (init_cat c images input) <> Err MEDSCreationError.
Proof.
  intros H1 H2. rewrite build_layout_cases, H1, H2. cbn [andb].
  destruct images as [|im images]; [discriminate|].
  assert (E0 : (zlen (im :: images) =? 0) = false) by (unfold zlen; simpl; lia). rewrite E0.
  dif E1; [discriminate|]. unfold file_err. rewrite H1. cbn [andb Z.eqb].
  assert (EF : filter (acc c 0 im) (kept c (im :: images) input) = kept c (im :: images) input).
  { unfold kept. rewrite H1, H2. cbn [andb]. rewrite filter_filter.
    clear. induction input as [|a l IH]; [reflexivity|]. simpl. destruct (acc c 0 im a) eqn:E; simpl; rewrite IH; reflexivity. }
  rewrite EF. rewrite Nat.eqb_refl. cbn [negb]. rewrite andb_false_r.
  dif E2.
  - discriminate.
  - dif E3; [discriminate|]. intros H.
    match type of H with bind ?x _ = _ => destruct x as [cat2|e] eqn:ER end; cbn [bind] in H.
    + eapply set_start_rows_err in H. congruence.
    + inversion H; subst. unfold make_resized in ER.
      match type of ER with bind ?x _ = _ => destruct x as [m|e] eqn:EM end; cbn [bind] in ER; [discriminate|].
      inversion ER; subst. clear -EM. unfold zmax_list in EM. destruct (map o_ncut _); discriminate.
Qed.

(** * Parallel psf writing *)

Lemma psf_files_valid c images nslots objs cat (ps : list psfobj) : zlen ps = zlen images ->
  Forall2 (laid_out c images nslots) objs cat ->
  Forall (fun o => Forall (file_valid ps) (used_slots o)) cat.
Proof.
  intros HL F. apply laid_out_cat_files in F. eapply Forall_impl; [|exact F].
  intros o Ho. eapply Forall_impl; [|exact Ho]. intros s Hs. cbv beta in Hs. unfold file_valid. rewrite HL. exact Hs.
Qed.

Lemma make_meds_joblib k types rows psf input junk pjunk n : 1 <= n ->
  make_meds (with_joblib k true n) types rows psf input junk pjunk =
  make_meds (with_joblib k false n) types rows psf input junk pjunk.
Proof.
  intros Hn. unfold make_meds, new_maker, with_joblib. cbn [k_l k_p k_unusable k_types k_joblib k_njob k_number_col].
  destruct (set_cutout_types types) as [names|e]; cbn [bind]; [|reflexivity].
  destruct (mapM _ names) as [tys|e]; cbn [bind]; [|reflexivity].
  destruct psf as [ps|].
  2:{ cbn [bind]. unfold write, full_layout, write_data.
      cbn [mk_conf mk_rows mk_psf mk_cat k_l k_p k_unusable k_types k_joblib k_njob k_number_col].
      destruct (build_layout (k_l k) _ _) as [[cat0 total]|e]; cbn [bind fst snd]; [|reflexivity].
      destruct (write_types _ _ _ _ _) as [ext|e]; reflexivity. }
  destruct (zlen ps =? zlen rows) eqn:EL; cbn [bind]; [|reflexivity].
  unfold write, full_layout, write_data. cbn [mk_conf mk_rows mk_psf mk_cat k_l k_p k_unusable k_types k_joblib k_njob k_number_col].
  destruct (build_layout (k_l k) _ _) as [[cat0 total]|e] eqn:EB; cbn [bind fst snd]; [|reflexivity].
  destruct (set_psf_layout (k_l k) (k_p k) ps cat0) as [[cat tp]|e] eqn:EP; cbn [bind fst snd]; [|reflexivity].
  destruct (write_types _ _ _ _ _) as [ext|e]; cbn [bind]; [|reflexivity].
  destruct (build_layout_inv _ _ _ _ _ EB) as (objs & nslots & _ & _ & F & _).
  assert (HL : zlen ps = zlen (map ir_image rows)) by (rewrite zlen_map; lia).
  pose proof (psf_files_valid _ _ _ _ _ ps HL F) as V0.
  rewrite set_psf_layout_eq in EP; [|eapply laid_out_ncut_ok; exact F|exact V0].
  inversion EP; subst. pose proof (pstarted_cat_laid_out _ (k_p k) ps _ _ _ _ F 0) as F'.
  rewrite joblib_serial; [destruct (write_psf_serial _ _ _ _ _); reflexivity|exact Hn|eapply laid_out_ncut_ok; exact F'|].
  eapply psf_files_valid; [exact HL|exact F'].
Qed.

(** * PSF round trip *)

Definition p_range (k : obj * Z * slot) : Z * Z :=
  (s_psf_start (k_slot k), s_psf_start (k_slot k) + s_psf_nr (k_slot k) * s_psf_nc (k_slot k)).

Lemma cat_keys_psf_ranges cat : Forall ncut_ok cat -> map p_range (cat_keys cat) = psf_ranges cat.
Proof.
  induction 1 as [|o cat Ho Hc IH]; [reflexivity|]. unfold cat_keys, psf_ranges in *. cbn [flat_map].
  rewrite map_app, IH. f_equal. rewrite map_map. unfold p_range, k_slot. cbn [snd].
  apply (map_combine_snd (fun s => (s_psf_start s, s_psf_start s + s_psf_nr s * s_psf_nc s))).
  rewrite zrange_length. unfold used_slots. rewrite firstn_length. unfold ncut_ok, zlen in Ho. lia.
Qed.

(** What a slot of the psf layout holds. *)
Definition psf_slot_ok (c : lconf) (pc : pconf) (ps : list psfobj) (o : obj) (s : slot) : Prop :=
  exists p, zget ps (s_file s) = Some p /\
    (s_psf_nr s, s_psf_nc s) = psf_shape p (s_orow s) (s_ocol s) (psf_color_arg c pc (s_file s) o) /\
    (s_psf_crow s, s_psf_ccol s) = p_center p (s_orow s) (s_ocol s).

Lemma pstarted_slot_ok c pc ps st o : Forall (file_valid ps) (used_slots o) ->
  Forall (psf_slot_ok c pc ps (pstarted c pc ps st o)) (used_slots (pstarted c pc ps st o)).
Proof.
  intros V. unfold used_slots, pstarted. cbn [o_ncut o_slots set_slots].
  set (o' := set_slots o _).
  assert (Ho' : forall fid, psf_color_arg c pc fid o' = psf_color_arg c pc fid o) by reflexivity.
  unfold used_slots in V. clearbody o'. revert V st. generalize (Z.to_nat (o_ncut o)) as n. generalize (o_slots o).
  induction l as [|s sl IH]; intros [|n] V st; cbn [pstarts firstn]; try constructor.
  - cbn [firstn] in V. inversion V as [|? ? Hs Hv]; subst. destruct (zget_range_Some ps (s_file s) Hs) as (p & Hp).
    exists p. cbn [s_file s_orow s_ocol s_psf_nr s_psf_nc s_psf_crow s_psf_ccol set_psf].
    unfold psh, pcen. rewrite Hp, Ho'. rewrite <- !surjective_pairing. auto.
  - apply IH. cbn [firstn] in V. inversion V; assumption.
Qed.

Lemma pstarted_cat_slot_ok c pc ps cat : Forall (fun o => Forall (file_valid ps) (used_slots o)) cat ->
  forall st, Forall (fun o => Forall (psf_slot_ok c pc ps o) (used_slots o)) (pstarted_cat c pc ps st cat).
Proof.
  induction 1 as [|o cat Ho Hc IH]; intros st; cbn [pstarted_cat]; constructor.
  - apply pstarted_slot_ok; exact Ho.
  - apply IH.
Qed.

Lemma pnpix_nonneg c pc ps cat : forall st,
  (forall o s, In o (pstarted_cat c pc ps st cat) -> In s (used_slots o) -> 0 <= s_psf_nr s * s_psf_nc s) ->
  Forall (fun o => Forall (fun s => 0 <= pnpix c pc ps o s) (used_slots o)) cat.
Proof.
  induction cat as [|o cat IH]; intros st H; constructor.
  - assert (G : forall s, In s (used_slots (pstarted c pc ps st o)) -> 0 <= s_psf_nr s * s_psf_nc s).
    { intros s Hs. apply (H _ s (or_introl eq_refl) Hs). }
    revert G. unfold used_slots, pstarted. cbn [o_ncut o_slots set_slots].
    clear. generalize (Z.to_nat (o_ncut o)) as n. generalize st. generalize (o_slots o).
    induction l as [|s sl IH]; intros st0 [|n] G; cbn [firstn pstarts] in *; constructor.
    + specialize (G _ (or_introl eq_refl)). exact G.
    + eapply IH. intros s' Hs'. apply G. right. exact Hs'.
  - apply (IH (st + ptotal c pc ps o)). intros o' s Ho' Hs. apply (H o' s); [right; exact Ho'|exact Hs].
Qed.

Lemma key_used cat k : Forall ncut_ok cat -> In k (cat_keys cat) -> In (k_obj k) cat /\ In (k_slot k) (used_slots (k_obj k)).
Proof.
  intros Hn Hk. destruct k as [[o c] s]. apply in_cat_keys' in Hk; [|exact Hn]. destruct Hk as (Ho & Hc & Hs).
  split; [exact Ho|]. cbn [k_obj k_slot fst snd]. eapply nth_error_In with (n := Z.to_nat c). rewrite used_slots_nth.
  dif E; [|lia]. unfold zget in Hs. destruct (c <? 0) eqn:E0; [lia|exact Hs].
Qed.

Lemma written_psf k types rows ps input junk pjunk f : 1 <= k_njob k ->
  (forall p r c col, In p ps -> img_ok (p_rec p r c col)) ->
  make_meds k types rows (Some ps) input junk pjunk = Ok f ->
  exists h, m_psf f = Some h /\ tiles 0 (psf_ranges (m_cat f)) (zlen h) /\
    forall iobj icut o s, cutout_at f iobj icut o s ->
    exists p, zget ps (s_file s) = Some p /\
      let im := p_rec p (s_orow s) (s_ocol s) (psf_color_arg (k_l k) (k_p k) (s_file s) o) in
      psf_shape p (s_orow s) (s_ocol s) (psf_color_arg (k_l k) (k_p k) (s_file s) o) = (nr im, nc im) /\
      s_psf_nr s = nr im /\ s_psf_nc s = nc im /\
      (s_psf_crow s, s_psf_ccol s) = p_center p (s_orow s) (s_ocol s) /\
      (0 < nr im * nc im -> get_psf f iobj icut = Ok im).
Proof.
  intros Hjob Hok H. apply make_meds_layout in H.
  destruct H as (tys & objs & nslots & total & cat0 & H1 & H2 & H3 & H4 & H5 & H6 & H7 & H8 & H9 & H10 & H11 & H12 & P1 & P2 & P3 & h & P4 & P5).
  assert (HL : zlen ps = zlen (map ir_image rows)) by (rewrite zlen_map; lia).
  pose proof (psf_files_valid _ _ _ _ _ ps HL H12) as V0.
  pose proof (psf_files_valid _ _ _ _ _ ps HL H4) as V.
  pose proof (laid_out_ncut_ok _ _ _ _ _ H4) as N. pose proof (laid_out_ncut_ok _ _ _ _ _ H12) as N0.
  assert (P5' : write_psf_serial (k_l k) (k_p k) ps (m_cat f)
                (map pjunk (zrange (fold_right Z.add 0 (map (ptotal (k_l k) (k_p k) ps) cat0)))) = Ok h).
  { destruct (k_joblib k); [|exact P5]. rewrite joblib_serial in P5; assumption. }
  clear P5. rewrite serial_flat in P5'; [|exact N|exact V].
  pose proof (put_all_shapes _ _ _ _ _ _ P5') as SH.
  assert (SL : forall o s, In o (m_cat f) -> In s (used_slots o) -> psf_slot_ok (k_l k) (k_p k) ps o s).
  { pose proof (pstarted_cat_slot_ok (k_l k) (k_p k) ps cat0 V0 0) as SL. rewrite <- P3 in SL.
    rewrite Forall_forall in SL. intros o s Ho. specialize (SL o Ho). rewrite Forall_forall in SL. apply SL. }
  assert (KEY : forall o s, In o (m_cat f) -> In s (used_slots o) -> exists c, In (o, c, s) (cat_keys (m_cat f))).
  { intros o s Ho Hs. apply In_zget in Hs. destruct Hs as (c & Hc). exists c.
    pose proof (zget_Some_range _ _ _ Hc) as Hr. unfold zget in Hc. destruct (c <? 0) eqn:E0; [discriminate|].
    rewrite used_slots_nth in Hc. dif_in Hc E; [|discriminate].
    apply in_cat_keys'; [exact N|]. split; [exact Ho|]. split; [lia|]. unfold zget. rewrite E0. exact Hc. }
  assert (REN : forall o s, In o (m_cat f) -> In s (used_slots o) ->
     nr (rendered (k_l k) (k_p k) ps o s) = s_psf_nr s /\ nc (rendered (k_l k) (k_p k) ps o s) = s_psf_nc s /\
     img_ok (rendered (k_l k) (k_p k) ps o s)).
  { intros o s Ho Hs. destruct (KEY o s Ho Hs) as (c & Hc). destruct (SH _ Hc) as [S1 S2]. cbn in S1, S2.
    split; [exact S1|]. split; [exact S2|]. destruct (SL o s Ho Hs) as (p & Hp & _). unfold rendered. rewrite Hp.
    apply Hok. eapply zget_In; exact Hp. }
  assert (NN : Forall (fun o => Forall (fun s => 0 <= pnpix (k_l k) (k_p k) ps o s) (used_slots o)) cat0).
  { apply (pnpix_nonneg _ _ _ _ 0). rewrite <- P3. intros o s Ho Hs. destruct (REN o s Ho Hs) as (R1 & R2 & R3 & R4 & R5).
    rewrite <- R1, <- R2. nia. }
  pose proof (pstarted_cat_tiles (k_l k) (k_p k) ps cat0 N0 NN 0) as TP. rewrite <- P3 in TP. simpl in TP.
  set (tot := fold_right Z.add 0 (map (ptotal (k_l k) (k_p k) ps) cat0)) in *.
  pose proof (tiles_le _ _ _ TP) as Htot.
  assert (HB : zlen (map pjunk (zrange tot)) = tot) by (rewrite zlen_map, zlen_zrange; [reflexivity|lia]).
  (* writes *)
  assert (FW : foldM (fun hh kk => put_psf (k_slot kk) (rendered (k_l k) (k_p k) ps (k_obj kk) (k_slot kk)) hh)
                  (cat_keys (m_cat f)) (map pjunk (zrange tot)) =
               foldM (fun hh kk => write_at hh (s_psf_start (k_slot kk))
                        (dat (rendered (k_l k) (k_p k) ps (k_obj kk) (k_slot kk)))) (cat_keys (m_cat f)) (map pjunk (zrange tot))).
  { apply foldM_ext_in. intros hh kk Hkk. unfold put_psf. destruct (SH kk Hkk) as [S1 S2]. rewrite S1, S2, !Z.eqb_refl.
    reflexivity. }
  rewrite FW in P5'.
  pose proof TP as TP'. rewrite <- (cat_keys_psf_ranges _ N) in TP'.
  destruct (tiles_keys p_range _ _ _ TP') as [K1 K2].
  assert (DL : forall kk, In kk (cat_keys (m_cat f)) ->
     zlen (dat (rendered (k_l k) (k_p k) ps (k_obj kk) (k_slot kk))) = s_psf_nr (k_slot kk) * s_psf_nc (k_slot kk)).
  { intros kk Hkk. destruct (key_used _ _ N Hkk) as [U1 U2]. destruct (REN _ _ U1 U2) as (R1 & R2 & R3 & R4 & R5).
    rewrite <- R1, <- R2. exact R5. }
  destruct (foldM_writes (fun kk => s_psf_start (k_slot kk))
     (fun kk => dat (rendered (k_l k) (k_p k) ps (k_obj kk) (k_slot kk))) (cat_keys (m_cat f)) (map pjunk (zrange tot)))
     as (h' & W1 & W2 & W3 & _).
  - intros kk Hkk. rewrite (DL kk Hkk), HB. destruct (K1 kk Hkk) as (A & B & C). unfold p_range in *. simpl in *. lia.
  - intros k1 k2 Hk1 Hk2. rewrite (DL k1 Hk1), (DL k2 Hk2). destruct (K2 k1 k2 Hk1 Hk2) as [->|[D|D]].
    + left. split; reflexivity.
    + right. left. exact D.
    + right. right. exact D.
  - rewrite W1 in P5'. inversion P5'; subst h'. exists h. split; [exact P4|]. split; [rewrite W2, HB; exact TP|].
    intros iobj icut o s Hc. pose proof (cutout_key f iobj icut o s N Hc) as Hk.
    destruct (key_used _ _ N Hk) as [U1 U2]. cbn [k_obj k_slot fst snd] in U1, U2.
    destruct (SL o s U1 U2) as (p & Hp & Q1 & Q2). exists p. split; [exact Hp|].
    destruct (REN o s U1 U2) as (R1 & R2 & R3). unfold rendered in R1, R2, R3. rewrite Hp in R1, R2, R3.
    cbv zeta. set (im := p_rec p (s_orow s) (s_ocol s) (psf_color_arg (k_l k) (k_p k) (s_file s) o)) in *.
    split; [rewrite <- Q1; congruence|]. split; [congruence|]. split; [congruence|]. split; [exact Q2|]. intros Hpos.
    destruct Hc as (C1 & C2 & C3). unfold get_psf. rewrite P4. rewrite (check_indices_ok f iobj icut o C1 C2). cbn [bind].
    unfold get_psf_shape. rewrite P2. rewrite (get_slot_ok _ _ _ C3). cbn [bind fst snd].
    destruct (K1 _ Hk) as (A & B & C). unfold p_range in *. cbn [fst snd k_slot] in *.
    assert (ES : slice h (s_psf_start s) (s_psf_start s + s_psf_nr s * s_psf_nc s) = Ok (dat im)).
    { apply slice_spec; try lia.
      - destruct R3 as (_ & _ & R3). rewrite <- R1, <- R2. lia.
      - intros j Hj. specialize (W3 _ Hk j). cbn [k_slot k_obj fst snd] in W3. unfold rendered in W3. rewrite Hp in W3.
        fold im in W3. apply W3. destruct R3 as (_ & _ & R3). rewrite <- R1, <- R2 in Hj. lia. }
    rewrite ES. cbn [bind]. unfold reshape. destruct R3 as (R3 & R4 & R5). rewrite <- R1, <- R2.
    dif E; [|lia]. f_equal. destruct im; reflexivity.
Qed.
