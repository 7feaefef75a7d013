(** Consequences of a successful write, property by property. *)
From Coq Require Import Lia ZifyBool ZifyNat String Sorted.
From Verif Require Import Base BaseLemmas Img ImgLemmas Types Reader MakerLayout MakerWrite MakerFile
  SpecTiles SpecLayout SpecFile StartLemmas StampLemmas WriteLemmas LayoutLemmas BuildLemmas PsfLemmas
  ReadLemmas CalibLemmas FileLemmas.
Open Scope Z_scope.
Ltac Zify.zify_post_hook ::= Z.div_mod_to_equations.

Lemma Forall2_zget {A B} (R : A -> B -> Prop) l l' : Forall2 R l l' ->
  zlen l = zlen l' /\ forall i a b, zget l i = Some a -> zget l' i = Some b -> R a b.
Proof.
  intros H. split; [unfold zlen; f_equal; induction H; simpl; congruence|].
  intros i a b Ha Hb. pose proof (zget_Some_range _ _ _ Ha) as Hr. unfold zget in *.
  destruct (i <? 0) eqn:E; [discriminate|]. revert Ha Hb. generalize (Z.to_nat i). clear -H.
  induction H as [|x y l l' Hxy H IH]; intros [|n]; simpl; intros Ha Hb; try discriminate.
  - inversion Ha; inversion Hb; subst; exact Hxy.
  - eapply IH; eassumption.
Qed.

Lemma restricted_fun {A} (P : A -> Prop) l l1 : restricted P l l1 -> forall l2, restricted P l l2 -> l1 = l2.
Proof.
  induction 1 as [|a l l' HP H IH|a l l' HP H IH]; intros l2 H2; inversion H2; subst; auto; try contradiction.
  f_equal. apply IH. assumption.
Qed.

Lemma selected_fun c images input a b : selected c images input a -> selected c images input b -> a = b.
Proof.
  unfold selected. destruct (first_image_is_coadd c && trim_to_coadd c).
  - intros (im & H1 & H2) (im' & H1' & H2'). rewrite H1 in H1'. inversion H1'; subst.
    eapply restricted_fun; eassumption.
  - congruence.
Qed.

Lemma restricted_In {A} (P : A -> Prop) l l' : restricted P l l' -> forall a, In a l' <-> In a l /\ P a.
Proof.
  induction 1 as [|a l l' HP H IH|a l l' HP H IH]; intros x; simpl.
  - tauto.
  - rewrite IH. split; [intros [->|[? ?]]|intros [[->|?] ?]]; auto.
  - rewrite IH. split; [intros [? ?]|intros [[->|?] ?]]; auto; contradiction.
Qed.

Lemma selected_In c images input objs o : selected c images input objs -> In o objs -> In o input.
Proof.
  unfold selected. destruct (_ && _).
  - intros (im & _ & H) Ho. apply (restricted_In _ _ _ H) in Ho. apply Ho.
  - intros ->; auto.
Qed.

Lemma laid_out_cat_wf c images nslots objs cat : Forall2 (laid_out c images nslots) objs cat ->
  Forall (fun o => 1 <= o_box o) objs ->
  Forall (fun o => 0 <= o_ncut o <= zlen (o_slots o) /\ 0 < o_box o) cat.
Proof.
  induction 1 as [|o o' objs cat Ho Hc IH]; intros Hb; constructor; inversion Hb; subst.
  - destruct Ho as (_ & _ & _ & _ & _ & _ & _ & L8 & L9 & L10 & _). split; [lia|]. rewrite L8. lia.
  - apply IH; assumption.
Qed.

Lemma cat_wf_weaken cat : Forall (fun o => 0 <= o_ncut o <= zlen (o_slots o) /\ 0 < o_box o) cat -> cat_wf cat.
Proof. intros H. eapply Forall_impl; [|exact H]. intros o [A B]. split; [exact A|lia]. Qed.

Lemma reserve_len tys total junk t m : 0 <= total ->
  ext_find (reserve tys total junk) t = Some m -> zlen m = total.
Proof. intros H E. apply reserve_find in E. subst m. rewrite zlen_map, zlen_zrange by exact H. reflexivity. Qed.

(** Mosaic lengths need nothing about the sources. *)
Lemma write_types_len u cat srcs types : forall total ext ext',
  (forall t m, ext_find ext t = Some m -> zlen m = total) ->
  write_types u cat srcs types ext = Ok ext' ->
  map fst ext' = map fst ext /\ (forall t m, ext_find ext' t = Some m -> zlen m = total).
Proof.
  induction types as [|t types IH]; intros total ext ext' HL H; unfold write_types in H; cbn [foldM] in H.
  - inversion H; subst. split; auto.
  - apply bind_ok in H. destruct H as (ext1 & H1 & H2).
    destruct (ext_find ext t) as [hdu|] eqn:EF; [|discriminate].
    apply bind_ok in H1. destruct H1 as (hdu' & W & E). inversion E; subst ext1; clear E.
    pose proof (write_cutouts_inv _ _ _ _ _ _ W) as [_ HR].
    destruct (IH total (ext_set ext t hdu') ext') as (I1 & I2).
    + intros t' m. rewrite ext_set_find, EF. destruct (ctype_eqb t t'); [|apply HL].
      intros E; injection E as <-. rewrite HR. eapply HL; exact EF.
    + exact H2.
    + split; [rewrite I1; apply ext_set_fst|exact I2].
Qed.

(** C01 *)
Lemma written_tiles k types rows psf input junk pjunk f :
  make_meds k types rows psf input junk pjunk = Ok f ->
  exists total, tiles 0 (cut_ranges (m_cat f)) total /\
    forall t m, ext_find (m_ext f) t = Some m -> zlen m = total.
Proof.
  intros H. apply make_meds_layout in H.
  destruct H as (tys & objs & nslots & total & cat0 & H1 & H2 & H3 & H4 & H5 & H6 & H7 & H8 & H9 & _).
  exists total. split; [exact H7|].
  assert (Ht : 0 <= total) by (apply tiles_le in H7; exact H7).
  eapply write_types_len; [|exact H9]. intros t m. apply reserve_len; exact Ht.
Qed.

Lemma written_file_wf k types rows psf input junk pjunk f : Forall (fun o => 1 <= o_box o) input ->
  make_meds k types rows psf input junk pjunk = Ok f -> file_wf f.
Proof.
  intros Hb H. destruct (written_tiles _ _ _ _ _ _ _ _ H) as (total & T1 & T2).
  apply make_meds_layout in H.
  destruct H as (tys & objs & nslots & total' & cat0 & H1 & H2 & H3 & H4 & _).
  split.
  - eapply laid_out_cat_wf; [exact H4|]. rewrite Forall_forall in *. intros o Ho. apply Hb.
    eapply selected_In; eassumption.
  - intros t m Hm. rewrite (T2 t m Hm). exact T1.
Qed.

(** the extensions of the file are exactly the normalised types *)
Lemma written_types k types rows psf input junk pjunk f :
  make_meds k types rows psf input junk pjunk = Ok f ->
  exists tys, types_of types tys /\ map fst (m_ext f) = tys.
Proof.
  intros H. apply make_meds_layout in H.
  destruct H as (tys & objs & nslots & total & cat0 & H1 & _ & _ & _ & _ & _ & H7 & _ & H9 & _).
  exists tys. split; [exact H1|].
  destruct (write_types_len _ _ _ _ total _ _ (fun t m E => reserve_len tys total junk t m (tiles_le _ _ _ H7) E) H9)
    as [E _].
  rewrite E. apply reserve_fst.
Qed.

(** C02 *)
Lemma written_cutout k types rows psf input junk pjunk f :
  Forall (fun o => 1 <= o_box o) input -> Forall (fun r => source_ok (ir_src r)) rows ->
  make_meds k types rows psf input junk pjunk = Ok f ->
  forall iobj icut o s t v row,
    cutout_at f iobj icut o s -> In t (map fst (m_ext f)) -> fill_value t = Some v ->
    zget rows (s_file s) = Some row -> has_file (ir_src row) t ->
    exists im, calibrated (k_unusable k) (ir_src row) t im /\
      get_cutout f iobj icut t = Ok (crop v im (s_osr s) (s_osc s) (o_box o)).
Proof.
  intros Hb Hsrc H iobj icut o s t v row Hc Ht Hv Hrow Hf.
  pose proof (written_file_wf _ _ _ _ _ _ _ _ Hb H) as Hwf.
  apply make_meds_layout in H.
  destruct H as (tys & objs & nslots & total & cat0 & H1 & H2 & H3 & H4 & H5 & H6 & H7 & H8 & H9 & _).
  assert (Hs : Forall source_ok (map ir_src rows)) by (apply Forall_map; exact Hsrc).
  assert (Hcw : cat_wf (m_cat f)) by (apply cat_wf_weaken; exact (proj1 Hwf)).
  pose proof (tiles_le _ _ _ H7) as Ht0.
  destruct (write_types_content (k_unusable k) (m_cat f) (map ir_src rows) total Hcw Hs H7 tys _ _
              (fun t m E => reserve_len tys total junk t m Ht0 E) H9) as (W1 & W2 & W3 & W4 & W5).
  rewrite W1, reserve_fst in Ht. destruct (W4 t Ht) as (m & Hm & Hcon).
  assert (Hz : zget (map ir_src rows) (s_file s) = Some (ir_src row)) by (rewrite zget_map, Hrow; reflexivity).
  destruct (W5 t _ _ Ht Hz) as (oim & Hr). destruct (read_image_has_file _ _ _ _ Hr Hf) as (im & ->).
  exists im. split.
  - apply read_image_calibrated; [|exact Hr]. rewrite Forall_forall in Hsrc. apply Hsrc. eapply zget_In; exact Hrow.
  - destruct Hc as (Ho & Hk & Hsl).
    assert (Hin : In (o, icut, s) (cat_keys (m_cat f))).
    { apply in_cat_keys'; [eapply Forall_impl; [|exact (proj1 Hwf)]; simpl; tauto|].
      split; [eapply zget_In; exact Ho|]. split; assumption. }
    destruct (cut_in_range f iobj icut o s t m Hwf) as (R1 & R2 & R3); [repeat split; try eassumption; lia|exact Hm|].
    eapply get_cutout_content; [exact Hwf|repeat split; try eassumption; lia|exact Hm|..].
    + apply crop_ok. lia.
    + reflexivity.
    + reflexivity.
    + intros j Hj. apply (Hcon v Hv (o, icut, s) _ im Hin Hz Hr j Hj).
Qed.

(** Pixel form. *)
Lemma crop_px {A} (v : A) im a b n r c : 0 <= r < n -> 0 <= c < n ->
  px (crop v im a b n) r c = Some (match px im (a + r) (b + c) with Some x => x | None => v end).
Proof. intros Hr Hc. unfold crop. rewrite px_tab2. dif E; [reflexivity|lia]. Qed.

(** C04 on written files *)
Lemma written_mosaic k types rows psf input junk pjunk f : Forall (fun o => 1 <= o_box o) input ->
  make_meds k types rows psf input junk pjunk = Ok f ->
  forall iobj o t, zget (m_cat f) iobj = Some o -> 0 < o_ncut o -> In t (map fst (m_ext f)) ->
  exists mos l, get_mosaic f iobj t = Ok mos /\ img_ok mos /\
    nr mos = o_ncut o * o_box o /\ nc mos = o_box o /\
    get_cutout_list f iobj t = Ok l /\ zlen l = o_ncut o /\
    forall icut, 0 <= icut < o_ncut o ->
      exists im, get_cutout f iobj icut t = Ok im /\ zget l icut = Some im /\
        nr im = o_box o /\ nc im = o_box o /\
        forall r c, 0 <= r < o_box o -> 0 <= c < o_box o ->
          px im r c = px mos (icut * o_box o + r) c.
Proof.
  intros Hb H iobj o t Ho Hn Ht. pose proof (written_file_wf _ _ _ _ _ _ _ _ Hb H) as Hwf.
  assert (exists m, ext_find (m_ext f) t = Some m) as (m & Hm).
  { clear -Ht. induction (m_ext f) as [|[t0 m0] e IH]; [contradiction|]. simpl.
    destruct (ctype_eqb t0 t) eqn:E; [eexists; reflexivity|]. apply IH. destruct Ht as [<-|Ht]; [|exact Ht].
    simpl in E. rewrite ctype_eqb_refl in E. discriminate. }
  destruct (mosaic_blocks f iobj o t m Hwf Ho Hn Hm) as (mos & l & M1 & M2 & M3 & M4 & M5 & M6 & M7).
  exists mos, l. repeat (split; [assumption|]). intros icut Hi.
  destruct (M7 icut Hi) as (im & I1 & I2 & I3 & I4 & I5 & I6).
  exists im. repeat (split; [assumption|]). intros r c Hr Hc. symmetry. apply I6; assumption.
Qed.

(** C06-C09: the rows of the output catalog *)
Lemma written_rows k types rows psf input junk pjunk f objs :
  make_meds k types rows psf input junk pjunk = Ok f ->
  selected (k_l k) (map ir_image rows) input objs ->
  exists nslots, zlen objs = zlen (m_cat f) /\
    (nslots = 2 \/ exists o', In o' (m_cat f) /\ o_ncut o' = nslots) /\ 2 <= nslots /\
    forall i o o', zget objs i = Some o -> zget (m_cat f) i = Some o' ->
      laid_out (k_l k) (map ir_image rows) nslots o o'.
Proof.
  intros H Hs. apply make_meds_layout in H.
  destruct H as (tys & objs' & nslots & total & cat0 & H1 & H2 & H3 & H4 & H5 & H6 & _).
  rewrite (selected_fun _ _ _ _ _ Hs H2). exists nslots. destruct (Forall2_zget _ _ _ H4) as [A B].
  repeat (split; [assumption|]). exact B.
Qed.

Lemma written_selected k types rows psf input junk pjunk f :
  make_meds k types rows psf input junk pjunk = Ok f ->
  exists objs, selected (k_l k) (map ir_image rows) input objs.
Proof.
  intros H. apply make_meds_layout in H.
  destruct H as (tys & objs' & nslots & total & cat0 & H1 & H2 & _). exists objs'; exact H2.
Qed.

(** C06 *)
Lemma written_files k types rows psf input junk pjunk f objs :
  make_meds k types rows psf input junk pjunk = Ok f ->
  selected (k_l k) (map ir_image rows) input objs ->
  forall i o o', zget objs i = Some o -> zget (m_cat f) i = Some o' ->
    zlen (used_slots o') = o_ncut o' /\
    StronglySorted Z.lt (map s_file (used_slots o')) /\
    forall fid, In fid (map s_file (used_slots o')) <->
      exists im, zget (map ir_image rows) fid = Some im /\ accepted (k_l k) fid im o.
Proof.
  intros H Hs i o o' Ho Ho'. destruct (written_rows _ _ _ _ _ _ _ _ _ H Hs) as (n & _ & _ & _ & R).
  destruct (R i o o' Ho Ho') as (L1 & L2 & L3 & L4 & L5 & L6 & L7 & L8 & L9 & L10 & L11 & L12 & L13).
  split; [|split; assumption]. unfold used_slots, zlen. rewrite firstn_length. unfold zlen in L9. lia.
Qed.

(** C07 *)
Lemma half_box_centre x b : (0 <= x)%Q -> b mod 2 = 0 ->
  (inject_Z (b - 1) * (1#2) - (1#2) <= x - inject_Z (qtrunc x - b / 2 + 1) /\
   x - inject_Z (qtrunc x - b / 2 + 1) < inject_Z (b - 1) * (1#2) + (1#2))%Q.
Proof.
  intros Hx Hb. unfold qtrunc. assert (E : Qle_bool 0 x = true) by (apply Qle_bool_iff; exact Hx). rewrite E.
  pose proof (Qfloor_le x) as F1. pose proof (Qlt_floor x) as F2.
  assert (Hb2 : b = 2 * (b / 2)) by lia. remember (b / 2) as h. subst b.
  destruct x as [n d]. unfold Qfloor in *. unfold Qle, Qlt, Qminus, Qplus, Qopp, Qmult, inject_Z in *. simpl in *.
  split; nia.
Qed.

Lemma written_positions k types rows psf input junk pjunk f objs :
  make_meds k types rows psf input junk pjunk = Ok f ->
  selected (k_l k) (map ir_image rows) input objs ->
  forall i o o' icut s, zget objs i = Some o -> cutout_at f i icut o' s ->
    exists im, zget (map ir_image rows) (s_file s) = Some im /\
      s_orow s = spec_row (k_l k) (s_file s) im o /\ s_ocol s = spec_col (k_l k) (s_file s) im o /\
      s_crow s = (s_orow s - inject_Z (s_osr s))%Q /\ s_ccol s = (s_ocol s - inject_Z (s_osc s))%Q /\
      (let '(col, row) := w_pos (im_wcs im) (o_ra o) (o_dec o) (color_arg (k_l k) (s_file s) o) in
       get_jacobian f i icut = Ok (mkJac (s_crow s) (s_ccol s) (s_dudrow s) (s_dudcol s) (s_dvdrow s) (s_dvdcol s)) /\
       w_jac (im_wcs im) col row (color_arg (k_l k) (s_file s) o)
       = (s_dudcol s, s_dudrow s, s_dvdcol s, s_dvdrow s)) /\
      ((0 <= s_orow s)%Q -> (inject_Z (o_box o' - 1) * (1#2) - (1#2) <= s_crow s /\
                             s_crow s < inject_Z (o_box o' - 1) * (1#2) + (1#2))%Q) /\
      ((0 <= s_ocol s)%Q -> (inject_Z (o_box o' - 1) * (1#2) - (1#2) <= s_ccol s /\
                             s_ccol s < inject_Z (o_box o' - 1) * (1#2) + (1#2))%Q).
Proof.
  intros H Hs i o o' icut s Ho (Ho' & Hk & Hsl).
  destruct (written_rows _ _ _ _ _ _ _ _ _ H Hs) as (n & _ & _ & _ & R).
  destruct (R i o o' Ho Ho') as (L1 & L2 & L3 & L4 & L5 & L6 & L7 & L8 & L9 & L10 & L11 & L12 & L13).
  destruct (L13 icut s Hsl) as [D _]. destruct (D (proj2 Hk)) as (im & D1 & D2 & D3 & D4 & D5 & D6 & D7 & D8).
  exists im. repeat (split; [assumption|]).
  assert (Hj : get_jacobian f i icut = Ok (mkJac (s_crow s) (s_ccol s) (s_dudrow s) (s_dudcol s) (s_dvdrow s) (s_dvdcol s))).
  { unfold get_jacobian. rewrite (check_indices_ok f i icut o' Ho' Hk). cbn [bind].
    unfold get_cutout_rowcol. pose proof (zget_Some_range _ _ _ Ho') as Hr.
    rewrite (proj2 (py_index_ok_nonneg (m_cat f) i o' (proj1 Hr)) Ho'). cbn [bind].
    rewrite (get_slot_ok _ _ _ Hsl). reflexivity. }
  assert (Hb : o_box o' mod 2 = 0) by lia.
  split; [destruct (w_pos _ _ _ _) as [col row]; split; assumption|].
  split; intros Hx.
  - rewrite D6, D4. apply half_box_centre; assumption.
  - rewrite D7, D5. apply half_box_centre; assumption.
Qed.

(** C08 *)
Lemma written_slots k types rows psf input junk pjunk f objs :
  make_meds k types rows psf input junk pjunk = Ok f ->
  selected (k_l k) (map ir_image rows) input objs ->
  zlen objs = zlen (m_cat f) /\
  exists nslots, 2 <= nslots /\ (nslots = 2 \/ exists o', In o' (m_cat f) /\ o_ncut o' = nslots) /\
    forall i o o', zget objs i = Some o -> zget (m_cat f) i = Some o' ->
      o_id o' = o_id o /\ o_number o' = o_number o /\ o_ra o' = o_ra o /\ o_dec o' = o_dec o /\
      o_color o' = o_color o /\ o_wcs_color o' = o_wcs_color o /\ o_psf_color o' = o_psf_color o /\
      zlen (o_slots o') = nslots /\ 0 <= o_ncut o' <= nslots /\
      forall icut s, zget (o_slots o') icut = Some s -> o_ncut o' <= icut -> s = def_slot.
Proof.
  intros H Hs. destruct (written_rows _ _ _ _ _ _ _ _ _ H Hs) as (n & R1 & R2 & R3 & R).
  split; [exact R1|]. exists n. split; [exact R3|]. split; [exact R2|]. intros i o o' Ho Ho'.
  destruct (R i o o' Ho Ho') as (L1 & L2 & L3 & L4 & L5 & L6 & L7 & L8 & L9 & L10 & L11 & L12 & L13).
  repeat (split; [assumption|]). intros icut s Hsl Hi. apply (L13 icut s Hsl). exact Hi.
Qed.

(** C09 *)
Lemma written_boxes k types rows psf input junk pjunk f objs :
  make_meds k types rows psf input junk pjunk = Ok f ->
  selected (k_l k) (map ir_image rows) input objs ->
  forall i o o', zget objs i = Some o -> zget (m_cat f) i = Some o' ->
    Z.even (o_box o') = true /\ o_box o <= o_box o' <= o_box o + 1 /\
    (Z.even (o_box o) = true -> o_box o' = o_box o).
Proof.
  intros H Hs i o o' Ho Ho'. destruct (written_rows _ _ _ _ _ _ _ _ _ H Hs) as (n & _ & _ & _ & R).
  destruct (R i o o' Ho Ho') as (_ & _ & _ & _ & _ & _ & _ & L8 & _).
  rewrite Zeven_mod in *. rewrite Zeven_mod. unfold Zeq_bool.
  repeat split; try lia.
  - assert (E : o_box o' mod 2 = 0) by lia. rewrite E. reflexivity.
  - intros E. destruct (o_box o mod 2) eqn:E2; simpl in E; try discriminate; lia.
Qed.

(** C68 *)
Lemma written_source_info k types rows psf input junk pjunk f :
  make_meds k types rows psf input junk pjunk = Ok f ->
  forall iobj icut o s, cutout_at f iobj icut o s ->
  exists row, zget rows (s_file s) = Some row /\ get_source_info f iobj icut = Ok (ir_info row) /\
              get_source_path f iobj icut = Ok (ir_path row).
Proof.
  intros H iobj icut o s (Ho & Hk & Hsl). apply make_meds_layout in H.
  destruct H as (tys & objs' & nslots & total & cat0 & H1 & H2 & H3 & H4 & H5 & H6 & H7 & H8 & H9 & H10 & _).
  pose proof (laid_out_cat_files _ _ _ _ _ H4) as F. rewrite Forall_forall in F.
  specialize (F o (zget_In _ _ _ Ho)). rewrite Forall_forall in F.
  assert (Hs : In s (used_slots o)).
  { eapply nth_error_In with (n := Z.to_nat icut). rewrite used_slots_nth. dif E; [|lia].
    unfold zget in Hsl. destruct (icut <? 0) eqn:E0; [discriminate|exact Hsl]. }
  specialize (F s Hs). rewrite zlen_map in F. destruct (zget_range_Some rows (s_file s) F) as (row & Hrow).
  exists row. split; [exact Hrow|].
  assert (G : get_source_info f iobj icut = Ok (ir_info row)).
  { unfold get_source_info. rewrite (check_indices_ok f iobj icut o Ho Hk). cbn [bind].
    rewrite (get_slot_ok _ _ _ Hsl). cbn [bind]. rewrite H10. apply py_index_ok_nonneg; [lia|].
    rewrite zget_map, Hrow. reflexivity. }
  split; [exact G|]. unfold get_source_path. rewrite G. reflexivity.
Qed.
