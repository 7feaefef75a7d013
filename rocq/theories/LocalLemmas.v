(** Cutouts of an object do not depend on other objects, on later images, nor on
    unused colours (C80-C82). *)
From Coq Require Import Sorted Lia ZifyBool ZifyNat.
From Verif Require Import Base Img Types Reader MakerLayout MakerWrite MakerFile
  SpecTiles SpecLayout SpecFile SpecExtract SpecLocal
  BaseLemmas ImgLemmas LayoutLemmas StartLemmas WriteLemmas StampLemmas CalibLemmas FileLemmas ReadLemmas
  MakerLemmas MakerLemmas2 MakerLemmas3.
Open Scope Z_scope.

(** ** sorted lists *)
Lemma sorted_unique l1 : StronglySorted Z.lt l1 -> forall l2, StronglySorted Z.lt l2 ->
  (forall x, In x l1 <-> In x l2) -> l1 = l2.
Proof.
  induction 1 as [|a l1 S1 IH F1]; intros l2 S2 E.
  - destruct l2 as [|b l2]; [reflexivity|]. destruct (proj2 (E b)). left. reflexivity.
  - destruct S2 as [|b l2 S2 F2]; [destruct (proj1 (E a)); left; reflexivity|].
    rewrite Forall_forall in F1, F2.
    assert (a = b).
    { destruct (proj1 (E a) (or_introl eq_refl)) as [->|Ha]; [reflexivity|].
      destruct (proj2 (E b) (or_introl eq_refl)) as [->|Hb]; [reflexivity|].
      specialize (F1 _ Hb). specialize (F2 _ Ha). lia. }
    subst b. f_equal. apply IH; [exact S2|]. intros x. specialize (E x). cbn in E. split; intros Hx.
    + destruct (proj1 E (or_intror Hx)) as [<-|]; [specialize (F1 _ Hx); lia|assumption].
    + destruct (proj2 E (or_intror Hx)) as [<-|]; [specialize (F2 _ Hx); lia|assumption].
Qed.

Lemma sorted_split l n : StronglySorted Z.lt l ->
  l = filter (fun x => x <? n) l ++ filter (fun x => negb (x <? n)) l /\
  StronglySorted Z.lt (filter (fun x => x <? n) l).
Proof.
  induction 1 as [|a l S IH F]; [split; [reflexivity|constructor]|]. destruct IH as [E IH]. cbn [filter].
  destruct (a <? n) eqn:D; cbn [negb].
  - split; [cbn; f_equal; exact E|]. constructor; [exact IH|].
    rewrite Forall_forall in *. intros x Hx. apply filter_In in Hx. apply F. tauto.
  - assert (N : filter (fun x => x <? n) l = []).
    { clear E IH S. induction F as [|b l Hb F IH]; [reflexivity|]. cbn. destruct (b <? n) eqn:D2; [lia|exact IH]. }
    rewrite N in *. split; [|constructor]. cbn in *. f_equal. exact E.
Qed.

(** ** colours *)
Lemma same_color_arg k o1 o2 f : same_input k o1 o2 -> color_arg (k_l k) f o1 = color_arg (k_l k) f o2.
Proof.
  intros (_ & _ & _ & H & _). unfold color_arg, wcs_uses_color, obj_color.
  destruct ((f =? 0) && first_image_is_coadd (k_l k)).
  - destruct (coadd_astrom_color (k_l k)); [|reflexivity]. destruct (H (or_introl eq_refl)) as [H1 H2].
    destruct (has_color (k_l k)); [rewrite H1; reflexivity|]. destruct (has_wcs_color (k_l k)); [rewrite H2; reflexivity|reflexivity].
  - destruct (se_astrom_color (k_l k)); [|reflexivity]. destruct (H (or_intror eq_refl)) as [H1 H2].
    destruct (has_color (k_l k)); [rewrite H1; reflexivity|]. destruct (has_wcs_color (k_l k)); [rewrite H2; reflexivity|reflexivity].
Qed.

Lemma same_psf_color_arg k o1 o2 f : same_input k o1 o2 ->
  psf_color_arg (k_l k) (k_p k) f o1 = psf_color_arg (k_l k) (k_p k) f o2.
Proof.
  intros (_ & _ & _ & _ & H). unfold psf_color_arg, psf_uses_color.
  destruct ((f =? 0) && first_image_is_coadd (k_l k)).
  - destruct (psf_coadd_color (k_p k)); [|reflexivity]. specialize (H (or_introl eq_refl)).
    destruct (has_psf_color (k_p k)); [rewrite H; reflexivity|reflexivity].
  - destruct (psf_se_color (k_p k)); [|reflexivity]. specialize (H (or_intror eq_refl)).
    destruct (has_psf_color (k_p k)); [rewrite H; reflexivity|reflexivity].
Qed.

Lemma same_accepted k f im o1 o2 : same_input k o1 o2 -> accepted (k_l k) f im o1 <-> accepted (k_l k) f im o2.
Proof.
  intros S. pose proof (same_color_arg k o1 o2 f S) as C. destruct S as (E1 & E2 & _).
  unfold accepted, spec_row, spec_col. rewrite E1, E2, C. reflexivity.
Qed.

Lemma same_describes k images1 images2 o1 o2 box s1 s2 : same_input k o1 o2 ->
  slot_describes (k_l k) images1 o1 box s1 -> slot_describes (k_l k) images2 o2 box s2 ->
  s_file s1 = s_file s2 -> zget images1 (s_file s1) = zget images2 (s_file s1) ->
  same_place s1 s2 /\ s_dudrow s1 = s_dudrow s2 /\ s_dudcol s1 = s_dudcol s2 /\
  s_dvdrow s1 = s_dvdrow s2 /\ s_dvdcol s1 = s_dvdcol s2.
Proof.
  intros S (im1 & I1 & A1 & A2 & A3 & A4 & A5 & A6 & A7) (im2 & I2 & B1 & B2 & B3 & B4 & B5 & B6 & B7) F E.
  pose proof (same_color_arg k o1 o2 (s_file s1) S) as C. destruct S as (E1 & E2 & _).
  rewrite <- F in *. rewrite I1, I2 in E. injection E as <-.
  unfold spec_row, spec_col in *. rewrite E1, E2, C in *.
  destruct (w_pos (im_wcs im1) (o_ra o2) (o_dec o2) (color_arg (k_l k) (s_file s1) o2)) as [col row].
  rewrite A7 in B7. injection B7 as J1 J2 J3 J4.
  assert (R1 : s_orow s1 = s_orow s2) by congruence. assert (R2 : s_ocol s1 = s_ocol s2) by congruence.
  assert (R3 : s_osr s1 = s_osr s2) by congruence. assert (R4 : s_osc s1 = s_osc s2) by congruence.
  unfold same_place. repeat split; try congruence.
Qed.

(** ** exact reads *)
Lemma written_cutout_exact k types rows psf input junk pjunk f :
  Forall (fun o => 1 <= o_box o) input -> Forall (fun r => source_ok (ir_src r)) rows ->
  make_meds k types rows psf input junk pjunk = Ok f ->
  forall iobj icut o s t v row,
    cutout_at f iobj icut o s -> In t (map fst (m_ext f)) -> fill_value t = Some v ->
    zget rows (s_file s) = Some row -> has_file (ir_src row) t ->
    exists im, read_image (k_unusable k) (ir_src row) t = Ok (Some im) /\
      get_cutout f iobj icut t = Ok (crop v im (s_osr s) (s_osc s) (o_box o)).
Proof.
  intros Hb Hsrc H iobj icut o s t v row Hc Ht Hv Hrow Hf.
  pose proof (written_file_wf _ _ _ _ _ _ _ _ Hb H) as Hwf.
  apply make_meds_layout in H.
  destruct H as (tys & objs & nslots & total & cat0 & H1 & H2 & H3 & H4 & H5 & H6 & H7 & H8 & H9 & _).
  assert (Hs : Forall source_ok (map ir_src rows)) by (apply Forall_map; exact Hsrc).
  assert (Hcw : cat_wf (m_cat f)) by (apply cat_wf_weaken; exact (proj1 Hwf)).
  pose proof (tiles_le _ _ _ H7) as Ht0.
  destruct (write_types_content (k_unusable k) (m_cat f) (map ir_src rows) total Hcw Hs H7 tys _ _
              (fun t m E => reserve_len tys total junk t m Ht0 E) H9) as (W1 & W2 & W3 & W4 & W5).
  rewrite W1, reserve_fst in Ht. destruct (W4 t Ht) as (m & Hm & Hcon).
  assert (Hz : zget (map ir_src rows) (s_file s) = Some (ir_src row)) by (rewrite zget_map, Hrow; reflexivity).
  destruct (W5 t _ _ Ht Hz) as (oim & Hr). destruct (read_image_has_file _ _ _ _ Hr Hf) as (im & ->).
  exists im. split; [exact Hr|].
  destruct Hc as (Ho & Hk & Hsl).
  assert (Hin : In (o, icut, s) (cat_keys (m_cat f))).
  { apply in_cat_keys'; [eapply Forall_impl; [|exact (proj1 Hwf)]; simpl; tauto|].
    split; [eapply zget_In; exact Ho|]. split; assumption. }
  destruct (cut_in_range f iobj icut o s t m Hwf) as (R1 & R2 & R3); [repeat split; try eassumption; lia|exact Hm|].
  eapply get_cutout_content; [exact Hwf|repeat split; try eassumption; lia|exact Hm|..].
  + apply crop_ok. lia.
  + reflexivity.
  + reflexivity.
  + intros j Hj. apply (Hcon v Hv (o, icut, s) _ im Hin Hz Hr j Hj).
Qed.

Lemma zget_app_l {A} (l l' : list A) i : 0 <= i < zlen l -> zget (l ++ l') i = zget l i.
Proof. intros H. unfold zget, zlen in *. destruct (i <? 0); [reflexivity|]. apply nth_error_app1. lia. Qed.

Section Local.
Variables (k : mconf) (types1 types2 : list String.string) (rows extra : list imrow)
  (psf1 psf2 : option (list psfobj)) (input1 input2 : list obj)
  (j1 j2 : ctype -> Z -> Q) (p1 p2 : Z -> Q) (f1 f2 : medsfile) (objs1 objs2 : list obj).
Hypothesis M1 : make_meds k types1 rows psf1 input1 j1 p1 = Ok f1.
Hypothesis M2 : make_meds k types2 (rows ++ extra) psf2 input2 j2 p2 = Ok f2.
Hypothesis S1 : selected (k_l k) (map ir_image rows) input1 objs1.
Hypothesis S2 : selected (k_l k) (map ir_image (rows ++ extra)) input2 objs2.

Lemma local_rows i1 i2 o1 o2 : zget objs1 i1 = Some o1 -> zget objs2 i2 = Some o2 -> same_input k o1 o2 ->
  exists o1' o2', zget (m_cat f1) i1 = Some o1' /\ zget (m_cat f2) i2 = Some o2' /\
    o_box o1' = o_box o2' /\
    0 <= o_ncut o1' <= zlen (o_slots o1') /\ o_ncut o2' <= zlen (o_slots o2') /\
    o_ncut o1' <= o_ncut o2' /\
    (forall f, psf_color_arg (k_l k) (k_p k) f o1' = psf_color_arg (k_l k) (k_p k) f o2') /\
    (forall icut s, o_ncut o1' <= icut < o_ncut o2' -> zget (o_slots o2') icut = Some s ->
       zlen rows <= s_file s < zlen rows + zlen extra) /\
    (forall icut, 0 <= icut < o_ncut o1' -> exists s1 s2,
       zget (o_slots o1') icut = Some s1 /\ zget (o_slots o2') icut = Some s2 /\
       0 <= s_file s1 < zlen rows /\
       same_place s1 s2 /\ s_dudrow s1 = s_dudrow s2 /\ s_dudcol s1 = s_dudcol s2 /\
       s_dvdrow s1 = s_dvdrow s2 /\ s_dvdcol s1 = s_dvdcol s2).
Proof.
  intros G1 G2 S.
  destruct (written_rows _ _ _ _ _ _ _ _ _ M1 S1) as (n1 & L1 & _ & _ & R1).
  destruct (written_rows _ _ _ _ _ _ _ _ _ M2 S2) as (n2 & L2 & _ & _ & R2).
  destruct (zget_range_Some (m_cat f1) i1) as (o1' & G1'); [pose proof (zget_Some_range _ _ _ G1); lia|].
  destruct (zget_range_Some (m_cat f2) i2) as (o2' & G2'); [pose proof (zget_Some_range _ _ _ G2); lia|].
  exists o1', o2'. split; [exact G1'|]. split; [exact G2'|].
  destruct (R1 _ _ _ G1 G1') as (A1 & A2 & A3 & A4 & A5 & A6 & A7 & A8 & A9 & A10 & A11 & A12 & A13).
  destruct (R2 _ _ _ G2 G2') as (B1 & B2 & B3 & B4 & B5 & B6 & B7 & B8 & B9 & B10 & B11 & B12 & B13).
  assert (Eb : o_box o1' = o_box o2') by (destruct S as (_ & _ & E & _); rewrite A8, B8, E; reflexivity).
  fold (used_slots o1') in *. fold (used_slots o2') in *.
  set (U1 := map s_file (used_slots o1')) in *. set (U2 := map s_file (used_slots o2')) in *.
  assert (Hlow : filter (fun x => x <? zlen rows) U2 = U1).
  { symmetry. apply sorted_unique; [exact A11|apply sorted_split; exact B11|].
    intros x. rewrite filter_In, A12, B12. split.
    - intros (im & Z1 & Z2). pose proof (zget_Some_range _ _ _ Z1) as Hr. rewrite zlen_map in Hr.
      split; [|lia]. exists im. split; [|apply (same_accepted k x im o1 o2 S); exact Z2].
      rewrite map_app, zget_app_l by (rewrite zlen_map; lia). exact Z1.
    - intros ((im & Z1 & Z2) & Hx). pose proof (zget_Some_range _ _ _ Z1) as Hr.
      exists im. split; [|apply (same_accepted k x im o1 o2 S); exact Z2].
      rewrite map_app, zget_app_l in Z1 by (rewrite zlen_map; lia). exact Z1. }
  destruct (sorted_split U2 (zlen rows) B11) as [Esp _]. rewrite Hlow in Esp.
  assert (LU1 : zlen U1 = o_ncut o1').
  { unfold U1. rewrite zlen_map. unfold used_slots, zlen in *. rewrite firstn_length. lia. }
  assert (LU2 : zlen U2 = o_ncut o2').
  { unfold U2. rewrite zlen_map. unfold used_slots, zlen in *. rewrite firstn_length. lia. }
  assert (Hle : o_ncut o1' <= o_ncut o2').
  { rewrite <- LU1, <- LU2, Esp, zlen_app. unfold zlen. lia. }
  assert (Hu : forall o icut, 0 <= icut < o_ncut o -> zget (used_slots o) icut = zget (o_slots o) icut).
  { intros o icut Hi. unfold used_slots. rewrite zget_firstn. destruct (icut <? o_ncut o) eqn:D; [reflexivity|lia]. }
  split; [exact Eb|]. split; [lia|]. split; [lia|]. split; [exact Hle|]. split.
  { intros f. assert (X1 : psf_color_arg (k_l k) (k_p k) f o1' = psf_color_arg (k_l k) (k_p k) f o1) by (unfold psf_color_arg; rewrite A7; reflexivity).
    assert (X2 : psf_color_arg (k_l k) (k_p k) f o2' = psf_color_arg (k_l k) (k_p k) f o2) by (unfold psf_color_arg; rewrite B7; reflexivity).
    rewrite X1, X2. apply same_psf_color_arg. exact S. }
  split.
  - intros icut s Hi Hs.
    assert (X : zget U2 icut = Some (s_file s)) by (unfold U2; rewrite zget_map, Hu, Hs by lia; reflexivity).
    rewrite Esp in X. unfold zget in X. destruct (icut <? 0) eqn:D; [lia|].
    rewrite nth_error_app2 in X by (unfold zlen in LU1; lia).
    apply nth_error_In, filter_In in X. destruct X as [Xi X].
    split; [lia|]. apply B12 in Xi. destruct Xi as (im & Z1 & _). pose proof (zget_Some_range _ _ _ Z1) as Hr.
    rewrite zlen_map, zlen_app in Hr. lia.
  - intros icut Hi.
    destruct (zget_range_Some (o_slots o1') icut) as (s1 & Hs1); [lia|].
    destruct (zget_range_Some (o_slots o2') icut) as (s2 & Hs2); [lia|].
    exists s1, s2. split; [exact Hs1|]. split; [exact Hs2|].
    assert (X1 : zget U1 icut = Some (s_file s1)) by (unfold U1; rewrite zget_map, Hu, Hs1 by lia; reflexivity).
    assert (X2 : zget U2 icut = Some (s_file s2)) by (unfold U2; rewrite zget_map, Hu, Hs2 by lia; reflexivity).
    rewrite Esp, zget_app_l, X1 in X2 by lia. injection X2 as E.
    assert (Hr : 0 <= s_file s1 < zlen rows).
    { apply zget_In in X1. apply A12 in X1. destruct X1 as (im & Z1 & _). pose proof (zget_Some_range _ _ _ Z1) as Hr.
      rewrite zlen_map in Hr. lia. }
    split; [lia|].
    apply (same_describes k (map ir_image rows) (map ir_image (rows ++ extra)) o1 o2 (o_box o1') s1 s2 S).
    + apply (proj1 (A13 _ _ Hs1)). lia.
    + rewrite Eb. apply (proj1 (B13 _ _ Hs2)). lia.
    + exact E.
    + rewrite map_app, zget_app_l by (rewrite zlen_map; lia). reflexivity.
Qed.

Hypothesis Hb1 : Forall (fun o => 1 <= o_box o) input1.
Hypothesis Hb2 : Forall (fun o => 1 <= o_box o) input2.
Hypothesis Hs : Forall (fun r => source_ok (ir_src r)) (rows ++ extra).
Hypothesis Hj : 1 <= k_njob k.
Hypothesis Hp1 : psfs_fit psf1.
Hypothesis Hp2 : psfs_fit psf2.
Hypothesis Hpp : psfs_agree (zlen rows) psf1 psf2.

Lemma local_cutouts i1 i2 o1 o2 : zget objs1 i1 = Some o1 -> zget objs2 i2 = Some o2 -> same_input k o1 o2 ->
  exists o1' o2', zget (m_cat f1) i1 = Some o1' /\ zget (m_cat f2) i2 = Some o2' /\
    o_box o1' = o_box o2' /\ 0 <= o_ncut o1' <= o_ncut o2' /\
    (forall icut s, o_ncut o1' <= icut < o_ncut o2' -> zget (o_slots o2') icut = Some s ->
       zlen rows <= s_file s < zlen rows + zlen extra) /\
    (forall icut, 0 <= icut < o_ncut o1' -> same_cutout rows f1 i1 f2 i2 icut /\
       (psf1 <> None -> same_psf f1 i1 f2 i2 icut)).
Proof.
  intros G1 G2 S.
  destruct (local_rows _ _ _ _ G1 G2 S) as (o1' & o2' & H1 & H2 & H3 & H4 & H4' & H5 & H6 & H7 & H8).
  exists o1', o2'. split; [exact H1|]. split; [exact H2|]. split; [exact H3|]. split; [lia|].
  split; [exact H7|]. intros icut Hi.
  destruct (H8 icut Hi) as (s1 & s2 & Z1 & Z2 & Hf & P & J1 & J2 & J3 & J4).
  assert (C1 : cutout_at f1 i1 icut o1' s1) by (repeat split; try assumption; lia).
  assert (C2 : cutout_at f2 i2 icut o2' s2) by (repeat split; try assumption; lia).
  destruct (zget_range_Some rows (s_file s1)) as (row & Hrow); [lia|].
  destruct P as (P1 & P2 & P3 & P4 & P5 & P6 & P7).
  assert (Hrow2 : zget (rows ++ extra) (s_file s2) = Some row) by (rewrite <- P1, zget_app_l by lia; exact Hrow).
  split.
  - exists o1', o2', s1, s2, row. split; [exact H1|]. split; [exact Z1|]. split; [exact H2|]. split; [exact Z2|].
    split; [exact Hrow|]. split; [repeat split; assumption|]. split; [|split].
    + destruct (written_positions _ _ _ _ _ _ _ _ _ M1 S1 _ _ _ _ _ G1 C1) as (? & _ & _ & _ & _ & _ & Q1 & _).
      destruct (written_positions _ _ _ _ _ _ _ _ _ M2 S2 _ _ _ _ _ G2 C2) as (? & _ & _ & _ & _ & _ & Q2 & _).
      destruct (w_pos _ _ _ _) in Q1. destruct (w_pos _ _ _ _) in Q2.
      eexists. split; [exact (proj1 Q1)|]. rewrite (proj1 Q2). congruence.
    + destruct (written_source_info _ _ _ _ _ _ _ _ M1 _ _ _ _ C1) as (r1 & Q1 & Q2 & _).
      destruct (written_source_info _ _ _ _ _ _ _ _ M2 _ _ _ _ C2) as (r2 & Q3 & Q4 & _).
      eexists. split; [exact Q2|]. congruence.
    + intros t T1 T2 F.
      destruct (fill_value t) as [v|] eqn:Ev.
      * assert (Hs1 : Forall (fun r => source_ok (ir_src r)) rows) by (apply Forall_app in Hs; tauto).
        destruct (written_cutout_exact _ _ _ _ _ _ _ _ Hb1 Hs1 M1 _ _ _ _ _ _ _ C1 T1 Ev Hrow F) as (im1 & I1 & I2).
        destruct (written_cutout_exact _ _ _ _ _ _ _ _ Hb2 Hs M2 _ _ _ _ _ _ _ C2 T2 Ev Hrow2 F) as (im2 & I3 & I4).
        rewrite I1 in I3. injection I3 as <-. eexists. split; [exact I2|]. rewrite I4, P4, P5, H3. reflexivity.
      * destruct (written_nofill _ _ _ _ _ _ _ _ M1 _ _ _ _ _ _ T1 Ev C1 Hrow F).
  - intros Hn. destruct psf1 as [ps1|]; [|congruence]. destruct psf2 as [ps2|]; [|destruct Hpp]. cbn in Hpp.
    destruct (written_psf k types1 rows ps1 input1 j1 p1 f1 Hj) as (h1 & _ & _ & W1);
      [intros p r c col Hp; apply (Hp1 ps1 p r c col eq_refl Hp)|exact M1|].
    destruct (written_psf k types2 (rows ++ extra) ps2 input2 j2 p2 f2 Hj) as (h2 & _ & _ & W2);
      [intros p r c col Hp; apply (Hp2 ps2 p r c col eq_refl Hp)|exact M2|].
    destruct (W1 _ _ _ _ C1) as (q1 & Q1 & _ & _ & _ & _ & W1'). destruct (W2 _ _ _ _ C2) as (q2 & Q2 & _ & _ & _ & _ & W2').
    rewrite <- P1, <- Hpp, Q1 in Q2 by lia. injection Q2 as <-.
    eexists. split; [apply W1'; apply (Hp1 ps1 q1 _ _ _ eq_refl); eapply zget_In; exact Q1|].
    rewrite P1, P2, P3. rewrite H6. apply W2'. apply (Hp1 ps1 q1 _ _ _ eq_refl). eapply zget_In; exact Q1.
Qed.
End Local.

(** ** consequences *)
Lemma same_input_refl k o : same_input k o o.
Proof. unfold same_input. repeat split; reflexivity. Qed.
Lemma same_input_sym k o1 o2 : same_input k o1 o2 -> same_input k o2 o1.
Proof.
  intros (A & B & C & D & E). unfold same_input. split; [congruence|]. split; [congruence|]. split; [congruence|].
  split; [intros X; destruct (D X); split; intros; symmetry; auto|]. intros; symmetry; auto.
Qed.
Lemma psfs_agree_refl n psf : psfs_agree n psf psf.
Proof. destruct psf; cbn; auto. Qed.

Lemma objects_independent k types1 types2 rows psf input1 input2 j1 j2 p1 p2 f1 f2 objs1 objs2 :
  make_meds k types1 rows psf input1 j1 p1 = Ok f1 -> make_meds k types2 rows psf input2 j2 p2 = Ok f2 ->
  selected (k_l k) (map ir_image rows) input1 objs1 -> selected (k_l k) (map ir_image rows) input2 objs2 ->
  Forall (fun o => 1 <= o_box o) input1 -> Forall (fun o => 1 <= o_box o) input2 ->
  Forall (fun r => source_ok (ir_src r)) rows -> 1 <= k_njob k -> psfs_fit psf ->
  forall i1 i2 o1 o2, zget objs1 i1 = Some o1 -> zget objs2 i2 = Some o2 -> same_input k o1 o2 ->
  exists o1' o2', zget (m_cat f1) i1 = Some o1' /\ zget (m_cat f2) i2 = Some o2' /\
    o_box o1' = o_box o2' /\ o_ncut o1' = o_ncut o2' /\
    forall icut, 0 <= icut < o_ncut o1' ->
      same_cutout rows f1 i1 f2 i2 icut /\ (psf <> None -> same_psf f1 i1 f2 i2 icut).
Proof.
  intros M1 M2 S1 S2 B1 B2 Hs Hj Hp i1 i2 o1 o2 G1 G2 S.
  rewrite <- (app_nil_r rows) in M2, S2, Hs.
  destruct (local_cutouts _ _ _ _ _ _ _ _ _ _ _ _ _ _ _ _ _ M1 M2 S1 S2 B1 B2 Hs Hj Hp Hp (psfs_agree_refl _ _) _ _ _ _ G1 G2 S)
    as (o1' & o2' & A1 & A2 & A3 & A4 & A5 & A6).
  exists o1', o2'. split; [exact A1|]. split; [exact A2|]. split; [exact A3|]. split; [|exact A6].
  destruct (Z.eq_dec (o_ncut o1') (o_ncut o2')) as [E|E]; [exact E|exfalso].
  destruct (local_rows _ _ _ _ _ _ _ _ _ _ _ _ _ _ _ _ _ M1 M2 S1 S2 _ _ _ _ G1 G2 S) as (p & q & P1 & P2 & _ & _ & P3 & _).
  rewrite A2 in P2. injection P2 as <-.
  destruct (zget_range_Some (o_slots o2') (o_ncut o1')) as (s & Hz); [lia|].
  specialize (A5 (o_ncut o1') s). cbn in A5. assert (X : zlen rows <= s_file s < zlen rows + 0) by (apply A5; [lia|exact Hz]). lia.
Qed.

Lemma images_appended k types1 types2 rows extra psf1 psf2 input1 input2 j1 j2 p1 p2 f1 f2 objs1 objs2 :
  make_meds k types1 rows psf1 input1 j1 p1 = Ok f1 -> make_meds k types2 (rows ++ extra) psf2 input2 j2 p2 = Ok f2 ->
  selected (k_l k) (map ir_image rows) input1 objs1 ->
  selected (k_l k) (map ir_image (rows ++ extra)) input2 objs2 ->
  Forall (fun o => 1 <= o_box o) input1 -> Forall (fun o => 1 <= o_box o) input2 ->
  Forall (fun r => source_ok (ir_src r)) (rows ++ extra) -> 1 <= k_njob k ->
  psfs_fit psf1 -> psfs_fit psf2 -> psfs_agree (zlen rows) psf1 psf2 ->
  forall i1 i2 o1 o2, zget objs1 i1 = Some o1 -> zget objs2 i2 = Some o2 -> same_input k o1 o2 ->
  exists o1' o2', zget (m_cat f1) i1 = Some o1' /\ zget (m_cat f2) i2 = Some o2' /\
    o_box o1' = o_box o2' /\ 0 <= o_ncut o1' <= o_ncut o2' /\
    (forall icut s, o_ncut o1' <= icut < o_ncut o2' -> zget (o_slots o2') icut = Some s ->
       zlen rows <= s_file s < zlen rows + zlen extra) /\
    (forall icut, 0 <= icut < o_ncut o1' -> same_cutout rows f1 i1 f2 i2 icut /\
       (psf1 <> None -> same_psf f1 i1 f2 i2 icut)).
Proof. intros. eapply local_cutouts; eassumption. Qed.

Lemma unused_colours k types1 types2 rows psf input1 input2 j1 j2 p1 p2 f1 f2 objs1 objs2 :
  coadd_astrom_color (k_l k) = false -> se_astrom_color (k_l k) = false ->
  psf_coadd_color (k_p k) = false -> psf_se_color (k_p k) = false ->
  make_meds k types1 rows psf input1 j1 p1 = Ok f1 -> make_meds k types2 rows psf input2 j2 p2 = Ok f2 ->
  selected (k_l k) (map ir_image rows) input1 objs1 -> selected (k_l k) (map ir_image rows) input2 objs2 ->
  Forall (fun o => 1 <= o_box o) input1 -> Forall (fun o => 1 <= o_box o) input2 ->
  Forall (fun r => source_ok (ir_src r)) rows -> 1 <= k_njob k -> psfs_fit psf ->
  forall i1 i2 o1 o2, zget objs1 i1 = Some o1 -> zget objs2 i2 = Some o2 ->
  o_ra o1 = o_ra o2 -> o_dec o1 = o_dec o2 -> o_box o1 = o_box o2 ->
  exists o1' o2', zget (m_cat f1) i1 = Some o1' /\ zget (m_cat f2) i2 = Some o2' /\
    o_box o1' = o_box o2' /\ o_ncut o1' = o_ncut o2' /\
    forall icut, 0 <= icut < o_ncut o1' ->
      same_cutout rows f1 i1 f2 i2 icut /\ (psf <> None -> same_psf f1 i1 f2 i2 icut).
Proof.
  intros C1 C2 C3 C4 M1 M2 S1 S2 B1 B2 Hs Hj Hp i1 i2 o1 o2 G1 G2 E1 E2 E3.
  eapply objects_independent; try eassumption. split; [exact E1|]. split; [exact E2|]. split; [exact E3|].
  split; [intros [?|?]; congruence|intros [?|?]; congruence].
Qed.

Lemma color_first k types1 types2 rows psf input1 input2 j1 j2 p1 p2 f1 f2 objs1 objs2 :
  has_color (k_l k) = true ->
  make_meds k types1 rows psf input1 j1 p1 = Ok f1 -> make_meds k types2 rows psf input2 j2 p2 = Ok f2 ->
  selected (k_l k) (map ir_image rows) input1 objs1 -> selected (k_l k) (map ir_image rows) input2 objs2 ->
  Forall (fun o => 1 <= o_box o) input1 -> Forall (fun o => 1 <= o_box o) input2 ->
  Forall (fun r => source_ok (ir_src r)) rows -> 1 <= k_njob k -> psfs_fit psf ->
  forall i1 i2 o1 o2, zget objs1 i1 = Some o1 -> zget objs2 i2 = Some o2 ->
  o_ra o1 = o_ra o2 -> o_dec o1 = o_dec o2 -> o_box o1 = o_box o2 -> o_color o1 = o_color o2 -> o_psf_color o1 = o_psf_color o2 ->
  exists o1' o2', zget (m_cat f1) i1 = Some o1' /\ zget (m_cat f2) i2 = Some o2' /\
    o_box o1' = o_box o2' /\ o_ncut o1' = o_ncut o2' /\
    forall icut, 0 <= icut < o_ncut o1' ->
      same_cutout rows f1 i1 f2 i2 icut /\ (psf <> None -> same_psf f1 i1 f2 i2 icut).
Proof.
  intros C M1 M2 S1 S2 B1 B2 Hs Hj Hp i1 i2 o1 o2 G1 G2 E1 E2 E3 E4 E5.
  eapply objects_independent; try eassumption. split; [exact E1|]. split; [exact E2|]. split; [exact E3|].
  split; [intros _; split; [intros _; exact E4|congruence]|intros _ _; exact E5].
Qed.

Lemma used_colours k types rows psf input junk pjunk f objs :
  make_meds k types rows psf input junk pjunk = Ok f ->
  selected (k_l k) (map ir_image rows) input objs ->
  forall i o o' icut s, zget objs i = Some o -> cutout_at f i icut o' s ->
  exists row colour, zget rows (s_file s) = Some row /\
    (let used := if (s_file s =? 0) && first_image_is_coadd (k_l k)
                 then coadd_astrom_color (k_l k) else se_astrom_color (k_l k) in
     (used = false -> colour = None) /\
     (used = true -> has_color (k_l k) = true -> colour = Some (o_color o)) /\
     (used = true -> has_color (k_l k) = false -> has_wcs_color (k_l k) = true -> colour = Some (o_wcs_color o)) /\
     (used = true -> has_color (k_l k) = false -> has_wcs_color (k_l k) = false -> colour = None)) /\
    let w := im_wcs (ir_image row) in
    let xy := w_pos w (o_ra o) (o_dec o) colour in
    s_orow s = (snd xy - im_offset (ir_image row))%Q /\ s_ocol s = (fst xy - im_offset (ir_image row))%Q /\
    w_jac w (fst xy) (snd xy) colour = (s_dudcol s, s_dudrow s, s_dvdcol s, s_dvdrow s).
Proof.
  intros M S i o o' icut s G C.
  destruct (written_positions _ _ _ _ _ _ _ _ _ M S _ _ _ _ _ G C) as (im & Z1 & P1 & P2 & _ & _ & P3 & _).
  rewrite zget_map in Z1. destruct (zget rows (s_file s)) as [row|] eqn:Hr; [|discriminate]. injection Z1 as <-.
  exists row, (color_arg (k_l k) (s_file s) o). split; [reflexivity|]. split.
  - cbv zeta. unfold color_arg, wcs_uses_color, obj_color.
    destruct (if (s_file s =? 0) && first_image_is_coadd (k_l k) then coadd_astrom_color (k_l k) else se_astrom_color (k_l k));
      destruct (has_color (k_l k)); destruct (has_wcs_color (k_l k)); repeat split; intros; congruence.
  - cbv zeta. unfold spec_row, spec_col in *.
    destruct (w_pos (im_wcs (ir_image row)) (o_ra o) (o_dec o) (color_arg (k_l k) (s_file s) o)) as [col rw]. cbn [fst snd] in *.
    split; [exact P1|]. split; [exact P2|]. exact (proj2 P3).
Qed.

Lemma used_psf_colours k types rows ps input junk pjunk f objs :
  make_meds k types rows (Some ps) input junk pjunk = Ok f ->
  selected (k_l k) (map ir_image rows) input objs -> 1 <= k_njob k -> psfs_fit (Some ps) ->
  forall i o o' icut s, zget objs i = Some o -> cutout_at f i icut o' s ->
  exists p colour, zget ps (s_file s) = Some p /\
    (let used := if (s_file s =? 0) && first_image_is_coadd (k_l k)
                 then psf_coadd_color (k_p k) else psf_se_color (k_p k) in
     (used = false -> colour = None) /\
     (used = true -> has_psf_color (k_p k) = true -> colour = Some (o_psf_color o)) /\
     (used = true -> has_psf_color (k_p k) = false -> colour = None)) /\
    get_psf f i icut = Ok (p_rec p (s_orow s) (s_ocol s) colour).
Proof.
  intros M S Hj Hp i o o' icut s G C.
  destruct (written_psf k types rows ps input junk pjunk f Hj) as (h & _ & _ & W);
    [intros p r c col Hpp; apply (Hp ps p r c col eq_refl Hpp)|exact M|].
  destruct (W _ _ _ _ C) as (p & Z1 & _ & _ & _ & _ & W').
  exists p, (psf_color_arg (k_l k) (k_p k) (s_file s) o'). split; [exact Z1|]. split.
  - assert (E : o_psf_color o' = o_psf_color o).
    { destruct (written_slots _ _ _ _ _ _ _ _ _ M S) as (_ & n & _ & _ & R). destruct C as (C & _). apply (R _ _ _ G C). }
    cbv zeta. unfold psf_color_arg, psf_uses_color. rewrite E.
    destruct (if (s_file s =? 0) && first_image_is_coadd (k_l k) then psf_coadd_color (k_p k) else psf_se_color (k_p k));
      destruct (has_psf_color (k_p k)); repeat split; intros; congruence.
  - apply W'. apply (Hp ps p _ _ _ eq_refl). eapply zget_In; exact Z1.
Qed.
