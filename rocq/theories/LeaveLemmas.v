(** Leaving out images leaves out their cutouts (C145). *)
From Coq Require Import Sorted Permutation Lia ZifyBool ZifyNat.
From Verif Require Import Base Img Types Reader MakerLayout MakerWrite MakerFile
  SpecTiles SpecLayout SpecFile SpecExtract SpecOrder SpecLeave
  BaseLemmas ImgLemmas LayoutLemmas StartLemmas WriteLemmas StampLemmas CalibLemmas FileLemmas ReadLemmas
  MakerLemmas MakerLemmas2 MakerLemmas3 LocalLemmas OrderLemmas MakerLemmas6.
Open Scope Z_scope.

Lemma sorted_zget l : StronglySorted Z.lt l -> forall i j x y, 0 <= i -> i < j -> zget l i = Some x -> zget l j = Some y -> x < y.
Proof.
  induction 1 as [|a l S IH F]; intros i j x y Hi Hj Hx Hy.
  - unfold zget in Hx. destruct (i <? 0); [discriminate|]. destruct (Z.to_nat i); discriminate.
  - rewrite Forall_forall in F. unfold zget in *.
    destruct (i <? 0) eqn:D1; [lia|]. destruct (j <? 0) eqn:D2; [lia|].
    destruct (Z.to_nat j) as [|n] eqn:Ej; [lia|]. cbn in Hy.
    destruct (Z.to_nat i) as [|m] eqn:Ei; cbn in Hx.
    + injection Hx as <-. apply F. eapply nth_error_In. exact Hy.
    + apply (IH (i - 1) (j - 1)); [lia|lia|..].
      * destruct (i - 1 <? 0) eqn:D; [lia|]. replace (Z.to_nat (i - 1)) with m by lia. exact Hx.
      * destruct (j - 1 <? 0) eqn:D; [lia|]. replace (Z.to_nat (j - 1)) with n by lia. exact Hy.
Qed.
Lemma zget_sorted l : (forall i j x y, 0 <= i -> i < j -> zget l i = Some x -> zget l j = Some y -> x < y) -> StronglySorted Z.lt l.
Proof.
  induction l as [|a l IH]; intros H; constructor.
  - apply IH. intros i j x y Hi Hj Hx Hy. apply (H (i + 1) (j + 1)); [lia|lia|..]; unfold zget in *.
    + destruct (i <? 0) eqn:D; [lia|]. destruct (i + 1 <? 0) eqn:D2; [lia|]. replace (Z.to_nat (i + 1)) with (S (Z.to_nat i)) by lia. exact Hx.
    + destruct (j <? 0) eqn:D; [lia|]. destruct (j + 1 <? 0) eqn:D2; [lia|]. replace (Z.to_nat (j + 1)) with (S (Z.to_nat j)) by lia. exact Hy.
  - rewrite Forall_forall. intros x Hx. apply In_zget in Hx. destruct Hx as (i & Hx).
    assert (Hi : 0 <= i) by (pose proof (zget_Some_range _ _ _ Hx); lia).
    apply (H 0 (i + 1)); [lia|lia|reflexivity|]. unfold zget in *.
    destruct (i <? 0) eqn:D; [lia|]. destruct (i + 1 <? 0) eqn:D2; [lia|]. replace (Z.to_nat (i + 1)) with (S (Z.to_nat i)) by lia. exact Hx.
Qed.

Section Leave.
Variables (k : mconf) (types1 types2 : list String.string) (rows1 rows2 : list imrow) (move : Z -> Z)
  (psf1 psf2 : option (list psfobj)) (input : list obj)
  (j1 j2 : ctype -> Z -> Q) (p1 p2 : Z -> Q) (f1 f2 : medsfile).
Hypothesis M1 : make_meds k types1 rows1 psf1 input j1 p1 = Ok f1.
Hypothesis M2 : make_meds k types2 rows2 psf2 input j2 p2 = Ok f2.
Hypothesis R : left_out rows1 rows2 move.
Hypothesis K : coadd_stays k move.

Lemma move_inj g g' : 0 <= g < zlen rows1 -> 0 <= g' < zlen rows1 -> move g = move g' -> g = g'.
Proof.
  intros H H' E. destruct R as (_ & I). destruct (Z.lt_trichotomy g g') as [L|[L|L]]; [|exact L|].
  - specialize (I g g'). lia.
  - specialize (I g' g). lia.
Qed.
Lemma move_zero g : 0 <= g < zlen rows1 ->
  (move g =? 0) && first_image_is_coadd (k_l k) = (g =? 0) && first_image_is_coadd (k_l k).
Proof.
  intros Hg. destruct (first_image_is_coadd (k_l k)) eqn:E; [|rewrite !andb_false_r; reflexivity].
  rewrite !andb_true_r. specialize (K E).
  destruct (g =? 0) eqn:D.
  - apply Z.eqb_eq in D. subst g. rewrite K. reflexivity.
  - apply Z.eqb_neq. intros Hm. rewrite <- K in Hm. apply move_inj in Hm; lia.
Qed.
Lemma move_color g o : 0 <= g < zlen rows1 -> color_arg (k_l k) (move g) o = color_arg (k_l k) g o.
Proof. intros Hg. unfold color_arg, wcs_uses_color. rewrite move_zero by exact Hg. reflexivity. Qed.
Lemma move_psf_color g o : 0 <= g < zlen rows1 ->
  psf_color_arg (k_l k) (k_p k) (move g) o = psf_color_arg (k_l k) (k_p k) g o.
Proof. intros Hg. unfold psf_color_arg, psf_uses_color. rewrite move_zero by exact Hg. reflexivity. Qed.
Lemma move_accepted g im o : 0 <= g < zlen rows1 -> accepted (k_l k) (move g) im o <-> accepted (k_l k) g im o.
Proof.
  intros Hg. unfold accepted, spec_buffer, spec_row, spec_col. rewrite move_zero, move_color by exact Hg. reflexivity.
Qed.
Lemma move_image g : 0 <= g < zlen rows1 -> zget (map ir_image rows2) (move g) = zget (map ir_image rows1) g.
Proof. intros Hg. destruct R as (I & _). rewrite !zget_map, (proj2 (I g Hg)). reflexivity. Qed.
Lemma coadd_image im : first_image_is_coadd (k_l k) = true -> zget (map ir_image rows1) 0 = Some im -> zget (map ir_image rows2) 0 = Some im.
Proof.
  clear - R K. intros E Z. pose proof (zget_Some_range _ _ _ Z) as Hz. rewrite zlen_map in Hz.
  rewrite <- Z, <- (move_image 0) by exact Hz. rewrite (K E). reflexivity.
Qed.
Lemma leave_selected objs : selected (k_l k) (map ir_image rows1) input objs -> selected (k_l k) (map ir_image rows2) input objs.
Proof.
  unfold selected. destruct (first_image_is_coadd (k_l k)) eqn:E; [|auto]. cbn [andb].
  destruct (trim_to_coadd (k_l k)); [|auto]. intros (im & Z & H). exists im. split; [exact (coadd_image im E Z)|exact H].
Qed.

Lemma leave_rows objs i o : selected (k_l k) (map ir_image rows1) input objs -> zget objs i = Some o ->
  exists o1 o2, zget (m_cat f1) i = Some o1 /\ zget (m_cat f2) i = Some o2 /\
    o_id o1 = o_id o2 /\ o_number o1 = o_number o2 /\ o_ra o1 = o_ra o2 /\ o_dec o1 = o_dec o2 /\
    o_psf_color o1 = o_psf_color o2 /\
    o_box o1 = o_box o2 /\ o_ncut o1 <= o_ncut o2 /\
    0 <= o_ncut o1 <= zlen (o_slots o1) /\ o_ncut o2 <= zlen (o_slots o2) /\
    StronglySorted Z.lt (map s_file (used_slots o1)) /\ StronglySorted Z.lt (map s_file (used_slots o2)) /\
    (forall g, 0 <= g < zlen rows1 -> In (move g) (map s_file (used_slots o2)) -> In g (map s_file (used_slots o1))) /\
    forall c1, 0 <= c1 < o_ncut o1 -> exists c2 s1 s2, 0 <= c2 < o_ncut o2 /\
      zget (o_slots o1) c1 = Some s1 /\ zget (o_slots o2) c2 = Some s2 /\
      0 <= s_file s1 < zlen rows1 /\ s_file s2 = move (s_file s1) /\
      s_orow s1 = s_orow s2 /\ s_ocol s1 = s_ocol s2 /\ s_osr s1 = s_osr s2 /\ s_osc s1 = s_osc s2 /\
      s_crow s1 = s_crow s2 /\ s_ccol s1 = s_ccol s2 /\
      s_dudrow s1 = s_dudrow s2 /\ s_dudcol s1 = s_dudcol s2 /\
      s_dvdrow s1 = s_dvdrow s2 /\ s_dvdcol s1 = s_dvdcol s2.
Proof.
  intros S1 G. pose proof (leave_selected _ S1) as S2.
  destruct (written_rows _ _ _ _ _ _ _ _ _ M1 S1) as (n1 & L1 & _ & _ & R1).
  destruct (written_rows _ _ _ _ _ _ _ _ _ M2 S2) as (n2 & L2 & _ & _ & R2).
  destruct (zget_range_Some (m_cat f1) i) as (o1 & G1); [pose proof (zget_Some_range _ _ _ G); lia|].
  destruct (zget_range_Some (m_cat f2) i) as (o2 & G2); [pose proof (zget_Some_range _ _ _ G); lia|].
  exists o1, o2. split; [exact G1|]. split; [exact G2|].
  destruct (R1 _ _ _ G G1) as (A1 & A2 & A3 & A4 & A5 & A6 & A7 & A8 & A9 & A10 & A11 & A12 & A13).
  destruct (R2 _ _ _ G G2) as (B1 & B2 & B3 & B4 & B5 & B6 & B7 & B8 & B9 & B10 & B11 & B12 & B13).
  assert (Eb : o_box o1 = o_box o2) by congruence.
  fold (used_slots o1) in *. fold (used_slots o2) in *.
  set (U1 := map s_file (used_slots o1)) in *. set (U2 := map s_file (used_slots o2)) in *.
  assert (LU1 : zlen U1 = o_ncut o1).
  { unfold U1. rewrite zlen_map. unfold used_slots, zlen in *. rewrite firstn_length. lia. }
  assert (LU2 : zlen U2 = o_ncut o2).
  { unfold U2. rewrite zlen_map. unfold used_slots, zlen in *. rewrite firstn_length. lia. }
  pose proof (sorted_nodup _ A11) as N1. pose proof (sorted_nodup _ B11) as N2.
  assert (In1 : forall g, In g U1 -> 0 <= g < zlen rows1).
  { intros g Hg. apply A12 in Hg. destruct Hg as (im & Z1 & _). pose proof (zget_Some_range _ _ _ Z1) as X. rewrite zlen_map in X. exact X. }
  assert (In2 : forall g, In g U1 -> In (move g) U2).
  { intros g Hg. pose proof (In1 _ Hg) as Hr. apply A12 in Hg. destruct Hg as (im & Z1 & Z2). apply B12. exists im.
    rewrite move_image by exact Hr. split; [exact Z1|]. apply (move_accepted g im o Hr). exact Z2. }
  assert (In3 : forall g, 0 <= g < zlen rows1 -> In (move g) U2 -> In g U1).
  { intros g Hg Hh. apply B12 in Hh. destruct Hh as (im & Z1 & Z2). apply A12. exists im.
    rewrite move_image in Z1 by exact Hg. split; [exact Z1|]. apply (move_accepted g im o Hg). exact Z2. }
  assert (EN : o_ncut o1 <= o_ncut o2).
  { assert (P : (length (map move U1) <= length U2)%nat).
    { apply NoDup_incl_length.
      - apply nodup_map_in; [exact N1|]. intros x y X Y. apply move_inj; apply In1; assumption.
      - intros h Hh. apply in_map_iff in Hh. destruct Hh as (g & <- & Hg). apply In2. exact Hg. }
    rewrite map_length in P. unfold zlen in LU1, LU2. lia. }
  assert (Hu : forall o icut, 0 <= icut < o_ncut o -> zget (used_slots o) icut = zget (o_slots o) icut).
  { intros o' icut Hi. unfold used_slots. rewrite zget_firstn. destruct (icut <? o_ncut o') eqn:D; [reflexivity|lia]. }
  repeat (split; [first [congruence | exact EN | lia | exact A11 | exact B11 | exact In3]|]).
  intros c1 Hc.
  destruct (zget_range_Some (o_slots o1) c1) as (s1 & Hs1); [lia|].
  assert (X1 : zget U1 c1 = Some (s_file s1)) by (unfold U1; rewrite zget_map, Hu, Hs1 by lia; reflexivity).
  apply zget_In in X1. pose proof (In1 _ X1) as Hr.
  assert (X2 : In (move (s_file s1)) U2) by (apply In2; exact X1).
  apply In_zget in X2. destruct X2 as (c2 & X2). pose proof (zget_Some_range _ _ _ X2) as Hc2. rewrite LU2 in Hc2.
  destruct (zget_range_Some (o_slots o2) c2) as (s2 & Hs2); [lia|].
  unfold U2 in X2. rewrite zget_map, Hu, Hs2 in X2 by lia. injection X2 as E2.
  exists c2, s1, s2. split; [lia|]. split; [exact Hs1|]. split; [exact Hs2|]. split; [exact Hr|]. split; [exact E2|].
  destruct (proj1 (A13 _ _ Hs1)) as (im1 & I1 & C1 & C2 & C3 & C4 & C5 & C6 & C7); [lia|].
  destruct (proj1 (B13 _ _ Hs2)) as (im2 & I2 & D1 & D2 & D3 & D4 & D5 & D6 & D7); [lia|].
  rewrite E2 in *. rewrite move_image, I1 in I2 by exact Hr. injection I2 as <-.
  unfold spec_row, spec_col in *. rewrite move_color in * by exact Hr.
  destruct (w_pos (im_wcs im1) (o_ra o) (o_dec o) (color_arg (k_l k) (s_file s1) o)) as [col row].
  rewrite C7 in D7. injection D7 as J1 J2 J3 J4.
  assert (Q1 : s_orow s1 = s_orow s2) by congruence. assert (Q2 : s_ocol s1 = s_ocol s2) by congruence.
  assert (Q3 : s_osr s1 = s_osr s2) by congruence. assert (Q4 : s_osc s1 = s_osc s2) by congruence.
  repeat split; congruence.
Qed.

Hypothesis Hb : Forall (fun o => 1 <= o_box o) input.
Hypothesis Hs : Forall (fun r => source_ok (ir_src r)) rows2.

Hypothesis Hj : 1 <= k_njob k.
Hypothesis Hp1 : psfs_fit psf1.
Hypothesis Hp2 : psfs_fit psf2.
Hypothesis Hpp : psfs_moved (zlen rows1) move psf1 psf2.

Lemma sources1 : Forall (fun r => source_ok (ir_src r)) rows1.
Proof.
  rewrite Forall_forall in *. intros r Hr. apply In_zget in Hr. destruct Hr as (g & Hg).
  pose proof (zget_Some_range _ _ _ Hg) as Hz. apply Hs. apply (zget_In _ (move g)).
  rewrite (proj2 (proj1 R g Hz)). exact Hg.
Qed.

Lemma leave_cutouts i o1 : zget (m_cat f1) i = Some o1 ->
  exists o2, zget (m_cat f2) i = Some o2 /\
    o_id o1 = o_id o2 /\ o_number o1 = o_number o2 /\ o_ra o1 = o_ra o2 /\ o_dec o1 = o_dec o2 /\
    o_box o1 = o_box o2 /\ o_ncut o1 <= o_ncut o2 /\
    exists kept, StronglySorted Z.lt kept /\ zlen kept = o_ncut o1 /\
      (forall c, In c kept <-> from_kept (zlen rows1) move o2 c) /\
      forall c1 c2, zget kept c1 = Some c2 ->
        moved_cutout rows1 move f1 f2 i c1 c2 /\ (psf1 <> None -> moved_psf f1 f2 i c1 c2).
Proof.
  intros G1. destruct (written_selected _ _ _ _ _ _ _ _ M1) as (objs & S1).
  pose proof (leave_selected _ S1) as S2.
  destruct (written_rows _ _ _ _ _ _ _ _ _ M1 S1) as (n1 & L1 & _).
  destruct (zget_range_Some objs i) as (o & G); [pose proof (zget_Some_range _ _ _ G1); lia|].
  destruct (leave_rows _ _ _ S1 G) as (o1' & o2 & G1' & G2 & E1 & E2 & E3 & E4 & E5 & E6 & E7 & L3 & L4 & SO1 & SO2 & BK & H).
  rewrite G1 in G1'. injection G1' as <-.
  exists o2. repeat (split; [assumption|]).
  set (P := fun c1 c2 => 0 <= c1 < o_ncut o1 /\ 0 <= c2 < o_ncut o2 /\ exists s1 s2,
      zget (o_slots o1) c1 = Some s1 /\ zget (o_slots o2) c2 = Some s2 /\
      0 <= s_file s1 < zlen rows1 /\ s_file s2 = move (s_file s1) /\
      s_orow s1 = s_orow s2 /\ s_ocol s1 = s_ocol s2 /\ s_osr s1 = s_osr s2 /\ s_osc s1 = s_osc s2 /\
      s_crow s1 = s_crow s2 /\ s_ccol s1 = s_ccol s2 /\
      s_dudrow s1 = s_dudrow s2 /\ s_dudcol s1 = s_dudcol s2 /\
      s_dvdrow s1 = s_dvdrow s2 /\ s_dvdcol s1 = s_dvdcol s2).
  destruct (choose_list P (zrange (o_ncut o1))) as (order & F).
  { intros c1 Hc. rewrite In_zrange in Hc. destruct (H c1 Hc) as (c2 & s1 & s2 & H1 & H2). exists c2.
    split; [exact Hc|]. split; [exact H1|]. exists s1, s2. exact H2. }
  assert (U : forall o c s, 0 <= c < o_ncut o -> zget (o_slots o) c = Some s -> zget (map s_file (used_slots o)) c = Some (s_file s)).
  { intros o' c s Hc Hz. rewrite zget_map. unfold used_slots. rewrite zget_firstn. destruct (c <? o_ncut o') eqn:D; [|lia]. rewrite Hz. reflexivity. }
  assert (FP : forall c1 c2, zget order c1 = Some c2 -> P c1 c2).
  { intros c1 c2 Hc. destruct (Forall2_zget_ex _ _ _ _ _ F Hc) as (x & Hx & Px).
    pose proof (zget_Some_range _ _ _ Hx) as Hx'. rewrite zlen_zrange in Hx' by lia. rewrite zget_zrange in Hx by lia. injection Hx as <-. exact Px. }
  assert (LO : zlen order = o_ncut o1).
  { pose proof (Forall2_len _ _ _ F) as L. rewrite zrange_length in L. unfold zlen. lia. }
  exists order. split; [|split; [exact LO|split]].
  { apply zget_sorted. intros i1 i2 x y Hi Hlt Hx Hy.
    destruct (FP _ _ Hx) as (X1 & X0 & s1 & s2 & X2 & X3 & X4 & X5 & _).
    destruct (FP _ _ Hy) as (Y1 & Y0 & s1' & s2' & Y2 & Y3 & Y4 & Y5 & _).
    pose proof (sorted_zget _ SO1 _ _ _ _ Hi Hlt (U _ _ _ X1 X2) (U _ _ _ Y1 Y2)) as L.
    assert (M : s_file s2 < s_file s2') by (rewrite X5, Y5; apply (proj2 R); lia).
    destruct (Z.lt_trichotomy x y) as [T|[T|T]]; [exact T|..].
    - subst y. rewrite X3 in Y3. injection Y3 as <-. lia.
    - pose proof (sorted_zget _ SO2 _ _ _ _ (proj1 Y0) T (U _ _ _ Y0 Y3) (U _ _ _ X0 X3)). lia. }
  { intros c. split.
    - intros Hc. apply In_zget in Hc. destruct Hc as (c1 & Hc). destruct (FP _ _ Hc) as (X1 & X0 & s1 & s2 & X2 & X3 & X4 & X5 & _).
      split; [exact X0|]. exists s2, (s_file s1). auto.
    - intros (Hc & s & g & Hz & Hg & E). pose proof (U _ _ _ Hc Hz) as V. rewrite E in V.
      pose proof (BK g Hg (zget_In _ _ _ V)) as B. apply In_zget in B. destruct B as (c1 & B).
      assert (Hc1 : 0 <= c1 < o_ncut o1).
      { pose proof (zget_Some_range _ _ _ B) as X. rewrite zlen_map in X. unfold used_slots, zlen in X. rewrite firstn_length in X. lia. }
      destruct (zget_range_Some order c1) as (c2 & O2); [lia|].
      destruct (FP _ _ O2) as (X1 & X0 & s1 & s2 & X2 & X3 & X4 & X5 & _).
      rewrite (U _ _ _ X1 X2) in B. injection B as <-.
      pose proof (U _ _ _ X0 X3) as W. rewrite X5 in W.
      destruct (Z.lt_trichotomy c c2) as [T|[T|T]].
      + pose proof (sorted_zget _ SO2 _ _ _ _ (proj1 Hc) T V W). lia.
      + subst c2. eapply zget_In. exact O2.
      + pose proof (sorted_zget _ SO2 _ _ _ _ (proj1 X0) T W V). lia. }
  intros c1 c2 Hc. destruct (FP _ _ Hc) as (Hr & Hr2 & s1 & s2 & Z1 & Z2 & Hf & P1 & P2 & P3 & P4 & P5 & P6 & P7 & J1 & J2 & J3 & J4).
  assert (C1 : cutout_at f1 i c1 o1 s1) by (repeat split; try assumption; lia).
  assert (C2 : cutout_at f2 i c2 o2 s2) by (repeat split; try assumption; lia).
  destruct (zget_range_Some rows1 (s_file s1)) as (row & Hrow); [lia|].
  assert (Hrow2 : zget rows2 (s_file s2) = Some row) by (rewrite P1, (proj2 (proj1 R _ Hf)); exact Hrow).
  split.
  - exists o1, o2, s1, s2, row. repeat (split; [assumption|]). split; [|split; [|split]].
    + destruct (written_positions _ _ _ _ _ _ _ _ _ M1 S1 _ _ _ _ _ G C1) as (? & _ & _ & _ & _ & _ & Q1 & _).
      destruct (written_positions _ _ _ _ _ _ _ _ _ M2 S2 _ _ _ _ _ G C2) as (? & _ & _ & _ & _ & _ & Q2 & _).
      destruct (w_pos _ _ _ _) in Q1. destruct (w_pos _ _ _ _) in Q2.
      eexists. split; [exact (proj1 Q1)|]. rewrite (proj1 Q2). congruence.
    + destruct (written_source_info _ _ _ _ _ _ _ _ M1 _ _ _ _ C1) as (r1 & Q1 & Q2 & _).
      destruct (written_source_info _ _ _ _ _ _ _ _ M2 _ _ _ _ C2) as (r2 & Q3 & Q4 & _).
      eexists. split; [exact Q2|]. congruence.
    + destruct (written_source_info _ _ _ _ _ _ _ _ M1 _ _ _ _ C1) as (r1 & Q1 & _ & Q2).
      destruct (written_source_info _ _ _ _ _ _ _ _ M2 _ _ _ _ C2) as (r2 & Q3 & _ & Q4).
      eexists. split; [exact Q2|]. congruence.
    + intros t T1 T2 Fi.
      destruct (fill_value t) as [v|] eqn:Ev.
      * destruct (written_cutout_exact _ _ _ _ _ _ _ _ Hb sources1 M1 _ _ _ _ _ _ _ C1 T1 Ev Hrow Fi) as (im1 & I1 & I2).
        destruct (written_cutout_exact _ _ _ _ _ _ _ _ Hb Hs M2 _ _ _ _ _ _ _ C2 T2 Ev Hrow2 Fi) as (im2 & I3 & I4).
        rewrite I1 in I3. injection I3 as <-. eexists. split; [exact I2|]. rewrite I4, P4, P5, E6. reflexivity.
      * destruct (written_nofill _ _ _ _ _ _ _ _ M1 _ _ _ _ _ _ T1 Ev C1 Hrow Fi).
  - intros Hn. destruct psf1 as [ps1|]; [|congruence]. destruct psf2 as [ps2|]; [|destruct Hpp]. cbn in Hpp.
    destruct (written_psf k types1 rows1 ps1 input j1 p1 f1 Hj) as (h1 & _ & _ & W1);
      [intros p r c col Hp; apply (Hp1 ps1 p r c col eq_refl Hp)|exact M1|].
    destruct (written_psf k types2 rows2 ps2 input j2 p2 f2 Hj) as (h2 & _ & _ & W2);
      [intros p r c col Hp; apply (Hp2 ps2 p r c col eq_refl Hp)|exact M2|].
    destruct (W1 _ _ _ _ C1) as (q1 & Q1 & _ & _ & _ & _ & W1'). destruct (W2 _ _ _ _ C2) as (q2 & Q2 & _ & _ & _ & _ & W2').
    rewrite P1, Hpp, Q1 in Q2 by lia. injection Q2 as <-.
    eexists. split; [apply W1'; apply (Hp1 ps1 q1 _ _ _ eq_refl); eapply zget_In; exact Q1|].
    assert (EC : psf_color_arg (k_l k) (k_p k) (s_file s1) o1 = psf_color_arg (k_l k) (k_p k) (s_file s2) o2).
    { rewrite P1, move_psf_color by exact Hf. unfold psf_color_arg. rewrite E5. reflexivity. }
    rewrite P2, P3, EC. apply W2'. apply (Hp1 ps1 q1 _ _ _ eq_refl). eapply zget_In; exact Q1.
Qed.

Lemma leave_catalog : zlen (m_cat f1) = zlen (m_cat f2).
Proof.
  destruct (written_selected _ _ _ _ _ _ _ _ M1) as (objs & S1). pose proof (leave_selected _ S1) as S2.
  destruct (written_rows _ _ _ _ _ _ _ _ _ M1 S1) as (n1 & L1 & _).
  destruct (written_rows _ _ _ _ _ _ _ _ _ M2 S2) as (n2 & L2 & _). lia.
Qed.
End Leave.

Lemma leave_made k types1 types2 rows1 rows2 move psf1 psf2 input j1 j2 p1 p2 f1 f2 :
  make_meds k types1 rows1 psf1 input j1 p1 = Ok f1 -> make_meds k types2 rows2 psf2 input j2 p2 = Ok f2 ->
  left_out rows1 rows2 move -> coadd_stays k move ->
  Forall (fun o => 1 <= o_box o) input -> Forall (fun r => source_ok (ir_src r)) rows2 -> 1 <= k_njob k ->
  psfs_fit psf1 -> psfs_fit psf2 -> psfs_moved (zlen rows1) move psf1 psf2 ->
  zlen (m_cat f1) = zlen (m_cat f2) /\
  forall i o1, zget (m_cat f1) i = Some o1 ->
  exists o2, zget (m_cat f2) i = Some o2 /\
    o_id o1 = o_id o2 /\ o_number o1 = o_number o2 /\ o_ra o1 = o_ra o2 /\ o_dec o1 = o_dec o2 /\
    o_box o1 = o_box o2 /\ o_ncut o1 <= o_ncut o2 /\
    exists kept, StronglySorted Z.lt kept /\ zlen kept = o_ncut o1 /\
      (forall c, In c kept <-> from_kept (zlen rows1) move o2 c) /\
      forall c1 c2, zget kept c1 = Some c2 ->
        moved_cutout rows1 move f1 f2 i c1 c2 /\ (psf1 <> None -> moved_psf f1 f2 i c1 c2).
Proof.
  intros M1 M2 R K Hb Hs Hj Hp1 Hp2 Hpp. split; [eapply leave_catalog; eassumption|].
  intros i o1 G. eapply leave_cutouts; eassumption.
Qed.

(** What can be made with all the images can be made with some of them. *)
Lemma leave_writable k req rows1 rows2 move input junk pjunk :
  left_out rows1 rows2 move -> coadd_stays k move -> rows1 <> [] ->
  layout_possible (k_l k) (map ir_image rows2) input ->
  Forall (fun o => 0 <= o_box o) input -> Forall (fun r => source_ok (ir_src r)) rows2 ->
  (forall t, t = TImage \/ In t req ->
     fill_value t <> None /\ forall r, In r rows2 -> readable (k_unusable k) (ir_src r) t) ->
  exists f1 f2, make_meds k (map ctype_name req) rows1 None input junk pjunk = Ok f1 /\
    make_meds k (map ctype_name req) rows2 None input junk pjunk = Ok f2.
Proof.
  intros R K N L Hb Hs Hr.
  assert (B : forall r, In r rows1 -> In r rows2).
  { intros r H. apply In_zget in H. destruct H as (g & H). pose proof (zget_Some_range _ _ _ H) as Hg.
    apply (zget_In _ (move g)). rewrite (proj2 (proj1 R g Hg)). exact H. }
  destruct (writable k req rows2 input junk pjunk L Hb Hs Hr) as (f2 & H2).
  destruct (writable k req rows1 input junk pjunk) as (f1 & H1).
  - destruct L as (L1 & L2 & L3). split; [exact L1|]. split; [exact L2|]. intros E.
    assert (X : zget (map ir_image rows2) 0 = zget (map ir_image rows1) 0).
    { rewrite <- (K E) at 1. rewrite !zget_map. rewrite (proj2 (proj1 R 0 ltac:(destruct rows1; [congruence|unfold zlen; cbn [length]; lia]))). reflexivity. }
    specialize (L3 E). rewrite X in L3. exact L3.
  - exact Hb.
  - rewrite Forall_forall in *. intros r H. apply Hs, B, H.
  - intros t Ht. destruct (Hr t Ht) as (X & Y). split; [exact X|]. intros r H. apply Y, B, H.
  - exists f1, f2. auto.
Qed.
