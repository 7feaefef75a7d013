(** Images inside larger frames (C146). *)
From Coq Require Import Sorted Lia Lqa ZifyBool ZifyNat.
From Verif Require Import Base Img Types Reader MakerLayout MakerWrite MakerFile
  SpecTiles SpecLayout SpecFile SpecExtract SpecFrame
  BaseLemmas ImgLemmas LayoutLemmas StartLemmas WriteLemmas StampLemmas CalibLemmas FileLemmas ReadLemmas
  MakerLemmas MakerLemmas2 MakerLemmas3 LocalLemmas.
Open Scope Z_scope.

Lemma trunc_floor x : (0 <= x)%Q -> qtrunc x = Qfloor x.
Proof. intros H. unfold qtrunc. rewrite (proj2 (Qle_bool_iff 0 x) H). reflexivity. Qed.
Lemma floor_shift x y n : (y == x + inject_Z n)%Q -> Qfloor y = Qfloor x + n.
Proof.
  intros E. rewrite (Qfloor_comp _ _ E). pose proof (Qfloor_le x) as A. pose proof (Qlt_floor x) as B.
  pose proof (Qfloor_le (x + inject_Z n)) as C. pose proof (Qlt_floor (x + inject_Z n)) as D.
  rewrite inject_Z_plus in B, D.
  assert (X : (inject_Z (Qfloor (x + inject_Z n)) < inject_Z (Qfloor x + n + 1))%Q) by (rewrite !inject_Z_plus; lra).
  assert (Y : (inject_Z (Qfloor x + n) < inject_Z (Qfloor (x + inject_Z n) + 1))%Q) by (rewrite !inject_Z_plus; lra).
  rewrite <- Zlt_Qlt in X, Y. lia.
Qed.
Lemma trunc_shift x y n : 0 <= n -> (0 <= x)%Q -> (y == x + inject_Z n)%Q -> qtrunc y = qtrunc x + n.
Proof.
  intros Hn Hx E. rewrite !trunc_floor; [apply floor_shift; exact E| exact Hx|].
  assert (0 <= inject_Z n)%Q by (change 0%Q with (inject_Z 0); rewrite <- Zle_Qle; exact Hn). lra.
Qed.

(** ** pixels *)
Lemma px_in_ok {A} (im : img A) r c : img_ok im -> 0 <= r < nr im -> 0 <= c < nc im -> exists x, px im r c = Some x.
Proof. intros H R C. destruct (px im r c) eqn:E; [eauto|]. destruct (px_in im r c H R C) as (x & X). congruence. Qed.

Lemma pixelwise_get {A B} (R : Z -> Z -> A -> B -> Prop) a b r c x : pixelwise R a b -> px a r c = Some x ->
  exists y, px b r c = Some y /\ R r c x y.
Proof.
  intros (O & N1 & N2 & H) E. pose proof (px_Some_range _ _ _ _ E) as G.
  destruct (px_in_ok b r c O) as (y & Y); [lia|lia|]. exists y. split; [exact Y|]. eapply H; eassumption.
Qed.

Lemma weight_scale u s im : read_image u s TWeight = Ok (Some im) -> ~ (src_scale s == 0)%Q.
Proof.
  unfold read_image. intros H E. apply Qeq_bool_iff in E.
  destruct (read_path (src_bytes s) (src_weight s)) as [w|]; [|discriminate]. cbn [bind] in H.
  match type of H with (let* im := ?x in _) = _ => destruct x as [[y|]|]; cbn [bind] in H; [|discriminate..] end.
  rewrite E in H. discriminate.
Qed.

Lemma unusable_inside u dr dc s1 s2 r c : source_inside dr dc s1 s2 ->
  (forall bm, src_bmask s1 = PFile bm -> has_px (src_bmask s1) r c) ->
  (unusable_at u s1 r c <-> unusable_at u s2 (r + dr) (c + dc)).
Proof.
  intros (_ & _ & _ & _ & Hb & _) Hp. unfold path_inside in Hb. split.
  - intros (bad & bm & x & A & B & C & D). rewrite B in Hb. destruct (src_bmask s2) as [| |b2] eqn:E2; try contradiction.
    exists bad, b2, x. repeat split; auto.
  - intros (bad & bm & x & A & B & C & D). rewrite B in Hb. destruct (src_bmask s1) as [| |b1] eqn:E1; try contradiction.
    destruct (Hp b1 eq_refl) as (i1 & x1 & E & P). injection E as <-.
    pose proof (Hb _ _ _ P) as P2. rewrite C in P2. injection P2 as ->. exists bad, b1, x1. repeat split; auto.
Qed.

Lemma read_inside u dr dc s1 s2 t im1 im2 r c : source_ok s1 -> source_ok s2 -> source_inside dr dc s1 s2 ->
  read_image u s1 t = Ok (Some im1) -> read_image u s2 t = Ok (Some im2) -> has_pixel s1 t r c ->
  exists x y, px im1 r c = Some x /\ px im2 (r + dr) (c + dc) = Some y /\ (x == y)%Q.
Proof.
  intros O1 O2 I R1 R2 P.
  pose proof (read_image_calibrated _ _ _ _ O1 R1) as C1. pose proof (read_image_calibrated _ _ _ _ O2 R2) as C2.
  pose proof I as (I1 & I2 & I3 & I4 & I5 & I6 & I7 & SC).
  destruct t; cbn [calibrated has_pixel] in *.
  - destruct C1 as (a & A & P1). destruct C2 as (b & B & P2). rewrite A, B in I1. cbn in I1.
    destruct P as (a' & x & A' & X). rewrite A in A'. injection A' as <-. pose proof (I1 _ _ _ X) as Y.
    destruct (pixelwise_get _ _ _ _ _ _ P1 X) as (v & V & bk & K & E).
    destruct (pixelwise_get _ _ _ _ _ _ P2 Y) as (w & W & bk2 & K2 & E2).
    exists v, w. split; [exact V|]. split; [exact W|].
    assert (bk2 = bk).
    { unfold bkg_at in K, K2. unfold path_inside in I2. destruct (src_bkg s1), (src_bkg s2); try contradiction; try congruence.
      pose proof (I2 _ _ _ K). congruence. }
    subst bk2. rewrite E, E2, SC. reflexivity.
  - pose proof (weight_scale _ _ _ R1) as NZ.
    destruct C1 as (a & A & P1). destruct C2 as (b & B & P2). rewrite A, B in I3. cbn in I3.
    destruct P as ((a' & x & A' & X) & PB). rewrite A in A'. injection A' as <-. pose proof (I3 _ _ _ X) as Y.
    destruct (pixelwise_get _ _ _ _ _ _ P1 X) as (v & V & E1 & E1').
    destruct (pixelwise_get _ _ _ _ _ _ P2 Y) as (w & W & E2 & E2').
    exists v, w. split; [exact V|]. split; [exact W|].
    pose proof (unusable_inside u dr dc s1 s2 r c I PB) as U.
    assert (D : unusable_at u s1 r c \/ ~ unusable_at u s1 r c).
    { unfold unusable_at. destruct u as [bad|]; [|right; intros (? & ? & ? & ? & _); discriminate].
      destruct (src_bmask s1) as [| |bm] eqn:Eb; [right; intros (? & ? & ? & _ & ? & _); discriminate..|].
      destruct (PB bm eq_refl) as (bm' & z & Z1 & Z2). injection Z1 as <-.
      destruct (Z.eq_dec (Z.land z bad) 0) as [Z|Z].
      - right. intros (? & ? & ? & Q1 & Q2 & Q3 & Q4). injection Q1 as <-. injection Q2 as <-. congruence.
      - left. exists bad, bm, z. auto. }
    destruct D as [D|D].
    + rewrite (E1 D), (E2 (proj1 U D)). reflexivity.
    + assert (N : ~ unusable_at u s2 (r + dr) (c + dc)) by (intros N; apply D, U, N).
      specialize (E1' D). specialize (E2' N). rewrite <- SC in E2'.
      assert (X1 : (~ src_scale s1 * src_scale s1 == 0)%Q) by (intros Z; apply Qmult_integral in Z; tauto).
      apply (Qmult_inj_r _ _ _ X1). rewrite E1', E2'. reflexivity.
  - destruct C1 as (a & A & P1). destruct C2 as (b & B & P2). rewrite A, B in I4. cbn in I4.
    destruct P as (a' & x & A' & X). rewrite A in A'. injection A' as <-. pose proof (I4 _ _ _ X) as Y.
    destruct (pixelwise_get _ _ _ _ _ _ P1 X) as (v & V & E). destruct (pixelwise_get _ _ _ _ _ _ P2 Y) as (w & W & E2).
    exists v, w. split; [exact V|]. split; [exact W|]. subst. reflexivity.
  - destruct C1 as (a & A & P1). destruct C2 as (b & B & P2). rewrite A, B in I5. cbn in I5.
    destruct P as (a' & x & A' & X). rewrite A in A'. injection A' as <-. pose proof (I5 _ _ _ X) as Y.
    destruct (pixelwise_get _ _ _ _ _ _ P1 X) as (v & V & E). destruct (pixelwise_get _ _ _ _ _ _ P2 Y) as (w & W & E2).
    exists v, w. split; [exact V|]. split; [exact W|]. subst. reflexivity.
  - destruct C1 as (a & A & P1). destruct C2 as (b & B & P2). rewrite A, B in I6. cbn in I6.
    destruct P as (a' & x & A' & X). rewrite A in A'. injection A' as <-. pose proof (I6 _ _ _ X) as Y.
    destruct (pixelwise_get _ _ _ _ _ _ P1 X) as (v & V & E). destruct (pixelwise_get _ _ _ _ _ _ P2 Y) as (w & W & E2).
    exists v, w. split; [exact V|]. split; [exact W|]. subst. reflexivity.
  - destruct C1 as (a & A & P1). destruct C2 as (b & B & P2). rewrite A, B in I7. cbn in I7.
    destruct P as (a' & x & A' & X). rewrite A in A'. injection A' as <-. pose proof (I7 _ _ _ X) as Y.
    destruct (pixelwise_get _ _ _ _ _ _ P1 X) as (v & V & E). destruct (pixelwise_get _ _ _ _ _ _ P2 Y) as (w & W & E2).
    exists v, w. split; [exact V|]. split; [exact W|]. subst. reflexivity.
Qed.

Lemma has_file_inside dr dc s1 s2 t : source_inside dr dc s1 s2 -> has_file s1 t -> has_file s2 t.
Proof.
  intros (I1 & I2 & I3 & I4 & I5 & I6 & I7 & _). destruct t; cbn; intros (a & A).
  - rewrite A in I1. destruct (src_image s2); try contradiction; eauto.
  - rewrite A in I3. destruct (src_weight s2); try contradiction; eauto.
  - rewrite A in I4. destruct (src_seg s2); try contradiction; eauto.
  - rewrite A in I5. destruct (src_bmask s2); try contradiction; eauto.
  - rewrite A in I6. destruct (src_ormask s2); try contradiction; eauto.
  - rewrite A in I7. destruct (src_noise s2); try contradiction; eauto.
Qed.

Section Frame.
Variables (k : mconf) (types1 types2 : list String.string) (rows1 rows2 : list imrow) (dr dc : Z -> Z)
  (psf1 psf2 : option (list psfobj)) (input : list obj)
  (j1 j2 : ctype -> Z -> Q) (p1 p2 : Z -> Q) (f1 f2 : medsfile).
Hypothesis T : first_image_is_coadd (k_l k) && trim_to_coadd (k_l k) = false.
Hypothesis M1 : make_meds k types1 rows1 psf1 input j1 p1 = Ok f1.
Hypothesis M2 : make_meds k types2 rows2 psf2 input j2 p2 = Ok f2.
Hypothesis F : frames dr dc rows1 rows2.

Lemma frame_accepted g r1 r2 o : zget rows1 g = Some r1 -> zget rows2 g = Some r2 ->
  accepted (k_l k) g (ir_image r1) o -> accepted (k_l k) g (ir_image r2) o.
Proof.
  intros G1 G2 (A1 & A2 & A3 & A4 & A5). destruct (proj2 F _ _ _ G1 G2) as (EO & (D1 & D2 & N1 & N2 & C & P & _) & _).
  unfold accepted. unfold spec_row, spec_col in *. rewrite <- EO.
  destruct (P (o_ra o) (o_dec o) (color_arg (k_l k) g o)) as (Pc & Pr).
  set (w1 := im_wcs (ir_image r1)) in *. set (w2 := im_wcs (ir_image r2)) in *.
  assert (H1 : (0 <= inject_Z (dr g))%Q) by (change 0%Q with (inject_Z 0); rewrite <- Zle_Qle; exact D1).
  assert (H2 : (0 <= inject_Z (dc g))%Q) by (change 0%Q with (inject_Z 0); rewrite <- Zle_Qle; exact D2).
  assert (H3 : (inject_Z (w_nrow w1) + inject_Z (dr g) <= inject_Z (w_nrow w2))%Q) by (rewrite <- inject_Z_plus, <- Zle_Qle; exact N1).
  assert (H4 : (inject_Z (w_ncol w1) + inject_Z (dc g) <= inject_Z (w_ncol w2))%Q) by (rewrite <- inject_Z_plus, <- Zle_Qle; exact N2).
  split; [apply C; exact A1|]. rewrite Pc, Pr. repeat split; lra.
Qed.

Lemma frame_rows i c1 o1 s1 : cutout_at f1 i c1 o1 s1 ->
  exists c2 o2 s2, cutout_at f2 i c2 o2 s2 /\ s_file s2 = s_file s1 /\ o_box o2 = o_box o1 /\
    o_psf_color o2 = o_psf_color o1 /\
    (s_orow s2 == s_orow s1 + inject_Z (dr (s_file s1)))%Q /\ (s_ocol s2 == s_ocol s1 + inject_Z (dc (s_file s1)))%Q /\
    s_dudrow s2 = s_dudrow s1 /\ s_dudcol s2 = s_dudcol s1 /\ s_dvdrow s2 = s_dvdrow s1 /\ s_dvdcol s2 = s_dvdcol s1 /\
    ((0 <= s_orow s1)%Q -> s_osr s2 = s_osr s1 + dr (s_file s1) /\ (s_crow s2 == s_crow s1)%Q) /\
    ((0 <= s_ocol s1)%Q -> s_osc s2 = s_osc s1 + dc (s_file s1) /\ (s_ccol s2 == s_ccol s1)%Q).
Proof.
  intros (G1 & Hc & Hs1).
  assert (S1 : selected (k_l k) (map ir_image rows1) input input) by (unfold selected; rewrite T; reflexivity).
  assert (S2 : selected (k_l k) (map ir_image rows2) input input) by (unfold selected; rewrite T; reflexivity).
  destruct (written_rows _ _ _ _ _ _ _ _ _ M1 S1) as (n1 & L1 & _ & _ & R1).
  destruct (written_rows _ _ _ _ _ _ _ _ _ M2 S2) as (n2 & L2 & _ & _ & R2).
  pose proof (zget_Some_range _ _ _ G1) as Hi.
  destruct (zget_range_Some input i) as (o & G); [lia|].
  destruct (zget_range_Some (m_cat f2) i) as (o2 & G2); [lia|].
  destruct (R1 _ _ _ G G1) as (A1 & A2 & A3 & A4 & A5 & A6 & A7 & A8 & A9 & A10 & A11 & A12 & A13).
  destruct (R2 _ _ _ G G2) as (B1 & B2 & B3 & B4 & B5 & B6 & B7 & B8 & B9 & B10 & B11 & B12 & B13).
  fold (used_slots o1) in *. fold (used_slots o2) in *.
  assert (Hu : forall o icut, 0 <= icut < o_ncut o -> zget (used_slots o) icut = zget (o_slots o) icut).
  { intros o' icut Hi'. unfold used_slots. rewrite zget_firstn. destruct (icut <? o_ncut o') eqn:D; [reflexivity|lia]. }
  assert (X1 : In (s_file s1) (map s_file (used_slots o1))).
  { apply in_map. apply (zget_In _ c1). rewrite Hu by lia. exact Hs1. }
  apply A12 in X1. destruct X1 as (im1 & I1 & Acc). rewrite zget_map in I1.
  destruct (zget rows1 (s_file s1)) as [r1|] eqn:Er1; [|discriminate]. injection I1 as <-.
  destruct (zget_range_Some rows2 (s_file s1)) as (r2 & Er2); [pose proof (zget_Some_range _ _ _ Er1); rewrite <- (proj1 F); assumption|].
  assert (X2 : In (s_file s1) (map s_file (used_slots o2))).
  { apply B12. exists (ir_image r2). split; [rewrite zget_map, Er2; reflexivity|]. eapply frame_accepted; eassumption. }
  apply In_zget in X2. destruct X2 as (c2 & X2). pose proof (zget_Some_range _ _ _ X2) as Hc2. rewrite zlen_map in Hc2.
  assert (Hc2' : 0 <= c2 < o_ncut o2).
  { unfold used_slots, zlen in Hc2. rewrite firstn_length in Hc2. lia. }
  destruct (zget_range_Some (o_slots o2) c2) as (s2 & Hs2); [unfold zlen in *; lia|].
  rewrite zget_map, Hu, Hs2 in X2 by lia. injection X2 as E2.
  exists c2, o2, s2. split; [repeat split; try assumption; lia|]. split; [exact E2|]. split; [congruence|]. split; [congruence|].
  destruct (proj1 (A13 _ _ Hs1)) as (im1 & I1 & C1 & C2 & C3 & C4 & C5 & C6 & C7); [lia|].
  destruct (proj1 (B13 _ _ Hs2)) as (im2 & I2 & D1 & D2 & D3 & D4 & D5 & D6 & D7); [lia|].
  rewrite E2 in *. rewrite zget_map, Er1 in I1. injection I1 as <-. rewrite zget_map, Er2 in I2. injection I2 as <-.
  destruct (proj2 F _ _ _ Er1 Er2) as (EO & (K1 & K2 & _ & _ & _ & P & J) & _).
  destruct (P (o_ra o) (o_dec o) (color_arg (k_l k) (s_file s1) o)) as (Pc & Pr).
  unfold spec_row, spec_col in *. rewrite <- EO in D1, D2.
  set (w1 := w_pos (im_wcs (ir_image r1)) (o_ra o) (o_dec o) (color_arg (k_l k) (s_file s1) o)) in *.
  set (w2 := w_pos (im_wcs (ir_image r2)) (o_ra o) (o_dec o) (color_arg (k_l k) (s_file s1) o)) in *.
  assert (OR : (s_orow s2 == s_orow s1 + inject_Z (dr (s_file s1)))%Q) by (rewrite D1, C1, Pr; ring).
  assert (OC : (s_ocol s2 == s_ocol s1 + inject_Z (dc (s_file s1)))%Q) by (rewrite D2, C2, Pc; ring).
  assert (JJ : (s_dudcol s2, s_dudrow s2, s_dvdcol s2, s_dvdrow s2) = (s_dudcol s1, s_dudrow s1, s_dvdcol s1, s_dvdrow s1)).
  { destruct w1 as [x1 y1] eqn:W1. destruct w2 as [x2 y2] eqn:W2. rewrite <- C7, <- D7. apply J; [exact Pc|exact Pr]. }
  injection JJ as J1 J2 J3 J4.
  split; [exact OR|]. split; [exact OC|]. repeat (split; [assumption|]).
  assert (Eb : o_box o2 = o_box o1) by congruence.
  split; intros H0.
  - assert (X : s_osr s2 = s_osr s1 + dr (s_file s1)) by (rewrite D3, C3, (trunc_shift _ _ _ K1 H0 OR), Eb; lia).
    split; [exact X|]. rewrite D5, C5, X, OR, inject_Z_plus. ring.
  - assert (X : s_osc s2 = s_osc s1 + dc (s_file s1)) by (rewrite D4, C4, (trunc_shift _ _ _ K2 H0 OC), Eb; lia).
    split; [exact X|]. rewrite D6, C6, X, OC, inject_Z_plus. ring.
Qed.

Hypothesis Hb : Forall (fun o => 1 <= o_box o) input.
Hypothesis Hs1 : Forall (fun r => source_ok (ir_src r)) rows1.
Hypothesis Hs2 : Forall (fun r => source_ok (ir_src r)) rows2.

Lemma frame_pixels i c1 c2 o1 o2 s1 s2 row t : cutout_at f1 i c1 o1 s1 -> cutout_at f2 i c2 o2 s2 ->
  s_file s2 = s_file s1 -> o_box o2 = o_box o1 ->
  s_osr s2 = s_osr s1 + dr (s_file s1) -> s_osc s2 = s_osc s1 + dc (s_file s1) ->
  zget rows1 (s_file s1) = Some row -> has_file (ir_src row) t ->
  In t (map fst (m_ext f1)) -> In t (map fst (m_ext f2)) ->
  same_pixels f1 f2 i c1 c2 s1 (o_box o1) (ir_src row) t.
Proof.
  intros C1 C2 Ef Eb Er Ec Z1 Hf T1 T2.
  destruct (zget_range_Some rows2 (s_file s1)) as (r2 & Z2); [pose proof (zget_Some_range _ _ _ Z1); rewrite <- (proj1 F); assumption|].
  destruct (proj2 F _ _ _ Z1 Z2) as (_ & _ & SI).
  pose proof (has_file_inside _ _ _ _ _ SI Hf) as Hf2.
  destruct (fill_value t) as [v|] eqn:Ev; [|destruct (written_nofill _ _ _ _ _ _ _ _ M1 _ _ _ _ _ _ T1 Ev C1 Z1 Hf)].
  assert (Z2' : zget rows2 (s_file s2) = Some r2) by (rewrite Ef; exact Z2).
  destruct (written_cutout_exact _ _ _ _ _ _ _ _ Hb Hs1 M1 _ _ _ _ _ _ _ C1 T1 Ev Z1 Hf) as (im1 & I1 & I2).
  destruct (written_cutout_exact _ _ _ _ _ _ _ _ Hb Hs2 M2 _ _ _ _ _ _ _ C2 T2 Ev Z2' Hf2) as (im2 & I3 & I4).
  do 2 eexists. split; [exact I2|]. split; [exact I4|]. intros r c Hr Hc HP.
  rewrite Forall_forall in Hs1, Hs2.
  destruct (read_inside _ _ _ _ _ _ _ _ _ _ (Hs1 _ (zget_In _ _ _ Z1)) (Hs2 _ (zget_In _ _ _ Z2)) SI I1 I3 HP) as (x & y & X & Y & E).
  exists x, y. unfold crop. rewrite !px_tab2. rewrite Eb.
  replace (s_osr s2 + r) with (s_osr s1 + r + dr (s_file s1)) by lia.
  replace (s_osc s2 + c) with (s_osc s1 + c + dc (s_file s1)) by lia. rewrite X, Y.
  destruct ((0 <=? r) && (r <? o_box o1) && (0 <=? c) && (c <? o_box o1)) eqn:D; [auto|lia].
Qed.

Hypothesis Hj : 1 <= k_njob k.
Hypothesis Hp1 : psfs_fit psf1.
Hypothesis Hp2 : psfs_fit psf2.
Hypothesis Hpp : psfs_in_frames dr dc psf1 psf2.

Lemma frame_psf i c1 c2 o1 o2 s1 s2 : cutout_at f1 i c1 o1 s1 -> cutout_at f2 i c2 o2 s2 ->
  s_file s2 = s_file s1 -> o_psf_color o2 = o_psf_color o1 ->
  (s_orow s2 == s_orow s1 + inject_Z (dr (s_file s1)))%Q -> (s_ocol s2 == s_ocol s1 + inject_Z (dc (s_file s1)))%Q ->
  psf1 <> None -> exists im, get_psf f1 i c1 = Ok im /\ get_psf f2 i c2 = Ok im.
Proof.
  intros C1 C2 Ef Ec OR OC Hn.
  destruct psf1 as [ps1|]; [|congruence]. destruct psf2 as [ps2|]; [|destruct Hpp]. cbn in Hpp.
  destruct (written_psf k types1 rows1 ps1 input j1 p1 f1 Hj) as (h1 & _ & _ & W1);
    [intros p r c col Hp; apply (Hp1 ps1 p r c col eq_refl Hp)|exact M1|].
  destruct (written_psf k types2 rows2 ps2 input j2 p2 f2 Hj) as (h2 & _ & _ & W2);
    [intros p r c col Hp; apply (Hp2 ps2 p r c col eq_refl Hp)|exact M2|].
  destruct (W1 _ _ _ _ C1) as (q1 & Q1 & _ & _ & _ & _ & W1'). destruct (W2 _ _ _ _ C2) as (q2 & Q2 & _ & _ & _ & _ & W2').
  rewrite Ef in *. 
  assert (EC : psf_color_arg (k_l k) (k_p k) (s_file s1) o2 = psf_color_arg (k_l k) (k_p k) (s_file s1) o1)
    by (unfold psf_color_arg; rewrite Ec; reflexivity).
  rewrite EC in W2'. rewrite (Hpp _ _ _ Q1 Q2 _ _ _ _ _ OR OC) in W2'.
  eexists. split; [apply W1'|apply W2']; apply (Hp1 ps1 q1 _ _ _ eq_refl); eapply zget_In; exact Q1.
Qed.

Lemma frame_cutouts i c1 o1 s1 : cutout_at f1 i c1 o1 s1 ->
  exists c2 o2 s2, cutout_at f2 i c2 o2 s2 /\ s_file s2 = s_file s1 /\ o_box o2 = o_box o1 /\
    (s_orow s2 == s_orow s1 + inject_Z (dr (s_file s1)))%Q /\ (s_ocol s2 == s_ocol s1 + inject_Z (dc (s_file s1)))%Q /\
    s_dudrow s2 = s_dudrow s1 /\ s_dudcol s2 = s_dudcol s1 /\ s_dvdrow s2 = s_dvdrow s1 /\ s_dvdcol s2 = s_dvdcol s1 /\
    (psf1 <> None -> exists im, get_psf f1 i c1 = Ok im /\ get_psf f2 i c2 = Ok im) /\
    ((0 <= s_orow s1)%Q -> s_osr s2 = s_osr s1 + dr (s_file s1) /\ (s_crow s2 == s_crow s1)%Q) /\
    ((0 <= s_ocol s1)%Q -> s_osc s2 = s_osc s1 + dc (s_file s1) /\ (s_ccol s2 == s_ccol s1)%Q) /\
    ((0 <= s_orow s1)%Q -> (0 <= s_ocol s1)%Q -> forall row t,
       zget rows1 (s_file s1) = Some row -> has_file (ir_src row) t ->
       In t (map fst (m_ext f1)) -> In t (map fst (m_ext f2)) ->
       same_pixels f1 f2 i c1 c2 s1 (o_box o1) (ir_src row) t).
Proof.
  intros C1. destruct (frame_rows _ _ _ _ C1) as (c2 & o2 & s2 & C2 & Ef & Eb & Ec & OR & OC & J1 & J2 & J3 & J4 & HR & HC).
  exists c2, o2, s2. repeat (split; [assumption|]). split; [eapply frame_psf; eassumption|].
  split; [exact HR|]. split; [exact HC|]. intros H1 H2 row t Z Hf T1 T2.
  eapply frame_pixels; try eassumption; [apply HR; exact H1|apply HC; exact H2].
Qed.
End Frame.
