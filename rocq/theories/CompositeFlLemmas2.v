(** Composite maps in double precision: pixels and accessors. *)
From Coq Require Import Lia ZifyBool ZifyNat Lqa Qround Qabs.
From Verif Require Import Base BaseLemmas Img ImgLemmas Types Reader BoundsM MakerLayout Composite Single SingleLemmas Typed LayoutFl
  SpecTiles SpecFile SpecComposite CompositeFl SpecCompositeFl CompositeLemmas CompositeLemmas2 CompositeLemmas3 FlMonoLemmas LayoutFlLemmas CompositeFlLemmas.
From Verif Require MemoryLemmas3 LayoutFlLemmas3.
Open Scope Z_scope.

(** The computed position is near the exact one. *)
Lemma position z s0 s i r c x y : sizes_ok z -> near_inverse z s0 i -> within z s0 s r c -> same_sky s0 s r c x y ->
  let p := fl_position (fin_mat (jac_of s)) i (fin_pair (s_crow s, s_ccol s)) (fin_pair (s_crow s0, s_ccol s0)) r c in
  ap (fst p) x (tolerance z) /\ ap (snd p) y (tolerance z) /\ (Qabs x <= 5368709120)%Q /\ (Qabs y <= 5368709120)%Q.
Proof.
  intros (HB & HM & HN & Hd & HP) NI (W1 & W2 & W3 & W4 & W5 & W6 & W7 & W8 & W9 & W10) (S1 & S2).
  destruct i as [[[i00 i01] i10] i11]. destruct NI as (a & b & c' & d & E1 & E2 & E3 & E4 & N1 & N2 & N3 & N4).
  unfold sky_u, sky_v in S1, S2.
  set (U := ((inject_Z r - s_crow s) * s_dudrow s + (inject_Z c - s_ccol s) * s_dudcol s)%Q).
  set (V := ((inject_Z r - s_crow s) * s_dvdrow s + (inject_Z c - s_ccol s) * s_dvdcol s)%Q).
  assert (SU : (s_dudrow s0 * (x - s_crow s0) + s_dudcol s0 * (y - s_ccol s0) == U)%Q) by (rewrite S1; unfold U; ring).
  assert (SV : (s_dvdrow s0 * (x - s_crow s0) + s_dvdcol s0 * (y - s_ccol s0) == V)%Q) by (rewrite S2; unfold V; ring).
  assert (X : (s_crow s0 + U * a + V * b == x)%Q).
  { rewrite <- SU, <- SV. transitivity (s_crow s0 + (x - s_crow s0) * (a * s_dudrow s0 + b * s_dvdrow s0) + (y - s_ccol s0) * (a * s_dudcol s0 + b * s_dvdcol s0))%Q; [ring|].
    rewrite E1, E2. ring. }
  assert (Y : (s_ccol s0 + U * c' + V * d == y)%Q).
  { rewrite <- SU, <- SV. transitivity (s_ccol s0 + (x - s_crow s0) * (c' * s_dudrow s0 + d * s_dvdrow s0) + (y - s_ccol s0) * (c' * s_dudcol s0 + d * s_dvdcol s0))%Q; [ring|].
    rewrite E3, E4. ring. }
  set (B := z_B z) in *. set (M := z_M z) in *. set (N := z_N z) in *.
  assert (P1 : (1 <= B * M)%Q) by (setoid_replace 1%Q with (1 * 1)%Q by ring; apply Qmult_le_compat_nonneg; split; lra).
  assert (P2 : (B * M <= B * M * N)%Q) by (setoid_replace (B * M)%Q with (B * M * 1)%Q at 1 by ring; apply Qmult_le_compat_nonneg; split; lra).
  assert (P3 : (B <= B * M)%Q) by (setoid_replace B with (B * 1)%Q at 1 by ring; apply Qmult_le_compat_nonneg; split; lra).
  assert (R1 : ap (fsub true (fround true (inject_Z r)) (Fin (s_crow s))) (inject_Z r - s_crow s) (2 * (1 # 9007199254740992) * B)) by (apply ap_rel; [assumption|lra|lra|assumption]).
  assert (R2 : ap (fsub true (fround true (inject_Z c)) (Fin (s_ccol s))) (inject_Z c - s_ccol s) (2 * (1 # 9007199254740992) * B)) by (apply ap_rel; [assumption|lra|lra|assumption]).
  assert (AU := ap_sky B M _ _ (s_dudrow s) (s_dudcol s) _ _ HB HM ltac:(lra) R1 R2 W1 W2 W7 W8). fold U in AU.
  assert (AV := ap_sky B M _ _ (s_dvdrow s) (s_dvdcol s) _ _ HB HM ltac:(lra) R1 R2 W1 W2 W9 W10). fold V in AV.
  assert (AB : forall x y, (Qabs x <= B)%Q -> (Qabs y <= M)%Q -> (Qabs (x * y) <= B * M)%Q).
  { intros x' y' X' Y'. rewrite Qabs_Qmult. apply Qmult_le_compat_nonneg; split; try apply Qabs_nonneg; assumption. }
  assert (HU : (Qabs U <= 2 * (B * M))%Q).
  { unfold U. eapply Qle_trans; [apply Qabs_triangle|]. pose proof (AB _ _ W1 W7). pose proof (AB _ _ W2 W8). lra. }
  assert (HV : (Qabs V <= 2 * (B * M))%Q).
  { unfold V. eapply Qle_trans; [apply Qabs_triangle|]. pose proof (AB _ _ W1 W9). pose proof (AB _ _ W2 W10). lra. }
  assert (AX := ap_coadd B M N (z_delta z) U V (s_crow s0) a b _ _ i00 i01 HB HM HN Hd HP AU AV HU HV N1 N2 W5).
  assert (AY := ap_coadd B M N (z_delta z) U V (s_ccol s0) c' d _ _ i10 i11 HB HM HN Hd HP AU AV HU HV N3 N4 W6).
  cbn [fl_position fin_mat fin_pair jac_of fst snd].
  assert (BIG : forall t p q, (Qabs t <= B)%Q -> (Qabs p <= N)%Q -> (Qabs q <= N)%Q -> (Qabs (t + U * p + V * q) <= 5368709120)%Q).
  { intros t p q T Pp Pq. assert (K : forall w p, (Qabs w <= 2 * (B * M))%Q -> (Qabs p <= N)%Q -> (Qabs (w * p) <= 2 * (B * M) * N)%Q).
    { intros w p' Hw Hp'. rewrite Qabs_Qmult. apply Qmult_le_compat_nonneg; split; try apply Qabs_nonneg; assumption. }
    pose proof (K U p HU Pp). pose proof (K V q HV Pq). eapply Qle_trans; [apply Qabs_triangle|]. pose proof (Qabs_triangle t (U * p)). lra. }
  split; [eapply ap_eq; [exact AX|exact X]|]. split; [eapply ap_eq; [exact AY|exact Y]|].
  split; [rewrite <- X; apply BIG; [exact W5|apply N1|apply N2]|rewrite <- Y; apply BIG; [exact W6|apply N3|apply N4]].
Qed.

Lemma tolerance_small z : sizes_ok z -> (0 <= tolerance z <= 8589934592)%Q.
Proof.
  intros (HB & HM & HN & Hd & HP). unfold tolerance.
  assert (P1 : (1 <= z_B z * z_M z)%Q) by (setoid_replace 1%Q with (1 * 1)%Q by ring; apply Qmult_le_compat_nonneg; split; lra).
  assert (P2 : (1 <= z_B z * z_M z * z_N z)%Q) by (setoid_replace 1%Q with (1 * 1)%Q at 1 by ring; apply Qmult_le_compat_nonneg; split; lra).
  split; [apply Qmult_le_0_compat; lra|].
  setoid_replace 8589934592%Q with (1073741824 * 8)%Q by reflexivity. apply Qmult_le_compat_nonneg; split; lra.
Qed.

Lemma qtrunc_int k : qtrunc (inject_Z k) = k.
Proof.
  symmetry. apply LayoutFlLemmas3.int_part_unique. unfold SpecLayoutFl.int_part. destruct (Z_lt_le_dec k 0) as [H|H].
  - right. assert (inject_Z k < 0)%Q by (change 0%Q with (inject_Z 0); rewrite <- Zlt_Qlt; exact H). split; [assumption|]. lra.
  - left. assert (0 <= inject_Z k)%Q by (change 0%Q with (inject_Z 0); rewrite <- Zle_Qle; exact H). split; [assumption|]. lra.
Qed.

Lemma pixel_of ub v x t : ap v x t -> (Qabs x <= 5368709120)%Q -> (t <= 8589934592)%Q ->
  exists q, (Qabs (q - x) <= t)%Q /\ fl_pixel ub v = qround q.
Proof.
  intros (q & -> & E) HX HT. exists q. split; [exact E|]. unfold fl_pixel, fl_rint, to_int. rewrite qtrunc_int.
  destruct (qround_nearest q) as (A & _). apply Qabs_Qle_condition in A, E, HX.
  assert (L : - 2 ^ 63 <= qround q < 2 ^ 63).
  { assert (L1 : (inject_Z (-17179869184) <= inject_Z (qround q))%Q) by (change (inject_Z (-17179869184)) with (-17179869184)%Q; lra).
    assert (L2 : (inject_Z (qround q) <= inject_Z 17179869184)%Q) by (change (inject_Z 17179869184) with 17179869184%Q; lra).
    rewrite <- Zle_Qle in L1, L2. lia. }
  assert (F : fits true 64 (qround q) = true) by (unfold fits; change (64 - 1) with 63; lia). rewrite F. reflexivity.
Qed.

Lemma round_away t x q : away t x -> (Qabs (q - x) <= t)%Q -> qround q = qround x.
Proof.
  intros A E. destruct (qround_nearest x) as (N1 & _). destruct (qround_nearest q) as (N2 & _).
  pose proof (A (qround x)) as K1. pose proof (A (qround x - 1)) as K2. unfold Z.sub in K2. rewrite inject_Z_plus in K2. change (inject_Z (- (1))) with (-1)%Q in K2.
  apply Qabs_Qle_condition in N1, N2, E.
  assert (K1' : (x + t < inject_Z (qround x) + (1#2))%Q) by (destruct (Qabs_cases (x - (inject_Z (qround x) + (1#2)))) as [(L & M)|(L & M)]; rewrite M in K1; lra).
  assert (K2' : (inject_Z (qround x) - (1#2) < x - t)%Q) by (destruct (Qabs_cases (x - (inject_Z (qround x) + -1 + (1#2)))) as [(L & M)|(L & M)]; rewrite M in K2; lra).
  assert (L1 : (inject_Z (qround q) < inject_Z (qround x + 1))%Q) by (rewrite inject_Z_plus; change (inject_Z 1) with 1%Q; lra).
  assert (L2 : (inject_Z (qround x) < inject_Z (qround q + 1))%Q) by (rewrite inject_Z_plus; change (inject_Z 1) with 1%Q; lra).
  rewrite <- Zlt_Qlt in L1, L2. lia.
Qed.

(** The pixel chosen. *)
Lemma pixel_near ub z s0 s i h w r c x y : sizes_ok z -> near_inverse z s0 i -> within z s0 s r c -> same_sky s0 s r c x y -> 0 < h -> 0 < w ->
  let p := to_coadd_fl ub (fin_mat (jac_of s)) i (fin_pair (s_crow s, s_ccol s)) (fin_pair (s_crow s0, s_ccol s0)) h w r c in
  near_pixel (tolerance z) x h (fst p) /\ near_pixel (tolerance z) y w (snd p) /\ 0 <= fst p < h /\ 0 <= snd p < w.
Proof.
  intros Z NI W S Hh Hw. destruct (position z s0 s i r c x y Z NI W S) as (A & B & C & D). unfold to_coadd_fl.
  destruct (fl_position _ _ _ _ _ _) as [crow ccol]. cbn [fst snd] in *. pose proof (tolerance_small z Z) as T.
  destruct (pixel_of ub crow x _ A C (proj2 T)) as (q1 & E1 & ->). destruct (pixel_of ub ccol y _ B D (proj2 T)) as (q2 & E2 & ->).
  destruct (zclip_clamped h (qround q1) Hh) as [C1 C2]. destruct (zclip_clamped w (qround q2) Hw) as [C3 C4].
  assert (NP : forall q x, (Qabs (q - x) <= tolerance z)%Q -> (Qabs (x - inject_Z (qround q)) <= (1#2) + tolerance z)%Q).
  { intros q x' E. destruct (qround_nearest q) as (N & _). apply Qabs_Qle_condition in N, E. apply Qabs_Qle_condition. lra. }
  split; [exists (qround q1); split; [apply NP; exact E1|exact C1]|].
  split; [exists (qround q2); split; [apply NP; exact E2|exact C3]|]. split; assumption.
Qed.

Lemma det_of_inverse z s0 i : near_inverse z s0 i -> exists m, mat_inv (slot_mat s0) = Ok m.
Proof.
  destruct i as [[[i00 i01] i10] i11]. intros (a & b & c & d & E1 & E2 & E3 & E4 & _). unfold mat_inv, slot_mat.
  destruct (Qeq_bool _ 0) eqn:E; [|eexists; reflexivity]. exfalso. apply Qeq_bool_iff in E.
  assert (H : ((a * d - b * c) * (s_dudrow s0 * s_dvdcol s0 - s_dudcol s0 * s_dvdrow s0) == 1)%Q).
  { transitivity ((a * s_dudrow s0 + b * s_dvdrow s0) * (c * s_dudcol s0 + d * s_dvdcol s0) - (a * s_dudcol s0 + b * s_dvdcol s0) * (c * s_dudrow s0 + d * s_dvdrow s0))%Q; [ring|].
    rewrite E1, E2, E3, E4. ring. }
  rewrite E in H. lra.
Qed.

Lemma exact_position s0 s inv h w r c : mat_inv (slot_mat s0) = Ok inv ->
  exists x y, same_sky s0 s r c x y /\
    to_coadd (slot_mat s) inv (slot_cen s) (slot_cen s0) h w r c = (zclip (qround x) 0 (h - 1), zclip (qround y) 0 (w - 1)).
Proof.
  intros Hi. apply mat_inv_ok in Hi. destruct Hi as (Hd & ->). unfold to_coadd, slot_mat, slot_cen. cbn [fst snd].
  eexists _, _. split; [|reflexivity]. unfold same_sky, sky_u, sky_v. split; field; exact Hd.
Qed.

Lemma pixel_same ub z s0 s i inv box h w r c : sizes_ok z -> near_inverse z s0 i -> mat_inv (slot_mat s0) = Ok inv ->
  box_within z s0 s box -> no_ties z s0 s box -> 0 <= r < box -> 0 <= c < box ->
  to_coadd_fl ub (fin_mat (slot_mat s)) i (fin_pair (slot_cen s)) (fin_pair (slot_cen s0)) h w r c =
  to_coadd (slot_mat s) inv (slot_cen s) (slot_cen s0) h w r c.
Proof.
  intros Z NI Hi BW NT Hr Hc. destruct (exact_position s0 s inv h w r c Hi) as (x & y & S & ->).
  destruct (position z s0 s i r c x y Z NI (BW r c Hr Hc) S) as (A & B & C & D). unfold to_coadd_fl.
  change (slot_mat s) with (jac_of s). unfold slot_cen.
  destruct (fl_position _ _ _ _ _ _) as [crow ccol]. cbn [fst snd] in *. pose proof (tolerance_small z Z) as T.
  destruct (pixel_of ub crow x _ A C (proj2 T)) as (q1 & E1 & ->). destruct (pixel_of ub ccol y _ B D (proj2 T)) as (q2 & E2 & ->).
  destruct (NT r c x y Hr Hc S) as (T1 & T2). rewrite (round_away _ _ _ T1 E1), (round_away _ _ _ T2 E2). reflexivity.
Qed.

(** Accessors *)
Section Same.
Variables (ub : fl -> Z) (inv : mat -> res fmat) (f : medsfile) (iobj k : Z) (o : obj) (s0 s : slot) (z : sizes) (i : fmat).
Hypotheses (Hwf : file_wf f) (Hc : cutout_at f iobj k o s) (H0 : zget (o_slots o) 0 = Some s0) (HZ : sizes_ok z)
  (HI : inv (jac_of s0) = Ok i) (HN : near_inverse z s0 i) (HW : box_within z s0 s (o_box o)) (HT : no_ties z s0 s (o_box o)).

Lemma composite_same im seg restrict : square (o_box o) im -> 
  make_composite_fl ub inv f iobj k im seg restrict = make_composite_image f iobj k im seg restrict.
Proof.
  intros (I1 & I2 & I3). destruct Hc as (A & B & C). unfold make_composite_fl, make_composite_image.
  rewrite (rowcol_ok f iobj 0 o s0 A H0), (rowcol_ok f iobj k o s A C). cbn [bind].
  destruct (px_wrap _ _ _) as [segid|e]; [|reflexivity]. cbn [bind]. dif E0; [reflexivity|].
  rewrite (jacmat_ok f iobj k o s A C), (jacmat_ok f iobj 0 o s0 A H0). cbn [bind].
  change (slot_mat s0) with (jac_of s0) at 1. rewrite HI. destruct (det_of_inverse z s0 i HN) as (m & Hm). rewrite Hm.
  destruct I1 as (J1 & J2 & J3). apply MemoryLemmas3.tab2M_same; [assumption..|]. intros r c Hr Hcc.
  rewrite (pixel_same ub z s0 s i m (o_box o) (nr seg) (nc seg) r c HZ HN Hm HW HT) by lia. reflexivity.
Qed.
Lemma cweight_same restrict : get_cweight_cutout_fl ub inv f iobj k restrict = get_cweight_cutout f iobj k restrict.
Proof.
  unfold get_cweight_cutout_fl, get_cweight_cutout. destruct (get_cutout f iobj k TWeight) as [wt|e] eqn:E; [|reflexivity]. cbn [bind].
  destruct (get_cutout f iobj 0 TSeg) as [seg|e]; [|reflexivity]. cbn [bind]. apply composite_same.
  exact (proj1 (cutout_square f iobj k o s TWeight wt Hwf Hc E)).
Qed.
Lemma cseg_same : get_cseg_cutout_fl ub inv f iobj k = get_cseg_cutout f iobj k.
Proof.
  unfold get_cseg_cutout_fl, get_cseg_cutout. destruct (get_cutout f iobj k TSeg) as [sg|e] eqn:E; [|reflexivity]. cbn [bind].
  destruct (get_number f iobj) as [n|e]; [|reflexivity]. cbn [bind].
  destruct (get_cutout f iobj 0 TSeg) as [seg|e]; [|reflexivity]. cbn [bind]. apply composite_same.
  destruct (cutout_square f iobj k o s TSeg sg Hwf Hc E) as ((A & B & C) & _). unfold fill_with. split; [apply imap_ok; exact A|]. split; assumption.
Qed.
Lemma interpolate_same : interpolate_coadd_seg_fl ub inv f iobj k = interpolate_coadd_seg f iobj k.
Proof.
  unfold interpolate_coadd_seg_fl, interpolate_coadd_seg. destruct (get_cutout f iobj 0 TSeg) as [seg|e] eqn:E; [|reflexivity]. cbn [bind].
  assert (Hc0 : cutout_at f iobj 0 o s0) by (destruct Hc as (A & B & C); repeat split; try assumption; lia).
  destruct (cutout_square f iobj 0 o s0 TSeg seg Hwf Hc0 E) as (((S1 & S2 & S3) & S4 & S5) & _).
  dif E0; [reflexivity|]. destruct Hc as (A & B & C). unfold interpolate_coadd_seg_image.
  rewrite (jacmat_ok f iobj k o s A C), (rowcol_ok f iobj k o s A C), (jacmat_ok f iobj 0 o s0 A H0), (rowcol_ok f iobj 0 o s0 A H0), E. cbn [bind].
  change (slot_mat s0) with (jac_of s0) at 1. rewrite HI. destruct (det_of_inverse z s0 i HN) as (m & Hm). rewrite Hm. cbn [bind].
  apply MemoryLemmas3.tab2M_same; [assumption..|]. intros r c Hr Hcc.
  rewrite (pixel_same ub z s0 s i m (o_box o) (nr seg) (nc seg) r c HZ HN Hm HW HT) by lia. reflexivity.
Qed.
End Same.

(** The same frame: no ties, hence the map itself. *)
Lemma frame_no_ties z s0 s i box : near_inverse z s0 i -> same_frame s0 s -> (tolerance z < 1#2)%Q -> no_ties z s0 s box.
Proof.
  intros NI (F1 & F2 & F3 & F4 & F5 & F6) T r c x y Hr Hc (S1 & S2).
  destruct i as [[[i00 i01] i10] i11]. destruct NI as (a & b & c' & d & E1 & E2 & E3 & E4 & _).
  unfold sky_u, sky_v in S1, S2. rewrite F1, F2, F5, F6 in S1. rewrite F3, F4, F5, F6 in S2.
  set (X := (x - inject_Z r)%Q). set (Y := (y - inject_Z c)%Q).
  assert (K1 : (s_dudrow s0 * X + s_dudcol s0 * Y == 0)%Q) by (unfold X, Y; lra).
  assert (K2 : (s_dvdrow s0 * X + s_dvdcol s0 * Y == 0)%Q) by (unfold X, Y; lra).
  assert (X0 : (X == 0)%Q).
  { transitivity (X * (a * s_dudrow s0 + b * s_dvdrow s0) + Y * (a * s_dudcol s0 + b * s_dvdcol s0))%Q; [rewrite E1, E2; ring|].
    transitivity (a * (s_dudrow s0 * X + s_dudcol s0 * Y) + b * (s_dvdrow s0 * X + s_dvdcol s0 * Y))%Q; [ring|]. rewrite K1, K2. ring. }
  assert (Y0 : (Y == 0)%Q).
  { transitivity (X * (c' * s_dudrow s0 + d * s_dvdrow s0) + Y * (c' * s_dudcol s0 + d * s_dvdcol s0))%Q; [rewrite E3, E4; ring|].
    transitivity (c' * (s_dudrow s0 * X + s_dudcol s0 * Y) + d * (s_dvdrow s0 * X + s_dvdcol s0 * Y))%Q; [ring|]. rewrite K1, K2. ring. }
  assert (AW : forall n t, (t - inject_Z n == 0)%Q -> away (tolerance z) t).
  { intros n t E j. eapply Qlt_le_trans; [exact T|].
    assert (t - (inject_Z j + (1#2)) == inject_Z (n - j) - (1#2))%Q as -> by (unfold Z.sub; rewrite inject_Z_plus, inject_Z_opp; lra).
    destruct (Z_le_gt_dec (n - j) 0) as [L|L].
    - assert (inject_Z (n - j) <= 0)%Q by (change 0%Q with (inject_Z 0); rewrite <- Zle_Qle; exact L). rewrite Qabs_neg by lra. lra.
    - assert (1 <= inject_Z (n - j))%Q by (change 1%Q with (inject_Z 1); rewrite <- Zle_Qle; lia). rewrite Qabs_pos by lra. lra. }
  split; [exact (AW r x X0)|exact (AW c y Y0)].
Qed.

Lemma frame_same ub inv f iobj k o s0 s z i seg : file_wf f -> cutout_at f iobj k o s -> zget (o_slots o) 0 = Some s0 -> sizes_ok z ->
  inv (jac_of s0) = Ok i -> near_inverse z s0 i -> box_within z s0 s (o_box o) -> (tolerance z < 1#2)%Q -> same_frame s0 s ->
  get_cutout f iobj 0 TSeg = Ok seg -> interpolate_coadd_seg_fl ub inv f iobj k = Ok seg.
Proof.
  intros Hwf Hc H0 HZ HI HN HW T SF Hs.
  rewrite (interpolate_same ub inv f iobj k o s0 s z i Hwf Hc H0 HZ HI HN HW (frame_no_ties z s0 s i _ HN SF T)).
  destruct SF as (F1 & F2 & F3 & F4 & F5 & F6). apply (interpolation_same f iobj k o s0 s seg); try assumption.
  destruct (det_of_inverse z s0 i HN) as (m & Hm). apply mat_inv_ok in Hm. exact (proj1 Hm).
Qed.

(** The example files. *)
Lemma cx_wf box s0 s seg : 0 < box -> s_start s0 = 0 -> s_start s = box * box -> zlen seg = 2 * box * box -> file_wf (cx_file box s0 s seg).
Proof.
  intros Hb E0 E1 Hs. split.
  - cbn [m_cat cx_file]. constructor; [|constructor]. cbn. split; [|exact Hb]. unfold zlen. cbn [length]. lia.
  - intros t m. unfold cx_file. cbn [m_ext m_cat]. assert (Hw : zlen (repeat 1%Q (Z.to_nat (2 * box * box))) = 2 * box * box).
    { unfold zlen. rewrite repeat_length, Z2Nat.id; [reflexivity|nia]. }
    revert Hw. generalize (repeat 1%Q (Z.to_nat (2 * box * box))). intros w Hw E. assert (L : zlen m = 2 * box * box).
    { destruct t; cbn in E; try discriminate E; injection E as <-; [exact Hw|]. unfold zlen in *. rewrite map_length. exact Hs. }
    rewrite L. unfold cut_ranges, used_slots. cbn [flat_map o_ncut o_slots o_box app]. change (Z.to_nat 2) with 2%nat. cbn [firstn map app]. rewrite E0, E1. constructor; [nia|]. replace (0 + box * box) with (box * box) by lia.
    constructor; [nia|]. replace (box * box + box * box) with (2 * box * box) by lia. constructor.
Qed.

Ltac qle := match goal with |- (?a <= ?b)%Q => apply Qle_bool_iff; vm_compute; reflexivity end.
Lemma cx_inverse : exists i, best_inverse (jac_of cx_s0) = Ok i /\ near_inverse cx_sizes cx_s0 i.
Proof.
  eexists. split; [vm_compute; reflexivity|]. exists (/ cx_scale)%Q, 0%Q, 0%Q, (/ cx_scale)%Q.
  split; [vm_compute; reflexivity|]. split; [vm_compute; reflexivity|]. split; [vm_compute; reflexivity|]. split; [vm_compute; reflexivity|].
  split; [split; [qle|]; eexists; split; [reflexivity|qle]|]. split; [split; [qle|]; eexists; split; [reflexivity|qle]|].
  split; [split; [qle|]; eexists; split; [reflexivity|qle]|]. split; [qle|]; eexists; split; [reflexivity|qle].
Qed.
Lemma cx_sizes_ok : sizes_ok cx_sizes /\ (tolerance cx_sizes < 1#1000000000)%Q.
Proof. split; [split; [qle|]; split; [qle|]; split; [qle|]; split; [split; qle|qle]|]. apply Qnot_le_lt. intros H. apply Qle_bool_iff in H. vm_compute in H. discriminate H. Qed.
Lemma cx_within s : In s [cx_s0; cx_half; cx_quarter] -> box_within cx_sizes cx_s0 s 4.
Proof.
  intros Hs r c Hr Hc. assert (R : r = 0 \/ r = 1 \/ r = 2 \/ r = 3) by lia. assert (C : c = 0 \/ c = 1 \/ c = 2 \/ c = 3) by lia. clear Hr Hc.
  destruct Hs as [<-|[<-|[<-|[]]]]; destruct R as [->|[->|[->| ->]]]; destruct C as [->|[->|[->| ->]]];
  (split; [qle|]; split; [qle|]; split; [vm_compute; discriminate|]; split; [vm_compute; discriminate|]; split; [qle|]; split; [qle|]; split; [qle|]; split; [qle|]; split; qle).
Qed.
Lemma cx_doubles s : In s [cx_s0; cx_half; cx_quarter; cx_slot 0 0 0 cx_steep; cx_slot 4 0 0 cx_steep] -> slot_doubles s.
Proof.
  intros [<-|[<-|[<-|[<-|[<-|[]]]]]]; (split; [eexists; split; vm_compute; reflexivity|]; split; [eexists; split; vm_compute; reflexivity|];
  split; [eexists; split; vm_compute; reflexivity|]; split; [eexists; split; vm_compute; reflexivity|]; split; eexists; split; vm_compute; reflexivity).
Qed.
Definition at0 (m : res (img Q)) (r c : Z) : option Q := match m with Ok i => px i r c | Err _ => None end.
Lemma same_refuted : exists f iobj k o s0 s z i, file_wf f /\ cutout_at f iobj k o s /\ zget (o_slots o) 0 = Some s0 /\
  slot_doubles s0 /\ slot_doubles s /\ sizes_ok z /\ (tolerance z < 1#1000000000)%Q /\ box_within z s0 s (o_box o) /\ best_inverse (jac_of s0) = Ok i /\ near_inverse z s0 i /\
  forall ub, interpolate_coadd_seg_fl ub best_inverse f iobj k <> interpolate_coadd_seg f iobj k /\
    get_cweight_cutout_fl ub best_inverse f iobj k true <> get_cweight_cutout f iobj k true /\ get_cseg_cutout_fl ub best_inverse f iobj k <> get_cseg_cutout f iobj k.
Proof.
  destruct cx_inverse as (i & I1 & I2). exists cx_tie, 0, 1. eexists. exists cx_s0, cx_half, cx_sizes, i.
  split; [apply cx_wf; vm_compute; reflexivity|]. split; [split; [reflexivity|]; split; [cbn; lia|reflexivity]|]. split; [reflexivity|].
  split; [apply cx_doubles; cbn; tauto|]. split; [apply cx_doubles; cbn; tauto|]. split; [apply cx_sizes_ok|]. split; [apply cx_sizes_ok|].
  split; [apply cx_within; cbn; tauto|]. split; [exact I1|]. split; [exact I2|]. intros ub.
  split; [|split]; intros H; apply (f_equal (fun m => at0 m 0 1)) in H; vm_compute in H; discriminate H.
Qed.
Lemma frame_refuted : exists f iobj k o s0 s seg, file_wf f /\ cutout_at f iobj k o s /\ zget (o_slots o) 0 = Some s0 /\
  slot_doubles s0 /\ slot_doubles s /\ same_frame s0 s /\ ~ (jac_det s0 == 0)%Q /\ get_cutout f iobj 0 TSeg = Ok seg /\
  forall ub, interpolate_coadd_seg_fl ub best_inverse f iobj k <> Ok seg.
Proof.
  exists cx_narrow, 0, 1. do 3 eexists. assert (G : exists seg, get_cutout cx_narrow 0 0 TSeg = Ok seg) by (eexists; vm_compute; reflexivity).
  destruct G as (seg & G). exists seg. split; [apply cx_wf; vm_compute; reflexivity|]. split; [split; [reflexivity|]; split; [cbn; lia|reflexivity]|]. split; [reflexivity|].
  split; [apply cx_doubles; cbn; tauto|]. split; [apply cx_doubles; cbn; tauto|]. split; [repeat split; reflexivity|]. split; [vm_compute; discriminate|]. split; [exact G|].
  intros ub H. rewrite <- G in H. apply (f_equal (fun m => at0 m 1 1)) in H. vm_compute in H. discriminate H.
Qed.
Lemma cx_no_ties : no_ties cx_sizes cx_s0 cx_quarter 4.
Proof.
  intros r c x y Hr Hc (S1 & S2). unfold sky_u, sky_v, cx_s0, cx_quarter, cx_slot, cx_jac in S1, S2. cbn [s_dudrow s_dudcol s_dvdrow s_dvdcol s_crow s_ccol] in S1, S2.
  assert (X : (x == inject_Z r + (1#4))%Q) by (unfold cx_scale in S1; lra). assert (Y : (y == inject_Z c)%Q) by (unfold cx_scale in S2; lra).
  assert (T : (tolerance cx_sizes < 1#8)%Q) by (vm_compute; reflexivity).
  split; intros k; [rewrite X|rewrite Y]; (eapply Qlt_le_trans; [exact T|]).
  - setoid_replace (inject_Z r + (1 # 4) - (inject_Z k + (1 # 2)))%Q with (inject_Z (r - k) - (1#4))%Q by (unfold Z.sub; rewrite inject_Z_plus, inject_Z_opp; lra).
    assert (K : r - k <= 0 \/ 1 <= r - k) by lia. destruct K as [K|K]; rewrite Zle_Qle in K; change (inject_Z 0) with 0%Q in K; change (inject_Z 1) with 1%Q in K.
    + rewrite Qabs_neg; lra. 
    + rewrite Qabs_pos; lra.
  - setoid_replace (inject_Z c - (inject_Z k + (1 # 2)))%Q with (inject_Z (c - k) - (1#2))%Q by (unfold Z.sub; rewrite inject_Z_plus, inject_Z_opp; lra).
    assert (K : c - k <= 0 \/ 1 <= c - k) by lia. destruct K as [K|K]; rewrite Zle_Qle in K; change (inject_Z 0) with 0%Q in K; change (inject_Z 1) with 1%Q in K.
    + rewrite Qabs_neg; lra. 
    + rewrite Qabs_pos; lra.
Qed.

(** No inverse: weights and seg map of zeros, no interpolated map. *)
Lemma composite_none ub inv f iobj k o s0 s e im seg restrict segid : cutout_at f iobj k o s -> k <> 0 -> zget (o_slots o) 0 = Some s0 ->
  inv (jac_of s0) = Err e -> central_seg seg s0 segid -> (0 <= s_crow s0)%Q -> (0 <= s_ccol s0)%Q -> 0 <= nr im -> 0 <= nc im ->
  exists cw, make_composite_fl ub inv f iobj k im seg restrict = Ok cw /\ pixelwise (fun _ _ _ y => y = 0%Q) im cw.
Proof.
  intros (A & B & C) Hk H0 HI Hcen P1 P2 I2 I3. unfold make_composite_fl.
  rewrite (rowcol_ok f iobj 0 o s0 A H0), (rowcol_ok f iobj k o s A C). cbn [bind].
  unfold slot_cen. cbn [fst snd]. rewrite (central_wrap seg s0 segid Hcen P1 P2). cbn [bind]. dif E0; [lia|].
  rewrite (jacmat_ok f iobj k o s A C), (jacmat_ok f iobj 0 o s0 A H0). cbn [bind].
  change (slot_mat s0) with (jac_of s0). rewrite HI.
  destruct (tab2M_exists (nr im) (nc im) (fun _ _ => Ok 0%Q) I2 I3) as (cw & E); [intros; eexists; reflexivity|].
  exists cw. split; [exact E|]. apply tab2M_ok in E; [|assumption..]. destruct E as (O1 & O2 & O3 & O4).
  split; [exact O1|]. split; [exact O2|]. split; [exact O3|]. intros r c x y Hx Hy. destruct (px_Some_range _ _ _ _ Hx) as [Rr Rc].
  destruct (O4 r c Rr Rc) as (a & Ha & Hp). injection Ha as <-. congruence.
Qed.
Lemma no_inverse ub inv f iobj k o s0 s e wt sek seg segid : file_wf f -> cutout_at f iobj k o s -> k <> 0 -> zget (o_slots o) 0 = Some s0 ->
  inv (jac_of s0) = Err e -> get_cutout f iobj k TWeight = Ok wt -> get_cutout f iobj k TSeg = Ok sek -> get_cutout f iobj 0 TSeg = Ok seg ->
  m_number_col f = true -> central_seg seg s0 segid -> (0 <= s_crow s0)%Q -> (0 <= s_ccol s0)%Q ->
  (forall restrict, exists cw, get_cweight_cutout_fl ub inv f iobj k restrict = Ok cw /\ pixelwise (fun _ _ _ y => y = 0%Q) wt cw) /\
  (exists cs, get_cseg_cutout_fl ub inv f iobj k = Ok cs /\ pixelwise (fun _ _ _ y => y = 0%Q) sek cs) /\
  interpolate_coadd_seg_fl ub inv f iobj k = Err e.
Proof.
  intros Hwf Hc Hk H0 HI Hw Hs Hseg Hn Hcen P1 P2.
  destruct (cutout_square _ _ _ _ _ _ _ Hwf Hc Hw) as (((W1 & W2 & _) & _ & _) & _).
  destruct (cutout_square _ _ _ _ _ _ _ Hwf Hc Hs) as (((S1 & S2 & _) & _ & _) & _).
  split; [|split].
  - intros restrict. unfold get_cweight_cutout_fl. rewrite Hw, Hseg. cbn [bind]. eapply composite_none; eassumption.
  - unfold get_cseg_cutout_fl. rewrite Hs, Hseg. cbn [bind].
    rewrite (number_ok f iobj o (proj1 Hc) Hn). cbn [bind].
    destruct (composite_none ub inv f iobj k o s0 s e (fill_with sek (inject_Z (o_number o))) seg false segid Hc Hk H0 HI Hcen P1 P2 S1 S2) as (cs & E & X1 & X2 & X3 & X4).
    exists cs. split; [exact E|]. split; [exact X1|]. split; [exact X2|]. split; [exact X3|]. intros r c x y Hx Hy.
    eapply (X4 r c); [|exact Hy]. unfold fill_with. rewrite px_imap, Hx. reflexivity.
  - unfold interpolate_coadd_seg_fl. rewrite Hseg. cbn [bind]. dif E0; [lia|]. destruct Hc as (A & B & C).
    rewrite (jacmat_ok f iobj k o s A C), (rowcol_ok f iobj k o s A C), (jacmat_ok f iobj 0 o s0 A H0), (rowcol_ok f iobj 0 o s0 A H0). cbn [bind].
    change (slot_mat s0) with (jac_of s0) at 1. rewrite HI. reflexivity.
Qed.
