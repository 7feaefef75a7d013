(** get_uberseg of a file. *)
From Coq Require Import Lia ZifyBool ZifyNat Lqa Permutation Qabs.
From Verif Require Import Base BaseLemmas Img ImgLemmas Types Reader BoundsM MakerLayout Composite Fast3tree Uberseg
  SpecFile SpecComposite SpecUberseg ReadLemmas CompositeLemmas CompositeLemmas2 CompositeLemmas3 FtLemmas FtLemmas2
  UbersegLemmas UbersegLemmas2.
Open Scope Z_scope.

Lemma inputs_shape f iobj k o s wt seg : file_wf f -> cutout_at f iobj k o s ->
  get_cweight_cutout f iobj k false = Ok wt -> interpolate_coadd_seg f iobj k = Ok seg ->
  square (o_box o) wt /\ square (o_box o) seg /\ 0 < o_box o.
Proof.
  intros HW HC Hw Hs. pose proof HC as (C1 & C2 & C3). unfold get_cweight_cutout in Hw.
  destruct (get_cutout f iobj k TWeight) as [w|e] eqn:E1; cbn [bind] in Hw; [|discriminate].
  destruct (get_cutout f iobj 0 TSeg) as [s0i|e] eqn:E2; cbn [bind] in Hw; [|discriminate].
  destruct (cutout_square f iobj k o s TWeight w HW HC E1) as (S1 & Hb).
  destruct (zget_range_Some (o_slots o) 0) as (s0 & Hs0).
  { pose proof (zget_Some_range _ _ _ C3). lia. }
  assert (HC0 : cutout_at f iobj 0 o s0) by (split; [exact C1|split; [lia|exact Hs0]]).
  destruct (cutout_square f iobj 0 o s0 TSeg s0i HW HC0 E2) as (S2 & _).
  split; [|split; [eapply interpolate_square; [exact E2|exact S2|exact Hs]|exact Hb]].
  destruct S1 as (A1 & A2 & A3). apply composite_shape in Hw; [|exact A1]. destruct Hw as (B1 & B2 & B3).
  split; [exact B1|]. split; congruence.
Qed.

Lemma number_col_ok f iobj o : zget (m_cat f) iobj = Some o -> m_number_col f = true -> number_col f iobj = Ok (o_number o).
Proof.
  intros H1 H2. unfold number_col. rewrite H2. pose proof (zget_Some_range _ _ _ H1).
  rewrite (proj2 (py_index_ok_nonneg (m_cat f) iobj o ltac:(lia)) H1). reflexivity.
Qed.

Section Get.
  Context (f : medsfile) (iobj k : Z) (o : obj) (s : slot) (wt seg : img Q)
    (HW : file_wf f) (HN : m_number_col f = true) (HC : cutout_at f iobj k o s)
    (Hw : get_cweight_cutout f iobj k false = Ok wt) (Hs : interpolate_coadd_seg f iobj k = Ok seg).

  Lemma get_shortcut fuel fast : two_values seg -> get_uberseg fuel f iobj k fast = Ok wt.
  Proof using HC HW Hs Hw.
    intros H. destruct (inputs_shape f iobj k o s wt seg HW HC Hw Hs) as (_ & (S1 & _) & _).
    apply two_values_count in H; [|exact S1]. unfold get_uberseg. rewrite Hw, Hs. cbn [bind]. rewrite H. reflexivity.
  Qed.

  Lemma get_full fuel fast : ~ two_values seg -> get_uberseg fuel f iobj k fast =
    if fast then uberseg_tree fuel (imap qtrunc seg) wt (o_number o) (obj_inds seg)
    else uberseg_slow seg wt (o_number o) (obj_inds seg).
  Proof using HC HN HW Hs Hw.
    intros H. destruct (inputs_shape f iobj k o s wt seg HW HC Hw Hs) as (_ & (S1 & _) & _).
    unfold get_uberseg. rewrite Hw, Hs. cbn [bind].
    destruct (zlen (quniq (dat seg)) =? 2) eqn:E; [exfalso; apply H; apply two_values_count; assumption|].
    cbv zeta. rewrite (number_col_ok f iobj o (proj1 HC) HN). reflexivity.
  Qed.

  Lemma get_slow fuel r0 c0 v0 : ~ two_values seg -> nonsky seg r0 c0 v0 ->
    exists res, get_uberseg fuel f iobj k false = Ok res /\
      pixelwise (fun r c x y => exists r' c' v, first_nearest seg r c r' c' v /\ kept_if (o_number o) v x y) wt res.
  Proof using HC HN HW Hs Hw.
    intros H HN0. destruct (inputs_shape f iobj k o s wt seg HW HC Hw Hs) as ((W1 & W2 & W3) & (S1 & S2 & S3) & _).
    rewrite get_full by exact H. eapply slow_ok; [exact S1|exact W1|split; congruence|exact HN0].
  Qed.

  (* two different object pixels, from more than two values or from no sky *)
  Lemma two_points r0 c0 v0 : ~ two_values seg -> nonsky seg r0 c0 v0 ->
    (forall r c v, px seg r c = Some v -> ~ (v == 0)%Q) \/
    (exists r1 c1 v1 r2 c2 v2, nonsky seg r1 c1 v1 /\ nonsky seg r2 c2 v2 /\ (r1, c1) <> (r2, c2)).
  Proof using HC HW Hs Hw.
    intros H H0. destruct (inputs_shape f iobj k o s wt seg HW HC Hw Hs) as (_ & (S1 & _) & _).
    destruct (obj_inds seg) as [|p0 [|p1 l]] eqn:E.
    - exfalso. assert (I : In (r0, c0) (obj_inds seg)) by (apply obj_inds_In; [exact S1|exists v0; exact H0]). rewrite E in I. destruct I.
    - destruct p0 as [r1 c1]. assert (HO : forall r c v, nonsky seg r c v -> (r, c) = (r1, c1)).
      { intros r c v Hv. assert (I : In (r, c) (obj_inds seg)) by (apply obj_inds_In; [exact S1|exists v; exact Hv]).
        rewrite E in I. destruct I as [I|[]]. symmetry; exact I. }
      left. intros r c v Hv C. apply H. exists 0%Q, v0. destruct H0 as (H0 & H0').
      split; [intros D; apply H0'; symmetry; exact D|]. split; [exists r, c, v; split; assumption|].
      split; [exists r0, c0, v0; split; [exact H0|reflexivity]|]. intros r2 c2 v2 Hv2.
      destruct (Qeq_dec v2 0) as [D|D]; [left; exact D|]. right.
      pose proof (HO r2 c2 v2 (conj Hv2 D)) as E2. pose proof (HO r0 c0 v0 (conj H0 H0')) as E3.
      inversion E2; subst. inversion E3; subst. rewrite Hv2 in H0. inversion H0. reflexivity.
    - right. destruct p0 as [r1 c1], p1 as [r2 c2].
      assert (I1 : In (r1, c1) (obj_inds seg)) by (rewrite E; left; reflexivity).
      assert (I2 : In (r2, c2) (obj_inds seg)) by (rewrite E; right; left; reflexivity).
      apply obj_inds_In in I1; [|exact S1]. apply obj_inds_In in I2; [|exact S1]. destruct I1 as (v1 & I1), I2 as (v2 & I2).
      exists r1, c1, v1, r2, c2, v2. split; [exact I1|]. split; [exact I2|].
      pose proof (obj_inds_sorted seg [] (r1, c1) ((r2, c2) :: l) S1 E (r2, c2) (or_introl eq_refl)) as B.
      unfold before in B; cbn in B. intros C; inversion C; lia.
  Qed.

  Lemma get_fast r0 c0 v0 : ~ two_values seg -> nonsky seg r0 c0 v0 -> integral seg -> nonnegative seg -> o_number o <> 0 ->
    exists N res, (forall fuel, (N <= fuel)%nat -> get_uberseg fuel f iobj k true = Ok res) /\
      pixelwise (fun r c x y => exists r' c' v, nearest seg r c r' c' v /\ kept_if (o_number o) v x y) wt res.
  Proof using HC HN HW Hs Hw.
    intros H H0 HI HP Hn. destruct (inputs_shape f iobj k o s wt seg HW HC Hw Hs) as ((W1 & W2 & W3) & (S1 & S2 & S3) & _).
    destruct (tree_ok seg wt (o_number o) S1 W1) as (N & res & HR & HX); [split; congruence|exact HI|exact HP|exact Hn|
      eapply two_points; [exact H|exact H0]|].
    exists N, res. split; [|exact HX]. intros fuel Hf. rewrite get_full by exact H. apply HR. exact Hf.
  Qed.

  Lemma get_fast_slow r0 c0 v0 : ~ two_values seg -> nonsky seg r0 c0 v0 -> integral seg -> nonnegative seg -> o_number o <> 0 ->
    exists N rf rs, (forall fuel, (N <= fuel)%nat -> get_uberseg fuel f iobj k true = Ok rf) /\
      (forall fuel, get_uberseg fuel f iobj k false = Ok rs) /\
      nr rf = nr rs /\ nc rf = nc rs /\
      forall r c, (forall r1 c1 v1 r2 c2 v2, nearest seg r c r1 c1 v1 -> nearest seg r c r2 c2 v2 -> (v1 == v2)%Q) ->
        px rf r c = px rs r c.
  Proof using HC HN HW Hs Hw.
    intros H H0 HI HP Hn. destruct (get_fast r0 c0 v0 H H0 HI HP Hn) as (N & rf & HF & F1 & F2 & F3 & F4).
    destruct (get_slow O r0 c0 v0 H H0) as (rs & HS & G1 & G2 & G3 & G4).
    exists N, rf, rs. split; [exact HF|]. split; [|split; [congruence|split; [congruence|]]].
    { intros fuel. rewrite get_full in * by exact H. exact HS. }
    intros r c HU. destruct (px rf r c) as [y|] eqn:E1.
    - destruct (px_Some_range _ _ _ _ E1) as [R1 R2]. destruct (px_in rs r c G1) as (y' & Hy'); [lia|lia|].
      destruct (inputs_shape f iobj k o s wt seg HW HC Hw Hs) as ((W1 & _) & _ & _).
      destruct (px_in wt r c W1) as (x & Hx); [lia|lia|].
      destruct (F4 r c x y Hx E1) as (r1 & c1 & v1 & N1 & K1 & K2).
      destruct (G4 r c x y' Hx Hy') as (r2 & c2 & v2 & (N2 & _) & K3 & K4).
      pose proof (HU _ _ _ _ _ _ N1 N2) as EV. rewrite Hy'. f_equal.
      destruct (Qeq_dec v1 (inject_Z (o_number o))) as [D|D].
      + rewrite K1 by exact D. rewrite K3; [reflexivity|]. rewrite <- EV. exact D.
      + rewrite K2 by exact D. rewrite K4; [reflexivity|]. rewrite <- EV. exact D.
    - destruct (px rs r c) as [y|] eqn:E2; [|reflexivity]. exfalso. destruct (px_Some_range _ _ _ _ E2) as [R1 R2].
      destruct (px_in rf r c F1) as (y' & Hy'); [lia|lia|]. congruence.
  Qed.

  Lemma get_all_sky : (forall r c v, px seg r c = Some v -> (v == 0)%Q) -> o_number o <> 0 ->
    forall fuel, get_uberseg fuel f iobj k false = Err ValueError /\ get_uberseg fuel f iobj k true = Err OutOfFuel.
  Proof using HC HN HW Hs Hw.
    intros HA Hn fuel. destruct (inputs_shape f iobj k o s wt seg HW HC Hw Hs) as ((W1 & W2 & W3) & (S1 & S2 & S3) & Hb).
    assert (NT : ~ two_values seg).
    { intros (a & b & Hab & (r1 & c1 & v1 & P1 & Q1) & (r2 & c2 & v2 & P2 & Q2) & _). apply Hab.
      rewrite <- Q1, <- Q2, (HA _ _ _ P1), (HA _ _ _ P2). reflexivity. }
    rewrite !get_full by exact NT. split.
    - apply slow_empty; [exact S1|lia|lia|]. intros r c v (H1 & H2). apply H2. eapply HA; exact H1.
    - apply tree_all_sky; [exact S1|exact W1|split; congruence|lia|lia|exact Hn|exact HA].
  Qed.

  Lemma get_returns r0 c0 v0 : nonsky seg r0 c0 v0 -> integral seg -> nonnegative seg -> o_number o <> 0 ->
    exists N rf rs, (forall fuel, (N <= fuel)%nat -> get_uberseg fuel f iobj k true = Ok rf) /\
      (forall fuel, get_uberseg fuel f iobj k false = Ok rs).
  Proof using HC HN HW Hs Hw.
    intros H0 HI HP Hn. destruct (zlen (quniq (dat seg)) =? 2) eqn:E.
    - exists O, wt, wt. assert (T : two_values seg).
      { apply two_values_count; [|exact E]. destruct (inputs_shape f iobj k o s wt seg HW HC Hw Hs) as (_ & (S1 & _) & _). exact S1. }
      split; intros; apply get_shortcut; exact T.
    - destruct (get_fast_slow r0 c0 v0) as (N & rf & rs & A & B & _); try assumption; [|exists N, rf, rs; split; assumption].
      intros T. apply two_values_count in T; [congruence|].
      destruct (inputs_shape f iobj k o s wt seg HW HC Hw Hs) as (_ & (S1 & _) & _). exact S1.
  Qed.
End Get.

(** * The shortcut *)
Lemma nearest_int_unique x x' i i' : (x == x')%Q -> nearest_int x i -> nearest_int x' i' -> i = i'.
Proof.
  intros E (A1 & A2) (B1 & B2). apply Qabs_Qle_condition in A1. apply Qabs_Qle_condition in B1.
  destruct (Z.eq_dec i i') as [|N]; [assumption|exfalso].
  assert (forall a b : Z, (inject_Z a - inject_Z b <= 1)%Q -> a - b <= 1).
  { intros a b H. assert (inject_Z (a - b) <= inject_Z 1)%Q; [|rewrite <- Zle_Qle in *; assumption].
    unfold Z.sub. rewrite inject_Z_plus, inject_Z_opp. change (inject_Z 1) with 1%Q. lra. }
  assert (H1 : i - i' <= 1) by (apply H; lra). assert (H2 : i' - i <= 1) by (apply H; lra).
  assert (EV : Z.even i = true /\ Z.even i' = true).
  { assert (i = i' + 1 \/ i' = i + 1) as [D|D] by lia; subst; rewrite inject_Z_plus in *; change (inject_Z 1) with 1%Q in *.
    - split; [apply A2|apply B2].
      + rewrite Qabs_neg by lra. lra.
      + rewrite Qabs_pos by lra. lra.
    - split; [apply A2|apply B2].
      + rewrite Qabs_pos by lra. lra.
      + rewrite Qabs_neg by lra. lra. }
  destruct EV as (E1 & E2). apply Z.even_spec in E1. apply Z.even_spec in E2. destruct E1, E2. lia.
Qed.

Lemma same_sky_unique s0 s r c x y x' y' : ~ (jac_det s0 == 0)%Q -> same_sky s0 s r c x y -> same_sky s0 s r c x' y' ->
  (x == x')%Q /\ (y == y')%Q.
Proof.
  intros Hd (A1 & A2) (B1 & B2). unfold sky_u, sky_v, jac_det in *.
  assert (C1 : (s_dudrow s0 * (x - x') + s_dudcol s0 * (y - y') == 0)%Q) by lra.
  assert (C2 : (s_dvdrow s0 * (x - x') + s_dvdcol s0 * (y - y') == 0)%Q) by lra.
  assert (D1 : ((s_dudrow s0 * s_dvdcol s0 - s_dudcol s0 * s_dvdrow s0) * (x - x') == 0)%Q).
  { setoid_replace ((s_dudrow s0 * s_dvdcol s0 - s_dudcol s0 * s_dvdrow s0) * (x - x'))%Q with
      (s_dvdcol s0 * (s_dudrow s0 * (x - x') + s_dudcol s0 * (y - y')) - s_dudcol s0 * (s_dvdrow s0 * (x - x') + s_dvdcol s0 * (y - y')))%Q by ring.
    rewrite C1, C2. ring. }
  assert (D2 : ((s_dudrow s0 * s_dvdcol s0 - s_dudcol s0 * s_dvdrow s0) * (y - y') == 0)%Q).
  { setoid_replace ((s_dudrow s0 * s_dvdcol s0 - s_dudcol s0 * s_dvdrow s0) * (y - y'))%Q with
      (s_dudrow s0 * (s_dvdrow s0 * (x - x') + s_dvdcol s0 * (y - y')) - s_dvdrow s0 * (s_dudrow s0 * (x - x') + s_dudcol s0 * (y - y')))%Q by ring.
    rewrite C1, C2. ring. }
  apply Qmult_integral in D1. apply Qmult_integral in D2. destruct D1 as [D1|D1]; [contradiction|]. destruct D2 as [D2|D2]; [contradiction|].
  split; lra.
Qed.

Lemma seen_unique seg s0 s k r c v v' : k = 0 \/ ~ (jac_det s0 == 0)%Q -> seen seg s0 s k r c v -> seen seg s0 s k r c v' -> v = v'.
Proof.
  unfold seen. intros Hd. destruct (k =? 0) eqn:E; [congruence|].
  intros (x & y & i & j & i1 & j1 & A1 & A2 & A3 & A4 & A5 & A6) (x' & y' & i' & j' & i1' & j1' & B1 & B2 & B3 & B4 & B5 & B6).
  destruct Hd as [Hd|Hd]; [lia|]. destruct (same_sky_unique _ _ _ _ _ _ _ _ Hd A1 B1) as (E1 & E2).
  pose proof (nearest_int_unique _ _ _ _ E1 A2 B2). pose proof (nearest_int_unique _ _ _ _ E2 A3 B3). subst i' j'.
  unfold clamped in *. assert (i1 = i1') by lia. assert (j1 = j1') by lia. subst. congruence.
Qed.

Lemma img_full (im im' : img Q) : img_ok im -> pixelwise (fun _ _ x y => y = x) im im' -> im' = im.
Proof.
  intros H (H1 & H2 & H3 & H4). apply img_ext; try assumption. intros r c Hr Hc.
  destruct (px_in im' r c H1 Hr Hc) as (y & Hy). destruct (px_in im r c H) as (x & Hx); [lia|lia|].
  rewrite Hx, Hy. f_equal. apply (H4 r c x y); assumption.
Qed.

(* with two values, the shortcut obeys the rule of the full algorithm *)
Lemma shortcut_rule f iobj k o s0 s seg0 seg wt0 wt segid fuel fast : file_wf f ->
  cutout_at f iobj k o s -> zget (o_slots o) 0 = Some s0 -> k = 0 \/ ~ (jac_det s0 == 0)%Q ->
  get_cutout f iobj k TWeight = Ok wt0 -> get_cutout f iobj 0 TSeg = Ok seg0 ->
  central_seg seg0 s0 segid -> (0 <= s_crow s0)%Q -> (0 <= s_ccol s0)%Q ->
  get_cweight_cutout f iobj k false = Ok wt -> interpolate_coadd_seg f iobj k = Ok seg ->
  two_values seg -> o_number o <> 0 ->
  (exists r c v, px seg r c = Some v /\ (v == inject_Z (o_number o))%Q) ->
  (exists r c v, px seg r c = Some v /\ (v == 0)%Q) \/ (segid == inject_Z (o_number o))%Q ->
  get_uberseg fuel f iobj k fast = Ok wt /\
  pixelwise (fun r c x y => forall r' c' v, nearest seg r c r' c' v -> kept_if (o_number o) v x y) wt wt.
Proof.
  intros HW HC H0 Hd Hw0 Hs0 Hcen Hr0 Hc0 Hw Hs HT Hn (ra & ca & va & Ha & Ea) Hcase.
  split; [eapply get_shortcut; eassumption|].
  destruct (inputs_shape f iobj k o s wt seg HW HC Hw Hs) as ((W1 & W2 & W3) & (S1 & S2 & S3) & Hb).
  split; [exact W1|]. split; [reflexivity|]. split; [reflexivity|].
  intros r c x y Hx Hy. rewrite Hx in Hy. inversion Hy; subst y; clear Hy.
  intros r' c' v (Hv & Hmin). split; [reflexivity|]. intros Hne.
  destruct HT as (a & b & Hab & _ & _ & Hall).
  destruct Hcase as [(rz & cz & vz & Hz & Ez)|Hseg].
  - (* the values are 0 and the number *)
    exfalso. destruct Hv as (Hv & Hv0). pose proof (Hall _ _ _ Ha) as A. pose proof (Hall _ _ _ Hz) as B. pose proof (Hall _ _ _ Hv) as C.
    rewrite Ea in A. rewrite Ez in B. assert (N0 : ~ (inject_Z (o_number o) == 0)%Q) by (unfold Qeq; cbn; lia).
    destruct A as [A|A], B as [B|B], C as [C|C]; try (apply N0; rewrite A, <- B; reflexivity);
      try (apply Hne; rewrite C, <- A; reflexivity); try (apply Hv0; rewrite C, <- B; reflexivity).
  - destruct (Qeq_dec v 0) as [Dv|Dv]; [exfalso; exact (proj2 Hv Dv)|].
    (* the pixel itself *)
    destruct (px_Some_range _ _ _ _ Hx) as [Rr Rc]. destruct (px_in seg r c S1) as (u & Hu); [lia|lia|].
    assert (Hu0 : ~ (u == 0)%Q).
    { intros D. pose proof (Hall _ _ _ Ha) as A. pose proof (Hall _ _ _ Hu) as B. pose proof (Hall _ _ _ (proj1 Hv)) as C.
      rewrite Ea in A. rewrite D in B. assert (N0 : ~ (inject_Z (o_number o) == 0)%Q) by (unfold Qeq; cbn; lia).
      destruct A as [A|A], B as [B|B], C as [C|C]; try (apply N0; rewrite A, <- B; reflexivity);
        try (apply Hne; rewrite C, <- A; reflexivity); try (apply Dv; rewrite C, <- B; reflexivity). }
    destruct (nearest_self seg r c u (conj Hu Hu0) r' c' v (conj Hv Hmin)) as (-> & -> & ->).
    (* it is seen as another object *)
    destruct (cweight_semantics f iobj k o s0 s wt0 seg0 false segid HW HC H0 Hw0 Hs0 Hcen Hr0 Hc0) as (cw & Hcw & P).
    rewrite Hw in Hcw. inversion Hcw; subst cw. destruct P as (P1 & P2 & P3 & P4).
    destruct (interpolation_semantics f iobj k o s0 s seg0 HW HC H0 Hs0 Hd) as (im & Him & I1 & I2 & I3 & I4).
    rewrite Hs in Him. inversion Him; subst im.
    destruct (cutout_square f iobj k o s TWeight wt0 HW HC Hw0) as ((Q1 & Q2 & Q3) & _).
    destruct (px_in wt0 r c Q1) as (x0 & Hx0); [lia|lia|].
    assert (HC0 : cutout_at f iobj 0 o s0).
    { destruct HC as (C1 & C2 & C3). split; [exact C1|]. split; [lia|exact H0]. }
    destruct (cutout_square f iobj 0 o s0 TSeg seg0 HW HC0 Hs0) as ((T1 & T2 & T3) & _).
    destruct (px_in seg0 r c T1) as (t0 & Ht0); [lia|lia|].
    pose proof (I4 r c t0 u Ht0 Hu) as Hseen. specialize (P4 r c x0 x Hx0 Hx).
    destruct P4 as [(P4 & P4' & P5)|(P4 & w & P5 & P6 & P7)].
    + exact P5.
    + pose proof (seen_unique _ _ _ _ _ _ _ _ Hd Hseen P5) as <-. apply P6.
      split; [rewrite Hseg; exact Hne|right; exact Hu0].
Qed.
