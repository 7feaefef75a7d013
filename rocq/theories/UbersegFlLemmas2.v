(** The tree built in single precision, and uberseg_tree. *)
From Coq Require Import Lia ZifyBool ZifyNat Lqa Permutation Qabs.
From Verif Require Import Base BaseLemmas Img ImgLemmas Types Reader BoundsM MakerLayout Composite Fast3tree Uberseg Single UbersegFl
  SpecFile SpecComposite SpecUberseg ReadLemmas CompositeLemmas CompositeLemmas2 CompositeLemmas3 FtLemmas FtLemmas2
  UbersegLemmas UbersegLemmas2 UbersegLemmas3 SingleLemmas UbersegFlLemmas.
Open Scope Z_scope.

Local Opaque f32 f64 sqrt64.

(** * Building *)
Lemma sort_loop_compat d lim lim' fuel : (lim == lim')%Q -> forall p i j, sort_loop fuel d lim p i j = sort_loop fuel d lim' p i j.
Proof.
  intros E. induction fuel as [|fuel IH]; intros p i j; cbn [sort_loop].
  - destruct (i <? j); [reflexivity|]. destruct (i =? j); [|reflexivity]. destruct (cget p i) as [x|]; [|reflexivity]. cbn [bind].
    rewrite (qle_compat _ _ _ _ (Qeq_refl (coord d x)) E). reflexivity.
  - destruct (i <? j).
    + destruct (cget p i) as [x|]; [|reflexivity]. cbn [bind]. rewrite (qltb_compat _ _ _ _ E (Qeq_refl (coord d x))).
      destruct (qltb lim' (coord d x)); [|apply IH]. destruct (cget p j); [|reflexivity]. cbn [bind]. apply IH.
    + destruct (i =? j); [|reflexivity]. destruct (cget p i) as [x|]; [|reflexivity]. cbn [bind].
      rewrite (qle_compat _ _ _ _ (Qeq_refl (coord d x)) E). reflexivity.
Qed.

Lemma largest_dim_f_ok h w b : small h w -> box_in h w b -> find_largest_dim_f b = find_largest_dim b.
Proof.
  intros S (B1 & B2 & B3 & B4). destruct (small_sides h w S) as (Sh & Sw & _).
  unfold find_largest_dim_f, find_largest_dim. cbv zeta.
  rewrite (qltb_compat _ _ _ _ (proj1 (fsub_ok w _ _ Sw B4 B3)) (proj1 (fsub_ok h _ _ Sh B2 B1))). reflexivity.
Qed.

Lemma middle_ok n a b : n <= 2 ^ 12 -> iz n a -> iz n b ->
  (f32 (f64 ((1#2) * fadd a b)) == (1#2) * (a + b))%Q /\ (f64 ((1#2) * fadd a b) == (1#2) * (a + b))%Q.
Proof.
  intros Hn (x & Ex & Rx) (y & Ey & Ry). assert (Hz : 0 <= x + y < 2 ^ 24) by lia.
  pose proof (fadd_ok a b x y Ex Ey ltac:(lia)) as E.
  assert (E1 : (f64 ((1#2) * fadd a b) == inject_Z (x + y) * (1#2))%Q) by (apply f64_half; [rewrite E; ring|exact Hz]).
  assert (E0 : (inject_Z (x + y) * (1#2) == (1#2) * (a + b))%Q) by (rewrite Ex, Ey, inject_Z_plus; ring).
  split; [rewrite <- E0; apply f32_half; [exact E1|exact Hz]|rewrite <- E0; exact E1].
Qed.

Lemma sort_dim_pos_f_ok h w b p : small h w -> box_in h w b -> sort_dim_pos_f b p = sort_dim_pos b p.
Proof.
  intros S B. pose proof B as (B1 & B2 & B3 & B4). destruct (small_sides h w S) as (Sh & Sw & _).
  unfold sort_dim_pos_f, sort_dim_pos. rewrite (largest_dim_f_ok h w b S B). cbv zeta.
  destruct (Qeq_bool _ _); [reflexivity|]. apply sort_loop_compat.
  destruct (find_largest_dim b); cbn [lo hi]; [apply (middle_ok w)|apply (middle_ok h)]; assumption.
Qed.

Lemma split_node_f_ok h w : small h w -> forall fuel b p, p <> [] -> bounding b p -> pts_in h w p ->
  split_node_f fuel b p = split_node fuel b p.
Proof.
  intros S. induction fuel as [|fuel IH]; intros b p Hne Hb HP; [reflexivity|]. cbn [split_node_f split_node].
  pose proof (box_in_bounding h w b p Hb HP) as BI. rewrite (sort_dim_pos_f_ok h w b p S BI), (largest_dim_f_ok h w b S BI).
  destruct (sort_dim_pos_ok b p Hne Hb) as [(p' & E & ->)|(p' & k & E & S2 & S3 & _)]; rewrite E; cbn [bind].
  - rewrite Z.eqb_refl. reflexivity.
  - assert (HLp : zlen p' = zlen p) by (unfold zlen; rewrite (Permutation_length S2); reflexivity).
    replace (k =? zlen p') with false by lia. replace (k =? 0) with false by lia. cbn [orb].
    set (left := firstn (Z.to_nat k) p') in *. set (right := skipn (Z.to_nat k) p') in *.
    assert (HC : left ++ right = p') by apply firstn_skipn.
    assert (Ll : length left = Z.to_nat k) by (unfold left; apply firstn_length_le; unfold zlen in *; lia).
    assert (Lr : length right = (length p' - Z.to_nat k)%nat) by (unfold right; apply skipn_length).
    assert (Hpn : forall q : list pt, q <> [] -> exists bq, find_minmax q = Ok bq /\ bounding bq q).
    { intros [|x q] Hq; [congruence|]. apply find_minmax_ok. }
    assert (Nl : left <> []) by (intros C; rewrite C in Ll; cbn in Ll; lia).
    assert (Nr : right <> []) by (intros C; rewrite C in Lr; cbn in Lr; unfold zlen in *; lia).
    destruct (Hpn left Nl) as (lb & Elb & Blb). destruct (Hpn right Nr) as (rb & Erb & Brb).
    rewrite Elb, Erb. cbn [bind].
    assert (Pl : pts_in h w left) by (intros x Hx; apply HP; eapply Permutation_in; [exact S2|]; rewrite <- HC; apply in_app_iff; left; exact Hx).
    assert (Pr : pts_in h w right) by (intros x Hx; apply HP; eapply Permutation_in; [exact S2|]; rewrite <- HC; apply in_app_iff; right; exact Hx).
    rewrite (IH lb left Nl Blb Pl), (IH rb right Nr Brb Pr). reflexivity.
Qed.

Lemma build_f_ok h w p : small h w -> pts_in h w p -> fast3tree_build_f p = fast3tree_build p.
Proof.
  intros S HP. unfold fast3tree_build_f, fast3tree_build. destruct p as [|x p]; [reflexivity|].
  destruct (find_minmax_ok x p) as (b & Eb & Bb). rewrite Eb. cbn [bind].
  destruct (points_per_leaf <? zlen (x :: p)); [|reflexivity]. apply (split_node_f_ok h w); [exact S|discriminate|exact Bb|exact HP].
Qed.

(** * The points and positions *)
Lemma f32_pix n r : n <= 2 ^ 12 -> 0 <= r < n -> (f32 (inject_Z r) == inject_Z r)%Q /\ iz n (f32 (inject_Z r)).
Proof.
  intros Hn Hr. assert (E : (f32 (inject_Z r) == inject_Z r)%Q) by (apply f32_int; [reflexivity|lia]).
  split; [exact E|]. exists r. split; [exact E|exact Hr].
Qed.

Lemma tree_points_f_ok seg : img_ok seg -> integral seg ->
  exists pts, tree_points_f (imap qtrunc seg) (obj_inds seg) = Ok pts /\
    (forall p, In p pts -> exists r c v z, nonsky seg r c v /\ (v == inject_Z z)%Q /\
       p_0 p = f32 (inject_Z r) /\ p_1 p = f32 (inject_Z c) /\ p_seg p = z) /\
    (forall r c v, nonsky seg r c v -> exists p, In p pts /\ p_0 p = f32 (inject_Z r) /\ p_1 p = f32 (inject_Z c)).
Proof.
  intros Hok Hint. unfold tree_points_f.
  set (g := fun k => match zget (obj_inds seg) k with
                 | Some p => mkPt k (match px (imap qtrunc seg) (fst p) (snd p) with Some z => z | None => 0 end)
                               (f32 (inject_Z (fst p))) (f32 (inject_Z (snd p)))
                 | None => mkPt 0 0 0 0 end).
  assert (HG : forall k r c, zget (obj_inds seg) k = Some (r, c) -> exists v z, nonsky seg r c v /\ (v == inject_Z z)%Q /\
      px (imap qtrunc seg) r c = Some z).
  { intros k r c Hk. apply zget_In in Hk. apply obj_inds_In in Hk; [|exact Hok]. destruct Hk as (v & Hv).
    destruct (Hint r c v (proj1 Hv)) as (z & Hz). exists v, z. split; [exact Hv|]. split; [exact Hz|].
    rewrite px_imap, (proj1 Hv). cbn. rewrite (qtrunc_int v z Hz). reflexivity. }
  exists (map g (zrange (zlen (obj_inds seg)))). split; [|split].
  - apply mapM_map_ok. intros k Hk. apply In_zrange in Hk. unfold g.
    destruct (zget_range_Some (obj_inds seg) k Hk) as ((r & c) & E). rewrite E. cbn [fst snd].
    destruct (HG k r c E) as (v & z & _ & _ & Hz). unfold px_res. rewrite Hz. reflexivity.
  - intros p Hp. apply in_map_iff in Hp. destruct Hp as (k & <- & Hk). apply In_zrange in Hk. unfold g.
    destruct (zget_range_Some (obj_inds seg) k Hk) as ((r & c) & E). rewrite E. cbn [fst snd].
    destruct (HG k r c E) as (v & z & Hv & Hz1 & Hz). rewrite Hz. exists r, c, v, z. cbn. auto.
  - intros r c v Hn. assert (I : In (r, c) (obj_inds seg)) by (apply obj_inds_In; [exact Hok|exists v; exact Hn]).
    apply In_zget in I. destruct I as (k & Hk). exists (g k). split.
    + apply in_map. apply In_zrange. eapply zget_Some_range; exact Hk.
    + unfold g. rewrite Hk. split; reflexivity.
Qed.

Lemma pdist_pix_f h w r c p r' c' : small h w -> 0 <= r < h -> 0 <= c < w -> 0 <= r' < h -> 0 <= c' < w ->
  p_0 p = f32 (inject_Z r') -> p_1 p = f32 (inject_Z c') ->
  (pdist (f32 (inject_Z r), f32 (inject_Z c)) p == inject_Z (pix2 r c r' c'))%Q.
Proof.
  intros S R C R' C' E0 E1. destruct (small_sides h w S) as (Sh & Sw & _). unfold pdist, pix2. rewrite E0, E1. cbn [fst snd].
  rewrite (proj1 (f32_pix h r Sh R)), (proj1 (f32_pix w c Sw C)), (proj1 (f32_pix h r' Sh R')), (proj1 (f32_pix w c' Sw C')).
  rewrite inject_Z_plus, !inject_Z_mult. unfold Z.sub. rewrite !inject_Z_plus, !inject_Z_opp. reflexivity.
Qed.

Lemma tree_f_ok seg weight num : small (nr seg) (nc seg) -> img_ok seg -> img_ok weight -> same_shape seg weight -> integral seg -> nonnegative seg ->
  num <> 0 ->
  (forall r c v, px seg r c = Some v -> ~ (v == 0)%Q) \/
  (exists r1 c1 v1 r2 c2 v2, nonsky seg r1 c1 v1 /\ nonsky seg r2 c2 v2 /\ (r1, c1) <> (r2, c2)) ->
  exists N res, (forall fuel, (N <= fuel)%nat -> uberseg_tree_f fuel (imap qtrunc seg) weight num (obj_inds seg) = Ok res) /\
    pixelwise (fun r c x y => exists r' c' v, nearest seg r c r' c' v /\ kept_if num v x y) weight res.
Proof.
  intros SM Hs Hw (E1 & E2) Hint Hnn Hnum Hcase. pose proof Hs as (S1 & S2 & S3).
  destruct (small_sides _ _ SM) as (Sh & Sw & _).
  destruct (tree_points_f_ok seg Hs Hint) as (pts & TP & P1 & P2).
  destruct (build_ok pts) as (t & BT & PT & WT).
  assert (HPI : pts_in (nr seg) (nc seg) pts).
  { intros p Hp. destruct (P1 p Hp) as (r & c & v & z & A1 & _ & A3 & A4 & _). destruct (px_Some_range _ _ _ _ (proj1 A1)) as [R1 R2].
    rewrite A3, A4. split; [apply (f32_pix _ r Sh R1)|apply (f32_pix _ c Sw R2)]. }
  assert (BT' : fast3tree_build_f pts = Ok t) by (rewrite (build_f_ok _ _ pts SM HPI); exact BT).
  set (body := fun (fuel : nat) (x y : Z) =>
    let* s := px_res (imap qtrunc seg) x y in
    let* w := px_res weight x y in
    if s =? num then Ok w
    else if (0 <? s) && negb (s =? num) then Ok 0%Q
    else
      let* segmin := nearest_seg_f fuel t (maxr_f (nr seg) (nc seg)) x y in
      if segmin =? -1 then Ok w
      else if negb (segmin =? num) then Ok 0%Q
      else Ok w).
  assert (EU : forall fuel, uberseg_tree_f fuel (imap qtrunc seg) weight num (obj_inds seg) = tab2M (nr seg) (nc seg) (body fuel)).
  { intros fuel. unfold uberseg_tree_f. rewrite TP. cbn [bind]. rewrite BT'. reflexivity. }
  assert (HB : forall r c, 0 <= r < nr seg -> 0 <= c < nc seg -> exists N a x r' c' v,
     (forall fuel, (N <= fuel)%nat -> body fuel r c = Ok a) /\ px weight r c = Some x /\
     nearest seg r c r' c' v /\ kept_if num v x a).
  { intros r c Hr Hc. destruct (px_in seg r c Hs Hr Hc) as (v & Hv). destruct (Hint r c v Hv) as (z & Hz).
    destruct (px_in weight r c Hw) as (x & Hx); [lia|lia|].
    assert (Hz' : px (imap qtrunc seg) r c = Some z) by (rewrite px_imap, Hv; cbn; rewrite (qtrunc_int v z Hz); reflexivity).
    assert (HZ0 : 0 <= z). { pose proof (Hnn r c v Hv) as H. rewrite Hz in H. change 0%Q with (inject_Z 0) in H.
      rewrite <- Zle_Qle in H. exact H. }
    assert (Hself : z <> 0 -> nearest seg r c r c v).
    { intros Hne. split; [split; [exact Hv|]|].
      - rewrite Hz. intros C. unfold Qeq in C; cbn in C. lia.
      - intros r2 c2 v2 _. unfold pix2. replace (r - r) with 0 by lia. replace (c - c) with 0 by lia.
        pose proof (Z.square_nonneg (r - r2)). pose proof (Z.square_nonneg (c - c2)). lia. }
    unfold body, px_res. rewrite Hz', Hx. cbn [bind]. destruct (z =? num) eqn:EZ.
    - exists O, x, x, r, c, v. split; [reflexivity|]. split; [reflexivity|]. split; [apply Hself; lia|].
      split; [reflexivity|]. intros C. exfalso. apply C. rewrite Hz. assert (z = num) by lia. subst. reflexivity.
    - destruct (0 <? z) eqn:EP; cbn [andb negb].
      + exists O, 0%Q, x, r, c, v. split; [reflexivity|]. split; [reflexivity|]. split; [apply Hself; lia|].
        split; [|reflexivity]. intros C. exfalso. rewrite Hz in C. unfold Qeq in C; cbn in C. lia.
      + assert (z = 0) by lia. subst z.
        destruct Hcase as [HA|(r1 & c1 & v1 & r2 & c2 & v2 & N1 & N2 & Hd)].
        { exfalso. apply (HA r c v Hv). exact Hz. }
        destruct (P2 r1 c1 v1 N1) as (p & Ip & Ep0 & Ep1). destruct (P2 r2 c2 v2 N2) as (q & Iq & Eq0 & Eq1).
        assert (Wt : tree_wf t) by (apply WT; intros C; rewrite C in Ip; destruct Ip).
        assert (HT : forall y, In y (tpts t) <-> In y pts)
          by (intros y; split; apply Permutation_in; [exact PT|apply Permutation_sym; exact PT]).
        assert (HR : forall y, In y (tpts t) -> exists r' c' v' z', nonsky seg r' c' v' /\ (v' == inject_Z z')%Q /\
            p_0 y = f32 (inject_Z r') /\ p_1 y = f32 (inject_Z c') /\ p_seg y = z' /\ 0 <= r' < nr seg /\ 0 <= c' < nc seg).
        { intros y Hy. apply HT in Hy. destruct (P1 y Hy) as (r' & c' & v' & z' & A1 & A2 & A3 & A4 & A5).
          exists r', c', v', z'. pose proof (px_Some_range _ _ _ _ (proj1 A1)). tauto. }
        assert (HPT : pts_in (nr seg) (nc seg) (tpts t)) by (intros y Hy; apply HPI; apply HT; exact Hy).
        set (cc := (f32 (inject_Z r), f32 (inject_Z c))).
        assert (AT : at_in (nr seg) (nc seg) cc) by (split; [apply (f32_pix _ r Sh Hr)|apply (f32_pix _ c Sw Hc)]).
        assert (PD : forall y r' c', 0 <= r' < nr seg -> 0 <= c' < nc seg -> p_0 y = f32 (inject_Z r') -> p_1 y = f32 (inject_Z c') ->
           (pdist cc y == inject_Z (pix2 r c r' c'))%Q) by (intros y r' c' X1 X2 X3 X4; apply (pdist_pix_f _ _ r c y r' c' SM Hr Hc X1 X2 X3 X4)).
        destruct (search_f_ok _ _ t cc p q SM AT Wt HPT) as (rr & N & found & y & F1 & F2 & F3 & F4 & F5).
        * apply HT; exact Ip.
        * apply HT; exact Iq.
        * rewrite Ep0, Ep1, Eq0, Eq1. intros (C1 & C2). apply Hd.
          destruct (px_Some_range _ _ _ _ (proj1 N1)) as [R1 R2]. destruct (px_Some_range _ _ _ _ (proj1 N2)) as [R3 R4].
          rewrite (proj1 (f32_pix _ r1 Sh R1)), (proj1 (f32_pix _ r2 Sh R3)) in C1.
          rewrite (proj1 (f32_pix _ c1 Sw R2)), (proj1 (f32_pix _ c2 Sw R4)) in C2.
          unfold Qeq in C1, C2; cbn in C1, C2. f_equal; lia.
        * intros y Hy. destruct (HR y Hy) as (r' & c' & v' & z' & A1 & A2 & A3 & A4 & A5 & A6 & A7).
          rewrite (PD y r' c' A6 A7 A3 A4). change 0%Q with (inject_Z 0). rewrite <- Zlt_Qlt.
          assert (~ (r' = r /\ c' = c)). { intros (-> & ->). destruct A1 as (A1 & A8). rewrite Hv in A1. inversion A1; subst v'. contradiction. }
          apply pix2_pos. exact H.
        * intros y Hy. destruct (HR y Hy) as (r' & c' & v' & z' & A1 & A2 & A3 & A4 & A5 & A6 & A7).
          rewrite (PD y r' c' A6 A7 A3 A4).
          assert (B : pix2 r c r' c' <= nr seg * nr seg + nc seg * nc seg). { apply pix2_le; assumption. }
          rewrite <- Zle_Qle. exact B.
        * intros y Hy. destruct (HR y Hy) as (r' & c' & v' & z' & A1 & A2 & A3 & A4 & A5 & _). rewrite A5.
          pose proof (Hnn _ _ _ (proj1 A1)) as H. rewrite A2 in H. change 0%Q with (inject_Z 0) in H. rewrite <- Zle_Qle in H. exact H.
        * destruct (HR y F4) as (r' & c' & v' & z' & A1 & A2 & A3 & A4 & A5 & A6 & A7).
          exists N, (if negb (z' =? num) then 0%Q else x), x, r', c', v'. split; [|split; [reflexivity|split]].
          -- intros fuel Hf. unfold nearest_seg_f. fold cc. cbv zeta. rewrite F1. cbn [bind]. rewrite (F2 fuel Hf). cbn [bind]. rewrite F3, A5.
             pose proof (Hnn _ _ _ (proj1 A1)) as H. rewrite A2 in H. change 0%Q with (inject_Z 0) in H. rewrite <- Zle_Qle in H.
             replace (z' =? -1) with false by lia. destruct (negb (z' =? num)); reflexivity.
          -- split; [exact A1|]. intros r3 c3 v3 N3. destruct (P2 r3 c3 v3 N3) as (y3 & I3 & B0 & B1).
             apply HT in I3. specialize (F5 y3 I3). destruct (px_Some_range _ _ _ _ (proj1 N3)) as [R1 R2].
             rewrite (PD y r' c' A6 A7 A3 A4), (PD y3 r3 c3 R1 R2 B0 B1) in F5.
             rewrite <- Zle_Qle in F5. exact F5.
          -- split; intros C; rewrite A2 in C.
             ++ unfold Qeq in C; cbn in C. replace (z' =? num) with true by lia. reflexivity.
             ++ destruct (z' =? num) eqn:E; [exfalso; apply C; assert (z' = num) by lia; subst; reflexivity|reflexivity]. }
  destruct (tab2M_fuel (nr seg) (nc seg) body S1 S2) as (N & res & HN).
  { intros r c Hr Hc. destruct (HB r c Hr Hc) as (N & a & _ & _ & _ & _ & H & _). exists N, a. exact H. }
  exists N, res. split; [intros fuel Hf; rewrite EU; apply HN; exact Hf|].
  assert (HX : forall fuel, (N <= fuel)%nat -> img_ok res /\ nr res = nr seg /\ nc res = nc seg /\
     forall r c, 0 <= r < nr seg -> 0 <= c < nc seg -> exists a, body fuel r c = Ok a /\ px res r c = Some a).
  { intros fuel Hf. apply tab2M_ok; [assumption..|]. apply HN. exact Hf. }
  destruct (HX N (Nat.le_refl _)) as (O1 & O2 & O3 & _).
  split; [exact O1|]. split; [lia|]. split; [lia|]. intros r c x y Hx Hy.
  destruct (px_Some_range _ _ _ _ Hx) as [Rr Rc].
  destruct (HB r c ltac:(lia) ltac:(lia)) as (N2 & a & x' & r' & c' & v & H1 & H2 & H3 & H4).
  destruct (HX (Nat.max N N2) ltac:(lia)) as (_ & _ & _ & O4). destruct (O4 r c ltac:(lia) ltac:(lia)) as (b & Hb & Hp).
  rewrite H1 in Hb by lia. inversion Hb; subst b. rewrite Hy in Hp. inversion Hp; subst a.
  rewrite Hx in H2. inversion H2; subst x'. exists r', c', v. split; assumption.
Qed.


(** * get_uberseg of a file *)
Section Get.
  Context (f : medsfile) (iobj k : Z) (o : obj) (s : slot) (wt seg : img Q)
    (HW : file_wf f) (HN : m_number_col f = true) (HC : cutout_at f iobj k o s)
    (Hw : get_cweight_cutout f iobj k false = Ok wt) (Hs : interpolate_coadd_seg f iobj k = Ok seg)
    (HB : 2 * (o_box o * o_box o) <= 2 ^ 24).

  Lemma get_full_f fuel : ~ two_values seg -> get_uberseg_f fuel f iobj k = uberseg_tree_f fuel (imap qtrunc seg) wt (o_number o) (obj_inds seg).
  Proof using HC HN HW Hs Hw.
    intros H. destruct (inputs_shape f iobj k o s wt seg HW HC Hw Hs) as (_ & (S1 & _) & _).
    unfold get_uberseg_f. rewrite Hw, Hs. cbn [bind].
    destruct (zlen (quniq (dat seg)) =? 2) eqn:E; [exfalso; apply H; apply two_values_count; assumption|].
    cbv zeta. rewrite (number_col_ok f iobj o (proj1 HC) HN). reflexivity.
  Qed.

  Lemma get_fast_f r0 c0 v0 : ~ two_values seg -> nonsky seg r0 c0 v0 -> integral seg -> nonnegative seg -> o_number o <> 0 ->
    exists N res, (forall fuel, (N <= fuel)%nat -> get_uberseg_f fuel f iobj k = Ok res) /\
      pixelwise (fun r c x y => exists r' c' v, nearest seg r c r' c' v /\ kept_if (o_number o) v x y) wt res.
  Proof using HB HC HN HW Hs Hw.
    intros H H0 HI HP Hn. destruct (inputs_shape f iobj k o s wt seg HW HC Hw Hs) as ((W1 & W2 & W3) & (S1 & S2 & S3) & Hb).
    destruct (tree_f_ok seg wt (o_number o)) as (N & res & HR & HX); [split; [lia|split; [lia|rewrite S2, S3; lia]]|exact S1|exact W1|
      split; congruence|exact HI|exact HP|exact Hn|eapply two_points; eassumption|].
    exists N, res. split; [|exact HX]. intros fuel Hf. rewrite get_full_f by exact H. apply HR. exact Hf.
  Qed.

  Lemma get_fast_f_slow r0 c0 v0 : ~ two_values seg -> nonsky seg r0 c0 v0 -> integral seg -> nonnegative seg -> o_number o <> 0 ->
    exists N rf rs, (forall fuel, (N <= fuel)%nat -> get_uberseg_f fuel f iobj k = Ok rf) /\
      (forall fuel, get_uberseg fuel f iobj k false = Ok rs) /\
      nr rf = nr rs /\ nc rf = nc rs /\
      forall r c, (forall r1 c1 v1 r2 c2 v2, nearest seg r c r1 c1 v1 -> nearest seg r c r2 c2 v2 -> (v1 == v2)%Q) ->
        px rf r c = px rs r c.
  Proof using HB HC HN HW Hs Hw.
    intros H H0 HI HP Hn. destruct (get_fast_f r0 c0 v0 H H0 HI HP Hn) as (N & rf & HF & F1 & F2 & F3 & F4).
    destruct (get_slow f iobj k o s wt seg HW HN HC Hw Hs O r0 c0 v0 H H0) as (rs & HS & G1 & G2 & G3 & G4).
    exists N, rf, rs. split; [exact HF|]. split; [|split; [congruence|split; [congruence|]]].
    { intros fuel. rewrite (get_full f iobj k o s wt seg HW HN HC Hw Hs) in * by exact H. exact HS. }
    intros r c HU. destruct (px rf r c) as [y|] eqn:E1.
    - destruct (px_Some_range _ _ _ _ E1) as [R1 R2]. destruct (px_in rs r c G1) as (y' & Hy'); [lia|lia|].
      destruct (inputs_shape f iobj k o s wt seg HW HC Hw Hs) as ((W1 & _) & _ & _).
      destruct (px_in wt r c W1) as (x & Hx); [lia|lia|].
      destruct (F4 r c x y Hx E1) as (r1 & c1 & v1 & N1 & K1 & K2).
      destruct (G4 r c x y' Hx Hy') as (r2 & c2 & v2 & (N2 & _) & K3 & K4).
      pose proof (HU _ _ _ _ _ _ N1 N2) as EV. rewrite Hy'. f_equal.
      destruct (Qeq_dec v1 (inject_Z (o_number o))) as [D|D].
      + rewrite K1 by exact D. rewrite K3; [reflexivity|]. rewrite <- EV. exact D.
      + rewrite K2 by exact D. rewrite K4; [reflexivity|]. rewrite <- EV. exact D.
    - destruct (px rs r c) as [y|] eqn:E2; [|reflexivity]. exfalso. destruct (px_Some_range _ _ _ _ E2) as [R1 R2].
      destruct (px_in rf r c F1) as (y' & Hy'); [lia|lia|]. congruence.
  Qed.
End Get.
