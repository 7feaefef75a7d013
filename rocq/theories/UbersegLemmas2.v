(** The tree version, and get_uberseg. *)
From Coq Require Import Lia ZifyBool ZifyNat Lqa Permutation Qabs.
From Verif Require Import Base BaseLemmas Img ImgLemmas Types Reader BoundsM MakerLayout Composite Fast3tree Uberseg
  SpecFile SpecComposite SpecUberseg ReadLemmas CompositeLemmas CompositeLemmas2 CompositeLemmas3 FtLemmas FtLemmas2
  UbersegLemmas.
Open Scope Z_scope.

Lemma mapM_fuel {X Y} (g : nat -> X -> res Y) xs :
  (forall x, In x xs -> exists N y, forall fuel, (N <= fuel)%nat -> g fuel x = Ok y) ->
  exists N ys, forall fuel, (N <= fuel)%nat -> mapM (g fuel) xs = Ok ys.
Proof.
  induction xs as [|x xs IH]; intros H.
  - exists O, []. reflexivity.
  - destruct (H x (or_introl eq_refl)) as (N1 & y & H1). destruct IH as (N2 & ys & H2); [intros z Hz; apply H; right; exact Hz|].
    exists (Nat.max N1 N2), (y :: ys). intros fuel Hf. cbn [mapM]. rewrite H1, H2 by lia. reflexivity.
Qed.

Lemma tab2M_fuel {A} h w (g : nat -> Z -> Z -> res A) : 0 <= h -> 0 <= w ->
  (forall r c, 0 <= r < h -> 0 <= c < w -> exists N a, forall fuel, (N <= fuel)%nat -> g fuel r c = Ok a) ->
  exists N im, forall fuel, (N <= fuel)%nat -> tab2M h w (g fuel) = Ok im.
Proof.
  intros Hh Hw H. destruct (mapM_fuel (fun fuel p => g fuel (p / w) (p mod w)) (zrange (h * w))) as (N & ys & HN).
  { intros p Hp. apply In_zrange in Hp. destruct (unflat h w p Hp Hh Hw) as (U1 & U2 & _). apply H; assumption. }
  exists N, (mkImg h w ys). intros fuel Hf. unfold tab2M. rewrite (HN fuel Hf). reflexivity.
Qed.

Lemma tree_points_ok seg : img_ok seg -> integral seg ->
  exists pts, tree_points (imap qtrunc seg) (obj_inds seg) = Ok pts /\
    (forall p, In p pts -> exists r c v z, nonsky seg r c v /\ (v == inject_Z z)%Q /\
       p_0 p = inject_Z r /\ p_1 p = inject_Z c /\ p_seg p = z) /\
    (forall r c v, nonsky seg r c v -> exists p, In p pts /\ p_0 p = inject_Z r /\ p_1 p = inject_Z c).
Proof.
  intros Hok Hint. unfold tree_points.
  set (g := fun k => match zget (obj_inds seg) k with
                 | Some p => mkPt k (match px (imap qtrunc seg) (fst p) (snd p) with Some z => z | None => 0 end)
                               (inject_Z (fst p)) (inject_Z (snd p))
                 | None => mkPt 0 0 0 0 end).
  assert (HG : forall k r c, zget (obj_inds seg) k = Some (r, c) -> exists v z, nonsky seg r c v /\ (v == inject_Z z)%Q /\
      px (imap qtrunc seg) r c = Some z).
  { intros k r c Hk. apply zget_In in Hk. apply obj_inds_In in Hk; [|exact Hok]. destruct Hk as (v & Hv).
    destruct (Hint r c v (proj1 Hv)) as (z & Hz). exists v, z. split; [exact Hv|]. split; [exact Hz|].
    rewrite px_imap, (proj1 Hv). cbn. rewrite (qtrunc_int v z Hz). reflexivity. }
  exists (map g (zrange (zlen (obj_inds seg)))). split; [|split].
  - apply mapM_map_ok. intros k Hk. apply In_zrange in Hk. unfold g.
    destruct (zget_range_Some (obj_inds seg) k Hk) as ((r & c) & E). rewrite E. cbn [fst snd].
    destruct (HG k r c E) as (v & z & _ & _ & Hz). unfold px_res. rewrite Hz. reflexivity.
  - intros p Hp. apply in_map_iff in Hp. destruct Hp as (k & <- & Hk). apply In_zrange in Hk. unfold g.
    destruct (zget_range_Some (obj_inds seg) k Hk) as ((r & c) & E). rewrite E. cbn [fst snd].
    destruct (HG k r c E) as (v & z & Hv & Hz1 & Hz). rewrite Hz. exists r, c, v, z. cbn. auto.
  - intros r c v Hn. assert (I : In (r, c) (obj_inds seg)) by (apply obj_inds_In; [exact Hok|exists v; exact Hn]).
    apply In_zget in I. destruct I as (k & Hk). exists (g k). split.
    + apply in_map. apply In_zrange. eapply zget_Some_range; exact Hk.
    + unfold g. rewrite Hk. split; reflexivity.
Qed.

Lemma pdist_pix r c p r' c' : p_0 p = inject_Z r' -> p_1 p = inject_Z c' ->
  (pdist (inject_Z r, inject_Z c) p == inject_Z (pix2 r c r' c'))%Q.
Proof.
  intros E0 E1. unfold pdist, pix2. rewrite E0, E1. cbn [fst snd].
  rewrite inject_Z_plus, !inject_Z_mult. unfold Z.sub. rewrite !inject_Z_plus, !inject_Z_opp. reflexivity.
Qed.

Lemma pix2_pos r c r' c' : ~ (r' = r /\ c' = c) -> 0 < pix2 r c r' c'.
Proof.
  intros H. unfold pix2. pose proof (Z.square_nonneg (r - r')) as A. pose proof (Z.square_nonneg (c - c')) as B.
  destruct (Z.eq_dec ((r - r') * (r - r')) 0) as [E|E]; [|lia]. destruct (Z.eq_dec ((c - c') * (c - c')) 0) as [F|F]; [|lia].
  exfalso. apply H. apply Z.mul_eq_0 in E. apply Z.mul_eq_0 in F. lia.
Qed.

Lemma pix2_le r c r' c' h w : 0 <= r < h -> 0 <= c < w -> 0 <= r' < h -> 0 <= c' < w -> pix2 r c r' c' <= h * h + w * w.
Proof.
  intros. assert (SQ : forall a b, Z.abs a <= b -> a * a <= b * b).
  { intros a b Hab. rewrite <- (Z.abs_square a). apply Z.mul_le_mono_nonneg; lia. }
  unfold pix2. apply Z.add_le_mono; apply SQ; lia.
Qed.

Lemma tree_ok seg weight num : img_ok seg -> img_ok weight -> same_shape seg weight -> integral seg -> nonnegative seg ->
  num <> 0 ->
  (forall r c v, px seg r c = Some v -> ~ (v == 0)%Q) \/
  (exists r1 c1 v1 r2 c2 v2, nonsky seg r1 c1 v1 /\ nonsky seg r2 c2 v2 /\ (r1, c1) <> (r2, c2)) ->
  exists N res, (forall fuel, (N <= fuel)%nat -> uberseg_tree fuel (imap qtrunc seg) weight num (obj_inds seg) = Ok res) /\
    pixelwise (fun r c x y => exists r' c' v, nearest seg r c r' c' v /\ kept_if num v x y) weight res.
Proof.
  intros Hs Hw (E1 & E2) Hint Hnn Hnum Hcase. pose proof Hs as (S1 & S2 & S3).
  destruct (tree_points_ok seg Hs Hint) as (pts & TP & P1 & P2).
  destruct (build_ok pts) as (t & BT & PT & WT).
  set (maxr2 := ((121#100) * inject_Z (nr seg * nr seg + nc seg * nc seg))%Q).
  set (body := fun (fuel : nat) (x y : Z) =>
    let* s := px_res (imap qtrunc seg) x y in
    let* w := px_res weight x y in
    if s =? num then Ok w
    else if (0 <? s) && negb (s =? num) then Ok 0%Q
    else
      let c := (inject_Z x, inject_Z y) in
      let* r2 := find_next_closest_distance t c in
      let* found := search_loop fuel t c r2 maxr2 in
      let segmin := closest_seg c found in
      if segmin =? -1 then Ok w
      else if negb (segmin =? num) then Ok 0%Q
      else Ok w).
  assert (EU : forall fuel, uberseg_tree fuel (imap qtrunc seg) weight num (obj_inds seg) = tab2M (nr seg) (nc seg) (body fuel)).
  { intros fuel. unfold uberseg_tree. rewrite TP. cbn [bind]. rewrite BT. reflexivity. }
  assert (HB : forall r c, 0 <= r < nr seg -> 0 <= c < nc seg -> exists N a x r' c' v,
     (forall fuel, (N <= fuel)%nat -> body fuel r c = Ok a) /\ px weight r c = Some x /\
     nearest seg r c r' c' v /\ kept_if num v x a).
  { intros r c Hr Hc. destruct (px_in seg r c Hs Hr Hc) as (v & Hv). destruct (Hint r c v Hv) as (z & Hz).
    destruct (px_in weight r c Hw) as (x & Hx); [lia|lia|].
    assert (Hz' : px (imap qtrunc seg) r c = Some z) by (rewrite px_imap, Hv; cbn; rewrite (qtrunc_int v z Hz); reflexivity).
    assert (HZ0 : 0 <= z). { pose proof (Hnn r c v Hv) as H. rewrite Hz in H. change 0%Q with (inject_Z 0) in H.
      rewrite <- Zle_Qle in H. exact H. }
    assert (Hself : z <> 0 -> nearest seg r c r c v).
    { intros Hne. split; [split; [exact Hv|]|].
      - rewrite Hz. intros C. unfold Qeq in C; cbn in C. lia.
      - intros r2 c2 v2 _. unfold pix2. replace (r - r) with 0 by lia. replace (c - c) with 0 by lia.
        pose proof (Z.square_nonneg (r - r2)). pose proof (Z.square_nonneg (c - c2)). lia. }
    unfold body, px_res. rewrite Hz', Hx. cbn [bind]. destruct (z =? num) eqn:EZ.
    - exists O, x, x, r, c, v. split; [reflexivity|]. split; [reflexivity|]. split; [apply Hself; lia|].
      split; [reflexivity|]. intros C. exfalso. apply C. rewrite Hz. assert (z = num) by lia. subst. reflexivity.
    - destruct (0 <? z) eqn:EP; cbn [andb negb].
      + exists O, 0%Q, x, r, c, v. split; [reflexivity|]. split; [reflexivity|]. split; [apply Hself; lia|].
        split; [|reflexivity]. intros C. exfalso. rewrite Hz in C. unfold Qeq in C; cbn in C. lia.
      + assert (z = 0) by lia. subst z.
        destruct Hcase as [HA|(r1 & c1 & v1 & r2 & c2 & v2 & N1 & N2 & Hd)].
        { exfalso. apply (HA r c v Hv). exact Hz. }
        destruct (P2 r1 c1 v1 N1) as (p & Ip & Ep0 & Ep1). destruct (P2 r2 c2 v2 N2) as (q & Iq & Eq0 & Eq1).
        assert (Wt : tree_wf t) by (apply WT; intros C; rewrite C in Ip; destruct Ip).
        assert (HT : forall y, In y (tpts t) <-> In y pts)
          by (intros y; split; apply Permutation_in; [exact PT|apply Permutation_sym; exact PT]).
        assert (HR : forall y, In y (tpts t) -> exists r' c' v' z', nonsky seg r' c' v' /\ (v' == inject_Z z')%Q /\
            p_0 y = inject_Z r' /\ p_1 y = inject_Z c' /\ p_seg y = z' /\ 0 <= r' < nr seg /\ 0 <= c' < nc seg).
        { intros y Hy. apply HT in Hy. destruct (P1 y Hy) as (r' & c' & v' & z' & A1 & A2 & A3 & A4 & A5).
          exists r', c', v', z'. pose proof (px_Some_range _ _ _ _ (proj1 A1)). tauto. }
        destruct (search_ok t (inject_Z r, inject_Z c) maxr2 p q Wt) as (rr & N & found & y & F1 & F2 & F3 & F4 & F5).
        * apply HT; exact Ip.
        * apply HT; exact Iq.
        * rewrite Ep0, Ep1, Eq0, Eq1. intros (C1 & C2). apply Hd. unfold Qeq in C1, C2; cbn in C1, C2. f_equal; lia.
        * intros y Hy. destruct (HR y Hy) as (r' & c' & v' & z' & A1 & A2 & A3 & A4 & A5 & _).
          rewrite (pdist_pix r c y r' c' A3 A4). change 0%Q with (inject_Z 0). rewrite <- Zlt_Qlt.
          assert (~ (r' = r /\ c' = c)). { intros (-> & ->). destruct A1 as (A1 & A6). rewrite Hv in A1. inversion A1; subst v'. contradiction. }
          apply pix2_pos. exact H.
        * intros y Hy. destruct (HR y Hy) as (r' & c' & v' & z' & A1 & A2 & A3 & A4 & A5 & A6 & A7).
          rewrite (pdist_pix r c y r' c' A3 A4). unfold maxr2.
          assert (B : pix2 r c r' c' <= nr seg * nr seg + nc seg * nc seg). { apply pix2_le; assumption. }
          rewrite Zle_Qle in B. assert (0 <= inject_Z (nr seg * nr seg + nc seg * nc seg))%Q.
          { change 0%Q with (inject_Z 0). rewrite <- Zle_Qle. nia. }
          lra.
        * intros y Hy. destruct (HR y Hy) as (r' & c' & v' & z' & A1 & A2 & A3 & A4 & A5 & _). rewrite A5.
          pose proof (Hnn _ _ _ (proj1 A1)) as H. rewrite A2 in H. change 0%Q with (inject_Z 0) in H. rewrite <- Zle_Qle in H. exact H.
        * destruct (HR y F4) as (r' & c' & v' & z' & A1 & A2 & A3 & A4 & A5 & _).
          exists N, (if negb (z' =? num) then 0%Q else x), x, r', c', v'. split; [|split; [reflexivity|split]].
          -- intros fuel Hf. cbv zeta. rewrite F1. cbn [bind]. rewrite (F2 fuel Hf). cbn [bind]. rewrite F3, A5.
             pose proof (Hnn _ _ _ (proj1 A1)) as H. rewrite A2 in H. change 0%Q with (inject_Z 0) in H. rewrite <- Zle_Qle in H.
             replace (z' =? -1) with false by lia. destruct (negb (z' =? num)); reflexivity.
          -- split; [exact A1|]. intros r3 c3 v3 N3. destruct (P2 r3 c3 v3 N3) as (y3 & I3 & B0 & B1).
             apply HT in I3. specialize (F5 y3 I3). rewrite (pdist_pix r c y r' c' A3 A4), (pdist_pix r c y3 r3 c3 B0 B1) in F5.
             rewrite <- Zle_Qle in F5. exact F5.
          -- split; intros C; rewrite A2 in C.
             ++ unfold Qeq in C; cbn in C. replace (z' =? num) with true by lia. reflexivity.
             ++ destruct (z' =? num) eqn:E; [exfalso; apply C; assert (z' = num) by lia; subst; reflexivity|reflexivity]. }
  destruct (tab2M_fuel (nr seg) (nc seg) body S1 S2) as (N & res & HN).
  { intros r c Hr Hc. destruct (HB r c Hr Hc) as (N & a & _ & _ & _ & _ & H & _). exists N, a. exact H. }
  exists N, res. split; [intros fuel Hf; rewrite EU; apply HN; exact Hf|].
  assert (HX : forall fuel, (N <= fuel)%nat -> img_ok res /\ nr res = nr seg /\ nc res = nc seg /\
     forall r c, 0 <= r < nr seg -> 0 <= c < nc seg -> exists a, body fuel r c = Ok a /\ px res r c = Some a).
  { intros fuel Hf. apply tab2M_ok; [assumption..|]. apply HN. exact Hf. }
  destruct (HX N (Nat.le_refl _)) as (O1 & O2 & O3 & _).
  split; [exact O1|]. split; [lia|]. split; [lia|]. intros r c x y Hx Hy.
  destruct (px_Some_range _ _ _ _ Hx) as [Rr Rc].
  destruct (HB r c ltac:(lia) ltac:(lia)) as (N2 & a & x' & r' & c' & v & H1 & H2 & H3 & H4).
  destruct (HX (Nat.max N N2) ltac:(lia)) as (_ & _ & _ & O4). destruct (O4 r c ltac:(lia) ltac:(lia)) as (b & Hb & Hp).
  rewrite H1 in Hb by lia. inversion Hb; subst b. rewrite Hy in Hp. inversion Hp; subst a.
  rewrite Hx in H2. inversion H2; subst x'. exists r', c', v. split; assumption.
Qed.

(** * All-sky maps *)
Lemma search_zero fuel c maxr2 : (0 <= maxr2)%Q -> forall r2, (r2 == 0)%Q ->
  search_loop fuel (TLeaf (mkBox 0 0 0 0) []) c r2 maxr2 = Err OutOfFuel.
Proof.
  intros Hm. induction fuel as [|fuel IH]; intros r2 Hr; cbn [search_loop]; [reflexivity|].
  assert (E : find_sphere (TLeaf (mkBox 0 0 0 0) []) c r2 = []).
  { cbn [find_sphere tpts filter]. destruct (box_not_intersect_sphere _ _ _); [reflexivity|]. destruct (box_inside_sphere _ _ _); reflexivity. }
  rewrite E. replace (Qle_bool r2 maxr2) with true; [|symmetry; apply Qle_bool_iff; lra]. apply IH. lra.
Qed.

Lemma tree_all_sky seg weight num : img_ok seg -> img_ok weight -> same_shape seg weight -> 0 < nr seg -> 0 < nc seg -> num <> 0 ->
  (forall r c v, px seg r c = Some v -> (v == 0)%Q) ->
  forall fuel, uberseg_tree fuel (imap qtrunc seg) weight num (obj_inds seg) = Err OutOfFuel.
Proof.
  intros Hs Hw (E1 & E2) H1 H2 Hnum Hsky fuel.
  assert (E : obj_inds seg = []).
  { destruct (obj_inds seg) as [|[r c] l] eqn:E; [reflexivity|]. exfalso.
    assert (I : In (r, c) (obj_inds seg)) by (rewrite E; left; reflexivity). apply obj_inds_In in I; [|exact Hs].
    destruct I as (v & Hv & N). apply N. eapply Hsky; exact Hv. }
  rewrite E. unfold uberseg_tree. change (tree_points (imap qtrunc seg) []) with (@Ok (list pt) []). cbn [bind].
  change (fast3tree_build []) with (Ok (TLeaf (mkBox 0 0 0 0) [])). cbn [bind].
  unfold tab2M. cbn [imap nr nc]. assert (HZ : 0 < nr seg * nc seg) by nia.
  unfold zrange. destruct (Z.to_nat (nr seg * nc seg)) as [|n] eqn:En; [lia|]. cbn [seq map mapM].
  change (Z.of_nat 0) with 0. rewrite Z.div_0_l, Z.mod_0_l by lia.
  destruct (px_in seg 0 0 Hs ltac:(lia) ltac:(lia)) as (v & Hv). destruct (px_in weight 0 0 Hw ltac:(lia) ltac:(lia)) as (x & Hx).
  change (mkImg (nr seg) (nc seg) (map qtrunc (dat seg))) with (imap qtrunc seg).
  unfold px_res. rewrite px_imap, Hv, Hx. cbn [option_map bind].
  rewrite (qtrunc_int v 0) by (eapply Hsky; exact Hv). replace (0 =? num) with false by lia. cbn [Z.ltb andb].
  change (0 <? 0) with false. cbn [andb].
  match goal with |- context [find_next_closest_distance ?t ?c] =>
    replace (find_next_closest_distance t c) with (@Ok Q ((0 - 0) * (0 - 0) + (0 - 0) * (0 - 0)))%Q
  end.
  2:{ unfold find_next_closest_distance. cbn [descend climb tbox tpts fold_left hi_0 lo_0 hi_1 lo_1 find_next_closest_dist addr_eqb].
      rewrite orb_true_r. reflexivity. }
  cbn [bind]. rewrite search_zero; [reflexivity| |reflexivity].
  assert (0 <= inject_Z (nr seg * nr seg + nc seg * nc seg))%Q.
  { change 0%Q with (inject_Z 0). rewrite <- Zle_Qle. nia. } lra.
Qed.

(** * Number of distinct values *)
Lemma quniq_cover l : forall x, In x l -> exists y, In y (quniq l) /\ (x == y)%Q.
Proof.
  induction l as [|a l IH]; intros x H; [destruct H|]. cbn [quniq]. destruct (existsb (Qeq_bool a) l) eqn:E.
  - destruct H as [<- |H]; [|apply IH; exact H]. apply existsb_exists in E. destruct E as (b & Hb & E).
    apply Qeq_bool_iff in E. destruct (IH b Hb) as (y & Hy & E2). exists y. split; [exact Hy|]. rewrite E. exact E2.
  - destruct H as [<- |H]; [exists a; split; [left; reflexivity|reflexivity]|].
    destruct (IH x H) as (y & Hy & E2). exists y. split; [right; exact Hy|exact E2].
Qed.

Lemma quniq_incl l : forall x, In x (quniq l) -> In x l.
Proof.
  induction l as [|a l IH]; intros x H; [destruct H|]. cbn [quniq] in H. destruct (existsb (Qeq_bool a) l).
  - right. apply IH. exact H.
  - destruct H as [<- |H]; [left; reflexivity|right; apply IH; exact H].
Qed.

Lemma quniq_distinct l : ForallOrdPairs (fun x y => ~ (x == y)%Q) (quniq l).
Proof.
  induction l as [|a l IH]; cbn [quniq]; [constructor|]. destruct (existsb (Qeq_bool a) l) eqn:E; [exact IH|].
  constructor; [|exact IH]. apply Forall_forall. intros y Hy C. apply quniq_incl in Hy.
  assert (existsb (Qeq_bool a) l = true); [|congruence]. apply existsb_exists. exists y. split; [exact Hy|]. apply Qeq_bool_iff. exact C.
Qed.

Lemma dat_px (im : img Q) v : img_ok im -> In v (dat im) <-> exists r c, px im r c = Some v.
Proof.
  intros (I1 & I2 & I3). split.
  - intros H. apply In_zget in H. destruct H as (p & Hp). pose proof (zget_Some_range _ _ _ Hp) as R. rewrite I3 in R.
    destruct (unflat _ _ _ R I1 I2) as (U1 & U2 & U3). exists (p / nc im), (p mod nc im). unfold px.
    replace (0 <=? p / nc im) with true by lia. replace (p / nc im <? nr im) with true by lia.
    replace (0 <=? p mod nc im) with true by lia. replace (p mod nc im <? nc im) with true by lia. cbn [andb].
    rewrite <- U3. exact Hp.
  - intros (r & c & H). unfold px in H. dif_in H E; [|discriminate]. eapply zget_In; exact H.
Qed.

Lemma two_values_count seg : img_ok seg -> (zlen (quniq (dat seg)) =? 2 = true <-> two_values seg).
Proof.
  intros Hok. rewrite Z.eqb_eq. pose proof (quniq_cover (dat seg)) as HC. pose proof (quniq_incl (dat seg)) as HI.
  pose proof (quniq_distinct (dat seg)) as HD. set (l := quniq (dat seg)) in *. split.
  - intros HL. destruct l as [|a [|b [|? ?]]]; try (unfold zlen in HL; cbn in HL; lia). exists a, b.
    split; [inversion HD as [|? ? F _]; subst; inversion F; subst; assumption|].
    split; [destruct (proj1 (dat_px seg a Hok)) as (r & c & H); [apply HI; left; reflexivity|exists r, c, a; split; [exact H|reflexivity]]|].
    split; [destruct (proj1 (dat_px seg b Hok)) as (r & c & H); [apply HI; right; left; reflexivity|exists r, c, b; split; [exact H|reflexivity]]|].
    intros r c v Hv. destruct (HC v) as (y & [<- |[<- |[]]] & E); [apply dat_px; [exact Hok|exists r, c; exact Hv]|left; exact E|right; exact E].
  - intros (a & b & Hab & (r1 & c1 & v1 & E1 & V1) & (r2 & c2 & v2 & E2 & V2) & Hall).
    destruct (HC v1) as (y1 & Y1 & Z1); [apply dat_px; [exact Hok|exists r1, c1; exact E1]|].
    destruct (HC v2) as (y2 & Y2 & Z2); [apply dat_px; [exact Hok|exists r2, c2; exact E2]|].
    assert (HA : forall y, In y l -> (y == a)%Q \/ (y == b)%Q).
    { intros y Hy. apply HI in Hy. apply dat_px in Hy; [|exact Hok]. destruct Hy as (r & c & Hy). eapply Hall; exact Hy. }
    assert (N12 : ~ (y1 == y2)%Q). { intros C. apply Hab. rewrite <- V1, <- V2, Z1, Z2. exact C. }
    destruct l as [|x1 [|x2 [|x3 l']]].
    + destruct Y1.
    + exfalso. destruct Y1 as [Y1|[]]. destruct Y2 as [Y2|[]]. subst. apply N12. reflexivity.
    + reflexivity.
    + exfalso. inversion HD as [|? ? F D2]; subst. inversion D2 as [|? ? G _]; subst.
      inversion F as [|? ? F1 F']; subst. inversion F' as [|? ? F2 _]; subst. inversion G as [|? ? G1 _]; subst.
      destruct (HA x1) as [A1|A1]; [left; reflexivity| |]; (destruct (HA x2) as [A2|A2]; [right; left; reflexivity| |]);
      (destruct (HA x3) as [A3|A3]; [right; right; left; reflexivity| |]);
      try (apply F1; rewrite A1, A2; reflexivity); try (apply F2; rewrite A1, A3; reflexivity);
      try (apply G1; rewrite A2, A3; reflexivity).
Qed.
