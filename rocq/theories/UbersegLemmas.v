(** Nearest-object weight maps. *)
From Coq Require Import Lia ZifyBool ZifyNat Lqa Permutation.
From Verif Require Import Base BaseLemmas Img ImgLemmas Types Reader BoundsM MakerLayout Composite Fast3tree Uberseg
  SpecFile SpecComposite SpecUberseg ReadLemmas CompositeLemmas CompositeLemmas2 CompositeLemmas3 FtLemmas FtLemmas2.
Open Scope Z_scope.

(** * argmin: the first of the smallest *)
Lemma argmin_from_spec {A} (key : A -> Z) l : forall b,
  exists l1 l2, b :: l = l1 ++ argmin_from key b l :: l2 /\
    (forall x, In x l1 -> key (argmin_from key b l) < key x) /\
    (forall x, In x l2 -> key (argmin_from key b l) <= key x).
Proof.
  induction l as [|a l IH]; intros b; cbn [argmin_from].
  - exists [], []. split; [reflexivity|]. split; intros x [].
  - destruct (key a <? key b) eqn:E.
    + destruct (IH a) as (l1 & l2 & E1 & H1 & H2). exists (b :: l1), l2. split; [cbn [app]; rewrite <- E1; reflexivity|].
      split; [|exact H2]. intros x [<- |Hx]; [|apply H1; exact Hx].
      assert (In a (l1 ++ argmin_from key a l :: l2)) as I by (rewrite <- E1; left; reflexivity).
      apply in_app_iff in I. destruct I as [I|[I|I]].
      * specialize (H1 _ I). lia.
      * rewrite I at 1. lia.
      * specialize (H2 _ I). lia.
    + destruct (IH b) as (l1 & l2 & E1 & H1 & H2). destruct l1 as [|z l1].
      * cbn [app] in E1. injection E1 as E1 E2. exists [], (a :: l). cbn [app]. split; [rewrite <- E1; reflexivity|].
        split; [intros x []|]. intros x [<- |Hx]; [rewrite <- E1; lia|apply H2; rewrite <- E2; exact Hx].
      * cbn [app] in E1. injection E1 as E1 E2. subst z. exists (b :: a :: l1), l2.
        cbn [app]. split; [rewrite <- E2; reflexivity|]. split; [|exact H2].
        intros x [<- |[<- |Hx]]; [apply H1; left; reflexivity| |apply H1; right; exact Hx].
        specialize (H1 b (or_introl eq_refl)). lia.
Qed.

(** * Object pixels in row-major order *)
Lemma obj_inds_In seg r c : img_ok seg -> (In (r, c) (obj_inds seg) <-> exists v, nonsky seg r c v).
Proof.
  intros (I1 & I2 & I3). unfold obj_inds. rewrite filter_In. cbn [fst snd]. rewrite In_positions by assumption. split.
  - intros (_ & H). destruct (px seg r c) as [v|] eqn:E; [|discriminate]. exists v. split; [exact E|].
    apply negb_true_iff in H. apply Qeq_bool_false in H. exact H.
  - intros (v & E & N). split; [eapply px_Some_range; exact E|]. rewrite E. apply Qeq_bool_false in N. rewrite N. reflexivity.
Qed.

Definition flat (w : Z) (p : Z * Z) : Z := fst p * w + snd p.

Lemma positions_sorted h w : 0 <= h -> 0 <= w -> forall l1 p l2, positions h w = l1 ++ p :: l2 ->
  forall q, In q l2 -> before (fst p) (snd p) (fst q) (snd q).
Proof.
  intros Hh Hw l1 p l2 E q Hq. unfold positions in E.
  assert (HP : exists i, zget (positions h w) i = Some p /\ i = zlen l1).
  { exists (zlen l1). split; [|reflexivity]. unfold positions. rewrite E, zget_app.
    replace (zlen l1 <? zlen l1) with false by lia. replace (zlen l1 - zlen l1) with 0 by lia. reflexivity. }
  destruct HP as (i & Hi & ->). apply In_zget in Hq. destruct Hq as (j & Hj).
  pose proof (zget_Some_range _ _ _ Hj) as Rj.
  assert (Hj' : zget (positions h w) (zlen l1 + 1 + j) = Some q).
  { unfold positions. rewrite E, zget_app. pose proof (zlen_nonneg l1). replace (zlen l1 + 1 + j <? zlen l1) with false by lia.
    change (p :: l2) with ([p] ++ l2). rewrite zget_app. change (zlen [p]) with 1.
    replace (zlen l1 + 1 + j - zlen l1 <? 1) with false by lia. rewrite <- Hj. f_equal. lia. }
  assert (HF : forall k x, zget (positions h w) k = Some x -> 0 <= k < h * w /\ x = (k / w, k mod w)).
  { intros k x Hk. pose proof (zget_Some_range _ _ _ Hk) as R. unfold positions in *. rewrite zlen_map in R.
    rewrite zlen_zrange in R by nia. split; [exact R|]. rewrite zget_map, zget_zrange in Hk by exact R. cbn in Hk. congruence. }
  apply HF in Hi. apply HF in Hj'. destruct Hi as (R1 & ->). destruct Hj' as (R2 & ->). cbn [fst snd]. unfold before.
  destruct (unflat h w _ R1 Hh Hw) as (U1 & U2 & U3). destruct (unflat h w _ R2 Hh Hw) as (V1 & V2 & V3).
  set (k1 := zlen l1) in *. set (k2 := k1 + 1 + j) in *. assert (k1 < k2) by lia.
  destruct (Z.lt_trichotomy (k1 / w) (k2 / w)) as [|[|]]; [left; assumption|right; split; [assumption|nia]|exfalso; nia].
Qed.

Lemma filter_split {A} (f : A -> bool) l : forall l1 p l2, filter f l = l1 ++ p :: l2 ->
  exists m1 m2, l = m1 ++ p :: m2 /\ (forall x, In x l2 -> In x m2).
Proof.
  induction l as [|a l IH]; intros l1 p l2 E; cbn [filter] in E; [destruct l1; discriminate|].
  destruct (f a).
  - destruct l1 as [|b l1]; cbn [app] in E; injection E as E1 E2.
    + subst. exists [], l. split; [reflexivity|]. intros x Hx. apply filter_In in Hx. tauto.
    + subst. destruct (IH l1 p l2 E2) as (m1 & m2 & -> & H). exists (b :: m1), m2. split; [reflexivity|exact H].
  - destruct (IH l1 p l2 E) as (m1 & m2 & -> & H). exists (a :: m1), m2. split; [reflexivity|exact H].
Qed.

Lemma obj_inds_sorted seg l1 p l2 : img_ok seg -> obj_inds seg = l1 ++ p :: l2 ->
  forall q, In q l2 -> before (fst p) (snd p) (fst q) (snd q).
Proof.
  intros (I1 & I2 & I3) E q Hq. unfold obj_inds in E. destruct (filter_split _ _ _ _ _ E) as (m1 & m2 & E2 & H).
  eapply positions_sorted; [exact I1|exact I2|exact E2|apply H; exact Hq].
Qed.

(** The index found by the Python code is the first nearest object pixel. *)
Lemma argmin_nearest seg r c p0 ps : img_ok seg -> obj_inds seg = p0 :: ps ->
  exists v, first_nearest seg r c (fst (argmin_from (idist2 r c) p0 ps)) (snd (argmin_from (idist2 r c) p0 ps)) v.
Proof.
  intros Hok E. destruct (argmin_from_spec (idist2 r c) ps p0) as (l1 & l2 & E1 & H1 & H2).
  set (p := argmin_from (idist2 r c) p0 ps) in *. rewrite <- E in E1.
  assert (Hp : In (fst p, snd p) (obj_inds seg)) by (rewrite <- surjective_pairing, E1; apply in_app_iff; right; left; reflexivity).
  apply obj_inds_In in Hp; [|exact Hok]. destruct Hp as (v & Hv). exists v.
  assert (HA : forall r2 c2 v2, nonsky seg r2 c2 v2 -> In (r2, c2) l1 \/ (r2, c2) = p \/ In (r2, c2) l2).
  { intros r2 c2 v2 Hn. assert (I : In (r2, c2) (obj_inds seg)) by (apply obj_inds_In; [exact Hok|exists v2; exact Hn]).
    rewrite E1 in I. apply in_app_iff in I. destruct I as [I|[I|I]]; auto. }
  assert (HN : nearest seg r c (fst p) (snd p) v).
  { split; [exact Hv|]. intros r2 c2 v2 Hn. change (idist2 r c p <= idist2 r c (r2, c2)).
    destruct (HA _ _ _ Hn) as [I|[I|I]]; [specialize (H1 _ I); lia|rewrite I; lia|apply H2; exact I]. }
  split; [exact HN|]. intros r2 c2 v2 (Hn & Hmin) Hb.
  destruct (HA _ _ _ Hn) as [I|[I|I]].
  - specialize (H1 _ I). specialize (Hmin _ _ _ Hv). change (idist2 r c (r2, c2) <= idist2 r c p) in Hmin. lia.
  - rewrite <- I in Hb. cbn [fst snd] in Hb. unfold before in Hb. lia.
  - pose proof (obj_inds_sorted seg l1 p l2 Hok E1 _ I) as Hb2. cbn [fst snd] in Hb2. unfold before in *. lia.
Qed.

Lemma nonsky_inds seg r c v : img_ok seg -> nonsky seg r c v -> exists p0 ps, obj_inds seg = p0 :: ps.
Proof.
  intros Hok H. assert (I : In (r, c) (obj_inds seg)) by (apply obj_inds_In; [exact Hok|exists v; exact H]).
  destruct (obj_inds seg) as [|p0 ps]; [destruct I|]. exists p0, ps. reflexivity.
Qed.

(** * The Python loops *)
Lemma slow_ok seg weight num r0 c0 v0 : img_ok seg -> img_ok weight -> same_shape seg weight -> nonsky seg r0 c0 v0 ->
  exists res, uberseg_slow seg weight num (obj_inds seg) = Ok res /\
    pixelwise (fun r c x y => exists r' c' v, first_nearest seg r c r' c' v /\ kept_if num v x y) weight res.
Proof.
  intros Hs Hw (E1 & E2) Hn. destruct (nonsky_inds _ _ _ _ Hs Hn) as (p0 & ps & EI). unfold uberseg_slow.
  assert (HB : forall r c, 0 <= r < nr seg -> 0 <= c < nc seg -> exists r' c' v x,
     first_nearest seg r c r' c' v /\ px weight r c = Some x /\
     (let* p := argmin (idist2 r c) (obj_inds seg) in
      let* segval := px_res seg (fst p) (snd p) in
      let* w := px_res weight r c in
      Ok (if negb (Qeq_bool segval (inject_Z num)) then 0%Q else w)) =
     Ok (if negb (Qeq_bool v (inject_Z num)) then 0%Q else x)).
  { intros r c Hr Hc. destruct (argmin_nearest seg r c p0 ps Hs EI) as (v & Hv).
    destruct (px_in weight r c Hw) as (x & Hx); [lia|lia|].
    exists (fst (argmin_from (idist2 r c) p0 ps)), (snd (argmin_from (idist2 r c) p0 ps)), v, x.
    split; [exact Hv|]. split; [exact Hx|]. rewrite EI. cbn [argmin bind]. destruct Hv as (((Hv & _) & _) & _).
    unfold px_res. rewrite Hv, Hx. reflexivity. }
  pose proof Hs as (S1 & S2 & S3).
  match goal with |- context [tab2M _ _ ?g] => destruct (tab2M_exists (nr seg) (nc seg) g S1 S2) as (res & E) end.
  { intros r c Hr Hc. destruct (HB r c Hr Hc) as (r' & c' & v & x & _ & _ & HE). rewrite HE. eexists; reflexivity. }
  exists res. split; [exact E|]. apply tab2M_ok in E; [|assumption..]. destruct E as (O1 & O2 & O3 & O4).
  split; [exact O1|]. split; [lia|]. split; [lia|]. intros r c x y Hx Hy.
  destruct (px_Some_range _ _ _ _ Hx) as [Rr Rc]. destruct (HB r c ltac:(lia) ltac:(lia)) as (r' & c' & v & x' & F & Hx' & HE).
  destruct (O4 r c ltac:(lia) ltac:(lia)) as (a & Ha & Hp). cbv beta in Ha. rewrite HE in Ha. rewrite Hx in Hx'. inversion Hx'; subst x'.
  exists r', c', v. split; [exact F|]. rewrite Hy in Hp. inversion Hp; subst a. inversion Ha as [Hy'].
  unfold kept_if. destruct (Qeq_bool v (inject_Z num)) eqn:EQ; cbn [negb].
  - apply Qeq_bool_iff in EQ. tauto.
  - apply Qeq_bool_false in EQ. tauto.
Qed.

Lemma slow_empty seg weight num : img_ok seg -> 0 < nr seg -> 0 < nc seg -> (forall r c v, ~ nonsky seg r c v) ->
  uberseg_slow seg weight num (obj_inds seg) = Err ValueError.
Proof.
  intros Hs H1 H2 Hn. assert (E : obj_inds seg = []).
  { destruct (obj_inds seg) as [|[r c] l] eqn:E; [reflexivity|]. exfalso.
    assert (I : In (r, c) (obj_inds seg)) by (rewrite E; left; reflexivity). apply obj_inds_In in I; [|exact Hs].
    destruct I as (v & Hv). exact (Hn _ _ _ Hv). }
  rewrite E. unfold uberseg_slow, tab2M. assert (HZ : 0 < nr seg * nc seg) by nia.
  unfold zrange. destruct (Z.to_nat (nr seg * nc seg)) as [|n] eqn:En; [lia|]. cbn [seq map mapM argmin bind]. reflexivity.
Qed.

(** * The direct C loops *)
Lemma qtrunc_int v z : (v == inject_Z z)%Q -> qtrunc v = z.
Proof.
  intros H. unfold qtrunc. dif E.
  - rewrite H. apply Qfloor_Z.
  - rewrite H. apply Qceiling_Z.
Qed.

Lemma nearest_self seg r c v : nonsky seg r c v ->
  forall r' c' v', nearest seg r c r' c' v' -> r' = r /\ c' = c /\ v' = v.
Proof.
  intros Hn r' c' v' ((E & N) & Hmin). specialize (Hmin r c v Hn). unfold pix2 in Hmin.
  replace (r - r) with 0 in Hmin by lia. replace (c - c) with 0 in Hmin by lia.
  assert (AB : forall a b : Z, a * a + b * b <= 0 * 0 + 0 * 0 -> a = 0 /\ b = 0).
  { intros a b H. pose proof (Z.square_nonneg a). pose proof (Z.square_nonneg b).
    assert (a * a = 0) by lia. assert (b * b = 0) by lia. split; apply Z.mul_eq_0 in H2 || idtac; apply Z.mul_eq_0 in H3 || idtac; lia. }
  destruct (AB _ _ Hmin) as (A & B).
  assert (r' = r) by lia. assert (c' = c) by lia. subst. destruct Hn as (E2 & _). split; [reflexivity|]. split; [reflexivity|congruence].
Qed.

Lemma direct_eq_slow seg weight num r0 c0 v0 : img_ok seg -> img_ok weight -> same_shape seg weight -> integral seg ->
  num <> 0 -> nonsky seg r0 c0 v0 ->
  uberseg_direct (imap qtrunc seg) weight num (obj_inds seg) = uberseg_slow seg weight num (obj_inds seg).
Proof.
  intros Hs Hw (E1 & E2) Hint Hnum Hn. destruct (nonsky_inds _ _ _ _ Hs Hn) as (p0 & ps & EI).
  unfold uberseg_direct, uberseg_slow. cbn [imap nr nc]. pose proof Hs as (S1 & S2 & S3).
  assert (HI : forall r c v, px seg r c = Some v -> exists z, (v == inject_Z z)%Q /\ px (imap qtrunc seg) r c = Some z).
  { intros r c v Hv. destruct (Hint r c v Hv) as (z & Hz). exists z. split; [exact Hz|]. rewrite px_imap, Hv. cbn.
    rewrite (qtrunc_int v z Hz). reflexivity. }
  unfold tab2M. f_equal. apply mapM_ext_in. intros k Hk. apply In_zrange in Hk.
  destruct (unflat _ _ _ Hk S1 S2) as (U1 & U2 & _). set (r := k / nc seg) in *. set (c := k mod nc seg) in *.
  destruct (px_in seg r c Hs U1 U2) as (v & Hv). destruct (HI r c v Hv) as (z & Hz & Hz').
  destruct (px_in weight r c Hw) as (x & Hx); [lia|lia|].
  rewrite EI. cbn [argmin bind]. destruct (argmin_nearest seg r c p0 ps Hs EI) as (v1 & F1).
  set (p := argmin_from (idist2 r c) p0 ps) in *. pose proof F1 as (N1 & _). pose proof N1 as ((Hv1 & Nz1) & _).
  destruct (HI _ _ _ Hv1) as (z1 & Hz1 & Hz1').
  change (mkImg (nr seg) (nc seg) (map qtrunc (dat seg))) with (imap qtrunc seg).
  unfold px_res. rewrite Hz', Hx, Hv1, Hz1'. cbn [bind].
  assert (HQ : negb (Qeq_bool v1 (inject_Z num)) = negb (z1 =? num)).
  { f_equal. destruct (z1 =? num) eqn:E; [apply Qeq_bool_iff; rewrite Hz1; assert (z1 = num) by lia; subst; reflexivity|].
    apply Qeq_bool_false. rewrite Hz1. intros C. apply eq_inject_Z in C || (unfold Qeq in C; cbn in C). lia. }
  rewrite HQ. destruct (z =? num) eqn:EZ.
  - assert (z = num) by lia. subst z. assert (Hns : nonsky seg r c v).
    { split; [exact Hv|]. rewrite Hz. intros C. apply Hnum. unfold Qeq in C; cbn in C. lia. }
    destruct (nearest_self seg r c v Hns _ _ _ N1) as (_ & _ & ->).
    replace (z1 =? num) with true; [reflexivity|]. assert (inject_Z z1 == inject_Z num)%Q by (rewrite <- Hz1; exact Hz).
    unfold Qeq in H; cbn in H. lia.
  - destruct (0 <? z) eqn:EP; cbn [andb negb]; [|reflexivity].
    assert (Hns : nonsky seg r c v). { split; [exact Hv|]. rewrite Hz. intros C. unfold Qeq in C; cbn in C. lia. }
    destruct (nearest_self seg r c v Hns _ _ _ N1) as (_ & _ & ->).
    replace (z1 =? num) with false; [reflexivity|]. assert (inject_Z z1 == inject_Z z)%Q by (rewrite <- Hz1; exact Hz).
    unfold Qeq in H; cbn in H. lia.
Qed.
