(** Lemmas on the sphere query from one point on and the periodic sphere query. *)
From Coq Require Import Permutation QArith Qabs Lqa Lia ZifyBool ZifyNat.
From Verif Require Import Base BoundsM Fast3tree Fast3treeQ SpecUberseg SpecTreeQ.
From Verif Require Import BaseLemmas CompositeLemmas FtLemmas TreeQLemmas.
Open Scope Z_scope.

Lemma NoDup_zrange n : NoDup (zrange n).
Proof. unfold zrange. apply FinFun.Injective_map_NoDup; [intros a b; lia|apply seq_NoDup]. Qed.

Section Skip.
Variables (all : list pt) (tp : Z) (p0 : pt) (r2 : Q).
Hypothesis Htp : zget all tp = Some p0.
Hypothesis Hr : (0 < r2)%Q.
Let c : Q * Q := (p_0 p0, p_1 p0).

Lemma self_dist : (pdist c p0 <= r2)%Q.
Proof. unfold pdist, c. cbn [fst snd]. nra. Qed.

Definition skip_ok (off len : Z) (f : list Z) : Prop :=
  NoDup f /\ (forall k, In k f -> off <= k < off + len /\ exists p, zget all k = Some p /\ (pdist c p <= r2)%Q) /\
  (forall k p, off <= k < off + len -> tp <= k -> zget all k = Some p -> (pdist c p < r2)%Q -> In k f).

Lemma skip_node_ok n : forall off, tree_in n ->
  (forall i, 0 <= i < zlen (tpts n) -> zget all (off + i) = zget (tpts n) i) ->
  skip_ok off (zlen (tpts n)) (find_sphere_skip_node n off c r2 tp).
Proof.
  assert (HN : forall b pts off, (forall p, In p pts -> in_box b p) ->
     (forall i, 0 <= i < zlen pts -> zget all (off + i) = zget pts i) ->
     forall f, (off + zlen pts <=? tp = false -> box_not_intersect_sphere b c r2 = false -> box_inside_sphere b c r2 = false -> skip_ok off (zlen pts) f) ->
     skip_ok off (zlen pts) (if off + zlen pts <=? tp then [] else if box_not_intersect_sphere b c r2 then [] else
       if box_inside_sphere b c r2 then map (fun i => off + i) (zrange (zlen pts)) else f)).
  { intros b pts off Hb Hg f Hf.
    destruct (off + zlen pts <=? tp) eqn:E0.
    { split; [constructor|]. split; [intros k []|]. intros k p K1 K2. lia. }
    destruct (box_not_intersect_sphere b c r2) eqn:E1.
    { split; [constructor|]. split; [intros k []|]. intros k p K1 K2 K3 K4.
      specialize (Hg (k - off) ltac:(lia)). replace (off + (k - off)) with k in Hg by lia. rewrite K3 in Hg.
      exfalso. symmetry in Hg. apply zget_In in Hg. pose proof (not_intersect_in b c r2 p (Hb p Hg) E1). lra. }
    destruct (box_inside_sphere b c r2) eqn:E2.
    { split; [|split].
      - apply FinFun.Injective_map_NoDup; [intros x y; lia|apply NoDup_zrange].
      - intros k Hk. apply in_map_iff in Hk. destruct Hk as (i & <- & Hi). apply In_zrange in Hi. split; [lia|].
        destruct (zget_range_Some pts i ltac:(lia)) as (p & Ep). exists p. rewrite Hg by lia. split; [exact Ep|].
        eapply inside_near_in; [apply Hb; eapply zget_In; exact Ep|exact E2].
      - intros k p K1 K2 K3 K4. apply in_map_iff. exists (k - off). split; [lia|]. apply In_zrange. lia. }
    apply Hf; reflexivity. }
  induction n as [b pts|b d l IHl r IHr]; intros off W Hg; pose proof (tree_in_root _ W) as WR; cbn [find_sphere_skip_node tbox tpts] in *.
  - apply HN; [exact WR|exact Hg|]. intros E0 E1 E2.
    set (i0 := if off <? tp then tp - off + 1 else 0).
    assert (HF : forall k, In k (flat_map (fun ip => if (i0 <=? fst ip) && qltb (pdist c (snd ip)) r2 then [off + fst ip] else []) (combine (zrange (zlen pts)) pts)) <->
       exists p, zget pts (k - off) = Some p /\ i0 <= k - off /\ (pdist c p < r2)%Q).
    { intros k. rewrite in_flat_map. split.
      - intros ((i, p) & Hi & Hk). apply in_combine_zrange in Hi. cbn [fst snd] in Hk.
        destruct ((i0 <=? i) && qltb (pdist c p) r2) eqn:E; [|destruct Hk]. destruct Hk as [<-|[]].
        apply andb_true_iff in E. destruct E as (Ea & Eb). apply qltb_true in Eb. exists p. replace (off + i - off) with i by lia. split; [exact Hi|]. split; [lia|exact Eb].
      - intros (p & Hp & H1 & H2). exists (k - off, p). split; [apply in_combine_zrange; exact Hp|]. cbn [fst snd].
        apply qltb_true in H2. rewrite H2. replace (i0 <=? k - off) with true by lia. cbn. left. lia. }
    assert (HD : NoDup (flat_map (fun ip => if (i0 <=? fst ip) && qltb (pdist c (snd ip)) r2 then [off + fst ip] else []) (combine (zrange (zlen pts)) pts))).
    { assert (HND : NoDup (map fst (combine (zrange (zlen pts)) pts))).
      { replace (map fst (combine (zrange (zlen pts)) pts)) with (zrange (zlen pts)); [apply NoDup_zrange|].
        assert (HL : length (zrange (zlen pts)) = length pts) by (rewrite zrange_length; unfold zlen; lia). clear -HL.
        revert HL. generalize (zrange (zlen pts)). induction pts as [|p pts IH]; intros [|z zs] HL; cbn in *; try lia; try reflexivity. f_equal. apply IH. lia. }
      clear -HND. induction (combine (zrange (zlen pts)) pts) as [|(i, p) l IH]; [constructor|]. cbn [flat_map map fst snd] in *.
      inversion HND; subst. apply NoDup_app_intro; [destruct ((i0 <=? i) && qltb (pdist c p) r2); repeat constructor; intros []|apply IH; assumption|].
      intros x Hx Hx'. destruct ((i0 <=? i) && qltb (pdist c p) r2); [|destruct Hx]. destruct Hx as [<-|[]].
      apply in_flat_map in Hx'. destruct Hx' as ((j, q) & Hj & Hq). cbn [fst snd] in Hq. destruct ((i0 <=? j) && qltb (pdist c q) r2); [|destruct Hq].
      destruct Hq as [Hq|[]]. assert (i = j) by lia. subst j. apply H1. apply in_map_iff. exists (i, q). split; [reflexivity|exact Hj]. }
    split; [|split].
    + apply NoDup_app_intro; [destruct (off <? tp); repeat constructor; intros []|exact HD|].
      intros x Hx Hx'. apply HF in Hx'. destruct Hx' as (p & Q1 & Q2 & Q3). destruct (off <? tp) eqn:E3; [|destruct Hx]. destruct Hx as [<-|[]]. subst i0. lia.
    + intros k Hk. apply in_app_iff in Hk. destruct Hk as [Hk|Hk].
      * destruct (off <? tp) eqn:E3; [|destruct Hk]. destruct Hk as [<-|[]]. split; [lia|]. exists p0. split; [exact Htp|apply self_dist].
      * apply HF in Hk. destruct Hk as (p & Q1 & Q2 & Q3). pose proof (zget_Some_range _ _ _ Q1) as R1. split; [lia|]. exists p.
        replace k with (off + (k - off)) by lia. rewrite Hg by lia. split; [exact Q1|lra].
    + intros k p K1 K2 K3 K4. apply in_app_iff. destruct (Z.eq_dec k tp) as [->|Hne].
      * destruct (off <? tp) eqn:E3; [left; left; reflexivity|]. right. apply HF. exists p. specialize (Hg (tp - off) ltac:(lia)).
        replace (off + (tp - off)) with tp in Hg by lia. rewrite K3 in Hg. split; [symmetry; exact Hg|]. split; [subst i0; lia|exact K4].
      * right. apply HF. exists p. specialize (Hg (k - off) ltac:(lia)).
        replace (off + (k - off)) with k in Hg by lia. rewrite K3 in Hg. split; [symmetry; exact Hg|]. split; [subst i0; destruct (off <? tp) eqn:E3; lia|exact K4].
  - apply (HN b (tpts l ++ tpts r)); [exact WR|exact Hg|]. intros E0 E1 E2. cbn [tree_in] in W. destruct W as (_ & Wl & Wr).
    rewrite zlen_app in *. pose proof (zlen_nonneg (tpts l)). pose proof (zlen_nonneg (tpts r)).
    destruct (IHl off Wl) as (A1 & A2 & A3).
    { intros i Hi. rewrite Hg by lia. rewrite zget_app. replace (i <? zlen (tpts l)) with true by lia. reflexivity. }
    destruct (IHr (off + zlen (tpts l)) Wr) as (B1 & B2 & B3).
    { intros i Hi. replace (off + zlen (tpts l) + i) with (off + (zlen (tpts l) + i)) by lia. rewrite Hg by lia. rewrite zget_app.
      replace (zlen (tpts l) + i <? zlen (tpts l)) with false by lia. f_equal. lia. }
    split; [|split].
    + apply NoDup_app_intro; [exact A1|exact B1|]. intros x Hx Hx'. apply A2 in Hx. apply B2 in Hx'. lia.
    + intros k Hk. apply in_app_iff in Hk. destruct Hk as [Hk|Hk]; [destruct (A2 k Hk) as (Q1 & Q2)|destruct (B2 k Hk) as (Q1 & Q2)]; (split; [lia|exact Q2]).
    + intros k p K1 K2 K3 K4. apply in_app_iff. destruct (Z_lt_dec k (off + zlen (tpts l))); [left; eapply A3; eauto; lia|right; eapply B3; eauto; lia].
Qed.
End Skip.

Lemma skip_query pts tp r2 : (0 < r2)%Q -> 0 <= tp < zlen pts ->
  exists t p0 found, fast3tree_build pts = Ok t /\ Permutation (tpts t) pts /\ zget (tpts t) tp = Some p0 /\
  find_sphere_skip t tp r2 = Ok found /\ NoDup found /\ In tp found /\
  (forall k, In k found -> exists p, zget (tpts t) k = Some p /\ (pdist (p_0 p0, p_1 p0) p <= r2)%Q) /\
  (forall k p, tp <= k -> zget (tpts t) k = Some p -> (pdist (p_0 p0, p_1 p0) p < r2)%Q -> In k found).
Proof.
  intros Hr Hi. destruct (build_in pts) as (t & E & P & W).
  assert (HL : zlen (tpts t) = zlen pts) by (unfold zlen; rewrite (Permutation_length P); reflexivity).
  destruct (zget_range_Some (tpts t) tp ltac:(lia)) as (p0 & Ep).
  destruct (skip_node_ok (tpts t) tp p0 r2 Ep Hr t 0 W ltac:(intros; reflexivity)) as (A & B & C).
  exists t, p0. eexists. split; [exact E|]. split; [exact P|]. split; [exact Ep|].
  split; [unfold find_sphere_skip; rewrite (proj2 (cget_ok _ _ _) Ep); reflexivity|]. split; [exact A|]. split; [|split].
  - eapply C; [lia|lia|exact Ep|]. unfold pdist. cbn [fst snd]. nra.
  - intros k Hk. apply B. exact Hk.
  - intros k p K1 K2 K3. eapply C; eauto. apply zget_Some_range in K2. lia.
Qed.

(** * Periodic *)
Lemma sq_lt_range a r : (0 < r)%Q -> (a * a < r * r)%Q -> (- r < a /\ a < r)%Q.
Proof. intros Hr H. split; nra. Qed.

Definition near (r : Q) (c2 : Q * Q) (p : pt) : bool := qltb (pdist c2 p) (r * r)%Q.

Lemma offset_filter t c c2 o r : tree_in t -> (0 < r)%Q ->
  (forall p, In p (tpts t) -> qltb (offset_dist c o p) (r * r) = near r c2 p) ->
  find_sphere_offset t c c2 o r = filter (near r c2) (tpts t).
Proof.
  intros W Hr. unfold near. revert W. induction t as [b pts|b d l IHl r' IHr]; intros W HO; pose proof (tree_in_root _ W) as WR; cbn [find_sphere_offset tbox] in *.
  - destruct (box_not_intersect_sphere b c2 ((r * (101#100)) * (r * (101#100)))%Q) eqn:E1.
    { symmetry. apply filter_none. intros x Hx. apply qltb_false. pose proof (not_intersect_in _ _ _ _ (WR x Hx) E1). nra. }
    destruct (box_inside_sphere b c2 ((r * (99#100)) * (r * (99#100)))%Q) eqn:E2.
    { symmetry. apply filter_all. intros x Hx. apply qltb_true. pose proof (inside_near_in _ _ _ _ (WR x Hx) E2). nra. }
    cbn [tpts] in *. apply filter_ext_in. exact HO.
  - destruct (box_not_intersect_sphere b c2 ((r * (101#100)) * (r * (101#100)))%Q) eqn:E1.
    { symmetry. apply filter_none. intros x Hx. apply qltb_false. pose proof (not_intersect_in _ _ _ _ (WR x Hx) E1). nra. }
    destruct (box_inside_sphere b c2 ((r * (99#100)) * (r * (99#100)))%Q) eqn:E2.
    { symmetry. apply filter_all. intros x Hx. apply qltb_true. pose proof (inside_near_in _ _ _ _ (WR x Hx) E2). nra. }
    cbn [tree_in] in W. destruct W as (_ & Wl & Wr). cbn [tpts] in *. rewrite filter_app.
    rewrite IHl, IHr; [reflexivity|exact Wr| |exact Wl|]; intros p Hp; apply HO; apply in_app_iff; auto.
Qed.

(** One dimension: centre [c], image centre [c2], period or zero [o]. *)
Inductive image_1 (l h c r : Q) : Q -> Q -> Prop :=
| I_same : image_1 l h c r c 0%Q
| I_down : (h < c + r)%Q -> image_1 l h c r (c - (h - l))%Q (h - l)%Q
| I_up : (c - r < l)%Q -> image_1 l h c r (c + (h - l))%Q (h - l)%Q.

Lemma offset_1 l h c r c2 o x : (0 < r)%Q -> (2 * r <= h - l)%Q -> (l <= c <= h)%Q -> (l <= x <= h)%Q -> image_1 l h c r c2 o ->
  let a := ((o - Qabs (c - x)) * (o - Qabs (c - x)))%Q in let b := ((c2 - x) * (c2 - x))%Q in
  (a == b)%Q \/ (r * r <= a /\ r * r <= b)%Q.
Proof.
  intros Hr HL Hc Hx HI. cbv zeta. destruct HI as [|HI|HI].
  - left. apply Qabs_case; intros; ring.
  - apply Qabs_case; intros H.
    + left. ring.
    + right. split; nra.
  - apply Qabs_case; intros H.
    + right. split; nra.
    + left. ring.
Qed.

Lemma offset_2 b c c2 o r p : (0 < r)%Q -> (2 * r <= hi_0 b - lo_0 b)%Q -> (2 * r <= hi_1 b - lo_1 b)%Q ->
  (lo_0 b <= fst c <= hi_0 b)%Q -> (lo_1 b <= snd c <= hi_1 b)%Q -> in_box b p ->
  image_1 (lo_0 b) (hi_0 b) (fst c) r (fst c2) (fst o) -> image_1 (lo_1 b) (hi_1 b) (snd c) r (snd c2) (snd o) ->
  qltb (offset_dist c o p) (r * r) = near r c2 p.
Proof.
  intros Hr L0 L1 C0 C1 Hp I0 I1. pose proof (Hp false) as P0. pose proof (Hp true) as P1. cbn [lo hi coord] in *.
  pose proof (offset_1 _ _ _ _ _ _ _ Hr L0 C0 P0 I0) as A0. pose proof (offset_1 _ _ _ _ _ _ _ Hr L1 C1 P1 I1) as A1.
  unfold near, offset_dist, pdist. cbv zeta in *.
  set (a0 := ((fst o - Qabs (fst c - p_0 p)) * (fst o - Qabs (fst c - p_0 p)))%Q) in *.
  set (b0 := ((fst c2 - p_0 p) * (fst c2 - p_0 p))%Q) in *.
  set (a1 := ((snd o - Qabs (snd c - p_1 p)) * (snd o - Qabs (snd c - p_1 p)))%Q) in *.
  set (b1 := ((snd c2 - p_1 p) * (snd c2 - p_1 p))%Q) in *.
  assert (N : (0 <= a0 /\ 0 <= a1 /\ 0 <= b0 /\ 0 <= b1)%Q) by (repeat split; apply sq_nonneg).
  apply eq_true_iff_eq. rewrite !qltb_true. destruct A0 as [A0|A0]; destruct A1 as [A1|A1]; lra.
Qed.

Lemma filter_or {A} (f g : A -> bool) l : (forall x, In x l -> f x = true -> g x = false) ->
  Permutation (filter f l ++ filter g l) (filter (fun x => f x || g x) l).
Proof.
  induction l as [|a l IH]; [reflexivity|]. intros H. cbn [filter]. assert (H' : forall x, In x l -> f x = true -> g x = false) by (intros; apply H; [right|]; assumption).
  pose proof (H a (or_introl eq_refl)) as Ha. destruct (f a) eqn:Ef.
  - rewrite Ha by reflexivity. cbn [orb app]. apply perm_skip. apply IH. exact H'.
  - cbn [orb]. destruct (g a); [|apply IH; exact H']. rewrite <- Permutation_middle. apply perm_skip. apply IH. exact H'.
Qed.

Lemma filter_if {A} (b : bool) (f : A -> bool) l : (if b then filter f l else []) = filter (fun x => b && f x) l.
Proof. destruct b; cbn [andb]; [reflexivity|]. symmetry. apply filter_none. reflexivity. Qed.

(** A shift of one coordinate is one of the image centres or far. *)
Lemma shift_cases r l h x y i : (0 < r)%Q -> (2 * r <= h - l)%Q -> (l <= x <= h)%Q -> (l <= y <= h)%Q ->
  let d := (x - (y + inject_Z i * (h - l)))%Q in
  (d == x - y)%Q \/ (h < x + r /\ d == x - (h - l) - y)%Q \/ (x - r < l /\ d == x + (h - l) - y)%Q \/ (r * r <= d * d)%Q.
Proof.
  intros Hr HL Hx Hy d. assert (i = 0 \/ i = 1 \/ i = -1 \/ 2 <= i \/ i <= -2) as [->|[->|[->|[Hi|Hi]]]] by lia; subst d.
  - left. change (inject_Z 0) with 0%Q. ring.
  - right. change (inject_Z 1) with 1%Q. destruct (Qlt_le_dec h (x + r)); [left; split; [assumption|ring]|].
    right. right. nra.
  - right. right. change (inject_Z (-1)) with (- (1))%Q. destruct (Qlt_le_dec (x - r) l); [left; split; [assumption|ring]|].
    right. nra.
  - right. right. right. assert (2 <= inject_Z i)%Q by (change 2%Q with (inject_Z 2); rewrite <- Zle_Qle; exact Hi).
    assert (2 * (h - l) <= inject_Z i * (h - l))%Q by nra. set (m := (inject_Z i * (h - l))%Q) in *. assert (r <= - (x - (y + m)))%Q by lra. nra.
  - right. right. right. assert (inject_Z i <= - (2))%Q by (change (- (2))%Q with (inject_Z (-2)); rewrite <- Zle_Qle; exact Hi).
    assert (inject_Z i * (h - l) <= - (2) * (h - l))%Q by nra. set (m := (inject_Z i * (h - l))%Q) in *. assert (r <= x - (y + m))%Q by lra. nra.
Qed.

Section Periodic.
Variables (t : tree) (c : Q * Q) (r : Q).
Let b := tbox t.
Let dims : Q * Q := (hi_0 b - lo_0 b, hi_1 b - lo_1 b)%Q.
Hypothesis W : tree_in t.
Hypothesis Hr : (0 < r)%Q.
Hypothesis L0 : (2 * r <= hi_0 b - lo_0 b)%Q.
Hypothesis L1 : (2 * r <= hi_1 b - lo_1 b)%Q.
Hypothesis C0 : (lo_0 b <= fst c <= hi_0 b)%Q.
Hypothesis C1 : (lo_1 b <= snd c <= hi_1 b)%Q.

Let up_0 := qltb (hi_0 b) (fst c + r).
Let dn_0 := qltb (fst c - r) (lo_0 b).
Let up_1 := qltb (hi_1 b) (snd c + r).
Let dn_1 := qltb (snd c - r) (lo_1 b).

Definition near_0 (y : Q) (p : pt) : bool :=
  near r (fst c, y) p || (up_0 && near r (fst c - fst dims, y)%Q p || dn_0 && near r (fst c + fst dims, y)%Q p).

Definition near_1 (p : pt) : bool :=
  near_0 (snd c) p || (up_1 && near_0 (snd c - snd dims)%Q p || dn_1 && near_0 (snd c + snd dims)%Q p).

Lemma near_apart_0 x x' y y' p : (fst dims <= x - x' \/ fst dims <= x' - x)%Q -> near r (x, y) p = true -> near r (x', y') p = false.
Proof.
  intros H H1. apply qltb_true in H1. unfold near. apply qltb_false. apply Qnot_lt_le. intros H2. unfold pdist in *. cbn [fst snd dims] in *.
  pose proof (sq_nonneg (y - p_1 p)). pose proof (sq_nonneg (y' - p_1 p)).
  destruct (sq_lt_range (x - p_0 p) r Hr ltac:(lra)). destruct (sq_lt_range (x' - p_0 p) r Hr ltac:(lra)). lra.
Qed.

Lemma near_apart_1 x x' y y' p : (snd dims <= y - y' \/ snd dims <= y' - y)%Q -> near r (x, y) p = true -> near r (x', y') p = false.
Proof.
  intros H H1. apply qltb_true in H1. unfold near. apply qltb_false. apply Qnot_lt_le. intros H2. unfold pdist in *. cbn [fst snd dims] in *.
  pose proof (sq_nonneg (x - p_0 p)). pose proof (sq_nonneg (x' - p_0 p)).
  destruct (sq_lt_range (y - p_1 p) r Hr ltac:(lra)). destruct (sq_lt_range (y' - p_1 p) r Hr ltac:(lra)). lra.
Qed.

Lemma near_0_apart y y' p : (snd dims <= y - y' \/ snd dims <= y' - y)%Q -> near_0 y p = true -> near_0 y' p = false.
Proof.
  intros H H1. unfold near_0 in *.
  assert (HA : forall x', near r (x', y') p = false).
  { intros x'. rewrite !orb_true_iff, !andb_true_iff in H1.
    destruct H1 as [H1|[(_ & H1)|(_ & H1)]]; eapply near_apart_1; eauto. }
  rewrite !HA, !andb_false_r. reflexivity.
Qed.

Lemma root_in p : In p (tpts t) -> in_box b p.
Proof. apply tree_in_root. exact W. Qed.

Lemma periodic_0 y o1 o0 : image_1 (lo_1 b) (hi_1 b) (snd c) r y o1 ->
  Permutation (periodic_dim_0 t c (fst c, y) (o0, o1) r dims) (filter (near_0 y) (tpts t)).
Proof.
  intros I1. unfold periodic_dim_0. cbn [fst snd]. fold b up_0 dn_0.
  assert (HE : forall x o, image_1 (lo_0 b) (hi_0 b) (fst c) r x o ->
     find_sphere_offset t c (x, y) (o, o1) r = filter (near r (x, y)) (tpts t)).
  { intros x o I0. apply offset_filter; [exact W|exact Hr|]. intros p Hp. eapply offset_2; try eassumption. apply root_in. exact Hp. }
  rewrite HE by constructor.
  replace (if up_0 then find_sphere_offset t c (fst c - fst dims, y)%Q (fst dims, o1) r else [])
    with (filter (fun p => up_0 && near r (fst c - fst dims, y)%Q p) (tpts t)).
  2: { rewrite <- filter_if. destruct up_0 eqn:E; [|reflexivity]. symmetry. apply HE. constructor. apply qltb_true in E. exact E. }
  replace (if dn_0 then find_sphere_offset t c (fst c + fst dims, y)%Q (fst dims, o1) r else [])
    with (filter (fun p => dn_0 && near r (fst c + fst dims, y)%Q p) (tpts t)).
  2: { rewrite <- filter_if. destruct dn_0 eqn:E; [|reflexivity]. symmetry. apply HE. constructor. apply qltb_true in E. exact E. }
  assert (HD : (0 < fst dims)%Q) by (cbn; lra).
  etransitivity; [apply Permutation_app_head; apply filter_or|apply filter_or].
  - intros p Hp H. apply andb_true_iff in H. rewrite (near_apart_0 (fst c - fst dims) (fst c + fst dims) y y p ltac:(lra) (proj2 H)). apply andb_false_r.
  - intros p Hp H. rewrite (near_apart_0 (fst c) (fst c - fst dims) y y p ltac:(lra) H), (near_apart_0 (fst c) (fst c + fst dims) y y p ltac:(lra) H). rewrite !andb_false_r. reflexivity.
Qed.

Lemma periodic_1 : Permutation (periodic_dim_1 t c c (0, 0)%Q r dims) (filter near_1 (tpts t)).
Proof.
  unfold periodic_dim_1. cbn [fst snd]. fold b up_1 dn_1.
  assert (HD : (0 < snd dims)%Q) by (cbn; lra).
  etransitivity; [apply Permutation_app|].
  { replace c with (fst c, snd c) at 2 by (destruct c; reflexivity). apply periodic_0. constructor. }
  { apply Permutation_app.
    - instantiate (1 := filter (fun p => up_1 && near_0 (snd c - snd dims)%Q p) (tpts t)). rewrite <- filter_if.
      destruct up_1 eqn:E; [|reflexivity]. apply periodic_0. constructor. apply qltb_true in E. exact E.
    - instantiate (1 := filter (fun p => dn_1 && near_0 (snd c + snd dims)%Q p) (tpts t)). rewrite <- filter_if.
      destruct dn_1 eqn:E; [|reflexivity]. apply periodic_0. constructor. apply qltb_true in E. exact E. }
  etransitivity; [apply Permutation_app_head; apply filter_or|apply filter_or].
  - intros p Hp H. apply andb_true_iff in H. rewrite (near_0_apart (snd c - snd dims) (snd c + snd dims) p ltac:(lra) (proj2 H)). apply andb_false_r.
  - intros p Hp H. rewrite (near_0_apart (snd c) (snd c - snd dims) p ltac:(lra) H), (near_0_apart (snd c) (snd c + snd dims) p ltac:(lra) H). rewrite !andb_false_r. reflexivity.
Qed.

Lemma near_1_iff p : In p (tpts t) -> (near_1 p = true <-> exists i j, (image_dist c dims p i j < r * r)%Q).
Proof.
  intros Hp. pose proof (root_in p Hp) as HB. pose proof (HB false) as P0. pose proof (HB true) as P1. cbn [lo hi coord] in *. split.
  - intros H. 
    assert (HN : forall x y, near r (x, y) p = true -> forall i j, (x == fst c - inject_Z i * fst dims)%Q -> (y == snd c - inject_Z j * snd dims)%Q ->
      exists i j, (image_dist c dims p i j < r * r)%Q).
    { intros x y Hn i j Ex Ey. exists i, j. apply qltb_true in Hn. unfold pdist, image_dist in *. cbn [fst snd] in *. rewrite Ex, Ey in Hn.
      eapply Qle_lt_trans; [|exact Hn]. apply Qle_lteq. right. ring. }
    assert (H0 : forall y j, near_0 y p = true -> (y == snd c - inject_Z j * snd dims)%Q -> exists i j, (image_dist c dims p i j < r * r)%Q).
    { intros y j Hn Ey. unfold near_0 in Hn. rewrite !orb_true_iff, !andb_true_iff in Hn. destruct Hn as [Hn|[(_ & Hn)|(_ & Hn)]].
      - apply (HN _ _ Hn 0 j); [change (inject_Z 0) with 0%Q; ring|exact Ey].
      - apply (HN _ _ Hn 1 j); [change (inject_Z 1) with 1%Q; ring|exact Ey].
      - apply (HN _ _ Hn (-1) j); [change (inject_Z (-1)) with (- (1))%Q; ring|exact Ey]. }
    unfold near_1 in H. rewrite !orb_true_iff, !andb_true_iff in H. destruct H as [H|[(_ & H)|(_ & H)]].
    + apply (H0 _ 0 H). change (inject_Z 0) with 0%Q. ring.
    + apply (H0 _ 1 H). change (inject_Z 1) with 1%Q. ring.
    + apply (H0 _ (-1) H). change (inject_Z (-1)) with (- (1))%Q. ring.
  - intros (i & j & H). unfold image_dist in H. cbn [fst snd dims] in H.
    pose proof (shift_cases r _ _ _ _ i Hr L0 C0 P0) as S0. pose proof (shift_cases r _ _ _ _ j Hr L1 C1 P1) as S1. cbv zeta in S0, S1.
    set (d0 := (fst c - (p_0 p + inject_Z i * (hi_0 b - lo_0 b)))%Q) in *.
    set (d1 := (snd c - (p_1 p + inject_Z j * (hi_1 b - lo_1 b)))%Q) in *.
    pose proof (sq_nonneg d0). pose proof (sq_nonneg d1).
    assert (HX : forall x y, (d0 == x - p_0 p)%Q -> (d1 == y - p_1 p)%Q -> near r (x, y) p = true).
    { intros x y Ex Ey. apply qltb_true. unfold pdist. cbn [fst snd]. rewrite <- Ex, <- Ey. exact H. }
    assert (HY : forall y, (d1 == y - p_1 p)%Q -> near_0 y p = true).
    { intros y Ey. unfold near_0. rewrite !orb_true_iff, !andb_true_iff. destruct S0 as [S0|[(U & S0)|[(U & S0)|S0]]].
      - left. apply HX; assumption.
      - right. left. split; [apply qltb_true; exact U|apply HX; assumption].
      - right. right. split; [apply qltb_true; exact U|apply HX; assumption].
      - lra. }
    unfold near_1. rewrite !orb_true_iff, !andb_true_iff. destruct S1 as [S1|[(U & S1)|[(U & S1)|S1]]].
    + left. apply HY; assumption.
    + right. left. split; [apply qltb_true; exact U|apply HY; assumption].
    + right. right. split; [apply qltb_true; exact U|apply HY; assumption].
    + lra.
Qed.
End Periodic.
