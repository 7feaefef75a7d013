(** Lemmas on the periodic query as a whole, the renewal of the boxes and the
    points that are not finite. *)
From Coq Require Import Permutation QArith Qabs Lqa Lia ZifyBool ZifyNat.
From Verif Require Import Base BoundsM Fast3tree Fast3treeQ SpecUberseg SpecTreeQ.
From Verif Require Import BaseLemmas CompositeLemmas FtLemmas TreeQLemmas TreeQLemmas2.
Open Scope Z_scope.

Lemma sphere_inside_iff b c r : sphere_inside_box b c r = true <->
  (lo_0 b <= fst c - r /\ fst c + r <= hi_0 b /\ lo_1 b <= snd c - r /\ snd c + r <= hi_1 b)%Q.
Proof. unfold sphere_inside_box. rewrite !andb_true_iff, !negb_true_iff, !qltb_false. tauto. Qed.

(** Inside the box no image other than the point itself is nearer than the radius. *)
Lemma inside_no_image b c r p i j : (0 < r)%Q -> sphere_inside_box b c r = true -> in_box b p ->
  (r * r <= pdist c p)%Q -> (r * r <= image_dist c (hi_0 b - lo_0 b, hi_1 b - lo_1 b)%Q p i j)%Q.
Proof.
  intros Hr Hs Hb Hf. apply sphere_inside_iff in Hs. destruct Hs as (S1 & S2 & S3 & S4).
  pose proof (Hb false) as P0. pose proof (Hb true) as P1. cbn [lo hi coord] in *.
  assert (HK : forall l h x y k, (l <= x - r)%Q -> (x + r <= h)%Q -> (l <= y <= h)%Q ->
     let d := (x - (y + inject_Z k * (h - l)))%Q in (d == x - y)%Q \/ (r * r <= d * d)%Q).
  { intros l h x y k A B C. pose proof (shift_cases r l h x y k Hr ltac:(lra) ltac:(lra) C) as H. cbv zeta in *.
    destruct H as [H|[(U & H)|[(U & H)|H]]]; [left; exact H|lra|lra|right; exact H]. }
  unfold image_dist. cbn [fst snd]. pose proof (HK _ _ _ _ i S1 S2 P0) as K0. pose proof (HK _ _ _ _ j S3 S4 P1) as K1. cbv zeta in *.
  set (d0 := (fst c - (p_0 p + inject_Z i * (hi_0 b - lo_0 b)))%Q) in *.
  set (d1 := (snd c - (p_1 p + inject_Z j * (hi_1 b - lo_1 b)))%Q) in *.
  pose proof (sq_nonneg d0). pose proof (sq_nonneg d1).
  destruct K0 as [K0|K0]; [|lra]. destruct K1 as [K1|K1]; [|lra]. unfold pdist in Hf. rewrite K0, K1. exact Hf.
Qed.

Lemma image_zero c dims p : (image_dist c dims p 0 0 == pdist c p)%Q.
Proof. unfold image_dist, pdist. cbn [fst snd]. change (inject_Z 0) with 0%Q. ring. Qed.

Lemma periodic_inside t found c r : sphere_inside_box (tbox t) c r = true ->
  find_sphere_periodic t found c r = (2, find_sphere t c (r * r)%Q).
Proof. intros H. unfold find_sphere_periodic. rewrite H. reflexivity. Qed.

Lemma periodic_general t found c r : tree_in t -> (0 < r)%Q ->
  let b := tbox t in let dims := (hi_0 b - lo_0 b, hi_1 b - lo_1 b)%Q in
  (lo_0 b <= fst c <= hi_0 b)%Q -> (lo_1 b <= snd c <= hi_1 b)%Q ->
  let '(code, res) := find_sphere_periodic t found c r in
  ((fst dims < 2 * r \/ snd dims < 2 * r)%Q /\ code = 0 /\ res = found) \/
  ((2 * r <= fst dims /\ 2 * r <= snd dims)%Q /\ (code = 1 \/ code = 2) /\
   exists rest, Permutation (res ++ rest) (tpts t) /\
   (forall p, In p res -> exists i j, (image_dist c dims p i j <= r * r)%Q) /\
   (forall p, In p rest -> forall i j, (r * r <= image_dist c dims p i j)%Q)).
Proof.
  intros W Hr b dims C0 C1. unfold find_sphere_periodic. fold b. destruct (sphere_inside_box b c r) eqn:ES.
  - right. pose proof (proj1 (sphere_inside_iff _ _ _) ES) as (S1 & S2 & S3 & S4). cbn [fst snd dims].
    split; [split; lra|]. split; [auto|]. destruct (find_sphere_in t c (r * r)%Q W) as (rest & A & B & C).
    exists rest. split; [exact A|]. split.
    + intros p Hp. exists 0, 0. rewrite image_zero. apply B. exact Hp.
    + intros p Hp i j. apply inside_no_image; [exact Hr|exact ES| |apply C; exact Hp].
      apply (tree_in_root _ W). eapply Permutation_in; [exact A|]. apply in_app_iff. auto.
  - cbn [fst snd]. destruct (qltb (hi_0 b - lo_0 b) (r * 2)) eqn:E0.
    { left. apply qltb_true in E0. cbn [fst snd dims]. split; [left; lra|auto]. }
    destruct (qltb (hi_1 b - lo_1 b) (r * 2)) eqn:E1.
    { left. apply qltb_true in E1. cbn [fst snd dims]. split; [right; lra|auto]. }
    apply qltb_false in E0. apply qltb_false in E1. right. cbn [fst snd dims]. split; [split; lra|]. split; [auto|].
    assert (L0 : (2 * r <= hi_0 b - lo_0 b)%Q) by lra. assert (L1 : (2 * r <= hi_1 b - lo_1 b)%Q) by lra.
    pose proof (periodic_1 t c r W Hr L0 L1 C0 C1) as HP.
    exists (filter (fun p => negb (near_1 t c r p)) (tpts t)). split; [|split].
    + fold b in HP. rewrite HP. apply filter_split.
    + intros p Hp. apply (Permutation_in p HP) in Hp. apply filter_In in Hp. destruct Hp as (Hp & Hn).
      apply (near_1_iff t c r W Hr L0 L1 C0 C1 p Hp) in Hn. destruct Hn as (i & j & Hn). exists i, j. apply Qlt_le_weak. exact Hn.
    + intros p Hp i j. apply filter_In in Hp. destruct Hp as (Hp & Hn). apply negb_true_iff in Hn.
      apply Qnot_lt_le. intros HC. apply not_true_iff_false in Hn. apply Hn. apply (near_1_iff t c r W Hr L0 L1 C0 C1 p Hp). exists i, j. exact HC.
Qed.

Lemma set_minmax_in t mn mx : tree_in t -> (forall p, In p (tpts t) -> forall d, (mn <= coord d p <= mx)%Q) -> tree_in (set_minmax t mn mx).
Proof.
  intros W H. assert (HB : forall p, In p (tpts t) -> in_box (mkBox mn mn mx mx) p) by (intros p Hp d; specialize (H p Hp d); destruct d; exact H).
  destruct t as [b pts|b d l r]; cbn [set_minmax tree_in tbox tpts] in *; tauto.
Qed.

Lemma tpts_set_minmax t mn mx : tpts (set_minmax t mn mx) = tpts t.
Proof. destruct t; reflexivity. Qed.
Lemma tbox_set_minmax t mn mx : tbox (set_minmax t mn mx) = mkBox mn mn mx mx.
Proof. destruct t; reflexivity. Qed.

Lemma periodic_minmax pts mn mx found c r : (0 < r)%Q -> (forall p, In p pts -> forall d, (mn <= coord d p <= mx)%Q) ->
  (mn <= fst c <= mx)%Q -> (mn <= snd c <= mx)%Q ->
  let period := ((mx - mn)%Q, (mx - mn)%Q) in
  exists t, fast3tree_build pts = Ok t /\
  let '(code, res) := find_sphere_periodic (set_minmax t mn mx) found c r in
  ((mx - mn < 2 * r)%Q /\ code = 0 /\ res = found) \/
  ((2 * r <= mx - mn)%Q /\ (code = 1 \/ code = 2) /\
   exists rest, Permutation (res ++ rest) pts /\
   (forall p, In p res -> exists i j, (image_dist c period p i j <= r * r)%Q) /\
   (forall p, In p rest -> forall i j, (r * r <= image_dist c period p i j)%Q)).
Proof.
  intros Hr Hp C0 C1 period. destruct (build_in pts) as (t & E & P & W). exists t. split; [exact E|].
  assert (HP : forall p, In p (tpts t) -> forall d, (mn <= coord d p <= mx)%Q) by (intros p Hq; apply Hp; eapply Permutation_in; eassumption).
  pose proof (periodic_general (set_minmax t mn mx) found c r (set_minmax_in t mn mx W HP) Hr) as H. cbv zeta in H.
  rewrite tbox_set_minmax, tpts_set_minmax in H. cbn [lo_0 lo_1 hi_0 hi_1 fst snd] in H. specialize (H C0 C1).
  destruct (find_sphere_periodic (set_minmax t mn mx) found c r) as (code, res). destruct H as [(H1 & H2)|(H1 & H2 & rest & H3 & H4)].
  - left. split; [tauto|exact H2].
  - right. split; [tauto|]. split; [exact H2|]. exists rest. split; [rewrite H3; exact P|exact H4].
Qed.

(** With the boxes of the build the period is the extent of the points. *)
Lemma periodic_own pts found c r : pts <> [] -> (0 < r)%Q ->
  exists t b, fast3tree_build pts = Ok t /\ bounding b pts /\
  ((lo_0 b <= fst c <= hi_0 b)%Q -> (lo_1 b <= snd c <= hi_1 b)%Q ->
   let period := (hi_0 b - lo_0 b, hi_1 b - lo_1 b)%Q in
   let '(code, res) := find_sphere_periodic t found c r in
   ((fst period < 2 * r \/ snd period < 2 * r)%Q /\ code = 0 /\ res = found) \/
   ((2 * r <= fst period /\ 2 * r <= snd period)%Q /\ (code = 1 \/ code = 2) /\
    exists rest, Permutation (res ++ rest) pts /\
    (forall p, In p res -> exists i j, (image_dist c period p i j <= r * r)%Q) /\
    (forall p, In p rest -> forall i j, (r * r <= image_dist c period p i j)%Q))).
Proof.
  intros Hne Hr. destruct (build_ok pts) as (t & E & P & Wf). specialize (Wf Hne). exists t, (tbox t). split; [exact E|].
  assert (HB : bounding (tbox t) (tpts t)) by (destruct t; cbn in *; tauto).
  split; [eapply bounding_perm; eassumption|]. intros C0 C1.
  pose proof (periodic_general t found c r (wf_tree_in _ Wf) Hr C0 C1) as H. cbv zeta in *.
  destruct (find_sphere_periodic t found c r) as (code, res). destruct H as [H|(H1 & H2 & rest & H3 & H4)]; [left; exact H|].
  right. split; [exact H1|]. split; [exact H2|]. exists rest. split; [rewrite H3; exact P|exact H4].
Qed.

(** * New positions *)
Lemma skipn_add {A} (l : list A) : forall a b, skipn b (skipn a l) = skipn (a + b) l.
Proof. induction l as [|x l IH]; intros [|a] b; cbn; try reflexivity; [apply skipn_nil|apply IH]. Qed.

Lemma set_points_spec t : forall l, zlen (tpts t) <= zlen l ->
  tpts (fst (set_points t l)) = firstn (length (tpts t)) l /\ snd (set_points t l) = skipn (length (tpts t)) l.
Proof.
  unfold zlen. induction t as [b pts|b d t1 IH1 t2 IH2]; intros l Hl; cbn [set_points tpts fst snd] in *; [auto|].
  rewrite app_length in *. destruct (IH1 l ltac:(lia)) as (A & B). destruct (set_points t1 l) as (t1', l1). cbn [fst snd] in *.
  subst l1. destruct (IH2 (skipn (length (tpts t1)) l) ltac:(rewrite skipn_length; lia)) as (C & D).
  destruct (set_points t2 (skipn (length (tpts t1)) l)) as (t2', l2). cbn [fst snd tpts] in *. split.
  - rewrite A, C. rewrite <- (firstn_skipn (length (tpts t1)) (firstn (length (tpts t1) + length (tpts t2)) l)). f_equal.
    + rewrite firstn_firstn. f_equal. lia.
    + rewrite skipn_firstn_comm. f_equal. lia.
  - rewrite D. apply skipn_add.
Qed.

Fixpoint leaves_filled (t : tree) : Prop :=
  match t with TLeaf _ pts => pts <> [] | TNode _ _ l r => leaves_filled l /\ leaves_filled r end.

Lemma wf_filled t : tree_wf t -> leaves_filled t.
Proof.
  induction t as [b pts|b d l IHl r IHr]; cbn [tree_wf leaves_filled].
  - intros H ->. destruct (H false) as (_ & (p & [] & _) & _).
  - intros (_ & _ & _ & _ & Wl & Wr). auto.
Qed.

Lemma set_points_filled t : forall l, zlen (tpts t) <= zlen l -> leaves_filled t -> leaves_filled (fst (set_points t l)).
Proof.
  unfold zlen. induction t as [b pts|b d t1 IH1 t2 IH2]; intros l Hl; cbn [set_points tpts fst snd leaves_filled] in *.
  - intros Hne C. apply (f_equal (@length _)) in C. rewrite firstn_length_le in C by lia. destruct pts; [congruence|discriminate].
  - intros (F1 & F2). rewrite app_length in Hl. pose proof (set_points_spec t1 l ltac:(unfold zlen; lia)) as (A & B).
    specialize (IH1 l ltac:(lia) F1). destruct (set_points t1 l) as (t1', l1). cbn [fst snd] in *. subst l1.
    specialize (IH2 (skipn (length (tpts t1)) l) ltac:(rewrite skipn_length; lia) F2).
    destruct (set_points t2 (skipn (length (tpts t1)) l)) as (t2', l2). cbn [fst leaves_filled] in *. auto.
Qed.

Lemma join_dim_ok ll lh rl rh : (ll <= lh)%Q -> (rl <= rh)%Q -> let j := join_dim ll lh rl rh in
  (fst j <= ll /\ fst j <= rl /\ lh <= snd j /\ rh <= snd j)%Q /\ (fst j = ll \/ fst j = rl) /\ (snd j = lh \/ snd j = rh).
Proof.
  intros H1 H2. unfold join_dim. cbn [fst snd]. destruct (qltb rl ll) eqn:E1; destruct (qltb rh lh) eqn:E2;
  repeat match goal with E : qltb _ _ = true |- _ => apply qltb_true in E | E : qltb _ _ = false |- _ => apply qltb_false in E end;
  (split; [repeat split; lra|auto]).
Qed.

Lemma boxes_root t : boxes_exact t -> bounding (tbox t) (tpts t).
Proof. destruct t; cbn; unfold bounding; tauto. Qed.

Lemma maxmin_ok t : leaves_filled t -> exists t', maxmin_rebuild t = Ok t' /\ tpts t' = tpts t /\ boxes_exact t'.
Proof.
  induction t as [b pts|b d l IHl r IHr]; cbn [leaves_filled maxmin_rebuild].
  - intros Hne. destruct pts as [|p ps]; [congruence|]. replace (0 <? zlen (p :: ps)) with true by (unfold zlen; cbn [length]; lia).
    destruct (find_minmax_ok p ps) as (b' & Eb & Hb). rewrite Eb. cbn [bind]. eexists. split; [reflexivity|]. split; [reflexivity|].
    cbn [boxes_exact tbox tpts]. split; [exact Hb|exact I].
  - intros (Fl & Fr). destruct (IHl Fl) as (l' & El & Tl & Bl). destruct (IHr Fr) as (r' & Er & Tr & Br).
    rewrite El, Er. cbn [bind]. eexists. split; [reflexivity|]. cbn [tpts boxes_exact tbox]. split; [rewrite Tl, Tr; reflexivity|]. split; [|auto].
    pose proof (boxes_root _ Bl) as Hl. pose proof (boxes_root _ Br) as Hr'.
    set (bl := tbox l') in *. set (br := tbox r') in *.
    set (j0 := join_dim (lo_0 bl) (hi_0 bl) (lo_0 br) (hi_0 br)). set (j1 := join_dim (lo_1 bl) (hi_1 bl) (lo_1 br) (hi_1 br)).
    assert (HD : forall e : bool, let j := join_dim (lo e bl) (hi e bl) (lo e br) (hi e br) in
       (forall p, In p (tpts l' ++ tpts r') -> (fst j <= coord e p <= snd j)%Q) /\
       (exists p, In p (tpts l' ++ tpts r') /\ (coord e p == fst j)%Q) /\ (exists p, In p (tpts l' ++ tpts r') /\ (coord e p == snd j)%Q)).
    { intros e. destruct (Hl e) as (A1 & (pl & A2 & A3) & (ql & A4 & A5)). destruct (Hr' e) as (B1 & (pr & B2 & B3) & (qr & B4 & B5)).
      assert (HA : (lo e bl <= hi e bl)%Q) by (specialize (A1 pl A2); lra). assert (HBB : (lo e br <= hi e br)%Q) by (specialize (B1 pr B2); lra).
      destruct (join_dim_ok _ _ _ _ HA HBB) as ((J1 & J2 & J3 & J4) & J5 & J6). cbv zeta. split; [|split].
      - intros p Hp. apply in_app_iff in Hp. destruct Hp as [Hp|Hp]; [specialize (A1 p Hp)|specialize (B1 p Hp)]; lra.
      - destruct J5 as [J5|J5]; rewrite J5; [exists pl|exists pr]; (split; [apply in_app_iff; auto|assumption]).
      - destruct J6 as [J6|J6]; rewrite J6; [exists ql|exists qr]; (split; [apply in_app_iff; auto|assumption]). }
    intros [|]; [exact (HD true)|exact (HD false)].
Qed.

Lemma boxes_in t : boxes_exact t -> tree_in t.
Proof.
  induction t as [b pts|b d l IHl r IHr]; cbn [boxes_exact tree_in].
  - intros (H & _). split; [|exact I]. intros p Hp d. destruct (H d) as (H1 & _). apply H1. exact Hp.
  - intros (H & Hl & Hr). split; [|auto]. intros p Hp e. destruct (H e) as (H1 & _). apply H1. exact Hp.
Qed.

Lemma moved_points pts new : pts <> [] -> zlen new = zlen pts ->
  exists t t', fast3tree_build pts = Ok t /\ maxmin_rebuild (fst (set_points t new)) = Ok t' /\
  tpts t' = new /\ boxes_exact t' /\
  (forall c r2, sphere_exact new (find_sphere t' c r2) c r2) /\
  (forall b, selects (in_box b) new (find_inside_of_box t' b) /\ selects (fun p => ~ in_box b p) new (find_outside_of_box t' b)).
Proof.
  intros Hne HL. destruct (build_ok pts) as (t & E & P & Wf). specialize (Wf Hne). exists t.
  assert (HLt : zlen (tpts t) = zlen new) by (rewrite HL; unfold zlen; rewrite (Permutation_length P); reflexivity).
  destruct (set_points_spec t new ltac:(lia)) as (A & _).
  destruct (maxmin_ok _ (set_points_filled t new ltac:(lia) (wf_filled _ Wf))) as (t' & Et & Tt & Bt).
  assert (HT : tpts t' = new) by (rewrite Tt, A; apply firstn_all2; unfold zlen in HLt; lia).
  exists t'. split; [exact E|]. split; [exact Et|]. split; [exact HT|]. split; [exact Bt|]. pose proof (boxes_in _ Bt) as W.
  split; [intros c r2; rewrite <- HT; apply find_sphere_in; exact W|].
  intros b. rewrite <- HT. rewrite find_inside_filter, find_outside_filter by exact W. split; apply selects_filter; intros p _.
  - apply point_in_box_iff.
  - rewrite negb_true_iff, <- not_true_iff_false, point_in_box_iff. reflexivity.
Qed.

Lemma box_eq_unique b b' pts : bounding b pts -> bounding b' pts -> forall d, (lo d b == lo d b' /\ hi d b == hi d b')%Q.
Proof.
  intros H H' d. destruct (H d) as (A1 & (p & A2 & A3) & (q & A4 & A5)). destruct (H' d) as (B1 & (p' & B2 & B3) & (q' & B4 & B5)).
  pose proof (A1 _ B2). pose proof (A1 _ B4). pose proof (B1 _ A2). pose proof (B1 _ A4). split; apply Qle_antisym; lra.
Qed.

(** * Points that are not finite *)
Lemma drop_loop_ok fuel : forall p i n, 0 <= i <= n -> n <= zlen p -> (Z.to_nat (n - i) <= fuel)%nat ->
  (forall k x, 0 <= k < i -> zget p k = Some x -> finite x = true) ->
  (forall k x, n <= k -> zget p k = Some x -> finite x = false) ->
  exists p' n', drop_loop fuel p i n = Ok (p', n') /\ Permutation p' p /\ 0 <= n' <= zlen p' /\
    (forall k x, 0 <= k < n' -> zget p' k = Some x -> finite x = true) /\
    (forall k x, n' <= k -> zget p' k = Some x -> finite x = false).
Proof.
  induction fuel as [|fuel IH]; intros p i n Hi Hn Hf H1 H2; cbn [drop_loop].
  - replace (i <? n) with false by lia. exists p, n. assert (i = n) by lia. subst i. split; [reflexivity|]. split; [reflexivity|]. split; [lia|]. split; assumption.
  - destruct (i <? n) eqn:E.
    2: { exists p, n. assert (i = n) by lia. subst i. split; [reflexivity|]. split; [reflexivity|]. split; [lia|]. split; assumption. }
    destruct (zget_range_Some p i ltac:(lia)) as (x & Ex). destruct (zget_range_Some p (n - 1) ltac:(lia)) as (y & Ey). rewrite Ex, Ey.
    destruct (finite x) eqn:EF.
    + apply IH; try lia; [|exact H2]. intros k z Hk Hz. destruct (Z.eq_dec k i) as [->|]; [congruence|]. apply (H1 k); [lia|exact Hz].
    + assert (HG : forall m, zget (upd (upd p (Z.to_nat i) y) (Z.to_nat (n - 1)) x) m =
         if m =? n - 1 then Some x else if m =? i then Some y else zget p m).
      { intros m. assert (HU : forall (l : list fpt) k v m, 0 <= k < zlen l -> zget (upd l (Z.to_nat k) v) m = if m =? k then Some v else zget l m).
        { clear. intros l k v m Hk. destruct (Z_lt_dec m 0).
          - replace (m =? k) with false by lia. unfold zget. destruct (m <? 0) eqn:?; [reflexivity|lia].
          - unfold zget. replace (m <? 0) with false by lia. unfold zlen in Hk.
            assert (HQ : (Z.to_nat k < length l)%nat) by lia. destruct (m =? k) eqn:EQ.
            + assert (m = k) by lia. subst m. revert HQ. generalize (Z.to_nat k). clear. induction l as [|a l IH]; intros [|k] HQ; cbn in *; try lia; [reflexivity|]. apply IH. lia.
            + assert (HNE : Z.to_nat m <> Z.to_nat k) by lia. revert HNE HQ. generalize (Z.to_nat m) (Z.to_nat k). clear.
              induction l as [|a l IH]; intros [|m] [|k] HNE HQ; cbn in *; try lia; try reflexivity. apply IH; lia. }
        assert (HLu : zlen (upd p (Z.to_nat i) y) = zlen p).
        { unfold zlen. f_equal. clear. generalize (Z.to_nat i). induction p as [|a p IH]; intros [|k]; cbn; auto. }
        rewrite HU by (rewrite HLu; lia). rewrite HU by lia. reflexivity. }
      assert (HP : Permutation (upd (upd p (Z.to_nat i) y) (Z.to_nat (n - 1)) x) p).
      { destruct (Z.eq_dec i (n - 1)) as [->|Hne].
        - assert (x = y) by congruence. subst y. assert (HS : forall (l : list fpt) k v, nth_error l k = Some v -> upd l k v = l).
          { clear. induction l as [|a l IH]; intros [|k] v Hv; cbn in *; try discriminate; [congruence|]. f_equal. apply IH. exact Hv. }
          assert (HN : nth_error p (Z.to_nat (n - 1)) = Some x). { unfold zget in Ex. destruct (n - 1 <? 0); [discriminate|exact Ex]. }
          rewrite !HS; [reflexivity|exact HN|]. rewrite HS by exact HN. exact HN.
        - assert (HSW : forall (l : list fpt) a b0 u v, (a <> b0)%nat -> upd (upd l a u) b0 v = upd (upd l b0 v) a u).
          { clear. induction l as [|h l IH]; intros [|a] [|b0] u v Hab; cbn; try congruence. f_equal. apply IH. congruence. }
          rewrite HSW by lia.
          assert (HN1 : nth_error p (Z.to_nat (n - 1)) = Some y). { unfold zget in Ey. destruct (n - 1 <? 0); [discriminate|exact Ey]. }
          assert (HN0 : nth_error p (Z.to_nat i) = Some x). { unfold zget in Ex. destruct (i <? 0); [discriminate|exact Ex]. }
          apply swap_perm; [lia|exact HN0|exact HN1]. }
      destruct (IH (upd (upd p (Z.to_nat i) y) (Z.to_nat (n - 1)) x) i (n - 1)) as (p' & n' & R1 & R2 & R3).
      * lia.
      * unfold zlen in *. rewrite (Permutation_length HP). lia.
      * lia.
      * intros k z Hk Hz. rewrite HG in Hz. replace (k =? n - 1) with false in Hz by lia. replace (k =? i) with false in Hz by lia. apply (H1 k); [lia|exact Hz].
      * intros k z Hk Hz. rewrite HG in Hz. destruct (k =? n - 1) eqn:Ek; [congruence|]. replace (k =? i) with false in Hz by lia. apply (H2 k); [lia|exact Hz].
      * exists p', n'. split; [exact R1|]. split; [rewrite R2; exact HP|exact R3].
Qed.

(** The finite ones among points, as points of the tree. *)
Fixpoint finite_pts (l : list fpt) : list pt :=
  match l with [] => [] | p :: l' => match to_pt p with Some q => q :: finite_pts l' | None => finite_pts l' end end.

Lemma finite_pts_perm l l' : Permutation l l' -> Permutation (finite_pts l) (finite_pts l').
Proof.
  induction 1; cbn [finite_pts]; [reflexivity| | |etransitivity; eassumption].
  - destruct (to_pt x); [apply perm_skip; assumption|assumption].
  - destruct (to_pt x); destruct (to_pt y); try reflexivity. apply perm_swap.
Qed.

Lemma finite_pts_app l l' : finite_pts (l ++ l') = finite_pts l ++ finite_pts l'.
Proof. induction l as [|p l IH]; [reflexivity|]. cbn. destruct (to_pt p); cbn; rewrite IH; reflexivity. Qed.

Lemma as_pts_ok l : (forall x, In x l -> finite x = true) -> as_pts l = Ok (finite_pts l).
Proof.
  unfold as_pts. induction l as [|p l IH]; [reflexivity|]. intros H. cbn [mapM finite_pts].
  pose proof (H p (or_introl eq_refl)) as Hp. unfold finite in Hp. destruct (to_pt p) as [q|]; [|discriminate]. cbn [bind].
  rewrite IH by (intros; apply H; right; assumption). reflexivity.
Qed.

Lemma finite_pts_none l : (forall x, In x l -> finite x = false) -> finite_pts l = [].
Proof.
  induction l as [|p l IH]; [reflexivity|]. intros H. cbn [finite_pts]. pose proof (H p (or_introl eq_refl)) as Hp. unfold finite in Hp.
  destruct (to_pt p); [discriminate|]. apply IH. intros; apply H; right; assumption.
Qed.

Lemma build_any_ok p : exists t rest, fast3tree_build_any p = Ok (t, rest) /\
  Permutation (tpts t) (finite_pts p) /\ tree_in t /\ Permutation rest (filter (fun x => negb (finite x)) p) /\ (finite_pts p <> [] -> tree_wf t).
Proof.
  unfold fast3tree_build_any. destruct (drop_loop_ok (length p) p 0 (zlen p)) as (p' & n & E & P & Hn & F1 & F2).
  - unfold zlen. lia.
  - lia.
  - unfold zlen. lia.
  - intros; lia.
  - intros k x Hk Hx. apply zget_Some_range in Hx. lia.
  - rewrite E. cbn [bind].
    assert (G1 : forall x, In x (firstn (Z.to_nat n) p') -> finite x = true).
    { intros x Hx. apply In_nth_error in Hx. destruct Hx as (k & Hk). assert (HKL : (k < Z.to_nat n)%nat).
      { apply Nat.nlt_ge in Hk || idtac. assert (HQ : (k < length (firstn (Z.to_nat n) p'))%nat) by (apply nth_error_Some; congruence). rewrite firstn_length in HQ. lia. }
      apply (F1 (Z.of_nat k)); [lia|]. unfold zget. replace (Z.of_nat k <? 0) with false by lia. rewrite Nat2Z.id.
      rewrite <- Hk. rewrite <- (firstn_skipn (Z.to_nat n) p') at 1. rewrite nth_error_app1; [reflexivity|]. apply nth_error_Some. congruence. }
    assert (G2 : forall x, In x (skipn (Z.to_nat n) p') -> finite x = false).
    { intros x Hx. apply In_nth_error in Hx. destruct Hx as (k & Hk). apply (F2 (n + Z.of_nat k)); [lia|]. unfold zget.
      replace (n + Z.of_nat k <? 0) with false by lia. replace (Z.to_nat (n + Z.of_nat k)) with (Z.to_nat n + k)%nat by lia.
      rewrite <- Hk. clear. revert p'. induction (Z.to_nat n) as [|m IH]; intros [|a p']; cbn; try reflexivity; [destruct k; reflexivity|apply IH]. }
    rewrite (as_pts_ok _ G1). cbn [bind].
    assert (HF : Permutation (finite_pts (firstn (Z.to_nat n) p')) (finite_pts p)).
    { rewrite <- (finite_pts_perm _ _ P). rewrite <- (firstn_skipn (Z.to_nat n) p') at 2. rewrite finite_pts_app, (finite_pts_none _ G2), app_nil_r. reflexivity. }
    destruct (build_ok (finite_pts (firstn (Z.to_nat n) p'))) as (t & Et & Pt & Wt).
    destruct (build_in (finite_pts (firstn (Z.to_nat n) p'))) as (t2 & Et2 & _ & Wt2). assert (t2 = t) by congruence. subst t2.
    rewrite Et. cbn [bind]. do 2 eexists. split; [reflexivity|]. split; [rewrite Pt; exact HF|]. split; [exact Wt2|]. split.
    + assert (HPF : Permutation (filter (fun x => negb (finite x)) p') (filter (fun x => negb (finite x)) p)).
      { clear -P. induction P; cbn [filter]; [reflexivity| | |etransitivity; eassumption].
        - destruct (negb (finite x)); [apply perm_skip; assumption|assumption].
        - destruct (negb (finite x)); destruct (negb (finite y)); try reflexivity. apply perm_swap. }
      rewrite <- HPF. rewrite <- (firstn_skipn (Z.to_nat n) p') at 2. rewrite filter_app.
      rewrite (filter_none _ (firstn (Z.to_nat n) p')) by (intros x Hx; rewrite (G1 x Hx); reflexivity).
      rewrite filter_all by (intros x Hx; rewrite (G2 x Hx); reflexivity). reflexivity.
    + intros Hne. apply Wt. intros C. apply Hne. rewrite C in HF. apply Permutation_nil. exact HF.
Qed.
