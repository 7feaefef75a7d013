(** The queries in single precision on integer positions: distances are exact. *)
From Coq Require Import Lia ZifyBool ZifyNat Lqa Permutation.
From Verif Require Import Base BaseLemmas Img BoundsM Fast3tree Uberseg Single UbersegFl SpecUberseg CompositeLemmas
  FtLemmas FtLemmas2 SingleLemmas.
Open Scope Z_scope.

Local Opaque f32 f64 sqrt64.

Definition iz (n : Z) (x : Q) : Prop := exists z, (x == inject_Z z)%Q /\ 0 <= z < n.
Definition pts_in (h w : Z) (pts : list pt) : Prop := forall p, In p pts -> iz h (p_0 p) /\ iz w (p_1 p).
Definition box_in (h w : Z) (b : box) : Prop := iz h (lo_0 b) /\ iz h (hi_0 b) /\ iz w (lo_1 b) /\ iz w (hi_1 b).
Definition small (h w : Z) : Prop := 0 < h /\ 0 < w /\ h * h + w * w <= 2 ^ 24.

Lemma iz_eq n x y : (x == y)%Q -> iz n x -> iz n y.
Proof. intros E (z & H & R). exists z. split; [rewrite <- E; exact H|exact R]. Qed.

Lemma box_in_bounding h w b pts : bounding b pts -> pts_in h w pts -> box_in h w b.
Proof.
  intros B P. destruct (B false) as (_ & (p & Ip & Ep) & (q & Iq & Eq)). destruct (B true) as (_ & (p' & Ip' & Ep') & (q' & Iq' & Eq')).
  cbn [lo hi coord] in *. pose proof (P p Ip). pose proof (P q Iq). pose proof (P p' Ip'). pose proof (P q' Iq').
  repeat split; eapply iz_eq; try eassumption; tauto.
Qed.

Lemma small_sides h w : small h w -> h <= 2 ^ 12 /\ w <= 2 ^ 12 /\ (h - 1) * (h - 1) + (w - 1) * (w - 1) < 2 ^ 24.
Proof. intros (A & B & C). change (2 ^ 12) with 4096. change (2 ^ 24) with 16777216 in *. nia. Qed.

(** * Operations *)
Lemma qltb_compat a a' b b' : (a == a')%Q -> (b == b')%Q -> qltb a b = qltb a' b'.
Proof.
  intros E F. destruct (qltb a b) eqn:G; symmetry.
  - apply qltb_true in G. apply qltb_true. lra.
  - apply qltb_false in G. apply qltb_false. lra.
Qed.

Lemma qle_compat a a' b b' : (a == a')%Q -> (b == b')%Q -> Qle_bool a b = Qle_bool a' b'.
Proof.
  intros E F. destruct (Qle_bool a b) eqn:G; symmetry.
  - apply Qle_bool_iff in G. apply Qle_bool_iff. lra.
  - destruct (Qle_bool a' b') eqn:K; [|reflexivity]. apply Qle_bool_iff in K. assert (Qle_bool a b = true); [|congruence].
    apply Qle_bool_iff. lra.
Qed.

Lemma qeq_compat a a' b b' : (a == a')%Q -> (b == b')%Q -> Qeq_bool a b = Qeq_bool a' b'.
Proof.
  intros E F. destruct (Qeq_bool a b) eqn:G; symmetry.
  - apply Qeq_bool_iff in G. apply Qeq_bool_iff. rewrite <- E, <- F. exact G.
  - destruct (Qeq_bool a' b') eqn:K; [|reflexivity]. apply Qeq_bool_iff in K. assert (Qeq_bool a b = true); [|congruence].
    apply Qeq_bool_iff. rewrite E, F. exact K.
Qed.

Lemma fsub_ok n a b : n <= 2 ^ 12 -> iz n a -> iz n b ->
  (fsub a b == a - b)%Q /\ exists z, (a - b == inject_Z z)%Q /\ - n < z < n.
Proof.
  intros Hn (x & Ex & Rx) (y & Ey & Ry).
  assert (E : (a - b == inject_Z (x - y))%Q) by (rewrite Ex, Ey; unfold Z.sub; rewrite inject_Z_plus, inject_Z_opp; reflexivity).
  split; [|exists (x - y); split; [exact E|lia]]. unfold fsub. rewrite (f32_int _ _ E); [rewrite E; reflexivity|]. lia.
Qed.

Lemma fmul_ok a b x y : (a == inject_Z x)%Q -> (b == inject_Z y)%Q -> Z.abs (x * y) < 2 ^ 24 -> (fmul a b == inject_Z (x * y))%Q.
Proof. intros E F H. unfold fmul. apply f32_int; [rewrite E, F, inject_Z_mult; reflexivity|lia]. Qed.

Lemma fadd_ok a b x y : (a == inject_Z x)%Q -> (b == inject_Z y)%Q -> Z.abs (x + y) < 2 ^ 24 -> (fadd a b == inject_Z (x + y))%Q.
Proof. intros E F H. unfold fadd. apply f32_int; [rewrite E, F, inject_Z_plus; reflexivity|lia]. Qed.

Lemma sq_small z n : - n < z < n -> 0 <= z * z <= (n - 1) * (n - 1).
Proof. intros. nia. Qed.

(** The square of a difference. *)
Lemma fdsq n a b : n <= 2 ^ 12 -> iz n a -> iz n b ->
  exists z, (fmul (fsub a b) (fsub a b) == inject_Z z)%Q /\ ((a - b) * (a - b) == inject_Z z)%Q /\ 0 <= z <= (n - 1) * (n - 1).
Proof.
  intros Hn A B. destruct (fsub_ok n a b Hn A B) as (E & z & Ez & Rz). exists (z * z). pose proof (sq_small z n Rz).
  assert (Hn0 : 0 < n) by (destruct A as (? & _ & ?); lia).
  split; [apply fmul_ok; [rewrite E; exact Ez|rewrite E; exact Ez|]|split; [rewrite Ez, inject_Z_mult; reflexivity|lia]].
  change (2 ^ 12) with 4096 in Hn. change (2 ^ 24) with 16777216. nia.
Qed.

Definition at_in (h w : Z) (c : Q * Q) : Prop := iz h (fst c) /\ iz w (snd c).

Lemma pdist_f_ok h w c p : small h w -> at_in h w c -> iz h (p_0 p) -> iz w (p_1 p) -> (pdist_f c p == pdist c p)%Q.
Proof.
  intros S (C0 & C1) P0 P1. destruct (small_sides h w S) as (Hh & Hw & Hs). unfold pdist_f, pdist. cbv zeta.
  destruct (fdsq h _ _ Hh C0 P0) as (x & X1 & X2 & X3). destruct (fdsq w _ _ Hw C1 P1) as (y & Y1 & Y2 & Y3).
  rewrite X2, Y2. assert (F0 : (fadd 0 (fmul (fsub (fst c) (p_0 p)) (fsub (fst c) (p_0 p))) == inject_Z (0 + x))%Q)
    by (apply fadd_ok; [reflexivity|exact X1|nia]).
  rewrite (fadd_ok _ _ (0 + x) y F0 Y1) by nia. rewrite !inject_Z_plus. ring.
Qed.

Lemma closest_dist_f_ok h w c p : small h w -> at_in h w c -> iz h (p_0 p) -> iz w (p_1 p) ->
  (closest_dist_f c p == pdist c p)%Q.
Proof.
  intros S (C0 & C1) P0 P1. destruct (small_sides h w S) as (Hh & Hw & Hs). unfold closest_dist_f, pdist. cbv zeta.
  destruct (fdsq h _ _ Hh P0 C0) as (x & X1 & X2 & X3). destruct (fdsq w _ _ Hw P1 C1) as (y & Y1 & Y2 & Y3).
  rewrite (fadd_ok _ _ x y X1 Y1) by nia. rewrite inject_Z_plus, <- X2, <- Y2. ring.
Qed.

Lemma gap_step_ok n d d' r2 l h c zd : n <= 2 ^ 12 -> iz n l -> iz n h -> iz n c ->
  (d == inject_Z zd)%Q -> (d' == d)%Q -> 0 <= zd -> zd + (n - 1) * (n - 1) < 2 ^ 24 ->
  snd (gap_step_f d r2 l h c) = snd (gap_step d' r2 l h c) /\
  (fst (gap_step_f d r2 l h c) == fst (gap_step d' r2 l h c))%Q /\
  exists z, (fst (gap_step_f d r2 l h c) == inject_Z z)%Q /\ 0 <= z <= zd + (n - 1) * (n - 1).
Proof.
  intros Hn L H C Ed Ed' Hz Hs. destruct (fsub_ok n c l Hn C L) as (F1 & _). destruct (fsub_ok n c h Hn C H) as (F2 & _).
  destruct (fdsq n c l Hn C L) as (x & X1 & X2 & X3). destruct (fdsq n c h Hn C H) as (y & Y1 & Y2 & Y3).
  unfold gap_step_f, gap_step. rewrite (qltb_compat _ _ 0 0 F1 (Qeq_refl 0)), (qltb_compat 0 0 _ _ (Qeq_refl 0) F2).
  destruct (qltb (c - l) 0); [|destruct (qltb 0 (c - h))]; cbn [fst snd].
  - assert (E : (fadd d (fmul (fsub c l) (fsub c l)) == inject_Z (zd + x))%Q) by (apply fadd_ok; [exact Ed|exact X1|lia]).
    assert (E2 : (fadd d (fmul (fsub c l) (fsub c l)) == d' + (c - l) * (c - l))%Q) by (rewrite E, inject_Z_plus, X2, Ed', Ed; reflexivity).
    split; [apply qle_compat; [reflexivity|exact E2]|]. split; [exact E2|]. exists (zd + x). split; [exact E|lia].
  - assert (E : (fadd d (fmul (fsub c h) (fsub c h)) == inject_Z (zd + y))%Q) by (apply fadd_ok; [exact Ed|exact Y1|lia]).
    assert (E2 : (fadd d (fmul (fsub c h) (fsub c h)) == d' + (c - h) * (c - h))%Q) by (rewrite E, inject_Z_plus, Y2, Ed', Ed; reflexivity).
    split; [apply qle_compat; [reflexivity|exact E2]|]. split; [exact E2|]. exists (zd + y). split; [exact E|lia].
  - split; [reflexivity|]. split; [symmetry; exact Ed'|]. exists zd. split; [exact Ed|]. pose proof (Z.square_nonneg (n - 1)). lia.
Qed.

Lemma not_intersect_f_ok h w b c r : small h w -> at_in h w c -> box_in h w b ->
  box_not_intersect_sphere_f b c r = box_not_intersect_sphere b c (fmul r r).
Proof.
  intros S (C0 & C1) (B1 & B2 & B3 & B4). destruct (small_sides h w S) as (Hh & Hw & Hs).
  unfold box_not_intersect_sphere_f, box_not_intersect_sphere. cbv zeta. set (r2 := fmul r r).
  pose proof (Z.square_nonneg (w - 1)) as Q1.
  destruct (gap_step_ok h 0 0 r2 (lo_0 b) (hi_0 b) (fst c) 0 Hh B1 B2 C0 (Qeq_refl _) (Qeq_refl _) ltac:(lia) ltac:(lia)) as (G1 & G2 & z & G3 & G4).
  destruct (gap_step_f 0 r2 (lo_0 b) (hi_0 b) (fst c)) as [d o]. destruct (gap_step 0 r2 (lo_0 b) (hi_0 b) (fst c)) as [d' o'].
  cbn [fst snd] in *. subst o'. destruct o; [reflexivity|].
  apply (gap_step_ok w d d' r2 (lo_1 b) (hi_1 b) (snd c) z Hw B3 B4 C1 G3 (Qeq_sym _ _ G2)); lia.
Qed.

Lemma far2_f_ok n l h c : n <= 2 ^ 12 -> iz n l -> iz n h -> iz n c ->
  (far2_f l h c == far2 l h c)%Q /\ exists z, (far2_f l h c == inject_Z z)%Q /\ 0 <= z <= (n - 1) * (n - 1).
Proof.
  intros Hn L H C. destruct (fdsq n l c Hn L C) as (x & X1 & X2 & X3). destruct (fdsq n c h Hn C H) as (y & Y1 & Y2 & Y3).
  unfold far2_f, far2. cbv zeta.
  rewrite (qltb_compat _ ((l - c) * (l - c)) _ ((c - h) * (c - h)))%Q; [|rewrite X1, X2; reflexivity|rewrite Y1, Y2; reflexivity].
  destruct (qltb _ _).
  - split; [rewrite Y1, Y2; reflexivity|]. exists y. split; assumption.
  - split; [rewrite X1, X2; reflexivity|]. exists x. split; assumption.
Qed.

(** The test on the radius itself only makes the function say no more often. *)
Lemma inside_f_near h w b c r pts p : small h w -> at_in h w c -> box_in h w b -> bounding b pts -> In p pts ->
  box_inside_sphere_f b c r = true -> (pdist c p <= fmul r r)%Q.
Proof.
  intros S (C0 & C1) (B1 & B2 & B3 & B4) Hb Hp H. destruct (small_sides h w S) as (Hh & Hw & Hs).
  apply (inside_near b c (fmul r r) pts p Hb Hp). unfold box_inside_sphere_f in H. cbv zeta in H. unfold box_inside_sphere. cbv zeta.
  destruct (qltb r _); [discriminate|].
  destruct (far2_f_ok h _ _ _ Hh B1 B2 C0) as (F1 & x & F2 & F3). destruct (far2_f_ok w _ _ _ Hw B3 B4 C1) as (G1 & y & G2 & G3).
  assert (A0 : (fadd 0 (far2_f (lo_0 b) (hi_0 b) (fst c)) == inject_Z (0 + x))%Q) by (apply fadd_ok; [reflexivity|exact F2|nia]).
  assert (A1 : (fadd (fadd 0 (far2_f (lo_0 b) (hi_0 b) (fst c))) (far2_f (lo_1 b) (hi_1 b) (snd c)) == inject_Z (0 + x + y))%Q)
    by (apply fadd_ok; [exact A0|exact G2|nia]).
  destruct (qltb (fmul r r) (fadd 0 _)) eqn:E1; [discriminate|]. destruct (qltb (fmul r r) (fadd (fadd 0 _) _)) eqn:E2; [discriminate|].
  apply qltb_false in E1, E2. rewrite A0 in E1. rewrite A1 in E2. rewrite inject_Z_plus in E1. rewrite !inject_Z_plus in E2.
  rewrite <- F2, F1 in E1. rewrite <- F2, <- G2, F1, G1 in E2. change (inject_Z 0) with 0%Q in *.
  assert (N1 : ((fst c - lo_0 b) * (fst c - lo_0 b) <= far2 (lo_0 b) (hi_0 b) (fst c))%Q).
  { unfold far2; cbv zeta. destruct (qltb _ _) eqn:E; [apply qltb_true in E|apply qltb_false in E];
      setoid_replace ((fst c - lo_0 b) * (fst c - lo_0 b))%Q with ((lo_0 b - fst c) * (lo_0 b - fst c))%Q by ring; lra. }
  assert (N2 : (0 <= far2 (lo_1 b) (hi_1 b) (snd c))%Q).
  { unfold far2; cbv zeta. destruct (qltb _ _); apply sq_nonneg. }
  replace (qltb (fmul r r) ((fst c - lo_0 b) * (fst c - lo_0 b))) with false by (symmetry; apply qltb_false; lra).
  replace (qltb (fmul r r) (far2 (lo_0 b) (hi_0 b) (fst c))) with false by (symmetry; apply qltb_false; lra).
  replace (qltb (fmul r r) (far2 (lo_0 b) (hi_0 b) (fst c) + far2 (lo_1 b) (hi_1 b) (snd c))) with false by (symmetry; apply qltb_false; lra).
  reflexivity.
Qed.

Lemma sphere_f_exact h w t c r : small h w -> at_in h w c -> tree_wf t -> pts_in h w (tpts t) ->
  sphere_exact (tpts t) (find_sphere_f t c r) c (fmul r r).
Proof.
  intros S C. 
  assert (HB : forall t, tree_wf t -> bounding (tbox t) (tpts t)) by (intros [b p|b d l r']; cbn; tauto).
  induction t as [b pts|b d l IHl r' IHr]; intros Hw HP; pose proof (HB _ Hw) as Hbound;
    pose proof (box_in_bounding h w _ _ Hbound HP) as BI; cbn [find_sphere_f tbox] in *;
    rewrite (not_intersect_f_ok h w b c r S C BI).
  - destruct (box_not_intersect_sphere b c (fmul r r)) eqn:E1.
    { exists pts. split; [reflexivity|]. split; [intros p []|]. intros p Hp. eapply not_intersect_far; eassumption. }
    destruct (box_inside_sphere_f b c r) eqn:E2.
    { exists []. rewrite app_nil_r. split; [reflexivity|]. split; [|intros p []]. intros p Hp. eapply inside_f_near; eassumption. }
    exists (filter (fun p => negb (qltb (pdist_f c p) (fmul r r))) pts). cbn [tpts] in *. split; [|split].
    + clear. induction pts as [|p pts IH]; [reflexivity|]. cbn [filter]. destruct (qltb (pdist_f c p) (fmul r r)); cbn [negb app].
      * apply perm_skip. exact IH.
      * rewrite <- Permutation_middle. apply perm_skip. exact IH.
    + intros p Hp. apply filter_In in Hp. destruct Hp as (I & Hp). apply qltb_true in Hp.
      rewrite (pdist_f_ok h w c p S C (proj1 (HP p I)) (proj2 (HP p I))) in Hp. lra.
    + intros p Hp. apply filter_In in Hp. destruct Hp as (I & Hp). apply negb_true_iff in Hp. apply qltb_false in Hp.
      rewrite (pdist_f_ok h w c p S C (proj1 (HP p I)) (proj2 (HP p I))) in Hp. lra.
  - destruct (box_not_intersect_sphere b c (fmul r r)) eqn:E1.
    { exists (tpts (TNode b d l r')). split; [reflexivity|]. split; [intros p []|]. intros p Hp. eapply not_intersect_far; eassumption. }
    destruct (box_inside_sphere_f b c r) eqn:E2.
    { exists []. rewrite app_nil_r. split; [reflexivity|]. split; [|intros p []]. intros p Hp. eapply inside_f_near; eassumption. }
    cbn [tree_wf] in Hw. destruct Hw as (_ & _ & _ & _ & Wl & Wr). cbn [tpts] in HP.
    destruct (IHl Wl) as (r1 & P1 & F1 & N1); [intros p Hp; apply HP; apply in_app_iff; left; exact Hp|].
    destruct (IHr Wr) as (r3 & P2 & F2 & N2); [intros p Hp; apply HP; apply in_app_iff; right; exact Hp|].
    exists (r1 ++ r3). cbn [tpts]. split; [|split].
    + rewrite <- P1, <- P2. rewrite <- !app_assoc. apply Permutation_app_head. rewrite !app_assoc.
      apply Permutation_app_tail. apply Permutation_app_comm.
    + intros p Hp. apply in_app_iff in Hp. destruct Hp; [apply F1|apply F2]; assumption.
    + intros p Hp. apply in_app_iff in Hp. destruct Hp; [apply N1|apply N2]; assumption.
Qed.

(** * The closest point found *)
Lemma closest_seg_f_ok h w c pts : small h w -> at_in h w c -> pts_in h w pts -> closest_seg_f c pts = closest_seg c pts.
Proof.
  intros S C HP. unfold closest_seg_f, closest_seg.
  cut (forall s d d', (d == d')%Q -> fst (fold_left (closest_step_f c) pts (s, d)) = fst (fold_left (closest_step c) pts (s, d'))).
  { intros H. apply H. reflexivity. }
  revert HP. induction pts as [|p pts IH]; intros HP s d d' E; [reflexivity|]. cbn [fold_left].
  destruct (HP p (or_introl eq_refl)) as (P0 & P1).
  pose proof (closest_dist_f_ok h w c p S C P0 P1) as ED.
  unfold closest_step_f at 2. unfold closest_step at 2. cbn [fst snd]. rewrite (qltb_compat _ _ _ _ ED E).
  assert (HP' : pts_in h w pts) by (intros q Hq; apply HP; right; exact Hq).
  destruct (_ || _); apply IH; assumption.
Qed.

(** * The starting radius *)
Lemma fmul_pos a b : (0 < a)%Q -> (0 < b)%Q -> (0 < fmul a b)%Q.
Proof.
  intros A B. unfold fmul. assert (P : (0 < a * b)%Q) by nra. pose proof (f32_err _ (Qlt_le_weak _ _ P)) as (E & _). unfold eps in E. lra.
Qed.

Lemma fsqrt_pos x : (0 < x)%Q -> (0 < fsqrt x)%Q.
Proof.
  intros H. unfold fsqrt. destruct (sqrt64_spec x H) as (P & _). pose proof (f32_err _ (Qlt_le_weak _ _ P)) as (E & _). unfold eps in E. lra.
Qed.

Lemma closest_dist_f_pos h w c o t : small h w -> at_in h w c -> forall a r, (0 < r)%Q -> pts_in h w (tpts t) ->
  (forall p, In p (tpts t) -> (0 < pdist c p)%Q) -> (0 < find_next_closest_dist_f t a c r o)%Q.
Proof.
  intros S C. induction t as [b pts|b d l IHl r' IHr]; intros a r Hr HP Hp; cbn [find_next_closest_dist_f].
  - destruct (_ || _); [exact Hr|]. apply fsqrt_pos. cbn [tpts] in *.
    assert (H2 : (0 < fmul r r)%Q) by (apply fmul_pos; exact Hr). revert H2. generalize (fmul r r).
    induction pts as [|p pts IH]; intros m Hm; cbn [fold_left]; [exact Hm|].
    apply IH; [intros q Hq; apply HP; right; exact Hq|intros q Hq; apply Hp; right; exact Hq|].
    destruct (qltb _ _); [|exact Hm]. destruct (HP p (or_introl eq_refl)) as (P0 & P1).
    rewrite (pdist_f_ok h w c p S C P0 P1). apply Hp. left; reflexivity.
  - destruct (box_not_intersect_sphere_f _ _ _ || _); [exact Hr|]. cbn [tpts] in Hp, HP.
    assert (Hl : forall p, In p (tpts l) -> (0 < pdist c p)%Q) by (intros p H; apply Hp; apply in_app_iff; left; exact H).
    assert (Hrr : forall p, In p (tpts r') -> (0 < pdist c p)%Q) by (intros p H; apply Hp; apply in_app_iff; right; exact H).
    assert (HPl : pts_in h w (tpts l)) by (intros p H; apply HP; apply in_app_iff; left; exact H).
    assert (HPr : pts_in h w (tpts r')) by (intros p H; apply HP; apply in_app_iff; right; exact H).
    destruct (qltb _ (if d then snd c else fst c)); cbv zeta.
    + apply IHl; [apply IHr|..]; assumption.
    + apply IHr; [apply IHl|..]; assumption.
Qed.

Lemma fold_pos {A} (F : Q -> A -> Q) l : (forall m p, In p l -> (0 < m)%Q -> (0 < F m p)%Q) ->
  forall m, (0 < m)%Q -> (0 < fold_left F l m)%Q.
Proof.
  induction l as [|p l IH]; intros H m Hm; cbn [fold_left]; [exact Hm|].
  apply IH; [intros m' q Hq; apply H; right; exact Hq|]. apply H; [left; reflexivity|exact Hm].
Qed.

Lemma min_dist_f_pos h w c pts : small h w -> at_in h w c -> pts_in h w pts -> forall m, (0 < m)%Q ->
  (0 < fold_left (fun m p =>
      let dist := pdist_f c p in
      if negb (Qeq_bool dist 0) && qltb dist m then dist else m) pts m)%Q.
Proof.
  intros S C HP. apply fold_pos. intros m p Ip Hm. destruct (HP p Ip) as (P0 & P1).
  pose proof (pdist_f_ok h w c p S C P0 P1) as ED. pose proof (pdist_nonneg c p) as N0. revert ED.
  generalize (pdist_f c p). intros d ED. cbv zeta.
  destruct (negb (Qeq_bool d 0)) eqn:E; cbn [andb]; [|exact Hm]. destruct (qltb d m); [|exact Hm].
  apply negb_true_iff in E. apply Qeq_bool_false in E.
  destruct (Qlt_le_dec 0 d) as [|K]; [assumption|]. exfalso. apply E. lra.
Qed.

Lemma chain_pts root st : chain root st -> forall a n rest, st = (a, n) :: rest -> incl (tpts n) (tpts root).
Proof.
  induction 1 as [a|a n pa b d l r rest H IH Hn]; intros a0 n0 rest0 E; inversion E; subst; [apply incl_refl|].
  specialize (IH _ _ _ eq_refl). eapply incl_tran; [|exact IH]. cbn [tpts]. destruct Hn as [-> | ->].
  - apply incl_appl, incl_refl.
  - apply incl_appr, incl_refl.
Qed.

Lemma climb_pts root st : chain root st -> forall a nd, climb st = Some (a, nd) -> incl (tpts nd) (tpts root).
Proof.
  intros H. pose proof (chain_pts root st H) as HC. induction H as [a|a n pa b d l r rest H IH Hn]; intros a0 nd E; cbn [climb] in E.
  - inversion E; subst. apply incl_refl.
  - destruct (Qeq_bool _ _).
    + apply (IH (chain_pts root _ H) a0 nd). exact E.
    + inversion E; subst. eapply HC; reflexivity.
Qed.

Lemma next_distance_f_pos h w t c p q : small h w -> at_in h w c -> tree_wf t -> pts_in h w (tpts t) ->
  In p (tpts t) -> In q (tpts t) ->
  ~ ((p_0 p == p_0 q)%Q /\ (p_1 p == p_1 q)%Q) -> (forall x, In x (tpts t) -> (0 < pdist c x)%Q) ->
  exists r, find_next_closest_distance_f t c = Ok r /\ (0 < r)%Q.
Proof.
  intros S C Hw HP Hp Hq Hne Hc. unfold find_next_closest_distance_f.
  pose proof (descend_chain t c t [] [] (chain_root t [])) as CH.
  destruct (climb_ok t (descend t [] [] c) Hw CH) as (a & nd & E & Wn & Hnd).
  pose proof (climb_pts _ _ CH a nd E) as IN. rewrite E. cbv zeta. eexists. split; [reflexivity|].
  assert (HPn : pts_in h w (tpts nd)) by (intros x Hx; apply HP; apply IN; exact Hx).
  assert (HBn : bounding (tbox nd) (tpts nd)) by (destruct nd; cbn in *; tauto).
  destruct (box_in_bounding h w _ _ HBn HPn) as (B1 & B2 & B3 & B4). destruct (small_sides h w S) as (Sh & Sw & Ss).
  apply (closest_dist_f_pos h w); [exact S|exact C| |exact HP|exact Hc]. apply fsqrt_pos. apply (min_dist_f_pos h w); [exact S|exact C|exact HPn|].
  destruct (fdsq h _ _ Sh B2 B1) as (x & X1 & X2 & X3). destruct (fdsq w _ _ Sw B4 B3) as (y & Y1 & Y2 & Y3).
  assert (F0 : (fadd 0 (fmul (fsub (hi_0 (tbox nd)) (lo_0 (tbox nd))) (fsub (hi_0 (tbox nd)) (lo_0 (tbox nd)))) == inject_Z (0 + x))%Q)
    by (apply fadd_ok; [reflexivity|exact X1|nia]).
  rewrite (fadd_ok _ _ (0 + x) y F0 Y1) by nia. rewrite !inject_Z_plus, <- X2, <- Y2. change (inject_Z 0) with 0%Q.
  pose proof (sq_nonneg (hi_0 (tbox nd) - lo_0 (tbox nd))) as S0.
  pose proof (sq_nonneg (hi_1 (tbox nd) - lo_1 (tbox nd))) as S1.
  assert (HD : exists d, ~ (lo d (tbox nd) == hi d (tbox nd))%Q).
  { destruct Hnd as [-> |Hd]; [|exact Hd].
    destruct (Qeq_dec (p_0 p) (p_0 q)) as [E0|E0].
    - exists true. destruct (HBn true) as (B & _). pose proof (B p Hp). pose proof (B q Hq). cbn [lo hi coord] in *.
      intros K. apply Hne. split; [exact E0|]. lra.
    - exists false. destruct (HBn false) as (B & _). pose proof (B p Hp). pose proof (B q Hq). cbn [lo hi coord] in *.
      intros K. apply E0. lra. }
  destruct HD as ([|] & HD); cbn [lo hi] in HD.
  - assert (0 < (hi_1 (tbox nd) - lo_1 (tbox nd)) * (hi_1 (tbox nd) - lo_1 (tbox nd)))%Q; [|lra].
    apply sq_pos. intros K. apply HD. lra.
  - assert (0 < (hi_0 (tbox nd) - lo_0 (tbox nd)) * (hi_0 (tbox nd) - lo_0 (tbox nd)))%Q; [|lra].
    apply sq_pos. intros K. apply HD. lra.
Qed.

(** * The loop *)
Fixpoint facs (k : nat) (fac : Q) : Q := match k with O => fac_grow fac | S k' => facs k' (fac_grow fac) end.

Lemma fac_grow_ok fac : (0 < fac)%Q -> (fac * (109#100) <= fac_grow fac)%Q.
Proof.
  intros H. unfold fac_grow.
  assert (D : ((1098#1000) <= d11)%Q). { unfold d11. pose proof (f64_err (11#10) ltac:(discriminate)) as (E & _). unfold eps in E. lra. }
  assert (P : (0 <= fac * d11)%Q) by nra. pose proof (f64_err _ P) as (E1 & _). unfold eps in E1.
  assert (Q1 : (fac * (1098#1000) <= fac * d11)%Q) by nra.
  assert (P2 : (0 <= f64 (fac * d11))%Q) by nra. pose proof (f32_err _ P2) as (E2 & _). unfold eps in E2. nra.
Qed.

Lemma facs_lin k : forall fac, (0 < fac)%Q -> (fac + inject_Z (Z.of_nat k) * (fac * (9#100)) <= facs k fac)%Q.
Proof.
  induction k as [|k IH]; intros fac H; cbn [facs]; pose proof (fac_grow_ok fac H) as G.
  - cbn [Z.of_nat]. unfold inject_Z. lra.
  - specialize (IH (fac_grow fac) ltac:(lra)). eapply Qle_trans; [|exact IH].
    rewrite Nat2Z.inj_succ. unfold Z.succ. rewrite inject_Z_plus.
    assert (0 <= inject_Z (Z.of_nat k))%Q. { change 0%Q with (inject_Z 0). rewrite <- Zle_Qle. lia. }
    change (inject_Z 1) with 1%Q. nra.
Qed.

Lemma facs_unbounded fac M : (0 < fac)%Q -> exists k, (M < facs k fac)%Q.
Proof.
  intros Hr. exists (Z.to_nat (Z.max 0 (Qround.Qceiling (M / (fac * (9#100)))))).
  eapply Qlt_le_trans; [|apply facs_lin; exact Hr]. set (s := (fac * (9#100))%Q). assert (Hs : (0 < s)%Q) by (unfold s; lra).
  rewrite Z2Nat.id by lia.
  assert (A : (M / s <= inject_Z (Z.max 0 (Qround.Qceiling (M / s))))%Q).
  { eapply Qle_trans; [apply Qround.Qle_ceiling|]. rewrite <- Zle_Qle. lia. }
  assert (B : (M == (M / s) * s)%Q) by (field; lra).
  rewrite B at 1. nra.
Qed.

Lemma maxr_f_ok h w : 0 < h -> 0 < w -> (0 < maxr_f h w)%Q /\ (inject_Z (h * h + w * w) * (11#10) <= maxr_f h w * maxr_f h w)%Q.
Proof.
  intros Hh Hw. unfold maxr_f. set (n := inject_Z (h * h + w * w)).
  assert (Hn : (0 < n)%Q) by (unfold n; change 0%Q with (inject_Z 0); rewrite <- Zlt_Qlt; nia).
  destruct (sqrt64_spec n Hn) as (P & R). set (s := sqrt64 n) in *.
  assert (D : ((1098#1000) <= d11)%Q). { unfold d11. pose proof (f64_err (11#10) ltac:(discriminate)) as (E & _). unfold eps in E. lra. }
  assert (A : (0 <= d11 * s)%Q) by nra. pose proof (f64_err _ A) as (E1 & _). unfold eps in E1.
  assert (B : (s * (1098#1000) <= d11 * s)%Q) by nra.
  set (u := f64 (d11 * s)) in *. assert (P2 : (0 <= u)%Q) by nra. pose proof (f32_err _ P2) as (E2 & _). unfold eps in E2.
  assert (L : (s * (1095#1000) <= f32 u)%Q) by lra. split; [lra|].
  assert (L2 : (s * (1095#1000) * (s * (1095#1000)) <= f32 u * f32 u)%Q) by nra. nra.
Qed.

(** A radius above maxr reaches every position. *)
Lemma beyond_maxr h w r : 0 < h -> 0 < w -> (maxr_f h w < r)%Q -> (inject_Z (h * h + w * w) < fmul r r)%Q.
Proof.
  intros Hh Hw H. destruct (maxr_f_ok h w Hh Hw) as (P & M). set (m := maxr_f h w) in *. set (n := inject_Z (h * h + w * w)) in *.
  assert (Hn : (0 < n)%Q) by (unfold n; change 0%Q with (inject_Z 0); rewrite <- Zlt_Qlt; nia).
  unfold fmul. assert (A : (0 <= r * r)%Q) by nra. pose proof (f32_err _ A) as (E & _). unfold eps in E.
  assert (m * m <= r * r)%Q by nra. lra.
Qed.

Lemma search_loop_f_ok h w t c r : small h w -> at_in h w c -> tree_wf t -> pts_in h w (tpts t) -> tpts t <> [] -> (0 < r)%Q ->
  (forall p, In p (tpts t) -> (pdist c p <= inject_Z (h * h + w * w))%Q) ->
  forall k fac, (maxr_f h w < fmul r (facs k fac))%Q ->
  exists found r', (forall fuel, (S k <= fuel)%nat -> search_loop_f fuel t c r fac (maxr_f h w) = Ok found) /\
    found <> [] /\ found = find_sphere_f t c r'.
Proof.
  intros S C Hw HP Hne Hr Hmax. pose proof S as (S1 & S2 & _).
  assert (HX : forall r', (maxr_f h w < r')%Q -> find_sphere_f t c r' <> []).
  { intros r' Hr' K. destruct (sphere_f_exact h w t c r' S C Hw HP) as (rest & P & _ & F). rewrite K in P. cbn [app] in P.
    destruct (tpts t) as [|x l] eqn:E; [congruence|].
    assert (I : In x rest) by (eapply Permutation_in; [apply Permutation_sym; exact P|left; reflexivity]).
    specialize (F x I). specialize (Hmax x (or_introl eq_refl)). pose proof (beyond_maxr h w r' S1 S2 Hr'). lra. }
  induction k as [|k IH]; intros fac Hk; cbn [facs] in Hk.
  - pose proof (HX _ Hk) as HN. exists (find_sphere_f t c (fmul r (fac_grow fac))), (fmul r (fac_grow fac)).
    split; [|split; [exact HN|reflexivity]].
    intros [|fuel] Hf; [lia|]. cbn [search_loop_f]. cbv zeta. destruct (find_sphere_f t c (fmul r (fac_grow fac))); [congruence|reflexivity].
  - destruct (find_sphere_f t c (fmul r (fac_grow fac))) as [|x l] eqn:E.
    + destruct (Qle_bool (fmul r (fac_grow fac)) (maxr_f h w)) eqn:EQ.
      * destruct (IH (fac_grow fac) Hk) as (found & r' & I1 & I2 & I3). exists found, r'. split; [|split; assumption].
        intros [|fuel] Hf; [lia|]. cbn [search_loop_f]. cbv zeta. rewrite E, EQ. apply I1. lia.
      * exfalso. apply (HX (fmul r (fac_grow fac))); [|exact E]. apply Qnot_le_lt. intros HH. apply Qle_bool_iff in HH. congruence.
    + exists (x :: l), (fmul r (fac_grow fac)). split; [|split; [discriminate|symmetry; exact E]].
      intros [|fuel] Hf; [lia|]. cbn [search_loop_f]. cbv zeta. rewrite E. reflexivity.
Qed.

Lemma fac0_pos : (0 < fac0)%Q.
Proof. reflexivity. Qed.

Lemma fmul_ge a b : (0 < a)%Q -> (0 < b)%Q -> (a * b * (1#2) <= fmul a b)%Q.
Proof. intros A B. unfold fmul. assert (P : (0 <= a * b)%Q) by nra. pose proof (f32_err _ P) as (E & _). unfold eps in E. lra. Qed.

(** One search. *)
Lemma search_f_ok h w t c p q : small h w -> at_in h w c -> tree_wf t -> pts_in h w (tpts t) -> In p (tpts t) -> In q (tpts t) ->
  ~ ((p_0 p == p_0 q)%Q /\ (p_1 p == p_1 q)%Q) -> (forall x, In x (tpts t) -> (0 < pdist c x)%Q) ->
  (forall x, In x (tpts t) -> (pdist c x <= inject_Z (h * h + w * w))%Q) -> (forall x, In x (tpts t) -> 0 <= p_seg x) ->
  exists r N found x, find_next_closest_distance_f t c = Ok r /\
    (forall fuel, (N <= fuel)%nat -> search_loop_f fuel t c r fac0 (maxr_f h w) = Ok found) /\
    closest_seg_f c found = p_seg x /\ In x (tpts t) /\ forall y, In y (tpts t) -> (pdist c x <= pdist c y)%Q.
Proof.
  intros S C Hw HP Hp Hq Hne Hpos Hmax Hseg.
  destruct (next_distance_f_pos h w t c p q S C Hw HP Hp Hq Hne Hpos) as (r & E & Hr).
  destruct (facs_unbounded fac0 (2 * maxr_f h w / r) fac0_pos) as (k & Hk).
  pose proof S as (S1 & S2 & _). destruct (maxr_f_ok h w S1 S2) as (MP & _).
  assert (Hk' : (maxr_f h w < fmul r (facs k fac0))%Q).
  { assert (F0 : (0 < facs k fac0)%Q) by (pose proof (facs_lin k fac0 fac0_pos); pose proof fac0_pos;
      assert (0 <= inject_Z (Z.of_nat k))%Q by (change 0%Q with (inject_Z 0); rewrite <- Zle_Qle; lia); nra).
    eapply Qlt_le_trans; [|apply fmul_ge; assumption].
    assert (B : (2 * maxr_f h w == 2 * maxr_f h w / r * r)%Q) by (field; lra). nra. }
  assert (Hn : tpts t <> []) by (intros K; rewrite K in Hp; destruct Hp).
  destruct (search_loop_f_ok h w t c r S C Hw HP Hn Hr Hmax k fac0 Hk') as (found & r' & L1 & L2 & L3).
  destruct (sphere_f_exact h w t c r' S C Hw HP) as (rest & P & F1 & F2). rewrite <- L3 in *.
  assert (HI : forall y, In y (tpts t) <-> In y found \/ In y rest).
  { intros y. rewrite <- in_app_iff. split; apply Permutation_in; [apply Permutation_sym; exact P|exact P]. }
  destruct (closest_seg_ok c found L2) as (x & X1 & X2 & X3).
  { intros y Hy. apply Hseg. apply HI. left; exact Hy. }
  exists r, (Datatypes.S k), found, x. split; [exact E|]. split; [exact L1|].
  split; [rewrite (closest_seg_f_ok h w); [exact X2|exact S|exact C|intros y Hy; apply HP; apply HI; left; exact Hy]|].
  split; [apply HI; left; exact X1|].
  intros y Hy. apply HI in Hy. destruct Hy as [Hy|Hy]; [apply X3; exact Hy|].
  specialize (F1 x X1). specialize (F2 y Hy). lra.
Qed.
