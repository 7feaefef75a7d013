(** Lemmas on the box, skip and periodic queries of the tree. *)
From Coq Require Import Permutation QArith Qabs Lqa Lia ZifyBool ZifyNat.
From Verif Require Import Base BoundsM Fast3tree Fast3treeQ SpecUberseg SpecTreeQ.
From Verif Require Import BaseLemmas CompositeLemmas FtLemmas.
Open Scope Z_scope.

(** Every node's box contains its points. *)
Fixpoint tree_in (t : tree) : Prop :=
  (forall p, In p (tpts t) -> in_box (tbox t) p) /\
  match t with TLeaf _ _ => True | TNode _ _ l r => tree_in l /\ tree_in r end.

Lemma tree_in_root t : tree_in t -> forall p, In p (tpts t) -> in_box (tbox t) p.
Proof. destruct t; cbn; tauto. Qed.

Lemma bounding_in b pts p : bounding b pts -> In p pts -> in_box b p.
Proof. intros H Hp d. destruct (H d) as (H1 & _). apply H1. exact Hp. Qed.

Lemma wf_tree_in t : tree_wf t -> tree_in t.
Proof.
  induction t as [b pts|b d l IHl r IHr]; cbn [tree_wf tree_in tbox tpts].
  - intros H. split; [|exact I]. intros p Hp. eapply bounding_in; eassumption.
  - intros (H & _ & _ & _ & Wl & Wr). split; [|split; auto]. intros p Hp. eapply bounding_in; eassumption.
Qed.

Lemma build_in p : exists t, fast3tree_build p = Ok t /\ Permutation (tpts t) p /\ tree_in t.
Proof.
  destruct (build_ok p) as (t & E & P & W). exists t. split; [exact E|]. split; [exact P|].
  destruct p as [|x p]; [|apply wf_tree_in; apply W; discriminate].
  cbn in E. injection E as <-. cbn. tauto.
Qed.

(** * Boxes *)
Lemma point_in_box_iff b p : point_in_box b p = true <-> in_box b p.
Proof.
  unfold point_in_box, in_box. rewrite !andb_true_iff, !negb_true_iff, !qltb_false. split.
  - intros (((A & B) & C) & D) [|]; cbn [lo hi coord]; split; assumption.
  - intros H. pose proof (H false) as H0. pose proof (H true) as H1. cbn [lo hi coord] in *. tauto.
Qed.

Lemma inside_in n b p : box_inside_box n b = true -> in_box n p -> in_box b p.
Proof.
  unfold box_inside_box. rewrite !andb_true_iff, !negb_true_iff, !qltb_false. intros (((A & B) & C) & D) H d.
  specialize (H d). destruct d; cbn [lo hi coord] in *; split; lra.
Qed.

Lemma disjoint_out n b p : box_intersect_box n b = false -> in_box n p -> ~ in_box b p.
Proof.
  intros E H H'. pose proof (H false) as A0. pose proof (H true) as A1. pose proof (H' false) as B0. pose proof (H' true) as B1.
  cbn [lo hi coord] in *. unfold box_intersect_box in E. rewrite !andb_false_iff, !negb_false_iff, !qltb_true in E.
  destruct E as [[[E|E]|E]|E]; lra.
Qed.

Lemma filter_all {A} (f : A -> bool) l : (forall x, In x l -> f x = true) -> filter f l = l.
Proof. induction l as [|a l IH]; [reflexivity|]. intros H. cbn. rewrite (H a (or_introl eq_refl)). f_equal. apply IH. intros; apply H; right; assumption. Qed.
Lemma filter_none {A} (f : A -> bool) l : (forall x, In x l -> f x = false) -> filter f l = [].
Proof. induction l as [|a l IH]; [reflexivity|]. intros H. cbn. rewrite (H a (or_introl eq_refl)). apply IH. intros; apply H; right; assumption. Qed.

Lemma find_inside_filter b t : tree_in t -> find_inside_of_box t b = filter (point_in_box b) (tpts t).
Proof.
  induction t as [nb pts|nb d l IHl r IHr]; intros W; pose proof (tree_in_root _ W) as WR; cbn [find_inside_of_box tbox] in *.
  - destruct (box_intersect_box nb b) eqn:E1; cbn [negb].
    2: { symmetry. apply filter_none. intros x Hx. apply not_true_iff_false. rewrite point_in_box_iff. eapply disjoint_out; [exact E1|apply WR; exact Hx]. }
    destruct (box_inside_box nb b) eqn:E2; [|reflexivity].
    symmetry. apply filter_all. intros x Hx. rewrite point_in_box_iff. eapply inside_in; [exact E2|apply WR; exact Hx].
  - destruct (box_intersect_box nb b) eqn:E1; cbn [negb].
    2: { symmetry. apply filter_none. intros x Hx. apply not_true_iff_false. rewrite point_in_box_iff. eapply disjoint_out; [exact E1|apply WR; exact Hx]. }
    destruct (box_inside_box nb b) eqn:E2.
    { symmetry. apply filter_all. intros x Hx. rewrite point_in_box_iff. eapply inside_in; [exact E2|apply WR; exact Hx]. }
    cbn [tree_in] in W. destruct W as (_ & Wl & Wr). cbn [tpts]. rewrite filter_app, IHl, IHr by assumption. reflexivity.
Qed.

Lemma find_outside_filter b t : tree_in t -> find_outside_of_box t b = filter (fun p => negb (point_in_box b p)) (tpts t).
Proof.
  induction t as [nb pts|nb d l IHl r IHr]; intros W; pose proof (tree_in_root _ W) as WR; cbn [find_outside_of_box tbox] in *.
  - destruct (box_inside_box nb b) eqn:E2.
    { symmetry. apply filter_none. intros x Hx. apply negb_false_iff. rewrite point_in_box_iff. eapply inside_in; [exact E2|apply WR; exact Hx]. }
    destruct (box_intersect_box nb b) eqn:E1; cbn [negb]; [reflexivity|].
    symmetry. apply filter_all. intros x Hx. apply negb_true_iff, not_true_iff_false. rewrite point_in_box_iff. eapply disjoint_out; [exact E1|apply WR; exact Hx].
  - destruct (box_inside_box nb b) eqn:E2.
    { symmetry. apply filter_none. intros x Hx. apply negb_false_iff. rewrite point_in_box_iff. eapply inside_in; [exact E2|apply WR; exact Hx]. }
    destruct (box_intersect_box nb b) eqn:E1; cbn [negb].
    2: { symmetry. apply filter_all. intros x Hx. apply negb_true_iff, not_true_iff_false. rewrite point_in_box_iff. eapply disjoint_out; [exact E1|apply WR; exact Hx]. }
    cbn [tree_in] in W. destruct W as (_ & Wl & Wr). cbn [tpts]. rewrite filter_app, IHl, IHr by assumption. reflexivity.
Qed.

Lemma filter_split {A} (f : A -> bool) l : Permutation (filter f l ++ filter (fun x => negb (f x)) l) l.
Proof.
  induction l as [|p l IH]; [reflexivity|]. cbn [filter]. destruct (f p); cbn [negb app].
  - apply perm_skip. exact IH.
  - rewrite <- Permutation_middle. apply perm_skip. exact IH.
Qed.

Lemma selects_filter (P : pt -> Prop) f l : (forall p, In p l -> (f p = true <-> P p)) -> selects P l (filter f l).
Proof.
  intros H. exists (filter (fun x => negb (f x)) l). split; [apply filter_split|]. split; intros p Hp; apply filter_In in Hp; destruct Hp as (Hp & E).
  - apply H; assumption.
  - apply negb_true_iff in E. intros HP. apply (H p Hp) in HP. congruence.
Qed.

Lemma selects_perm P l l' f : Permutation l l' -> selects P l f -> selects P l' f.
Proof. intros HP (rest & A & B). exists rest. split; [rewrite A; exact HP|exact B]. Qed.

Lemma box_queries pts b : exists t, fast3tree_build pts = Ok t /\
  selects (in_box b) pts (find_inside_of_box t b) /\ selects (fun p => ~ in_box b p) pts (find_outside_of_box t b).
Proof.
  destruct (build_in pts) as (t & E & P & W). exists t. split; [exact E|].
  rewrite find_inside_filter, find_outside_filter by exact W. split; eapply selects_perm; try exact P; apply selects_filter; intros p _.
  - apply point_in_box_iff.
  - rewrite negb_true_iff, <- not_true_iff_false, point_in_box_iff. reflexivity.
Qed.

(** * Spheres, from containment only *)
Lemma not_intersect_in b c r2 p : in_box b p -> box_not_intersect_sphere b c r2 = true -> (r2 <= pdist c p)%Q.
Proof.
  intros Hb H. pose proof (Hb false) as B0. pose proof (Hb true) as B1. cbn [lo hi coord] in *.
  unfold box_not_intersect_sphere, gap_step in H. unfold pdist.
  pose proof (sq_nonneg (fst c - p_0 p)) as S0. pose proof (sq_nonneg (snd c - p_1 p)) as S1.
  assert (A0 : (fst c - lo_0 b < 0)%Q -> ((fst c - lo_0 b) * (fst c - lo_0 b) <= (fst c - p_0 p) * (fst c - p_0 p))%Q) by (intros; nra).
  assert (A1 : (0 < fst c - hi_0 b)%Q -> ((fst c - hi_0 b) * (fst c - hi_0 b) <= (fst c - p_0 p) * (fst c - p_0 p))%Q) by (intros; nra).
  assert (A2 : (snd c - lo_1 b < 0)%Q -> ((snd c - lo_1 b) * (snd c - lo_1 b) <= (snd c - p_1 p) * (snd c - p_1 p))%Q) by (intros; nra).
  assert (A3 : (0 < snd c - hi_1 b)%Q -> ((snd c - hi_1 b) * (snd c - hi_1 b) <= (snd c - p_1 p) * (snd c - p_1 p))%Q) by (intros; nra).
  repeat match type of H with context [if qltb ?a ?b then _ else _] => destruct (qltb a b) eqn:? end;
  repeat match goal with E : qltb _ _ = true |- _ => apply qltb_true in E | E : qltb _ _ = false |- _ => clear E end;
  cbn [snd] in H;
  repeat match type of H with context [if Qle_bool ?a ?b then _ else _] => destruct (Qle_bool a b) eqn:? end;
  repeat match goal with E : Qle_bool _ _ = true |- _ => apply Qle_bool_iff in E | E : Qle_bool _ _ = false |- _ => clear E end;
  try discriminate; intuition lra.
Qed.

Lemma inside_near_in b c r2 p : in_box b p -> box_inside_sphere b c r2 = true -> (pdist c p <= r2)%Q.
Proof.
  intros Hb H. pose proof (Hb false) as B0. pose proof (Hb true) as B1. cbn [lo hi coord] in *.
  unfold box_inside_sphere in H. unfold pdist.
  assert (F : forall l h x y, (l <= x <= h)%Q -> ((y - x) * (y - x) <= far2 l h y)%Q).
  { intros l h x y [L1 L2]. unfold far2; cbv zeta.
    assert (SQ : forall a b, (0 <= a)%Q -> (a <= b)%Q -> (a * a <= b * b)%Q) by (intros; nra).
    assert (C : ((y - x) * (y - x) <= (l - y) * (l - y))%Q \/ ((y - x) * (y - x) <= (y - h) * (y - h))%Q).
    { destruct (Qlt_le_dec y x) as [H1|H1].
      - right. setoid_replace ((y - x) * (y - x))%Q with ((x - y) * (x - y))%Q by ring.
        setoid_replace ((y - h) * (y - h))%Q with ((h - y) * (h - y))%Q by ring. apply SQ; lra.
      - left. setoid_replace ((l - y) * (l - y))%Q with ((y - l) * (y - l))%Q by ring. apply SQ; lra. }
    destruct (qltb ((l - y) * (l - y)) ((y - h) * (y - h))) eqn:E.
    - apply qltb_true in E. destruct C as [C|C]; [|exact C]. eapply Qle_trans; [exact C|apply Qlt_le_weak; exact E].
    - apply qltb_false in E. destruct C as [C|C]; [exact C|]. eapply Qle_trans; [exact C|exact E]. }
  pose proof (F _ _ _ (fst c) B0). pose proof (F _ _ _ (snd c) B1).
  destruct (qltb r2 ((fst c - lo_0 b) * (fst c - lo_0 b))); [discriminate|].
  destruct (qltb r2 (far2 (lo_0 b) (hi_0 b) (fst c))); [discriminate|].
  destruct (qltb r2 (far2 (lo_0 b) (hi_0 b) (fst c) + far2 (lo_1 b) (hi_1 b) (snd c))) eqn:E; [discriminate|].
  apply qltb_false in E. lra.
Qed.

(** The sphere query finds all points nearer than the radius, none farther; each once. *)
Lemma sphere_exact_nil c r2 (all : list pt) : (forall p, In p all -> (r2 <= pdist c p)%Q) -> sphere_exact all [] c r2.
Proof. intros H. exists all. split; [reflexivity|]. split; [intros p []|exact H]. Qed.
Lemma sphere_exact_all c r2 (all : list pt) : (forall p, In p all -> (pdist c p <= r2)%Q) -> sphere_exact all all c r2.
Proof. intros H. exists []. rewrite app_nil_r. split; [reflexivity|]. split; [exact H|intros p []]. Qed.
Lemma sphere_exact_app c r2 a b f g : sphere_exact a f c r2 -> sphere_exact b g c r2 -> sphere_exact (a ++ b) (f ++ g) c r2.
Proof.
  intros (r1 & P1 & F1 & N1) (r3 & P2 & F2 & N2). exists (r1 ++ r3). split; [|split].
  - rewrite <- P1, <- P2. rewrite <- !app_assoc. apply Permutation_app_head. rewrite !app_assoc.
    apply Permutation_app_tail. apply Permutation_app_comm.
  - intros p Hp. apply in_app_iff in Hp. destruct Hp; [apply F1|apply F2]; assumption.
  - intros p Hp. apply in_app_iff in Hp. destruct Hp; [apply N1|apply N2]; assumption.
Qed.

Lemma find_sphere_in t c r2 : tree_in t -> sphere_exact (tpts t) (find_sphere t c r2) c r2.
Proof.
  induction t as [b pts|b d l IHl r IHr]; intros W; pose proof (tree_in_root _ W) as WR; cbn [find_sphere tbox] in *.
  - destruct (box_not_intersect_sphere b c r2) eqn:E1.
    { apply sphere_exact_nil. intros p Hp. eapply not_intersect_in; [apply WR; exact Hp|exact E1]. }
    destruct (box_inside_sphere b c r2) eqn:E2.
    { apply sphere_exact_all. intros p Hp. eapply inside_near_in; [apply WR; exact Hp|exact E2]. }
    exists (filter (fun p => negb (qltb (pdist c p) r2)) pts). cbn [tpts]. split; [apply filter_split|split].
    + intros p Hp. apply filter_In in Hp. destruct Hp as (_ & Hp). apply qltb_true in Hp. lra.
    + intros p Hp. apply filter_In in Hp. destruct Hp as (_ & Hp). apply negb_true_iff in Hp. apply qltb_false in Hp. lra.
  - destruct (box_not_intersect_sphere b c r2) eqn:E1.
    { apply sphere_exact_nil. intros p Hp. eapply not_intersect_in; [apply WR; exact Hp|exact E1]. }
    destruct (box_inside_sphere b c r2) eqn:E2.
    { apply sphere_exact_all. intros p Hp. eapply inside_near_in; [apply WR; exact Hp|exact E2]. }
    cbn [tree_in] in W. destruct W as (_ & Wl & Wr). cbn [tpts]. apply sphere_exact_app; auto.
Qed.

Lemma sphere_exact_perm c r2 all all' f : Permutation all all' -> sphere_exact all f c r2 -> sphere_exact all' f c r2.
Proof. intros HP (rest & A & B). exists rest. split; [rewrite A; exact HP|exact B]. Qed.

Lemma sphere_query pts c r2 : exists t, fast3tree_build pts = Ok t /\ sphere_exact pts (find_sphere t c r2) c r2.
Proof.
  destruct (build_in pts) as (t & E & P & W). exists t. split; [exact E|]. eapply sphere_exact_perm; [exact P|apply find_sphere_in; exact W].
Qed.

(** * From one point on *)
Lemma NoDup_app_intro {A} (l l' : list A) : NoDup l -> NoDup l' -> (forall x, In x l -> ~ In x l') -> NoDup (l ++ l').
Proof.
  induction l as [|a l IH]; [auto|]. intros H1 H2 H3. inversion H1; subst. cbn. constructor.
  - rewrite in_app_iff. intros [C|C]; [auto|]. apply (H3 a); [left; reflexivity|exact C].
  - apply IH; auto. intros x Hx. apply H3. right. exact Hx.
Qed.

Lemma in_combine_zrange (pts : list pt) i p : In (i, p) (combine (zrange (zlen pts)) pts) <-> zget pts i = Some p.
Proof.
  unfold zrange, zlen. rewrite Nat2Z.id.
  assert (H : forall k, In (i, p) (combine (map Z.of_nat (seq k (length pts))) pts) <-> Z.of_nat k <= i /\ zget pts (i - Z.of_nat k) = Some p).
  { induction pts as [|q pts IH]; intros k; cbn [length seq map combine].
    - cbn [In]. split; [tauto|]. intros (_ & C). apply zget_Some_range in C. unfold zlen in C. cbn in C. lia.
    - cbn [In]. rewrite IH. rewrite Nat2Z.inj_succ. split.
      + intros [E|(H1 & H2)].
        * injection E as -> ->. split; [lia|]. replace (i - i) with 0 by lia. reflexivity.
        * split; [lia|]. replace (i - Z.of_nat k) with (1 + (i - Z.succ (Z.of_nat k))) by lia.
          change (q :: pts) with ([q] ++ pts). rewrite zget_app. change (zlen [q]) with 1.
          replace (1 + (i - Z.succ (Z.of_nat k)) <? 1) with false by lia. replace (1 + (i - Z.succ (Z.of_nat k)) - 1) with (i - Z.succ (Z.of_nat k)) by lia. exact H2.
      + intros (H1 & H2). destruct (Z.eq_dec i (Z.of_nat k)) as [->|Hne].
        * left. replace (Z.of_nat k - Z.of_nat k) with 0 in H2 by lia. cbn in H2. congruence.
        * right. split; [lia|]. change (q :: pts) with ([q] ++ pts) in H2. rewrite zget_app in H2. change (zlen [q]) with 1 in H2.
          replace (i - Z.of_nat k <? 1) with false in H2 by lia. replace (i - Z.of_nat k - 1) with (i - Z.succ (Z.of_nat k)) in H2 by lia. exact H2. }
  rewrite (H 0%nat). cbn [Z.of_nat]. rewrite Z.sub_0_r. split; [tauto|]. intros E. split; [|exact E]. apply zget_Some_range in E. lia.
Qed.
