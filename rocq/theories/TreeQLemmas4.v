(** The remaining statements of PropTreeQ. *)
From Coq Require Import Permutation QArith Qabs Lqa Lia ZifyBool ZifyNat.
From Verif Require Import Base BoundsM Fast3tree Fast3treeQ SpecUberseg SpecTreeQ.
From Verif Require Import BaseLemmas CompositeLemmas FtLemmas TreeQLemmas TreeQLemmas2 TreeQLemmas3.
Open Scope Z_scope.

(** The centre of the period and a corner. *)
Lemma too_large : exists pts t c r p, fast3tree_build pts = Ok t /\
  let before := snd (find_sphere_periodic (set_minmax t 0 4) [] (0, 0)%Q 1%Q) in
  let '(code, found) := find_sphere_periodic (set_minmax t 0 4) before c r in
  In p found /\ forall i j, (r * r < image_dist c (4, 4)%Q p i j)%Q.
Proof.
  exists [mkPt 0 1 0 0]. eexists. exists (2, 2)%Q, (21#10)%Q, (mkPt 0 1 0 0).
  split; [vm_compute; reflexivity|]. 
  match goal with |- let before := snd ?x in _ => replace x with (1, [mkPt 0 1 0 0]) by (vm_compute; reflexivity) end.
  cbn [snd]. match goal with |- let '(_, _) := ?x in _ => replace x with (0, [mkPt 0 1 0 0]) by (vm_compute; reflexivity) end.
  split; [left; reflexivity|]. intros i j. unfold image_dist. cbn [fst snd p_0 p_1].
  assert (H : forall i, (4 <= (2 - (0 + inject_Z i * 4)) * (2 - (0 + inject_Z i * 4)))%Q).
  { clear. intros i. assert (H : (inject_Z i <= 0 \/ 1 <= inject_Z i)%Q).
    { change 0%Q with (inject_Z 0). change 1%Q with (inject_Z 1). rewrite <- !Zle_Qle. lia. }
    destruct H; nra. }
  pose proof (H i). pose proof (H j). lra.
Qed.

Lemma not_finite pts : exists t rest, fast3tree_build_any pts = Ok (t, rest) /\
  Permutation (map Some (tpts t) ++ map to_pt rest) (map to_pt pts) /\
  (forall q, In q rest -> In q pts /\ to_pt q = None) /\
  (forall b, selects (in_box b) (tpts t) (find_inside_of_box t b)) /\
  (forall c r2, sphere_exact (tpts t) (find_sphere t c r2) c r2).
Proof.
  destruct (build_any_ok pts) as (t & rest & E & P & W & R & _). exists t, rest. split; [exact E|].
  split; [|split; [|split]].
  - rewrite (Permutation_map Some P), (Permutation_map to_pt R). clear. induction pts as [|q pts IH]; [reflexivity|].
    cbn [finite_pts filter map]. unfold finite at 1. destruct (to_pt q) eqn:Eq; cbn [negb map app].
    + apply perm_skip. exact IH.
    + rewrite Eq. rewrite <- Permutation_middle. apply perm_skip. exact IH.
  - intros q Hq. apply (Permutation_in q R) in Hq. apply filter_In in Hq. destruct Hq as (H1 & H2). split; [exact H1|].
    unfold finite in H2. destruct (to_pt q); [discriminate|reflexivity].
  - intros b. rewrite find_inside_filter by exact W. apply selects_filter. intros p _. apply point_in_box_iff.
  - intros c r2. apply find_sphere_in. exact W.
Qed.

(** The number: 2 for a sphere inside the period, 0 for one too large, 1 otherwise. *)
Lemma periodic_code t mn mx found c r : (0 < r)%Q ->
  let code := fst (find_sphere_periodic (set_minmax t mn mx) found c r) in
  (code = 2 <-> (mn <= fst c - r /\ fst c + r <= mx /\ mn <= snd c - r /\ snd c + r <= mx)%Q) /\
  (code = 0 <-> (mx - mn < 2 * r)%Q).
Proof.
  intros Hr. cbv zeta. unfold find_sphere_periodic. cbv zeta. rewrite tbox_set_minmax.
  destruct (sphere_inside_box _ c r) eqn:ES.
  - apply sphere_inside_iff in ES. cbn [lo_0 lo_1 hi_0 hi_1] in ES. cbn [fst]. split; [tauto|]. split; [discriminate|]. lra.
  - assert (NS : ~ (mn <= fst c - r /\ fst c + r <= mx /\ mn <= snd c - r /\ snd c + r <= mx)%Q).
    { intros H. assert (T : sphere_inside_box (mkBox mn mn mx mx) c r = true) by (apply sphere_inside_iff; exact H). congruence. }
    cbn [lo_0 lo_1 hi_0 hi_1 fst snd]. destruct (qltb (mx - mn) (r * 2)) eqn:E; cbn [fst].
    + apply qltb_true in E. split; [split; [discriminate|intros H; destruct (NS H)]|]. split; [intros _; lra|auto].
    + apply qltb_false in E. split; [split; [discriminate|intros H; destruct (NS H)]|]. split; [discriminate|lra].
Qed.
