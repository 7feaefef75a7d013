(** Property theorems on the further queries of the tree: C98 to C103. *)
From Coq Require Import Permutation QArith.
From Verif Require Import Base BoundsM Fast3tree Fast3treeQ SpecUberseg SpecTreeQ.
From Verif Require TreeQLemmas TreeQLemmas2 TreeQLemmas3 TreeQLemmas4.
Open Scope Z_scope.

(** C98: the points inside a box, borders included, and those outside. *)
Theorem C98_box : forall pts b, exists t, fast3tree_build pts = Ok t /\
  selects (in_box b) pts (find_inside_of_box t b) /\ selects (fun p => ~ in_box b p) pts (find_outside_of_box t b).
Proof. exact TreeQLemmas.box_queries. Qed.
Print Assumptions C98_box.

(** A tree with several leaves, some partly inside. *)
Example C98_example : exists t, fast3tree_build pts90 = Ok t /\ (exists b d l r, t = TNode b d l r) /\
  let b := mkBox 10 2 40 4 in
  zlen (find_inside_of_box t b) = 18 /\ zlen (find_outside_of_box t b) = 72.
Proof.
  eexists. split; [vm_compute; reflexivity|]. split; [do 4 eexists; reflexivity|]. vm_compute. auto.
Qed.

(** C99: a point at exactly the radius is found or not, depending on other points. *)
Theorem C99_radius_refuted : exists pts pts' t t' c r2 p, In p pts /\ In p pts' /\ (pdist c p == r2)%Q /\
  fast3tree_build pts = Ok t /\ fast3tree_build pts' = Ok t' /\ In p (find_sphere t c r2) /\ ~ In p (find_sphere t' c r2).
Proof.
  exists [mkPt 0 1 0 0; mkPt 1 1 1 0], [mkPt 0 1 0 0; mkPt 1 1 1 0; mkPt 2 1 5 0]. do 2 eexists. exists (0, 0)%Q, 1%Q, (mkPt 1 1 1 0).
  split; [right; left; reflexivity|]. split; [right; left; reflexivity|]. split; [reflexivity|].
  split; [vm_compute; reflexivity|]. split; [vm_compute; reflexivity|]. split; [right; left; reflexivity|].
  vm_compute. intros [H|[]]. discriminate.
Qed.
Print Assumptions C99_radius_refuted.

(** All points nearer than the radius and none farther, each once. *)
Theorem C99_sphere_partial : forall pts c r2, exists t, fast3tree_build pts = Ok t /\
  exists rest, Permutation (find_sphere t c r2 ++ rest) pts /\
  (forall p, In p (find_sphere t c r2) -> (pdist c p <= r2)%Q) /\ (forall p, In p rest -> (r2 <= pdist c p)%Q).
Proof. exact TreeQLemmas.sphere_query. Qed.
Print Assumptions C99_sphere_partial.

Example C99_example : exists t, fast3tree_build pts90 = Ok t /\ zlen (find_sphere t (20, 3)%Q 40) = 12.
Proof. eexists. split; [vm_compute; reflexivity|]. vm_compute. reflexivity. Qed.

(** C100: points before the given one are found, too. *)
Theorem C100_only_later_refuted : exists pts t tp r2 found k, fast3tree_build pts = Ok t /\
  find_sphere_skip t tp r2 = Ok found /\ In k found /\ k < tp.
Proof.
  exists [mkPt 0 1 0 0; mkPt 1 1 1 0]. eexists. exists 1, 4%Q. eexists. exists 0.
  split; [vm_compute; reflexivity|]. split; [vm_compute; reflexivity|]. split; [left; reflexivity|reflexivity].
Qed.
Print Assumptions C100_only_later_refuted.

(** The given point and all later ones nearer than the radius are found, each once;
    nothing farther is. *)
Theorem C100_skip_partial : forall pts tp r2, (0 < r2)%Q -> 0 <= tp < zlen pts ->
  exists t p0 found, fast3tree_build pts = Ok t /\ Permutation (tpts t) pts /\ zget (tpts t) tp = Some p0 /\
  find_sphere_skip t tp r2 = Ok found /\ NoDup found /\ In tp found /\
  (forall k, In k found -> exists p, zget (tpts t) k = Some p /\ (pdist (p_0 p0, p_1 p0) p <= r2)%Q) /\
  (forall k p, tp <= k -> zget (tpts t) k = Some p -> (pdist (p_0 p0, p_1 p0) p < r2)%Q -> In k found).
Proof. exact TreeQLemmas2.skip_query. Qed.
Print Assumptions C100_skip_partial.

Example C100_example : exists t, fast3tree_build pts90 = Ok t /\ rmap zlen (find_sphere_skip t 10 16) = Ok 3.
Proof. eexists. split; [vm_compute; reflexivity|]. vm_compute. reflexivity. Qed.

(** C101: periodic boundaries.  If the sphere does not fit twice into the period,
    0 is returned and the results are left as they were; otherwise the points with
    an image within the radius are found, each once. *)
Theorem C101_periodic_partial : forall pts mn mx before c r, (0 < r)%Q ->
  (forall p, In p pts -> forall d, (mn <= coord d p <= mx)%Q) -> (mn <= fst c <= mx)%Q -> (mn <= snd c <= mx)%Q ->
  let period := ((mx - mn)%Q, (mx - mn)%Q) in
  exists t, fast3tree_build pts = Ok t /\
  let '(code, found) := find_sphere_periodic (set_minmax t mn mx) before c r in
  ((mx - mn < 2 * r)%Q /\ code = 0 /\ found = before) \/
  ((2 * r <= mx - mn)%Q /\ (code = 1 \/ code = 2) /\
   exists rest, Permutation (found ++ rest) pts /\
   (forall p, In p found -> exists i j, (image_dist c period p i j <= r * r)%Q) /\
   (forall p, In p rest -> forall i j, (r * r <= image_dist c period p i j)%Q)).
Proof. exact TreeQLemmas3.periodic_minmax. Qed.
Print Assumptions C101_periodic_partial.

(** The returned number: 2 for a sphere inside the period, 0 for one too large. *)
Theorem C101_code_partial : forall t mn mx before c r, (0 < r)%Q ->
  let code := fst (find_sphere_periodic (set_minmax t mn mx) before c r) in
  (code = 2 <-> (mn <= fst c - r /\ fst c + r <= mx /\ mn <= snd c - r /\ snd c + r <= mx)%Q) /\
  (code = 0 <-> (mx - mn < 2 * r)%Q).
Proof. exact TreeQLemmas4.periodic_code. Qed.
Print Assumptions C101_code_partial.

(** Without [fast3tree_set_minmax] the period is the extent of the points. *)
Theorem C101_extent_partial : forall pts before c r, pts <> [] -> (0 < r)%Q ->
  exists t b, fast3tree_build pts = Ok t /\ bounding b pts /\
  ((lo_0 b <= fst c <= hi_0 b)%Q -> (lo_1 b <= snd c <= hi_1 b)%Q ->
   let period := (hi_0 b - lo_0 b, hi_1 b - lo_1 b)%Q in
   let '(code, found) := find_sphere_periodic t before c r in
   ((fst period < 2 * r \/ snd period < 2 * r)%Q /\ code = 0 /\ found = before) \/
   ((2 * r <= fst period /\ 2 * r <= snd period)%Q /\ (code = 1 \/ code = 2) /\
    exists rest, Permutation (found ++ rest) pts /\
    (forall p, In p found -> exists i j, (image_dist c period p i j <= r * r)%Q) /\
    (forall p, In p rest -> forall i j, (r * r <= image_dist c period p i j)%Q))).
Proof. exact TreeQLemmas3.periodic_own. Qed.
Print Assumptions C101_extent_partial.

(** After a query that is too large the results still hold those of the one before. *)
Theorem C101_too_large_refuted : exists pts t c r p, fast3tree_build pts = Ok t /\
  let before := snd (find_sphere_periodic (set_minmax t 0 4) [] (0, 0)%Q 1%Q) in
  let '(code, found) := find_sphere_periodic (set_minmax t 0 4) before c r in
  In p found /\ forall i j, (r * r < image_dist c (4, 4)%Q p i j)%Q.
Proof. exact TreeQLemmas4.too_large. Qed.
Print Assumptions C101_too_large_refuted.

(** From a centre outside the period points are missed. *)
Theorem C101_outside_refuted : exists pts t c r p i j, fast3tree_build pts = Ok t /\ In p pts /\ (0 < r)%Q /\
  let '(code, found) := find_sphere_periodic (set_minmax t 0 4) [] c r in
  code = 1 /\ (image_dist c (4, 4)%Q p i j < r * r)%Q /\ ~ In p found.
Proof.
  exists [mkPt 0 1 1 1; mkPt 1 1 3 3]. eexists. exists (9, 1)%Q, 1%Q, (mkPt 0 1 1 1), 2, 0.
  split; [vm_compute; reflexivity|]. split; [left; reflexivity|]. split; [reflexivity|].
  vm_compute. auto.
Qed.
Print Assumptions C101_outside_refuted.

(** A sphere over a corner: four images, several leaves. *)
Example C101_example : exists t, fast3tree_build pts90 = Ok t /\
  let '(code, found) := find_sphere_periodic (set_minmax t 0 83) [] (1, 1)%Q 6%Q in
  code = 1 /\ map p_0 found = [0; 1; 4; 3; 3; 4; 1; 0; 1; 4; 81; 81]%Q.
Proof.
  eexists. split; [vm_compute; reflexivity|]. vm_compute. auto.
Qed.

(** C102: renewing the boxes of a tree without points does not end. *)
Theorem C102_empty_refuted : exists t, fast3tree_build [] = Ok t /\ maxmin_rebuild t = Err OutOfFuel.
Proof. eexists. split; reflexivity. Qed.
Print Assumptions C102_empty_refuted.

(** After new positions for the points and a renewal of the boxes, the queries are
    exact for the new positions. *)
Theorem C102_moved_partial : forall pts new, pts <> [] -> zlen new = zlen pts ->
  exists t t', fast3tree_build pts = Ok t /\ maxmin_rebuild (fst (set_points t new)) = Ok t' /\
  tpts t' = new /\ boxes_exact t' /\
  (forall c r2, sphere_exact new (find_sphere t' c r2) c r2) /\
  (forall b, selects (in_box b) new (find_inside_of_box t' b) /\ selects (fun p => ~ in_box b p) new (find_outside_of_box t' b)).
Proof. exact TreeQLemmas3.moved_points. Qed.
Print Assumptions C102_moved_partial.

(** Without the renewal a moved point is missed. *)
Example C102_stale : exists t, fast3tree_build [mkPt 0 1 0 0; mkPt 1 1 1 0] = Ok t /\
  let t1 := fst (set_points t [mkPt 0 1 0 0; mkPt 1 1 9 9]) in
  find_inside_of_box t1 (mkBox 8 8 10 10) = [] /\
  rmap (fun t2 => find_inside_of_box t2 (mkBox 8 8 10 10)) (maxmin_rebuild t1) = Ok [mkPt 1 1 9 9].
Proof. eexists. split; [vm_compute; reflexivity|]. vm_compute. auto. Qed.

(** C103: points that are not finite are left out of the tree, exactly, and put at
    the end of the array. *)
Theorem C103_not_finite : forall pts, exists t rest, fast3tree_build_any pts = Ok (t, rest) /\
  Permutation (map Some (tpts t) ++ map to_pt rest) (map to_pt pts) /\
  (forall q, In q rest -> In q pts /\ to_pt q = None) /\
  (forall b, selects (in_box b) (tpts t) (find_inside_of_box t b)) /\
  (forall c r2, sphere_exact (tpts t) (find_sphere t c r2) c r2).
Proof. exact TreeQLemmas4.not_finite. Qed.
Print Assumptions C103_not_finite.

Example C103_example : rmap (fun tr => (map p_idx (tpts (fst tr)), map f_idx (snd tr)))
  (fast3tree_build_any [mkFpt 0 1 None (Some 1%Q); mkFpt 1 1 (Some 2%Q) (Some 1%Q); mkFpt 2 1 (Some 0%Q) None; mkFpt 3 1 (Some 0%Q) (Some 0%Q)])
  = Ok ([3; 1], [2; 0]).
Proof. vm_compute. reflexivity. Qed.
