(** Proofs on bounds and offsets. *)
From Coq Require Import Lia Lqa.
From Verif Require Import Base BaseLemmas Img BoundsM MakerLayout CompositeLemmas SpecBounds.
Open Scope Q_scope.

Lemma qleb_true a b : qleb a b = true <-> a <= b.
Proof. apply Qle_bool_iff. Qed.

Lemma contains_point_iff b r c : contains_point b r c = true <-> inside b r c.
Proof. unfold contains_point, inside. rewrite !andb_true_iff, !qleb_true. tauto. Qed.

Lemma contains_points_iff b rc : Forall2 (fun p v => v = true <-> inside b (fst p) (snd p)) rc (contains_points b rc) /\
  contains_points b rc = map (fun p => contains_point b (fst p) (snd p)) rc.
Proof.
  split; [|reflexivity]. induction rc as [|p rc IH]; cbn; constructor; [|exact IH]. apply (contains_point_iff b (fst p) (snd p)).
Qed.

Lemma contains_bounds_iff a b : contains_bounds a b = true <->
  rowmin a <= rowmin b /\ rowmax b <= rowmax a /\ colmin a <= colmin b /\ colmax b <= colmax a.
Proof. unfold contains_bounds. rewrite !andb_true_iff, !qleb_true. tauto. Qed.

Lemma contains_bounds_trans a b c : contains_bounds a b = true -> contains_bounds b c = true -> contains_bounds a c = true.
Proof. rewrite !contains_bounds_iff. intros; repeat split; lra. Qed.

Lemma contains_bounds_points a b : proper b ->
  (contains_bounds a b = true <-> forall r c, inside b r c -> inside a r c).
Proof.
  intros (P1 & P2). rewrite contains_bounds_iff. unfold inside. split.
  - intros H r c Hi. lra.
  - intros H. pose proof (H (rowmin b) (colmin b)) as H1. pose proof (H (rowmax b) (colmax b)) as H2. lra.
Qed.

Lemma contains_bounds_pt a b r c : contains_bounds a b = true -> contains_point b r c = true -> contains_point a r c = true.
Proof. rewrite contains_bounds_iff, !contains_point_iff. unfold inside. intros; lra. Qed.

Lemma intersects_iff a b : rowmin a < rowmax a -> colmin a < colmax a -> rowmin b < rowmax b -> colmin b < colmax b ->
  (intersects_bounds a b = true <-> exists r c, interior a r c /\ interior b r c).
Proof.
  intros A1 A2 B1 B2. unfold intersects_bounds. rewrite !andb_true_iff, !negb_true_iff.
  assert (F : forall x y, qleb x y = false <-> y < x).
  { intros x y. split; intros H.
    - apply Qnot_le_lt. intros C. apply qleb_true in C. congruence.
    - destruct (qleb x y) eqn:E; [|reflexivity]. apply qleb_true in E. lra. }
  rewrite !F. unfold interior. split.
  - intros (((H1 & H2) & H3) & H4).
    assert (MID : forall a1 a2 b1 b2, a1 < a2 -> b1 < b2 -> b1 < a2 -> a1 < b2 -> exists x, a1 < x /\ x < a2 /\ b1 < x /\ x < b2).
    { clear. intros a1 a2 b1 b2 A B C D. destruct (Qlt_le_dec a1 b1), (Qlt_le_dec a2 b2).
      - exists ((b1 + a2) * (1#2)). lra.
      - exists ((b1 + b2) * (1#2)). lra.
      - exists ((a1 + a2) * (1#2)). lra.
      - exists ((a1 + b2) * (1#2)). lra. }
    destruct (MID (rowmin a) (rowmax a) (rowmin b) (rowmax b)) as (r & Hr); try lra.
    destruct (MID (colmin a) (colmax a) (colmin b) (colmax b)) as (c & Hc); try lra.
    exists r, c. lra.
  - intros (r & c & H1 & H2). lra.
Qed.

Lemma intersects_sym a b : intersects_bounds a b = intersects_bounds b a.
Proof.
  unfold intersects_bounds. destruct (qleb (rowmax a) (rowmin b)), (qleb (rowmax b) (rowmin a)), (qleb (colmax a) (colmin b)), (qleb (colmax b) (colmin a)); reflexivity.
Qed.

Lemma qmin_ok l m : qmin l = Ok m -> In m l /\ forall x, In x l -> m <= x.
Proof.
  destruct l as [|a l]; cbn [qmin]; [discriminate|]. intros H. inversion H; clear H. subst m. revert a.
  induction l as [|y l IH]; intros a; cbn [qmin_from].
  - split; [left; reflexivity|]. intros x [<-|[]]. lra.
  - destruct (IH (if qltb y a then y else a)) as [I1 I2]. split.
    + destruct I1 as [I1|I1]; [|right; right; exact I1]. rewrite <- I1. destruct (qltb y a); [right; left; reflexivity|left; reflexivity].
    + intros x [<-|[<-|Hx]].
      * apply Qle_trans with (if qltb y a then y else a); [apply I2; left; reflexivity|]. destruct (qltb y a) eqn:E; [apply qltb_true in E; lra|lra].
      * apply Qle_trans with (if qltb y a then y else a); [apply I2; left; reflexivity|]. destruct (qltb y a) eqn:E; [lra|apply qltb_false in E; lra].
      * apply I2. right. exact Hx.
Qed.

Lemma qmax_ok l m : qmax l = Ok m -> In m l /\ forall x, In x l -> x <= m.
Proof.
  destruct l as [|a l]; cbn [qmax]; [discriminate|]. intros H. inversion H; clear H. subst m. revert a.
  induction l as [|y l IH]; intros a; cbn [qmax_from].
  - split; [left; reflexivity|]. intros x [<-|[]]. lra.
  - destruct (IH (if qltb a y then y else a)) as [I1 I2]. split.
    + destruct I1 as [I1|I1]; [|right; right; exact I1]. rewrite <- I1. destruct (qltb a y); [right; left; reflexivity|left; reflexivity].
    + intros x [<-|[<-|Hx]].
      * apply Qle_trans with (if qltb a y then y else a); [|apply I2; left; reflexivity]. destruct (qltb a y) eqn:E; [apply qltb_true in E; lra|lra].
      * apply Qle_trans with (if qltb a y then y else a); [|apply I2; left; reflexivity]. destruct (qltb a y) eqn:E; [lra|apply qltb_false in E; lra].
      * apply I2. right. exact Hx.
Qed.

Lemma expand_points_ok b rc : rc <> [] ->
  exists b', expand_points b rc = Ok b' /\ smallest b' (fun x => contains_bounds x b = true /\ forall r c, In (r, c) rc -> inside x r c).
Proof.
  intros Hne. destruct rc as [|p rc]; [congruence|]. clear Hne. set (l := p :: rc).
  destruct (qmin (map fst l)) as [r0|] eqn:E1; [|discriminate E1]. destruct (qmax (map fst l)) as [r1|] eqn:E2; [|discriminate E2].
  destruct (qmin (map snd l)) as [c0|] eqn:E3; [|discriminate E3]. destruct (qmax (map snd l)) as [c1|] eqn:E4; [|discriminate E4].
  unfold expand_points. rewrite E1, E2, E3, E4. cbn [bind]. eexists. split; [reflexivity|].
  apply qmin_ok in E1. apply qmax_ok in E2. apply qmin_ok in E3. apply qmax_ok in E4.
  destruct E1 as (A1 & A2), E2 as (B1 & B2), E3 as (C1 & C2), E4 as (D1 & D2).
  assert (MN : forall x y, (if qltb x y then x else y) <= x /\ (if qltb x y then x else y) <= y).
  { intros x y. destruct (qltb x y) eqn:E; [apply qltb_true in E|apply qltb_false in E]; lra. }
  assert (MX : forall x y, x <= (if qltb y x then x else y) /\ y <= (if qltb y x then x else y)).
  { intros x y. destruct (qltb y x) eqn:E; [apply qltb_true in E|apply qltb_false in E]; lra. }
  split.
  - split.
    + apply contains_bounds_iff. cbn [rowmin rowmax colmin colmax]. repeat split; first [apply MN|apply MX].
    + intros r c Hi. unfold inside. cbn [rowmin rowmax colmin colmax].
      pose proof (A2 r ltac:(apply in_map_iff; exists (r, c); auto)). pose proof (B2 r ltac:(apply in_map_iff; exists (r, c); auto)).
      pose proof (C2 c ltac:(apply in_map_iff; exists (r, c); auto)). pose proof (D2 c ltac:(apply in_map_iff; exists (r, c); auto)).
      pose proof (MN r0 (rowmin b)). pose proof (MX r1 (rowmax b)). pose proof (MN c0 (colmin b)). pose proof (MX c1 (colmax b)). lra.
  - intros x (H1 & H2). apply contains_bounds_iff in H1. apply contains_bounds_iff. cbn [rowmin rowmax colmin colmax].
    apply in_map_iff in A1, B1, C1, D1. destruct A1 as ([r1' c1'] & E1 & I1), B1 as ([r2' c2'] & E2 & I2), C1 as ([r3' c3'] & E3 & I3), D1 as ([r4' c4'] & E4 & I4).
    cbn [fst snd] in *. subst. apply H2 in I1, I2, I3, I4. unfold inside in *.
    repeat split; destruct (qltb _ _); lra.
Qed.

Lemma expand_point_ok b r c : proper b ->
  smallest (expand_point b r c) (fun x => contains_bounds x b = true /\ inside x r c).
Proof.
  intros (P1 & P2). unfold expand_point, smallest, inside.
  destruct (qltb r (rowmin b)) eqn:E1; [apply qltb_true in E1|apply qltb_false in E1];
  (destruct (qltb c (colmin b)) eqn:E2; [apply qltb_true in E2|apply qltb_false in E2]);
  (destruct (qltb (rowmax b) r) eqn:E3; [apply qltb_true in E3|apply qltb_false in E3]);
  (destruct (qltb (colmax b) c) eqn:E4; [apply qltb_true in E4|apply qltb_false in E4]);
  cbn [fst snd];
  (split; [split; [apply contains_bounds_iff|]|intros x (H1 & H2); apply contains_bounds_iff in H1; apply contains_bounds_iff]);
  cbn [rowmin rowmax colmin colmax]; lra.
Qed.

(** * Expanding by bounds *)
Lemma expand_bounds_old a b : contains_bounds (expand_bounds a b) a = true.
Proof.
  unfold expand_bounds. apply contains_bounds_iff.
  destruct (qltb (rowmin b) (rowmin a)) eqn:E1; [apply qltb_true in E1|];
  (destruct (qltb (colmin b) (colmin a)) eqn:E2; [apply qltb_true in E2|]);
  (destruct (qltb (rowmax a) (rowmax b)) eqn:E3; [apply qltb_true in E3|]);
  (destruct (qltb (colmax a) (colmax b)) eqn:E4; [apply qltb_true in E4|]); cbn; lra.
Qed.

Lemma expand_bounds_iff a b : contains_bounds (expand_bounds a b) b = true <->
  ~ (rowmin b < rowmin a /\ rowmax a < rowmax b) /\ ~ (colmin b < colmin a /\ colmax a < colmax b).
Proof.
  unfold expand_bounds. rewrite contains_bounds_iff.
  destruct (qltb (rowmin b) (rowmin a)) eqn:E1; [apply qltb_true in E1|apply qltb_false in E1];
  (destruct (qltb (colmin b) (colmin a)) eqn:E2; [apply qltb_true in E2|apply qltb_false in E2]);
  (destruct (qltb (rowmax a) (rowmax b)) eqn:E3; [apply qltb_true in E3|apply qltb_false in E3]);
  (destruct (qltb (colmax a) (colmax b)) eqn:E4; [apply qltb_true in E4|apply qltb_false in E4]);
  cbn [fst snd rowmin rowmax colmin colmax]; (split; [intros H; split; intros C; lra|intros (H1 & H2); try (exfalso; tauto); repeat split; lra]).
Qed.

(** * Offsets *)
Lemma offset_round_trip row col offset :
  let p := make_wcs_position row col offset false in
  let q := make_wcs_position (zrow p) (zcol p) offset true in
  wcs_row p = row /\ wcs_col p = col /\
  (wcs_row q == wcs_row p /\ wcs_col q == wcs_col p /\ zrow q == zrow p /\ zcol q == zcol p).
Proof. cbn. repeat split; ring. Qed.

Lemma offset_round_trip_inverse row col offset :
  let p := make_wcs_position row col offset true in
  let q := make_wcs_position (wcs_row p) (wcs_col p) offset false in
  zrow p = row /\ zcol p = col /\
  (wcs_row q == wcs_row p /\ wcs_col q == wcs_col p /\ zrow q == zrow p /\ zcol q == zcol p).
Proof. cbn. repeat split; ring. Qed.

Lemma offset_difference row col offset inverse :
  let p := make_wcs_position row col offset inverse in
  wcs_row p - zrow p == offset /\ wcs_col p - zcol p == offset.
Proof. destruct inverse; cbn; split; ring. Qed.
