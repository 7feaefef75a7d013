(** Outlier rejection with floating point numbers: the decision at one pixel. *)
From Coq Require Import Lia Lqa Lra Qabs Qpower Qreals Reals.
From Verif Require Import Base Img Types BoundsM Single SingleLemmas CompositeLemmas Typed LayoutFl OutlierFl SpecOutlier SpecOutlierFl FlMonoLemmas OutlierFlLemmas.
Open Scope Q_scope.

Lemma Q2R_abs q : Q2R (Qabs q) = Rabs (Q2R q).
Proof.
  destruct (Qlt_le_dec q 0) as [L|L].
  - rewrite (Qeq_eqR _ _ (Qabs_neg q (Qlt_le_weak _ _ L))), Q2R_opp. symmetry. apply Rabs_left. apply Qlt_Rlt in L. rewrite RMicromega.Q2R_0 in L. exact L.
  - rewrite (Qeq_eqR _ _ (Qabs_pos q L)). symmetry. apply Rabs_right. apply Qle_Rle in L. rewrite RMicromega.Q2R_0 in L. apply Rle_ge. exact L.
Qed.

(** The criterion without a square root. *)
Lemma outlier_q N A m x w : 0 <= N ->
  outlier (Q2R N) (Q2R A) (Q2R m) (Q2R x) (Q2R w) <->
  0 < w /\ A * Qabs m < Qabs (x - m) /\ N * N < w * ((Qabs (x - m) - A * Qabs m) * (Qabs (x - m) - A * Qabs m)).
Proof.
  intros HN. unfold outlier. rewrite <- Q2R_minus, <- !Q2R_abs, <- Q2R_mult. set (D := Qabs (x - m)). set (B := A * Qabs m).
  assert (PN : (0 <= Q2R N)%R) by (apply Qle_Rle in HN; rewrite RMicromega.Q2R_0 in HN; exact HN).
  assert (W : (0 < Q2R w)%R <-> 0 < w).
  { split; intros H; [apply Rlt_Qlt; rewrite RMicromega.Q2R_0; exact H|apply Qlt_Rlt in H; rewrite RMicromega.Q2R_0 in H; exact H]. }
  rewrite W. assert (G : 0 < w -> (Q2R D > Q2R N * (1 / sqrt (Q2R w)) + Q2R B)%R <-> B < D /\ N * N < w * ((D - B) * (D - B))).
  2:{ split; intros (H & K); (split; [exact H|]); apply G; assumption. }
  intros Hw. apply W in Hw. pose proof (sqrt_lt_R0 _ Hw) as Hs. pose proof (sqrt_sqrt (Q2R w) ltac:(lra)) as Hss. set (s := sqrt (Q2R w)) in *.
  assert (E1 : (Q2R D > Q2R N * (1 / s) + Q2R B)%R <-> (Q2R N < (Q2R D - Q2R B) * s)%R).
  { split; intros H.
    - apply (Rmult_lt_compat_r s) in H; [|exact Hs]. replace ((Q2R N * (1 / s) + Q2R B) * s)%R with (Q2R N + Q2R B * s)%R in H by (field; lra). lra.
    - apply Rmult_lt_reg_r with s; [exact Hs|]. replace ((Q2R N * (1 / s) + Q2R B) * s)%R with (Q2R N + Q2R B * s)%R by (field; lra). lra. }
  rewrite E1. assert (E2 : N * N < w * ((D - B) * (D - B)) <-> (Q2R N * Q2R N < ((Q2R D - Q2R B) * s) * ((Q2R D - Q2R B) * s))%R).
  { replace (((Q2R D - Q2R B) * s) * ((Q2R D - Q2R B) * s))%R with (Q2R w * ((Q2R D - Q2R B) * (Q2R D - Q2R B)))%R by (rewrite <- Hss; ring).
    rewrite <- !Q2R_minus, <- !Q2R_mult. split; [apply Qlt_Rlt|apply Rlt_Qlt]. }
  rewrite E2. assert (E3 : B < D <-> (0 < Q2R D - Q2R B)%R).
  { split; intros H; [apply Qlt_Rlt in H; lra|apply Rlt_Qlt; lra]. }
  rewrite E3. split.
  - intros H. assert (P : (0 < (Q2R D - Q2R B) * s)%R) by lra. split.
    + destruct (Rlt_dec 0 (Q2R D - Q2R B)) as [L|L]; [exact L|]. exfalso. apply Rnot_lt_le in L. assert ((Q2R D - Q2R B) * s <= 0)%R by nra. lra.
    + apply Rmult_le_0_lt_compat; assumption.
  - intros (L & H). assert (P : (0 < (Q2R D - Q2R B) * s)%R) by (apply Rmult_lt_0_compat; assumption).
    apply Rsqr_incrst_0; [exact H|exact PN|lra].
Qed.

Lemma qsqr_pos y : 0 <= y * y.
Proof. Lqa.nra. Qed.

Lemma decide_finite di dw sq n A m x w : sqrt_ok sq -> moderate n A m (Fin x) w ->
  (beyond (10001#10000) n A m (Fin x) w -> is_outlier_fl di dw sq n A (Fin m) (Fin x) (Fin w) = true) /\
  (~ beyond (9999#10000) n A m (Fin x) w -> is_outlier_fl di dw sq n A (Fin m) (Fin x) (Fin w) = false).
Proof.
  intros SQ (Hn & HA & Hm & Hx & Hw & HB). specialize (Hx x eq_refl). destruct (SQ w ltac:(Lqa.lra)) as (s & Es & Hs & Hsw).
  destruct (bound_ok sq n A m w s Es Hs Hsw Hn HA Hm Hw HB) as (TT & v & Ev & Hv). set (T := A * Qabs m * s + n) in *.
  change (is_outlier_fl di dw sq n A (Fin m) (Fin x) (Fin w)) with (fl_ltb (bound sq n A m w) (chi di dw x m w)). rewrite Ev.
  unfold beyond. rewrite !outlier_q by Lqa.lra. pose proof (Qabs_nonneg m) as Pm. pose proof (Qabs_nonneg (x - m)) as PD. set (a := Qabs m) in *.
  assert (ED : Qabs (x - m) * Qabs (x - m) == (x - m) * (x - m)) by (rewrite <- Qabs_Qmult; apply Qabs_pos; apply qsqr_pos). set (D := Qabs (x - m)) in *.
  assert (PB : 0 <= A * a) by (apply Qmult_le_0_compat; Lqa.lra). apply Qabs_Qle_condition in Hv.
  assert (EB : forall f, f * A * a == f * (A * a)) by (intros f; ring).
  split; intros H.
  - destruct H as (_ & H1 & H2). rewrite EB in H1, H2. pose proof (exact_out D (A * a) n w s PB (proj1 Hn) Hs Hsw H1 H2) as K. fold T in K. rewrite ED in K.
    destruct (Qlt_le_dec (two 120) ((x - m) * (x - m) * w)) as [L|L].
    + destruct (chi_big di dw x m w Hx Hm Hw L) as [->|(q & -> & Hq)]; [reflexivity|]. cbn [fl_ltb]. apply qltb_true.
      assert ((1000001#1000000) * two 106 < two 110) by qlt. Lqa.lra.
    + destruct (chi_ok di dw x m w Hx Hm Hw L) as (q & -> & Hq). cbn [fl_ltb]. apply qltb_true. apply Qabs_Qle_condition in Hq. Lqa.lra.
  - assert (H' : D <= (9999#10000) * (A * a) \/ w * ((D - (9999#10000) * (A * a)) * (D - (9999#10000) * (A * a))) <= ((9999#10000) * n) * ((9999#10000) * n)).
    { destruct (Qlt_le_dec ((9999#10000) * (A * a)) D) as [L|L]; [right|left; exact L].
      destruct (Qlt_le_dec ((9999#10000) * n * ((9999#10000) * n)) (w * ((D - (9999#10000) * (A * a)) * (D - (9999#10000) * (A * a))))) as [M|M]; [|exact M].
      exfalso. apply H. split; [Lqa.lra|]. split; [rewrite EB; exact L|rewrite EB; exact M]. }
    pose proof (exact_in D (A * a) n w s PD PB (proj1 Hn) Hs Hsw H') as K. fold T in K. rewrite ED in K.
    assert (PY : 0 <= (x - m) * (x - m) * w) by (apply Qmult_le_0_compat; [apply qsqr_pos|Lqa.lra]).
    assert (L : (x - m) * (x - m) * w <= two 120) by (assert (two 106 <= two 120) by qle; Lqa.lra).
    destruct (chi_ok di dw x m w Hx Hm Hw L) as (q & -> & Hq). cbn [fl_ltb]. apply qltb_false. apply Qabs_Qle_condition in Hq. Lqa.lra.
Qed.

Lemma decide_infinite di dw sq n A m b w : sqrt_ok sq -> moderate n A m (Inf b) w -> is_outlier_fl di dw sq n A (Fin m) (Inf b) (Fin w) = true.
Proof.
  intros SQ (Hn & HA & Hm & Hx & Hw & HB). destruct (SQ w ltac:(Lqa.lra)) as (s & Es & Hs & Hsw).
  destruct (bound_ok sq n A m w s Es Hs Hsw Hn HA Hm Hw HB) as (TT & v & Ev & Hv).
  unfold is_outlier_fl. change (fmul true (fadd true (fmul true (fmul true (fl_abs (Fin m)) (Fin A)) (sq (Fin w))) (Fin n))
    (fadd true (fmul true (fmul true (fl_abs (Fin m)) (Fin A)) (sq (Fin w))) (Fin n))) with (bound sq n A m w). rewrite Ev.
  cbn [fsub fcast fmul]. rewrite Bool.xorb_nilpotent. destruct (Qeq_bool w 0) eqn:E; [apply Qeq_bool_iff in E; Lqa.lra|].
  assert (E2 : qltb w 0 = false) by (apply qltb_false; Lqa.lra). rewrite E2. reflexivity.
Qed.

Lemma decide di dw sq n A m x w : sqrt_ok sq -> moderate n A m x w -> x <> NaN ->
  (beyond (10001#10000) n A m x w -> is_outlier_fl di dw sq n A (Fin m) x (Fin w) = true) /\
  (~ beyond (9999#10000) n A m x w -> is_outlier_fl di dw sq n A (Fin m) x (Fin w) = false).
Proof.
  intros SQ M N. destruct x as [q|b|]; [apply decide_finite; assumption| |contradiction]. split; intros H; [apply decide_infinite; assumption|].
  exfalso. apply H. cbn. apply M.
Qed.

(** NaN is never rejected, nor is anything at a pixel where the median is NaN. *)
Lemma nan_kept di dw sq n A m x w : m = NaN \/ x = NaN \/ w = NaN -> is_outlier_fl di dw sq n A m x w = false.
Proof.
  intros H. assert (K : fcast di (fmul (di || dw) (fmul di (fcast di (fsub true x m)) (fcast di (fsub true x m))) w) = NaN).
  { destruct H as [-> |[-> | ->]].
    - destruct x; reflexivity.
    - destruct m; reflexivity.
    - destruct (fmul di _ _); reflexivity. }
  unfold is_outlier_fl. cbv zeta. rewrite K. destruct (fmul true _ _); [reflexivity|destruct neg; reflexivity|reflexivity].
Qed.

(** Only positive weights are cleared. *)
Lemma square_nonneg v : fl_ltb (fmul true v v) (Fin 0) = false.
Proof.
  destruct v as [q|b|]; [|cbn; rewrite Bool.xorb_nilpotent; reflexivity|reflexivity]. cbn [fmul].
  assert (P : 0 <= q * q) by Lqa.nra. destruct (fround true (q * q)) as [u|[|]|] eqn:E; cbn; try reflexivity.
  - apply qltb_false. assert (Z : inject_Z 0 * two 0 == 0) by (change (inject_Z 0) with 0; ring). rewrite <- Z.
    apply (fround_ge true (q * q) 0 0 u); [cbv; split; reflexivity|cbv; discriminate|exact E|]. rewrite Z. exact P.
  - exfalso. exact (fround_inf true _ P E).
Qed.
Lemma rejected_positive di dw sq n A m x w : is_outlier_fl di dw sq n A m x (fl_clip w) = true -> positive w.
Proof.
  unfold is_outlier_fl. cbv zeta. set (mm := fadd true _ _). pose proof (square_nonneg mm) as S. set (M := fmul true mm mm) in *. clearbody M. clear mm.
  set (c := fmul di _ _). clearbody c. intros H. unfold fl_clip in H. destruct w as [q|[|]|].
  - cbn [fl_ltb] in H. destruct (Qlt_le_dec 0 q) as [L|L]; [right; exists q; split; [reflexivity|exact L]|]. exfalso.
    assert (E : exists z, z == 0 /\ (if qltb q 0 then Fin 0 else Fin q) = Fin z).
    { destruct (qltb q 0) eqn:E; [exists 0; split; reflexivity|]. apply qltb_false in E. exists q. split; [Lqa.lra|reflexivity]. }
    destruct E as (z & Hz & Ez). rewrite Ez in H.
    assert (K : fcast di (fmul (di || dw) c (Fin z)) = Fin 0 \/ fcast di (fmul (di || dw) c (Fin z)) = NaN).
    { destruct c as [u|b|]; cbn [fmul].
      - left. assert (E0 : forall d t, t == 0 -> fround d t = Fin 0).
        { intros d0 t Et. unfold fround. cbv zeta. rewrite (Qred_complete t 0 Et). reflexivity. }
        rewrite E0; [|rewrite Hz; ring]. apply E0. reflexivity.
      - right. assert (Qeq_bool z 0 = true) as -> by (apply Qeq_bool_iff; exact Hz). reflexivity.
      - right. reflexivity. }
    destruct K as [K|K]; rewrite K in H; [rewrite H in S; discriminate S|]. destruct M as [u|[|]|]; discriminate H.
  - exfalso. cbn [fl_ltb] in H.
    assert (K : fcast di (fmul (di || dw) c (Fin 0)) = Fin 0 \/ fcast di (fmul (di || dw) c (Fin 0)) = NaN).
    { destruct c as [u|b|]; cbn [fmul].
      - left. assert (E0 : forall d t, t == 0 -> fround d t = Fin 0).
        { intros d0 t Et. unfold fround. cbv zeta. rewrite (Qred_complete t 0 Et). reflexivity. }
        rewrite E0; [|ring]. apply E0. reflexivity.
      - right. reflexivity.
      - right. reflexivity. }
    destruct K as [K|K]; rewrite K in H; [rewrite H in S; discriminate S|]. destruct M as [u|[|]|]; discriminate H.
  - left. reflexivity.
  - exfalso. cbn [fl_ltb] in H. destruct c as [u|b|]; cbn in H; destruct M as [u'|[|]|]; discriminate H.
Qed.
