(** Outlier rejection with floating point numbers: the criterion at one pixel. *)
From Coq Require Import Lia Lqa Qabs Qpower.
From Verif Require Import Base Img Types BoundsM Single SingleLemmas CompositeLemmas Typed LayoutFl OutlierFl SpecTyped TypedLemmas TypedLemmas2 TypedLemmas3 FlMonoLemmas.
Open Scope Q_scope.

Lemma sq_lt a b : 0 <= b -> a * a < b * b -> a < b.
Proof. intros Hb H. destruct (Qlt_le_dec a b) as [L|L]; [exact L|]. exfalso. assert (b * b <= a * a) by nra. lra. Qed.
Lemma sq_le a b : 0 <= b -> a * a <= b * b -> a <= b.
Proof. intros Hb H. destruct (Qlt_le_dec b a) as [L|L]; [|exact L]. exfalso. assert (b * b < a * a) by nra. lra. Qed.

(** The exact criterion, with an approximate root. *)
Section Exact.
Variables (D B n w s : Q).
Hypotheses (HD : 0 <= D) (HB : 0 <= B) (Hn : 1 <= n) (Hw : 0 < w) (Hs : 0 <= s) (Hsw : Qabs (s * s - w) <= (1#1000000) * w).
Let T := B * s + n.

Lemma root_bounds : (999999#1000000) * w <= s * s <= (1000001#1000000) * w.
Proof. apply Qabs_Qle_condition in Hsw. lra. Qed.

Lemma exact_out : (10001#10000) * B < D -> ((10001#10000) * n) * ((10001#10000) * n) < w * ((D - (10001#10000) * B) * (D - (10001#10000) * B)) ->
  (1 + (1#1000000)) * (T * T) < D * D * w * (1 - (1#1000000)) - (1#100000).
Proof.
  intros H1 H2. destruct root_bounds as (R1 & R2). set (f := (10001#10000)) in *. set (E := D - f * B) in *.
  assert (HE : 0 <= E) by (unfold E; lra).
  assert (K1 : (999999#1000000) * f * n < s * E).
  { apply sq_lt; [nra|]. assert ((999999#1000000) * (w * (E * E)) <= (s * s) * (E * E)).
    { setoid_replace ((999999#1000000) * (w * (E * E))) with (((999999#1000000) * w) * (E * E)) by ring. apply Qmult_le_compat_r; nra. }
    assert ((999999#1000000) * f * n * ((999999#1000000) * f * n) <= (999999#1000000) * (f * n * (f * n))).
    { assert (0 <= f * n * (f * n)) by (assert (0 <= f * n) by (unfold f; lra); nra). lra. }
    lra. }
  assert (K2 : (100009#100000) * T <= s * D).
  { assert (P : 0 <= B * s) by nra. unfold T. unfold E in K1. unfold f in *. lra. }
  assert (PT : 1 <= T) by (unfold T; assert (0 <= B * s) by nra; lra).
  assert (K3 : (100018#100000) * (T * T) <= (s * D) * (s * D)).
  { assert ((100009#100000) * T * ((100009#100000) * T) <= (s * D) * (s * D)) by nra. nra. }
  assert (K4 : (s * D) * (s * D) <= (1000001#1000000) * (D * D * w)).
  { setoid_replace ((s * D) * (s * D)) with ((s * s) * (D * D)) by ring. setoid_replace ((1000001#1000000) * (D * D * w)) with ((1000001#1000000) * w * (D * D)) by ring.
    apply Qmult_le_compat_r; nra. }
  assert (1 <= T * T) by nra. lra.
Qed.

Lemma exact_in : D <= (9999#10000) * B \/ w * ((D - (9999#10000) * B) * (D - (9999#10000) * B)) <= ((9999#10000) * n) * ((9999#10000) * n) ->
  D * D * w * (1 + (1#1000000)) + (1#100000) <= (1 - (1#1000000)) * (T * T).
Proof.
  intros H. destruct root_bounds as (R1 & R2). set (f := (9999#10000)) in *. assert (P : 0 <= B * s) by nra.
  assert (K2 : s * D <= (999902#1000000) * T).
  { destruct (Qlt_le_dec (f * B) D) as [L|L].
    - destruct H as [H|H]; [lra|]. set (E := D - f * B) in *. assert (HE : 0 <= E) by (unfold E; lra).
      assert (K1 : s * E <= (1000001#1000000) * f * n).
      { apply sq_le; [unfold f; lra|]. assert ((s * s) * (E * E) <= (1000001#1000000) * (w * (E * E))).
        { setoid_replace ((1000001#1000000) * (w * (E * E))) with (((1000001#1000000) * w) * (E * E)) by ring. apply Qmult_le_compat_r; nra. }
        assert ((1000001#1000000) * (f * n * (f * n)) <= (1000001#1000000) * f * n * ((1000001#1000000) * f * n)).
        { assert (0 <= f * n * (f * n)) by (assert (0 <= f * n) by (unfold f; lra); nra). lra. }
        lra. }
      unfold E in K1. unfold T. unfold f in *. lra.
    - assert (s * D <= s * (f * B)) by nra. unfold T, f in *. lra. }
  assert (PT : 1 <= T) by (unfold T; lra). assert (PD : 0 <= s * D) by nra.
  assert (K3 : (s * D) * (s * D) <= (999805#1000000) * (T * T)).
  { assert ((s * D) * (s * D) <= (999902#1000000) * T * ((999902#1000000) * T)) by nra. nra. }
  assert (K4 : (999999#1000000) * (D * D * w) <= (s * D) * (s * D)).
  { setoid_replace ((s * D) * (s * D)) with ((s * s) * (D * D)) by ring. setoid_replace ((999999#1000000) * (D * D * w)) with ((999999#1000000) * w * (D * D)) by ring.
    apply Qmult_le_compat_r; nra. }
  assert (1 <= T * T) by nra. lra.
Qed.
End Exact.

Ltac qle := apply Qle_bool_iff; vm_compute; reflexivity.
Ltac qlt := apply Qnot_le_lt; let H := fresh in intros H; apply Qle_bool_iff in H; vm_compute in H; discriminate H.

Lemma ww_ok : 0 <= ww /\ ww <= 7 # 100000000.
Proof. split; qle. Qed.
Lemma eta_ok : 0 <= eta /\ eta <= 1#100000000000000000000000000000000000000000000.
Proof. split; qle. Qed.

Lemma fround_inf d x : 0 <= x -> fround d x <> Inf true.
Proof.
  intros H. unfold fround. cbv zeta. pose proof (Qred_correct x) as R. destruct (qltb 0 (Qred x)) eqn:E1.
  - match goal with |- context [if ?b then _ else _] => destruct b end; discriminate.
  - destruct (qltb (Qred x) 0) eqn:E2; [|discriminate]. exfalso. apply qltb_true in E2. lra.
Qed.
Lemma fround_nan d x : fround d x <> NaN.
Proof. unfold fround. cbv zeta. repeat match goal with |- context [if ?b then _ else _] => destruct b end; discriminate. Qed.

Lemma approx_small k c x X : approx k c x X -> 0 <= k <= 1 -> Qabs x <= 2 * Qabs X + c.
Proof. intros A Hk. pose proof (approx_abs _ _ _ _ A). pose proof (Qabs_nonneg X). nra. Qed.

(** The left side: wt*(im-med)**2. *)
Definition chi (di dw : bool) (x m w : Q) : fl :=
  let d := fcast di (fsub true (Fin x) (Fin m)) in fcast di (fmul (di || dw) (fmul di d d) (Fin w)).

Lemma diff_ok di x m : Qabs x <= two 60 -> Qabs m <= two 60 ->
  exists d, fcast di (fsub true (Fin x) (Fin m)) = Fin d /\ approx (2 * ww) (3 * eta) d (x - m) /\
    (two (-110) <= Qabs (x - m) -> approx (2 * ww) 0 d (x - m)).
Proof.
  intros Hx Hm. pose proof ww_ok as W. pose proof eta_ok as Et. cbn [fsub fcast].
  assert (HX : Qabs (x - m) <= two 124).
  { eapply Qle_trans; [apply Qabs_triangle|]. rewrite Qabs_opp. assert (two 60 + two 60 <= two 124) by qle. lra. }
  assert (A0 : approx 0 0 (x - m) (x - m)) by (apply approx_refl; reflexivity).
  destruct (fround_step true 0 0 (x - m) (x - m) A0) as (v & E0 & A1); [lra|lra|exact HX|]. rewrite E0.
  destruct (fround_step di (0 + ww) (2 * 0 + eta) v (x - m) A1) as (d & E & A2); [lra|lra|exact HX|]. cbn [fcast].
  exists d. split; [exact E|]. split; [eapply approx_weaken; [exact A2|lra|lra]|]. intros L.
  assert (L' : two (-120) <= Qabs (x - m)) by (assert (two (-120) <= two (-110)) by qle; lra).
  destruct (fround_step0 true 0 (x - m) (x - m) A0) as (v' & E' & A1'); [lra|exact L'|exact HX|].
  rewrite E' in E0. injection E0 as <-.
  destruct (fround_step0 di (0 + ww) v' (x - m) A1') as (d' & E'' & A2'); [lra|exact L'|exact HX|].
  rewrite E'' in E. injection E as <-. eapply approx_weaken; [exact A2'|lra|lra].
Qed.

Lemma chi_ok di dw x m w : Qabs x <= two 60 -> Qabs m <= two 60 -> 0 < w <= two 128 -> (x - m) * (x - m) * w <= two 120 ->
  exists v, chi di dw x m w = Fin v /\ Qabs (v - (x - m) * (x - m) * w) <= (1#1000000) * ((x - m) * (x - m) * w) + (1#100000).
Proof.
  intros Hx Hm (Hw0 & Hw) HX. pose proof ww_ok as W. pose proof eta_ok as Et. unfold chi. destruct (diff_ok di x m Hx Hm) as (d & -> & A & B).
  set (X := x - m) in *. set (Y := X * X * w) in *. cbv zeta. cbn [fmul].
  assert (PX : 0 <= X * X) by nra. assert (EX : Qabs (X * X) == X * X) by (apply Qabs_pos; exact PX).
  assert (PY : 0 <= Y) by (unfold Y; nra). assert (EY : Qabs Y == Y) by (apply Qabs_pos; exact PY).
  assert (EW : Qabs w == w) by (apply Qabs_pos; lra).
  assert (HX61 : Qabs X <= two 61). { unfold X. eapply Qle_trans; [apply Qabs_triangle|]. rewrite Qabs_opp. assert (two 60 + two 60 <= two 61) by qle. lra. }
  assert (HXX : X * X <= two 122).
  { rewrite <- EX, Qabs_Qmult. assert (two 61 * two 61 <= two 122) by qle. pose proof (Qabs_nonneg X). nra. }
  assert (HH : two 122 <= two 124) by qle. assert (HH' : two 120 <= two 124) by qle.
  assert (EW2 : 4 * eta * w <= 1#1000000). { assert (4 * eta * two 128 <= 1#1000000) by qle. nra. }
  (* the square *)
  assert (SQ : exists v, fround di (d * d) = Fin v /\ approx (6 * ww) (2 * eta) v (X * X)).
  { destruct (Qlt_le_dec (Qabs X) (two (-110))) as [L|L].
    - assert (D1 : Qabs d <= two (-108)).
      { pose proof (approx_small _ _ _ _ A ltac:(lra)) as S. assert (2 * two (-110) + 3 * eta <= two (-108)) by qle. lra. }
      assert (D2 : Qabs (d * d) <= two (-216)).
      { rewrite Qabs_Qmult. pose proof (Qabs_nonneg d). assert (two (-108) * two (-108) <= two (-216)) by qle. nra. }
      destruct (fround_fin di (d * d)) as (v & E); [assert (two (-216) <= two 126) by qle; lra|]. exists v. split; [exact E|].
      pose proof (fround_err di (d * d) v E) as F. unfold approx.
      assert (G : two (- f_prec di) * Qabs (d * d) + two (- f_low di - 1) <= two (-216) + eta).
      { assert (P1 : two (- f_prec di) <= 1#2) by (destruct di; qle). assert (P2 : two (- f_low di - 1) <= eta) by (destruct di; qle).
        pose proof (Qabs_nonneg (d * d)). assert (two (- f_prec di) * Qabs (d * d) <= (1#2) * Qabs (d * d)) by (apply Qmult_le_compat_r; assumption).
        lra. }
      assert (HX2 : Qabs (X * X) <= two (-216)).
      { rewrite Qabs_Qmult. pose proof (Qabs_nonneg X). assert (two (-110) * two (-110) <= two (-216)) by qle. nra. }
      assert (T : v - X * X == (v - d * d) + (d * d + - (X * X))) by ring. rewrite T.
      eapply Qle_trans; [apply Qabs_triangle|]. pose proof (Qabs_triangle (d * d) (- (X * X))) as T2. rewrite Qabs_opp in T2.
      assert (4 * two (-216) <= eta) by qle. pose proof (Qabs_nonneg (X * X)). assert (0 <= 6 * ww * Qabs (X * X)) by nra. lra.
    - specialize (B L). pose proof (approx_mul _ _ _ _ _ _ _ B B ltac:(lra) ltac:(lra) ltac:(lra)) as M.
      destruct (fround_step di _ _ _ _ M) as (v & E & A2); [lra|split; nra| |].
      + rewrite EX. lra.
      + exists v. split; [exact E|]. eapply approx_weaken; [exact A2|lra|]. pose proof (Qabs_nonneg X). nra. }
  destruct SQ as (v & -> & A1). cbn [fmul].
  assert (A0 : approx 0 0 w w) by (apply approx_refl; reflexivity).
  pose proof (approx_mul _ _ _ _ _ _ _ A1 A0 ltac:(lra) ltac:(lra) ltac:(lra)) as M. fold Y in M.
  destruct (fround_step (di || dw) _ _ _ _ M) as (v2 & -> & A2); [lra|rewrite EW; split; nra|rewrite EY; lra|].
  destruct (fround_step di _ _ _ _ A2) as (v3 & E3 & A3); [lra|rewrite EW; split; nra|rewrite EY; lra|]. cbn [fcast].
  exists v3. split; [exact E3|]. unfold approx in A3. rewrite EY, EW in A3. eapply Qle_trans; [exact A3|].
  assert (8 * ww * Y <= (1#1000000) * Y) by (apply Qmult_le_compat_r; lra). lra.
Qed.

(** A large left side. *)
Definition large (v : fl) : Prop := v = Inf false \/ exists q, v = Fin q /\ two 110 <= q.
Lemma fround_large d x : two 110 <= x -> large (fround d x).
Proof.
  intros H. assert (P : 0 <= x) by (assert (0 <= two 110) by qle; lra). pose proof (fround_inf d x P) as N1. pose proof (fround_nan d x) as N2.
  destruct (fround d x) as [q|[|]|] eqn:E; [|contradiction|left; reflexivity|contradiction]. right. exists q. split; [reflexivity|].
  assert (E1 : two 110 == inject_Z 1 * two 110) by (change (inject_Z 1) with 1; ring).
  rewrite E1. apply (fround_ge d x 1 110 q); [destruct d; cbv; split; reflexivity|destruct d; cbv; discriminate|exact E|]. rewrite <- E1. exact H.
Qed.
Lemma fcast_large d v : large v -> large (fcast d v).
Proof. intros [->|(q & -> & H)]; [left; reflexivity|]. apply fround_large. exact H. Qed.

Lemma chi_big di dw x m w : Qabs x <= two 60 -> Qabs m <= two 60 -> 0 < w <= two 128 -> two 120 < (x - m) * (x - m) * w -> large (chi di dw x m w).
Proof.
  intros Hx Hm (Hw0 & Hw) HX. pose proof ww_ok as W. pose proof eta_ok as Et. unfold chi. destruct (diff_ok di x m Hx Hm) as (d & -> & A & B).
  set (X := x - m) in *. cbv zeta. cbn [fmul]. apply fcast_large.
  assert (PX : 0 <= X * X) by nra. assert (EX : Qabs (X * X) == X * X) by (apply Qabs_pos; exact PX).
  assert (HX61 : Qabs X <= two 61). { unfold X. eapply Qle_trans; [apply Qabs_triangle|]. rewrite Qabs_opp. assert (two 60 + two 60 <= two 61) by qle. lra. }
  assert (HXX : X * X <= two 122).
  { rewrite <- EX, Qabs_Qmult. assert (two 61 * two 61 <= two 122) by qle. pose proof (Qabs_nonneg X). nra. }
  assert (HH : two 122 <= two 124) by qle.
  assert (L : two (-8) < X * X).
  { destruct (Qlt_le_dec (two (-8)) (X * X)) as [L|L]; [exact L|]. exfalso. assert (X * X * w <= two (-8) * two 128) by nra. assert (two (-8) * two 128 <= two 120) by qle. lra. }
  assert (L2 : two (-110) <= Qabs X).
  { destruct (Qlt_le_dec (Qabs X) (two (-110))) as [N|N]; [|exact N]. exfalso. rewrite <- EX, Qabs_Qmult in L. pose proof (Qabs_nonneg X).
    assert (Qabs X * Qabs X <= two (-110) * two (-110)) by nra. assert (two (-110) * two (-110) <= two (-8)) by qle. lra. }
  specialize (B L2). pose proof (approx_mul _ _ _ _ _ _ _ B B ltac:(lra) ltac:(lra) ltac:(lra)) as M.
  destruct (fround_step di _ _ _ _ M) as (v & -> & A2); [lra|pose proof (Qabs_nonneg X); split; nra|rewrite EX; lra|]. cbn [fmul].
  apply fround_large. unfold approx in A2. rewrite EX in A2. apply Qabs_Qle_condition in A2. destruct A2 as (A2 & _).
  assert (V : (1#2) * (X * X) <= v). { assert (two (-8) == 1#256) by reflexivity. pose proof (Qabs_nonneg X). set (a := Qabs X) in *. clearbody a. nra. }
  assert (V2 : (1#2) * (X * X) * w <= v * w) by (apply Qmult_le_compat_r; lra). assert (two 110 <= (1#2) * two 120) by qle. lra.
Qed.

(** The right side: (n + A*|med|*sqrt(wt))**2. *)
Definition bound (sq : fl -> fl) (n A m w : Q) : fl :=
  let v := fadd true (fmul true (fmul true (Fin (Qabs m)) (Fin A)) (sq (Fin w))) (Fin n) in fmul true v v.
Lemma bound_ok sq n A m w s : sq (Fin w) = Fin s -> 0 <= s -> Qabs (s * s - w) <= (1#1000000) * w ->
  1 <= n <= two 50 -> 0 <= A <= two 20 -> Qabs m <= two 60 -> 0 < w <= two 128 -> (A * m) * (A * m) * w <= two 100 ->
  let T := A * Qabs m * s + n in
  T * T <= two 106 /\ exists v, bound sq n A m w = Fin v /\ Qabs (v - T * T) <= (1#1000000) * (T * T).
Proof.
  intros Es Hs Hsw Hn HA Hm (Hw0 & Hw) HB T. pose proof ww_ok as W. pose proof eta_ok as Et. unfold bound. rewrite Es. cbn [fmul].
  set (a := Qabs m) in *. assert (Pa : 0 <= a) by apply Qabs_nonneg.
  assert (R : s * s <= (1000001#1000000) * w) by (apply Qabs_Qle_condition in Hsw; lra).
  assert (B2 : (A * a) * (A * a) * w <= two 100).
  { assert (E : (A * a) * (A * a) == (A * m) * (A * m)).
    { setoid_replace (A * a * (A * a)) with (A * A * (a * a)) by ring. unfold a. rewrite <- Qabs_Qmult. rewrite Qabs_pos by nra. ring. }
    rewrite E. exact HB. }
  assert (PB : 0 <= A * a) by nra.
  assert (S65 : s <= two 65). { apply sq_le; [qle|]. assert ((1000001#1000000) * two 128 <= two 65 * two 65) by qle. lra. }
  assert (BS : A * a * s <= two 51).
  { apply sq_le; [qle|]. setoid_replace (A * a * s * (A * a * s)) with ((A * a) * (A * a) * (s * s)) by ring.
    assert ((A * a) * (A * a) * (s * s) <= (A * a) * (A * a) * ((1000001#1000000) * w)) by (rewrite (Qmult_comm _ (s * s)), (Qmult_comm _ (_ * w)); apply Qmult_le_compat_r; [exact R|nra]).
    assert ((1000001#1000000) * two 100 <= two 51 * two 51) by qle. lra. }
  assert (PBS : 0 <= A * a * s) by nra. assert (PT : 1 <= T) by (unfold T; lra).
  assert (T52 : T <= two 52) by (unfold T; assert (two 51 + two 50 <= two 52) by qle; lra).
  assert (TT : T * T <= two 104). { assert (two 52 * two 52 <= two 104) by qle. nra. }
  split; [assert (two 104 <= two 106) by qle; lra|].
  assert (AB : a * A <= two 80). { assert (two 60 * two 20 <= two 80) by qle. nra. }
  assert (E1 : Qabs (a * A) == A * a) by (rewrite Qabs_pos by nra; ring).
  assert (A0 : approx 0 0 (a * A) (A * a)) by (apply approx_refl; ring).
  destruct (fround_step true _ _ _ _ A0) as (v1 & -> & A1); [lra|lra|rewrite Qabs_pos by exact PB; assert (two 80 <= two 124) by qle; lra|]. cbn [fmul].
  assert (As : approx 0 0 s s) by (apply approx_refl; reflexivity).
  pose proof (approx_mul _ _ _ _ _ _ _ A1 As ltac:(lra) ltac:(lra) ltac:(lra)) as M1.
  assert (C1 : 2 * (2 * 0 + eta) * Qabs s <= 1#100000000000000000000).
  { rewrite (Qabs_pos s) by exact Hs. assert (2 * eta * two 65 <= 1#100000000000000000000) by qle. nra. }
  assert (C0 : 0 <= 2 * (2 * 0 + eta) * Qabs s) by (pose proof (Qabs_nonneg s); nra).
  destruct (fround_step true _ _ _ _ M1) as (v2 & -> & A2); [lra|lra|rewrite Qabs_pos by exact PBS; assert (two 51 <= two 124) by qle; lra|].
  unfold fadd. cbn [fsub fneg].
  assert (A3 : approx (3 * ww) 0 (v2 - - n) T).
  { unfold approx in *. rewrite (Qabs_pos T) by lra. rewrite (Qabs_pos (A * a * s)) in A2 by exact PBS.
    assert (E : v2 - - n - T == v2 - A * a * s) by (unfold T; ring). rewrite E. eapply Qle_trans; [exact A2|].
    assert (0 <= ww * (A * a * s)) by nra. assert (0 <= ww * n) by nra. unfold T.
    assert (ww * n >= ww * 1) by nra. assert (1#100000000000000000 <= ww) by qle. lra. }
  destruct (fround_step0 true _ _ _ A3) as (v3 & -> & A4); [lra|rewrite Qabs_pos by lra; assert (two (-120) <= 1) by qle; lra|rewrite Qabs_pos by lra; assert (two 52 <= two 124) by qle; lra|].
  cbn [fmul]. pose proof (approx_mul _ _ _ _ _ _ _ A4 A4 ltac:(lra) ltac:(lra) ltac:(lra)) as M4.
  assert (E4 : Qabs (T * T) == T * T) by (apply Qabs_pos; nra).
  assert (M5 : approx (9 * ww) 0 (v3 * v3) (T * T)) by (eapply approx_weaken; [exact M4|lra|lra]).
  destruct (fround_step0 true _ _ _ M5) as (v4 & E & A5); [lra|rewrite E4; assert (two (-120) <= 1) by qle; nra|rewrite E4; assert (two 104 <= two 124) by qle; lra|].
  exists v4. split; [exact E|]. unfold approx in A5. rewrite E4 in A5. eapply Qle_trans; [exact A5|].
  assert ((9 * ww + ww) * (T * T) <= (1#1000000) * (T * T)) by (apply Qmult_le_compat_r; [lra|nra]). lra.
Qed.
