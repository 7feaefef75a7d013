(** Positions in double precision. *)
From Coq Require Import Lia ZifyBool ZifyNat Lqa Qround Qpower Qabs.
From Verif Require Import Base BaseLemmas Img Types BoundsM MakerLayout Single SingleLemmas CompositeLemmas Typed SpecTyped TypedLemmas FlMonoLemmas LayoutFl SpecLayoutFl.
Open Scope Z_scope.

Local Notation e53 := (1 # 9007199254740992)%Q.
Local Notation e100 := (1 # 1267650600228229401496703205376)%Q.

(** A rounded number has the form of a number of the type. *)
Lemma fpos_form d x : (0 < x)%Q -> exists m e, (fround_pos d x == inject_Z m * two e)%Q /\ 0 <= m < 2 ^ f_prec d /\ - f_low d <= e.
Proof.
  intros H. destruct (expo_spec d x H) as (A & _). pose proof (f_prec_pos d) as Hp.
  assert (K : expo d x <= f_low d) by (unfold expo; lia).
  assert (L : half_even (x * two (expo d x)) <= 2 ^ f_prec d).
  { apply half_even_le. rewrite two_Z by lia. lra. }
  assert (L0 : 0 <= half_even (x * two (expo d x))).
  { apply half_even_ge. change (inject_Z 0) with 0%Q. apply Qmult_le_0_compat; [lra|]. pose proof (two_pos (expo d x)). lra. }
  unfold fround_pos. fold (expo d x). cbv zeta. set (h := half_even _) in *.
  destruct (Z_lt_le_dec h (2 ^ f_prec d)) as [C|C].
  - exists h, (- expo d x). split; [reflexivity|]. lia.
  - assert (E : h = 2 ^ f_prec d) by lia. exists (2 ^ (f_prec d - 1)), (1 - expo d x). split.
    + rewrite E. rewrite !two_Z by lia. rewrite <- !two_plus. replace (f_prec d - 1 + (1 - expo d x)) with (f_prec d + - expo d x) by lia. reflexivity.
    + split; [|lia]. split; [apply Z.pow_nonneg; lia|]. apply Z.pow_lt_mono_r; lia.
Qed.

Lemma fround_form d x v : fround d x = Fin v -> exists m e, (v == inject_Z m * two e)%Q /\ - 2 ^ f_prec d < m < 2 ^ f_prec d /\ - f_low d <= e.
Proof.
  unfold fround. set (y := Qred x) in *. cbv zeta. intros F.
  assert (P : 0 < 2 ^ f_prec d) by (pose proof (f_prec_pos d); apply Z.pow_pos_nonneg; lia).
  destruct (qltb 0 y) eqn:E1.
  - apply qltb_true in E1. destruct (qltb _ _) in F; [|discriminate F]. injection F as <-.
    destruct (fpos_form d y E1) as (m & e & E & B & C). exists m, e. split; [exact E|]. lia.
  - destruct (qltb y 0) eqn:E2.
    + apply qltb_true in E2. destruct (qltb _ _) in F; [|discriminate F]. injection F as <-.
      destruct (fpos_form d (- y) ltac:(lra)) as (m & e & E & B & C). exists (- m), e.
      split; [|lia]. rewrite E, inject_Z_opp. ring.
    + injection F as <-. exists 0, 0. split; [reflexivity|]. pose proof (f_low_ge d). lia.
Qed.

Lemma err x v : fround true x = Fin v -> (x - e53 * Qabs x - e100 <= v <= x + e53 * Qabs x + e100)%Q.
Proof.
  intros F. pose proof (fround_err true x v F) as E. apply Qabs_Qle_condition in E.
  change (two (- f_prec true)) with e53 in E.
  assert (S : (two (- f_low true - 1) <= e100)%Q) by (change e100 with (two (-100)); apply two_le; cbn; lia).
  lra.
Qed.

Lemma fin x : (Qabs x <= inject_Z (2 ^ 40))%Q -> exists v, fround true x = Fin v.
Proof. intros H. apply fround_fin. eapply Qle_trans; [exact H|]. change (inject_Z (2 ^ 40)) with (two 40). apply two_le. lia. Qed.

Lemma fround_int n : Z.abs n <= 2 ^ 50 -> exists v, fround true (inject_Z n) = Fin v /\ (v == inject_Z n)%Q.
Proof.
  intros H. apply fround_exact. exists n, 0. split; [change (two 0) with 1%Q; ring|].
  assert (2 ^ 50 < 2 ^ 53) by reflexivity. repeat split; try lia.
  change (Qabs (inject_Z n)) with (inject_Z (Z.abs n)). apply Qle_lt_trans with (two 50).
  - rewrite <- two_Z by lia. rewrite <- Zle_Qle. exact H.
  - assert (L : (two 51 <= two 1024)%Q) by (apply two_le; lia). assert (two 50 < two 51)%Q by reflexivity. lra.
Qed.

Lemma Qabs_cases x : ((0 <= x)%Q /\ (Qabs x == x)%Q) \/ ((x < 0)%Q /\ (Qabs x == - x)%Q).
Proof. destruct (Qlt_le_dec x 0) as [L|L]; [right|left]; (split; [exact L|]); [apply Qabs_neg; lra|apply Qabs_pos; exact L]. Qed.

(** * One axis *)
Section Axis.
  Variables (n : Z) (im : fimage).
  Hypothesis (Hs : fi_sane im) (Hn : 1 <= n <= 2 ^ 30).
  Let o := offset_of im.
  Let b := buffer_of im.

  Lemma off_eq : fi_offset im = Fin o /\ (Qabs o <= 1048576)%Q /\ is_float true o.
  Proof. destruct Hs as (_ & _ & (q & E & F & B) & _). unfold o, offset_of. rewrite E. auto. Qed.
  Lemma buf_range : (0 <= b <= 1048576)%Q.
  Proof. destruct Hs as (_ & _ & _ & B). unfold b, buffer_of. destruct (fi_buffer im) as [q|]; [|lra]. destruct B as (x & -> & _ & B). exact B. Qed.

  Lemma n_range : (1 <= inject_Z n <= 1073741824)%Q.
  Proof. destruct Hn. split; [change 1%Q with (inject_Z 1)|change 1073741824%Q with (inject_Z (2 ^ 30))]; rewrite <- Zle_Qle; assumption. Qed.

  Lemma axis_bounds_spec : exists l0 h0 lo hi n', (n' == inject_Z n)%Q /\ fround true (1 - o) = Fin l0 /\ fround true (n' - o) = Fin h0 /\
    axis_bounds n im = (Fin lo, Fin hi) /\ (lo <= l0)%Q /\ (h0 <= hi)%Q /\
    (fi_buffer im = None -> lo = l0 /\ hi = h0) /\
    (1 - o - b - (1 # 4194304) <= lo)%Q /\ (hi <= inject_Z n - o + b + (1 # 2097152))%Q.
  Proof.
    destruct off_eq as (EO & BO & _). pose proof buf_range as BB. pose proof n_range as BN.
    destruct (fround_int n) as (n' & En & Hn'). { change (2 ^ 50) with (1125899906842624). change (2 ^ 30) with 1073741824 in Hn. lia. }
    apply Qabs_Qle_condition in BO.
    destruct (fin (1 - o)) as (l0 & El). { apply Qabs_Qle_condition. change (inject_Z (2 ^ 40)) with 1099511627776%Q. lra. }
    destruct (fin (n' - o)) as (h0 & Eh). { apply Qabs_Qle_condition. change (inject_Z (2 ^ 40)) with 1099511627776%Q. lra. }
    pose proof (err _ _ El) as Rl. pose proof (err _ _ Eh) as Rh.
    assert (Al : (Qabs (1 - o) <= 1048577)%Q) by (apply Qabs_Qle_condition; lra).
    assert (Ah : (Qabs (n' - o) <= 1074790400)%Q) by (apply Qabs_Qle_condition; lra).
    assert (AB : axis_bounds n im = match fi_buffer im with Some b0 => (fsub true (Fin l0) b0, fadd true (Fin h0) b0) | None => (Fin l0, Fin h0) end).
    { unfold axis_bounds. rewrite EO, En. cbn [fsub]. rewrite El, Eh. reflexivity. }
    rewrite AB. clear AB. unfold b, buffer_of in *.
    destruct (fi_buffer im) as [bq|] eqn:EB.
    - destruct Hs as (_ & _ & _ & B). rewrite EB in B. destruct B as (q & -> & _ & _). cbn [fadd fneg fsub].
      destruct (fin (l0 - q)) as (lo & El2). { apply Qabs_Qle_condition. change (inject_Z (2 ^ 40)) with 1099511627776%Q. lra. }
      destruct (fin (h0 - - q)) as (hi & Eh2). { apply Qabs_Qle_condition. change (inject_Z (2 ^ 40)) with 1099511627776%Q. lra. }
      pose proof (err _ _ El2) as Rl2. pose proof (err _ _ Eh2) as Rh2.
      assert (Al2 : (Qabs (l0 - q) <= 2097160)%Q) by (apply Qabs_Qle_condition; lra).
      assert (Ah2 : (Qabs (h0 - - q) <= 1075838980)%Q) by (apply Qabs_Qle_condition; lra).
      exists l0, h0, lo, hi, n'. rewrite El2. unfold fadd. cbn [fneg fsub]. rewrite Eh2.
      split; [exact Hn'|]. split; [exact El|]. split; [exact Eh|]. split; [reflexivity|].
      split; [|split; [|split; [discriminate|split; lra]]].
      + destruct (fround_form true _ _ El) as (m & e & E & Bm & Be). rewrite E. eapply (fround_le true (l0 - q)); eauto. rewrite <- E. lra.
      + destruct (fround_form true _ _ Eh) as (m & e & E & Bm & Be). rewrite E. eapply (fround_ge true (h0 - - q)); eauto. rewrite <- E. lra.
    - exists l0, h0, l0, h0, n'. split; [exact Hn'|]. split; [exact El|]. split; [exact Eh|]. split; [reflexivity|].
      split; [lra|]. split; [lra|]. split; [auto|]. split; lra.
  Qed.

  Lemma axis_accept r : is_float true r -> (1 <= r <= inject_Z n)%Q -> axis_contains (axis_bounds n im) (fsub true (Fin r) (fi_offset im)) = true.
  Proof.
    intros _ Hr. destruct axis_bounds_spec as (l0 & h0 & lo & hi & n' & Hn' & El & Eh & -> & Ll & Lh & _).
    destruct off_eq as (-> & BO & _). pose proof n_range as BN. apply Qabs_Qle_condition in BO. cbn [fsub].
    destruct (fin (r - o)) as (z & Ez). { apply Qabs_Qle_condition. change (inject_Z (2 ^ 40)) with 1099511627776%Q. lra. }
    rewrite Ez. unfold axis_contains. cbn [fst snd fle]. apply andb_true_iff.
    pose proof (fround_mono true _ _ _ _ El Ez ltac:(lra)). pose proof (fround_mono true _ _ _ _ Ez Eh ltac:(lra)).
    split; apply Qle_bool_iff; lra.
  Qed.

  Lemma axis_accepted row : axis_contains (axis_bounds n im) (fsub true row (fi_offset im)) = true ->
    exists r z, row = Fin r /\ fsub true row (fi_offset im) = Fin z /\ fround true (r - o) = Fin z /\
      (1 - b - (1 # 1048576) <= r <= inject_Z n + b + (1 # 1048576))%Q /\
      (Qabs (z - (r - o)) <= (1 # 2097152))%Q /\ (-2097160 <= z <= 1075838980)%Q.
  Proof.
    destruct axis_bounds_spec as (l0 & h0 & lo & hi & n' & Hn' & El & Eh & -> & _ & _ & _ & Ll & Lh).
    destruct off_eq as (-> & BO & _). pose proof n_range as BN. pose proof buf_range as BB. apply Qabs_Qle_condition in BO.
    unfold axis_contains. cbn [fst snd]. intros H. apply andb_true_iff in H. destruct H as (H1 & H2).
    destruct row as [r|[|]|]; cbn [fsub fle negb] in H1, H2; try discriminate.
    destruct (fround true (r - o)) as [z|[|]|] eqn:Ez; cbn [fle negb] in H1, H2; try discriminate.
    apply Qle_bool_iff in H1. apply Qle_bool_iff in H2. exists r, z. cbn [fsub]. rewrite Ez.
    split; [reflexivity|]. split; [reflexivity|]. split; [reflexivity|].
    pose proof (err _ _ Ez) as Rz.
    assert (Zr : (-2097160 <= z <= 1075838980)%Q) by lra.
    assert (A : (Qabs (r - o) <= 1075838990)%Q) by (destruct (Qabs_cases (r - o)) as [(S & Q)|(S & Q)]; rewrite Q in *; lra).
    split; [lra|]. split; [|exact Zr]. apply Qabs_Qle_condition. lra.
  Qed.
End Axis.

Lemma int_part_trunc x : int_part x (qtrunc x).
Proof.
  unfold int_part, qtrunc. destruct (Qle_bool 0 x) eqn:E.
  - apply Qle_bool_iff in E. left. split; [exact E|]. pose proof (Qfloor_le x). pose proof (Qlt_floor x) as L.
    rewrite inject_Z_plus in L. change (inject_Z 1) with 1%Q in L. lra.
  - right. assert (x < 0)%Q. { apply Qnot_le_lt. intros C. apply Qle_bool_iff in C. congruence. }
    split; [assumption|]. pose proof (Qle_ceiling x). pose proof (Qceiling_lt x) as L. unfold Zminus in L. rewrite inject_Z_plus in L.
    change (inject_Z (- (1))) with (- (1))%Q in L. split; lra.
Qed.

Lemma wrap_small z : - 2 ^ 63 <= z < 2 ^ 63 -> wrap true 64 z = z.
Proof.
  intros H. unfold wrap. cbv zeta. change (2 ^ (64 - 1)) with (2 ^ 63). assert (2 ^ 64 = 2 * 2 ^ 63) by reflexivity.
  destruct (Z_lt_le_dec z 0) as [C|C].
  - replace (z mod 2 ^ 64) with (z + 2 ^ 64) by (symmetry; rewrite <- (Z.mod_small (z + 2 ^ 64) (2 ^ 64)) by lia; rewrite <- Z.add_mod_idemp_r by lia; rewrite Z_mod_same_full, Z.add_0_r; reflexivity).
    replace (2 ^ 63 <=? z + 2 ^ 64) with true by lia. cbn [andb]. lia.
  - rewrite Z.mod_small by lia. replace (2 ^ 63 <=? z) with false by lia. reflexivity.
Qed.

(** The corner and the position in the cutout. *)
Lemma cut_spec ub half z : half_sane half -> (-2097160 <= z <= 1075838980)%Q ->
  exists c, cut_axis ub half (Fin z) = mkAxis (Fin z) (qtrunc z - half + 1) (Fin c) /\
    fround true (z - inject_Z (qtrunc z - half + 1)) = Fin c /\
    (Qabs (c - (z - inject_Z (qtrunc z - half + 1))) <= (1 # 1073741824))%Q /\
    ((0 <= z)%Q -> (inject_Z half - 1 <= c <= inject_Z half)%Q) /\
    ((z < 0)%Q -> (inject_Z half - 2 <= c <= inject_Z half - 1)%Q).
Proof.
  intros Hh Bz. unfold half_sane in Hh. change (2 ^ 20) with 1048576 in Hh.
  pose proof (int_part_trunc z) as T. set (t := qtrunc z) in *.
  assert (Bt : -2097160 <= t <= 1075838980).
  { destruct T as [(S & T)|(S & T)]; split.
    - assert (L : (inject_Z 0 < inject_Z (t + 1))%Q) by (rewrite inject_Z_plus; change (inject_Z 1) with 1%Q; change (inject_Z 0) with 0%Q; lra). rewrite <- Zlt_Qlt in L. lia.
    - rewrite Zle_Qle. change (inject_Z 1075838980) with 1075838980%Q. lra.
    - rewrite Zle_Qle. change (inject_Z (-2097160)) with (- (2097160))%Q. lra.
    - assert (L : (inject_Z (t - 1) < inject_Z 0)%Q) by (unfold Zminus; rewrite inject_Z_plus; change (inject_Z (- (1))) with (- (1))%Q; change (inject_Z 0) with 0%Q; lra). rewrite <- Zlt_Qlt in L. lia. }
  unfold cut_axis. cbn [to_int]. fold t.
  replace (fits true 32 t) with true by (symmetry; unfold fits; change (2 ^ (32 - 1)) with 2147483648; clear - Bt; lia).
  rewrite wrap_small by (change (2 ^ 63) with 9223372036854775808; lia).
  destruct (fround_int (t - half + 1)) as (s & Es & Hs). { change (2 ^ 50) with 1125899906842624. lia. }
  rewrite Es. cbn [fsub].
  assert (EQ : (inject_Z (t - half + 1) == inject_Z t - inject_Z half + 1)%Q).
  { unfold Zminus. rewrite !inject_Z_plus, inject_Z_opp. reflexivity. }
  assert (Bh : (0 <= inject_Z half <= 1048576)%Q).
  { split; [change 0%Q with (inject_Z 0)|change 1048576%Q with (inject_Z 1048576)]; rewrite <- Zle_Qle; lia. }
  assert (A : (Qabs (z - s) <= 1048580)%Q) by (apply Qabs_Qle_condition; destruct T as [(S & T)|(S & T)]; lra).
  destruct (fin (z - s)) as (c & Ec). { eapply Qle_trans; [exact A|]. discriminate. }
  assert (ER : fround true (z - inject_Z (t - half + 1)) = Fin c).
  { rewrite <- Ec. unfold fround. rewrite (Qred_complete (z - inject_Z (t - half + 1)) (z - s)) by (rewrite Hs; reflexivity). reflexivity. }
  exists c. rewrite Ec. split; [reflexivity|]. split; [exact ER|].
  pose proof (err _ _ Ec) as R. split; [apply Qabs_Qle_condition; lra|].
  assert (IB : forall k : Z, Z.abs k <= 2 ^ 50 -> ((z - s <= inject_Z k)%Q -> (c <= inject_Z k)%Q) /\ ((inject_Z k <= z - s)%Q -> (inject_Z k <= c)%Q)).
  { intros k Hk. assert (Bk : - 2 ^ f_prec true < k < 2 ^ f_prec true) by (change (2 ^ f_prec true) with 9007199254740992; change (2 ^ 50) with 1125899906842624 in Hk; lia).
    assert (Be : - f_low true <= 0) by (cbn; lia).
    assert (E1 : (inject_Z k * two 0 == inject_Z k)%Q) by (change (two 0) with 1%Q; ring).
    split; intros L.
    - pose proof (fround_le true (z - s) k 0 c Bk Be Ec) as G. rewrite E1 in G. exact (G L).
    - pose proof (fround_ge true (z - s) k 0 c Bk Be Ec) as G. rewrite E1 in G. exact (G L). }
  change (2 ^ 50) with 1125899906842624 in IB.
  assert (E1 : (inject_Z (half - 1) == inject_Z half - 1)%Q) by (unfold Zminus; rewrite inject_Z_plus; reflexivity).
  assert (E2 : (inject_Z (half - 2) == inject_Z half - 2)%Q) by (unfold Zminus; rewrite inject_Z_plus; reflexivity).
  split; intros S.
  - destruct T as [(_ & T)|(T & _)]; [|lra]. rewrite <- E1. split; [apply (IB (half - 1)); [lia|lra]|apply (IB half); [lia|lra]].
  - destruct T as [(T & _)|(_ & T)]; [lra|]. rewrite <- E1, <- E2. split; [apply (IB (half - 2)); [lia|lra]|apply (IB (half - 1)); [lia|lra]].
Qed.
