(** The checks of the comparator in floating point. *)
From Coq Require Import Lia ZifyBool ZifyNat Lqa Qabs Qpower Permutation.
From Verif Require Import Base BaseLemmas Img ImgLemmas Types BoundsM Single SingleLemmas CompositeLemmas Typed SpecTyped TypedLemmas LayoutFl FlMonoLemmas
  LayoutFlLemmas OutlierFl CompareFl SpecCompareFl CompareFlLemmas CompareFlLemmas2 CompareFlLemmas3.
Open Scope Z_scope.

Section Rms.
  Variables (np : numpy) (d : bool) (k N : Z).
  Hypothesis Hnp : adds_up N k np.
  Hypothesis Hk0 : 0 <= k.
  Hypothesis Hk : (inject_Z (2 * k + 20) * ulp d <= 1#8)%Q.
  Hypothesis Hsq : root_ok d (np_sqrt np).
  Local Notation u := (ulp d).
  Local Notation t := (tiny d).
  Local Notation ku := (ku d k).

  Lemma std_ok ds B : ds <> [] -> zlen ds = N -> zlen ds <= 2 ^ 40 -> (0 <= B <= Qpower (2#1) 38)%Q -> (forall x, In x ds -> (Qabs x <= B)%Q) ->
    exists s xs ret, np_std np d (map (fround d) ds) = Ok (Fin s) /\ (0 <= s)%Q /\
      Forall2 (fun y x => (Qabs (x - y) <= (ku + 18 * u) * B + 13 * t)%Q) (map (fun x => x - average ds)%Q ds) xs /\
      (((1 - (ku + 14 * u)) * average (map (fun x => x * x)%Q xs) - 10 * t <= ret <= (1 + (ku + 14 * u)) * average (map (fun x => x * x)%Q xs) + 10 * t)%Q) /\
      ((s * (1 - 2 * u)) * (s * (1 - 2 * u)) <= ret <= (s * (1 + 2 * u)) * (s * (1 + 2 * u)))%Q.
  Proof.
    intros Hne EN HN HB HD. pose proof (ulp_bounds d) as U. pose proof (tiny_pos d) as T. pose proof (tiny_small d) as TS. destruct (ku_bounds d k Hk0 Hk) as (K0 & K1).
    assert (T1 : (100 * t <= 1)%Q) by (assert (100 * Qpower (2#1) (-150) <= 1)%Q by (vm_compute; discriminate); lra).
    assert (BB : (Qpower (2#1) 38 * 4 + 1 <= Qpower (2#1) 41)%Q) by (vm_compute; discriminate).
    assert (S126 : (Qpower (2#1) 41 <= Qpower (2#1) 126)%Q) by (vm_compute; discriminate). assert (S82 : (Qpower (2#1) 41 <= Qpower (2#1) 81)%Q) by (vm_compute; discriminate).
    assert (UB : (0 <= u * B <= (1#1000000) * B)%Q) by (split; [apply Qmult_le_0_compat; lra|apply Qmult_le_compat_r; lra]).
    assert (KB : (0 <= ku * B)%Q) by (apply Qmult_le_0_compat; lra).
    assert (KUB : (ku * B + 20 * (u * B) <= (1#8) * B)%Q) by (assert ((ku + 20 * u) * B <= (1#8) * B)%Q by (apply Qmult_le_compat_r; lra); lra).
    unfold np_std.
    destruct (map_fin (fround d) (fun x v => (Qabs (v - x) <= u * B + t)%Q /\ (Qabs v <= B + u * B + t)%Q) ds) as (ds' & E1 & F1).
    { intros x Hx. pose proof (HD x Hx) as Bx. destruct (round_ok d x) as (v & Ev & Bv); [eapply Qle_trans; [exact Bx|]; lra|]. fold (ulp d) (tiny d) in Bv. exists v. split; [exact Ev|].
      assert (u * Qabs x <= u * B)%Q by (apply qmul_le; lra). split; [lra|]. assert (X : (v == x + (v - x))%Q) by ring. rewrite X. eapply Qle_trans; [apply Qabs_triangle|]. lra. }
    rewrite E1. assert (Hne' : ds' <> []) by (inversion F1; subst; congruence). assert (HL : zlen ds' = zlen ds) by (unfold zlen; rewrite (F2_len F1); reflexivity).
    assert (B1 : forall x, In x ds' -> (Qabs x <= B + u * B + t)%Q) by (intros x Hx; destruct (Forall2_In_r _ _ _ _ F1 Hx) as (y & _ & _ & R); exact R).
    destruct (mean_ok np d k N Hnp Hk0 Hk ds' (B + u * B + t) Hne') as (m & Em & Bm & _); [lia|lia|split; lra|exact B1|]. rewrite Em. cbn [bind].
    assert (AB : (average (map Qabs ds') <= B + u * B + t)%Q) by (apply average_le; assumption).
    assert (AC : (Qabs (average ds' - average ds) <= u * B + t)%Q).
    { apply average_close; [exact Hne|]. eapply F2_impl; [|exact F1]. intros x y R. apply R. }
    assert (MM : (Qabs (m - average ds) <= (ku + 14 * u) * B + 10 * t)%Q).
    { assert (X1 : ((ku + 12 * u) * average (map Qabs ds') <= (ku + 12 * u) * (B + u * B + t))%Q) by (apply qmul_le; lra).
      assert (X2 : ((ku + 12 * u) * (u * B) <= (1#8) * (u * B))%Q) by (apply Qmult_le_compat_r; lra). assert (X3 : ((ku + 12 * u) * t <= (1#8) * t)%Q) by (apply Qmult_le_compat_r; lra).
      apply abs_le in AC. apply abs_le in Bm. apply abs_le. lra. }
    set (av := average ds) in *.
    assert (AV : (Qabs av <= B)%Q).
    { eapply Qle_trans; [apply average_abs|]. apply average_le; assumption. }
    assert (MB : (Qabs m <= (9#8) * B + 10 * t)%Q) by (apply abs_le in MM; apply abs_le in AV; apply abs_le; lra).
    destruct (map_fin (fun x => fround d (x - m)) (fun x v => (Qabs (v - (x - m)) <= 3 * (u * B) + 2 * t)%Q) ds') as (xs & E2 & F2).
    { intros x Hx. pose proof (B1 x Hx) as Bx. assert (XB : (Qabs (x - m) <= (5#2) * B + 12 * t)%Q) by (apply abs_le in Bx; apply abs_le in MB; apply abs_le; lra).
      destruct (round_ok d (x - m)) as (v & Ev & Bv); [eapply Qle_trans; [exact XB|]; lra|]. fold (ulp d) (tiny d) in Bv. exists v. split; [exact Ev|].
      assert (u * Qabs (x - m) <= u * ((5#2) * B + 12 * t))%Q by (apply qmul_le; lra). assert (u * t <= (1#1000) * t)%Q by (apply Qmult_le_compat_r; lra). lra. }
    assert (EM : map (fun x => fmul d (fsub d x (Fin m)) (fsub d x (Fin m))) (map Fin ds') = map (fun x => fround d (x * x)) xs).
    { rewrite map_map. cbn [fsub]. transitivity (map (fun y => fmul d y y) (map (fun x => fround d (x - m)) ds')); [rewrite map_map; reflexivity|]. rewrite E2, map_map. reflexivity. }
    rewrite EM. clear EM.
    assert (F3 : Forall2 (fun y x => (Qabs (x - y) <= (ku + 18 * u) * B + 13 * t)%Q) (map (fun x => x - av)%Q ds) xs).
    { pose proof (Forall2_join _ _ _ _ _ F1 F2) as J. clearbody av. clear - J MM U T KB UB. induction J as [|x z l l' (y & (R1 & _) & R2) J IH]; cbn [map]; constructor; [|exact IH].
      apply abs_le in R1. apply abs_le in R2. apply abs_le in MM. apply abs_le. lra. }
    assert (B3 : forall x, In x xs -> (Qabs x <= 3 * B + 13 * t)%Q).
    { intros x Hx. destruct (Forall2_In_r _ _ _ _ F3 Hx) as (y & Hy & R). apply in_map_iff in Hy. destruct Hy as (z & <- & Hz). specialize (HD z Hz).
      apply abs_le in HD. apply abs_le in AV. apply abs_le in R. apply abs_le. lra. }
    destruct (map_fin (fun x => fround d (x * x)) (fun x v => ((1 - u) * (x * x) - t <= v <= (1 + u) * (x * x) + t)%Q /\ (0 <= v)%Q /\ (v <= Qpower (2#1) 82)%Q) xs) as (qs & E3 & F4).
    { intros x Hx. pose proof (B3 x Hx) as Bx. pose proof (sq_nonneg x) as SX. assert (XX : (x * x <= Qpower (2#1) 41 * Qpower (2#1) 41)%Q).
      { assert (E : (x * x == Qabs x * Qabs x)%Q) by (rewrite <- Qabs_Qmult; symmetry; apply Qabs_pos; exact SX). rewrite E. apply sq_mono; [apply Qabs_nonneg|]. lra. }
      assert (Q82 : (Qpower (2#1) 41 * Qpower (2#1) 41 * 2 + 1 <= Qpower (2#1) 126)%Q) by (vm_compute; discriminate).
      destruct (round_ok d (x * x)) as (v & Ev & Bv); [rewrite (Qabs_pos (x * x)) by exact SX; lra|]. fold (ulp d) (tiny d) in Bv. rewrite (Qabs_pos (x * x)) in Bv by exact SX. exists v. split; [exact Ev|].
      apply abs_le in Bv. split; [lra|]. split.
      - assert (P : (inject_Z 0 * two 0 <= v)%Q) by (apply (fround_ge d (x * x) 0 0 v); [apply prec_pos|apply low_pos|exact Ev|rewrite Qmult_0_l; exact SX]). rewrite Qmult_0_l in P. exact P.
      - assert (P : (v <= inject_Z 1 * two 82)%Q); [|rewrite Qmult_1_l in P; exact P]. apply (fround_le d (x * x) 1 82 v); [split; [pose proof (prec_pos d); lia|destruct d; reflexivity]|pose proof (low_pos d); lia|exact Ev|].
        rewrite Qmult_1_l. eapply Qle_trans; [exact XX|]. vm_compute. discriminate. }
    rewrite E3. assert (Hx : xs <> []) by (inversion F2; subst; congruence). assert (Hq : qs <> []) by (inversion F4; subst; congruence).
    assert (LQ : zlen qs = zlen ds) by (unfold zlen; rewrite <- (F2_len F4), <- (F2_len F2), <- (F2_len F1); reflexivity).
    assert (Q0 : forall x, In x qs -> (0 <= x)%Q /\ (Qabs x <= Qpower (2#1) 82)%Q).
    { intros x Hi. destruct (Forall2_In_r _ _ _ _ F4 Hi) as (y & _ & _ & R1 & R2). split; [exact R1|]. rewrite (Qabs_pos x) by exact R1. exact R2. }
    destruct (mean_ok np d k N Hnp Hk0 Hk qs (Qpower (2#1) 82) Hq) as (ret & Er & Br & Pr); [lia|lia|split; [discriminate|apply Qle_refl]|intros x Hi; apply Q0; exact Hi|].
    rewrite Er. cbn [bind]. assert (R0 : (0 <= ret)%Q) by (apply Pr; intros x Hi; apply Q0; exact Hi).
    destruct Hsq as (_ & _ & Hroot). destruct (Hroot ret R0) as (s & Es & Ps & Bs). rewrite Es. exists s, xs, ret. split; [reflexivity|]. split; [exact Ps|]. split; [exact F3|].
    rewrite eps_ulp in Bs. split; [|exact Bs].
    assert (AQ : (average (map Qabs qs) == average qs)%Q).
    { rewrite <- (map_id qs) at 2. unfold average. rewrite !map_length. rewrite (total_map_eq Qabs (fun x => x) qs); [reflexivity|]. intros x Hi. apply Qabs_pos. apply Q0. exact Hi. }
    rewrite AQ in Br. set (P := average (map (fun x => x * x)%Q xs)) in *. set (qb := average qs) in *.
    assert (P0 : (0 <= P)%Q) by (eapply Qle_trans; [apply sq_nonneg|apply (average_sq xs Hx)]).
    assert (L1 : (qb <= (1 + u) * P + t)%Q).
    { unfold qb, P. rewrite <- average_lin by exact Hx. rewrite <- (map_id qs). apply average_F2 with (f := fun x => x) (g := fun x => ((1 + u) * (x * x) + t)%Q); [exact Hq|].
      clear - F4. induction F4 as [|x y l l' R F IH]; constructor; [apply R|exact IH]. }
    assert (L2 : ((1 - u) * P - t <= qb)%Q).
    { assert (X : ((1 - u) * P - t == (1 - u) * P + - t)%Q) by ring. rewrite X. unfold qb, P. rewrite <- average_lin by exact Hx. rewrite <- (map_id qs).
      apply average_F2 with (f := fun x => ((1 - u) * (x * x) + - t)%Q) (g := fun x => x); [exact Hx|].
      clear - F4. induction F4 as [|x y l l' R F IH]; constructor; [destruct R as (R & _); lra|exact IH]. }
    assert (Q00 : (0 <= qb)%Q) by (rewrite <- AQ; eapply Qle_trans; [apply Qabs_nonneg|apply average_abs]).
    assert (UP : (0 <= u * P)%Q) by (apply Qmult_le_0_compat; lra). assert (KP : (0 <= ku * P)%Q) by (apply Qmult_le_0_compat; lra).
    assert (X1 : ((ku + 12 * u) * qb <= (ku + 12 * u) * ((1 + u) * P + t))%Q) by (apply qmul_le; lra).
    assert (X2 : (0 <= (ku + 12 * u) * (u * P) <= (1#8) * (u * P))%Q) by (split; [apply Qmult_le_0_compat; lra|apply Qmult_le_compat_r; lra]).
    assert (X3 : (0 <= (ku + 12 * u) * t <= (1#8) * t)%Q) by (split; [apply Qmult_le_0_compat; lra|apply Qmult_le_compat_r; lra]).
    apply abs_le in Br. split; lra.
  Qed.
End Rms.

Lemma diff_pair d h w im1 im2 l : pair_of h w im1 im2 l -> differ_fl im1 im2 = false /\ diff_fl d im1 im2 = map (fround d) (differences l) /\
  length (differences l) = length l /\ differences l <> [].
Proof.
  intros (Hh & Hw & HL & -> & ->). unfold differ_fl, diff_fl, differences. cbn [nr nc dat]. rewrite !Z.eqb_refl. split; [reflexivity|]. split; [|split; [apply map_length|]].
  - rewrite map_map. clear. induction l as [|(a, b) l IH]; [reflexivity|]. cbn [map combine fst snd fsub]. f_equal. exact IH.
  - destruct l; [cbn in HL; nia|discriminate].
Qed.

Lemma tol_ok d np tol : (0 <= tol <= Qpower (2#1) 100)%Q -> exists T, (if np_weak np then fround d tol else Fin tol) = Fin T /\ (tol - ulp d * tol - tiny d <= T <= tol + ulp d * tol + tiny d)%Q.
Proof.
  intros H. pose proof (ulp_bounds d) as U. pose proof (tiny_pos d) as TP. assert (UT : (0 <= ulp d * tol)%Q) by (apply Qmult_le_0_compat; lra). destruct (np_weak np).
  - destruct (round_ok d tol) as (v & E & B).
    { rewrite (Qabs_pos tol) by lra. eapply Qle_trans; [apply H|vm_compute; discriminate]. }
    fold (ulp d) (tiny d) in B. rewrite (Qabs_pos tol) in B by lra. apply abs_le in B. exists v. split; [exact E|]. lra.
  - exists tol. split; [reflexivity|lra].
Qed.

Lemma check_rms np d k tol B h w im1 im2 l :
  adds_up (h * w) k np -> root_ok d (np_sqrt np) -> 0 <= k -> (inject_Z (4 * k + 40) * eps d <= 1#4)%Q ->
  pair_of h w im1 im2 l -> h * w <= 2 ^ 40 ->
  (0 <= B <= Qpower (2#1) 38)%Q -> (forall x, In x (differences l) -> (Qabs x <= B)%Q) -> (0 <= tol <= Qpower (2#1) 100)%Q ->
  let e := (inject_Z (4 * k + 40) * eps d)%Q in
  exists ok s, compare_rms_fl np d tol im1 im2 = Ok (ok, Fin s) /\
    (ok = true -> (mean_square (differences l) <= (tol + e * (tol + B) + Qpower (2#1) (-60)) * (tol + e * (tol + B) + Qpower (2#1) (-60)))%Q) /\
    (ok = false -> forall sg, (0 <= sg)%Q -> (mean_square (differences l) <= sg * sg)%Q -> (tol <= sg + e * (sg + B) + Qpower (2#1) (-60))%Q).
Proof.
  intros Hnp Hsq Hk0 Hk HP HN HB HD HT e. destruct (diff_pair d h w im1 im2 l HP) as (E1 & E2 & E3 & Hne). destruct HP as (_ & _ & HL & _).
  pose proof (ulp_bounds d) as U. pose proof (tiny_pos d) as TP. pose proof (tiny_small d) as TS.
  assert (Hk' : (inject_Z (2 * k + 20) * ulp d <= 1#8)%Q).
  { assert (X : (inject_Z (4 * k + 40) == 2 * inject_Z (2 * k + 20))%Q) by (replace (4 * k + 40) with (2 * (2 * k + 20)) by ring; rewrite inject_Z_mult; reflexivity). rewrite X, eps_ulp in Hk. lra. }
  assert (Ee : (e == 2 * ku d k + 40 * ulp d)%Q).
  { unfold e, ku. rewrite eps_ulp. replace (4 * k + 40) with (2 * (2 * k) + 40) by ring. rewrite inject_Z_plus, inject_Z_mult. change (inject_Z 2) with 2%Q. change (inject_Z 40) with 40%Q. ring. }
  destruct (ku_bounds d k Hk0 Hk') as (K0 & K1).
  destruct (std_ok np d k (h * w) Hnp Hk0 Hk' Hsq (differences l) B Hne) as (s & xs & ret & Es & Ps & F & (R1 & R2) & (S1 & S2)); [unfold zlen; lia|unfold zlen; lia|exact HB|exact HD|].
  destruct (tol_ok d np tol HT) as (T & ET & T1 & T2).
  exists (negb (fl_ltb (Fin T) (Fin s))), s. split.
  { unfold compare_rms_fl. rewrite E1, E2, Es. cbn [bind]. cbv zeta. rewrite ET. reflexivity. }
  cbn [fl_ltb]. set (ds := differences l) in *. set (dv := map (fun x => x - average ds)%Q ds) in *.
  assert (MS : mean_square ds = average (map (fun x => x * x)%Q dv)) by (unfold mean_square, dv; rewrite map_map; reflexivity).
  assert (Hdv : dv <> []) by (unfold dv; destruct ds; [congruence|discriminate]). assert (Hxs : xs <> []) by (inversion F; subst; congruence).
  set (P := average (map (fun x => x * x)%Q xs)) in *. assert (P0 : (0 <= P)%Q) by (eapply Qle_trans; [apply sq_nonneg|apply (average_sq xs Hxs)]).
  set (th := Qpower (2#1) (-70)). assert (Th : (0 < th)%Q) by (vm_compute; reflexivity).
  assert (Th1 : (10 * tiny d <= th * th)%Q) by (assert (10 * Qpower (2#1) (-150) <= th * th)%Q by (vm_compute; discriminate); lra).
  assert (Th2 : (tiny d <= th * (1#100))%Q) by (assert (Qpower (2#1) (-150) <= th * (1#100))%Q by (vm_compute; discriminate); lra).
  assert (Th3 : (100 * th <= Qpower (2#1) (-60))%Q) by (vm_compute; discriminate). set (e60 := Qpower (2#1) (-60)) in *. clearbody th e60.
  set (dl := ((ku d k + 18 * ulp d) * B + 13 * tiny d)%Q) in *.
  assert (UB : (0 <= ulp d * B)%Q) by (apply Qmult_le_0_compat; lra). assert (KB : (0 <= ku d k * B)%Q) by (apply Qmult_le_0_compat; lra).
  assert (UT : (0 <= ulp d * tol)%Q) by (apply Qmult_le_0_compat; lra). assert (KT : (0 <= ku d k * tol)%Q) by (apply Qmult_le_0_compat; lra).
  assert (D0 : (0 <= dl)%Q) by (unfold dl; lra).
  split; intros OK.
  - assert (ST : (s <= T)%Q) by (unfold qltb in OK; destruct (Qle_bool s T) eqn:Q1; [apply Qle_bool_iff; exact Q1|discriminate]).
    pose proof (upper_std (ulp d) (tiny d) (ku d k + 14 * ulp d) P ret s T tol th ltac:(lra) TP ltac:(lra) ltac:(lra) Th Th1 Th2 P0 Ps (proj1 HT) R1 S2 ST T2) as W. cbv zeta in W.
    rewrite MS. set (ww := (tol + (ku d k + 14 * ulp d + 6 * ulp d) * tol + 2 * th)%Q) in *. assert (W0 : (0 <= ww)%Q) by (unfold ww; lra).
    assert (F' : Forall2 (fun x y => (Qabs (y - x) <= dl)%Q) xs dv).
    { clear - F. induction F as [|x y a b R F IH]; constructor; [|exact IH]. rewrite Qabs_Qminus. exact R. }
    eapply Qle_trans; [exact (l2_close dl ww xs dv D0 W0 Hxs F' W)|]. apply sq_mono; [lra|]. rewrite Ee. unfold ww, dl. lra.
  - assert (ST : (T <= s)%Q) by (unfold qltb in OK; destruct (Qle_bool s T) eqn:Q1; [discriminate|]; apply Qlt_le_weak, Qnot_le_lt; intros C; apply Qle_bool_iff in C; congruence).
    intros sg Hsg M. rewrite MS in M. pose proof (l2_close dl sg dv xs D0 Hsg Hdv F M) as L.
    assert (UG : (0 <= ulp d * sg)%Q) by (apply Qmult_le_0_compat; lra). assert (KG : (0 <= ku d k * sg)%Q) by (apply Qmult_le_0_compat; lra).
    pose proof (lower_std (ulp d) (tiny d) (ku d k + 14 * ulp d) P ret s T tol th (sg + dl) ltac:(lra) TP ltac:(lra) ltac:(lra) Th Th1 Th2 ltac:(lra) L Ps (proj1 HT) P0 R2 S1 ST T1) as W.
    eapply Qle_trans; [exact W|]. rewrite Ee.
    assert (X : ((ku d k + 14 * ulp d + 6 * ulp d) * dl <= (1#8) * dl)%Q) by (apply Qmult_le_compat_r; lra). unfold dl in *. lra.
Qed.
