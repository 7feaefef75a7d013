(** Box sizes in doubles. *)
From Coq Require Import Lia ZifyBool ZifyNat Qpower Qabs Qround Lqa.
From Verif Require Import Base BaseLemmas Img Types BoundsM Single SingleLemmas CompositeLemmas Typed SpecTyped TypedLemmas FlMonoLemmas LayoutFl LayoutFlLemmas CLib CProg SpecCLib SpecCProg CProgLemmas BoxFl SpecBoxFl.
Open Scope Z_scope.

Local Notation u := (two (-53)).
Local Notation t := (two (-100)).
Lemma u_val : (u == 1#9007199254740992)%Q. Proof. vm_compute. reflexivity. Qed.
Lemma u_pos : (0 < u)%Q. Proof. vm_compute. reflexivity. Qed.
Lemma t_pos : (0 < t)%Q. Proof. vm_compute. reflexivity. Qed.

Definition w (k s x y : Q) : Prop := (Qabs (x - y) <= k * u * y + s * t)%Q.

Lemma Qabs_sub x y : (Qabs x <= Qabs y + Qabs (x - y))%Q.
Proof. setoid_replace x with (y + (x - y))%Q at 1 by ring. apply Qabs_triangle. Qed.
Lemma Qmul_nn a b : (0 <= a)%Q -> (0 <= b)%Q -> (0 <= a * b)%Q. Proof. apply Qmult_le_0_compat. Qed.

Lemma w_round k s x y v : (0 <= y)%Q -> (0 <= k <= 100)%Q -> (0 <= s <= 100)%Q -> w k s x y -> fround true x = Fin v ->
  w (k + (17#16)) (s + (17#16)) v y.
Proof.
  unfold w. intros Hy Hk Hs W F. pose proof (fround_err true x v F) as E. change (two (- f_prec true)) with u in E.
  assert (S : (two (- f_low true - 1) <= t)%Q) by (change t with (two (-100)); apply two_le; cbn; lia).
  pose proof (Qabs_sub x y) as A. rewrite (Qabs_pos y Hy) in A.
  setoid_replace (v - y)%Q with ((v - x) + (x - y))%Q by ring. eapply Qle_trans; [apply Qabs_triangle|].
  pose proof u_pos as U. pose proof t_pos as TP.
  assert (B : (u * Qabs x <= u * (y + (k * u * y + s * t)))%Q) by (rewrite (Qmult_comm u), (Qmult_comm u); apply Qmult_le_compat_r; lra).
  assert (KU : (k * u <= 1#16)%Q).
  { apply Qle_trans with (100 * u)%Q; [apply Qmult_le_compat_r; lra|vm_compute; discriminate]. }
  assert (SU : (s * u <= 1#16)%Q).
  { apply Qle_trans with (100 * u)%Q; [apply Qmult_le_compat_r; lra|vm_compute; discriminate]. }
  assert (C1 : ((k * u) * (u * y) <= (1#16) * (u * y))%Q) by (apply Qmult_le_compat_r; [exact KU|apply Qmul_nn; lra]).
  assert (C2 : ((s * u) * t <= (1#16) * t)%Q) by (apply Qmult_le_compat_r; [exact SU|lra]).
  assert (X : (u * (y + (k * u * y + s * t)) == u * y + (k * u) * (u * y) + (s * u) * t)%Q) by ring. rewrite X in B.
  setoid_replace ((k + (17 # 16)) * u * y + (s + (17 # 16)) * t)%Q with (k * u * y + s * t + (17#16) * (u * y) + (17#16) * t)%Q by ring.
  lra.
Qed.

Lemma w_mul k1 s1 k2 x1 y1 x2 y2 : (0 <= y1)%Q -> (0 <= y2 <= 2)%Q -> (0 <= k1 <= 100)%Q -> (0 <= k2 <= 100)%Q -> (0 <= s1)%Q ->
  w k1 s1 x1 y1 -> (Qabs (x2 - y2) <= k2 * u * y2)%Q -> w (k1 + k2 + (1#16)) (3 * s1) (x1 * x2) (y1 * y2).
Proof.
  unfold w. intros H1 H2 K1 K2 S1 W1 W2. pose proof u_pos as U. pose proof t_pos as TP.
  setoid_replace (x1 * x2 - y1 * y2)%Q with ((x1 - y1) * x2 + y1 * (x2 - y2))%Q by ring. eapply Qle_trans; [apply Qabs_triangle|].
  rewrite !Qabs_Qmult, (Qabs_pos y1 H1).
  pose proof (Qabs_sub x2 y2) as A. rewrite (Qabs_pos y2) in A by lra.
  assert (KK : (k1 * k2 * u <= 1#16)%Q).
  { apply Qle_trans with (100 * 100 * u)%Q; [apply Qmult_le_compat_r; [|lra]|vm_compute; discriminate].
    apply Qle_trans with (100 * k2)%Q; [apply Qmult_le_compat_r; lra|]. lra. }
  assert (KU : (k2 * u <= 1#16)%Q).
  { apply Qle_trans with (100 * u)%Q; [apply Qmult_le_compat_r; lra|vm_compute; discriminate]. }
  assert (X2 : (Qabs x2 <= (1 + k2 * u) * y2)%Q) by lra.
  assert (X3 : (Qabs x2 <= 3)%Q).
  { eapply Qle_trans; [exact X2|]. apply Qle_trans with ((17#16) * y2)%Q; [apply Qmult_le_compat_r; lra|lra]. }
  assert (P1 : (Qabs (x1 - y1) * Qabs x2 <= (k1 * u * y1 + s1 * t) * Qabs x2)%Q) by (apply Qmult_le_compat_r; [exact W1|apply Qabs_nonneg]).
  assert (P2 : (k1 * u * y1 * Qabs x2 <= k1 * u * y1 * ((1 + k2 * u) * y2))%Q).
  { rewrite !(Qmult_comm (k1 * u * y1)). apply Qmult_le_compat_r; [exact X2|]. apply Qmul_nn; [apply Qmul_nn; lra|exact H1]. }
  assert (P3 : (s1 * t * Qabs x2 <= s1 * t * 3)%Q).
  { rewrite !(Qmult_comm (s1 * t)). apply Qmult_le_compat_r; [exact X3|]. apply Qmul_nn; lra. }
  assert (P4 : (y1 * Qabs (x2 - y2) <= y1 * (k2 * u * y2))%Q).
  { rewrite !(Qmult_comm y1). apply Qmult_le_compat_r; assumption. }
  assert (P5 : (k1 * k2 * u * (u * (y1 * y2)) <= (1#16) * (u * (y1 * y2)))%Q).
  { apply Qmult_le_compat_r; [exact KK|]. apply Qmul_nn; [lra|]. apply Qmul_nn; lra. }
  setoid_replace ((k1 + k2 + (1 # 16)) * u * (y1 * y2) + 3 * s1 * t)%Q with
    (k1 * u * (y1 * y2) + k2 * u * (y1 * y2) + (1#16) * (u * (y1 * y2)) + 3 * (s1 * t))%Q by ring.
  assert (Q1 : (k1 * u * y1 * ((1 + k2 * u) * y2) == k1 * u * (y1 * y2) + k1 * k2 * u * (u * (y1 * y2)))%Q) by ring. rewrite Q1 in P2.
  assert (Q2 : (y1 * (k2 * u * y2) == k2 * u * (y1 * y2))%Q) by ring. rewrite Q2 in P4.
  assert (Q3 : ((k1 * u * y1 + s1 * t) * Qabs x2 == k1 * u * y1 * Qabs x2 + s1 * t * Qabs x2)%Q) by ring. rewrite Q3 in P1.
  lra.
Qed.

Lemma w_le k s x y k' s' : (0 <= y)%Q -> (k <= k')%Q -> (s <= s')%Q -> w k s x y -> w k' s' x y.
Proof.
  unfold w. intros Hy K S W. eapply Qle_trans; [exact W|]. pose proof u_pos as U. pose proof t_pos as TP.
  assert (A : (k * (u * y) <= k' * (u * y))%Q) by (apply Qmult_le_compat_r; [exact K|apply Qmul_nn; lra]).
  assert (B : (s * t <= s' * t)%Q) by (apply Qmult_le_compat_r; [exact S|lra]). lra.
Qed.

Definition Fd : Q := match FWHM_dbl with Fin v => v | _ => 0%Q end.
Lemma Fd_eq : FWHM_dbl = Fin Fd. Proof. vm_compute. reflexivity. Qed.
Lemma Fd_inv : (Qabs (/ Fd - / FWHM_FAC) <= 2 * u * / FWHM_FAC)%Q. Proof. vm_compute. discriminate. Qed.
Lemma Fd_nz : ~ (Fd == 0)%Q. Proof. vm_compute. discriminate. Qed.

Section Sigma.
Variables fr a b : Q.
Hypothesis Hfr : (0 <= fr <= 100000000)%Q.
Hypothesis Ha : (0 < a)%Q.
Hypothesis Hb : (0 <= b <= a)%Q.
Let G := (2 - b / a)%Q.
Let rho := radius fr a b.

Lemma ratio : (0 <= b / a <= 1)%Q.
Proof. split; [apply Qle_shift_div_l; lra|apply Qle_shift_div_r; lra]. Qed.
Lemma G_range : (1 <= G <= 2)%Q.
Proof. pose proof ratio. unfold G. lra. Qed.

Lemma ell : exists g2 g3, ellipticity_fl (Fin a) (Fin b) = Fin g2 /\ fadd true (Fin 1) (Fin g2) = Fin g3 /\ (Qabs (g3 - G) <= (9#2) * u * G)%Q.
Proof.
  unfold ellipticity_fl, fdiv. destruct (Qeq_bool a 0) eqn:E; [apply Qeq_bool_eq in E; lra|].
  pose proof ratio as R. pose proof u_pos as U. pose proof t_pos as TP.
  assert (T1 : (t <= (1#100) * u)%Q) by (vm_compute; discriminate). assert (U1 : (u <= 1#1000)%Q) by (vm_compute; discriminate).
  destruct (fin (b / a)) as (g1 & E1). { rewrite Qabs_pos by lra. apply Qle_trans with 1%Q; [lra|vm_compute; discriminate]. }
  rewrite E1. cbn [fsub]. apply err in E1. rewrite (Qabs_pos (b / a)) in E1 by lra.
  assert (R1 : (u * (b / a) <= u * 1)%Q) by (rewrite !(Qmult_comm u); apply Qmult_le_compat_r; lra).
  destruct (fin (1 - g1)) as (g2 & E2). { apply Qabs_Qle_condition. change (inject_Z (2 ^ 40)) with (1099511627776#1). lra. }
  rewrite E2. exists g2. apply err in E2.
  assert (A2 : (Qabs (1 - g1) <= 1 + 2 * u)%Q) by (apply Qabs_Qle_condition; lra).
  assert (R2 : (u * Qabs (1 - g1) <= u * (1 + 2 * u))%Q) by (rewrite !(Qmult_comm u); apply Qmult_le_compat_r; lra).
  assert (R3 : (u * (1 + 2 * u) <= u * (1 + 2 * (1#1000)))%Q) by (rewrite !(Qmult_comm u); apply Qmult_le_compat_r; lra).
  unfold fadd. cbn [fneg fsub].
  destruct (fin (1 - - g2)) as (g3 & E3). { apply Qabs_Qle_condition. change (inject_Z (2 ^ 40)) with (1099511627776#1). lra. }
  rewrite E3. exists g3. split; [reflexivity|]. split; [reflexivity|]. apply err in E3.
  assert (A3 : (Qabs (1 - - g2) <= G + 3 * u)%Q) by (unfold G; apply Qabs_Qle_condition; lra).
  assert (R4 : (u * Qabs (1 - - g2) <= u * (G + 3 * u))%Q) by (rewrite !(Qmult_comm u); apply Qmult_le_compat_r; lra).
  assert (R5 : (u * (G + 3 * u) <= u * (G + 3 * (1#1000)))%Q) by (rewrite !(Qmult_comm u); apply Qmult_le_compat_r; lra).
  pose proof G_range as GR. assert (R6 : (u * 1 <= u * G)%Q) by (rewrite !(Qmult_comm u); apply Qmult_le_compat_r; lra).
  unfold G in *. apply Qabs_Qle_condition. lra.
Qed.

Lemma rho_range : (0 <= rho <= 900000000)%Q.
Proof.
  unfold rho, radius. fold G. pose proof G_range as GR.
  assert (A : (0 <= 5 * (fr * 2 / FWHM_FAC) <= 450000000)%Q).
  { unfold Qdiv. assert (I1 : (0 <= / FWHM_FAC <= 45#100)%Q) by (split; vm_compute; discriminate).
    assert (X : (0 <= fr * / FWHM_FAC)%Q) by (apply Qmul_nn; lra).
    assert (Y : (fr * / FWHM_FAC <= 100000000 * (45#100))%Q).
    { apply Qle_trans with (100000000 * / FWHM_FAC)%Q; [apply Qmult_le_compat_r; lra|]. lra. }
    lra. }
  split; [apply Qmul_nn; lra|]. apply Qle_trans with (450000000 * G)%Q; [apply Qmult_le_compat_r; lra|lra].
Qed.

Lemma drad_ok : exists g x1 x2 x3 x4, ellipticity_fl (Fin a) (Fin b) = Fin g /\
  fmul true (Fin fr) (Fin 2) = Fin x1 /\ fdiv (Fin x1) FWHM_dbl = Fin x2 /\ fmul true (Fin x2) (Fin 5) = Fin x3 /\
  fmul true (Fin x3) (fadd true (Fin 1) (Fin g)) = Fin x4 /\ w 11 75 x4 rho.
Proof.
  destruct ell as (g & g3 & Eg & E3 & Bg). exists g. rewrite Fd_eq, E3. cbn [fmul fdiv].
  destruct (Qeq_bool Fd 0) eqn:EF; [apply Qeq_bool_eq in EF; destruct (Fd_nz EF)|].
  assert (BIG : (inject_Z (2 ^ 40) == 1099511627776)%Q) by reflexivity.
  assert (WB : forall k s x y, (0 <= k <= 100)%Q -> (0 <= s <= 100)%Q -> (0 <= y <= 1000000000)%Q -> w k s x y -> (Qabs x <= inject_Z (2 ^ 40))%Q).
  { intros k s x y Hk Hs Hy W. pose proof (Qabs_sub x y) as A. rewrite (Qabs_pos y) in A by lra. unfold w in W.
    pose proof u_pos as U. pose proof t_pos as TP.
    assert (P : (k * u * y <= 1 * y)%Q).
    { apply Qmult_le_compat_r; [|lra]. apply Qle_trans with (100 * u)%Q; [apply Qmult_le_compat_r; lra|vm_compute; discriminate]. }
    assert (P2 : (s * t <= 1)%Q) by (apply Qle_trans with (100 * t)%Q; [apply Qmult_le_compat_r; lra|vm_compute; discriminate]).
    rewrite BIG. lra. }
  set (y1 := (fr * 2)%Q). assert (Y1 : (0 <= y1 <= 200000000)%Q) by (unfold y1; lra).
  assert (W0 : w 0 0 y1 y1). { unfold w. setoid_replace (y1 - y1)%Q with 0%Q by ring. change (Qabs 0) with 0%Q. lra. }
  destruct (fin y1) as (x1 & E1). { apply (WB 0%Q 0%Q y1 y1); [lra|lra|lra|exact W0]. }
  rewrite E1. exists x1. assert (W1 : w (17#16) (17#16) x1 y1) by exact (w_round 0 0 y1 y1 x1 (proj1 Y1) ltac:(lra) ltac:(lra) W0 E1).
  assert (IF : (0 <= / FWHM_FAC <= 1#2)%Q) by (split; vm_compute; discriminate).
  pose proof (w_mul (17#16) (17#16) 2 x1 y1 (/ Fd) (/ FWHM_FAC) (proj1 Y1) ltac:(lra) ltac:(lra) ltac:(lra) ltac:(lra) W1 Fd_inv) as W2.
  change (x1 * / Fd)%Q with (x1 / Fd)%Q in W2. change (y1 * / FWHM_FAC)%Q with (y1 / FWHM_FAC)%Q in W2.
  assert (Y2 : (0 <= y1 / FWHM_FAC <= 90000000)%Q).
  { unfold Qdiv. split; [apply Qmul_nn; lra|]. assert (I1 : (/ FWHM_FAC <= 45#100)%Q) by (vm_compute; discriminate).
    apply Qle_trans with (200000000 * / FWHM_FAC)%Q; [apply Qmult_le_compat_r; lra|lra]. }
  destruct (fin (x1 / Fd)) as (x2 & E2). { refine (WB _ _ _ _ _ _ _ W2); lra. }
  rewrite E2. exists x2. pose proof (w_round ((17 # 16) + 2 + (1#16)) (3 * (17 # 16)) _ _ _ (proj1 Y2) ltac:(lra) ltac:(lra) W2 E2) as W3.
  set (y2 := (y1 / FWHM_FAC)%Q) in *.
  assert (W4 : w (67#16) 22 (x2 * 5) (y2 * 5)).
  { unfold w in *. setoid_replace (x2 * 5 - y2 * 5)%Q with ((x2 - y2) * 5)%Q by ring. rewrite Qabs_Qmult. change (Qabs 5) with 5%Q. pose proof t_pos. lra. }
  destruct (fin (x2 * 5)) as (x3 & E4). { refine (WB _ _ _ _ _ _ _ W4); lra. }
  rewrite E4. exists x3. pose proof (w_round (67#16) 22 (x2 * 5) (y2 * 5) x3 ltac:(lra) ltac:(lra) ltac:(lra) W4 E4) as W5.
  assert (W5' : w (84#16) 24 x3 (y2 * 5)) by (eapply w_le; [| | |exact W5]; lra).
  pose proof G_range as GR.
  pose proof (w_mul (84#16) 24 (9#2) x3 (y2 * 5) g3 G ltac:(lra) ltac:(lra) ltac:(lra) ltac:(lra) ltac:(lra) W5' Bg) as W6.
  assert (RE : (y2 * 5 * G == rho)%Q) by (unfold y2, rho, radius, y1; fold G; unfold Qdiv; ring).
  assert (W6' : w (157#16) 72 (x3 * g3) rho).
  { unfold w in *. rewrite RE in W6. pose proof t_pos. lra. }
  pose proof rho_range as RR. destruct (fin (x3 * g3)) as (x4 & E6). { refine (WB _ _ _ _ _ _ _ W6'); lra. }
  rewrite E6. exists x4. split; [exact Eg|]. do 4 (split; [reflexivity|]). pose proof (w_round (157#16) 72 (x3 * g3) rho x4 (proj1 RR) ltac:(lra) ltac:(lra) W6' E6) as W7.
  eapply w_le; [| | |exact W7]; lra.
Qed.

Lemma drad_small x : w 11 75 x rho -> (- 1 < x <= 1000000000)%Q.
Proof.
  intros W. unfold w in W. pose proof rho_range as RR. pose proof u_pos as U. pose proof t_pos as TP.
  assert (P : (11 * u * rho <= (1#1000) * rho)%Q) by (apply Qmult_le_compat_r; [vm_compute; discriminate|lra]).
  assert (P2 : (75 * t <= 1#1000)%Q) by (vm_compute; discriminate).
  apply Qabs_Qle_condition in W. lra.
Qed.

Lemma sigma_ok : exists x, sigma_size_fl (Fin fr) (ellipticity_fl (Fin a) (Fin b)) = Ok (2 * Qceiling x) /\ w 11 75 x rho.
Proof.
  destruct drad_ok as (g & x1 & x2 & x3 & x4 & Eg & E1 & E2 & E3 & E4 & W). exists x4. split; [|exact W].
  unfold sigma_size_fl. rewrite Eg, E1, E2, E3, E4. cbn [fceil int_cast]. unfold inject_Z. cbn [Qnum Qden]. rewrite Z.quot_1_r.
  destruct (drad_small x4 W) as (L1 & L2).
  assert (C1 : -1 < Qceiling x4 + 0 + 1). { pose proof (Qle_ceiling x4) as C. rewrite Zlt_Qlt, !inject_Z_plus. change (inject_Z (-1)) with (-1)%Q. change (inject_Z 0) with 0%Q. change (inject_Z 1) with 1%Q. lra. }
  assert (C2 : Qceiling x4 <= 1000000000). { pose proof (Qceiling_resp_le x4 (inject_Z 1000000000) L2) as C. rewrite Qceiling_Z in C. exact C. }
  assert (I1 : int_value (Qceiling x4) = Ok (Qceiling x4)) by (unfold int_value; dif E; [reflexivity|lia]).
  assert (I2 : int_value (2 * Qceiling x4) = Ok (2 * Qceiling x4)) by (unfold int_value; dif E; [reflexivity|lia]).
  rewrite I1. cbn [bind]. exact I2.
Qed.

(** The same size from a radius next to the given one. *)
Lemma backward x : w 11 75 x rho -> exists fr', about fr fr' /\ (fr' * 2 / FWHM_FAC * 5 * (1 + (1 - b / a)) == x)%Q.
Proof.
  intros W. pose proof G_range as GR. exists (x * FWHM_FAC / (10 * G))%Q.
  assert (NZ : ~ (b / a == 2)%Q) by (pose proof ratio; lra).
  assert (NA : ~ (a == 0)%Q) by lra.
  assert (N2 : ~ (2 - b / a == 0)%Q) by lra.
  split.
  - unfold about. set (c := (FWHM_FAC / (10 * G))%Q).
    assert (C0 : (0 <= c <= 1)%Q).
    { unfold c. split; [apply Qle_shift_div_l; [lra|]; rewrite Qmult_0_l; vm_compute; discriminate|apply Qle_shift_div_r; [lra|]].
      assert (FWHM_FAC <= 3)%Q by (vm_compute; discriminate). lra. }
    assert (RC : (rho * c == fr)%Q).
    { unfold rho, radius, c. fold G. field. repeat split; solve [lra | vm_compute; discriminate]. }
    assert (E : (x * FWHM_FAC / (10 * G) - fr == (x - rho) * c)%Q).
    { rewrite <- RC. unfold c. field. lra. }
    rewrite E, Qabs_Qmult, (Qabs_pos c) by lra. unfold w in W.
    apply Qle_trans with ((11 * u * rho + 75 * t) * c)%Q; [apply Qmult_le_compat_r; [exact W|lra]|].
    assert (E2 : ((11 * u * rho + 75 * t) * c == 11 * u * (rho * c) + 75 * t * c)%Q) by ring. rewrite E2, RC. rewrite (Qabs_pos fr) by lra.
    assert (P1 : (11 * u * fr <= Qpower (2#1) (-49) * fr)%Q) by (apply Qmult_le_compat_r; [vm_compute; discriminate|lra]).
    assert (P2 : (75 * t * c <= 75 * t * 1)%Q) by (rewrite !(Qmult_comm (75 * t)); apply Qmult_le_compat_r; [lra|vm_compute; discriminate]).
    assert (P3 : (75 * t * 1 <= Qpower (2#1) (-90))%Q) by (vm_compute; discriminate). lra.
  - setoid_replace (1 + (1 - b / a))%Q with G by (unfold G; ring). field. repeat split; solve [lra | vm_compute; discriminate].
Qed.

(** Away from the integers the rounding does not matter. *)
Lemma same_ceiling x : w 11 75 x rho -> (forall n, ~ about rho (inject_Z n)) -> Qceiling x = Qceiling rho.
Proof.
  intros W N. pose proof rho_range as RR.
  assert (T : (Qabs (x - rho) <= Qpower (2#1) (-49) * Qabs rho + Qpower (2#1) (-90))%Q).
  { unfold w in W. rewrite (Qabs_pos rho) by lra. assert (P1 : (11 * u * rho <= Qpower (2#1) (-49) * rho)%Q) by (apply Qmult_le_compat_r; [vm_compute; discriminate|lra]).
    assert (P3 : (75 * t <= Qpower (2#1) (-90))%Q) by (vm_compute; discriminate). lra. }
  apply Qabs_Qle_condition in T.
  destruct (Z.lt_trichotomy (Qceiling x) (Qceiling rho)) as [L|[L|L]]; [exfalso|exact L|exfalso].
  - apply (N (Qceiling x)). unfold about. apply Qabs_Qle_condition. pose proof (Qle_ceiling x) as C1.
    assert (C2 : (inject_Z (Qceiling x) < rho)%Q).
    { apply Qnot_le_lt. intros C. apply Qceiling_resp_le in C. rewrite Qceiling_Z in C. lia. }
    lra.
  - apply (N (Qceiling rho)). unfold about. apply Qabs_Qle_condition. pose proof (Qle_ceiling rho) as C1.
    assert (C2 : (inject_Z (Qceiling rho) < x)%Q).
    { apply Qnot_le_lt. intros C. apply Qceiling_resp_le in C. rewrite Qceiling_Z in C. lia. }
    lra.
Qed.
End Sigma.

Lemma box_size_split r0 r1 c0 c1 fr ell s mn mx : pixel_ok r0 -> pixel_ok r1 -> pixel_ok c0 -> pixel_ok c1 ->
  sigma_size_fl fr ell = Ok s -> forall fr' e', get_sigma_size fr' e' = s ->
  box_size_fl r0 r1 c0 c1 fr ell mn mx = Ok (get_box_size r0 r1 c0 c1 fr' e' mn mx).
Proof.
  unfold pixel_ok, box_size_fl. intros H1 H2 H3 H4 S fr' e' E. rewrite S. unfold get_box_size. rewrite E.
  assert (I : forall z, - 2 ^ 31 <= z < 2 ^ 31 -> int_value z = Ok z) by (intros z Hz; unfold int_value; dif D; [reflexivity|lia]).
  rewrite (I (r1 - r0)) by lia. cbn [bind]. rewrite (I (r1 - r0 + 1)) by lia. cbn [bind]. rewrite (I (c1 - c0)) by lia. cbn [bind].
  rewrite (I (c1 - c0 + 1)) by lia. cbn [bind]. reflexivity.
Qed.

Theorem box_backward r0 r1 c0 c1 fr a b mn mx : pixel_ok r0 -> pixel_ok r1 -> pixel_ok c0 -> pixel_ok c1 ->
  (0 <= fr <= 100000000)%Q -> (0 < a)%Q -> (0 <= b <= a)%Q ->
  forall y x, exists n fr', input_box_fl r0 r1 c0 c1 (Fin fr) (Fin a) (Fin b) mn mx = Ok n /\ about fr fr' /\
    box_for (mkSecat y x r0 r1 c0 c1 fr' a b) mn mx n.
Proof.
  intros H1 H2 H3 H4 Hf Ha Hb y x. destruct (sigma_ok fr a b Hf Ha Hb) as (d & S & W).
  destruct (backward fr a b Hf Ha Hb d W) as (fr' & A & E).
  exists (input_box_size r0 r1 c0 c1 fr' (1 - b / a) mn mx), fr'. split; [|split; [exact A|]].
  - unfold input_box_fl, input_box_size. eapply box_size_split; try eassumption.
    unfold get_sigma_size. cbv zeta. f_equal. apply Qceiling_comp. exact E.
  - apply (box_for_ok (mkSecat y x r0 r1 c0 c1 fr' a b)).
Qed.

Theorem box_same r0 r1 c0 c1 fr a b mn mx : pixel_ok r0 -> pixel_ok r1 -> pixel_ok c0 -> pixel_ok c1 ->
  (0 <= fr <= 100000000)%Q -> (0 < a)%Q -> (0 <= b <= a)%Q -> (forall n, ~ about (radius fr a b) (inject_Z n)) ->
  forall y x, exists n, input_box_fl r0 r1 c0 c1 (Fin fr) (Fin a) (Fin b) mn mx = Ok n /\ box_for (mkSecat y x r0 r1 c0 c1 fr a b) mn mx n.
Proof.
  intros H1 H2 H3 H4 Hf Ha Hb N y x. destruct (sigma_ok fr a b Hf Ha Hb) as (d & S & W).
  exists (input_box_size r0 r1 c0 c1 fr (1 - b / a) mn mx). split.
  - unfold input_box_fl, input_box_size. eapply box_size_split; try eassumption.
    rewrite (same_ceiling fr a b Hf Ha Hb d W N). unfold get_sigma_size. cbv zeta. f_equal. apply Qceiling_comp. unfold radius, Qdiv. ring.
  - apply (box_for_ok (mkSecat y x r0 r1 c0 c1 fr a b)).
Qed.

Theorem no_axis r0 r1 c0 c1 fr a b mn mx : (a == 0)%Q -> exists e, input_box_fl r0 r1 c0 c1 fr (Fin a) b mn mx = Err e.
Proof.
  intros Z. unfold input_box_fl. assert (D : Qeq_bool a 0 = true) by (apply Qeq_bool_iff; exact Z).
  assert (Q : qltb a 0 = false) by (destruct (qltb a 0) eqn:E; [apply qltb_true in E; lra|reflexivity]).
  assert (L : exists e, ellipticity_fl (Fin a) b = e /\ (e = NaN \/ exists g, e = Inf g)).
  { eexists. split; [reflexivity|]. unfold ellipticity_fl, fdiv. destruct b as [q|s|]; cbn.
    - rewrite D. destruct (Qeq_bool q 0); cbn; eauto.
    - eauto.
    - eauto. }
  destruct L as (e & -> & L).
  assert (S : exists e', sigma_size_fl fr e = Err e').
  { unfold sigma_size_fl. cbv zeta.
    assert (M : fadd true (Fin 1) e = e) by (destruct L as [->|([] & ->)]; reflexivity). rewrite M.
    set (z := fmul true (fdiv (fmul true fr (Fin 2)) FWHM_dbl) (Fin 5)).
    assert (K : fmul true z e = NaN \/ exists g, fmul true z e = Inf g).
    { destruct L as [->|(g & ->)]; destruct z as [q|g'|]; cbn; auto; [|eauto]. destruct (Qeq_bool q 0); eauto. }
    destruct K as [->|(g & ->)]; cbn; eauto. }
  destruct S as (e' & S). unfold box_size_fl.
  destruct (int_value (r1 - r0)); cbn [bind]; [|eauto]. destruct (int_value _); cbn [bind]; [|eauto]. destruct (int_value _); cbn [bind]; [|eauto].
  destruct (int_value _); cbn [bind]; [|eauto]. rewrite S. cbn. eauto.
Qed.

(** For the examples. *)
Lemma between n lo rho : (inject_Z lo + (1#100) <= rho)%Q -> (rho <= inject_Z (lo + 1) - (1#100))%Q -> (0 <= rho <= 1000000)%Q -> ~ about rho (inject_Z n).
Proof.
  intros A B R H. unfold about in H. rewrite (Qabs_pos rho) in H by lra. apply Qabs_Qle_condition in H.
  assert (P : (Qpower (2#1) (-49) * rho <= (1#1000000000) * rho)%Q) by (apply Qmult_le_compat_r; [vm_compute; discriminate|lra]).
  assert (P2 : (Qpower (2#1) (-90) <= 1#1000)%Q) by (vm_compute; discriminate).
  assert (L : lo < n) by (rewrite Zlt_Qlt; lra). assert (U : n < lo + 1) by (rewrite Zlt_Qlt; lra). lia.
Qed.
Lemma too_small y x r0 r1 c0 c1 fr a b mn mx n : n < mx -> mx <= 6144 -> (inject_Z n < 2 * radius fr a b)%Q ->
  ~ box_for (mkSecat y x r0 r1 c0 c1 fr a b) mn mx n.
Proof.
  intros L M S (lo & hi & _ & R & _ & _ & _ & (B & _)). cbn in B. destruct B as [B|(_ & _ & B)].
  - destruct R as [(_ & _ & R & _)|(R & _)]; lia.
  - assert (E : (10 * (fr * 2 / FWHM_FAC) * (1 + (1 - b / a)) == 2 * radius fr a b)%Q) by (unfold radius, Qdiv; ring). rewrite E in B. lra.
Qed.
