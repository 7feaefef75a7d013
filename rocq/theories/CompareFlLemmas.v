(** Sums and means in floating point. *)
From Coq Require Import Lia ZifyBool ZifyNat Lqa Qabs Qpower Permutation.
From Verif Require Import Base BaseLemmas Img ImgLemmas Types BoundsM Single SingleLemmas CompositeLemmas Typed SpecTyped TypedLemmas LayoutFl FlMonoLemmas
  LayoutFlLemmas OutlierFl CompareFl SpecCompareFl.
Open Scope Z_scope.

Lemma abs_le x y : (Qabs x <= y)%Q <-> (- y <= x <= y)%Q.
Proof. apply Qabs_Qle_condition. Qed.
Lemma inject_ge n m : n <= m -> (inject_Z n <= inject_Z m)%Q.
Proof. intros H. rewrite <- Zle_Qle. exact H. Qed.
Lemma qmul_le a b c : (0 <= c)%Q -> (a <= b)%Q -> (c * a <= c * b)%Q.
Proof. intros Hc H. rewrite !(Qmult_comm c). apply Qmult_le_compat_r; assumption. Qed.

(** Totals *)
Lemma total_app a b : (total (a ++ b) == total a + total b)%Q.
Proof. induction a as [|x a IH]; cbn [app total fold_right]; [unfold total; ring|]. fold (total (a ++ b)). fold (total a). rewrite IH. ring. Qed.
Lemma total_perm a b : Permutation a b -> (total a == total b)%Q.
Proof.
  induction 1 as [|x a b P IH|x y a|a b c P IH P' IH']; cbn [total fold_right]; [reflexivity| |ring|].
  - fold (total a). fold (total b). rewrite IH. reflexivity.
  - unfold total in *. rewrite IH. exact IH'.
Qed.
Lemma total_map_le {A} (f g : A -> Q) l : (forall x, In x l -> (f x <= g x)%Q) -> (total (map f l) <= total (map g l))%Q.
Proof.
  induction l as [|x l IH]; intros H; cbn [map total fold_right]; [apply Qle_refl|]. fold (total (map f l)). fold (total (map g l)).
  pose proof (H x (or_introl eq_refl)). assert (total (map f l) <= total (map g l))%Q by (apply IH; intros y Hy; apply H; right; exact Hy). lra.
Qed.
Lemma total_map_eq {A} (f g : A -> Q) l : (forall x, In x l -> (f x == g x)%Q) -> (total (map f l) == total (map g l))%Q.
Proof.
  induction l as [|x l IH]; intros H; cbn [map total fold_right]; [reflexivity|]. fold (total (map f l)). fold (total (map g l)).
  rewrite (H x (or_introl eq_refl)), IH; [reflexivity|]. intros y Hy. apply H. right. exact Hy.
Qed.
Lemma total_const {A} (c : Q) (l : list A) : (total (map (fun _ => c) l) == inject_Z (zlen l) * c)%Q.
Proof.
  unfold zlen. induction l as [|x l IH]; cbn [map total fold_right length]; [cbn; ring|]. fold (total (map (fun _ : A => c) l)). rewrite IH.
  replace (Z.of_nat (S (length l))) with (Z.of_nat (length l) + 1) by lia. rewrite inject_Z_plus. ring.
Qed.
Lemma total_abs {A} (f : A -> Q) l : (Qabs (total (map f l)) <= total (map (fun x => Qabs (f x)) l))%Q.
Proof.
  induction l as [|x l IH]; cbn [map total fold_right]; [discriminate|]. fold (total (map f l)). fold (total (map (fun x => Qabs (f x)) l)).
  eapply Qle_trans; [apply Qabs_triangle|]. lra.
Qed.
Lemma total_plus {A} (f g : A -> Q) l : (total (map (fun x => f x + g x)%Q l) == total (map f l) + total (map g l))%Q.
Proof. induction l as [|x l IH]; cbn [map total fold_right]; [reflexivity|]. fold (total (map f l)). fold (total (map g l)). fold (total (map (fun x => f x + g x)%Q l)). rewrite IH. ring. Qed.
Lemma total_scale {A} (c : Q) (f : A -> Q) l : (total (map (fun x => c * f x)%Q l) == c * total (map f l))%Q.
Proof. induction l as [|x l IH]; cbn [map total fold_right]; [ring|]. fold (total (map f l)). fold (total (map (fun x => c * f x)%Q l)). rewrite IH. ring. Qed.

(** The values of a list at given positions *)
Definition pick (f : Q -> Q) (xs : list Q) (i : Z) : Q := match zget xs i with Some x => f x | None => 0%Q end.
Lemma pick_all f xs : (total (map (pick f xs) (zrange (zlen xs))) == total (map f xs))%Q.
Proof.
  assert (E : map (pick f xs) (zrange (zlen xs)) = map f xs); [|rewrite E; reflexivity].
  apply list_zget_ext; [rewrite !zlen_map, zlen_zrange by apply zlen_nonneg; reflexivity|]. intros i H. rewrite !zlen_map, zlen_zrange in H by apply zlen_nonneg.
  rewrite !zget_map, zget_zrange by lia. cbn [option_map]. unfold pick. destruct (zget_range_Some xs i H) as (x & E). rewrite E. reflexivity.
Qed.

Section Sum.
  Variable d : bool.
  Let u := Qpower (2#1) (- f_prec d).
  Let t := Qpower (2#1) (- f_low d - 1).
  Lemma u_bounds : (0 < u <= 1 # 16777216)%Q.
  Proof. unfold u. destruct d; split; vm_compute; (reflexivity || discriminate). Qed.
  Lemma t_pos : (0 < t)%Q.
  Proof. apply two_pos. Qed.

  Lemma t_small : (t <= Qpower (2#1) (-150))%Q.
  Proof. unfold t. apply two_le. destruct d; cbn; lia. Qed.
  Lemma prec_pos : - 2 ^ f_prec d < 0 < 2 ^ f_prec d.
  Proof. destruct d; cbn; lia. Qed.
  Lemma low_pos : - f_low d <= 0.
  Proof. destruct d; cbn; lia. Qed.

  Lemma round_ok x : (Qabs x <= Qpower (2#1) 126)%Q -> exists v, fround d x = Fin v /\ (Qabs (v - x) <= u * Qabs x + t)%Q.
  Proof. intros H. destruct (fround_fin d x H) as (v & E). exists v. split; [exact E|]. apply fround_err. exact E. Qed.
  Lemma add_ok a b : (Qabs (a + b) <= Qpower (2#1) 126)%Q -> exists v, fadd d (Fin a) (Fin b) = Fin v /\ (Qabs (v - (a + b)) <= u * Qabs (a + b) + t)%Q.
  Proof.
    intros H. unfold fadd. cbn [fneg fsub]. destruct (round_ok (a - - b)) as (v & E & B).
    - assert (X : (a - - b == a + b)%Q) by ring. rewrite X. exact H.
    - exists v. split; [exact E|]. assert (X : (a - - b == a + b)%Q) by ring. rewrite X in B. exact B.
  Qed.

  (** One addition of two sums with errors *)
  Lemma add_error a b Sa Sb A B ea eb k L1 L2 v :
    (Qabs (a - Sa) <= ea * A + L1 * (1 + ea) * t)%Q -> (Qabs (b - Sb) <= eb * B + L2 * (1 + eb) * t)%Q ->
    (0 <= ea <= k)%Q -> (0 <= eb <= k)%Q -> (k <= 1)%Q -> (Qabs Sa <= A)%Q -> (Qabs Sb <= B)%Q -> (0 <= L1)%Q -> (0 <= L2)%Q ->
    (Qabs (v - (a + b)) <= u * Qabs (a + b) + t)%Q ->
    (Qabs (v - (Sa + Sb)) <= (k + 2 * u) * (A + B) + (L1 + L2 + 1) * (1 + (k + 2 * u)) * t)%Q.
  Proof.
    intros H1 H2 Ka Kb K1 HA HB P1 P2 H3. pose proof u_bounds as U. pose proof t_pos as T.
    assert (NA : (0 <= A)%Q) by (eapply Qle_trans; [apply Qabs_nonneg|exact HA]). assert (NB : (0 <= B)%Q) by (eapply Qle_trans; [apply Qabs_nonneg|exact HB]).
    assert (F1 : (Qabs (a - Sa) <= k * A + L1 * (1 + k) * t)%Q).
    { eapply Qle_trans; [exact H1|]. assert (ea * A <= k * A)%Q by (apply Qmult_le_compat_r; lra).
      assert (L1 * (1 + ea) * t <= L1 * (1 + k) * t)%Q by (apply Qmult_le_compat_r; [apply qmul_le; lra|lra]). lra. }
    assert (F2 : (Qabs (b - Sb) <= k * B + L2 * (1 + k) * t)%Q).
    { eapply Qle_trans; [exact H2|]. assert (eb * B <= k * B)%Q by (apply Qmult_le_compat_r; lra).
      assert (L2 * (1 + eb) * t <= L2 * (1 + k) * t)%Q by (apply Qmult_le_compat_r; [apply qmul_le; lra|lra]). lra. }
    set (W := (A + B)%Q). set (N := ((L1 + L2) * (1 + k) * t)%Q).
    assert (NN : (0 <= N)%Q) by (unfold N; repeat apply Qmult_le_0_compat; lra).
    assert (G : (Qabs (a + b - (Sa + Sb)) <= k * W + N)%Q).
    { apply abs_le in F1. apply abs_le in F2. apply abs_le. unfold W, N. lra. }
    assert (G2 : (Qabs (a + b) <= (1 + k) * W + N)%Q).
    { apply abs_le in G. apply abs_le in HA. apply abs_le in HB. apply abs_le. unfold W in *. lra. }
    assert (G3 : (u * Qabs (a + b) <= u * (2 * W) + u * N)%Q).
    { assert ((1 + k) * W <= 2 * W)%Q by (apply Qmult_le_compat_r; unfold W; lra). assert (u * Qabs (a + b) <= u * (2 * W + N))%Q by (apply qmul_le; lra). lra. }
    assert (G4 : (Qabs (v - (Sa + Sb)) <= k * W + N + u * (2 * W) + u * N + t)%Q).
    { apply abs_le in H3. apply abs_le in G. apply abs_le. lra. }
    eapply Qle_trans; [exact G4|]. fold W.
    assert (G5 : (u * N <= (L1 + L2) * (2 * u) * t)%Q).
    { unfold N. assert (E : (u * ((L1 + L2) * (1 + k) * t) == ((L1 + L2) * t * u) * (1 + k))%Q) by ring. rewrite E.
      assert (E2 : ((L1 + L2) * (2 * u) * t == ((L1 + L2) * t * u) * 2)%Q) by ring. rewrite E2. apply qmul_le; [repeat apply Qmult_le_0_compat; lra|lra]. }
    assert (G6 : (t <= 1 * (1 + (k + 2 * u)) * t)%Q).
    { assert (E : (1 * (1 + (k + 2 * u)) * t == t * (1 + (k + 2 * u)))%Q) by ring. rewrite E. assert (t * 1 <= t * (1 + (k + 2 * u)))%Q by (apply qmul_le; lra). lra. }
    clear - G5 G6. unfold N in *. clearbody N W u t. lra.
  Qed.

  Definition terr (k : Z) : Q := (inject_Z (2 * k) * u)%Q.
  Lemma terr_succ k : (terr (k + 1) == terr k + 2 * u)%Q.
  Proof. unfold terr. replace (2 * (k + 1)) with (2 * k + 2) by lia. rewrite inject_Z_plus. change (inject_Z 2) with 2%Q. ring. Qed.
  Lemma terr_le a b : a <= b -> (terr a <= terr b)%Q.
  Proof. intros H. unfold terr. apply Qmult_le_compat_r; [apply inject_ge; lia|]. pose proof u_bounds. lra. Qed.
  Lemma terr_nonneg a : 0 <= a -> (0 <= terr a)%Q.
  Proof. intros H. apply Qle_trans with (terr 0); [|apply terr_le; exact H]. unfold terr. rewrite Qmult_0_l. apply Qle_refl. Qed.
  Lemma layers_nonneg o : 0 <= layers o.
  Proof. induction o; cbn [layers]; lia. Qed.
  Lemma leaves_pos o : 0 < zlen (leaves o).
  Proof. induction o as [|a IHa b IHb]; cbn [leaves]; [unfold zlen; cbn; lia|]. rewrite zlen_app. lia. Qed.

  Lemma tree_sum_ok xs C o : (0 <= C)%Q -> (forall x, In x xs -> (Qabs x <= C)%Q) -> (forall i, In i (leaves o) -> 0 <= i < zlen xs) ->
    (terr (layers o) <= 1)%Q -> (inject_Z (zlen (leaves o)) * C <= Qpower (2#1) 122)%Q -> zlen (leaves o) <= 2 ^ 40 ->
    exists s, tree_sum d o (map Fin xs) = Ok (Fin s) /\
      (Qabs (s - total (map (pick (fun x => x) xs) (leaves o))) <=
        terr (layers o) * total (map (pick Qabs xs) (leaves o)) + inject_Z (2 * zlen (leaves o) - 1) * (1 + terr (layers o)) * t)%Q /\
      ((forall x, In x xs -> (0 <= x)%Q) -> (0 <= s)%Q).
  Proof.
    intros HC HB. pose proof u_bounds as U. pose proof t_pos as T.
    assert (PA : forall l, (Qabs (total (map (pick (fun x => x) xs) l)) <= total (map (pick Qabs xs) l))%Q).
    { intros l. eapply Qle_trans; [apply total_abs|]. apply total_map_le. intros i _. unfold pick. destruct (zget xs i); [apply Qle_refl|discriminate]. }
    assert (PB : forall l, (total (map (pick Qabs xs) l) <= inject_Z (zlen l) * C)%Q).
    { intros l. rewrite <- (total_const C l). apply total_map_le. intros i _. unfold pick. destruct (zget xs i) as [x|] eqn:E; [apply HB; eapply zget_In; exact E|exact HC]. }
    induction o as [i|a IHa b IHb]; intros HI HK HN HM.
    - cbn [tree_sum leaves layers map]. destruct (zget_range_Some xs i) as (x & E); [apply HI; left; reflexivity|]. rewrite zget_map, E. cbn [option_map].
      exists x. split; [reflexivity|]. split; [|intros H; apply H; eapply zget_In; exact E]. unfold pick at 1. rewrite E. unfold total at 1. cbn [fold_right].
      assert (X : (x - (x + 0) == 0)%Q) by ring. rewrite X. change (Qabs 0) with 0%Q. unfold terr. rewrite Qmult_0_l. rewrite Qmult_0_l. change (inject_Z (2 * zlen [i] - 1)) with 1%Q. lra.
    - cbn [leaves layers] in *. rewrite zlen_app in *. pose proof (leaves_pos a) as La. pose proof (leaves_pos b) as Lb.
      pose proof (layers_nonneg a) as Da. pose proof (layers_nonneg b) as Db. set (k := Z.max (layers a) (layers b)) in *.
      rewrite Z.add_comm in HK. rewrite (Z.add_comm 1). rewrite terr_succ in HK.
      assert (TA : (terr (layers a) <= terr k)%Q) by (apply terr_le; unfold k; lia). assert (TB : (terr (layers b) <= terr k)%Q) by (apply terr_le; unfold k; lia).
      pose proof (terr_nonneg _ Da) as TA0. pose proof (terr_nonneg _ Db) as TB0.
      rewrite inject_Z_plus in HN.
      assert (CA : (0 <= inject_Z (zlen (leaves a)) * C)%Q) by (apply Qmult_le_0_compat; [change 0%Q with (inject_Z 0); apply inject_ge; lia|exact HC]).
      assert (CB : (0 <= inject_Z (zlen (leaves b)) * C)%Q) by (apply Qmult_le_0_compat; [change 0%Q with (inject_Z 0); apply inject_ge; lia|exact HC]).
      destruct IHa as (va & Ea & Ba & Pa); [intros i Hi; apply HI; apply in_or_app; left; exact Hi|lra|lra|lia|].
      destruct IHb as (vb & Eb & Bb & Pb); [intros i Hi; apply HI; apply in_or_app; right; exact Hi|lra|lra|lia|].
      cbn [tree_sum]. rewrite Ea, Eb. cbn [bind].
      pose proof (PA (leaves a)) as PAa. pose proof (PA (leaves b)) as PAb. pose proof (PB (leaves a)) as PBa. pose proof (PB (leaves b)) as PBb.
      assert (TS : (t <= Qpower (2#1) (-100))%Q) by (eapply Qle_trans; [exact t_small|vm_compute; discriminate]).
      assert (BIG : (Qabs (va + vb) <= Qpower (2#1) 126)%Q).
      { assert (Z1 : (inject_Z (2 * zlen (leaves a) - 1) * (1 + terr (layers a)) * t <= 1)%Q).
        { apply Qle_trans with (inject_Z (2 ^ 41) * 2 * Qpower (2#1) (-100))%Q; [|vm_compute; discriminate].
          apply Qle_trans with (inject_Z (2 ^ 41) * 2 * t)%Q; [|apply qmul_le; [discriminate|exact TS]]. apply Qmult_le_compat_r; [|lra].
          apply Qle_trans with (inject_Z (2 ^ 41) * (1 + terr (layers a)))%Q; [apply Qmult_le_compat_r; [apply inject_ge; lia|lra]|apply qmul_le; [discriminate|lra]]. }
        assert (Z2 : (inject_Z (2 * zlen (leaves b) - 1) * (1 + terr (layers b)) * t <= 1)%Q).
        { apply Qle_trans with (inject_Z (2 ^ 41) * 2 * Qpower (2#1) (-100))%Q; [|vm_compute; discriminate].
          apply Qle_trans with (inject_Z (2 ^ 41) * 2 * t)%Q; [|apply qmul_le; [discriminate|exact TS]]. apply Qmult_le_compat_r; [|lra].
          apply Qle_trans with (inject_Z (2 ^ 41) * (1 + terr (layers b)))%Q; [apply Qmult_le_compat_r; [apply inject_ge; lia|lra]|apply qmul_le; [discriminate|lra]]. }
        assert (Y1 : (terr (layers a) * total (map (pick Qabs xs) (leaves a)) <= inject_Z (zlen (leaves a)) * C)%Q).
        { eapply Qle_trans; [|exact PBa]. rewrite <- (Qmult_1_l (total _)) at 2. apply Qmult_le_compat_r; [lra|]. eapply Qle_trans; [apply Qabs_nonneg|exact PAa]. }
        assert (Y2 : (terr (layers b) * total (map (pick Qabs xs) (leaves b)) <= inject_Z (zlen (leaves b)) * C)%Q).
        { eapply Qle_trans; [|exact PBb]. rewrite <- (Qmult_1_l (total _)) at 2. apply Qmult_le_compat_r; [lra|]. eapply Qle_trans; [apply Qabs_nonneg|exact PAb]. }
        assert (S126 : (2 * Qpower (2#1) 122 + 2 <= Qpower (2#1) 126)%Q) by (vm_compute; discriminate).
        apply abs_le in PAa. apply abs_le in PAb. apply abs_le in Ba. apply abs_le in Bb. apply abs_le.
        clear PA PB HB TS HK. lra. }
      destruct (add_ok va vb BIG) as (v & Ev & Bv). exists v. split; [rewrite Ev; reflexivity|]. split.
      + rewrite !map_app, !total_app, terr_succ.
        pose proof (add_error va vb _ _ _ _ (terr (layers a)) (terr (layers b)) (terr k) _ _ v Ba Bb) as AE.
        assert (N1 : (0 <= inject_Z (2 * zlen (leaves a) - 1))%Q) by (change 0%Q with (inject_Z 0); apply inject_ge; lia).
        assert (N2 : (0 <= inject_Z (2 * zlen (leaves b) - 1))%Q) by (change 0%Q with (inject_Z 0); apply inject_ge; lia).
        eapply Qle_trans; [apply AE; [split; lra|split; lra|lra|exact PAa|exact PAb|exact N1|exact N2|exact Bv]|].
        assert (E : (inject_Z (2 * (zlen (leaves a) + zlen (leaves b)) - 1) == inject_Z (2 * zlen (leaves a) - 1) + inject_Z (2 * zlen (leaves b) - 1) + 1)%Q).
        { change 1%Q with (inject_Z 1). rewrite <- !inject_Z_plus. apply inject_Z_injective. lia. }
        rewrite E. apply Qle_refl.
      + intros H0. specialize (Pa H0). specialize (Pb H0). unfold fadd in Ev. cbn [fneg fsub] in Ev.
        assert (X : (inject_Z 0 * two 0 <= v)%Q); [|rewrite Qmult_0_l in X; exact X].
        apply (fround_ge d (va - - vb) 0 0 v); [exact prec_pos|exact low_pos|exact Ev|]. rewrite Qmult_0_l. lra.
  Qed.
End Sum.
