(** The checks of the comparator in floating point: NaN and infinities, equal images,
    weights, exact comparison. *)
From Coq Require Import Lia ZifyBool ZifyNat Lqa Qabs Qpower Permutation.
From Verif Require Import Base BaseLemmas Img ImgLemmas Types BoundsM Single SingleLemmas CompositeLemmas Typed SpecTyped TypedLemmas LayoutFl FlMonoLemmas
  LayoutFlLemmas OutlierFl CompareFl SpecCompareFl CompareFlLemmas CompareFlLemmas2 CompareFlLemmas3 CompareFlLemmas4.
From Verif Require CLibLemmas.
Open Scope Z_scope.

Lemma tree_total d t l : (forall i, In i (leaves t) -> 0 <= i < zlen l) -> exists v, tree_sum d t l = Ok v.
Proof.
  induction t as [i|a IHa b IHb]; cbn [leaves tree_sum]; intros H.
  - destruct (zget_range_Some l i) as (x & ->); [apply H; left; reflexivity|]. eauto.
  - destruct IHa as (x & ->); [intros i Hi; apply H, in_or_app; auto|]. destruct IHb as (y & ->); [intros i Hi; apply H, in_or_app; auto|]. cbn [bind]. eauto.
Qed.
Lemma tree_nan d t l v i : tree_sum d t l = Ok v -> In i (leaves t) -> zget l i = Some NaN -> v = NaN.
Proof.
  revert v. induction t as [j|a IHa b IHb]; cbn [leaves tree_sum]; intros v E Hi Z.
  - destruct Hi as [->|[]]. rewrite Z in E. injection E as <-. reflexivity.
  - destruct (tree_sum d a l) as [x|] eqn:Ea; [|discriminate]. destruct (tree_sum d b l) as [y|] eqn:Eb; [|discriminate]. cbn [bind] in E. injection E as <-.
    apply in_app_or in Hi. destruct Hi as [Hi|Hi]; [rewrite (IHa x eq_refl Hi Z)|rewrite (IHb y eq_refl Hi Z); destruct x]; reflexivity.
Qed.
Lemma tree_inf d t l v i s : tree_sum d t l = Ok v -> In i (leaves t) -> zget l i = Some (Inf s) -> v = NaN \/ v = Inf s.
Proof.
  revert v. induction t as [j|a IHa b IHb]; cbn [leaves tree_sum]; intros v E Hi Z.
  - destruct Hi as [->|[]]. rewrite Z in E. injection E as <-. auto.
  - destruct (tree_sum d a l) as [x|] eqn:Ea; [|discriminate]. destruct (tree_sum d b l) as [y|] eqn:Eb; [|discriminate]. cbn [bind] in E. injection E as <-.
    apply in_app_or in Hi. destruct Hi as [Hi|Hi]; [destruct (IHa x eq_refl Hi Z) as [-> | ->]|destruct (IHb y eq_refl Hi Z) as [-> | ->]].
    + left. reflexivity.
    + destruct y as [q|s'|]; cbn; [right; reflexivity| |left; reflexivity]. destruct s, s'; cbn; auto.
    + left. destruct x; reflexivity.
    + destruct x as [q|s'|]; cbn; [right; destruct s; reflexivity| |left; reflexivity]. destruct s, s'; cbn; auto.
Qed.

Section Nan.
  Variables (np : numpy) (d : bool) (n k : Z).
  Hypothesis Hnp : adds_up n k np.

  Lemma perm_range i : In i (leaves (np_order np n)) <-> 0 <= i < n.
  Proof.
    destruct Hnp as (P & _). split; intros H.
    - apply (Permutation_in _ P) in H. apply In_zrange in H. exact H.
    - apply (Permutation_in _ (Permutation_sym P)). apply In_zrange. exact H.
  Qed.
  Lemma In_get {A} (l : list A) x : In x l -> exists i, 0 <= i < zlen l /\ zget l i = Some x.
  Proof.
    intros H. apply In_nth_error in H. destruct H as (i & Hi). exists (Z.of_nat i). rewrite zget_nat. split; [|exact Hi].
    assert (i < length l)%nat by (apply nth_error_Some; congruence). unfold zlen. lia.
  Qed.
  Lemma mean_total l : zlen l = n -> exists v, np_mean np d l = Ok v.
  Proof.
    intros EN. unfold np_mean. rewrite EN. dif E; [eauto|]. destruct (tree_total d (np_order np n) l) as (v & ->); [|cbn [bind]; eauto].
    intros i Hi. apply perm_range in Hi; lia.
  Qed.
  Lemma mean_nan l : zlen l = n -> In NaN l -> np_mean np d l = Ok NaN.
  Proof.
    intros EN H. destruct (In_get _ _ H) as (i & Ri & Gi). destruct (mean_total l EN) as (v & E). rewrite E. unfold np_mean in E. rewrite EN in *. revert E. dif E0; [lia|].
    destruct (tree_sum d (np_order np n) l) as [s|] eqn:ET; [|discriminate]. cbn [bind]. intros E. injection E as <-.
    assert (s = NaN) by (apply (tree_nan _ _ _ _ i ET); [apply perm_range; lia|exact Gi]). subst s. reflexivity.
  Qed.
  Lemma mean_inf l s : zlen l = n -> In (Inf s) l -> np_mean np d l = Ok NaN \/ np_mean np d l = Ok (Inf s).
  Proof.
    intros EN H. destruct (In_get _ _ H) as (i & Ri & Gi). destruct (mean_total l EN) as (v & E). rewrite E. unfold np_mean in E. rewrite EN in *. revert E. dif E0; [lia|].
    destruct (tree_sum d (np_order np n) l) as [q|] eqn:ET; [|discriminate]. cbn [bind]. intros E. injection E as <-.
    assert (q = NaN \/ q = Inf s) as [-> | ->] by (apply (tree_inf _ _ _ _ i s ET); [apply perm_range; lia|exact Gi]); [left; reflexivity|].
    unfold div_count. destruct (fround (d || np_wide np) (inject_Z n)); auto.
  Qed.
  Lemma std_nan l : zlen l = n -> np_sqrt np NaN = NaN -> (exists x, In x l /\ number x = false) -> np_std np d l = Ok NaN.
  Proof.
    intros EN Hs (x & Hx & Nx). unfold np_std.
    assert (exists m, np_mean np d l = Ok m /\ fsub d x m = NaN) as (m & Em & Sm).
    { destruct x as [q|s|]; [discriminate| |].
      - destruct (mean_inf l s EN Hx) as [E|E]; rewrite E; eexists; (split; [reflexivity|]); cbn; [reflexivity|]. rewrite Bool.eqb_reflx. reflexivity.
      - rewrite (mean_nan l EN Hx). exists NaN. split; reflexivity. }
    rewrite Em. cbn [bind]. rewrite mean_nan; [cbn [bind]; rewrite Hs; reflexivity|rewrite zlen_map; exact EN|].
    apply in_map_iff. exists x. split; [|exact Hx]. cbv zeta. rewrite Sm. reflexivity.
  Qed.
End Nan.

Lemma In_combine_get {A B} (l : list A) (l' : list B) i x y : zget l i = Some x -> zget l' i = Some y -> In (x, y) (combine l l').
Proof.
  unfold zget. destruct (i <? 0); [discriminate|]. generalize (Z.to_nat i). clear i. intros i. revert l l'.
  induction i as [|i IH]; intros [|a l] [|b l']; cbn; try discriminate; intros H1 H2.
  - injection H1 as ->. injection H2 as ->. left. reflexivity.
  - right. apply IH; assumption.
Qed.

Lemma check_nan np d k tol h w im1 im2 r c x y : adds_up (h * w) k np -> np_sqrt np NaN = NaN ->
  shaped h w im1 -> shaped h w im2 -> px im1 r c = Some x -> px im2 r c = Some y -> number x && number y = false ->
  compare_rms_fl np d tol im1 im2 = Ok (true, NaN).
Proof.
  intros Hnp Hs (R1 & C1 & L1) (R2 & C2 & L2) P1 P2 N. apply CLibLemmas.px_zget in P1. apply CLibLemmas.px_zget in P2. rewrite C1 in P1. rewrite C2 in P2.
  unfold compare_rms_fl, differ_fl. rewrite R1, R2, C1, C2, !Z.eqb_refl. cbn [andb negb].
  rewrite (std_nan np d (h * w) k Hnp); [cbn [bind]; cbv zeta; destruct (if np_weak np then fround d tol else Fin tol) as [|[]|]; reflexivity|unfold diff_fl, zlen; rewrite map_length, combine_length; lia|exact Hs|].
  exists (fsub d x y). split; [apply (in_map (fun p => fsub d (fst p) (snd p)) _ (x, y)); eapply In_combine_get; eassumption|].
    destruct x as [|s|], y as [|s'|]; try discriminate N; cbn; try reflexivity. destruct (Bool.eqb s s'); reflexivity.
Qed.

(** * Equal images *)

Lemma fround_zero d x : (x == 0)%Q -> fround d x = Fin 0.
Proof. intros H. unfold fround. rewrite (Qred_complete x 0 H). reflexivity. Qed.
Lemma tree_zero d t l v : Forall (fun x => x = Fin 0) l -> tree_sum d t l = Ok v -> v = Fin 0.
Proof.
  intros H. revert v. induction t as [i|a IHa b IHb]; cbn [tree_sum]; intros v E.
  - destruct (zget l i) as [x|] eqn:Z; [|discriminate]. injection E as <-. rewrite Forall_forall in H. apply H. eapply zget_In, Z.
  - destruct (tree_sum d a l) as [x|] eqn:Ea; [|discriminate]. destruct (tree_sum d b l) as [y|] eqn:Eb; [|discriminate]. cbn [bind] in E. injection E as <-.
    rewrite (IHa x eq_refl), (IHb y eq_refl). cbn. reflexivity.
Qed.
Lemma mean_zero np d k l : adds_up (zlen l) k np -> l <> [] -> zlen l <= 2 ^ 40 -> Forall (fun x => x = Fin 0) l -> np_mean np d l = Ok (Fin 0).
Proof.
  intros Hnp Hne HN H. destruct (mean_total np d (zlen l) k Hnp l eq_refl) as (v & E). rewrite E. unfold np_mean in E. revert E. dif E0; [destruct l; [congruence|rewrite zlen_cons in E0; pose proof (zlen_nonneg l); lia]|].
  destruct (tree_sum d (np_order np (zlen l)) l) as [q|] eqn:ET; [|discriminate]. cbn [bind]. intros E. injection E as <-. rewrite (tree_zero _ _ _ _ H ET). unfold div_count.
  pose proof (zlen_nonneg l) as NN. assert (N1 : (1 <= inject_Z (zlen l))%Q) by (change 1%Q with (inject_Z 1); rewrite <- Zle_Qle; lia).
  assert (N2 : (inject_Z (zlen l) <= Qpower (2#1) 126)%Q) by (apply Qle_trans with (inject_Z (2 ^ 40)); [rewrite <- Zle_Qle; lia|vm_compute; discriminate]).
  destruct (round_ok (d || np_wide np) (inject_Z (zlen l))) as (b & Eb & Bb); [rewrite (Qabs_pos (inject_Z (zlen l))) by lra; exact N2|]. rewrite Eb.
  assert (B1 : (inject_Z 1 * two 0 <= b)%Q) by (apply (fround_ge (d || np_wide np) (inject_Z (zlen l)) 1 0 b); [destruct (d || np_wide np); cbn; lia|apply low_pos|exact Eb|rewrite Qmult_1_l; exact N1]).
  assert (B2 : (1 <= b)%Q) by (rewrite Qmult_1_l in B1; exact B1).
  destruct (Qeq_bool b 0) eqn:Q0; [apply Qeq_bool_iff in Q0; lra|]. rewrite fround_zero by (unfold Qdiv; ring). cbn [fcast]. rewrite fround_zero by reflexivity. reflexivity.
Qed.
Lemma check_equal np d k tol h w im1 im2 l : adds_up (h * w) k np -> root_ok d (np_sqrt np) -> pair_of h w im1 im2 l -> h * w <= 2 ^ 40 -> (0 <= tol <= Qpower (2#1) 100)%Q ->
  (forall a b, In (a, b) l -> (a == b)%Q) -> exists s, compare_rms_fl np d tol im1 im2 = Ok (true, Fin s) /\ (s == 0)%Q.
Proof.
  intros Hnp Hr HP HN HT HE. destruct (diff_pair d h w im1 im2 l HP) as (E1 & E2 & E3 & Hne). destruct HP as (_ & _ & HL & _).
  assert (Z : Forall (fun x => x = Fin 0) (map (fround d) (differences l))).
  { apply Forall_forall. intros x Hx. apply in_map_iff in Hx. destruct Hx as (y & <- & Hy). apply in_map_iff in Hy. destruct Hy as ((a, b) & <- & Hab). apply fround_zero. cbn [fst snd]. rewrite (HE a b Hab). ring. }
  set (z := map (fround d) (differences l)) in *. assert (Hz : z <> []) by (unfold z; destruct (differences l); [congruence|discriminate]).
  assert (Lz : zlen z <= 2 ^ 40) by (unfold z, zlen; rewrite map_length, E3; lia).
  assert (Ez : h * w = zlen z) by (unfold z, zlen; rewrite map_length, E3; lia). rewrite Ez in Hnp.
  unfold compare_rms_fl. rewrite E1, E2. unfold np_std. rewrite (mean_zero np d k z Hnp Hz Lz Z). cbn [bind].
  rewrite (mean_zero np d k); [|rewrite zlen_map; exact Hnp|destruct z; [congruence|discriminate]|rewrite zlen_map; exact Lz|].
  2: { apply Forall_forall. intros x Hx. apply in_map_iff in Hx. destruct Hx as (y & <- & Hy). rewrite Forall_forall in Z. rewrite (Z y Hy). cbn. reflexivity. }
  cbn [bind]. destruct Hr as (_ & _ & Hroot). destruct (Hroot 0%Q) as (s & Es & Ps & Bs & _); [lra|]. rewrite Es.
  assert (S0 : (s == 0)%Q).
  { rewrite eps_ulp in Bs. pose proof (ulp_bounds d) as U. assert (S1 : (s * (1 - 2 * ulp d) <= 0)%Q) by (apply sq_le; [lra|]; lra).
    assert (S2 : ((1 - 2 * ulp d) * s >= (1#2) * s)%Q) by (apply Qmult_le_compat_r; lra). lra. }
  exists s. split; [|exact S0]. destruct (tol_ok d np tol HT) as (T & ET & T1 & T2). cbv zeta. rewrite ET. cbn [fl_ltb].
  assert (T0 : (0 <= T)%Q).
  { pose proof (ulp_bounds d) as U. destruct (np_weak np); [|injection ET as <-; apply HT].
    assert (P : (inject_Z 0 * two 0 <= T)%Q) by (apply (fround_ge d tol 0 0 T); [apply prec_pos|apply low_pos|exact ET|rewrite Qmult_0_l; apply HT]). rewrite Qmult_0_l in P. exact P. }
  assert (Q0 : qltb T s = false) by (apply qltb_false; lra). rewrite Q0. reflexivity.
Qed.

(** * Weights *)

Lemma fround_abs d x v : fround d x = Fin v -> exists v', fround d (Qabs x) = Fin v' /\ (Qabs v == v')%Q.
Proof.
  intros E. destruct (Qabs_cases x) as [(L & A)|(L & A)].
  - exists v. split; [unfold fround in *; rewrite (Qred_complete _ _ A); exact E|]. apply Qabs_pos.
    assert (P : (inject_Z 0 * two 0 <= v)%Q) by (apply (fround_ge d x 0 0 v); [apply prec_pos|apply low_pos|exact E|rewrite Qmult_0_l; exact L]). rewrite Qmult_0_l in P. exact P.
  - unfold fround in *. rewrite (Qred_complete _ _ A), Qred_opp. pose proof (Qred_correct x) as C. set (y := Qred x) in *. cbv zeta in *.
    assert (B1 : qltb 0 y = false) by (apply qltb_false; lra). assert (B2 : qltb y 0 = true) by (apply qltb_true; lra). assert (B3 : qltb 0 (- y) = true) by (apply qltb_true; lra).
    rewrite B1, B2 in E. rewrite B3. destruct (qltb (fround_pos d (- y)) _); [|discriminate]. injection E as <-. eexists. split; [reflexivity|].
    rewrite Qabs_opp. apply Qabs_pos. apply fpos_nonneg. lra.
Qed.
Lemma filter_len_map {A B} (f : B -> bool) (g : A -> B) l : zlen (filter f (map g l)) = zlen (filter (fun x => f (g x)) l).
Proof. unfold zlen. f_equal. induction l as [|a l IH]; [reflexivity|]. cbn [map filter]. destruct (f (g a)); cbn [length]; rewrite IH; reflexivity. Qed.
Lemma filter_len_le {A} (f g : A -> bool) l : (forall x, In x l -> f x = true -> g x = true) -> zlen (filter f l) <= zlen (filter g l).
Proof.
  unfold zlen. induction l as [|a l IH]; intros H; [reflexivity|]. cbn [filter]. specialize (IH (fun x Hx => H x (or_intror Hx))). specialize (H a (or_introl eq_refl)).
  destruct (f a); [rewrite H by reflexivity|destruct (g a)]; cbn [length]; lia.
Qed.
Lemma check_weights d tol h w im1 im2 l : pair_of h w im1 im2 l -> (forall x, In x (differences l) -> (Qabs x <= Qpower (2#1) 100)%Q) -> (0 <= tol <= Qpower (2#1) 100)%Q ->
  exists n, compare_weights_fl d tol im1 im2 = Ok n /\
    zlen (far tol (differences l)) <= n <= zlen (far (tol - 3 * eps d * tol - Qpower (2#1) (-140)) (differences l)).
Proof.
  intros HP HD HT. destruct (diff_pair d h w im1 im2 l HP) as (E1 & E2 & _ & _). unfold compare_weights_fl. rewrite E1, E2. eexists. split; [reflexivity|]. rewrite filter_len_map. unfold far.
  pose proof (ulp_bounds d) as U. pose proof (tiny_pos d) as TP. pose proof (tiny_small d) as TS.
  assert (W : (Qpower (2#1) 100 <= Qpower (2#1) 126)%Q) by (vm_compute; discriminate).
  destruct (round_ok d tol) as (T & ET & BT); [rewrite (Qabs_pos tol) by lra; lra|]. fold (ulp d) (tiny d) in BT. rewrite (Qabs_pos tol) in BT by lra. apply abs_le in BT. rewrite ET.
  assert (R : forall x, In x (differences l) -> exists v v', fround d x = Fin v /\ fround d (Qabs x) = Fin v' /\ (Qabs v == v')%Q /\ (v' <= Qabs x + ulp d * Qabs x + tiny d)%Q).
  { intros x Hx. pose proof (HD x Hx) as Bx. destruct (round_ok d x) as (v & Ev & _); [lra|]. destruct (fround_abs d x v Ev) as (v' & Ev' & A). exists v, v'.
    destruct (round_ok d (Qabs x)) as (v2 & E2' & B2); [rewrite (Qabs_pos (Qabs x)) by apply Qabs_nonneg; lra|]. fold (ulp d) (tiny d) in B2. rewrite (Qabs_pos (Qabs x)) in B2 by apply Qabs_nonneg. rewrite E2' in Ev'. injection Ev' as ->.
    apply abs_le in B2. repeat split; [exact Ev|exact E2'|exact A|lra]. }
  split; apply filter_len_le; intros x Hx F; destruct (R x Hx) as (v & v' & Ev & Ev' & A & B).
  - apply Qle_bool_iff in F. rewrite Ev. cbn [fl_abs fl_ltb]. apply Bool.negb_true_iff. apply qltb_false. rewrite A. exact (fround_mono d tol (Qabs x) T v' ET Ev' F).
  - rewrite Ev in F. cbn [fl_abs fl_ltb] in F. apply Bool.negb_true_iff in F. apply qltb_false in F. rewrite A in F. apply Qle_bool_iff. rewrite eps_ulp.
    assert (N : (0 <= Qabs x)%Q) by apply Qabs_nonneg. set (X := Qabs x) in *. clearbody X. assert (T140 : (10 * Qpower (2#1) (-150) <= Qpower (2#1) (-140))%Q) by (vm_compute; discriminate).
    set (e140 := Qpower (2#1) (-140)) in *. clearbody e140. set (u := ulp d) in *. set (t := tiny d) in *. clearbody u t.
    assert (UT : (0 <= u * tol)%Q) by (apply Qmult_le_0_compat; lra). assert (UX : (0 <= u * X)%Q) by (apply Qmult_le_0_compat; lra).
    destruct (Qlt_le_dec X (tol - 3 * u * tol - e140)) as [L|L]; [exfalso|exact L].
    assert (UL : (u * X <= u * tol)%Q) by (apply qmul_le; lra).
    assert (t <= Qpower (2#1) (-150))%Q by exact TS. lra.
Qed.
Lemma weights_self d tol h w im : shaped h w im -> (Qpower (2#1) (-140) <= tol <= Qpower (2#1) 100)%Q ->
  compare_weights_fl d tol im im = Ok (zlen (filter (fun x => negb (number x)) (dat im))).
Proof.
  intros _ HT. unfold compare_weights_fl, differ_fl. rewrite !Z.eqb_refl. cbn [andb negb]. f_equal. unfold diff_fl. rewrite filter_len_map.
  assert (W : (Qpower (2#1) 100 <= Qpower (2#1) 126)%Q) by (vm_compute; discriminate). assert (W2 : (0 <= Qpower (2#1) (-140))%Q) by discriminate.
  destruct (round_ok d tol) as (T & ET & _); [rewrite (Qabs_pos tol) by lra; lra|]. rewrite ET.
  assert (T0 : (inject_Z 1 * two (-140) <= T)%Q) by (apply (fround_ge d tol 1 (-140) T); [destruct d; cbn; lia|destruct d; cbn; lia|exact ET|rewrite Qmult_1_l; apply HT]).
  rewrite Qmult_1_l in T0. assert (T1 : (0 < T)%Q) by (eapply Qlt_le_trans; [|exact T0]; vm_compute; reflexivity).
  unfold zlen. f_equal. induction (dat im) as [|x l IH]; [reflexivity|]. cbn [combine filter fst snd].
  assert (X : negb (fl_ltb (fl_abs (fsub d x x)) (Fin T)) = negb (number x)); [|rewrite X; destruct (negb (number x)); cbn [length]; rewrite IH; reflexivity].
  destruct x as [q|s|]; cbn [fsub number]; [|rewrite Bool.eqb_reflx|]; [rewrite fround_zero by ring; cbn [fl_abs fl_ltb]; f_equal; apply qltb_true; cbn; exact T1|reflexivity|reflexivity].
Qed.

(** * Exact comparison *)

Lemma neqb_same x y : fl_neqb x y = false <-> same_value x y.
Proof.
  unfold same_value. destruct x as [a|s|], y as [b|s'|]; cbn [fl_neqb]; split; intros H; try discriminate.
  - apply Bool.negb_false_iff, Qeq_bool_iff in H. left. eauto.
  - destruct H as [(a' & b' & [= ->] & [= ->] & E)|(s & H & _)]; [|discriminate]. apply Bool.negb_false_iff, Qeq_bool_iff. exact E.
  - destruct H as [(? & ? & _ & ? & _)|(? & ? & _)]; discriminate.
  - destruct H as [(? & ? & _ & ? & _)|(? & ? & _)]; discriminate.
  - destruct H as [(? & ? & ? & _)|(? & _ & ?)]; discriminate.
  - apply Bool.negb_false_iff, Bool.eqb_prop in H. right. exists s. subst. auto.
  - destruct H as [(? & ? & ? & _)|(s2 & [= ->] & [= ->])]; [discriminate|]. rewrite Bool.eqb_reflx. reflexivity.
  - destruct H as [(? & ? & ? & _)|(? & _ & ?)]; discriminate.
  - destruct H as [(? & ? & ? & _)|(? & ? & _)]; discriminate.
  - destruct H as [(? & ? & ? & _)|(? & ? & _)]; discriminate.
  - destruct H as [(? & ? & ? & _)|(? & ? & _)]; discriminate.
Qed.
Lemma check_exact h w h' w' im1 im2 : shaped h w im1 -> shaped h' w' im2 ->
  compare_exact_fl im1 im2 = Ok tt <-> h = h' /\ w = w' /\ Forall2 same_value (dat im1) (dat im2).
Proof.
  intros (R1 & C1 & L1) (R2 & C2 & L2). unfold compare_exact_fl, differ_fl. rewrite R1, R2, C1, C2.
  assert (X : length (dat im1) = length (dat im2) -> existsb (fun p => fl_neqb (fst p) (snd p)) (combine (dat im1) (dat im2)) = false <-> Forall2 same_value (dat im1) (dat im2)).
  { generalize (dat im1), (dat im2). clear. induction l as [|a l IH]; intros [|b l']; try discriminate; intros HL; [split; [constructor|reflexivity]|].
    cbn [combine existsb fst snd]. injection HL as HL. specialize (IH l' HL). split; intros H.
    - apply Bool.orb_false_iff in H. constructor; [apply neqb_same|apply IH]; apply H.
    - inversion H; subst. apply Bool.orb_false_iff. split; [apply neqb_same|apply IH]; assumption. }
  destruct (h =? h') eqn:E1, (w =? w') eqn:E2; cbn [andb negb]; try (split; [discriminate|lia]).
  apply Z.eqb_eq in E1, E2. subst h' w'. rewrite <- X by lia. destruct (existsb _ _); split; try discriminate; intuition congruence.
Qed.
Lemma check_shapes np d tol wtol h w h' w' im1 im2 : shaped h w im1 -> shaped h' w' im2 -> h <> h' \/ w <> w' ->
  compare_rms_fl np d tol im1 im2 = Err ValueError /\ compare_weights_fl d wtol im1 im2 = Err ValueError /\ compare_exact_fl im1 im2 = Err ValueError.
Proof.
  intros (R1 & C1 & L1) (R2 & C2 & L2) N. assert (D : differ_fl im1 im2 = true) by (unfold differ_fl; rewrite R1, R2, C1, C2; lia).
  unfold compare_rms_fl, compare_weights_fl, compare_exact_fl. rewrite D. repeat split.
Qed.

(** * Examples *)

Lemma cx_root_ok d : root_ok d cx_root.
Proof.
  split; [reflexivity|]. split; [reflexivity|]. intros q Hq. cbn [cx_root]. assert (E : Qle_bool 0 q = true) by (apply Qle_bool_iff; exact Hq). rewrite E. eexists. split; [reflexivity|].
  destruct q as [n p]. cbn [Qnum Qden]. set (D := Z.pos p). assert (D0 : 0 < D) by (unfold D; lia). assert (n0 : 0 <= n) by (unfold Qle in Hq; cbn in Hq; lia).
  set (N := n * D * 2 ^ 160). assert (N0 : 0 <= N) by (unfold N; nia). destruct (Z.sqrt_spec N N0) as (L1 & L2). pose proof (Z.sqrt_nonneg N) as R0. set (r := Z.sqrt N) in *.
  assert (DQ : (0 < inject_Z (D * 2 ^ 80))%Q) by (change 0%Q with (inject_Z 0); rewrite <- Zlt_Qlt; lia).
  assert (RQ : (0 <= inject_Z r)%Q) by (change 0%Q with (inject_Z 0); rewrite <- Zle_Qle; exact R0).
  assert (S0 : (0 <= inject_Z r / inject_Z (D * 2 ^ 80))%Q) by (apply Qle_shift_div_l; [exact DQ|lra]). split; [exact S0|].
  rewrite eps_ulp. pose proof (ulp_bounds d) as U. set (s := (inject_Z r / inject_Z (D * 2 ^ 80))%Q) in *.
  assert (ES : (s * inject_Z (D * 2 ^ 80) == inject_Z r)%Q) by (unfold s; field; lra).
  set (W := inject_Z (D * 2 ^ 80)) in *.
  assert (EQ : ((n # p) * (W * W) == inject_Z N)%Q).
  { unfold W, N. rewrite <- !inject_Z_mult. unfold Qeq, Qmult, inject_Z. cbn [Qnum Qden]. unfold D. change (2 ^ 160) with (2 ^ 80 * 2 ^ 80). rewrite Pos.mul_1_r. ring. }
  assert (WW : (0 < W * W)%Q) by (apply Qmult_lt_0_compat; exact DQ).
  assert (CUT : forall a b, (a * (W * W) <= b * (W * W))%Q -> (a <= b)%Q) by (intros a b; apply Qmult_le_r; exact WW).
  split; apply CUT; rewrite EQ.
  - assert (X : (s * (1 - 2 * ulp d) * (s * (1 - 2 * ulp d)) * (W * W) == (inject_Z r * (1 - 2 * ulp d)) * (inject_Z r * (1 - 2 * ulp d)))%Q) by (rewrite <- ES; ring). rewrite X.
    eapply Qle_trans; [|rewrite Zle_Qle in L1; rewrite inject_Z_mult in L1; exact L1].
    apply sq_mono; [apply Qmult_le_0_compat; lra|]. assert (inject_Z r * (1 - 2 * ulp d) <= inject_Z r * 1)%Q by (apply qmul_le; lra). lra.
  - assert (X : (s * (1 + 2 * ulp d) * (s * (1 + 2 * ulp d)) * (W * W) == (inject_Z r * (1 + 2 * ulp d)) * (inject_Z r * (1 + 2 * ulp d)))%Q) by (rewrite <- ES; ring). rewrite X.
    destruct (Z.eq_dec n 0) as [->|Nz].
    + change N with 0. apply sq_nonneg.
    + assert (RB : 2 ^ 80 <= r).
      { apply Z.sqrt_le_square; [exact N0|discriminate|]. assert (M : 1 <= n * D) by nia. unfold N. change (2 ^ 80 * 2 ^ 80) with (1 * 2 ^ 160). apply Z.mul_le_mono_nonneg_r; [discriminate|exact M]. }
      assert (RB2 : (inject_Z (2 ^ 80) <= inject_Z r)%Q) by (rewrite <- Zle_Qle; exact RB).
      assert (G : (1 <= ulp d * inject_Z r)%Q).
      { eapply Qle_trans; [|apply qmul_le; [lra|exact RB2]]. destruct d; vm_compute; discriminate. }
      apply Qle_trans with (inject_Z ((r + 1) * (r + 1))); [rewrite <- Zle_Qle; lia|]. rewrite inject_Z_mult. apply sq_mono; [change 0%Q with (inject_Z 0); rewrite <- Zle_Qle; lia|].
      rewrite inject_Z_plus. change (inject_Z 1) with 1%Q. lra.
Qed.
Lemma cx_adds : adds_up 4 3 cx_numpy.
Proof. split; [apply Permutation_refl|vm_compute; discriminate]. Qed.
Lemma cx_pair : pair_of 2 2 (cx_image (map (fun p => Fin (fst p)) cx_pairs)) (cx_image (map (fun p => Fin (snd p)) cx_pairs)) cx_pairs.
Proof. repeat split; reflexivity. Qed.
Lemma nan_passes : exists np im1 im2, adds_up 4 3 np /\ root_ok false (np_sqrt np) /\ shaped 2 2 im1 /\ shaped 2 2 im2 /\
  px im1 0 1 = Some (Fin 0) /\ px im2 0 1 = Some (Fin 1000) /\ compare_rms_fl np false (1#100) im1 im2 = Ok (true, NaN).
Proof.
  exists cx_numpy, (cx_image [NaN; Fin 0; Fin 1; Fin 2]), (cx_image [NaN; Fin 1000; Fin 1; Fin 2]). split; [exact cx_adds|]. split; [apply cx_root_ok|]. repeat split; vm_compute; reflexivity.
Qed.
Lemma self_reported : exists im, shaped 2 2 im /\ compare_weights_fl false (1#10) im im = Ok 1 /\ compare_exact_fl im im = Err ValueError.
Proof. exists (cx_image [NaN; Fin 0; Fin 1; Fin 2]). repeat split; vm_compute; reflexivity. Qed.
