(** Outlier rejection with floating point numbers: theorems in terms of the images. *)
From Coq Require Import Lia ZifyBool ZifyNat Lqa Qabs Qpower Qreals.
From Verif Require Import Base BaseLemmas Img ImgLemmas Types BoundsM Single SingleLemmas CompositeLemmas Typed LayoutFl Outlier OutlierFl SpecFile SpecTyped SpecOutlier SpecOutlierFl
  OutlierFlLemmas OutlierFlLemmas2 OutlierFlLemmas3.
Open Scope Z_scope.

Lemma clip_clipped v : clipped v (fl_clip v).
Proof.
  unfold clipped, fl_clip, negative. destruct v as [q|[|]|]; cbn [fl_ltb].
  - destruct (qltb q 0) eqn:E; [apply qltb_true in E|apply qltb_false in E].
    + split; [reflexivity|]. intros H. exfalso. apply H. right. exists q. split; [reflexivity|exact E].
    + split; [|reflexivity]. intros [H|(q' & H & H')]; [discriminate H|]. injection H as ->. lra.
  - split; [reflexivity|]. intros H. exfalso. apply H. left. reflexivity.
  - split; [|reflexivity]. intros [H|(q' & H & H')]; discriminate H.
  - split; [|reflexivity]. intros [H|(q' & H & H')]; discriminate H.
Qed.
Lemma clip_pos w : (0 < w)%Q -> fl_clip (Fin w) = Fin w.
Proof. intros H. unfold fl_clip. cbn [fl_ltb]. replace (qltb w 0) with false; [reflexivity|]. symmetry. apply qltb_false. lra. Qed.
Lemma column_nth ims r c vs : column ims r c vs -> forall i x, nth_error vs i = Some x -> exists im, nth_error ims i = Some im /\ px im r c = Some x.
Proof. induction 1 as [|im v ims vs E H IH]; intros [|i] x Hx; cbn in *; try discriminate; [injection Hx as <-; exists im; auto|auto]. Qed.

Lemma column_unique ims r c vs : column ims r c vs -> forall vs', column ims r c vs' -> vs = vs'.
Proof.
  intros C. induction C as [|im v l vs E0 C IH]; intros vs' C'; inversion C' as [|? v' ? ? E' C'']; subst; [reflexivity|]. f_equal; [congruence|auto].
Qed.

Section Main.
Variables (di dw : bool) (sq : fl -> fl) (n A : Q) (h w : Z) (ims wts wts' : list (img fl)) (k : Z).
Hypotheses (G : given h w ims wts) (E : reject_outliers_fl di dw sq n A ims wts = Ok (wts', k)).

(** The weights after the call in terms of the median of the column. *)
Lemma at_pixel i r c v v' : weights_at wts wts' i r c v v' -> exists vs x m, column ims r c vs /\ nth_error vs i = Some x /\ fl_median vs = Ok m /\ v' = newv di dw sq n A m x v.
Proof.
  destruct (reject_char di dw sq n A h w ims wts G) as (med & wts1 & k1 & L & E1 & X1 & X2 & X3 & X4 & X5 & X6 & X7 & _). rewrite E in E1. injection E1 as <- <-.
  intros (wt & wt' & Ew & Ew' & Ev & Ev'). destruct G as (H3 & HL & SI & SW).
  assert (Hi : (i < length ims)%nat) by (rewrite <- HL; apply nth_error_Some; congruence).
  destruct (nth_error ims i) as [im|] eqn:Ei; [|apply nth_error_None in Ei; lia].
  unfold all_shape in SI, SW. rewrite Forall_forall in SW. destruct (SW wt (nth_error_In _ _ Ew)) as (_ & W1 & W2). destruct (px_Some_range _ _ _ _ Ev) as [R1 R2].
  pose proof SI as SI'. rewrite Forall_forall in SI'. destruct (SI' im (nth_error_In _ _ Ei)) as (O & I1 & I2).
  destruct (px_in im r c O) as (x & Ex); [lia|lia|]. destruct (px_in med r c X4) as (m & Em); [lia|lia|].
  destruct (column_exists h w ims r c SI) as (vs & _ & C); [lia|lia|]. exists vs, x, m. split; [exact C|]. split.
  - clear -C Ei Ex. revert i Ei. induction C as [|im0 v ims vs E C IH]; intros [|i] Ei; cbn in *; try discriminate; [injection Ei as ->; congruence|auto].
  - split; [exact (X3 r c vs m C Em)|]. destruct (X7 i im wt r c m x v Ei Ew Em Ex Ev) as (wt1 & E1 & E2). congruence.
Qed.
Lemma criterion_fl r c vs : sqrt_ok sq -> column ims r c vs -> ~ In NaN vs -> exists a b, middle vs a b /\
  forall qa qb, a = Fin qa -> b = Fin qb -> (Qabs qa <= Qpower (2#1) 59)%Q -> (Qabs qb <= Qpower (2#1) 59)%Q -> exists m, mean_of qa qb m /\
  forall i x wv v', nth_error vs i = Some x -> weights_at wts wts' i r c (Fin wv) v' -> moderate n A m x wv ->
    (beyond (10001#10000) n A m x wv -> v' = Fin 0) /\ (~ beyond (9999#10000) n A m x wv -> v' = Fin wv).
Proof.
  intros SQ C HN. assert (Hne : vs <> []). { destruct C; [|discriminate]. destruct G as (G3 & _). unfold zlen in G3. cbn in G3. lia. }
  destruct (median_char vs Hne HN) as (a & b & M & Em & Eab). exists a, b. split; [exact M|]. intros qa qb -> -> Ha Hb.
  destruct (median_mean vs qa qb Ha Hb Eab) as (m & Emm & Hm). rewrite Emm in Em. exists m. split; [exact Hm|]. intros i x wv v' Ex W Mo.
  destruct (at_pixel i r c _ _ W) as (vs' & x' & m' & C' & Ex' & Em' & Ev'). rewrite <- (column_unique ims r c vs C vs' C') in *.
  rewrite Em in Em'. injection Em' as <-. rewrite Ex in Ex'. injection Ex' as <-.
  assert (Nx : x <> NaN) by (intros ->; apply HN; eapply nth_error_In; exact Ex). destruct (decide di dw sq n A m x wv SQ Mo Nx) as (D1 & D2).
  assert (Pw : (0 < wv)%Q) by apply Mo. unfold newv in Ev'. rewrite (clip_pos wv Pw) in Ev'. rewrite Ev'. split; intros H; [rewrite (D1 H)|rewrite (D2 H)]; reflexivity.
Qed.
Lemma nan_fl r c vs i v v' : column ims r c vs -> In NaN vs -> weights_at wts wts' i r c v v' -> clipped v v'.
Proof.
  intros C HN W. destruct (at_pixel i r c _ _ W) as (vs' & x' & m' & C' & Ex' & Em' & Ev'). rewrite <- (column_unique ims r c vs C vs' C') in *.
  rewrite (median_nan vs HN) in Em'. injection Em' as <-. rewrite Ev'. unfold newv. rewrite nan_kept by (left; reflexivity). apply clip_clipped.
Qed.
Lemma weights_fl i r c v v' : weights_at wts wts' i r c v v' -> clipped v v' \/ (positive v /\ v' = Fin 0).
Proof.
  intros W. destruct (at_pixel i r c _ _ W) as (vs' & x' & m' & _ & _ & _ & ->). unfold newv. destruct (is_outlier_fl _ _ _ _ _ _ _ _) eqn:R; [|left; apply clip_clipped].
  right. split; [|reflexivity]. eapply rejected_positive. exact R.
Qed.
Lemma count_fl : exists L, NoDup L /\ k = zlen L /\ forall i r c, In (i, r, c) L <-> exists v, weights_at wts wts' i r c v (Fin 0) /\ positive v.
Proof.
  destruct (reject_char di dw sq n A h w ims wts G) as (med & wts1 & k1 & L & E1 & X1 & X2 & X3 & X4 & X5 & X6 & X7 & X8 & X9 & X10). rewrite E in E1. injection E1 as <- <-.
  exists L. split; [exact X8|]. split; [exact X9|]. intros i r c. rewrite X10. split.
  - intros (im & wt & m & x & v & Ei & Ew & Em & Ex & Ev & R). destruct (X7 i im wt r c m x v Ei Ew Em Ex Ev) as (wt' & Ew' & Ev'). unfold newv in Ev'. rewrite R in Ev'.
    exists v. split; [exists wt, wt'; auto|]. eapply rejected_positive. exact R.
  - intros (v & (wt & wt' & Ew & Ew' & Ev & Ev') & P). destruct G as (H3 & HL & SI & SW).
    assert (Hi : (i < length ims)%nat) by (rewrite <- HL; apply nth_error_Some; congruence).
    destruct (nth_error ims i) as [im|] eqn:Ei; [|apply nth_error_None in Ei; lia].
    unfold all_shape in SI, SW. rewrite Forall_forall in SW, SI. destruct (SW wt (nth_error_In _ _ Ew)) as (_ & W1 & W2). destruct (px_Some_range _ _ _ _ Ev) as [R1 R2].
    destruct (SI im (nth_error_In _ _ Ei)) as (O & I1 & I2).
    destruct (px_in im r c O) as (x & Ex); [lia|lia|]. destruct (px_in med r c X4) as (m & Em); [lia|lia|].
    exists im, wt, m, x, v. split; [exact Ei|]. split; [exact Ew|]. split; [exact Em|]. split; [exact Ex|]. split; [exact Ev|].
    destruct (X7 i im wt r c m x v Ei Ew Em Ex Ev) as (wt1 & Ew1 & Ev1). assert (wt1 = wt') as -> by congruence. rewrite Ev' in Ev1. injection Ev1 as Z. unfold newv in Z.
    destruct (is_outlier_fl _ _ _ _ _ _ _ _); [reflexivity|]. exfalso. destruct P as [->|(q & -> & Hq)]; [discriminate Z|]. rewrite (clip_pos q Hq) in Z. injection Z as <-. lra.
Qed.
End Main.

Lemma reject_total_fl di dw sq n A h w ims wts : given h w ims wts -> exists wts' k, reject_outliers_fl di dw sq n A ims wts = Ok (wts', k) /\ length wts' = length wts /\ all_shape h w wts'.
Proof. intros G. destruct (reject_char di dw sq n A h w ims wts G) as (med & wts' & k & L & E & X1 & X2 & _). exists wts', k. split; [exact E|]. split; assumption. Qed.
Lemma reject_few_fl di dw sq n A ims wts : zlen ims < 3 -> reject_outliers_fl di dw sq n A ims wts = Ok (wts, 0).
Proof. intros H. unfold reject_outliers_fl. replace (zlen ims <? 3) with true by lia. reflexivity. Qed.

(** * Examples and refutations *)
Lemma ox_root_ok : sqrt_ok ox_root.
Proof.
  intros [a d] Hq. unfold ox_root. cbn [Qnum Qden]. set (z := (a * Z.pos d * 2 ^ 60)%Z). assert (Ha : (0 <= a)%Z) by (unfold Qle in Hq; cbn in Hq; lia).
  assert (Hz : (0 <= z)%Z) by (unfold z; apply Z.mul_nonneg_nonneg; [|lia]; apply Z.mul_nonneg_nonneg; lia).
  pose proof (Z.sqrt_spec z Hz) as (S1 & S2). set (t := Z.sqrt z) in *. assert (Ht : (0 <= t)%Z) by apply Z.sqrt_nonneg.
  eexists. split; [reflexivity|]. split; [unfold Qle; cbn; lia|].
  assert (K : (1000000 * (z - t * t) <= z)%Z).
  { destruct (Z.eq_dec a 0) as [->|Na].
    - assert (z = 0)%Z by (unfold z; lia). nia.
    - assert (B : (2 ^ 60 <= z)%Z) by (unfold z; nia). assert (B2 : (2 ^ 30 <= t)%Z).
      { apply Z.sqrt_le_square; [exact Hz|lia|]. change (2 ^ 30 * 2 ^ 30)%Z with (2 ^ 60)%Z. exact B. }
      assert (z - t * t <= 2 * t)%Z by nia. assert (2 ^ 30 * t <= z)%Z by nia. change (2 ^ 30)%Z with 1073741824%Z in *. lia. }
  assert (EQ : ((t # (d * 2 ^ 30)) * (t # (d * 2 ^ 30)) - (a # d) == - ((z - t * t) # (d * d * 2 ^ 60)))%Q).
  { unfold Qeq, Qminus, Qplus, Qmult, Qopp, z. cbn [Qnum Qden]. rewrite ?Pos2Z.inj_mul, ?Pos2Z.inj_pow. change (Z.pos 2) with 2%Z. change (Z.pos 30) with 30%Z. change (Z.pos 60) with 60%Z.
    set (D := Z.pos d). change (2 ^ 60)%Z with (2 ^ 30 * 2 ^ 30)%Z. set (P := (2 ^ 30)%Z). ring. }
  rewrite EQ, Qabs_opp, Qabs_pos by (unfold Qle; cbn; lia).
  unfold Qle, Qmult. cbn [Qnum Qden]. assert (EZ : (a * Z.pos (d * d * 2 ^ 60) = z * Z.pos d)%Z).
  { unfold z. rewrite !Pos2Z.inj_mul, Pos2Z.inj_pow. change (Z.pos 2) with 2%Z. change (Z.pos 60) with 60%Z. ring. }
  rewrite Pos2Z.inj_mul. rewrite <- Z.mul_assoc, EZ. nia.
Qed.

Lemma nan_refuted_fl : exists ims wts, given 1 1 ims wts /\ column ims 0 0 [Fin 0; Fin 0; Fin 1000; Fin 0; NaN] /\
  forall di dw sq, exists wts', reject_outliers_fl di dw sq 5 (3#10) ims wts = Ok (wts', 0) /\
    weights_at wts wts' 4 0 0 (Fin 1) (Fin 1) /\ weights_at wts wts' 2 0 0 (Fin 1) (Fin 1).
Proof.
  exists ox_nan, (repeat (ox_one (Fin 1)) 5). split; [|split].
  - split; [vm_compute; discriminate|]. split; [reflexivity|]. split; unfold all_shape; repeat (constructor; [split; [vm_compute; repeat split; discriminate|split; reflexivity]|]); constructor.
  - repeat (constructor; [reflexivity|]). constructor.
  - intros di dw sq. exists (repeat (ox_one (Fin 1)) 5). split.
    + unfold reject_outliers_fl. change (zlen ox_nan <? 3) with false. cbv iota. change (stack_median_fl ox_nan) with (Ok (ox_one NaN)). cbn [bind].
      assert (ST : forall x, reject_one_fl di dw sq 5 (3#10) (ox_one NaN) (ox_one x) (ox_one (Fin 1)) = Ok (ox_one (Fin 1), 0)).
      { intros x. assert (K : is_outlier_fl di dw sq 5 (3#10) NaN x (Fin 1) = false) by (apply nan_kept; left; reflexivity).
        unfold reject_one_fl. revert K. generalize (is_outlier_fl di dw sq 5 (3#10)). intros P K. vm_compute. vm_compute in K. rewrite K. reflexivity. }
      unfold ox_nan. cbn [map repeat reject_all_fl]. rewrite !ST. reflexivity.
    + split; exists (ox_one (Fin 1)), (ox_one (Fin 1)); repeat split.
Qed.

Lemma overflow_refuted_fl : exists sq x w ims wts wts', sqrt_ok sq /\ is_float false x /\ is_float false w /\
  given 1 1 ims wts /\ column ims 0 0 [Fin 0; Fin x; Fin 0] /\ reject_outliers_fl false false sq 5 (3#10) ims wts = Ok (wts', 1) /\
  weights_at wts wts' 1 0 0 (Fin w) (Fin 0) /\ ~ beyond 1 5 (3#10) 0 (Fin x) w.
Proof.
  exists ox_root, ox_far, ox_faint, (map ox_one [Fin 0; Fin ox_far; Fin 0]), (repeat (ox_one (Fin ox_faint)) 3), [ox_one (Fin ox_faint); ox_one (Fin 0); ox_one (Fin ox_faint)].
  split; [exact ox_root_ok|]. split; [exists 1, 64; split; [vm_compute; reflexivity|]; split; [split; reflexivity|split; [discriminate|vm_compute; reflexivity]]|].
  split; [exists 1, (-126); split; [vm_compute; reflexivity|]; split; [split; reflexivity|split; [discriminate|vm_compute; reflexivity]]|].
  split. { split; [vm_compute; discriminate|]. split; [reflexivity|]. split; unfold all_shape; repeat (constructor; [split; [vm_compute; repeat split; discriminate|split; reflexivity]|]); constructor. }
  split; [repeat (constructor; [reflexivity|]); constructor|]. split; [vm_compute; reflexivity|].
  split; [exists (ox_one (Fin ox_faint)), (ox_one (Fin 0)); repeat split|].
  unfold beyond. rewrite outlier_q by (vm_compute; discriminate). intros (_ & _ & H). vm_compute in H. discriminate H.
Qed.

Lemma ox_good_ok : let wts := repeat (ox_one (Fin 1)) 5 in let vs := [Fin 10; Fin (21#2); Fin 100; Fin 11; Inf false] in
  given 1 1 ox_good wts /\ column ox_good 0 0 vs /\ ~ In NaN vs /\ middle vs (Fin 11) (Fin 11) /\
  (let* r := reject_outliers_fl false false ox_root 5 (3#10) ox_good wts in Ok r) = Ok (map ox_one [Fin 1; Fin 1; Fin 0; Fin 1; Fin 0], 2) /\
  moderate 5 (3#10) 11 (Fin 100) 1 /\ moderate 5 (3#10) 11 (Inf false) 1 /\ moderate 5 (3#10) 11 (Fin 10) 1 /\
  beyond (10001#10000) 5 (3#10) 11 (Fin 100) 1 /\ beyond (10001#10000) 5 (3#10) 11 (Inf false) 1 /\ ~ beyond (9999#10000) 5 (3#10) 11 (Fin 10) 1.
Proof.
  cbv zeta. split. { split; [vm_compute; discriminate|]. split; [reflexivity|]. split; unfold all_shape; repeat (constructor; [split; [vm_compute; repeat split; discriminate|split; reflexivity]|]); constructor. }
  split; [repeat (constructor; [reflexivity|]); constructor|]. split; [intros [H|[H|[H|[H|[H|[]]]]]]; discriminate H|].
  split. { exists [Fin 10; Fin (21#2); Fin 11; Fin 100; Inf false]. split; [|split; [|split; reflexivity]].
    - do 2 apply Permutation.perm_skip. apply Permutation.perm_swap.
    - repeat (constructor; [|repeat (constructor; [vm_compute; discriminate || exact I|]); constructor]). constructor. }
  split; [vm_compute; reflexivity|].
  assert (MO : forall x, (forall q, x = Fin q -> Qabs q <= Qpower (2#1) 60)%Q -> moderate 5 (3#10) 11 x 1).
  { intros x Hx. split; [split; vm_compute; discriminate|]. split; [split; vm_compute; discriminate|]. split; [vm_compute; discriminate|]. split; [exact Hx|]. split; [split; [reflexivity|vm_compute; discriminate]|]. vm_compute. discriminate. }
  split; [apply MO; intros q Eq; injection Eq as <-; vm_compute; discriminate|]. split; [apply MO; intros q Eq; discriminate Eq|].
  split; [apply MO; intros q Eq; injection Eq as <-; vm_compute; discriminate|].
  split; [unfold beyond; rewrite outlier_q by (vm_compute; discriminate); repeat split; vm_compute; reflexivity|]. split; [reflexivity|].
  unfold beyond. rewrite outlier_q by (vm_compute; discriminate). intros (_ & H & _). vm_compute in H. discriminate H.
Qed.
