(** Outlier rejection with floating point numbers: the whole function. *)
From Coq Require Import Lia ZifyBool ZifyNat Lqa Qabs Qpower Permutation Sorted.
From Verif Require Import Base BaseLemmas Img ImgLemmas Types BoundsM Single SingleLemmas CompositeLemmas Typed LayoutFl Outlier OutlierFl SpecFile SpecOutlierFl
  TypedLemmas TypedLemmas2 FlMonoLemmas OutlierLemmas OutlierLemmas2 OutlierLemmas3 OutlierFlLemmas.
Open Scope Z_scope.

(** * Median *)
Lemma ltb_false_leq x y : x <> NaN -> y <> NaN -> fl_ltb y x = false -> fl_leq x y.
Proof.
  destruct x as [a|[|]|], y as [b|[|]|]; cbn; intros H1 H2 H; try congruence; try exact I. apply qltb_false in H. exact H.
Qed.
Lemma ltb_true_leq x y : fl_ltb y x = true -> fl_leq y x.
Proof. destruct x as [a|[|]|], y as [b|[|]|]; cbn; intros H; try discriminate H; try exact I. apply qltb_true in H. lra. Qed.
Lemma leq_trans x y z : fl_leq x y -> fl_leq y z -> fl_leq x z.
Proof. destruct x as [a|[|]|], y as [b|[|]|], z as [c|[|]|]; cbn; intros H1 H2; try contradiction; try exact I; lra. Qed.

Lemma fl_insert_perm x l : Permutation (fl_insert x l) (x :: l).
Proof.
  induction l as [|y l IH]; cbn; [reflexivity|]. destruct (fl_ltb y x); [|reflexivity].
  rewrite IH. apply perm_swap.
Qed.
Lemma fl_insert_sorted x l : x <> NaN -> Forall (fun y => y <> NaN) l -> StronglySorted fl_leq l -> StronglySorted fl_leq (fl_insert x l).
Proof.
  intros Hx HN S. induction S as [|y l S IH F]; cbn; [repeat constructor|]. inversion HN as [|? ? N1 N2]; subst. destruct (fl_ltb y x) eqn:E.
  - constructor; [exact (IH N2)|]. apply Forall_forall. intros z Hz. apply (Permutation_in z (fl_insert_perm x l)) in Hz.
    destruct Hz as [<-|Hz]; [apply ltb_true_leq; exact E|]. rewrite Forall_forall in F. apply F. exact Hz.
  - pose proof (ltb_false_leq x y Hx N1 E) as L. constructor; [constructor; assumption|]. constructor; [exact L|].
    eapply Forall_impl; [|exact F]. intros z Hz. exact (leq_trans _ _ _ L Hz).
Qed.
Lemma fl_sort_ok l : Forall (fun y => y <> NaN) l -> Permutation (fl_sort l) l /\ StronglySorted fl_leq (fl_sort l).
Proof.
  induction 1 as [|x l Hx HN IH]; [split; constructor|]. destruct IH as (P & S). change (fl_sort (x :: l)) with (fl_insert x (fl_sort l)). split.
  - rewrite fl_insert_perm. constructor. exact P.
  - apply fl_insert_sorted; [exact Hx| |exact S]. eapply Permutation_Forall; [symmetry; exact P|exact HN].
Qed.

Lemma no_nan l : existsb fl_nan l = false <-> ~ In NaN l.
Proof.
  split.
  - intros E H. assert (X : existsb fl_nan l = true) by (apply existsb_exists; exists NaN; split; [exact H|reflexivity]). congruence.
  - intros H. destruct (existsb fl_nan l) eqn:E; [|reflexivity]. apply existsb_exists in E. destruct E as (x & Hx & Ex). destruct x; try discriminate. contradiction.
Qed.
Lemma median_nan l : In NaN l -> fl_median l = Ok NaN.
Proof. intros H. unfold fl_median. assert (existsb fl_nan l = true) as -> by (apply existsb_exists; exists NaN; split; [exact H|reflexivity]). reflexivity. Qed.

Lemma median_char l : l <> [] -> ~ In NaN l -> exists a b, middle l a b /\
  fl_median l = Ok (if Z.even (zlen l) then fmul true (fadd true a b) (Fin (1#2)) else b) /\ (Z.even (zlen l) = false -> a = b).
Proof.
  intros Hne HN. unfold fl_median. rewrite (proj2 (no_nan l) HN).
  assert (FN : Forall (fun y => y <> NaN) l) by (apply Forall_forall; intros x Hx ->; contradiction).
  destruct (fl_sort_ok l FN) as (P & S). set (s := fl_sort l) in *. cbv zeta. assert (L : zlen s = zlen l) by (unfold zlen; rewrite (Permutation_length P); reflexivity).
  assert (Hpos : 0 < zlen s) by (rewrite L; destruct l; [congruence|unfold zlen; cbn [length]; lia]). rewrite <- L.
  destruct (zget_range_Some s (zlen s / 2)) as (b & Hb); [split; [apply Z.div_pos; lia|apply Z.div_lt; lia]|].
  pose proof (Zeven_mod (zlen s)) as EM. pose proof (Z_div_mod_eq_full (zlen s) 2) as DM. rewrite (Zmod_even (zlen s)) in DM. clear EM.
  destruct (Z.even (zlen s)) eqn:E.
  - assert (D : (zlen s - 1) / 2 = zlen s / 2 - 1) by (symmetry; apply Z.div_unique with (r := 1); lia).
    destruct (zget_range_Some s (zlen s / 2 - 1)) as (a & Ha); [lia|]. rewrite Ha, Hb. exists a, b. split; [|split; [reflexivity|discriminate]].
    exists s. split; [exact P|]. split; [exact S|]. rewrite D. split; assumption.
  - assert (D : (zlen s - 1) / 2 = zlen s / 2) by (symmetry; apply Z.div_unique with (r := 0); lia).
    rewrite Hb. exists b, b. split; [|split; reflexivity]. exists s. split; [exact P|]. split; [exact S|]. rewrite D. split; assumption.
Qed.

Open Scope Q_scope.
Lemma mean_small a b m : Qabs a <= two 59 -> Qabs b <= two 59 -> mean_of a b m -> Qabs m <= two 60.
Proof.
  intros Ha Hb H. unfold mean_of in H. set (M := (a + b) / 2) in *.
  assert (HM : Qabs M <= two 59).
  { assert (E : M == (1#2) * (a + b)) by (unfold M; field). rewrite E, Qabs_Qmult. change (Qabs (1#2)) with (1#2). pose proof (Qabs_triangle a b). lra. }
  assert (E : m == (m - M) + M) by ring. rewrite E. eapply Qle_trans; [apply Qabs_triangle|]. pose proof (Qabs_nonneg M).
  assert (two (-50) * Qabs M <= two (-50) * two 59) by (assert (0 < two (-50)) by apply two_pos; nra).
  assert (two (-50) * two 59 + two (-1000) + two 59 <= two 60) by qle. lra.
Qed.
Lemma median_mean (l : list fl) a b : Qabs a <= two 59 -> Qabs b <= two 59 -> (Z.even (zlen l) = false -> Fin a = Fin b) ->
  exists m, (if Z.even (zlen l) then fmul true (fadd true (Fin a) (Fin b)) (Fin (1#2)) else Fin b) = Fin m /\ mean_of a b m.
Proof.
  intros Ha Hb Hab. destruct (Z.even (zlen l)).
  - unfold fadd. cbn [fneg fsub]. assert (E : a - - b == a + b) by ring.
    assert (AB : Qabs (a + b) <= two 60). { eapply Qle_trans; [apply Qabs_triangle|]. assert (two 59 + two 59 <= two 60) by qle. lra. }
    destruct (fround_fin true (a - - b)) as (v & Ev); [rewrite E; assert (two 60 <= two 126) by qle; lra|]. rewrite Ev. cbn [fmul].
    pose proof (fround_err true _ _ Ev) as F. rewrite E in F. change (f_prec true) with 53%Z in F. change (- f_low true - 1)%Z with (-1075)%Z in F.
    assert (EV : v == (v - (a + b)) + (a + b)) by ring.
    assert (B1 : Qabs v <= 2 * Qabs (a + b) + two (-1075)).
    { rewrite EV. eapply Qle_trans; [apply Qabs_triangle|]. pose proof (Qabs_nonneg (a + b)). assert (two (- (53)) <= 1) by qle. nra. }
    destruct (fround_fin true (v * (1#2))) as (u & Eu).
    { rewrite Qabs_Qmult. change (Qabs (1#2)) with (1#2). assert (two (-1075) <= 1) by qle. assert (2 * two 60 + 1 <= two 126) by qle. pose proof (Qabs_nonneg v). lra. }
    rewrite Eu. exists u. split; [reflexivity|]. pose proof (fround_err true _ _ Eu) as G. change (f_prec true) with 53%Z in G. change (- f_low true - 1)%Z with (-1075)%Z in G.
    unfold mean_of. assert (EM : (a + b) / 2 == (1#2) * (a + b)) by field. rewrite EM. rewrite Qabs_Qmult in G |- *. change (Qabs (1#2)) with (1#2) in *.
    assert (T : u - (1#2) * (a + b) == (u - v * (1#2)) + (1#2) * (v - (a + b))) by ring. rewrite T. eapply Qle_trans; [apply Qabs_triangle|].
    rewrite (Qabs_Qmult (1#2)). change (Qabs (1#2)) with (1#2). set (S := Qabs (a + b)) in *. assert (PS : 0 <= S) by apply Qabs_nonneg.
    assert (K : two (- (53)) * (Qabs v * (1#2)) <= two (- (53)) * ((2 * S + two (-1075)) * (1#2))) by (assert (0 < two (-(53))) by apply two_pos; nra).
    assert (C1 : two (-(53)) * S * 4 <= two (-50) * S) by (assert (two (-(53)) * 4 <= two (-50)) by qle; nra).
    assert (C2 : 4 * two (-1075) <= two (-1000)) by qle. assert (C3 : two (-(53)) <= 1) by qle. pose proof (two_pos (-1075)). nra.
  - exists b. split; [reflexivity|]. injection (Hab eq_refl) as ->. unfold mean_of. assert (E : b - (b + b) / 2 == 0) by field. rewrite E. change (Qabs 0) with 0.
    pose proof (two_pos (-50)). pose proof (two_pos (-1000)). pose proof (Qabs_nonneg ((b + b) / 2)). nra.
Qed.
Open Scope Z_scope.

(** If less than half of the values are infinite, the middle ones are finite. *)
Lemma sorted_split l1 a l2 : StronglySorted fl_leq (l1 ++ a :: l2) -> Forall (fun x => fl_leq x a) l1 /\ Forall (fl_leq a) l2.
Proof.
  induction l1 as [|x l1 IH]; cbn; intros S; inversion S as [|? ? S' F]; subst.
  - split; [constructor|exact F].
  - destruct (IH S') as (F1 & F2). split; [|exact F2]. constructor; [|exact F1]. rewrite Forall_app in F. destruct F as (_ & F). inversion F; assumption.
Qed.
Lemma filter_all {A} (f : A -> bool) l : Forall (fun x => f x = true) l -> filter f l = l.
Proof. induction 1 as [|x l H F IH]; [reflexivity|]. cbn. rewrite H, IH. reflexivity. Qed.
Lemma perm_filter {A} (f : A -> bool) l l' : Permutation l l' -> Permutation (filter f l) (filter f l').
Proof.
  induction 1 as [|x l l' P IH|x y l|l l' l'' P1 IH1 P2 IH2]; cbn; [constructor| | |etransitivity; eassumption].
  - destruct (f x); [constructor|]; assumption.
  - destruct (f x), (f y); try reflexivity. apply perm_swap.
Qed.
Lemma middle_at s k a n : StronglySorted fl_leq s -> ~ In NaN s -> zget s k = Some a -> zlen s = n -> (n - 1) / 2 <= k <= n / 2 ->
  2 * zlen (filter (fun x => negb (finite x)) s) < n -> finite a = true.
Proof.
  intros S HN Hk Hn Rk HF. destruct (finite a) eqn:Fa; [reflexivity|]. exfalso.
  pose proof (zget_Some_range _ _ _ Hk) as Rg. unfold zget in Hk. replace (k <? 0) with false in Hk by lia.
  destruct (nth_error_split s _ Hk) as (l1 & l2 & Es & L1). subst s. destruct (sorted_split _ _ _ S) as (F1 & F2).
  rewrite filter_app in HF. cbn [filter] in HF. rewrite Fa in HF. cbn [negb] in HF.
  pose proof (Z_div_mod_eq_full n 2) as D1. pose proof (Z.mod_pos_bound n 2 ltac:(lia)) as D2.
  pose proof (Z_div_mod_eq_full (n - 1) 2) as D3. pose proof (Z.mod_pos_bound (n - 1) 2 ltac:(lia)) as D4.
  unfold zlen in *. rewrite app_length in *. cbn [length] in *.
  destruct a as [q|[|]|]; [discriminate Fa| | |apply HN; apply in_or_app; right; left; reflexivity].
  - rewrite (filter_all _ l1) in HF; [lia|]. eapply Forall_impl; [|exact F1]. intros [x|[|]|] Hx; cbn in *; try contradiction; reflexivity.
  - rewrite (filter_all _ l2) in HF; [lia|]. eapply Forall_impl; [|exact F2]. intros [x|[|]|] Hx; cbn in *; try contradiction; reflexivity.
Qed.
Lemma middle_finite l a b : ~ In NaN l -> middle l a b -> 2 * zlen (filter (fun x => negb (finite x)) l) < zlen l -> finite a = true /\ finite b = true.
Proof.
  intros HN (s & P & S & Ha & Hb) HF. assert (HN' : ~ In NaN s) by (intros H; apply HN; eapply Permutation_in; eassumption).
  assert (E1 : zlen s = zlen l) by (unfold zlen; rewrite (Permutation_length P); reflexivity).
  assert (E2 : zlen (filter (fun x => negb (finite x)) s) = zlen (filter (fun x => negb (finite x)) l)).
  { unfold zlen. rewrite (Permutation_length (perm_filter _ _ _ P)). reflexivity. }
  pose proof (Z_div_mod_eq_full (zlen s) 2) as D1. pose proof (Z.mod_pos_bound (zlen s) 2 ltac:(lia)) as D2.
  pose proof (Z_div_mod_eq_full (zlen s - 1) 2) as D3. pose proof (Z.mod_pos_bound (zlen s - 1) 2 ltac:(lia)) as D4.
  split; [apply (middle_at s _ a (zlen s) S HN' Ha eq_refl)|apply (middle_at s _ b (zlen s) S HN' Hb eq_refl)]; lia.
Qed.

(** * The function *)
Section Fun.
Variables (di dw : bool) (sq : fl -> fl) (n A : Q) (h w : Z).
Let out := is_outlier_fl di dw sq n A.
Definition newv (m x v : fl) : fl := if is_outlier_fl di dw sq n A m x (fl_clip v) then Fin 0 else fl_clip v.

Lemma median_total l : l <> [] -> exists m, fl_median l = Ok m.
Proof.
  intros H. destruct (existsb fl_nan l) eqn:E.
  - exists NaN. unfold fl_median. rewrite E. reflexivity.
  - apply no_nan in E. destruct (median_char l H E) as (a & b & _ & M & _). eexists. exact M.
Qed.
Lemma column_exists ims r c : all_shape h w ims -> 0 <= r < h -> 0 <= c < w -> exists vs, mapM (fun im => px_res im r c) ims = Ok vs /\ column ims r c vs.
Proof.
  intros S Hr Hc. induction S as [|im ims (O & H1 & H2) S IH]; [exists []; split; [reflexivity|constructor]|].
  destruct IH as (vs & V1 & V2). destruct (px_in im r c O) as (x & Ex); [lia|lia|]. exists (x :: vs). cbn [mapM]. unfold px_res at 1. rewrite Ex. cbn [bind]. rewrite V1.
  split; [reflexivity|]. constructor; assumption.
Qed.
Lemma stack_char ims : ims <> [] -> all_shape h w ims -> exists med, stack_median_fl ims = Ok med /\ img_ok med /\ nr med = h /\ nc med = w /\
  forall r c m, px med r c = Some m -> exists vs, column ims r c vs /\ fl_median vs = Ok m.
Proof.
  intros Hne S. destruct ims as [|im0 ims]; [congruence|]. unfold stack_median_fl. pose proof (Forall_inv S) as (O0 & Hh & Hw).
  assert (HS : forallb (shape_eqb im0) (im0 :: ims) = true).
  { apply forallb_forall. intros x Hx. apply shape_eqb_true. unfold all_shape in S. rewrite Forall_forall in S. destruct (S x Hx) as (_ & X1 & X2). lia. }
  rewrite HS. pose proof O0 as (P1 & P2 & _). set (ims' := im0 :: ims) in *.
  destruct (tab2M_exists (nr im0) (nc im0) (fun r c => let* vs := mapM (fun im => px_res im r c) ims' in fl_median vs) P1 P2) as (med & Hmed).
  { intros r c Hr Hc. destruct (column_exists ims' r c S) as (vs & V1 & V2); [lia|lia|]. rewrite V1. cbn [bind]. apply median_total. inversion V2; discriminate. }
  exists med. split; [exact Hmed|]. apply tab2M_ok in Hmed; [|exact P1|exact P2]. destruct Hmed as (O1 & O2 & O3 & O4).
  split; [exact O1|]. split; [lia|]. split; [lia|]. intros r c m Em. destruct (px_Some_range _ _ _ _ Em) as [R1 R2].
  destruct (O4 r c ltac:(lia) ltac:(lia)) as (m' & Hm' & Em'). rewrite Em in Em'. injection Em' as <-.
  destruct (column_exists ims' r c S) as (vs & V1 & V2); [lia|lia|]. rewrite V1 in Hm'. exists vs. split; assumption.
Qed.
Lemma one_char med im wt : img_ok med -> nr med = h -> nc med = w -> img_ok im /\ nr im = h /\ nc im = w -> img_ok wt /\ nr wt = h /\ nc wt = w ->
  exists wt' k L, reject_one_fl di dw sq n A med im wt = Ok (wt', k) /\ img_ok wt' /\ nr wt' = h /\ nc wt' = w /\
    (forall r c m x v, px med r c = Some m -> px im r c = Some x -> px wt r c = Some v -> px wt' r c = Some (newv m x v)) /\
    NoDup L /\ k = zlen L /\ forall r c, In (r, c) L <-> exists m x v, px med r c = Some m /\ px im r c = Some x /\ px wt r c = Some v /\ out m x (fl_clip v) = true.
Proof.
  intros O Hh Hw (O1 & H1 & W1) (O2 & H2 & W2). unfold reject_one_fl.
  assert (shape_eqb med im && shape_eqb med wt = true) as -> by (unfold shape_eqb; lia). pose proof O as (P1 & P2 & _).
  set (f := fun r c => let* m := px_res med r c in let* x := px_res im r c in let* v := px_res wt r c in Ok (fl_clip v, is_outlier_fl di dw sq n A m x (fl_clip v))).
  assert (F : forall r c, 0 <= r < h -> 0 <= c < w -> exists m x v, px med r c = Some m /\ px im r c = Some x /\ px wt r c = Some v /\ f r c = Ok (fl_clip v, out m x (fl_clip v))).
  { intros r c Hr Hc. destruct (px_in med r c O) as (m & Em); [lia|lia|]. destruct (px_in im r c O1) as (x & Ex); [lia|lia|]. destruct (px_in wt r c O2) as (v & Ev); [lia|lia|].
    exists m, x, v. split; [exact Em|]. split; [exact Ex|]. split; [exact Ev|]. unfold f, px_res. rewrite Em, Ex, Ev. reflexivity. }
  change (exists wt' k L, (let* o := tab2M (nr med) (nc med) f in Ok (imap (fun p : fl * bool => if snd p then Fin 0 else fst p) o, zlen (filter snd (dat o)))) = Ok (wt', k) /\ img_ok wt' /\ nr wt' = h /\ nc wt' = w /\
    (forall r c m x v, px med r c = Some m -> px im r c = Some x -> px wt r c = Some v -> px wt' r c = Some (newv m x v)) /\
    NoDup L /\ k = zlen L /\ forall r c, In (r, c) L <-> exists m x v, px med r c = Some m /\ px im r c = Some x /\ px wt r c = Some v /\ out m x (fl_clip v) = true).
  destruct (tab2M_exists (nr med) (nc med) f P1 P2) as (o & Ho).
  { intros r c Hr Hc. destruct (F r c) as (m & x & v & _ & _ & _ & E); [lia|lia|]. eexists. exact E. }
  rewrite Ho. cbn [bind]. apply tab2M_ok in Ho; [|exact P1|exact P2]. destruct Ho as (Q1 & Q2 & Q3 & Q4).
  assert (G : forall r c m x v, px med r c = Some m -> px im r c = Some x -> px wt r c = Some v -> px o r c = Some (fl_clip v, out m x (fl_clip v))).
  { intros r c m x v Em Ex Ev. destruct (px_Some_range _ _ _ _ Em) as [R1 R2]. destruct (Q4 r c R1 R2) as (p & E1 & E2). rewrite E2.
    destruct (F r c) as (m' & x' & v' & E3 & E4 & E5 & E6); [lia|lia|]. rewrite E1 in E6. rewrite Em in E3. rewrite Ex in E4. rewrite Ev in E5. congruence. }
  destruct (count_px snd o Q1) as (L & N1 & HL & Z1).
  eexists _, _, L. split; [reflexivity|]. split; [apply imap_ok; exact Q1|]. split; [cbn; lia|]. split; [cbn; lia|]. split; [|split; [exact N1|split; [symmetry; exact Z1|]]].
  - intros r c m x v Em Ex Ev. rewrite px_imap, (G r c m x v Em Ex Ev). reflexivity.
  - intros r c. rewrite HL. split.
    + intros (p & Ep & Fp). destruct (px_Some_range _ _ _ _ Ep) as [R1 R2]. destruct (F r c) as (m & x & v & E3 & E4 & E5 & _); [lia|lia|].
      exists m, x, v. rewrite (G r c m x v E3 E4 E5) in Ep. injection Ep as <-. split; [exact E3|]. split; [exact E4|]. split; [exact E5|exact Fp].
    + intros (m & x & v & E3 & E4 & E5 & E6). eexists. split; [exact (G r c m x v E3 E4 E5)|exact E6].
Qed.

Definition rejected_at (med : img fl) (ims wts : list (img fl)) (i : nat) (r c : Z) : Prop :=
  exists im wt m x v, nth_error ims i = Some im /\ nth_error wts i = Some wt /\ px med r c = Some m /\ px im r c = Some x /\ px wt r c = Some v /\ out m x (fl_clip v) = true.
Lemma all_char med : img_ok med -> nr med = h -> nc med = w -> forall ims wts, length wts = length ims -> all_shape h w ims -> all_shape h w wts ->
  exists wts' k L, reject_all_fl di dw sq n A med ims wts = Ok (wts', k) /\ length wts' = length wts /\ all_shape h w wts' /\
    (forall i im wt r c m x v, nth_error ims i = Some im -> nth_error wts i = Some wt -> px med r c = Some m -> px im r c = Some x -> px wt r c = Some v ->
       exists wt', nth_error wts' i = Some wt' /\ px wt' r c = Some (newv m x v)) /\
    NoDup L /\ k = zlen L /\ forall i r c, In (i, r, c) L <-> rejected_at med ims wts i r c.
Proof.
  intros O Hh Hw. induction ims as [|im ims IH]; intros wts HL SI SW.
  - destruct wts; [|discriminate HL]. exists [], 0, []. split; [reflexivity|]. split; [reflexivity|]. split; [constructor|]. split; [intros [|i] im wt r c m x v E; discriminate E|].
    split; [constructor|]. split; [reflexivity|]. intros i r c. split; [intros []|]. intros (im & wt & m & x & v & E & _). destruct i; discriminate E.
  - destruct wts as [|wt wts]; [discriminate HL|]. injection HL as HL. pose proof (Forall_inv SI) as S1. pose proof (Forall_inv_tail SI) as SI'. pose proof (Forall_inv SW) as S2. pose proof (Forall_inv_tail SW) as SW'.
    destruct (one_char med im wt O Hh Hw S1 S2) as (wt' & k & L & E & X1 & X2 & X3 & X4 & X5 & X6 & X7).
    destruct (IH wts HL SI' SW') as (wts' & k' & L' & E' & Y1 & Y2 & Y3 & Y4 & Y5 & Y6).
    exists (wt' :: wts'), (k + k'), (map (fun p => (0%nat, fst p, snd p)) L ++ map (fun p => (S (fst (fst p)), snd (fst p), snd p)) L').
    cbn [reject_all_fl]. rewrite E. cbn [bind]. rewrite E'. cbn [bind fst snd]. split; [reflexivity|]. split; [cbn [length]; lia|].
    split; [constructor; [split; [exact X1|split; assumption]|exact Y2]|]. split; [|split; [|split]].
    + intros [|i] im' wt0 r c m x v E1 E2 Em Ex Ev; cbn in E1, E2.
      * injection E1 as <-. injection E2 as <-. exists wt'. split; [reflexivity|]. apply X4; assumption.
      * exact (Y3 i im' wt0 r c m x v E1 E2 Em Ex Ev).
    + apply NoDup_app_intro.
      * apply FinFun.Injective_map_NoDup; [|exact X5]. intros [a b] [a' b'] Q. cbn in Q. injection Q as -> ->. reflexivity.
      * apply FinFun.Injective_map_NoDup; [|exact Y4]. intros [[a b] d] [[a' b'] d'] Q. cbn in Q. injection Q as -> -> ->. reflexivity.
      * intros p Q1 Q2. apply in_map_iff in Q1. apply in_map_iff in Q2. destruct Q1 as (a & <- & _). destruct Q2 as (b & Q & _). discriminate Q.
    + unfold zlen in *. rewrite app_length, !map_length. lia.
    + intros i r c. rewrite in_app_iff, !in_map_iff. split.
      * intros [([a b] & Q & Hin)|([[j a] b] & Q & Hin)]; cbn in Q; injection Q as <- <- <-.
        -- apply X7 in Hin. destruct Hin as (m & x & v & Q). exists im, wt, m, x, v. split; [reflexivity|]. split; [reflexivity|exact Q].
        -- apply Y6 in Hin. destruct Hin as (im' & wt0 & m & x & v & Q). exists im', wt0, m, x, v. exact Q.
      * intros (im' & wt0 & m & x & v & E1 & E2 & Q). destruct i as [|i]; cbn in E1, E2.
        -- left. injection E1 as <-. injection E2 as <-. exists (r, c). split; [reflexivity|]. apply X7. exists m, x, v. exact Q.
        -- right. exists (i, r, c). split; [reflexivity|]. apply Y6. exists im', wt0, m, x, v. split; [exact E1|]. split; [exact E2|exact Q].
Qed.

Lemma reject_char ims wts : given h w ims wts -> exists med wts' k L,
  reject_outliers_fl di dw sq n A ims wts = Ok (wts', k) /\ length wts' = length wts /\ all_shape h w wts' /\
  (forall r c vs m, column ims r c vs -> px med r c = Some m -> fl_median vs = Ok m) /\ img_ok med /\ nr med = h /\ nc med = w /\
  (forall i im wt r c m x v, nth_error ims i = Some im -> nth_error wts i = Some wt -> px med r c = Some m -> px im r c = Some x -> px wt r c = Some v ->
     exists wt', nth_error wts' i = Some wt' /\ px wt' r c = Some (newv m x v)) /\
  NoDup L /\ k = zlen L /\ forall i r c, In (i, r, c) L <-> rejected_at med ims wts i r c.
Proof.
  intros (H3 & HL & SI & SW). destruct (stack_char ims) as (med & Em & O & Hh & Hw & Hm); [intros ->; unfold zlen in H3; cbn in H3; lia|exact SI|].
  destruct (all_char med O Hh Hw ims wts HL SI SW) as (wts' & k & L & E & X). exists med, wts', k, L. unfold reject_outliers_fl.
  replace (zlen ims <? 3) with false by lia. rewrite Em. cbn [bind]. split; [exact E|]. destruct X as (X1 & X2 & X3 & X4). split; [exact X1|]. split; [exact X2|].
  split; [|split; [exact O|]; split; [exact Hh|]; split; [exact Hw|]; split; [exact X3|exact X4]].
  intros r c vs m Hv Emm. destruct (Hm r c m Emm) as (vs' & Hv' & E'). assert (vs = vs') as ->; [|exact E'].
  clear -Hv Hv'. revert vs' Hv'. induction Hv as [|im v ims vs E Hv IH]; intros vs' Hv'; inversion Hv' as [|? v' ? ? E' Hv'']; subst; [reflexivity|]. f_equal; [congruence|auto].
Qed.
End Fun.
