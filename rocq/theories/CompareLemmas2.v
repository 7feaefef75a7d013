(** Reports of the comparison; comparison of a file with itself; [go]. *)
From Coq Require Import Qabs Lia Lqa ZifyBool Field.
From Verif Require Import Base BaseLemmas Img ImgLemmas Types Reader SpecFile ReadLemmas BoundsM Composite Compare SpecCompare CompareLemmas.
From Verif Require CoaddLemmas8 CoaddLemmas7.
Open Scope Z_scope.

Lemma foldM_acc {S X R} (proj : S -> list R) (g : S -> X -> res S) (f : X -> list R) (good bad : X -> Prop) (e : err) xs : forall s,
  (forall x s, In x xs -> (exists s', g s x = Ok s' /\ proj s' = proj s ++ f x /\ good x) \/ (g s x = Err e /\ bad x)) ->
  (exists s', foldM g xs s = Ok s' /\ proj s' = proj s ++ flat_map f xs /\ Forall good xs) \/ (foldM g xs s = Err e /\ Exists bad xs).
Proof.
  induction xs as [|x xs IH]; intros s H; cbn [foldM flat_map].
  - left. exists s. rewrite app_nil_r. split; [reflexivity|]. split; [reflexivity|constructor].
  - destruct (H x s (or_introl eq_refl)) as [(s1 & E & P & G)|[E B]]; rewrite E; cbn [bind].
    + destruct (IH s1) as [(s2 & E' & P' & G')|[E' B']]; [intros y s' Hy; apply H; right; exact Hy|left|right].
      * exists s2. split; [exact E'|]. split; [rewrite P', P, app_assoc; reflexivity|]. now constructor.
      * split; [exact E'|]. now apply Exists_cons_tl.
    + right. split; [reflexivity|]. now constructor.
Qed.

Lemma zrange_S n : 0 <= n -> zrange (n + 1) = zrange n ++ [n].
Proof.
  intros H. unfold zrange. replace (Z.to_nat (n + 1)) with (S (Z.to_nat n)) by lia.
  rewrite seq_S, map_app. cbn. do 3 f_equal. lia.
Qed.

Lemma filter_positions {A} (f : A -> bool) (l : list A) :
  zlen (filter f l) = zlen (filter (fun i => match zget l i with Some x => f x | None => false end) (zrange (zlen l))).
Proof.
  induction l as [|x l IH] using rev_ind; [reflexivity|].
  assert (E : zlen (l ++ [x]) = zlen l + 1) by (rewrite zlen_app; reflexivity).
  rewrite E, zrange_S by apply zlen_nonneg. rewrite !filter_app, !zlen_app, IH. f_equal.
  - f_equal. apply filter_ext_in. intros i Hi. apply In_zrange in Hi. rewrite zget_app. replace (i <? zlen l) with true by lia. reflexivity.
  - cbn [filter]. rewrite zget_app. replace (zlen l <? zlen l) with false by lia. rewrite Z.sub_diag. cbn. destruct (f x); reflexivity.
Qed.

Lemma zget_combine {A B} (l : list A) (l' : list B) i x y : zget l i = Some x -> zget l' i = Some y -> zget (combine l l') i = Some (x, y).
Proof.
  unfold zget. destruct (i <? 0); [discriminate|]. generalize (Z.to_nat i). clear i. intros n. revert n l'.
  induction l as [|u l IH]; intros n l' H H'; [destruct n; discriminate|].
  destruct l' as [|v l']; [destruct n; discriminate|]. destruct n as [|n]; cbn in *; [congruence|]. apply IH; assumption.
Qed.

Lemma NoDup_map_in {A B} (f : A -> B) l : (forall x y, In x l -> In y l -> f x = f y -> x = y) -> NoDup l -> NoDup (map f l).
Proof.
  intros H N. induction N as [|x l Hx N IH]; cbn; [constructor|]. constructor.
  - rewrite in_map_iff. intros (y & E & Hy). apply Hx. rewrite (H x y); [exact Hy|left; reflexivity|right; exact Hy|symmetry; exact E].
  - apply IH. intros a b Ha Hb. apply H; right; assumption.
Qed.

Lemma count_positions (f : Q -> bool) (R : Q -> Q -> Prop) a b : img_ok a -> img_ok b -> nr a = nr b -> nc a = nc b ->
  (forall x y, f (x - y)%Q = true <-> R x y) ->
  pixel_count R a b (zlen (filter f (img_diff a b))).
Proof.
  intros Ha Hb Er Ec HR.
  assert (La : zlen (dat a) = nr a * nc a) by apply Ha.
  assert (Lb : zlen (dat b) = nr a * nc a) by (rewrite Er, Ec; apply Hb).
  assert (Ld : zlen (img_diff a b) = nr a * nc a).
  { unfold img_diff. rewrite zlen_map. unfold zlen in *. rewrite combine_length. lia. }
  assert (Hd : forall i x y, zget (dat a) i = Some x -> zget (dat b) i = Some y -> zget (img_diff a b) i = Some (x - y)%Q).
  { intros i x y Hx Hy. unfold img_diff. rewrite zget_map, (zget_combine _ _ _ _ _ Hx Hy). reflexivity. }
  rewrite filter_positions, Ld.
  set (w := nc a) in *. set (h := nr a) in *.
  set (g := fun i => match zget (img_diff a b) i with Some x => f x | None => false end).
  exists (map (fun p => (p / w, p mod w)) (filter g (zrange (h * w)))).
  split; [|split; [rewrite zlen_map; reflexivity|]].
  - assert (Hw : 0 <= h /\ 0 <= w) by (split; apply Ha).
    apply NoDup_map_in; [|apply NoDup_filter, zrange_NoDup].
    intros p q Hp Hq E. apply filter_In in Hp, Hq. destruct Hp as [Hp _], Hq as [Hq _]. apply In_zrange in Hp, Hq.
    injection E as E1 E2. destruct Hw as [Hh Hw]. destruct (unflat h w p Hp Hh Hw) as (_&_&P). destruct (unflat h w q Hq Hh Hw) as (_&_&Q). rewrite P, Q, E1, E2. reflexivity.
  - intros r c. rewrite in_map_iff. split.
    + intros (p & E & Hp). injection E as <- <-. apply filter_In in Hp. destruct Hp as [Hp Hg]. apply In_zrange in Hp.
      destruct (unflat h w p Hp) as (R1 & R2 & P); [apply Ha|apply Ha|].
      destruct (zget_range_Some (dat a) p) as [x Hx]; [lia|]. destruct (zget_range_Some (dat b) p) as [y Hy]; [lia|].
      exists x, y. unfold px. rewrite <- Er, <- Ec. fold h w. rewrite <- P, Hx, Hy.
      replace ((0 <=? p / w) && (p / w <? h) && (0 <=? p mod w) && (p mod w <? w)) with true by lia.
      repeat split. unfold g in Hg. rewrite (Hd p x y Hx Hy) in Hg. apply HR. exact Hg.
    + intros (x & y & Hx & Hy & HRxy). pose proof (px_Some_range _ _ _ _ Hx) as [Rr Rc]. fold h w in Rr, Rc.
      exists (r * w + c). destruct (flat_div h w r c Rr Rc) as [D M]. rewrite D, M. split; [reflexivity|].
      apply filter_In. split; [apply In_zrange, flat_range; assumption|].
      unfold px in Hx, Hy. rewrite <- Er, <- Ec in Hy. fold h w in Hx, Hy.
      replace ((0 <=? r) && (r <? h) && (0 <=? c) && (c <? w)) with true in * by lia.
      unfold g. rewrite (Hd _ x y Hx Hy). apply HR. exact HRxy.
Qed.

Lemma pixel_count_unique R a b n m : pixel_count R a b n -> pixel_count R a b m -> n = m.
Proof.
  intros (p & Np & <- & Hp) (q & Nq & <- & Hq). unfold zlen. f_equal. apply Nat.le_antisymm; apply NoDup_incl_length; try assumption.
  - intros [r c] H. apply Hq, Hp, H.
  - intros [r c] H. apply Hp, Hq, H.
Qed.

(** * The variance *)
Definition sq_sum (l : list Q) : Q := fold_right (fun d s => d * d + s)%Q 0%Q l.
Lemma centred_sum m l : (qsum (map (fun x => (x - m) * (x - m)) l) == sq_sum l - 2 * m * qsum l + inject_Z (zlen l) * (m * m))%Q.
Proof.
  induction l as [|x l IH]; [cbn; ring|].
  rewrite zlen_cons, inject_Z_plus. unfold qsum, sq_sum in *. cbn [map fold_right]. rewrite IH. ring.
Qed.
Lemma qvar_eq l : 0 < zlen l -> let n := inject_Z (zlen l) in (qvar l * (n * n) == n * sq_sum l - qsum l * qsum l)%Q.
Proof.
  intros H n. unfold qvar, qmean. rewrite zlen_map, centred_sum. fold n.
  assert (~ n == 0)%Q by (unfold n; change 0%Q with (inject_Z 0); rewrite inject_Z_injective; lia). field. assumption.
Qed.
Lemma qltb_iff x y : qltb x y = true <-> (x < y)%Q.
Proof. unfold qltb. rewrite negb_true_iff. split; intros H; [apply Qnot_le_lt; intros N; apply Qle_bool_iff in N; congruence|apply not_true_is_false; intros N; apply Qle_bool_iff in N; lra]. Qed.

Lemma std_above_iff tol a b : img_ok a -> img_ok b -> nr a = nr b -> nc a = nc b -> 0 < nr a -> 0 < nc a -> (0 <= tol)%Q ->
  std_above tol (img_diff a b) = true <-> rms_above tol a b.
Proof.
  intros Ha Hb Er Ec Hr Hc Ht. unfold std_above, rms_above. fold (img_diff a b). fold (qsum (img_diff a b)). fold (sq_sum (img_diff a b)).
  assert (Ld : zlen (img_diff a b) = nr a * nc a).
  { destruct Ha as (_&_&La), Hb as (_&_&Lb). rewrite <- Er, <- Ec in Lb. unfold img_diff. rewrite zlen_map. unfold zlen in *. rewrite combine_length. lia. }
  rewrite orb_true_iff, !qltb_iff. assert (0 < nr a * nc a) by nia.
  rewrite <- Ld, <- qvar_eq by lia. set (n := inject_Z (zlen (img_diff a b))).
  assert (Hn : (0 < n)%Q) by (unfold n; change 0%Q with (inject_Z 0); rewrite <- Zlt_Qlt; lia).
  assert (Hn2 : (0 < n * n)%Q) by (apply Qmult_lt_0_compat; assumption).
  split.
  - intros [F|V]; [lra|]. apply Qmult_lt_compat_r; assumption.
  - intros V. right. apply Qmult_lt_r in V; assumption.
Qed.

(** * Reports *)
Definition rep_of (k : comparator) f1 f2 (t : ctype) (index : Z) (p : Z * Z) (icut : Z) : list report :=
  match get_cutout f1 (fst p) icut t, get_cutout f2 (snd p) icut t with
  | Ok a, Ok b =>
    match t with
    | TImage => if std_above (k_rms_tol k) (img_diff a b) then [RmsAbove index icut] else []
    | TWeight => let n := zlen (filter (fun d => negb (qltb (Qabs d) (k_weight_tol k))) (img_diff a b)) in
                 if n =? 0 then [] else [WeightsWorse index icut n]
    | _ => []
    end
  | _, _ => []
  end.
Definition reps_of (k : comparator) f1 f2 t (pairs : list (Z * Z)) (index : Z) : list report :=
  match zget pairs index with
  | Some p =>
    match zget (m_cat f1) (fst p), zget (m_cat f2) (snd p) with
    | Some o1, Some o2 => flat_map (rep_of k f1 f2 t index p) (zrange (Z.min (o_ncut o1) (o_ncut o2)))
    | _, _ => []
    end
  | None => []
  end.

Lemma py_zget {A} (l : list A) i a : zget l i = Some a -> py_index l i = Ok a.
Proof. intros H. assert (0 <= i) by (apply zget_Some_range in H; lia). now apply py_index_ok_nonneg. Qed.

Definition soft_bad (same : bool) f1 f2 t p : Prop := count_clash same f1 f2 p \/ shape_differs f1 f2 t p.

Lemma compare_object_soft k f1 f2 t pairs index p st : file_wf f1 -> file_wf f2 ->
  (exists m, ext_find (m_ext f1) t = Some m) -> (exists m, ext_find (m_ext f2) t = Some m) ->
  t = TWeight \/ t = TImage /\ k_png k = PngNone -> zget pairs index = Some p ->
  (exists o1 o2, zget (m_cat f1) (fst p) = Some o1 /\ zget (m_cat f2) (snd p) = Some o2 /\ o_id o1 = o_id o2) ->
  (exists st', compare_object k f1 f2 t pairs st index = Ok st' /\ cs_reports st' = cs_reports st ++ reps_of k f1 f2 t pairs index /\
     ~ soft_bad (k_same_nepoch k) f1 f2 t p) \/
  (compare_object k f1 f2 t pairs st index = Err ValueError /\ soft_bad (k_same_nepoch k) f1 f2 t p).
Proof.
  intros W1 W2 T1 T2 HT HP (o1 & o2 & H1 & H2 & _). unfold compare_object, reps_of. rewrite HP, H1, H2.
  rewrite (py_zget _ _ _ HP). cbn [bind]. destruct p as [i1 i2]. cbn [fst snd] in *.
  rewrite (py_zget _ _ _ H1). cbn [bind]. rewrite (py_zget _ _ _ H2). cbn [bind].
  destruct (counts_decide (k_same_nepoch k) f1 f2 (i1, i2) o1 o2 H1 H2) as [[E B]|[E G]]; rewrite E; cbn [bind].
  - right. split; [reflexivity|]. left. exact B.
  - set (n := Z.min (o_ncut o1) (o_ncut o2)) in *.
    destruct (foldM_acc cs_reports (compare_cutout k f1 f2 t index i1 i2) (rep_of k f1 f2 t index (i1, i2))
      (fun icut => forall a b, cutouts_of f1 f2 t (i1, i2) icut a b -> nr a = nr b /\ nc a = nc b)
      (fun icut => exists a b, cutouts_of f1 f2 t (i1, i2) icut a b /\ ~ (nr a = nr b /\ nc a = nc b))
      ValueError (zrange n) st) as [(st' & E' & P' & G')|[E' B']].
    { intros icut s Hi. apply In_zrange in Hi.
      destruct (cutouts_exist f1 f2 W1 W2 t T1 T2 (i1, i2) o1 o2 icut H1 H2 Hi) as (a & b & C & Oa & Ob & _).
      pose proof C as (?&?&?&?&?&?&?&E1&E2). cbn [fst snd] in *.
      unfold compare_cutout, rep_of. cbn [fst snd]. rewrite E2. cbn [bind]. rewrite E1. cbn [bind].
      destruct (shapes_differ a b) eqn:SD.
      - right. split; [destruct HT as [->|[-> _]]; [unfold compare_weights|unfold compare_rms]; rewrite SD; reflexivity|].
        exists a, b. split; [exact C|]. now apply shapes_differ_iff.
      - left. assert (HG : forall a' b', cutouts_of f1 f2 t (i1, i2) icut a' b' -> nr a' = nr b' /\ nc a' = nc b').
        { intros a' b' C'. destruct (cutouts_det _ _ _ _ _ _ _ _ _ C C') as [<- <-]. unfold shapes_differ in SD. lia. }
        destruct HT as [->|[-> _]]; [unfold compare_weights|unfold compare_rms]; rewrite SD; cbn [bind fst snd].
        + eexists. split; [reflexivity|]. split; [reflexivity|exact HG].
        + eexists. split; [reflexivity|]. split; [|exact HG]. cbn [cs_reports]. destruct (std_above _ _); reflexivity. }
    + rewrite E'. cbn [bind]. left. exists st'. split; [|split; [exact P'|]].
      * destruct HT as [->|[-> PN]]; [reflexivity|]. cbn [ctype_eqb]. unfold draw. rewrite PN. reflexivity.
      * rewrite Forall_forall in G'. intros [B|(icut & a & b & C & B)]; [exact (G B)|].
        assert (In icut (zrange n)). { apply In_zrange. destruct C as (x & y & Hx & Hy & ? & ? & ? & _). cbn [fst snd] in *. rewrite H1 in Hx. rewrite H2 in Hy. injection Hx as <-. injection Hy as <-. lia. }
        exact (B (G' icut H a b C)).
    + rewrite E'. cbn [bind]. right. split; [reflexivity|]. right.
      apply Exists_exists in B'. destruct B' as (icut & _ & a & b & C & B); exists icut, a, b; auto.
Qed.

Lemma compare_soft k f1 f2 pairs ids t : file_wf f1 -> file_wf f2 ->
  (exists m, ext_find (m_ext f1) t = Some m) -> (exists m, ext_find (m_ext f2) t = Some m) ->
  t = TWeight \/ t = TImage /\ k_png k = PngNone -> pairs_of f1 f2 pairs -> Forall (fun i => 0 <= i < zlen pairs) ids ->
  (t = TImage -> forall l, k_clip k l = Ok tt) ->
  (compare_images k f1 f2 pairs ids t = Ok (flat_map (reps_of k f1 f2 t pairs) ids) /\
     forall index p, looked_at pairs ids index p -> ~ soft_bad (k_same_nepoch k) f1 f2 t p) \/
  (compare_images k f1 f2 pairs ids t = Err ValueError /\
     exists index p, looked_at pairs ids index p /\ soft_bad (k_same_nepoch k) f1 f2 t p).
Proof.
  intros W1 W2 T1 T2 HT HP HI HC. unfold compare_images.
  destruct (foldM_acc cs_reports (compare_object k f1 f2 t pairs) (reps_of k f1 f2 t pairs)
    (fun index => forall p, zget pairs index = Some p -> ~ soft_bad (k_same_nepoch k) f1 f2 t p)
    (fun index => exists p, zget pairs index = Some p /\ soft_bad (k_same_nepoch k) f1 f2 t p) ValueError ids (mkCstate [] [] None)) as [(st & E & P & G)|[E B]].
  { intros index s Hin. rewrite Forall_forall in HI. destruct (zget_range_Some pairs index (HI _ Hin)) as [p Hp].
    unfold pairs_of in HP. rewrite Forall_forall in HP. pose proof (HP p (zget_In _ _ _ Hp)) as Ho.
    destruct (compare_object_soft k f1 f2 t pairs index p s W1 W2 T1 T2 HT Hp Ho) as [(s' & E & P & G)|[E B]]; [left|right].
    - exists s'. split; [exact E|]. split; [exact P|]. intros p' Hp'. rewrite Hp in Hp'. injection Hp' as <-. exact G.
    - split; [exact E|]. exists p. auto. }
  - left. rewrite E. cbn [bind]. split.
    + cbn [cs_reports app] in P. rewrite <- P. destruct HT as [->|[-> PN]]; [reflexivity|]. cbn [ctype_eqb]. rewrite HC by reflexivity. cbn [bind]. rewrite PN. reflexivity.
    + intros index p [Hin Hp]. rewrite Forall_forall in G. exact (G index Hin p Hp).
  - right. rewrite E. split; [reflexivity|]. apply Exists_exists in B. destruct B as (index & Hin & p & Hp & B). exists index, p. split; [split; assumption|exact B].
Qed.

Lemma In_reps k f1 f2 t pairs ids r : In r (flat_map (reps_of k f1 f2 t pairs) ids) <->
  exists index p icut a b, looked_at pairs ids index p /\ cutouts_of f1 f2 t p icut a b /\ In r (rep_of k f1 f2 t index p icut).
Proof.
  rewrite in_flat_map. split.
  - intros (index & Hin & H). unfold reps_of in H. destruct (zget pairs index) as [p|] eqn:Hp; [|destruct H].
    destruct (zget (m_cat f1) (fst p)) as [o1|] eqn:H1; [|destruct H]. destruct (zget (m_cat f2) (snd p)) as [o2|] eqn:H2; [|destruct H].
    apply in_flat_map in H. destruct H as (icut & Hi & H). apply In_zrange in Hi. pose proof H as H'. unfold rep_of in H.
    destruct (get_cutout f1 (fst p) icut t) as [a|] eqn:Ea; [|destruct H]. destruct (get_cutout f2 (snd p) icut t) as [b|] eqn:Eb; [|destruct H].
    exists index, p, icut, a, b. split; [split; assumption|]. split; [|exact H']. exists o1, o2. repeat split; try assumption; lia.
  - intros (index & p & icut & a & b & [Hin Hp] & C & H). exists index. split; [exact Hin|]. unfold reps_of. rewrite Hp.
    destruct C as (o1 & o2 & H1 & H2 & ? & ? & ? & _). rewrite H1, H2. apply in_flat_map. exists icut. split; [apply In_zrange; lia|exact H].
Qed.

Lemma cutouts_ok f1 f2 t p icut a b : file_wf f1 -> file_wf f2 ->
  (exists m, ext_find (m_ext f1) t = Some m) -> (exists m, ext_find (m_ext f2) t = Some m) ->
  cutouts_of f1 f2 t p icut a b -> img_ok a /\ img_ok b /\ 0 < nr a /\ 0 < nc a.
Proof.
  intros W1 W2 T1 T2 (o1 & o2 & H1 & H2 & ? & ? & ? & Ea & Eb).
  destruct (wf_cutout t f1 (fst p) icut o1 W1 T1 H1) as (a' & Ea' & Oa & Ra & Ca); [lia|].
  destruct (wf_cutout t f2 (snd p) icut o2 W2 T2 H2) as (b' & Eb' & Ob & _); [lia|].
  rewrite Ea in Ea'. rewrite Eb in Eb'. injection Ea' as <-. injection Eb' as <-.
  destruct W1 as [W1 _]. rewrite Forall_forall in W1. destruct (W1 _ (zget_In _ _ _ H1)). repeat split; try apply Oa; try apply Ob; lia.
Qed.

Lemma wtest tol x y : negb (qltb (Qabs (x - y)) tol) = true <-> (tol <= Qabs (x - y))%Q.
Proof.
  rewrite negb_true_iff. split; [intros F; apply Qnot_lt_le; intros F'; apply qltb_iff in F'; congruence|intros F; apply not_true_is_false; intros F'; apply qltb_iff in F'; lra].
Qed.

Theorem compare_weight_reports k f1 f2 pairs ids : file_wf f1 -> file_wf f2 ->
  has_types f1 [TWeight] -> has_types f2 [TWeight] -> pairs_of f1 f2 pairs -> Forall (fun i => 0 <= i < zlen pairs) ids ->
  (compare_images k f1 f2 pairs ids TWeight = Err ValueError <->
     exists index p, looked_at pairs ids index p /\ (count_clash (k_same_nepoch k) f1 f2 p \/ shape_differs f1 f2 TWeight p)) /\
  (compare_images k f1 f2 pairs ids TWeight <> Err ValueError ->
     exists reps, compare_images k f1 f2 pairs ids TWeight = Ok reps /\
       forall r, In r reps <-> weight_report (k_weight_tol k) f1 f2 pairs ids r).
Proof.
  intros W1 W2 T1 T2 HP HI.
  assert (T1' := T1 TWeight (or_introl eq_refl)). assert (T2' := T2 TWeight (or_introl eq_refl)).
  destruct (compare_soft k f1 f2 pairs ids TWeight W1 W2 T1' T2') as [[E G]|[E B]]; try assumption; [left; reflexivity|discriminate| |].
  - rewrite E. split.
    + split; [discriminate|]. intros (index & p & L & B). exfalso. exact (G index p L B).
    + intros _. eexists. split; [reflexivity|]. intros r. rewrite In_reps. unfold weight_report. split.
      * intros (index & p & icut & a & b & L & C & H). destruct (cutouts_ok f1 f2 TWeight p icut a b W1 W2 T1' T2' C) as (Oa & Ob & _ & _).
        assert (S : nr a = nr b /\ nc a = nc b).
        { destruct (shapes_differ a b) eqn:SD; [|unfold shapes_differ in SD; lia]. exfalso. apply (G index p L). right. exists icut, a, b. split; [exact C|]. now apply shapes_differ_iff. }
        unfold rep_of in H. pose proof C as (?&?&?&?&?&?&?&Ea&Eb). rewrite Ea, Eb in H.
        set (n := zlen _) in H. pose proof (count_positions (fun d => negb (qltb (Qabs d) (k_weight_tol k))) (fun x y => (k_weight_tol k <= Qabs (x - y))%Q) a b Oa Ob (proj1 S) (proj2 S)) as PC.
        destruct (n =? 0) eqn:En; [destruct H|]. destruct H as [<-|[]].
        exists index, p, icut, a, b, n. split; [exact L|]. split; [exact C|]. split; [reflexivity|]. split; [pose proof (zlen_nonneg (filter (fun d => negb (qltb (Qabs d) (k_weight_tol k))) (img_diff a b))); unfold n in *; lia|].
        exact (PC (wtest (k_weight_tol k))).
      * intros (index & p & icut & a & b & n & L & C & -> & Hn & PC). exists index, p, icut, a, b. split; [exact L|]. split; [exact C|].
        destruct (cutouts_ok f1 f2 TWeight p icut a b W1 W2 T1' T2' C) as (Oa & Ob & _ & _).
        assert (S : nr a = nr b /\ nc a = nc b).
        { destruct (shapes_differ a b) eqn:SD; [|unfold shapes_differ in SD; lia]. exfalso. apply (G index p L). right. exists icut, a, b. split; [exact C|]. now apply shapes_differ_iff. }
        pose proof (count_positions (fun d => negb (qltb (Qabs d) (k_weight_tol k))) (fun x y => (k_weight_tol k <= Qabs (x - y))%Q) a b Oa Ob (proj1 S) (proj2 S)) as PC'.
        rewrite (pixel_count_unique _ _ _ _ _ PC (PC' (wtest (k_weight_tol k)))) in *.
        unfold rep_of. pose proof C as (?&?&?&?&?&?&?&Ea&Eb). rewrite Ea, Eb.
        match goal with |- context [?x =? 0] => replace (x =? 0) with false by lia end. left. reflexivity.
  - split; [split; auto|]. congruence.
Qed.

Theorem compare_rms_reports k f1 f2 pairs ids : file_wf f1 -> file_wf f2 ->
  has_types f1 [TImage] -> has_types f2 [TImage] -> pairs_of f1 f2 pairs -> Forall (fun i => 0 <= i < zlen pairs) ids ->
  k_png k = PngNone -> (forall l, k_clip k l = Ok tt) -> (0 <= k_rms_tol k)%Q ->
  (compare_images k f1 f2 pairs ids TImage = Err ValueError <->
     exists index p, looked_at pairs ids index p /\ (count_clash (k_same_nepoch k) f1 f2 p \/ shape_differs f1 f2 TImage p)) /\
  (compare_images k f1 f2 pairs ids TImage <> Err ValueError ->
     exists reps, compare_images k f1 f2 pairs ids TImage = Ok reps /\
       forall r, In r reps <-> rms_report (k_rms_tol k) f1 f2 pairs ids r).
Proof.
  intros W1 W2 T1 T2 HP HI PN HC Ht.
  assert (T1' := T1 TImage (or_introl eq_refl)). assert (T2' := T2 TImage (or_introl eq_refl)).
  destruct (compare_soft k f1 f2 pairs ids TImage W1 W2 T1' T2') as [[E G]|[E B]]; try assumption; [right; auto|intros _; exact HC| |].
  - rewrite E. split.
    + split; [discriminate|]. intros (index & p & L & B). exfalso. exact (G index p L B).
    + intros _. eexists. split; [reflexivity|]. intros r. rewrite In_reps. unfold rms_report.
      assert (HS : forall index p icut a b, looked_at pairs ids index p -> cutouts_of f1 f2 TImage p icut a b ->
        (std_above (k_rms_tol k) (img_diff a b) = true <-> rms_above (k_rms_tol k) a b)).
      { intros index p icut a b L C. destruct (cutouts_ok f1 f2 TImage p icut a b W1 W2 T1' T2' C) as (Oa & Ob & Hr & Hc).
        assert (S : nr a = nr b /\ nc a = nc b).
        { destruct (shapes_differ a b) eqn:SD; [|unfold shapes_differ in SD; lia]. exfalso. apply (G index p L). right. exists icut, a, b. split; [exact C|]. now apply shapes_differ_iff. }
        apply std_above_iff; try assumption; tauto. }
      split.
      * intros (index & p & icut & a & b & L & C & H). unfold rep_of in H. pose proof C as (?&?&?&?&?&?&?&Ea&Eb). rewrite Ea, Eb in H.
        destruct (std_above _ _) eqn:SA; [|destruct H]. destruct H as [<-|[]]. exists index, p, icut, a, b. split; [exact L|]. split; [exact C|]. split; [reflexivity|]. eapply HS; eassumption.
      * intros (index & p & icut & a & b & L & C & -> & R). exists index, p, icut, a, b. split; [exact L|]. split; [exact C|].
        unfold rep_of. pose proof C as (?&?&?&?&?&?&?&Ea&Eb). rewrite Ea, Eb. rewrite (proj2 (HS _ _ _ _ _ L C) R). left. reflexivity.
  - split; [split; auto|]. congruence.
Qed.
