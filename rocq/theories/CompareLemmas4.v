(** Pictures of objects that have cutouts. *)
From Coq Require Import Qabs Lia Lqa ZifyBool.
From Verif Require Import Base BaseLemmas Img ImgLemmas Types Reader SpecFile ReadLemmas BoundsM Composite Compare SpecCompare CompareLemmas CompareLemmas2.
Open Scope Z_scope.

Definition no_png (k : comparator) : comparator := mkComp (k_rms_tol k) (k_weight_tol k) (k_same_nepoch k) PngNone (k_clip k).

Lemma compare_object_draw k f1 f2 pairs st index :
  compare_object k f1 f2 TImage pairs st index = let* st' := compare_object (no_png k) f1 f2 TImage pairs st index in draw k index st'.
Proof.
  unfold compare_object. destruct (py_index pairs index) as [[i1 i2]|]; [|reflexivity]. cbn [bind].
  destruct (py_index (m_cat f1) i1); [|reflexivity]. cbn [bind]. destruct (py_index (m_cat f2) i2); [|reflexivity]. cbn [bind k_same_nepoch no_png].
  destruct (check_ncutout _ _ _); [|reflexivity]. cbn [bind].
  change (compare_cutout (no_png k) f1 f2 TImage index i1 i2) with (compare_cutout k f1 f2 TImage index i1 i2).
  destruct (foldM _ _ st); reflexivity.
Qed.

(** The verdict on the last cutout pair. *)
Definition pic_of (k : comparator) f1 f2 (pairs : list (Z * Z)) (index : Z) : list report :=
  match zget pairs index with
  | Some p =>
    match zget (m_cat f1) (fst p), zget (m_cat f2) (snd p) with
    | Some o1, Some o2 =>
      let n := Z.min (o_ncut o1) (o_ncut o2) in
      match get_cutout f1 (fst p) (n - 1) TImage, get_cutout f2 (snd p) (n - 1) TImage with
      | Ok a, Ok b => [Picture index (n - 1) (negb (std_above (k_rms_tol k) (img_diff a b)))]
      | _, _ => []
      end
    | _, _ => []
    end
  | None => []
  end.

Lemma last_verdict k f1 f2 index i1 i2 n st st' : 0 < n ->
  foldM (compare_cutout k f1 f2 TImage index i1 i2) (zrange n) st = Ok st' ->
  exists a b, get_cutout f1 i1 (n - 1) TImage = Ok a /\ get_cutout f2 i2 (n - 1) TImage = Ok b /\
    cs_last st' = Some (negb (std_above (k_rms_tol k) (img_diff a b)), n - 1).
Proof.
  intros N H. replace n with (n - 1 + 1) in H at 1 by lia. rewrite zrange_S in H by lia. rewrite foldM_app in H.
  apply bind_ok in H. destruct H as (s1 & _ & H). cbn [foldM] in H. apply bind_ok in H. destruct H as (s2 & H & E). injection E as <-.
  unfold compare_cutout in H. apply bind_ok in H. destruct H as (b & Hb & H). apply bind_ok in H. destruct H as (a & Ha & H).
  apply bind_ok in H. destruct H as (r & Hr & H). injection H as <-. exists a, b. split; [exact Ha|]. split; [exact Hb|].
  unfold compare_rms in Hr. destruct (shapes_differ a b); [discriminate|]. injection Hr as <-. reflexivity.
Qed.

Definition shared (f1 f2 : medsfile) (p : Z * Z) : Prop := exists icut a b, cutouts_of f1 f2 TImage p icut a b.

Lemma object_pictures k f1 f2 pairs index p st : file_wf f1 -> file_wf f2 ->
  (exists m, ext_find (m_ext f1) TImage = Some m) -> (exists m, ext_find (m_ext f2) TImage = Some m) ->
  k_png k = PngString -> zget pairs index = Some p ->
  (exists o1 o2, zget (m_cat f1) (fst p) = Some o1 /\ zget (m_cat f2) (snd p) = Some o2 /\ o_id o1 = o_id o2) ->
  shared f1 f2 p ->
  (exists st', compare_object k f1 f2 TImage pairs st index = Ok st' /\
     cs_reports st' = cs_reports st ++ (reps_of (no_png k) f1 f2 TImage pairs index ++ pic_of k f1 f2 pairs index) /\
     ~ soft_bad (k_same_nepoch k) f1 f2 TImage p) \/
  (compare_object k f1 f2 TImage pairs st index = Err ValueError /\ soft_bad (k_same_nepoch k) f1 f2 TImage p).
Proof.
  intros W1 W2 T1 T2 PS HP Ho (icut & a0 & b0 & C0). rewrite compare_object_draw.
  destruct (compare_object_soft (no_png k) f1 f2 TImage pairs index p st W1 W2 T1 T2 (or_intror (conj eq_refl eq_refl)) HP Ho) as [(st' & E & P & G)|[E B]]; rewrite E; cbn [bind].
  2:{ right. split; [reflexivity|exact B]. }
  left. destruct Ho as (o1 & o2 & H1 & H2 & _).
  destruct C0 as (x & y & Hx & Hy & R1 & R2 & R3 & _). rewrite H1 in Hx. rewrite H2 in Hy. injection Hx as <-. injection Hy as <-.
  unfold compare_object in E. rewrite (py_zget _ _ _ HP) in E. cbn [bind] in E. destruct p as [i1 i2]. cbn [fst snd] in *.
  rewrite (py_zget _ _ _ H1) in E. cbn [bind] in E. rewrite (py_zget _ _ _ H2) in E. cbn [bind] in E.
  destruct (counts_decide (k_same_nepoch (no_png k)) f1 f2 (i1, i2) o1 o2 H1 H2) as [[E' B]|[E' _]]; rewrite E' in E; cbn [bind] in E; [discriminate|].
  apply bind_ok in E. destruct E as (s2 & F & E). cbn [ctype_eqb draw k_png no_png] in E. unfold draw in E. cbn [k_png no_png] in E. injection E as ->.
  destruct (last_verdict (no_png k) f1 f2 index i1 i2 (Z.min (o_ncut o1) (o_ncut o2)) st st' ltac:(lia) F) as (a & b & Ea & Eb & L).
  unfold draw. rewrite PS, L. eexists. split; [reflexivity|]. split; [|exact G]. cbn [cs_reports]. rewrite P, <- app_assoc. f_equal. f_equal.
  unfold pic_of. rewrite HP. cbn [fst snd]. rewrite H1, H2. cbn zeta. rewrite Ea, Eb. reflexivity.
Qed.

Lemma rep_no_picture k f1 f2 pairs ids : filter is_picture (flat_map (fun i => reps_of (no_png k) f1 f2 TImage pairs i ++ pic_of k f1 f2 pairs i) ids)
  = flat_map (pic_of k f1 f2 pairs) ids.
Proof.
  assert (E : forall l l', filter is_picture (l ++ l') = filter is_picture l ++ filter is_picture l') by (intros; apply filter_app).
  induction ids as [|i ids IH]; [reflexivity|]. cbn [flat_map]. rewrite !E, IH. f_equal.
  replace (filter is_picture (reps_of (no_png k) f1 f2 TImage pairs i)) with (@nil report).
  - cbn [app]. unfold pic_of. destruct (zget pairs i); [|reflexivity]. destruct (zget (m_cat f1) _); [|reflexivity]. destruct (zget (m_cat f2) _); [|reflexivity].
    cbn zeta. destruct (get_cutout f1 _ _ _); [|reflexivity]. destruct (get_cutout f2 _ _ _); reflexivity.
  - symmetry. unfold reps_of. destruct (zget pairs i) as [p|]; [|reflexivity]. destruct (zget (m_cat f1) _); [|reflexivity]. destruct (zget (m_cat f2) _); [|reflexivity].
    generalize (zrange (Z.min (o_ncut o) (o_ncut o0))). intros l. induction l as [|x l IHl]; [reflexivity|]. cbn [flat_map]. rewrite E, IHl, app_nil_r.
    unfold rep_of. destruct (get_cutout f1 _ _ _); [|reflexivity]. destruct (get_cutout f2 _ _ _); [|reflexivity]. destruct (std_above _ _); reflexivity.
Qed.

Theorem pictures_ok k f1 f2 pairs ids : file_wf f1 -> file_wf f2 ->
  has_types f1 [TImage] -> has_types f2 [TImage] -> pairs_of f1 f2 pairs -> Forall (fun i => 0 <= i < zlen pairs) ids ->
  k_png k = PngString -> (forall l, k_clip k l = Ok tt) -> (0 <= k_rms_tol k)%Q ->
  (forall index p, looked_at pairs ids index p -> exists icut a b, cutouts_of f1 f2 TImage p icut a b) ->
  (compare_images k f1 f2 pairs ids TImage = Err ValueError <->
     exists index p, looked_at pairs ids index p /\ (count_clash (k_same_nepoch k) f1 f2 p \/ shape_differs f1 f2 TImage p)) /\
  (compare_images k f1 f2 pairs ids TImage <> Err ValueError ->
     exists reps, compare_images k f1 f2 pairs ids TImage = Ok reps /\
       Forall2 (fun index r => exists p icut a b ok, r = Picture index icut ok /\ zget pairs index = Some p /\
           cutouts_of f1 f2 TImage p icut a b /\ (forall icut' a' b', cutouts_of f1 f2 TImage p icut' a' b' -> icut' <= icut) /\
           (ok = false <-> rms_above (k_rms_tol k) a b))
         ids (filter is_picture reps)).
Proof.
  intros W1 W2 T1 T2 HP HI PS HC Ht HN.
  assert (T1' := T1 TImage (or_introl eq_refl)). assert (T2' := T2 TImage (or_introl eq_refl)).
  unfold compare_images.
  destruct (foldM_acc cs_reports (compare_object k f1 f2 TImage pairs) (fun i => reps_of (no_png k) f1 f2 TImage pairs i ++ pic_of k f1 f2 pairs i)
    (fun index => forall p, zget pairs index = Some p -> ~ soft_bad (k_same_nepoch k) f1 f2 TImage p)
    (fun index => exists p, zget pairs index = Some p /\ soft_bad (k_same_nepoch k) f1 f2 TImage p) ValueError ids (mkCstate [] [] None)) as [(st & E & P & G)|[E B]].
  { intros index s Hin. rewrite Forall_forall in HI. destruct (zget_range_Some pairs index (HI _ Hin)) as [p Hp].
    unfold pairs_of in HP. rewrite Forall_forall in HP. pose proof (HP p (zget_In _ _ _ Hp)) as Ho.
    destruct (object_pictures k f1 f2 pairs index p s W1 W2 T1' T2' PS Hp Ho (HN index p (conj Hin Hp))) as [(s' & E & P & G)|[E B]]; [left|right].
    - exists s'. split; [exact E|]. split; [exact P|]. intros p' Hp'. rewrite Hp in Hp'. injection Hp' as <-. exact G.
    - split; [exact E|]. exists p. auto. }
  - rewrite E. cbn [bind ctype_eqb]. rewrite HC. cbn [bind]. rewrite PS. split.
    + split; [discriminate|]. intros (index & p & [Hin Hp] & B). exfalso. rewrite Forall_forall in G. exact (G index Hin p Hp B).
    + intros _. eexists. split; [reflexivity|]. cbn [cs_reports app] in P. rewrite filter_app, P, rep_no_picture. cbn [filter is_picture]. rewrite app_nil_r.
      rewrite Forall_forall in G, HI. clear E P st. induction ids as [|index ids IH]; [constructor|]. cbn [flat_map].
      assert (Hin : In index (index :: ids)) by (left; reflexivity).
      destruct (zget_range_Some pairs index (HI _ Hin)) as [p Hp]. pose proof (G index Hin p Hp) as Gp.
      destruct (HN index p (conj Hin Hp)) as (ic & a0 & b0 & C0). pose proof C0 as (o1 & o2 & H1 & H2 & R1 & R2 & R3 & _).
      destruct (cutouts_exist f1 f2 W1 W2 TImage T1' T2' p o1 o2 (Z.min (o_ncut o1) (o_ncut o2) - 1) H1 H2) as (a & b & C & Oa & Ob & _); [lia|].
      pose proof C as (?&?&?&?&?&?&?&Ea&Eb).
      assert (PO : pic_of k f1 f2 pairs index = [Picture index (Z.min (o_ncut o1) (o_ncut o2) - 1) (negb (std_above (k_rms_tol k) (img_diff a b)))]).
      { unfold pic_of. rewrite Hp, H1, H2. cbn zeta. rewrite Ea, Eb. reflexivity. }
      rewrite PO. cbn [app]. constructor.
      * exists p, (Z.min (o_ncut o1) (o_ncut o2) - 1), a, b. eexists. split; [reflexivity|]. split; [exact Hp|]. split; [exact C|]. split.
        -- intros ic' a' b' (x' & y' & Hx & Hy & ? & ? & ? & _). rewrite H1 in Hx. rewrite H2 in Hy. injection Hx as <-. injection Hy as <-. lia.
        -- destruct (cutouts_ok f1 f2 TImage p _ a b W1 W2 T1' T2' C) as (_ & _ & Hr & Hc).
           assert (S : nr a = nr b /\ nc a = nc b).
           { destruct (shapes_differ a b) eqn:SD; [|unfold shapes_differ in SD; lia]. exfalso. apply Gp. right. eexists. exists a, b. split; [exact C|]. now apply shapes_differ_iff. }
           rewrite <- (std_above_iff (k_rms_tol k) a b Oa Ob (proj1 S) (proj2 S) Hr Hc Ht). destruct (std_above _ _); cbn; intuition congruence.
      * apply IH.
        -- intros i Hx. apply HI. right. exact Hx.
        -- intros i q [Hx Hq]. apply (HN i q). split; [right; exact Hx|exact Hq].
        -- intros i Hx. apply G. right. exact Hx.
  - rewrite E. split; [|intros F; exfalso; apply F; reflexivity]. split; [intros _|reflexivity]. apply Exists_exists in B. destruct B as (index & Hin & p & Hp & B). exists index, p. split; [split; assumption|exact B].
Qed.

(** A later object without common cutouts repeats the verdict on the object before it. *)
Theorem stale_picture k f1 f2 pairs index1 index2 i1 i2 j1 j2 o1 o2 q1 q2 a b : k_png k = PngString -> (forall l, k_clip k l = Ok tt) ->
  zget pairs index1 = Some (i1, i2) -> zget pairs index2 = Some (j1, j2) ->
  zget (m_cat f1) i1 = Some o1 -> zget (m_cat f2) i2 = Some o2 -> o_ncut o1 = 1 -> o_ncut o2 = 1 ->
  zget (m_cat f1) j1 = Some q1 -> zget (m_cat f2) j2 = Some q2 -> o_ncut q1 = 0 -> o_ncut q2 = 0 ->
  get_cutout f1 i1 0 TImage = Ok a -> get_cutout f2 i2 0 TImage = Ok b -> nr a = nr b -> nc a = nc b ->
  exists reps ok, compare_images k f1 f2 pairs [index1; index2] TImage = Ok reps /\
    filter is_picture reps = [Picture index1 0 ok; Picture index2 0 ok].
Proof.
  intros PS HC P1 P2 A1 A2 N1 N2 B1 B2 M1 M2 Ea Eb Er Ec. unfold compare_images. cbn [foldM].
  unfold compare_object at 1. rewrite (py_zget _ _ _ P1). cbn [bind]. rewrite (py_zget _ _ _ A1). cbn [bind]. rewrite (py_zget _ _ _ A2). cbn [bind].
  assert (CN : forall n, check_ncutout (k_same_nepoch k) n n = Ok n).
  { intros n. unfold check_ncutout. rewrite Z.eqb_refl, Z.min_id. destruct (k_same_nepoch k); reflexivity. }
  rewrite N1, N2, CN. cbn [bind]. change (zrange 1) with [0]. cbn [foldM]. unfold compare_cutout at 1. rewrite Eb. cbn [bind]. rewrite Ea. cbn [bind].
  unfold compare_rms. assert (SD : shapes_differ a b = false) by (unfold shapes_differ; lia). rewrite SD. cbn [bind fst snd ctype_eqb cs_reports cs_means app].
  unfold draw at 1. rewrite PS. cbn [cs_last cs_reports cs_means bind].
  unfold compare_object. rewrite (py_zget _ _ _ P2). cbn [bind]. rewrite (py_zget _ _ _ B1). cbn [bind]. rewrite (py_zget _ _ _ B2). cbn [bind].
  rewrite M1, M2, CN. cbn [bind]. change (zrange 0) with (@nil Z). cbn [foldM bind ctype_eqb]. unfold draw. rewrite PS. cbn [cs_last cs_reports cs_means bind].
  rewrite HC. cbn [bind cs_reports]. destruct (negb (std_above (k_rms_tol k) (img_diff a b))); eexists; [exists true|exists false]; (split; reflexivity).
Qed.
