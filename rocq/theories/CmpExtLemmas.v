(** Comparison of files extracted from one file. *)
From Coq Require Import Qabs Lia ZifyBool Lqa.
From Verif Require Import Base BaseLemmas Img ImgLemmas Types Reader SpecFile ReadLemmas BoundsM Composite Extract SpecTiles SpecExtract SpecChain
  Compare SpecCompare Scripts CompareLemmas CompareLemmas2 CompareLemmas3 ChainLemmas.
Open Scope Z_scope.

Lemma std_self tol im : (0 <= tol)%Q -> std_above tol (img_diff im im) = false.
Proof.
  intros T. unfold std_above. apply orb_false_intro.
  - destruct (qltb tol 0) eqn:E; [apply qltb_iff in E; lra|reflexivity].
  - destruct (qltb (tol * tol) (qvar (img_diff im im))) eqn:E; [|reflexivity]. exfalso. apply qltb_iff in E.
    assert (V : (qvar (img_diff im im) == 0)%Q).
    { assert (Z : forall l : list Q, (forall d, In d l -> (d == 0)%Q) -> (qsum l == 0)%Q).
      { induction l as [|d l IH]; intros H; [reflexivity|]. unfold qsum in *. cbn [fold_right]. rewrite (H d (or_introl eq_refl)), IH by (intros x X; apply H; right; exact X). reflexivity. }
      assert (M : (qmean (img_diff im im) == 0)%Q) by (unfold qmean; rewrite Z by (apply img_diff_self); unfold Qdiv; ring).
      unfold qvar. unfold qmean at 1. rewrite Z; [unfold Qdiv; ring|]. intros d D. apply in_map_iff in D. destruct D as (x & <- & X). rewrite (img_diff_self _ _ X), M. ring. }
    rewrite V in E. assert (0 <= tol * tol)%Q by (apply Qmult_le_0_compat; exact T). lra.
Qed.
Lemma shapes_self im : shapes_differ im im = false.
Proof. unfold shapes_differ. rewrite !Z.eqb_refl. reflexivity. Qed.
Lemma filter_none {A} (p : A -> bool) l : (forall x, In x l -> p x = false) -> filter p l = [].
Proof. induction l as [|a l IH]; intros H; [reflexivity|]. cbn [filter]. rewrite (H a (or_introl eq_refl)). apply IH. intros x I. apply H. right. exact I. Qed.
Lemma exists_none {A} (p : A -> bool) l : (forall x, In x l -> p x = false) -> existsb p l = false.
Proof. induction l as [|a l IH]; intros H; [reflexivity|]. cbn [existsb]. rewrite (H a (or_introl eq_refl)). apply IH. intros x I. apply H. right. exact I. Qed.

Section Pair.
Variables (k : comparator) (f1 f2 : medsfile).
Hypothesis PN : k_png k = PngNone.
Hypothesis CL : forall l, k_clip k l = Ok tt.
Hypothesis RT : (0 <= k_rms_tol k)%Q.
Hypothesis WT : (0 < k_weight_tol k)%Q.

Lemma cutout_same t index i1 i2 st icut im : get_cutout f1 i1 icut t = Ok im -> get_cutout f2 i2 icut t = Ok im -> cs_reports st = [] ->
  exists st', compare_cutout k f1 f2 t index i1 i2 st icut = Ok st' /\ cs_reports st' = [].
Proof.
  intros G1 G2 R. unfold compare_cutout. rewrite G2. cbn [bind]. rewrite G1. cbn [bind]. destruct t.
  - unfold compare_rms. rewrite shapes_self, (std_self _ _ RT). cbn [bind fst snd negb]. eexists. split; [reflexivity|]. cbn [cs_reports]. rewrite R. reflexivity.
  - unfold compare_weights. rewrite shapes_self, filter_none.
    + cbn [bind]. eexists. split; [reflexivity|]. cbn [cs_reports]. rewrite R. reflexivity.
    + intros d D. apply img_diff_self in D. assert (X : qltb (Qabs d) (k_weight_tol k) = true) by (apply qltb_iff; rewrite D; cbn; exact WT). rewrite X. reflexivity.
  - unfold compare_exact. rewrite shapes_self, exists_none; [cbn [bind]; eexists; split; [reflexivity|exact R]|].
    intros d D. apply img_diff_self in D. apply Qeq_bool_iff in D. rewrite D. reflexivity.
  - unfold compare_exact. rewrite shapes_self, exists_none; [cbn [bind]; eexists; split; [reflexivity|exact R]|].
    intros d D. apply img_diff_self in D. apply Qeq_bool_iff in D. rewrite D. reflexivity.
  - unfold compare_exact. rewrite shapes_self, exists_none; [cbn [bind]; eexists; split; [reflexivity|exact R]|].
    intros d D. apply img_diff_self in D. apply Qeq_bool_iff in D. rewrite D. reflexivity.
  - unfold compare_exact. rewrite shapes_self, exists_none; [cbn [bind]; eexists; split; [reflexivity|exact R]|].
    intros d D. apply img_diff_self in D. apply Qeq_bool_iff in D. rewrite D. reflexivity.
Qed.

Lemma fold_keeps {S X} (P : S -> Prop) (g : S -> X -> res S) l : (forall s x, In x l -> P s -> exists s', g s x = Ok s' /\ P s') ->
  forall s, P s -> exists s', foldM g l s = Ok s' /\ P s'.
Proof.
  induction l as [|x l IH]; intros H s Ps; [exists s; split; [reflexivity|exact Ps]|]. cbn [foldM].
  destruct (H s x (or_introl eq_refl) Ps) as (s1 & E & P1). rewrite E. cbn [bind]. apply IH; [intros s2 y I; apply H; right; exact I|exact P1].
Qed.

(** The pair is one object. *)
Definition one_object (p : Z * Z) : Prop := exists o1 o2, zget (m_cat f1) (fst p) = Some o1 /\ zget (m_cat f2) (snd p) = Some o2 /\ o_ncut o1 = o_ncut o2 /\
  forall t c, In t [TImage; TWeight; TBmask; TSeg] -> 0 <= c < o_ncut o1 -> exists im, get_cutout f1 (fst p) c t = Ok im /\ get_cutout f2 (snd p) c t = Ok im.

Lemma images_same pairs ids t : Forall one_object pairs -> Forall (fun i => 0 <= i < zlen pairs) ids -> In t [TImage; TWeight; TBmask; TSeg] ->
  compare_images k f1 f2 pairs ids t = Ok [].
Proof.
  intros HP HI T. unfold compare_images.
  destruct (fold_keeps (fun st => cs_reports st = []) (compare_object k f1 f2 t pairs) ids) with (s := mkCstate [] [] None) as (st & E & R).
  - intros st index I R. rewrite Forall_forall in HI. destruct (zget_range_Some pairs index (HI index I)) as ([i1 i2] & Zp).
    unfold compare_object. rewrite (py_zget _ _ _ Zp). cbn [bind]. rewrite Forall_forall in HP. destruct (HP _ (zget_In _ _ _ Zp)) as (o1 & o2 & Z1 & Z2 & N & G). cbn [fst snd] in *.
    rewrite (py_zget _ _ _ Z1). cbn [bind]. rewrite (py_zget _ _ _ Z2). cbn [bind].
    assert (CN : check_ncutout (k_same_nepoch k) (o_ncut o1) (o_ncut o2) = Ok (o_ncut o1)).
    { unfold check_ncutout. rewrite <- N, Z.eqb_refl, Z.min_id. destruct (k_same_nepoch k); reflexivity. }
    rewrite CN. cbn [bind].
    destruct (fold_keeps (fun st => cs_reports st = []) (compare_cutout k f1 f2 t index i1 i2) (zrange (o_ncut o1))) with (s := st) as (st' & E & R'); [|exact R|].
    + intros s c C Rs. apply In_zrange in C. destruct (G t c T C) as (im & G1 & G2). apply (cutout_same t index i1 i2 s c im G1 G2 Rs).
    + rewrite E. cbn [bind]. exists st'. split; [|exact R']. unfold draw. rewrite PN. destruct (ctype_eqb t TImage); reflexivity.
  - reflexivity.
  - rewrite E. cbn [bind]. rewrite CL, PN, R. cbn [bind]. destruct (ctype_eqb t TImage); reflexivity.
Qed.

Lemma go_same mi sub nrand : matcher mi -> valid_subset sub -> same_columns f1 f2 ->
  (forall i j o p, zget (m_cat f1) i = Some o -> zget (m_cat f2) j = Some p -> o_id o = o_id p -> one_object (i, j)) ->
  mi (map o_id (m_cat f1)) (map o_id (m_cat f2)) <> [] -> go k mi sub f1 f2 nrand = Ok [].
Proof.
  intros M V (C1 & C2) H NE. pose proof (matcher_pairs mi f1 f2 M) as PO. unfold go. set (pairs := mi _ _) in *.
  replace (zlen pairs =? 0) with false by (destruct pairs; [congruence|rewrite zlen_cons; pose proof (zlen_nonneg pairs); lia]).
  unfold compare_object_data. rewrite C1, C2, eqb_reflx. replace (psf_cols_eqb (m_psf_cols f2) (m_psf_cols f2)) with true by (destruct (m_psf_cols f2); reflexivity).
  cbn [andb bind].
  assert (P1 : Forall one_object pairs).
  { eapply Forall_impl; [|exact PO]. intros [i j] (o1 & o2 & Z1 & Z2 & E). apply (H i j o1 o2); assumption. }
  assert (HI : forall t, Forall (fun i => 0 <= i < zlen pairs) (match nrand with Some n => sub t (zlen pairs) (Z.min n (zlen pairs)) | None => zrange (zlen pairs) end)).
  { intros t. destruct nrand; [apply V|]. apply Forall_forall. intros i Hi. apply In_zrange in Hi. exact Hi. }
  cbn [mapM]. rewrite !images_same by (try exact P1; try apply HI; cbn; tauto). reflexivity.
Qed.
End Pair.

(** * Extracted files *)
Lemma derived_columns f g : derived f g -> m_number_col g = m_number_col f /\ m_psf_cols g = m_psf_cols f.
Proof.
  assert (R : forall f a b g, extract_range false f a b = Ok g -> m_number_col g = m_number_col f /\ m_psf_cols g = m_psf_cols f).
  { clear. intros f a b g H. unfold extract_range in H. apply bind_ok in H. destruct H as (objs & _ & H). apply bind_ok in H. destruct H as ([cs ce] & _ & H).
    apply bind_ok in H. destruct H as ([ps pe] & _ & H). destruct (cs =? -1); [injection H as <-; split; reflexivity|].
    do 6 (apply bind_ok in H; destruct H as (? & _ & H)). injection H as <-. split; reflexivity. }
  assert (N : forall order f ns g, extract_numbers order f ns = Ok g -> m_number_col g = m_number_col f /\ m_psf_cols g = m_psf_cols f).
  { clear. intros order f ns g H. unfold extract_numbers in H. apply bind_ok in H. destruct H as (inds & _ & H). apply bind_ok in H. destruct H as (objs & _ & H).
    apply bind_ok in H. destruct H as (rs & _ & H). apply bind_ok in H. destruct H as (none & _ & H). apply bind_ok in H. destruct H as (objs' & _ & H).
    apply bind_ok in H. destruct H as ([pr objs2] & _ & H). destruct none; [injection H as <-; split; reflexivity|].
    do 5 (apply bind_ok in H; destruct H as (? & _ & H)). injection H as <-. split; reflexivity. }
  induction 1 as [|g h a b D IH E|g h order ns D IH _ _ E]; [split; reflexivity| |].
  - destruct (R _ _ _ _ E) as (-> & ->). exact IH.
  - destruct (N _ _ _ _ E) as (-> & ->). exact IH.
Qed.

Lemma same_row o o' : same_but_starts o o' -> o_id o' = o_id o /\ o_ncut o' = o_ncut o.
Proof. intros (-> & _). split; reflexivity. Qed.

Lemma derived_one f g h i j o p : extractable f -> NoDup (map o_id (m_cat f)) -> derived f g -> derived f h ->
  zget (m_cat g) i = Some o -> zget (m_cat h) j = Some p -> o_id o = o_id p -> one_object g h (i, j).
Proof.
  intros E ND D1 D2 Z1 Z2 ID. destruct (chain_object f g i o E D1 Z1) as (a & x & Za & _ & (o1 & o1' & A1 & A2 & A3) & A4 & _).
  destruct (chain_object f h j p E D2 Z2) as (b & y & Zb & _ & (p1 & p1' & B1 & B2 & B3) & B4 & _).
  rewrite Z1 in A2. injection A2 as <-. rewrite Z2 in B2. injection B2 as <-. destruct (same_row _ _ A3) as (IA & NA). destruct (same_row _ _ B3) as (IB & NB).
  assert (AB : a = b).
  { apply zget_nth in A1, B1. destruct A1 as (A1 & P1), B1 as (B1 & P2). assert (Z.to_nat a = Z.to_nat b); [|lia].
    apply (proj1 (NoDup_nth_error (map o_id (m_cat f))) ND); [rewrite map_length; apply nth_error_Some; congruence|]. rewrite !nth_error_map, A1, B1. cbn. congruence. }
  subst b. rewrite A1 in B1. injection B1 as <-. exists o, p. cbn [fst snd]. split; [exact Z1|]. split; [exact Z2|]. split; [congruence|].
  intros t c T C. assert (TT : t = TImage \/ t = TWeight \/ t = TSeg \/ t = TBmask) by (cbn in T; intuition congruence).
  destruct E as (W & _ & _ & H1 & H2 & H3 & H4 & _).
  assert (HX : exists m, ext_find (m_ext f) t = Some m) by (destruct TT as [->|[->|[->| ->]]]; assumption).
  destruct (wf_cutout t f a c o1 W HX A1 ltac:(lia)) as (im & G & _). exists im.
  rewrite (A4 t TT c ltac:(lia)), (B4 t TT c ltac:(lia)). split; exact G.
Qed.

Theorem derived_compare k mi sub f g h nrand : extractable f -> NoDup (map o_id (m_cat f)) -> derived f g -> derived f h ->
  matcher mi -> valid_subset sub -> k_png k = PngNone -> (forall l, k_clip k l = Ok tt) -> (0 <= k_rms_tol k)%Q -> (0 < k_weight_tol k)%Q ->
  mi (map o_id (m_cat g)) (map o_id (m_cat h)) <> [] -> go k mi sub g h nrand = Ok [].
Proof.
  intros E ND D1 D2 M V PN CL RT WT NE. apply go_same; try assumption.
  - destruct (derived_columns _ _ D1) as (N1 & P1). destruct (derived_columns _ _ D2) as (N2 & P2). split; congruence.
  - intros i j o p Z1 Z2 ID. apply (derived_one f g h i j o p); assumption.
Qed.

Theorem derived_status {M} (resolve : String.string -> Z) clip mi sub args (d : disk M) f g h m1 m2 :
  (forall l, clip l = Ok tt) -> matcher mi -> valid_subset sub -> extractable f -> NoDup (map o_id (m_cat f)) -> derived f g -> derived f h ->
  d (resolve (a_file1 args)) = Present g m1 -> d (resolve (a_file2 args)) = Present h m2 -> (0 <= a_rms_tol args)%Q -> a_png args = false ->
  mi (map o_id (m_cat g)) (map o_id (m_cat h)) <> [] -> compare_main resolve clip mi sub args d = 0.
Proof.
  intros CL MI V E ND D1 D2 F1 F2 RT PN NE. unfold compare_main. rewrite F1, F2, PN.
  rewrite (derived_compare _ mi sub f g h (a_nrand args) E ND D1 D2 MI V); [reflexivity|reflexivity|exact CL|exact RT|reflexivity|exact NE].
Qed.
