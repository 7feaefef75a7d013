(** Comparison of a file with itself; the whole comparison [go]. *)
From Coq Require Import Qabs Lia Lqa ZifyBool Field.
From Verif Require Import Base BaseLemmas Img ImgLemmas Types Reader SpecFile ReadLemmas BoundsM Composite Compare SpecCompare CompareLemmas CompareLemmas2.
From Verif Require CoaddLemmas8 CoaddLemmas7.
Open Scope Z_scope.

Lemma zget_nth {A} (l : list A) i a : zget l i = Some a -> nth_error l (Z.to_nat i) = Some a /\ 0 <= i.
Proof. unfold zget. destruct (i <? 0) eqn:E; [discriminate|]. intros H. split; [exact H|lia]. Qed.

Lemma self_pairs f pairs : NoDup (map o_id (m_cat f)) -> pairs_of f f pairs -> Forall (fun p => fst p = snd p) pairs.
Proof.
  intros N H. unfold pairs_of in H. rewrite Forall_forall in *. intros p Hp. destruct (H p Hp) as (o1 & o2 & H1 & H2 & E).
  apply zget_nth in H1, H2. destruct H1 as [H1 P1], H2 as [H2 P2].
  assert (Z.to_nat (fst p) = Z.to_nat (snd p)); [|lia].
  apply (proj1 (NoDup_nth_error (map o_id (m_cat f))) N).
  - rewrite map_length. apply nth_error_Some. congruence.
  - rewrite !nth_error_map, H1, H2. cbn. congruence.
Qed.

Lemma img_diff_self a d : In d (img_diff a a) -> (d == 0)%Q.
Proof.
  unfold img_diff. rewrite in_map_iff. intros ([x y] & <- & H). assert (x = y). { revert H. generalize (dat a). induction l as [|u l IH]; cbn; [tauto|]. intros [E|E]; [congruence|auto]. }
  subst. cbn. ring.
Qed.

Lemma self_sums a : (qsum (img_diff a a) == 0 /\ sq_sum (img_diff a a) == 0)%Q.
Proof.
  assert (H : forall l, (forall d, In d l -> (d == 0)%Q) -> (qsum l == 0 /\ sq_sum l == 0)%Q).
  { induction l as [|d l IH]; intros H; [split; reflexivity|]. destruct IH as [I1 I2]; [intros x Hx; apply H; right; exact Hx|].
    assert (Hd : (d == 0)%Q) by (apply H; left; reflexivity). unfold qsum, sq_sum in *. cbn [fold_right]. rewrite I1, I2, Hd. split; ring. }
  apply H, img_diff_self.
Qed.

Theorem compare_self k f pairs ids t : file_wf f -> has_types f [t] -> NoDup (map o_id (m_cat f)) -> pairs_of f f pairs ->
  Forall (fun i => 0 <= i < zlen pairs) ids ->
  (t = TImage -> k_png k = PngNone /\ (forall l, k_clip k l = Ok tt) /\ (0 <= k_rms_tol k)%Q) -> (0 < k_weight_tol k)%Q ->
  compare_images k f f pairs ids t = Ok [].
Proof.
  intros W T N HP HI HT Hw. pose proof (self_pairs f pairs N HP) as HS. rewrite Forall_forall in HS.
  assert (T' := T t (or_introl eq_refl)).
  assert (HC : forall index p icut a b, looked_at pairs ids index p -> cutouts_of f f t p icut a b -> a = b).
  { intros index p icut a b [_ Hp] (?&?&?&?&?&?&?&Ea&Eb). rewrite (HS p (zget_In _ _ _ Hp)) in Ea. congruence. }
  assert (HB : forall index p, looked_at pairs ids index p -> ~ (count_clash (k_same_nepoch k) f f p \/ shape_differs f f t p)).
  { intros index p L [[_ (o1 & o2 & H1 & H2 & D)]|(icut & a & b & C & D)].
    - destruct L as [_ Hp]. rewrite (HS p (zget_In _ _ _ Hp)) in H1. congruence.
    - rewrite (HC index p icut a b L C) in D. tauto. }
  assert (HE : forall r, t = TWeight -> ~ weight_report (k_weight_tol k) f f pairs ids r).
  { intros r -> (index & p & icut & a & b & n & L & C & _ & Hn & (pos & _ & Lp & Hpos)). rewrite <- (HC index p icut a b L C) in Hpos.
    destruct pos as [|[r0 c0] pos]; [cbn in Lp; subst n; lia|]. destruct (proj1 (Hpos r0 c0) (or_introl eq_refl)) as (x & y & Hx & Hy & B).
    rewrite Hx in Hy. injection Hy as <-. assert (Hz : (x - x == 0)%Q) by ring. rewrite Hz in B. cbn in B. lra. }
  assert (HR : forall r, t = TImage -> ~ rms_report (k_rms_tol k) f f pairs ids r).
  { intros r -> (index & p & icut & a & b & L & C & _ & B). rewrite <- (HC index p icut a b L C) in B. unfold rms_above in B.
    fold (img_diff a a) in B. fold (qsum (img_diff a a)) in B. fold (sq_sum (img_diff a a)) in B. destruct (self_sums a) as [S1 S2]. rewrite S1, S2 in B.
    set (m := inject_Z (nr a * nc a)) in B. assert (0 <= (k_rms_tol k * k_rms_tol k) * (m * m))%Q. { apply Qmult_le_0_compat; [|]; [generalize (k_rms_tol k)|generalize m]; intros q; nra. } lra. }
  assert (NIL : forall (l : list report), (forall r, ~ In r l) -> l = []) by (intros [|r l] H; [reflexivity|exfalso; apply (H r); left; reflexivity]).
  destruct (ctype_eqb t TImage) eqn:EI; [assert (t = TImage) by (destruct t; try discriminate; reflexivity)|].
  - subst t. destruct (HT eq_refl) as (PN & CL & TL).
    destruct (compare_rms_reports k f f pairs ids W W T T HP HI PN CL TL) as [E R].
    destruct R as (reps & Er & HIn). { intros F. apply E in F. destruct F as (index & p & L & B). exact (HB index p L B). }
    rewrite Er. f_equal. apply NIL. intros r Hr. apply HIn in Hr. exact (HR r eq_refl Hr).
  - destruct (ctype_eqb t TWeight) eqn:EW; [assert (t = TWeight) by (destruct t; try discriminate; reflexivity)|].
    + subst t. destruct (compare_weight_reports k f f pairs ids W W T T HP HI) as [E R].
      destruct R as (reps & Er & HIn). { intros F. apply E in F. destruct F as (index & p & L & B). exact (HB index p L B). }
      rewrite Er. f_equal. apply NIL. intros r Hr. apply HIn in Hr. exact (HE r eq_refl Hr).
    + destruct (compare_exact_iff k f f pairs ids t W W T' T') as [[E|E] I]; try assumption; [intros ->; discriminate|intros ->; discriminate|].
      apply I in E. destruct E as (index & p & L & [B|[B|(icut & a & b & C & r & c & x & y & Hx & Hy & D)]]); [exfalso; apply (HB index p L); auto|exfalso; apply (HB index p L); auto|].
      rewrite (HC index p icut a b L C) in Hx. exfalso. apply D. rewrite Hx in Hy. injection Hy as <-. reflexivity.
Qed.

(** * [go] *)
Lemma images_false_never k f1 f2 pairs ids reps : k_png k = PngFalse -> compare_images k f1 f2 pairs ids TImage <> Ok reps.
Proof.
  intros PF. unfold compare_images. destruct (foldM _ ids _) as [st|]; cbn [bind ctype_eqb]; [|discriminate].
  destruct (k_clip k _); cbn [bind]; [|discriminate]. rewrite PF. discriminate.
Qed.

Theorem go_false_never k mi sub f1 f2 nrand reps : k_png k = PngFalse -> go k mi sub f1 f2 nrand <> Ok reps.
Proof.
  intros PF. unfold go. destruct (_ =? 0); [discriminate|]. destruct (compare_object_data f1 f2); cbn [bind]; [|discriminate].
  cbn [mapM]. destruct (compare_images k f1 f2 _ _ TImage) as [r|] eqn:E; cbn [bind]; [|discriminate].
  exfalso. exact (images_false_never _ _ _ _ _ _ PF E).
Qed.

Theorem go_default_refuted : forall clip mi sub f1 f2 nrand, ~ exists reps, go (default_comparator clip) mi sub f1 f2 nrand = Ok reps.
Proof. intros clip mi sub f1 f2 nrand [reps H]. exact (go_false_never (default_comparator clip) mi sub f1 f2 nrand reps eq_refl H). Qed.

Lemma matcher_pairs mi f1 f2 : matcher mi -> pairs_of f1 f2 (mi (map o_id (m_cat f1)) (map o_id (m_cat f2))).
Proof.
  intros M. specialize (M (map o_id (m_cat f1)) (map o_id (m_cat f2))). unfold pairs_of. eapply Forall_impl; [|exact M].
  intros p (v & H1 & H2). rewrite zget_map in H1, H2. destruct (zget (m_cat f1) _) as [o1|]; [|discriminate]. destruct (zget (m_cat f2) _) as [o2|]; [|discriminate].
  exists o1, o2. cbn in *. repeat split; congruence.
Qed.

Theorem go_completes k mi sub f1 f2 nrand : file_wf f1 -> file_wf f2 ->
  has_types f1 [TImage; TWeight; TBmask; TSeg] -> has_types f2 [TImage; TWeight; TBmask; TSeg] -> same_columns f1 f2 ->
  matcher mi -> valid_subset sub -> k_png k = PngNone -> (forall l, k_clip k l = Ok tt) -> (0 <= k_rms_tol k)%Q ->
  let pairs := mi (map o_id (m_cat f1)) (map o_id (m_cat f2)) in
  pairs <> [] ->
  (forall p, In p pairs -> ~ count_clash (k_same_nepoch k) f1 f2 p /\
     (forall t, In t [TImage; TWeight; TBmask; TSeg] -> ~ shape_differs f1 f2 t p) /\
     (forall t, In t [TBmask; TSeg] -> ~ pixel_differs f1 f2 t p)) ->
  exists reps, go k mi sub f1 f2 nrand = Ok reps.
Proof.
  intros W1 W2 T1 T2 [C1 C2] M V PN CL TL pairs NE HP.
  pose proof (matcher_pairs mi f1 f2 M) as PO. fold pairs in PO. unfold go. fold pairs.
  replace (zlen pairs =? 0) with false by (destruct pairs; [congruence|rewrite zlen_cons; pose proof (zlen_nonneg pairs); lia]).
  unfold compare_object_data. rewrite C1, C2, eqb_reflx. replace (psf_cols_eqb (m_psf_cols f2) (m_psf_cols f2)) with true by (destruct (m_psf_cols f2); reflexivity).
  cbn [andb bind].
  match goal with |- exists reps, (let* l := mapM ?g ?l in _) = _ => destruct (CoaddLemmas8.mapM_total g l) as [ys E] end; [|rewrite E; cbn [bind]; eexists; reflexivity].
  intros t Ht. set (ids := match nrand with Some n => _ | None => _ end).
  assert (HI : Forall (fun i => 0 <= i < zlen pairs) ids).
  { unfold ids. destruct nrand; [apply V|]. apply Forall_forall. intros i Hi. apply In_zrange in Hi. exact Hi. }
  assert (HL : forall index p, looked_at pairs ids index p -> In p pairs) by (intros index p [_ H]; exact (zget_In _ _ _ H)).
  assert (S1 : has_types f1 [t]) by (intros u [<-|[]]; apply T1, Ht). assert (S2 : has_types f2 [t]) by (intros u [<-|[]]; apply T2, Ht).
  assert (SB : forall index p, looked_at pairs ids index p -> ~ (count_clash (k_same_nepoch k) f1 f2 p \/ shape_differs f1 f2 t p)).
  { intros index p L [B|B]; destruct (HP p (HL _ _ L)) as (D1 & D2 & _); [exact (D1 B)|exact (D2 t Ht B)]. }
  cbn in Ht.
  assert (HT : t = TImage \/ t = TWeight \/ (t = TBmask \/ t = TSeg)) by (destruct Ht as [<-|[<-|[<-|[<-|[]]]]]; auto).
  destruct HT as [->|[->|HT]].
  - destruct (compare_rms_reports k f1 f2 pairs ids W1 W2 S1 S2 PO HI PN CL TL) as [E R].
    destruct R as (reps & Er & _). { intros F. apply E in F. destruct F as (index & p & L & B). exact (SB index p L B). } eexists; exact Er.
  - destruct (compare_weight_reports k f1 f2 pairs ids W1 W2 S1 S2 PO HI) as [E R].
    destruct R as (reps & Er & _). { intros F. apply E in F. destruct F as (index & p & L & B). exact (SB index p L B). } eexists; exact Er.
  - destruct (compare_exact_iff k f1 f2 pairs ids t W1 W2 (S1 t (or_introl eq_refl)) (S2 t (or_introl eq_refl))) as [[E|E] I]; try assumption; [destruct HT; congruence|destruct HT; congruence|eexists; exact E|].
    apply I in E. destruct E as (index & p & L & [B|[B|B]]); [exfalso; apply (SB index p L); auto|exfalso; apply (SB index p L); auto|].
    exfalso. destruct (HP p (HL _ _ L)) as (_ & _ & D). apply (D t); [destruct HT as [->| ->]; cbn; auto|exact B].
Qed.

(** Objects without cutouts when pictures are wanted. *)
Theorem picture_of_empty k f1 f2 pairs i1 i2 o1 o2 index ids : k_png k <> PngNone ->
  zget pairs index = Some (i1, i2) -> zget (m_cat f1) i1 = Some o1 -> zget (m_cat f2) i2 = Some o2 -> o_ncut o1 = 0 -> o_ncut o2 = 0 ->
  compare_images k f1 f2 pairs (index :: ids) TImage = Err UnboundLocalError.
Proof.
  intros PN HP H1 H2 E1 E2. unfold compare_images. cbn [foldM]. unfold compare_object at 1. rewrite (py_zget _ _ _ HP). cbn [bind].
  rewrite (py_zget _ _ _ H1). cbn [bind]. rewrite (py_zget _ _ _ H2). cbn [bind]. rewrite E1, E2.
  replace (check_ncutout (k_same_nepoch k) 0 0) with (Ok (A:=Z) 0) by (unfold check_ncutout; destruct (k_same_nepoch k); reflexivity).
  cbn [bind]. change (zrange 0) with (@nil Z). cbn [foldM bind ctype_eqb]. unfold draw. cbn [cs_last]. destruct (k_png k); [congruence|reflexivity|reflexivity].
Qed.
