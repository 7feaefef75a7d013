(** Lemmas on the comparison of two files. *)
From Coq Require Import Qabs Lia Lqa ZifyBool.
From Verif Require Import Base BaseLemmas Img ImgLemmas Types Reader SpecFile ReadLemmas BoundsM Composite Compare SpecCompare.
From Verif Require CoaddLemmas8 CoaddLemmas7.
Open Scope Z_scope.

Lemma foldM_decide {S X} (g : S -> X -> res S) (good bad : X -> Prop) (e : err) xs s :
  (forall x s, In x xs -> (g s x = Ok s /\ good x) \/ (g s x = Err e /\ bad x)) ->
  (foldM g xs s = Ok s /\ Forall good xs) \/ (foldM g xs s = Err e /\ Exists bad xs).
Proof.
  induction xs as [|x xs IH]; intros H; cbn [foldM].
  - left. split; [reflexivity|constructor].
  - destruct (H x s (or_introl eq_refl)) as [[E G]|[E B]]; rewrite E; cbn [bind].
    + destruct IH as [[E' G']|[E' B']]; [intros y s' Hy; apply H; right; exact Hy|left|right]; split; try exact E'; [constructor|apply Exists_cons_tl]; assumption.
    + right. split; [reflexivity|]. now constructor.
Qed.

Lemma combine_px {A B} (a : img A) (b : img B) x y : img_ok a -> img_ok b -> nr a = nr b -> nc a = nc b ->
  (In (x, y) (combine (dat a) (dat b)) <-> exists r c, px a r c = Some x /\ px b r c = Some y).
Proof.
  intros Ha Hb Er Ec.
  assert (HL : length (dat a) = length (dat b)) by (destruct Ha as (?&?&L1), Hb as (?&?&L2); rewrite Er, Ec in L1; unfold zlen in *; lia).
  split.
  - intros H. apply In_nth_error in H. destruct H as [n Hn].
    assert (Hx : nth_error (dat a) n = Some x /\ nth_error (dat b) n = Some y).
    { revert Hn. generalize (dat a) (dat b). clear. intros l; revert n. induction l as [|u l IH]; intros n l' H; [destruct n; discriminate|].
      destruct l' as [|v l']; [destruct n; discriminate|]. destruct n as [|n]; cbn in *; [injection H as -> ->; auto|]. apply IH. exact H. }
    destruct Hx as [Hx Hy].
    assert (Hn' : 0 <= Z.of_nat n < nr a * nc a).
    { destruct Ha as (_&_&L). assert (n < length (dat a))%nat by (apply nth_error_Some; congruence). unfold zlen in L. lia. }
    destruct Ha as (Ha1 & Ha2 & La).
    destruct (unflat (nr a) (nc a) (Z.of_nat n) Hn' Ha1 Ha2) as (R1 & R2 & R3).
    exists (Z.of_nat n / nc a), (Z.of_nat n mod nc a). unfold px. rewrite <- Er, <- Ec.
    replace (Z.of_nat n / nc a * nc a + Z.of_nat n mod nc a) with (Z.of_nat n) by lia.
    rewrite !zget_nat, Hx, Hy.
    replace ((0 <=? Z.of_nat n / nc a) && (Z.of_nat n / nc a <? nr a) && (0 <=? Z.of_nat n mod nc a) && (Z.of_nat n mod nc a <? nc a)) with true by lia. auto.
  - intros (r & c & Hx & Hy). unfold px in *. rewrite <- Er, <- Ec in Hy.
    destruct ((0 <=? r) && (r <? nr a) && (0 <=? c) && (c <? nc a)) eqn:E; [|discriminate].
    unfold zget in *. destruct (r * nc a + c <? 0); [discriminate|].
    revert Hx Hy. generalize (Z.to_nat (r * nc a + c)) (dat a) (dat b). clear. intros n l; revert n. induction l as [|u l IH]; intros n l' H H'; [destruct n; discriminate|].
    destruct l' as [|v l']; [destruct n; discriminate|]. destruct n as [|n]; cbn in *; [injection H as ->; injection H' as ->; auto|]. right. eapply IH; eassumption.
Qed.

Lemma some_pixel_combine (R : Q -> Q -> Prop) a b : img_ok a -> img_ok b -> nr a = nr b -> nc a = nc b ->
  (some_pixel R a b <-> exists x y, In (x, y) (combine (dat a) (dat b)) /\ R x y).
Proof.
  intros Ha Hb Er Ec. split.
  - intros (r & c & x & y & Hx & Hy & HR). exists x, y. split; [|exact HR]. apply combine_px; eauto.
  - intros (x & y & Hin & HR). apply combine_px in Hin; try assumption. destruct Hin as (r & c & Hx & Hy). exists r, c, x, y. auto.
Qed.

Lemma shapes_differ_iff a b : shapes_differ a b = true <-> ~ (nr a = nr b /\ nc a = nc b).
Proof. unfold shapes_differ. lia. Qed.

Lemma compare_exact_cases a b : img_ok a -> img_ok b ->
  (compare_exact a b = Ok tt /\ (nr a = nr b /\ nc a = nc b) /\ ~ some_pixel (fun x y => ~ (x == y)%Q) a b) \/
  (compare_exact a b = Err ValueError /\ (~ (nr a = nr b /\ nc a = nc b) \/ some_pixel (fun x y => ~ (x == y)%Q) a b)).
Proof.
  intros Ha Hb. unfold compare_exact. destruct (shapes_differ a b) eqn:E.
  - right. split; [reflexivity|]. left. now apply shapes_differ_iff.
  - assert (HS : nr a = nr b /\ nc a = nc b) by (unfold shapes_differ in E; lia).
    destruct HS as [Er Ec]. unfold img_diff. destruct (existsb _ _) eqn:X.
    + right. split; [reflexivity|]. right. apply some_pixel_combine; try assumption.
      apply existsb_exists in X. destruct X as (d & Hd & Hb0). apply in_map_iff in Hd. destruct Hd as ([x y] & <- & Hin).
      exists x, y. split; [exact Hin|]. cbn in Hb0. intros HE. rewrite (proj2 (Qeq_bool_iff _ _)) in Hb0; [discriminate|]. rewrite HE. ring.
    + left. split; [reflexivity|]. split; [auto|]. intros HP. apply some_pixel_combine in HP; try assumption. destruct HP as (x & y & Hin & HN).
      assert (existsb (fun d => negb (Qeq_bool d 0)) (map (fun p => (fst p - snd p)%Q) (combine (dat a) (dat b))) = true); [|congruence].
      apply existsb_exists. exists (x - y)%Q. split; [apply in_map_iff; exists (x, y); auto|].
      apply negb_true_iff. apply not_true_is_false. intros HQ. apply Qeq_bool_iff in HQ. apply HN. lra.
Qed.

(** * One pair of objects *)
Section Pair.
Context (f1 f2 : medsfile) (W1 : file_wf f1) (W2 : file_wf f2) (t : ctype)
  (T1 : exists m, ext_find (m_ext f1) t = Some m) (T2 : exists m, ext_find (m_ext f2) t = Some m).

Lemma wf_cutout f i icut o : file_wf f -> (exists m, ext_find (m_ext f) t = Some m) -> zget (m_cat f) i = Some o -> 0 <= icut < o_ncut o ->
  exists im, get_cutout f i icut t = Ok im /\ img_ok im /\ nr im = o_box o /\ nc im = o_box o.
Proof using Type.
  intros W [m Hm] Ho Hi. destruct (slots_exist f o icut W (zget_In _ _ _ Ho) Hi) as [s Hs].
  destruct (get_cutout_eq f i icut o s t m W) as (xs & _ & E & HL); [split; [exact Ho|split; [exact Hi|exact Hs]]|exact Hm|].
  exists (mkImg (o_box o) (o_box o) xs). split; [exact E|]. split; [|auto].
  destruct W as [W _]. rewrite Forall_forall in W. destruct (W o (zget_In _ _ _ Ho)) as [_ Hb].
  split; [cbn; lia|]. split; [cbn; lia|]. cbn. exact HL.
Qed.

Lemma cutouts_exist p o1 o2 icut : zget (m_cat f1) (fst p) = Some o1 -> zget (m_cat f2) (snd p) = Some o2 ->
  0 <= icut < Z.min (o_ncut o1) (o_ncut o2) ->
  exists im1 im2, cutouts_of f1 f2 t p icut im1 im2 /\ img_ok im1 /\ img_ok im2 /\
    nr im1 = o_box o1 /\ nc im1 = o_box o1 /\ nr im2 = o_box o2 /\ nc im2 = o_box o2.
Proof using W1 W2 T1 T2.
  intros H1 H2 Hi.
  destruct (wf_cutout f1 (fst p) icut o1 W1 T1 H1) as (a & Ea & Oa & Ra & Ca); [lia|].
  destruct (wf_cutout f2 (snd p) icut o2 W2 T2 H2) as (b & Eb & Ob & Rb & Cb); [lia|].
  exists a, b. split; [|auto 10]. exists o1, o2. repeat split; try assumption; lia.
Qed.
End Pair.

Lemma cutouts_det f1 f2 t p icut a b a' b' : cutouts_of f1 f2 t p icut a b -> cutouts_of f1 f2 t p icut a' b' -> a = a' /\ b = b'.
Proof. intros (?&?&?&?&?&?&?&E1&E2) (?&?&?&?&?&?&?&E3&E4). split; congruence. Qed.

Definition exact_bad (same : bool) f1 f2 t p : Prop :=
  count_clash same f1 f2 p \/ shape_differs f1 f2 t p \/ pixel_differs f1 f2 t p.

Lemma counts_decide same f1 f2 p o1 o2 : zget (m_cat f1) (fst p) = Some o1 -> zget (m_cat f2) (snd p) = Some o2 ->
  (check_ncutout same (o_ncut o1) (o_ncut o2) = Err ValueError /\ count_clash same f1 f2 p) \/
  (check_ncutout same (o_ncut o1) (o_ncut o2) = Ok (Z.min (o_ncut o1) (o_ncut o2)) /\ ~ count_clash same f1 f2 p).
Proof.
  intros H1 H2. unfold check_ncutout. destruct same; cbn [negb].
  - destruct (o_ncut o1 =? o_ncut o2) eqn:E; cbn [negb].
    + right. split; [f_equal; lia|]. intros [_ (a & b & Ha & Hb & N)]. rewrite H1 in Ha. rewrite H2 in Hb. injection Ha as <-. injection Hb as <-. lia.
    + left. split; [reflexivity|]. split; [reflexivity|]. exists o1, o2. repeat split; try assumption. lia.
  - right. split; [reflexivity|]. intros [F _]. discriminate.
Qed.

Lemma compare_object_exact k f1 f2 t pairs index p st : file_wf f1 -> file_wf f2 ->
  (exists m, ext_find (m_ext f1) t = Some m) -> (exists m, ext_find (m_ext f2) t = Some m) ->
  t <> TImage -> t <> TWeight -> zget pairs index = Some p ->
  (exists o1 o2, zget (m_cat f1) (fst p) = Some o1 /\ zget (m_cat f2) (snd p) = Some o2 /\ o_id o1 = o_id o2) ->
  (compare_object k f1 f2 t pairs st index = Ok st /\ ~ exact_bad (k_same_nepoch k) f1 f2 t p) \/
  (compare_object k f1 f2 t pairs st index = Err ValueError /\ exact_bad (k_same_nepoch k) f1 f2 t p).
Proof.
  intros W1 W2 T1 T2 NI NW HP (o1 & o2 & H1 & H2 & _). unfold compare_object.
  assert (Z0 : forall A (l : list A) i a, zget l i = Some a -> py_index l i = Ok a).
  { intros A l i a H. assert (0 <= i) by (apply zget_Some_range in H; lia). now apply py_index_ok_nonneg. }
  rewrite (Z0 _ _ _ _ HP). cbn [bind]. destruct p as [i1 i2]. cbn [fst snd] in *.
  rewrite (Z0 _ _ _ _ H1). cbn [bind]. rewrite (Z0 _ _ _ _ H2). cbn [bind].
  destruct (counts_decide (k_same_nepoch k) f1 f2 (i1, i2) o1 o2 H1 H2) as [[E B]|[E G]]; rewrite E; cbn [bind].
  - right. split; [reflexivity|]. left. exact B.
  - set (n := Z.min (o_ncut o1) (o_ncut o2)) in *.
    destruct (foldM_decide (compare_cutout k f1 f2 t index i1 i2)
      (fun icut => forall a b, cutouts_of f1 f2 t (i1, i2) icut a b -> (nr a = nr b /\ nc a = nc b) /\ ~ some_pixel (fun x y => ~ (x == y)%Q) a b)
      (fun icut => exists a b, cutouts_of f1 f2 t (i1, i2) icut a b /\ (~ (nr a = nr b /\ nc a = nc b) \/ some_pixel (fun x y => ~ (x == y)%Q) a b))
      ValueError (zrange n) st) as [[E' G']|[E' B']].
    { intros icut s Hi. apply In_zrange in Hi.
      destruct (cutouts_exist f1 f2 W1 W2 t T1 T2 (i1, i2) o1 o2 icut H1 H2 Hi) as (a & b & C & Oa & Ob & _).
      assert (Ec : compare_cutout k f1 f2 t index i1 i2 s icut = let* _ := compare_exact a b in Ok s).
      { destruct C as (?&?&?&?&?&?&?&E1&E2). cbn [fst snd] in *. unfold compare_cutout. rewrite E2. cbn [bind]. rewrite E1. cbn [bind]. destruct t; try reflexivity; congruence. }
      rewrite Ec. destruct (compare_exact_cases a b Oa Ob) as [(E3 & S & N)|(E3 & B)]; rewrite E3; cbn [bind].
      - left. split; [reflexivity|]. intros a' b' C'. destruct (cutouts_det _ _ _ _ _ _ _ _ _ C C') as [<- <-]. auto.
      - right. split; [reflexivity|]. exists a, b. auto. }
    + rewrite E'. cbn [bind]. replace (ctype_eqb t TImage) with false by (destruct t; try reflexivity; congruence).
      left. split; [reflexivity|]. intros B. rewrite Forall_forall in G'.
      destruct B as [B|[(icut & a & b & C & B)|(icut & a & b & C & B)]]; [exact (G B)| |].
      * assert (In icut (zrange n)). { apply In_zrange. destruct C as (x & y & Hx & Hy & ? & ? & ? & _). cbn [fst snd] in *. rewrite H1 in Hx. rewrite H2 in Hy. injection Hx as <-. injection Hy as <-. lia. }
        destruct (G' icut H a b C) as [S _]. exact (B S).
      * assert (In icut (zrange n)). { apply In_zrange. destruct C as (x & y & Hx & Hy & ? & ? & ? & _). cbn [fst snd] in *. rewrite H1 in Hx. rewrite H2 in Hy. injection Hx as <-. injection Hy as <-. lia. }
        destruct (G' icut H a b C) as [_ S]. exact (S B).
    + rewrite E'. cbn [bind]. right. split; [reflexivity|]. right.
      apply Exists_exists in B'. destruct B' as (icut & _ & a & b & C & [B|B]); [left|right]; exists icut, a, b; auto.
Qed.

Theorem compare_exact_iff k f1 f2 pairs ids t : file_wf f1 -> file_wf f2 ->
  (exists m, ext_find (m_ext f1) t = Some m) -> (exists m, ext_find (m_ext f2) t = Some m) ->
  t <> TImage -> t <> TWeight -> pairs_of f1 f2 pairs -> Forall (fun i => 0 <= i < zlen pairs) ids ->
  (compare_images k f1 f2 pairs ids t = Ok [] \/ compare_images k f1 f2 pairs ids t = Err ValueError) /\
  (compare_images k f1 f2 pairs ids t = Err ValueError <->
   exists index p, looked_at pairs ids index p /\
     (count_clash (k_same_nepoch k) f1 f2 p \/ shape_differs f1 f2 t p \/ pixel_differs f1 f2 t p)).
Proof.
  intros W1 W2 T1 T2 NI NW HP HI. unfold compare_images.
  destruct (foldM_decide (compare_object k f1 f2 t pairs)
    (fun index => forall p, zget pairs index = Some p -> ~ exact_bad (k_same_nepoch k) f1 f2 t p)
    (fun index => exists p, zget pairs index = Some p /\ exact_bad (k_same_nepoch k) f1 f2 t p) ValueError ids (mkCstate [] [] None)) as [[E G]|[E B]].
  { intros index s Hin. rewrite Forall_forall in HI. destruct (zget_range_Some pairs index (HI _ Hin)) as [p Hp].
    unfold pairs_of in HP. rewrite Forall_forall in HP. pose proof (HP p (zget_In _ _ _ Hp)) as Ho.
    destruct (compare_object_exact k f1 f2 t pairs index p s W1 W2 T1 T2 NI NW Hp Ho) as [[E G]|[E B]]; [left|right].
    - split; [exact E|]. intros p' Hp'. rewrite Hp in Hp'. injection Hp' as <-. exact G.
    - split; [exact E|]. exists p. auto. }
  - rewrite E. cbn [bind]. replace (ctype_eqb t TImage) with false by (destruct t; try reflexivity; congruence). cbn [cs_reports].
    split; [left; reflexivity|]. split; [discriminate|]. intros (index & p & [Hin Hp] & B). rewrite Forall_forall in G. exfalso. exact (G index Hin p Hp B).
  - rewrite E. cbn [bind]. split; [right; reflexivity|]. split; [|reflexivity]. intros _.
    apply Exists_exists in B. destruct B as (index & Hin & p & Hp & B). exists index, p. split; [split; assumption|exact B].
Qed.
