(** Property theorems on the comparison of files: C60, C61, C72. *)
From Coq Require Import Qabs.
From Verif Require Import Base Img Types Reader SpecFile BoundsM Composite Compare SpecCompare ExampleData ExampleCompare.
From Verif Require CompareLemmas CompareLemmas2 CompareLemmas3 CompareLemmas4.
Open Scope Z_scope.

(** * C60 *)
Theorem C60_exact_types : forall k f1 f2 pairs ids t, file_wf f1 -> file_wf f2 ->
  (exists m, ext_find (m_ext f1) t = Some m) -> (exists m, ext_find (m_ext f2) t = Some m) ->
  t <> TImage -> t <> TWeight -> pairs_of f1 f2 pairs -> Forall (fun i => 0 <= i < zlen pairs) ids ->
  (compare_images k f1 f2 pairs ids t = Ok [] \/ compare_images k f1 f2 pairs ids t = Err ValueError) /\
  (compare_images k f1 f2 pairs ids t = Err ValueError <->
   exists index p, looked_at pairs ids index p /\
     (count_clash (k_same_nepoch k) f1 f2 p \/ shape_differs f1 f2 t p \/ pixel_differs f1 f2 t p)).
Proof. exact CompareLemmas.compare_exact_iff. Qed.
Print Assumptions C60_exact_types.

Theorem C60_weights_only_reported : forall k f1 f2 pairs ids, file_wf f1 -> file_wf f2 ->
  has_types f1 [TWeight] -> has_types f2 [TWeight] -> pairs_of f1 f2 pairs -> Forall (fun i => 0 <= i < zlen pairs) ids ->
  (compare_images k f1 f2 pairs ids TWeight = Err ValueError <->
     exists index p, looked_at pairs ids index p /\ (count_clash (k_same_nepoch k) f1 f2 p \/ shape_differs f1 f2 TWeight p)) /\
  (compare_images k f1 f2 pairs ids TWeight <> Err ValueError ->
     exists reps, compare_images k f1 f2 pairs ids TWeight = Ok reps /\
       forall r, In r reps <-> weight_report (k_weight_tol k) f1 f2 pairs ids r).
Proof. exact CompareLemmas2.compare_weight_reports. Qed.
Print Assumptions C60_weights_only_reported.

Theorem C60_images_only_reported : forall k f1 f2 pairs ids, file_wf f1 -> file_wf f2 ->
  has_types f1 [TImage] -> has_types f2 [TImage] -> pairs_of f1 f2 pairs -> Forall (fun i => 0 <= i < zlen pairs) ids ->
  k_png k = PngNone -> (forall l, k_clip k l = Ok tt) -> (0 <= k_rms_tol k)%Q ->
  (compare_images k f1 f2 pairs ids TImage = Err ValueError <->
     exists index p, looked_at pairs ids index p /\ (count_clash (k_same_nepoch k) f1 f2 p \/ shape_differs f1 f2 TImage p)) /\
  (compare_images k f1 f2 pairs ids TImage <> Err ValueError ->
     exists reps, compare_images k f1 f2 pairs ids TImage = Ok reps /\
       forall r, In r reps <-> rms_report (k_rms_tol k) f1 f2 pairs ids r).
Proof. exact CompareLemmas2.compare_rms_reports. Qed.
Print Assumptions C60_images_only_reported.

Theorem C60_self : forall k f pairs ids t, file_wf f -> has_types f [t] -> NoDup (map o_id (m_cat f)) -> pairs_of f f pairs ->
  Forall (fun i => 0 <= i < zlen pairs) ids ->
  (t = TImage -> k_png k = PngNone /\ (forall l, k_clip k l = Ok tt) /\ (0 <= k_rms_tol k)%Q) -> (0 < k_weight_tol k)%Q ->
  compare_images k f f pairs ids t = Ok [].
Proof. exact CompareLemmas3.compare_self. Qed.
Print Assumptions C60_self.

(** Both files are readable; a difference in the last object only is found when
    that object is looked at. *)
Example C60_example : forall d, file_wf (ex_cmp d) /\ has_types (ex_cmp d) [TImage; TWeight; TBmask; TSeg] /\
  NoDup (map o_id (m_cat (ex_cmp d))) /\ pairs_of (ex_cmp ex_ones) (ex_cmp d) ex_pairs /\ pairs_of (ex_cmp d) (ex_cmp d) ex_pairs /\
  compare_images (ex_comp PngFalse) (ex_cmp ex_ones) (ex_cmp (ex_but TSeg)) ex_pairs [0; 1; 2] TSeg = Err ValueError /\
  compare_images (ex_comp PngFalse) (ex_cmp ex_ones) (ex_cmp (ex_but TSeg)) ex_pairs [1] TSeg = Ok [] /\
  compare_images (ex_comp PngFalse) (ex_cmp ex_ones) (ex_cmp (ex_but TSeg)) ex_pairs [0; 1; 2] TBmask = Ok [] /\
  compare_images (ex_comp PngFalse) (ex_cmp ex_ones) (ex_cmp (ex_but TWeight)) ex_pairs [2; 0] TWeight =
    Ok [WeightsWorse 2 0 1; WeightsWorse 2 1 1; WeightsWorse 0 0 3] /\
  compare_images (ex_comp PngNone) (ex_cmp ex_ones) (ex_cmp (ex_but TImage)) ex_pairs [2; 0] TImage = Ok [RmsAbove 0 0].
Proof.
  intros d. split; [apply ex_cmp_wf|]. split; [apply ex_cmp_types|].
  split; [cbn; repeat (constructor; [cbn; intuition discriminate|]); constructor|].
  split; [apply ex_pairs_ok|]. split; [apply ex_pairs_ok|].
  repeat split; vm_compute; reflexivity.
Qed.

(** * C61: refuted.  The default png_prefix is False, which is not None, so names
    of pictures are formed from it. *)
Theorem C61_default_refuted : forall clip mi sub f1 f2 nrand,
  ~ exists reps, go (default_comparator clip) mi sub f1 f2 nrand = Ok reps.
Proof. exact CompareLemmas3.go_default_refuted. Qed.
Print Assumptions C61_default_refuted.

Theorem C61_without_pictures : forall k mi sub f1 f2 nrand, file_wf f1 -> file_wf f2 ->
  has_types f1 [TImage; TWeight; TBmask; TSeg] -> has_types f2 [TImage; TWeight; TBmask; TSeg] -> same_columns f1 f2 ->
  matcher mi -> valid_subset sub -> k_png k = PngNone -> (forall l, k_clip k l = Ok tt) -> (0 <= k_rms_tol k)%Q ->
  let pairs := mi (map o_id (m_cat f1)) (map o_id (m_cat f2)) in
  pairs <> [] ->
  (forall p, In p pairs -> ~ count_clash (k_same_nepoch k) f1 f2 p /\
     (forall t, In t [TImage; TWeight; TBmask; TSeg] -> ~ shape_differs f1 f2 t p) /\
     (forall t, In t [TBmask; TSeg] -> ~ pixel_differs f1 f2 t p)) ->
  exists reps, go k mi sub f1 f2 nrand = Ok reps.
Proof. exact CompareLemmas3.go_completes. Qed.
Print Assumptions C61_without_pictures.

(** One readable file against itself. *)
Example C61_example : file_wf (ex_cmp ex_ones) /\ matcher ex_match /\ valid_subset ex_subset /\
  ex_match (map o_id (m_cat (ex_cmp ex_ones))) (map o_id (m_cat (ex_cmp (ex_but TImage)))) = ex_pairs /\
  go (default_comparator ex_clip) ex_match ex_subset (ex_cmp ex_ones) (ex_cmp ex_ones) None = Err TypeError /\
  go (ex_comp PngNone) ex_match ex_subset (ex_cmp ex_ones) (ex_cmp ex_ones) None = Ok [] /\
  go (ex_comp PngNone) ex_match ex_subset (ex_cmp ex_ones) (ex_cmp (ex_but TImage)) (Some 2) = Ok [RmsAbove 0 0].
Proof.
  split; [apply ex_cmp_wf|]. split; [exact ex_match_ok|]. split; [exact ex_subset_ok|]. repeat split; vm_compute; reflexivity.
Qed.

(** * C72: refuted.  With pictures wanted, an object without cutouts raises when it
    is the first one, and otherwise repeats the picture of the previous object. *)
Theorem C72_empty_first_refuted : forall k f1 f2 pairs i1 i2 o1 o2 index ids, k_png k <> PngNone ->
  zget pairs index = Some (i1, i2) -> zget (m_cat f1) i1 = Some o1 -> zget (m_cat f2) i2 = Some o2 -> o_ncut o1 = 0 -> o_ncut o2 = 0 ->
  compare_images k f1 f2 pairs (index :: ids) TImage = Err UnboundLocalError.
Proof. exact CompareLemmas3.picture_of_empty. Qed.
Print Assumptions C72_empty_first_refuted.

Theorem C72_stale_picture_refuted : forall k f1 f2 pairs index1 index2 i1 i2 j1 j2 o1 o2 q1 q2 a b,
  k_png k = PngString -> (forall l, k_clip k l = Ok tt) ->
  zget pairs index1 = Some (i1, i2) -> zget pairs index2 = Some (j1, j2) ->
  zget (m_cat f1) i1 = Some o1 -> zget (m_cat f2) i2 = Some o2 -> o_ncut o1 = 1 -> o_ncut o2 = 1 ->
  zget (m_cat f1) j1 = Some q1 -> zget (m_cat f2) j2 = Some q2 -> o_ncut q1 = 0 -> o_ncut q2 = 0 ->
  get_cutout f1 i1 0 TImage = Ok a -> get_cutout f2 i2 0 TImage = Ok b -> nr a = nr b -> nc a = nc b ->
  exists reps ok, compare_images k f1 f2 pairs [index1; index2] TImage = Ok reps /\
    filter is_picture reps = [Picture index1 0 ok; Picture index2 0 ok].
Proof. exact CompareLemmas4.stale_picture. Qed.
Print Assumptions C72_stale_picture_refuted.

(** When the objects looked at all have a common cutout, each gets one picture, of
    its own last cutout pair, titled with the verdict on that pair. *)
Theorem C72_pictures_partial : forall k f1 f2 pairs ids, file_wf f1 -> file_wf f2 ->
  has_types f1 [TImage] -> has_types f2 [TImage] -> pairs_of f1 f2 pairs -> Forall (fun i => 0 <= i < zlen pairs) ids ->
  k_png k = PngString -> (forall l, k_clip k l = Ok tt) -> (0 <= k_rms_tol k)%Q ->
  (forall index p, looked_at pairs ids index p -> exists icut a b, cutouts_of f1 f2 TImage p icut a b) ->
  (compare_images k f1 f2 pairs ids TImage = Err ValueError <->
     exists index p, looked_at pairs ids index p /\ (count_clash (k_same_nepoch k) f1 f2 p \/ shape_differs f1 f2 TImage p)) /\
  (compare_images k f1 f2 pairs ids TImage <> Err ValueError ->
     exists reps, compare_images k f1 f2 pairs ids TImage = Ok reps /\
       Forall2 (fun index r => exists p icut a b ok, r = Picture index icut ok /\ zget pairs index = Some p /\
           cutouts_of f1 f2 TImage p icut a b /\ (forall icut' a' b', cutouts_of f1 f2 TImage p icut' a' b' -> icut' <= icut) /\
           (ok = false <-> rms_above (k_rms_tol k) a b))
         ids (filter is_picture reps)).
Proof. exact CompareLemmas4.pictures_ok. Qed.
Print Assumptions C72_pictures_partial.

Example C72_example_pictures :
  compare_images (ex_comp PngString) (ex_cmp ex_ones) (ex_cmp (ex_but TImage)) ex_pairs [2; 0] TImage =
    Ok [Picture 2 1 true; RmsAbove 0 0; Picture 0 0 false; Histogram].
Proof. vm_compute; reflexivity. Qed.

Example C72_example :
  compare_images (ex_comp PngString) (ex_cmp ex_ones) (ex_cmp ex_ones) ex_pairs [1; 0; 2] TImage = Err UnboundLocalError /\
  compare_images (ex_comp PngString) (ex_cmp ex_ones) (ex_cmp ex_ones) ex_pairs [0; 1; 2] TImage =
    Ok [Picture 0 0 true; Picture 1 0 true; Picture 2 1 true; Histogram].
Proof. split; vm_compute; reflexivity. Qed.
