(** Property theorems on the extractors: C43 to C51. *)
From Coq Require Import String Permutation.
From Verif Require Import Base Img Types Reader MakerLayout MakerWrite MakerFile Extract
  SpecTiles SpecFile SpecExtract ExampleData.
From Verif Require ExampleLocal ExtractLemmas2 ExtractLemmas5 ExtractLemmas6 ExtractLemmas7.
Open Scope Z_scope.

(** * C43 *)
Theorem C43_maker_files : forall k types rows psf input junk pjunk f ca a b,
  Forall (fun o => 1 <= o_box o) input -> 1 <= k_njob k -> psfs_fit psf ->
  make_meds k types rows psf input junk pjunk = Ok f ->
  has_ext f TImage -> has_ext f TWeight -> has_ext f TSeg ->
  0 <= a -> b < zlen (m_cat f) ->
  (exists i o, a <= i <= b /\ zget (m_cat f) i = Some o /\ 0 < o_ncut o) ->
  exists g, extract_range ca f a b = Ok g /\ zlen (m_cat g) = b - a + 1 /\ m_info g = m_info f /\
    forall i o, 0 <= i <= b - a -> zget (m_cat f) (a + i) = Some o ->
      (exists o', zget (m_cat g) i = Some o' /\ same_but_starts o o') /\
      (forall t, t <> TOrmask -> same_cutouts f (a + i) g i t) /\ same_psfs f (a + i) g i /\
      forall n, 0 <= n -> get_source_info g i n = get_source_info f (a + i) n /\ get_jacobian g i n = get_jacobian f (a + i) n.
Proof. exact ExtractLemmas7.range_maker. Qed.
Print Assumptions C43_maker_files.

Theorem C43_any_file : forall ca f a b, file_wf f -> psf_wf f -> (m_psf f <> None -> psf_extractable (m_psf_cols f)) ->
  has_ext f TImage -> has_ext f TWeight -> has_ext f TSeg ->
  0 <= a -> b < zlen (m_cat f) ->
  (exists i o, a <= i <= b /\ zget (m_cat f) i = Some o /\ 0 < o_ncut o) ->
  exists g, extract_range ca f a b = Ok g /\ zlen (m_cat g) = b - a + 1 /\ m_info g = m_info f /\
    m_number_col g = m_number_col f /\ m_psf_cols g = m_psf_cols f /\
    (ca = false -> file_wf g /\ psf_wf g) /\
    (forall t, t <> TOrmask -> (has_ext g t <-> has_ext f t)) /\
    forall i o, 0 <= i <= b - a -> zget (m_cat f) (a + i) = Some o ->
      (exists o', zget (m_cat g) i = Some o' /\ same_but_starts o o') /\
      (forall t, t <> TOrmask -> same_cutouts f (a + i) g i t) /\ same_psfs f (a + i) g i.
Proof. exact ExtractLemmas2.range_ok. Qed.
Print Assumptions C43_any_file.

(** Three objects with 1, 0 and 2 cutouts, psf sizes per cutout. *)
Example C43_any_example : let f := ex_small PsfRCCut [TImage; TWeight; TSeg; TBmask] in
  file_wf f /\ psf_wf f /\ psf_extractable (m_psf_cols f) /\ has_ext f TImage /\ has_ext f TWeight /\ has_ext f TSeg /\ has_ext f TBmask /\
  map o_ncut (m_cat f) = [1; 0; 2] /\ exists o, zget (m_cat f) 2 = Some o /\ 0 < o_ncut o.
Proof.
  split; [apply ExtractLemmas7.small_wf|]. split; [apply ExtractLemmas7.small_psf_wf; tauto|]. split; [left; reflexivity|].
  do 4 (split; [eexists; reflexivity|]). split; [reflexivity|]. eexists. split; reflexivity.
Qed.

Example C43_example : match ex_make (Some ex_psfs) with
  | Ok f => match extract_range false f 1 2 with
    | Ok g => get_cutout g 1 1 TSeg = get_cutout f 2 1 TSeg /\ get_psf g 1 1 = get_psf f 2 1 /\
        map o_ncut (m_cat f) = [3; 1; 2] /\ map o_number (m_cat g) = [2; 3] /\
        match get_cutout g 1 1 TSeg, get_psf g 1 1 with Ok c, Ok p => zlen (dat c) = 4 /\ zlen (dat p) = 3 | _, _ => False end
    | Err _ => False end
  | Err _ => False end.
Proof. vm_compute. repeat split. Qed.

(** * C44 *)
Theorem C44_only_image_refuted : exists f, make_meds ex_conf ["image"%string] ex_rows None ex_objs ex_junk (fun _ => 0%Q) = Ok f /\
  (exists im, get_cutout f 0 0 TImage = Ok im) /\ extract_range false f 0 2 = Err FitsError.
Proof. exact ExtractLemmas7.image_only_fails. Qed.
Print Assumptions C44_only_image_refuted.

Theorem C44_ormask_refuted : exists f, file_wf f /\ psf_wf f /\
  (exists g im, extract_range false f 2 2 = Ok g /\ get_cutout f 2 0 TOrmask = Ok im /\ get_cutout g 0 0 TOrmask = Err ValueError) /\
  (exists g im im', extract_range true f 2 2 = Ok g /\ get_cutout f 2 0 TOrmask = Ok im /\ get_cutout g 0 0 TOrmask = Ok im' /\ im <> im').
Proof. exact ExtractLemmas7.ormask_lost. Qed.
Print Assumptions C44_ormask_refuted.

(** What holds: with image, weight and seg present every type except ormask is kept
    with its pixels, and no other type appears.  Missing: files without one of the
    three (the extraction raises), ormask (dropped, or copied unshifted). *)
Theorem C44_types_partial : forall ca f a b, file_wf f -> psf_wf f -> (m_psf f <> None -> psf_extractable (m_psf_cols f)) ->
  has_ext f TImage -> has_ext f TWeight -> has_ext f TSeg ->
  0 <= a -> b < zlen (m_cat f) ->
  (exists i o, a <= i <= b /\ zget (m_cat f) i = Some o /\ 0 < o_ncut o) ->
  exists g, extract_range ca f a b = Ok g /\
    forall t, t <> TOrmask -> (has_ext g t <-> has_ext f t) /\
      forall i, 0 <= i <= b - a -> same_cutouts f (a + i) g i t.
Proof. exact ExtractLemmas7.range_types. Qed.
Print Assumptions C44_types_partial.

Example C44_example : let f := ex_small PsfRCCut [TSeg; TImage; TBmask; TWeight; TNoise] in
  exists g, extract_range false f 1 2 = Ok g /\ map fst (m_ext g) = [TImage; TWeight; TSeg; TBmask; TNoise] /\
    get_cutout g 1 1 TNoise = get_cutout f 2 1 TNoise /\ get_cutout f 2 1 TNoise = Ok (mkImg 1 1 [105%Q]) /\
    file_wf f /\ psf_wf f /\ psf_extractable (m_psf_cols f).
Proof.
  eexists. split; [vm_compute; reflexivity|]. split; [reflexivity|]. split; [vm_compute; reflexivity|]. split; [vm_compute; reflexivity|].
  split; [apply ExtractLemmas7.small_wf|]. split; [apply ExtractLemmas7.small_psf_wf; tauto|]. left. reflexivity.
Qed.

(** * C45 *)
Theorem C45_compose : forall f a b c d g, file_wf f -> psf_wf f -> (m_psf f <> None -> psf_extractable (m_psf_cols f)) ->
  has_ext f TImage -> has_ext f TWeight -> has_ext f TSeg ->
  0 <= a -> b < zlen (m_cat f) -> 0 <= c -> d <= b - a ->
  (exists i o, a + c <= i <= a + d /\ zget (m_cat f) i = Some o /\ 0 < o_ncut o) ->
  extract_range false f a b = Ok g ->
  extract_range false g c d = extract_range false f (a + c) (a + d).
Proof. exact ExtractLemmas2.range_compose. Qed.
Print Assumptions C45_compose.

Theorem C45_compose_without_cutouts : forall f a b c d g, file_wf f -> psf_wf f -> (m_psf f <> None -> psf_extractable (m_psf_cols f)) ->
  has_ext f TImage -> has_ext f TWeight -> has_ext f TSeg ->
  0 <= a -> b < zlen (m_cat f) -> 0 <= c <= d -> d <= b - a ->
  (forall i o, a + c <= i <= a + d -> zget (m_cat f) i = Some o -> o_ncut o = 0) ->
  extract_range false f a b = Ok g ->
  exists h h', extract_range false g c d = Ok h /\ extract_range false f (a + c) (a + d) = Ok h' /\
    Forall2 same_but_starts (m_cat h') (m_cat h) /\
    forall i, 0 <= i <= d - c -> forall k,
      (forall t, get_cutout h i k t = Err ValueError /\ get_cutout h' i k t = Err ValueError) /\
      get_psf h i k = Err ValueError /\ get_psf h' i k = Err ValueError.
Proof. exact ExtractLemmas6.range_compose_none. Qed.
Print Assumptions C45_compose_without_cutouts.

Example C45_example : match ex_make (Some ex_psfs) with
  | Ok f => match extract_range false f 1 2 with
    | Ok g => extract_range false g 1 1 = extract_range false f 2 2 /\ extract_range false g 1 1 <> Err FitsError
    | Err _ => False end
  | Err _ => False end.
Proof. vm_compute. split; [reflexivity|discriminate]. Qed.

(** * C46 *)
Theorem C46_without_cutouts : forall ca f a b, 0 <= a <= b -> b < zlen (m_cat f) ->
  (forall i o, a <= i <= b -> zget (m_cat f) i = Some o -> o_ncut o = 0) ->
  exists g, extract_range ca f a b = Ok g /\ slice (m_cat f) a (b + 1) = Ok (m_cat g) /\ m_info g = m_info f /\
    m_number_col g = m_number_col f /\ has_ext g TImage /\ has_ext g TWeight /\ has_ext g TSeg /\ has_ext g TBmask /\
    forall i o, zget (m_cat g) i = Some o -> forall k,
      (forall t, get_cutout g i k t = Err ValueError) /\ (forall t, get_mosaic g i t = Err ValueError) /\
      (forall t, get_cutout_list g i t = Err ValueError) /\ get_psf g i k = Err ValueError.
Proof. exact ExtractLemmas5.range_none. Qed.
Print Assumptions C46_without_cutouts.

Example C46_example : let f := ex_small PsfRCCut [TImage; TWeight; TSeg] in
  exists g, extract_range false f 1 1 = Ok g /\ map o_number (m_cat g) = [20] /\ get_cutout g 0 0 TImage = Err ValueError /\
    exists im, get_cutout f 0 0 TImage = Ok im.
Proof. vm_compute. eexists. repeat split. eexists. reflexivity. Qed.

(** * C47 *)
Theorem C47_numbers : forall (M : Type) resolve order meds sub (d : disk M) f meta numbers,
  file_wf f -> psf_wf f -> (m_psf f <> None -> m_psf_cols f = PsfRCCut) ->
  has_ext f TImage -> has_ext f TWeight -> has_ext f TSeg -> has_ext f TBmask -> m_number_col f = true ->
  NoDup (map o_number (m_cat f)) -> (forall l, Permutation (order l) l) ->
  NoDup numbers -> numbers <> [] -> (forall n, In n numbers -> exists o, In o (m_cat f) /\ o_number o = n) ->
  meds <> sub -> d (resolve meds) = Present f meta ->
  let d' := extractor_life resolve order (ByNumbers numbers) meds sub false d in
  exists g, snd d' = Ok tt /\ fst d' (resolve sub) = Present g meta /\
    Permutation (map o_number (m_cat g)) numbers /\ m_info g = m_info f /\
    ((exists o, In o (m_cat g) /\ 0 < o_ncut o) -> file_wf g /\ psf_wf g) /\
    forall i o', zget (m_cat g) i = Some o' -> exists j o, zget (m_cat f) j = Some o /\ o_number o = o_number o' /\
      same_but_starts o o' /\
      same_cutouts f j g i TImage /\ same_cutouts f j g i TWeight /\ same_cutouts f j g i TSeg /\ same_cutouts f j g i TBmask /\
      same_psfs f j g i.
Proof. exact @ExtractLemmas6.life_numbers. Qed.
Print Assumptions C47_numbers.

Theorem C47_maker_files : forall k types rows psf input junk pjunk f order numbers,
  Forall (fun o => 1 <= o_box o) input -> 1 <= k_njob k -> psfs_fit psf ->
  make_meds k types rows psf input junk pjunk = Ok f -> k_number_col k = true ->
  has_ext f TImage -> has_ext f TWeight -> has_ext f TSeg -> has_ext f TBmask ->
  NoDup (map o_number (m_cat f)) -> (forall l, Permutation (order l) l) ->
  (forall n, In n numbers -> exists o, In o (m_cat f) /\ o_number o = n) ->
  exists g, extract_numbers order f numbers = Ok g /\ Permutation (map o_number (m_cat g)) numbers /\
    forall i o', zget (m_cat g) i = Some o' -> exists j o, zget (m_cat f) j = Some o /\ o_number o = o_number o' /\
      same_but_starts o o' /\
      same_cutouts f j g i TImage /\ same_cutouts f j g i TWeight /\ same_cutouts f j g i TSeg /\ same_cutouts f j g i TBmask /\
      same_psfs f j g i.
Proof. exact ExtractLemmas7.numbers_maker. Qed.
Print Assumptions C47_maker_files.

Example C47_hypotheses_example : psfs_fit (Some ex_psfs) /\ 1 <= k_njob ex_conf /\ k_number_col ex_conf = true /\
  (let* f := ex_make (Some ex_psfs) in Ok (map o_number (m_cat f), map fst (m_ext f))) = Ok ([1; 2; 3], [TImage; TWeight; TSeg; TBmask]) /\
  forall l : list Z, Permutation (rev l) l.
Proof.
  split; [exact ExampleLocal.ex_psfs_fit|]. split; [vm_compute; discriminate|]. split; [reflexivity|]. split; [vm_compute; reflexivity|].
  intros l. apply Permutation_sym, Permutation_rev.
Qed.

Example C47_example : match ex_make (Some ex_psfs) with
  | Ok f => match extract_numbers (@rev Z) f [1; 3] with
    | Ok g => map o_number (m_cat g) = [3; 1] /\ get_cutout g 1 2 TWeight = get_cutout f 0 2 TWeight /\
        get_psf g 1 2 = get_psf f 0 2 /\ get_psf g 0 1 = get_psf f 2 1 /\
        match get_cutout g 1 2 TWeight, get_psf g 1 2 with Ok c, Ok p => zlen (dat c) = 16 /\ dat p <> [] | _, _ => False end
    | Err _ => False end
  | Err _ => False end.
Proof. vm_compute. repeat split. discriminate. Qed.

(** * C48 *)
Theorem C48_row_carries_number : forall f numbers inds, get_inds f numbers = Ok inds ->
  Forall2 (fun n i => exists o, zget (m_cat f) i = Some o /\ o_number o = n) numbers inds.
Proof. exact ExtractLemmas5.get_inds_ok. Qed.
Print Assumptions C48_row_carries_number.

Theorem C48_duplicate_refuted : exists f, occurrences (m_cat f) 1 = 2 /\ get_inds f [1] = Ok [0].
Proof. exact ExtractLemmas7.duplicate_found. Qed.
Print Assumptions C48_duplicate_refuted.

(** The lookup of one number fails exactly when it is absent, or repeated without
    sitting at its natural place; missing for the full claim: repeated numbers one
    of which sits at row number-1. *)
Theorem C48_one_number_partial : forall cat n, get_ind cat n = Err AssertionError <->
  occurrences cat n = 0 \/ (2 <= occurrences cat n /\ forall o, zget cat (n - 1) = Some o -> o_number o <> n).
Proof. exact ExtractLemmas5.get_ind_fails. Qed.
Print Assumptions C48_one_number_partial.

Theorem C48_raises_partial : forall f numbers n, m_number_col f = true -> In n numbers ->
  (occurrences (m_cat f) n = 0 \/ (2 <= occurrences (m_cat f) n /\ forall o, zget (m_cat f) (n - 1) = Some o -> o_number o <> n)) ->
  get_inds f numbers = Err AssertionError.
Proof. exact ExtractLemmas5.get_inds_fails. Qed.
Print Assumptions C48_raises_partial.

Theorem C48_unique_found : forall cat i o, NoDup (map o_number cat) -> zget cat i = Some o -> get_ind cat (o_number o) = Ok i.
Proof. exact ExtractLemmas5.get_ind_unique. Qed.
Print Assumptions C48_unique_found.

(** Number 1 twice, neither at row 0; number 3 at row 2 and once more. *)
Example C48_hypotheses_example : NoDup (map o_number ex_small_cat) /\
  let cat := [ex_obj 1 7 1 0 0; ex_obj 2 1 1 0 0; ex_obj 3 3 1 0 0; ex_obj 4 1 1 0 0; ex_obj 5 3 1 0 0] in
  map (occurrences cat) [1; 2; 3; 7] = [2; 0; 2; 1] /\
  map (get_ind cat) [1; 2; 3; 7] = [Err AssertionError; Err AssertionError; Ok 2; Ok 0].
Proof. split; [repeat constructor; cbn; intuition discriminate|]. split; vm_compute; reflexivity. Qed.

Example C48_example : let f := ex_small PsfNone [TImage] in
  get_inds f [30; 10] = Ok [2; 0] /\ get_inds f [30; 11] = Err AssertionError /\ occurrences (m_cat f) 30 = 1.
Proof. vm_compute. repeat split. Qed.

(** * C49 *)
Theorem C49_psf_box_refuted : exists f, file_wf f /\ psf_wf f /\ m_psf_cols f = PsfBoxCut /\
  (exists im, get_psf f 2 1 = Ok im) /\ (exists g, extract_range false f 0 2 = Ok g) /\
  extract_numbers (fun l => l) f [10; 30] = Err ValueError.
Proof. exact ExtractLemmas7.box_fails. Qed.
Print Assumptions C49_psf_box_refuted.

Theorem C49_no_bmask_refuted : exists f, file_wf f /\ psf_wf f /\ (exists g, extract_range false f 0 2 = Ok g) /\
  extract_numbers (fun l => l) f [10; 30] = Err FitsError.
Proof. exact ExtractLemmas7.no_bmask_fails. Qed.
Print Assumptions C49_no_bmask_refuted.

Theorem C49_psf_per_object_refuted : exists f, file_wf f /\ psf_wf f /\ m_psf_cols f = PsfRCObj /\ (exists im, get_psf f 2 1 = Ok im) /\
  extract_range false f 0 2 = Err IndexError /\ extract_numbers (fun l => l) f [10; 30] = Err IndexError.
Proof. exact ExtractLemmas7.rcobj_fails. Qed.
Print Assumptions C49_psf_per_object_refuted.

(** What holds: per-cutout row/col sizes (or no psf) and a bmask extension; missing:
    psf_box_size layouts, sizes per object, files without bmask. *)
Theorem C49_layouts_partial : forall order f numbers, file_wf f -> psf_wf f -> (m_psf f <> None -> m_psf_cols f = PsfRCCut) ->
  has_ext f TImage -> has_ext f TWeight -> has_ext f TSeg -> has_ext f TBmask -> m_number_col f = true ->
  NoDup (map o_number (m_cat f)) -> (forall l, Permutation (order l) l) ->
  (forall n, In n numbers -> exists o, In o (m_cat f) /\ o_number o = n) ->
  exists g, extract_numbers order f numbers = Ok g.
Proof. exact ExtractLemmas7.numbers_layouts. Qed.
Print Assumptions C49_layouts_partial.

Example C49_example : let f := ex_small PsfRCCut [TImage; TWeight; TSeg; TBmask] in
  file_wf f /\ psf_wf f /\ m_psf f <> None /\ m_psf_cols f = PsfRCCut /\ m_number_col f = true /\ NoDup (map o_number (m_cat f)) /\
  exists g, extract_numbers (@rev Z) f [10; 30] = Ok g /\ map o_number (m_cat g) = [30; 10] /\ get_psf g 0 1 = get_psf f 2 1.
Proof.
  split; [apply ExtractLemmas7.small_wf|]. split; [apply ExtractLemmas7.small_psf_wf; tauto|]. split; [discriminate|]. split; [reflexivity|].
  split; [reflexivity|]. split; [repeat constructor; cbn; intuition discriminate|]. eexists. split; [vm_compute; reflexivity|].
  split; vm_compute; reflexivity.
Qed.

(** * C50 *)
Theorem C50_same_name_refuted : exists (d : disk unit) f, d 0 = Present f tt /\
  extractor_life (fun _ => 0) (fun l => l) (ByRange 0 0 false) "a" "a" true d = (fst (extractor_life (fun _ => 0) (fun l => l) (ByRange 0 0 false) "a" "a" true d), Err ValueError) /\
  fst (extractor_life (fun _ => 0) (fun l => l) (ByRange 0 0 false) "a" "a" true d) 0 = Absent.
Proof. exact ExtractLemmas7.same_name_deleted. Qed.
Print Assumptions C50_same_name_refuted.

Theorem C50_alias_refuted : exists (d : disk unit) f, d 0 = Present f tt /\
  let r := extractor_life (fun _ => 0) (fun l => l) (ByRange 0 0 false) "a" "./a" false d in
  snd r = Ok tt /\ exists g, fst r 0 = Present g tt /\ g <> f.
Proof. exact ExtractLemmas7.alias_overwritten. Qed.
Print Assumptions C50_alias_refuted.

(** What holds: names of different files.  Missing: equal names with cleanup, two
    names of one file. *)
Theorem C50_input_untouched_partial : forall (M : Type) resolve order r meds sub cl (d : disk M), resolve meds <> resolve sub ->
  fst (extractor_life resolve order r meds sub cl d) (resolve meds) = d (resolve meds).
Proof. exact @ExtractLemmas6.life_input. Qed.
Print Assumptions C50_input_untouched_partial.

Theorem C50_only_the_output_touched : forall (M : Type) resolve order r meds sub cl (d : disk M) q, q <> resolve sub ->
  fst (extractor_life resolve order r meds sub cl d) q = d q.
Proof. exact @ExtractLemmas6.life_other. Qed.
Print Assumptions C50_only_the_output_touched.

Theorem C50_rejected_without_cleanup_partial : forall (M : Type) resolve order r meds sub (d : disk M) e,
  snd (extractor_life resolve order r meds sub false d) = Err e ->
  early_check r = Err e \/ check_inputs meds sub r = Err e ->
  fst (extractor_life resolve order r meds sub false d) = d.
Proof. exact @ExtractLemmas6.life_rejected. Qed.
Print Assumptions C50_rejected_without_cleanup_partial.

Example C50_rejected_example : let d := fun _ : Z => Present (ex_small PsfNone [TImage]) tt in
  check_inputs "a" "a" (ByRange 0 1 false) = Err ValueError /\
  snd (extractor_life (fun _ => 0) (fun l => l) (ByRange 0 1 false) "a" "a" false d) = Err ValueError /\
  early_check (ByNumbers [3; 5; 3]) = Err AssertionError.
Proof. vm_compute. repeat split. Qed.

Example C50_example : let f := ex_small PsfNone [TImage; TWeight; TSeg] in
  let resolve := fun s => if String.eqb s "a" then 0 else 1 in
  let d := fun i => if i =? 0 then Present f tt else Absent in
  let r := extractor_life resolve (fun l => l) (ByRange 0 1 false) "a" "b" false d in
  let r' := extractor_life resolve (fun l => l) (ByRange 0 1 false) "a" "b" true d in
  snd r = Ok tt /\ fst r 0 = Present f tt /\ (exists g, fst r 1 = Present g tt) /\ fst r' 1 = Absent /\ fst r' 0 = Present f tt.
Proof. vm_compute. repeat split. eexists. reflexivity. Qed.

(** * C51 *)
Theorem C51_catalog_copied : forall (M : Type) resolve order meds sub (d : disk M) f meta,
  meds <> sub -> resolve meds <> resolve sub -> d (resolve meds) = Present f meta ->
  exists g, snd (extractor_life resolve order CatalogOnly meds sub false d) = Ok tt /\
    fst (extractor_life resolve order CatalogOnly meds sub false d) (resolve sub) = Present g meta /\
    fst (extractor_life resolve order CatalogOnly meds sub false d) (resolve meds) = Present f meta /\
    m_cat g = m_cat f /\ m_info g = m_info f /\ m_number_col g = m_number_col f /\ m_psf_cols g = m_psf_cols f.
Proof. exact @ExtractLemmas6.life_catalog. Qed.
Print Assumptions C51_catalog_copied.

Example C51_example : let f := ex_small PsfNone [TImage; TWeight; TSeg] in
  let resolve := fun s => if String.eqb s "a" then 0 else 1 in
  let d := fun i => if i =? 0 then Present f 5 else Unfinished in
  let r := extractor_life resolve (fun l => l) CatalogOnly "a" "b" false d in
  exists g, fst r 1 = Present g 5 /\ m_cat g = ex_small_cat.
Proof. vm_compute. eexists. split; reflexivity. Qed.
