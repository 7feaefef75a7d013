(** Property theorems on scripts/meds-view: C93 to C97. *)
From Verif Require Import Base Img Types Reader SpecFile BoundsM Composite Uberseg ExampleData Compare SpecCompare ExampleCompare View SpecView ExampleView.
From Verif Require ViewLemmas ViewLemmas2 ViewLemmas3 ViewLemmas4 ViewLemmas5 ViewLemmas6.
Open Scope Z_scope.

(** * C93: the grid has a cell for every picture, no empty row, and is filled row
    by row; the combined mosaic shows every image in its cell. *)
Theorem C93_grid : forall n, 1 <= n -> exists rows cols, set_grid n = (rows, cols) /\
  n <= rows * cols /\ (rows - 1) * cols < n /\ rows <= cols <= rows + 2 /\
  (forall i, 0 <= i < n -> exists r c, get_rowcol (rows, cols) i = Ok (r, c) /\ 0 <= r < rows /\ 0 <= c < cols) /\
  (forall i j p, 0 <= i < n -> 0 <= j < n -> get_rowcol (rows, cols) i = Ok p -> get_rowcol (rows, cols) j = Ok p -> i = j) /\
  (forall i r c, 0 <= i -> i + 1 < n -> get_rowcol (rows, cols) i = Ok (r, c) ->
     get_rowcol (rows, cols) (i + 1) = Ok (if c + 1 =? cols then (r + 1, 0) else (r, c + 1))).
Proof. exact ViewLemmas.grid_cells. Qed.
Print Assumptions C93_grid.

Theorem C93_combined : forall l h w, l <> [] -> all_shape h w l ->
  exists rows cols tot, set_grid (zlen l) = (rows, cols) /\ make_combined_mosaic l = Ok tot /\ img_ok tot /\
    nr tot = rows * h /\ nc tot = cols * w /\
    (forall k im, zget l k = Some im -> exists a b, get_rowcol (rows, cols) k = Ok (a, b) /\
       forall r c, 0 <= r < h -> 0 <= c < w -> px tot (rows * h - 1 - (a * h + r)) (b * w + c) = px im r c) /\
    (forall a b r c, 0 <= a < rows -> 0 <= b < cols -> (forall k, 0 <= k < zlen l -> get_rowcol (rows, cols) k <> Ok (a, b)) ->
       0 <= r < h -> 0 <= c < w -> px tot (rows * h - 1 - (a * h + r)) (b * w + c) = Some (Fin 0)).
Proof. exact ViewLemmas.combined_cells. Qed.
Print Assumptions C93_combined.

Example C93_example : all_shape 2 1 [ex_im 1 2; ex_im 3 4; ex_im 5 6] /\ set_grid 3 = (2, 2) /\
  map set_grid [1; 2; 5; 7; 8; 9; 12; 13] = [(1, 1); (1, 2); (2, 3); (3, 3); (2, 4); (3, 3); (3, 4); (4, 4)] /\
  make_combined_mosaic [ex_im 1 2; ex_im 3 4; ex_im 5 6] =
    Ok (mkImg 4 2 (map (fun z => Fin (inject_Z z)) [6; 0; 5; 0; 2; 4; 1; 3])).
Proof.
  split; [|repeat split; vm_compute; reflexivity]. split; [reflexivity|]. split; [reflexivity|].
  repeat constructor; cbn; discriminate.
Qed.

(** * C94: refuted.  Drawn by itself, row r of a cutout is at height r; in the
    combined plot it is at height h - 1 - r of its cell. *)
Theorem C94_separate_partial : forall im, img_ok im -> 0 < nr im -> 0 < nc im ->
  exists s m, view None false None im = ([], Ok s) /\ nr s = nc im /\ nc s = nr im /\
    forall r c x, px im r c = Some x -> px s c r = Some (fclip (fmul x (finv m))).
Proof. exact ViewLemmas6.separate_plot. Qed.
Print Assumptions C94_separate_partial.

Theorem C94_combined_partial : forall l h w, l <> [] -> all_shape h w l ->
  exists tot s m, make_combined_mosaic l = Ok tot /\ view None false None tot = ([], Ok s) /\
    forall k im, zget l k = Some im -> exists x0 y0, 0 <= x0 /\ x0 + w <= nr s /\ 0 <= y0 /\ y0 + h <= nc s /\
      forall r c x, px im r c = Some x -> px s (x0 + c) (y0 + (h - 1 - r)) = Some (fclip (fmul x (finv m))).
Proof. exact ViewLemmas6.combined_plot. Qed.
Print Assumptions C94_combined_partial.

Example C94_example : img_ok (ex_im 1 0) /\ all_shape 2 1 [ex_im 1 2; ex_im 3 4; ex_im 5 6].
Proof.
  split; [unfold img_ok; cbn; repeat split; discriminate|].
  split; [reflexivity|]. split; [reflexivity|]. repeat constructor; cbn; discriminate.
Qed.

(** One cutout with rows 1 and 0. *)
Theorem C94_same_way_up_refuted : exists im s1 s2,
  all_shape 2 1 [im] /\ view None false None im = ([], Ok s1) /\
  obind (lift (make_combined_mosaic [im])) (view None false None) = ([], Ok s2) /\
  px s1 0 0 = Some (Fin (1 * (1 / 1))) /\ px s1 0 1 = Some (Fin (0 * (1 / 1))) /\
  px s2 0 0 = Some (Fin (0 * (1 / 1))) /\ px s2 0 1 = Some (Fin (1 * (1 / 1))).
Proof.
  exists (ex_im 1 0). do 2 eexists. split; [split; [reflexivity|]; split; [reflexivity|]; repeat constructor; cbn; discriminate|].
  split; [vm_compute; reflexivity|]. split; [vm_compute; reflexivity|]. repeat split; vm_compute; reflexivity.
Qed.
Print Assumptions C94_same_way_up_refuted.

(** * C95: a run in which the user does not quit. *)
Theorem C95_objects : forall f start end_, let ids := get_indices f start end_ None in
  let a := match start with Some a => a | None => 0 end in
  let b := match end_ with Some b => b | None => zlen (m_cat f) - 1 end in
  zlen ids = Z.max 0 (b - a + 1) /\ forall k, 0 <= k <= b - a -> zget ids k = Some (a + k).
Proof. exact ViewLemmas5.indices_ok. Qed.
Print Assumptions C95_objects.

Theorem C95_pictures : forall sd lg fuel fast f comb hc, file_wf f ->
  forall types save show start end_ indices html answer, Forall (drawable fuel fast f) types ->
  html = true \/ save = true \/ show = true -> (show = true -> forall i, answer i = false) ->
  let ids := get_indices f start end_ indices in
  Forall (fun i => 0 <= i < zlen (m_cat f)) ids ->
  exists evs seen, go sd lg fuel fast f comb hc types save show start end_ indices html answer = (evs, Ok true) /\
    restricted (has_cutouts f) ids seen /\
    page evs = (if html then HtmlHead :: flat_map (page_row types) seen ++ [HtmlFoot] else []) /\
    (forall i t, (exists d, left_in evs i t d) <-> (html = true \/ save = true) /\ In i ids /\ has_cutouts f i /\ In t types) /\
    (forall i t d, left_in evs i t d ->
       exists o ims, zget (m_cat f) i = Some o /\ images_of sd lg fuel fast f i t = Ok ims /\ zlen ims = o_ncut o /\
         if comb then combined_of ims d else table_of hc o ims d).
Proof. exact ViewLemmas4.go_ok. Qed.
Print Assumptions C95_pictures.

Theorem C95_nothing_asked : forall sd lg fuel fast f comb hc types start end_ indices answer,
  go sd lg fuel fast f comb hc types false false start end_ indices false answer = ([], Err RuntimeError).
Proof. exact ViewLemmas5.no_output. Qed.
Print Assumptions C95_nothing_asked.

(** Objects 0 and 2 have 1 and 2 cutouts, object 1 has none. *)
Example C95_example : Forall (drawable 5 true (ex_cmp ex_ones)) ex_types /\
  page (fst (ex_go false false None None true (fun _ => false))) =
    HtmlHead :: page_row ex_types 0 ++ page_row ex_types 2 ++ [HtmlFoot] /\
  map brief (fst (ex_go false false (Some 1) (Some 2) true (fun _ => false))) =
    [(-2, (0, 0, 0)); (-4, (0, 0, 0)); (2, (0, 1, 1)); (2, (0, 1, 1)); (2, (2, 1, 2)); (2, (-1, -1, -1));
     (2, (0, 1, 1)); (2, (0, 1, 1)); (2, (2, 1, 2)); (2, (-1, -1, -1)); (-5, (0, 0, 0)); (-3, (0, 0, 0))] /\
  map brief (fst (ex_go true true (Some 2) None false (fun _ => false))) =
    [(-6, (0, 0, 0)); (-6, (0, 0, 0))] /\
  snd (ex_go true false None None true (fun _ => false)) = Ok true.
Proof.
  split; [|repeat split; vm_compute; reflexivity].
  repeat constructor; try (eexists; reflexivity); intros; try discriminate; eexists; reflexivity.
Qed.

(** * C96: refuted.  The page is closed only by a run that reaches its end: not
    when the user quits, nor when an object is asked for beyond the last. *)
Theorem C96_page_complete_iff_partial : forall sd lg fuel fast f comb hc types save show start end_ indices html answer,
  let r := go sd lg fuel fast f comb hc types save show start end_ indices html answer in
  In HtmlFoot (fst r) <-> html = true /\ snd r = Ok true.
Proof. exact ViewLemmas5.page_complete_iff. Qed.
Print Assumptions C96_page_complete_iff_partial.

Theorem C96_quit_refuted : forall sd lg fuel fast f comb hc, file_wf f -> forall types save start end_ indices answer i rest,
  Forall (drawable fuel fast f) types -> get_indices f start end_ indices = i :: rest -> has_cutouts f i -> answer 0 = true ->
  exists evs, go sd lg fuel fast f comb hc types save true start end_ indices true answer = (evs, Ok false) /\ page evs = HtmlHead :: page_row types i.
Proof. exact ViewLemmas5.quit_first. Qed.
Print Assumptions C96_quit_refuted.

Theorem C96_beyond_end_refuted : forall sd lg fuel fast f comb hc, file_wf f -> forall types save start end_ indices ids i answer,
  Forall (drawable fuel fast f) types -> get_indices f start end_ indices = ids ++ [i] ->
  Forall (fun j => 0 <= j < zlen (m_cat f)) ids -> zlen (m_cat f) <= i ->
  exists evs seen, go sd lg fuel fast f comb hc types save false start end_ indices true answer = (evs, Err IndexError) /\
    restricted (has_cutouts f) ids seen /\ page evs = HtmlHead :: flat_map (page_row types) seen.
Proof. exact ViewLemmas5.beyond_end. Qed.
Print Assumptions C96_beyond_end_refuted.

Example C96_example : file_wf (ex_cmp ex_ones) /\ has_cutouts (ex_cmp ex_ones) 0 /\ get_indices (ex_cmp ex_ones) None None None = [0; 1; 2] /\
  get_indices (ex_cmp ex_ones) (Some 1) (Some 3) None = [1; 2] ++ [3] /\
  snd (ex_go false true None None true (fun i => i =? 0)) = Ok false /\ snd (ex_go false false None (Some 3) true (fun _ => false)) = Err IndexError.
Proof.
  split; [apply ex_cmp_wf|]. split; [eexists; split; [reflexivity|vm_compute; reflexivity]|]. repeat split; vm_compute; reflexivity.
Qed.

(** * C97: refuted for cutouts without positive pixels; positive otherwise.
    [m] is the largest pixel, [s] the noise added. *)
Theorem C97_image_partial : forall sd, respects sd -> forall im wt m wmax s,
  img_ok im -> is_max (dat im) m -> is_max (dat wt) wmax -> noise_of sd wmax s -> (0 < m + s)%Q ->
  exists p, (let* a := prepare_image sd im wt in linear_scale a) = Ok p /\
    drawn (fun x y => (0 <= y <= 1)%Q /\ ((0 <= x + s)%Q -> (y * (m + s) == x + s)%Q) /\ ((x + s <= 0)%Q -> (y == 0)%Q)) im p.
Proof. exact ViewLemmas2.image_pos. Qed.
Print Assumptions C97_image_partial.

(** The faintest pixel becomes the brightest. *)
Theorem C97_negative_refuted : forall sd, respects sd -> forall im wt m lo wmax s,
  img_ok im -> is_max (dat im) m -> is_min (dat im) lo -> is_max (dat wt) wmax -> noise_of sd wmax s -> (0 < wmax)%Q -> (m + s < 0)%Q ->
  exists p, (let* a := prepare_image sd im wt in linear_scale a) = Ok p /\ drawn (fun x y => (y * (lo + s) == x + s)%Q) im p.
Proof. exact ViewLemmas2.image_neg. Qed.
Print Assumptions C97_negative_refuted.

Theorem C97_white_refuted : forall sd im wt m wmax, img_ok im -> is_max (dat im) m -> is_max (dat wt) wmax -> (wmax <= 0)%Q -> (m < 0)%Q ->
  exists p, (let* a := prepare_image sd im wt in linear_scale a) = Ok p /\ drawn (fun x y => (y == 1)%Q) im p.
Proof. exact ViewLemmas2.image_white. Qed.
Print Assumptions C97_white_refuted.

Theorem C97_nan_refuted : forall sd, respects sd -> forall im wt m wmax s,
  img_ok im -> is_max (dat im) m -> is_max (dat wt) wmax -> noise_of sd wmax s -> (0 < wmax)%Q -> (m + s == 0)%Q ->
  exists p, (let* a := prepare_image sd im wt in linear_scale a) = Ok p /\ nr p = nr im /\ nc p = nc im /\
    forall r c x, px im r c = Some x -> px p r c = Some Nan.
Proof. exact ViewLemmas2.image_nan. Qed.
Print Assumptions C97_nan_refuted.

(** Psf images: logarithms of the pixels, those below 1e-6 raised to it. *)
Theorem C97_psf_partial : forall lg, respects lg -> (forall a b, (0 < a)%Q -> (a < b)%Q -> (lg a < lg b)%Q) ->
  forall im m mn, img_ok im -> is_max (dat im) m -> is_min (dat im) mn ->
  let g := fun x => lg (qmax2 x (1#1000000)) in (g mn < g m)%Q ->
  exists p, (let* a := prepare_psf lg im in linear_scale a) = Ok p /\
    drawn (fun x y => (0 <= y <= 1)%Q /\ (y * (g m - g mn) == g x - g mn)%Q) im p.
Proof. exact ViewLemmas3.psf_scaled. Qed.
Print Assumptions C97_psf_partial.

Theorem C97_flat_psf_refuted : forall lg, respects lg -> (forall a b, (0 < a)%Q -> (a < b)%Q -> (lg a < lg b)%Q) ->
  forall im m mn, img_ok im -> is_max (dat im) m -> is_min (dat im) mn ->
  (lg (qmax2 mn (1#1000000)) == lg (qmax2 m (1#1000000)))%Q ->
  exists p, (let* a := prepare_psf lg im in linear_scale a) = Ok p /\ nr p = nr im /\ nc p = nc im /\
    forall r c x, px im r c = Some x -> px p r c = Some Nan.
Proof. exact ViewLemmas3.psf_nan. Qed.
Print Assumptions C97_flat_psf_refuted.

(** Segmentation maps and bitmasks. *)
Theorem C97_seg_partial : forall lg, respects lg -> (forall a b, (0 < a)%Q -> (a < b)%Q -> (lg a < lg b)%Q) -> (lg 1 == 0)%Q ->
  forall im m, img_ok im -> is_max (dat im) m -> Forall (fun x => (0 <= x)%Q) (dat im) -> (0 < m)%Q ->
  exists p, linear_scale (prepare_seg lg im) = Ok p /\ drawn (fun x y => (0 <= y <= 1)%Q /\ (y * lg (m + 1) == lg (x + 1))%Q) im p.
Proof. exact ViewLemmas3.seg_scaled. Qed.
Print Assumptions C97_seg_partial.

(** A bitmask with bit 31 set is negative as a 32-bit integer. *)
Theorem C97_sign_bit_refuted : forall lg im x0, In x0 (dat im) -> (x0 < -1)%Q ->
  exists p, linear_scale (prepare_seg lg im) = Ok p /\ nr p = nr im /\ nc p = nc im /\
    forall r c x, px im r c = Some x -> px p r c = Some Nan.
Proof. exact ViewLemmas3.seg_spoiled. Qed.
Print Assumptions C97_sign_bit_refuted.

Example C97_example : respects ex_sd /\ respects ex_lg /\ (ex_lg 1 == 0)%Q /\ (forall a b, (0 < a)%Q -> (a < b)%Q -> (ex_lg a < ex_lg b)%Q) /\
  ex_red (let* a := prepare_image ex_sd (ex_q [3; -5; 0; -1]) (ex_q [0; 2; 0; 0]) in linear_scale a) = [Fin 1; Fin 0; Fin (1#4); Fin 0] /\
  ex_red (let* a := prepare_image ex_sd (ex_q [-3; -5; -2; -9]) (ex_q [0; 2; 0; 0]) in linear_scale a) = [Fin (1#4); Fin (1#2); Fin (1#8); Fin 1] /\
  ex_red (let* a := prepare_image ex_sd (ex_q [-3; -5; -2; -9]) (ex_q [0; 0; 0; 0]) in linear_scale a) = [Fin 1; Fin 1; Fin 1; Fin 1] /\
  ex_red (let* a := prepare_image ex_sd (ex_q [-3; -5; -1; -9]) (ex_q [0; 2; 0; 0]) in linear_scale a) = [Nan; Nan; Nan; Nan] /\
  ex_red (let* a := prepare_psf ex_lg (ex_q [3; 1; 2; 2]) in linear_scale a) = [Fin 1; Fin 0; Fin (1#2); Fin (1#2)] /\
  ex_red (linear_scale (prepare_seg ex_lg (ex_q [3; 0; 6; 2]))) = [Fin (1#2); Fin 0; Fin 1; Fin (1#3)] /\
  ex_red (linear_scale (prepare_seg ex_lg (ex_q [3; 0; -6; 2]))) = [Nan; Nan; Nan; Nan].
Proof.
  split; [intros a b _; reflexivity|]. split; [intros a b H; unfold ex_lg; rewrite H; reflexivity|]. split; [reflexivity|].
  split; [intros a b _ H; unfold ex_lg; apply Qplus_lt_l; exact H|]. repeat split; vm_compute; reflexivity.
Qed.
