(** Extraction of a range of objects. *)
From Coq Require Import Lia ZifyBool ZifyNat.
From Verif Require Import Base BaseLemmas Img ImgLemmas Types Reader ReadLemmas StartLemmas Extract
  SpecTiles SpecFile SpecExtract ExtractLemmas.
Open Scope Z_scope.

Definition sub {A} (m : list A) (x y : Z) : list A := firstn (Z.to_nat (y - x)) (skipn (Z.to_nat x) m).

Lemma slice_sub {A} (m : list A) x y : 0 <= x -> x < y -> y <= zlen m -> slice m x y = Ok (sub m x y).
Proof. intros. unfold slice. replace ((0 <=? x) && (x <? y) && (y <=? zlen m)) with true by lia. reflexivity. Qed.

Lemma sub_sub {A} (m : list A) x y a b : 0 <= x -> x <= a -> a < b -> b <= y -> y <= zlen m ->
  sub (sub m x y) (a - x) (b - x) = sub m a b.
Proof.
  intros. assert (E : slice m x y = Ok (sub m x y)) by (apply slice_sub; lia).
  pose proof (slice_slice _ _ _ _ a b E ltac:(lia) ltac:(lia)) as S.
  rewrite (slice_sub m a b) in S by lia. rewrite slice_sub in S; [injection S; auto|lia|lia|].
  destruct (slice_ok _ _ _ _ E) as (_ & _ & L & _). rewrite L. lia.
Qed.

Lemma sub_len {A} (m : list A) x y : 0 <= x -> x < y -> y <= zlen m -> zlen (sub m x y) = y - x.
Proof. intros. apply (slice_ok m x y (sub m x y)). apply slice_sub; assumption. Qed.

Definition range_ext (f : medsfile) (x y : Z) : list (ctype * list Q) :=
  flat_map (fun t => match ext_find (m_ext f) t with Some m => [(t, sub m x y)] | None => [] end)
           [TImage; TWeight; TSeg; TBmask; TNoise].

Definition range_row (f : medsfile) (x px : Z) (o : obj) : obj :=
  match m_psf f with
  | Some _ => shift_psf_start px (shift_start x o)
  | None => shift_start x o
  end.

Definition range_result (ca : bool) (f : medsfile) (objs : list obj) (x y px py : Z) : medsfile :=
  mkMeds (map (range_row f x px) objs) (m_number_col f) (m_psf_cols f) (m_info f)
    (range_ext f x y ++ (if ca then copied_ext f else []))
    (option_map (fun p => sub p px py) (m_psf f)).

Lemma ext_find_app e e' t : ext_find (e ++ e') t = match ext_find e t with Some m => Some m | None => ext_find e' t end.
Proof. induction e as [|[t' m] e IH]; [reflexivity|]. cbn [app ext_find]. destruct (ctype_eqb t' t); [reflexivity|exact IH]. Qed.

Lemma range_ext_find f x y t :
  ext_find (range_ext f x y) t = match t with TOrmask => None | _ => option_map (fun m => sub m x y) (ext_find (m_ext f) t) end.
Proof.
  unfold range_ext. cbn [flat_map]. rewrite app_nil_r, !ext_find_app.
  destruct t; destruct (ext_find (m_ext f) TImage), (ext_find (m_ext f) TWeight), (ext_find (m_ext f) TSeg),
    (ext_find (m_ext f) TBmask), (ext_find (m_ext f) TNoise); reflexivity.
Qed.

(** * Shifted rows *)
Lemma used_map g o : used_slots (set_slots o (map g (o_slots o))) = map g (used_slots o).
Proof. unfold used_slots. cbn [o_ncut o_slots set_slots]. apply firstn_map. Qed.

Lemma fits_row f x px o : fits o -> fits (range_row f x px o).
Proof. unfold fits, range_row, shift_psf_start, shift_start. intros H. destruct (m_psf f); cbn [o_ncut o_slots set_slots]; rewrite ?zlen_map; exact H. Qed.

Lemma used_row f x px o : used_slots (range_row f x px o) =
  map (fun s => match m_psf f with
                | Some _ => set_psf_start (set_start s (s_start s - x)) (s_psf_start s - px)
                | None => set_start s (s_start s - x) end) (used_slots o).
Proof.
  unfold range_row, shift_psf_start, shift_start. destruct (m_psf f).
  - rewrite used_map, used_map, map_map. reflexivity.
  - rewrite used_map. reflexivity.
Qed.

Lemma row_same f x px o : same_but_starts o (range_row f x px o).
Proof.
  unfold range_row, shift_psf_start, shift_start. split.
  - destruct (m_psf f); reflexivity.
  - assert (H : o_slots (range_row f x px o) = map (fun s => match m_psf f with
                | Some _ => set_psf_start (set_start s (s_start s - x)) (s_psf_start s - px)
                | None => set_start s (s_start s - x) end) (o_slots o)).
    { unfold range_row, shift_psf_start, shift_start. destruct (m_psf f); cbn [o_slots set_slots]; rewrite ?map_map; reflexivity. }
    unfold range_row, shift_psf_start, shift_start in H. rewrite H. clear H.
    induction (o_slots o) as [|s l IH]; constructor; [|exact IH]. destruct (m_psf f), s; reflexivity.
Qed.

Lemma row_box f x px o : o_box (range_row f x px o) = o_box o /\ o_ncut (range_row f x px o) = o_ncut o.
Proof. unfold range_row. destruct (m_psf f); split; reflexivity. Qed.

Lemma cut_ranges_row f x px objs :
  cut_ranges (map (range_row f x px) objs) = map (fun r => (fst r - x, snd r - x)) (cut_ranges objs).
Proof.
  unfold cut_ranges. induction objs as [|o objs IH]; [reflexivity|]. cbn [map flat_map]. rewrite map_app. f_equal; [|exact IH].
  rewrite used_row, (proj1 (row_box f x px o)), !map_map. apply map_ext. intros s. destruct (m_psf f), s; cbn; f_equal; ring.
Qed.

Lemma psf_ranges_row cols f p x px objs : m_psf f = Some p ->
  psf_pixel_ranges cols (map (range_row f x px) objs) = map (fun r => (fst r - px, snd r - px)) (psf_pixel_ranges cols objs).
Proof.
  intros E. unfold psf_pixel_ranges. induction objs as [|o objs IH]; [reflexivity|]. cbn [map flat_map]. rewrite map_app. f_equal; [|exact IH].
  rewrite used_row, E, !map_map. apply map_ext. intros s.
  rewrite (psf_npix_same cols o (range_row f x px o) s (set_psf_start (set_start s (s_start s - x)) (s_psf_start s - px)))
    by (try apply row_same; destruct s; reflexivity).
  cbn. f_equal. ring.
Qed.

Lemma psf_ranges_shift cols x objs : psf_pixel_ranges cols (map (shift_start x) objs) = psf_pixel_ranges cols objs.
Proof.
  unfold psf_pixel_ranges. induction objs as [|o objs IH]; [reflexivity|]. cbn [map flat_map]. f_equal; [|exact IH].
  unfold shift_start. rewrite used_map, map_map. apply map_ext. intros s. destruct cols, s; reflexivity.
Qed.

(** * The extracted file *)
(** The pixel ranges of the sub-catalog. *)
Definition in_range (f : medsfile) (objs : list obj) (x y px py : Z) : Prop :=
  0 <= x /\ x < y /\ tiles x (cut_ranges objs) y /\
  (forall t m, ext_find (m_ext f) t = Some m -> y <= zlen m) /\
  forall p, m_psf f = Some p -> 0 <= px /\ px < py /\ py <= zlen p /\ tiles px (psf_pixel_ranges (m_psf_cols f) objs) py.

Lemma tiles_same_end rs : forall a b b', tiles a rs b -> tiles a rs b' -> b = b'.
Proof.
  intros a b b' T. revert b'. induction T as [a|a m rs b L T IH]; intros b' T'; inversion T'; subst; [reflexivity|]. apply IH. assumption.
Qed.

Lemma tiles_pos st sz cat x y o s : tiles x (lranges st sz cat) y -> In o cat -> In s (used_slots o) -> 0 < sz o s -> x < y.
Proof. intros T I1 I2 P. destruct (in_tiles _ _ _ _ _ _ _ T I1 I2). lia. Qed.

Lemma In_used o k s : fits o -> zget (o_slots o) k = Some s -> 0 <= k < o_ncut o -> In s (used_slots o).
Proof. intros F Z K. apply zget_In with (i := k). rewrite used_zget. replace (k <? o_ncut o) with true by lia. exact Z. Qed.

Lemma used_In o s : fits o -> In s (used_slots o) -> exists k, zget (o_slots o) k = Some s /\ 0 <= k < o_ncut o.
Proof.
  intros F I. destruct (In_zget _ _ I) as (k & Z). exists k. pose proof (zget_Some_range _ _ _ Z) as R. rewrite used_len in R by exact F.
  rewrite used_zget in Z. replace (k <? o_ncut o) with true in Z by lia. split; [exact Z|lia].
Qed.

Lemma in_range_exists f pre objs post t0 m0 : file_wf f -> psf_wf f -> m_cat f = pre ++ objs ++ post ->
  ext_find (m_ext f) t0 = Some m0 -> (exists o, In o objs /\ 0 < o_ncut o) ->
  exists x y px py, in_range f objs x y px py.
Proof.
  intros (W & T) P E X (o & I & N).
  assert (Io : In o (m_cat f)) by (rewrite E; apply in_or_app; right; apply in_or_app; left; exact I).
  assert (Fo : fits o /\ 0 < o_box o) by (rewrite Forall_forall in W; specialize (W _ Io); unfold fits; tauto).
  destruct Fo as (Fo & Bo). destruct (slot_exists o 0 Fo) as (s & Zs); [lia|].
  assert (Is : In s (used_slots o)) by (apply (In_used o 0); [exact Fo|exact Zs|lia]).
  pose proof (T _ _ X) as T0. rewrite E in T0.
  destruct (sub_tiles s_start (fun o _ => o_box o * o_box o) pre objs post (zlen m0) T0) as (x & y & H1 & H2 & H3 & H4).
  assert (XY : x < y) by (apply (tiles_pos _ _ _ _ _ o s H4 I Is); nia).
  assert (L : forall t m, ext_find (m_ext f) t = Some m -> y <= zlen m).
  { intros t m Em. pose proof (T _ _ Em) as T1. rewrite E in T1. assert (zlen m = zlen m0) by (eapply tiles_same_end; eassumption). lia. }
  destruct (m_psf f) as [p|] eqn:Ep.
  - destruct (P p Ep) as (C & Tp & Np). rewrite E in Tp.
    destruct (sub_tiles s_psf_start (psf_npix (m_psf_cols f)) pre objs post (zlen p) Tp) as (px & py & G1 & G2 & G3 & G4).
    assert (PXY : px < py) by (apply (tiles_pos _ _ _ _ _ o s G4 I Is); apply Np; assumption).
    exists x, y, px, py. repeat split; try assumption; rewrite Ep in H; injection H as <-; assumption.
  - exists x, y, 0, 0. repeat split; try assumption; congruence.
Qed.

Lemma slice_cat f a b objs : slice (m_cat f) a b = Ok objs -> file_wf f -> Forall fits objs /\ Forall (fun o => 0 < o_box o) objs.
Proof.
  intros E (W & _). destruct (slice_parts _ _ _ _ E) as (pre & post & Ec & _). rewrite Ec in W. rewrite !Forall_app in W.
  destruct W as (_ & W & _). split; (eapply Forall_impl; [|exact W]); cbv beta; unfold fits; tauto.
Qed.

Lemma range_eq ca f a b objs x y px py : file_wf f ->
  slice (m_cat f) a (b + 1) = Ok objs -> (exists o, In o objs /\ 0 < o_ncut o) ->
  (m_psf f <> None -> psf_extractable (m_psf_cols f)) ->
  has_ext f TImage -> has_ext f TWeight -> has_ext f TSeg ->
  in_range f objs x y px py ->
  extract_range ca f a b = Ok (range_result ca f objs x y px py).
Proof.
  intros W E N C (mi & Ei) (mw & Ew) (ms & Es) (R1 & R2 & R3 & R4 & R5). destruct (slice_cat _ _ _ _ E W) as (F & _).
  unfold extract_range. rewrite E. cbn [bind]. rewrite (row_range_eq objs x y F R3 N). cbn [bind].
  replace (x =? -1) with false by lia.
  assert (S : forall t m, ext_find (m_ext f) t = Some m -> slice m x y = Ok (sub m x y)).
  { intros t m Em. apply slice_sub; [lia|lia|apply (R4 t); exact Em]. }
  assert (X1 : forall t m, ext_find (m_ext f) t = Some m -> cut_ext f x y t = Ok (t, sub m x y)).
  { intros t m Em. unfold cut_ext, in_ext. rewrite Em. cbn [bind]. rewrite (S t m Em). reflexivity. }
  assert (X2 : forall t, cut_opt f x y t = Ok (match ext_find (m_ext f) t with Some m => [(t, sub m x y)] | None => [] end)).
  { intros t. unfold cut_opt. destruct (ext_find (m_ext f) t) as [m|] eqn:Em; [|reflexivity]. rewrite (S t m Em). reflexivity. }
  unfold range_result, range_ext. cbn [flat_map]. rewrite Ei, Ew, Es, app_nil_r.
  destruct (m_psf f) as [p|] eqn:Ep.
  - destruct (R5 p eq_refl) as (P1 & P2 & P3 & P4). rewrite (psf_row_range_eq (m_psf_cols f) _ px py).
    + cbn [bind]. replace (px =? -1) with false by lia. rewrite (X1 _ _ Ei), (X1 _ _ Ew), (X1 _ _ Es), !X2. cbn [bind].
      rewrite (slice_sub p px py) by lia. cbn [bind option_map]. rewrite map_map. unfold range_row. rewrite Ep.
      rewrite <- !app_assoc. reflexivity.
    + apply C. discriminate.
    + clear -F. induction F as [|o l H _ IH]; constructor; [|exact IH]. unfold fits, shift_start in *. cbn [o_ncut o_slots set_slots]. rewrite zlen_map. exact H.
    + rewrite psf_ranges_shift. exact P4.
    + destruct N as (o & I & N). exists (shift_start x o). split; [apply in_map; exact I|exact N].
  - cbn [bind]. rewrite (X1 _ _ Ei), (X1 _ _ Ew), (X1 _ _ Es), !X2. cbn [bind option_map]. unfold range_row. rewrite Ep.
    rewrite <- !app_assoc. reflexivity.
Qed.

(** * What the extracted file holds *)
Lemma result_ext ca f objs x y px py t : t <> TOrmask ->
  ext_find (m_ext (range_result ca f objs x y px py)) t = option_map (fun m => sub m x y) (ext_find (m_ext f) t).
Proof.
  intros H. cbn [m_ext range_result]. rewrite ext_find_app, range_ext_find. destruct (ext_find (m_ext f) t) as [m|] eqn:E.
  - destruct t; try reflexivity. congruence.
  - replace (match t with TOrmask => None | _ => option_map (fun m : list Q => sub m x y) None end) with (@None (list Q)) by (destruct t; reflexivity).
    cbn [option_map]. destruct ca; [|reflexivity]. unfold copied_ext. revert E. induction (m_ext f) as [|[t' m'] e IH]; intros E; [reflexivity|].
    cbn [ext_find] in E. destruct (ctype_eqb t' t) eqn:Q; [discriminate|]. cbn [filter fst snd].
    destruct (match t' with TOrmask | TNoise => negb (zlen m' =? 0) | _ => false end); [cbn [ext_find]; rewrite Q|]; apply IH; exact E.
Qed.

Lemma result_same ca f a b objs x y px py : file_wf f -> psf_wf f -> slice (m_cat f) a (b + 1) = Ok objs ->
  in_range f objs x y px py ->
  let g := range_result ca f objs x y px py in
  zlen (m_cat g) = b + 1 - a /\
  forall i o, 0 <= i <= b - a -> zget (m_cat f) (a + i) = Some o ->
    zget (m_cat g) i = Some (range_row f x px o) /\ same_but_starts o (range_row f x px o) /\
    (forall t, t <> TOrmask -> same_cutouts f (a + i) g i t) /\ same_psfs f (a + i) g i.
Proof.
  intros W P E R g. destruct (slice_ok _ _ _ _ E) as (B1 & B2 & B3 & B4). destruct (slice_cat _ _ _ _ E W) as (F & BX).
  destruct R as (R1 & R2 & R3 & R4 & R5). split; [cbn [g m_cat range_result]; rewrite zlen_map; exact B3|].
  intros i o Hi Zo. assert (Zi : zget objs i = Some o) by (rewrite B4 by lia; exact Zo).
  assert (Io : In o objs) by (eapply zget_In; exact Zi).
  assert (Zg : zget (m_cat g) i = Some (range_row f x px o)) by (cbn [g m_cat range_result]; rewrite zget_map, Zi; reflexivity).
  assert (Fo : fits o) by (rewrite Forall_forall in F; apply F; exact Io).
  split; [exact Zg|]. split; [apply row_same|]. split.
  - intros t Ht. apply (cutouts_transfer f g i (a + i) o (range_row f x px o) t Zo Zg (row_same _ _ _ _) Fo).
    + unfold g. rewrite result_ext by exact Ht. destruct (ext_find (m_ext f) t); cbn; split; congruence.
    + intros m m' k s s' E1 E2 K Z1 Z2. unfold g in E2. rewrite result_ext, E1 in E2 by exact Ht. cbn [option_map] in E2. injection E2 as <-.
      assert (Is : In s (used_slots o)) by (apply (In_used o k); assumption).
      destruct (in_tiles s_start (fun o _ => o_box o * o_box o) objs o s x y R3 Io Is) as (T1 & T2 & T3).
      assert (Es' : s_start s' = s_start s - x).
      { unfold range_row, shift_psf_start, shift_start in Z2. destruct (m_psf f); cbn [o_slots set_slots] in Z2; rewrite ?map_map, zget_map, Z1 in Z2; cbn [option_map] in Z2; injection Z2 as <-; reflexivity. }
      rewrite Es'. replace (s_start s - x + o_box o * o_box o) with (s_start s + o_box o * o_box o - x) by ring.
      apply (slice_slice m (sub m x y) x y); [apply slice_sub; [lia|lia|apply (R4 t); exact E1]|lia|lia].
  - apply (psfs_transfer f g i (a + i) o (range_row f x px o) Zo Zg (row_same _ _ _ _) Fo).
    + reflexivity.
    + cbn [g m_psf range_result]. destruct (m_psf f); cbn; split; congruence.
    + intros p p' k s s' E1 E2 K Z1 Z2. cbn [g m_psf range_result] in E2. rewrite E1 in E2. cbn [option_map] in E2. injection E2 as <-.
      assert (Is : In s (used_slots o)) by (apply (In_used o k); assumption).
      destruct (R5 p E1) as (P1 & P2 & P3 & P4).
      destruct (in_tiles s_psf_start (psf_npix (m_psf_cols f)) objs o s px py P4 Io Is) as (T1 & T2 & T3).
      assert (Es' : s_psf_start s' = s_psf_start s - px).
      { unfold range_row, shift_psf_start, shift_start in Z2. rewrite E1 in Z2. cbn [o_slots set_slots] in Z2. rewrite map_map, zget_map, Z1 in Z2. cbn [option_map] in Z2. injection Z2 as <-. reflexivity. }
      rewrite Es'. set (n := psf_npix (m_psf_cols f) o s) in *. replace (s_psf_start s - px + n) with (s_psf_start s + n - px) by ring.
      apply (slice_slice p (sub p px py) px py); [apply slice_sub; lia|lia|lia].
Qed.

Lemma result_wf f a b objs x y px py : file_wf f -> psf_wf f -> slice (m_cat f) a (b + 1) = Ok objs ->
  in_range f objs x y px py -> file_wf (range_result false f objs x y px py) /\ psf_wf (range_result false f objs x y px py).
Proof.
  intros W P E (R1 & R2 & R3 & R4 & R5). destruct (slice_cat _ _ _ _ E W) as (F & BX). split.
  - split.
    + cbn [m_cat range_result]. rewrite Forall_forall in *. intros o' I. apply in_map_iff in I. destruct I as (o & <- & I).
      destruct (row_box f x px o) as (-> & _). split; [apply fits_row; apply F; exact I|apply BX; exact I].
    + intros t m Em. assert (Ht : t <> TOrmask).
      { intros ->. cbn [m_ext range_result] in Em. rewrite app_nil_r, range_ext_find in Em. discriminate. }
      rewrite result_ext in Em by exact Ht. destruct (ext_find (m_ext f) t) as [m0|] eqn:E0; [|discriminate]. cbn [option_map] in Em. injection Em as <-.
      rewrite sub_len by (try lia; apply (R4 t); exact E0). cbn [m_cat range_result]. replace 0 with (x - x) by ring.
      apply (tiles_shift x _ x y _ R3). apply cut_ranges_row.
  - intros p Ep. cbn [m_psf range_result] in Ep. destruct (m_psf f) as [p0|] eqn:E0; [|discriminate]. cbn [option_map] in Ep. injection Ep as <-.
    destruct (P p0 E0) as (C & _ & N). destruct (R5 p0 eq_refl) as (P1 & P2 & P3 & P4). split; [exact C|]. split.
    + rewrite sub_len by lia. cbn [m_cat m_psf_cols range_result]. replace 0 with (px - px) by ring.
      apply (tiles_shift px _ px py _ P4). apply (psf_ranges_row _ _ p0). exact E0.
    + cbn [m_cat m_psf_cols range_result]. intros o' s' I Is. apply in_map_iff in I. destruct I as (o & <- & I).
      rewrite used_row, E0 in Is. apply in_map_iff in Is. destruct Is as (s & <- & Is).
      rewrite (psf_npix_same _ o (range_row f x px o) s _ (row_same _ _ _ _)) by (destruct s; reflexivity).
      apply N; [|exact Is]. destruct (slice_parts _ _ _ _ E) as (pre & post & Ec & _). rewrite Ec.
      apply in_or_app; right; apply in_or_app; left; exact I.
Qed.

Lemma result_has ca f objs x y px py t : t <> TOrmask -> has_ext f t -> has_ext (range_result ca f objs x y px py) t.
Proof. intros H (m & E). eexists. rewrite result_ext by exact H. rewrite E. reflexivity. Qed.

(** Extraction of a range holding a cutout. *)
Lemma range_ok ca f a b : file_wf f -> psf_wf f -> (m_psf f <> None -> psf_extractable (m_psf_cols f)) ->
  has_ext f TImage -> has_ext f TWeight -> has_ext f TSeg ->
  0 <= a -> b < zlen (m_cat f) ->
  (exists i o, a <= i <= b /\ zget (m_cat f) i = Some o /\ 0 < o_ncut o) ->
  exists g, extract_range ca f a b = Ok g /\ zlen (m_cat g) = b - a + 1 /\ m_info g = m_info f /\
    m_number_col g = m_number_col f /\ m_psf_cols g = m_psf_cols f /\
    (ca = false -> file_wf g /\ psf_wf g) /\
    (forall t, t <> TOrmask -> (has_ext g t <-> has_ext f t)) /\
    forall i o, 0 <= i <= b - a -> zget (m_cat f) (a + i) = Some o ->
      (exists o', zget (m_cat g) i = Some o' /\ same_but_starts o o') /\
      (forall t, t <> TOrmask -> same_cutouts f (a + i) g i t) /\ same_psfs f (a + i) g i.
Proof.
  intros W P C Hi Hw Hs A B (i0 & o0 & I0 & Z0 & N0).
  destruct (slice_in_range (m_cat f) a (b + 1)) as (objs & E); [lia|lia|lia|].
  destruct (slice_ok _ _ _ _ E) as (_ & _ & _ & B4).
  assert (N : exists o, In o objs /\ 0 < o_ncut o).
  { exists o0. split; [|exact N0]. apply zget_In with (i := i0 - a). rewrite B4 by lia. replace (a + (i0 - a)) with i0 by lia. exact Z0. }
  destruct (slice_parts _ _ _ _ E) as (pre & post & Ec & _). destruct Hi as (mi & Ei).
  destruct (in_range_exists f pre objs post TImage mi W P Ec Ei N) as (x & y & px & py & R).
  pose proof (range_eq ca f a b objs x y px py W E N C (ex_intro _ mi Ei) Hw Hs R) as EQ.
  destruct (result_same ca f a b objs x y px py W P E R) as (S1 & S2).
  exists (range_result ca f objs x y px py). split; [exact EQ|]. split; [rewrite S1; ring|]. split; [reflexivity|]. split; [reflexivity|]. split; [reflexivity|].
  split; [intros ->; apply (result_wf f a b); assumption|]. split.
  - intros t Ht. split; [|apply result_has; exact Ht]. intros (m & Em). rewrite result_ext in Em by exact Ht.
    destruct (ext_find (m_ext f) t) as [m0|] eqn:E0; [exists m0; exact E0|discriminate].
  - intros i o Hio Zo. destruct (S2 i o Hio Zo) as (Q1 & Q2 & Q3 & Q4). split; [eexists; split; [exact Q1|exact Q2]|]. split; assumption.
Qed.

(** * Composition *)
Lemma range_row_row f x px x2 px2 ca objs0 y py o :
  range_row (range_result ca f objs0 x y px py) (x2 - x) (px2 - px) (range_row f x px o) = range_row f x2 px2 o.
Proof.
  unfold range_row. cbn [m_psf range_result]. unfold shift_psf_start, shift_start. destruct (m_psf f); cbn [option_map o_slots set_slots];
    unfold set_slots; cbn [o_id o_number o_box o_ra o_dec o_color o_wcs_color o_psf_color o_psf_nr o_psf_nc o_psf_box o_ncut o_slots];
    f_equal; rewrite !map_map; apply map_ext; intros s; unfold set_psf_start, set_start; cbn; f_equal; ring.
Qed.

Lemma slice_map {A B} (g : A -> B) m a b : slice (map g m) a b = rmap (map g) (slice m a b).
Proof. unfold slice. rewrite zlen_map. destruct (_ && _); [|reflexivity]. cbn [rmap]. rewrite skipn_map, firstn_map. reflexivity. Qed.

Lemma range_compose f a b c d g : file_wf f -> psf_wf f -> (m_psf f <> None -> psf_extractable (m_psf_cols f)) ->
  has_ext f TImage -> has_ext f TWeight -> has_ext f TSeg ->
  0 <= a -> b < zlen (m_cat f) -> 0 <= c -> d <= b - a ->
  (exists i o, a + c <= i <= a + d /\ zget (m_cat f) i = Some o /\ 0 < o_ncut o) ->
  extract_range false f a b = Ok g ->
  extract_range false g c d = extract_range false f (a + c) (a + d).
Proof.
  intros W P C Hi Hw Hs A B HC HD (i0 & o0 & I0 & Z0 & N0) EQ.
  destruct (slice_in_range (m_cat f) a (b + 1)) as (objs & E); [lia|lia|lia|].
  destruct (slice_ok _ _ _ _ E) as (_ & _ & _ & B4).
  assert (N : exists o, In o objs /\ 0 < o_ncut o).
  { exists o0. split; [|exact N0]. apply zget_In with (i := i0 - a). rewrite B4 by lia. replace (a + (i0 - a)) with i0 by lia. exact Z0. }
  destruct (slice_parts _ _ _ _ E) as (pre & post & Ec & _). destruct Hi as (mi & Ei).
  destruct (in_range_exists f pre objs post TImage mi W P Ec Ei N) as (x & y & px & py & R).
  pose proof (range_eq false f a b objs x y px py W E N C (ex_intro _ mi Ei) Hw Hs R) as EQ1. rewrite EQ in EQ1. injection EQ1 as ->.
  destruct (slice_in_range (m_cat f) (a + c) (a + d + 1)) as (objs2 & E2); [lia|lia|lia|].
  destruct (slice_ok _ _ _ _ E2) as (_ & _ & _ & B42).
  assert (N2 : exists o, In o objs2 /\ 0 < o_ncut o).
  { exists o0. split; [|exact N0]. apply zget_In with (i := i0 - (a + c)). rewrite B42 by lia. replace (a + c + (i0 - (a + c))) with i0 by lia. exact Z0. }
  assert (E3 : slice objs c (d + 1) = Ok objs2).
  { rewrite <- E2. replace c with (a + c - a) at 1 by lia. replace (d + 1) with (a + d + 1 - a) by lia. apply (slice_slice _ _ _ (b + 1)); [exact E|lia|lia]. }
  destruct (slice_parts _ _ _ _ E3) as (pre2 & post2 & Eo & _).
  (* ranges of the inner part *)
  pose proof R as (R1 & R2 & R3 & R4 & R5).
  assert (R' : exists x2 y2 px2 py2, in_range f objs2 x2 y2 px2 py2 /\ x <= x2 /\ y2 <= y /\ (m_psf f <> None -> px <= px2 /\ py2 <= py)).
  { destruct (in_range_exists f (pre ++ pre2) objs2 (post2 ++ post) TImage mi W P) as (x2 & y2 & px2 & py2 & R').
    - rewrite Ec, Eo, <- !app_assoc. reflexivity.
    - exact Ei.
    - exact N2.
    - exists x2, y2, px2, py2. split; [exact R'|]. destruct R' as (Q1 & Q2 & Q3 & Q4 & Q5). destruct N2 as (o2 & Io2 & No2).
      assert (Io2' : In o2 objs) by (rewrite Eo; apply in_or_app; right; apply in_or_app; left; exact Io2).
      assert (Fo : Forall fits objs2 /\ Forall (fun o => 0 < o_box o) objs2) by (apply (slice_cat f (a + c) (a + d + 1)); assumption).
      destruct Fo as (Fo & Bo).
      assert (SUB : forall st sz u v u2 v2, tiles u (lranges st sz objs) v -> tiles u2 (lranges st sz objs2) v2 -> u <= u2 /\ v2 <= v).
      { intros st sz u v u2 v2 T1 T2. rewrite Eo, !lranges_app in T1. destruct (tiles_split _ _ _ _ T1) as (m1 & T3 & T4). destruct (tiles_split _ _ _ _ T4) as (m2 & T5 & T6).
        assert (lranges st sz objs2 <> []).
        { assert (In o2 objs2) as J by exact Io2. destruct (used_slots o2) as [|s l] eqn:U.
          - pose proof (used_len o2) as L. rewrite Forall_forall in Fo. specialize (L (Fo _ J)). rewrite U in L. unfold zlen in L. cbn in L. lia.
          - intros Q. assert (In (st s, st s + sz o2 s) (lranges st sz objs2)) as K.
            { apply in_flat_map. exists o2. split; [exact J|]. rewrite U. left. reflexivity. }
            rewrite Q in K. destruct K. }
        destruct (lranges st sz objs2) as [|r rs] eqn:U; [congruence|].
        assert (u2 = m1) by (apply tiles_first in T2; apply tiles_first in T5; congruence). subst u2.
        assert (v2 = m2) by (eapply tiles_same_end; eassumption). subst v2.
        apply tiles_le in T3. apply tiles_le in T6. lia. }
      destruct (SUB s_start (fun o _ => o_box o * o_box o) x y x2 y2 R3 Q3). split; [lia|]. split; [lia|].
      intros HP. destruct (m_psf f) as [p|] eqn:Ep; [|congruence]. destruct (R5 p eq_refl) as (_ & _ & _ & G1). destruct (Q5 p eq_refl) as (_ & _ & _ & G2).
      apply (SUB s_psf_start (psf_npix (m_psf_cols f)) px py px2 py2 G1 G2). }
  destruct R' as (x2 & y2 & px2 & py2 & R' & X1 & X2 & X3).
  rewrite (range_eq false f (a + c) (a + d) objs2 x2 y2 px2 py2 W E2 N2 C (ex_intro _ mi Ei) Hw Hs R').
  set (g := range_result false f objs x y px py) in *.
  destruct (result_wf f a b objs x y px py W P E R) as (Wg & Pg). fold g in Wg, Pg.
  pose proof R' as (Q1 & Q2 & Q3 & Q4 & Q5).
  assert (Rg : in_range g (map (range_row f x px) objs2) (x2 - x) (y2 - x) (px2 - px) (py2 - px)).
  { split; [lia|]. split; [lia|]. split; [apply (tiles_shift x _ x2 y2 _ Q3); apply cut_ranges_row|]. split.
    - intros t m Em. destruct (ctype_eqb t TOrmask) eqn:Et.
      + destruct t; try discriminate. unfold g in Em. cbn [m_ext range_result] in Em. rewrite app_nil_r, range_ext_find in Em. discriminate.
      + unfold g in Em. rewrite result_ext in Em by (intros ->; discriminate). destruct (ext_find (m_ext f) t) as [m0|] eqn:E0; [|discriminate].
        cbn [option_map] in Em. injection Em as <-. rewrite sub_len by (try lia; apply (R4 t); exact E0). lia.
    - intros p Ep. unfold g in Ep. cbn [m_psf range_result] in Ep. destruct (m_psf f) as [p0|] eqn:E0; [|discriminate]. cbn [option_map] in Ep. injection Ep as <-.
      destruct (R5 p0 eq_refl) as (P1 & P2 & P3 & P4). destruct (Q5 p0 eq_refl) as (P5 & P6 & P7 & P8). destruct (X3 ltac:(congruence)) as (Y1 & Y2).
      split; [lia|]. split; [lia|]. split; [rewrite sub_len by lia; lia|]. apply (tiles_shift px _ px2 py2 _ P8). apply (psf_ranges_row _ _ p0). exact E0. }
  assert (Eg : slice (m_cat g) c (d + 1) = Ok (map (range_row f x px) objs2)).
  { unfold g. cbn [m_cat range_result]. rewrite slice_map, E3. reflexivity. }
  rewrite (range_eq false g c d (map (range_row f x px) objs2) (x2 - x) (y2 - x) (px2 - px) (py2 - px) Wg Eg).
  - f_equal. unfold range_result at 1 2. f_equal.
    + rewrite map_map. apply map_ext. intros o. apply range_row_row.
    + rewrite !app_nil_r. unfold range_ext. cbn [flat_map]. unfold g. rewrite !result_ext by discriminate.
      assert (SS : forall t m, ext_find (m_ext f) t = Some m -> sub (sub m x y) (x2 - x) (y2 - x) = sub m x2 y2).
      { intros t m Em. apply sub_sub; try lia; apply (R4 t); exact Em. }
      destruct (ext_find (m_ext f) TImage) eqn:U1; destruct (ext_find (m_ext f) TWeight) eqn:U2; destruct (ext_find (m_ext f) TSeg) eqn:U3;
      destruct (ext_find (m_ext f) TBmask) eqn:U4; destruct (ext_find (m_ext f) TNoise) eqn:U5; cbn [option_map];
      rewrite ?(SS _ _ U1), ?(SS _ _ U2), ?(SS _ _ U3), ?(SS _ _ U4), ?(SS _ _ U5); reflexivity.
    + unfold g. cbn [m_psf range_result]. destruct (m_psf f) as [p|] eqn:Ep; [|reflexivity]. cbn [option_map]. f_equal.
      destruct (R5 p eq_refl) as (P1 & P2 & P3 & P4). destruct (Q5 p eq_refl) as (P5 & P6 & P7 & P8). destruct (X3 ltac:(congruence)) as (Y1 & Y2).
      apply sub_sub; lia.
  - destruct N2 as (o & I & No). exists (range_row f x px o). split; [apply in_map; exact I|]. destruct (row_box f x px o) as (_ & ->). exact No.
  - unfold g. cbn [m_psf m_psf_cols range_result]. intros Q. apply C. destruct (m_psf f); [discriminate|exact Q].
  - apply result_has; [discriminate|exists mi; exact Ei].
  - apply result_has; [discriminate|exact Hw].
  - apply result_has; [discriminate|exact Hs].
  - exact Rg.
Qed.
