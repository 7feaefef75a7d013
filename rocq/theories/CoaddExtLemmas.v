(** Files of coadds for the extractors: the mosaics reach past the last cutout.
    The file cut at the end of the last cutout is well formed, and the range
    extractor and the reader do the same with both. *)
From Coq Require Import Lia ZifyBool ZifyNat.
From Verif Require Import Base BaseLemmas Img ImgLemmas Types Reader ReadLemmas StartLemmas Extract Coadd
  SpecTiles SpecFile SpecExtract SpecComposite SpecCoadd FileLemmas ExtractLemmas ExtractLemmas2 CoaddLemmas CoaddLemmas2 CoaddLemmas3 CoaddLemmas5 CoaddLemmas6.
Open Scope Z_scope.

(** * Cut files *)
Definition head_of {A} (e : Z) (m : list A) : list A := firstn (Z.to_nat e) m.
Definition cut_at (e pe : Z) (f : medsfile) : medsfile :=
  mkMeds (m_cat f) (m_number_col f) (m_psf_cols f) (m_info f)
    (map (fun x => (fst x, head_of e (snd x))) (m_ext f)) (option_map (head_of pe) (m_psf f)).

Lemma head_len {A} e (m : list A) : 0 <= e <= zlen m -> zlen (head_of e m) = e.
Proof. unfold head_of, zlen. rewrite firstn_length. lia. Qed.
Lemma head_slice {A} e (m : list A) a b xs : slice (head_of e m) a b = Ok xs -> slice m a b = Ok xs.
Proof.
  unfold slice, head_of. intros H. destruct ((0 <=? a) && (a <? b) && (b <=? zlen (firstn (Z.to_nat e) m))) eqn:E; [|discriminate].
  assert (L : zlen (firstn (Z.to_nat e) m) <= zlen m) by (unfold zlen; rewrite firstn_length; lia).
  assert (L2 : b <= e) by (unfold zlen in E; rewrite firstn_length in E; lia).
  replace ((0 <=? a) && (a <? b) && (b <=? zlen m)) with true by lia. injection H as <-. f_equal.
  rewrite skipn_firstn_comm, firstn_firstn. f_equal. lia.
Qed.
Lemma cut_find e pe f t : ext_find (m_ext (cut_at e pe f)) t = option_map (head_of e) (ext_find (m_ext f) t).
Proof. cbn [cut_at m_ext]. induction (m_ext f) as [|[t' m] l IH]; [reflexivity|]. cbn [map ext_find fst snd]. destruct (ctype_eqb t' t); [reflexivity|exact IH]. Qed.

Lemma cut_extract e pe f a b g : extract_range false (cut_at e pe f) a b = Ok g -> extract_range false f a b = Ok g.
Proof.
  unfold extract_range. change (m_cat (cut_at e pe f)) with (m_cat f). destruct (slice (m_cat f) a (b + 1)) as [objs|]; [cbn [bind]|discriminate].
  destruct (row_range objs) as [[cs ce]|]; [cbn [bind]|discriminate].
  change (m_psf_cols (cut_at e pe f)) with (m_psf_cols f). change (m_number_col (cut_at e pe f)) with (m_number_col f). change (m_info (cut_at e pe f)) with (m_info f).
  change (m_psf (cut_at e pe f)) with (option_map (head_of pe) (m_psf f)).
  assert (P : match option_map (head_of pe) (m_psf f) with Some _ => psf_row_range (m_psf_cols f) (if cs =? -1 then objs else map (shift_start cs) objs) | None => Ok (-1, -1) end =
              match m_psf f with Some _ => psf_row_range (m_psf_cols f) (if cs =? -1 then objs else map (shift_start cs) objs) | None => Ok (-1, -1) end) by (destruct (m_psf f); reflexivity).
  rewrite P. clear P. match goal with |- context [bind ?x _] => destruct x as [[ps pe']|]; [cbn [bind]|discriminate] end.
  destruct (cs =? -1); [exact (fun H => H)|].
  assert (C : forall t x, cut_ext (cut_at e pe f) cs ce t = Ok x -> cut_ext f cs ce t = Ok x).
  { intros t x. unfold cut_ext, in_ext. rewrite cut_find. destruct (ext_find (m_ext f) t) as [m|]; cbn [option_map bind]; [|discriminate].
    intros H. apply bind_ok in H. destruct H as (xs & H & X). apply head_slice in H. rewrite H. exact X. }
  assert (O : forall t x, cut_opt (cut_at e pe f) cs ce t = Ok x -> cut_opt f cs ce t = Ok x).
  { intros t x. unfold cut_opt. rewrite cut_find. destruct (ext_find (m_ext f) t) as [m|]; cbn [option_map]; [|exact (fun H => H)].
    intros H. apply bind_ok in H. destruct H as (xs & H & X). apply head_slice in H. rewrite H. exact X. }
  intros H. apply bind_ok in H. destruct H as (x1 & H1 & H). apply bind_ok in H. destruct H as (x2 & H2 & H). apply bind_ok in H. destruct H as (x3 & H3 & H).
  apply bind_ok in H. destruct H as (x4 & H4 & H). apply bind_ok in H. destruct H as (x5 & H5 & H). apply bind_ok in H. destruct H as (x6 & H6 & H).
  rewrite (C _ _ H1), (C _ _ H2), (C _ _ H3), (O _ _ H4), (O _ _ H5). cbn [bind].
  assert (P : match m_psf f with Some p => let* x := slice p ps pe' in Ok (Some x) | None => Ok None end = Ok x6).
  { destruct (m_psf f) as [p|]; cbn [option_map] in H6; [|exact H6]. apply bind_ok in H6. destruct H6 as (xs & H6 & X). apply head_slice in H6. rewrite H6. exact X. }
  rewrite P. exact H.
Qed.

(** * The reader *)
Definition roomy (e pe : Z) (f : medsfile) : Prop :=
  Forall (fun o => 0 <= o_ncut o <= zlen (o_slots o) /\ 0 < o_box o) (m_cat f) /\
  0 <= e /\ 0 <= pe /\ tiles 0 (cut_ranges (m_cat f)) e /\ (forall t m, ext_find (m_ext f) t = Some m -> e <= zlen m) /\
  forall p, m_psf f = Some p -> pe <= zlen p /\ m_psf_cols f <> PsfNone /\ tiles 0 (psf_pixel_ranges (m_psf_cols f) (m_cat f)) pe /\
    forall o s, In o (m_cat f) -> In s (used_slots o) -> 0 < psf_npix (m_psf_cols f) o s.

Lemma cut_wf e pe f : roomy e pe f -> file_wf (cut_at e pe f) /\ psf_wf (cut_at e pe f).
Proof.
  intros (W & E0 & P0 & T & X & P). split.
  - split; [exact W|]. intros t m F. rewrite cut_find in F. destruct (ext_find (m_ext f) t) as [m0|] eqn:F0; [|discriminate]. injection F as <-.
    rewrite head_len by (split; [exact E0|apply (X t); exact F0]). exact T.
  - intros p Hp. change (option_map (head_of pe) (m_psf f) = Some p) in Hp. destruct (m_psf f) as [p0|] eqn:F0; [|discriminate]. injection Hp as <-.
    destruct (P p0 eq_refl) as (L & N & TP & S). split; [exact N|]. split; [|exact S]. rewrite head_len by lia. exact TP.
Qed.

Lemma used_at o k s : 0 <= k < o_ncut o -> zget (o_slots o) k = Some s -> In s (used_slots o).
Proof.
  intros K Z. unfold used_slots. unfold zget in Z. destruct (k <? 0) eqn:N; [discriminate|].
  apply nth_error_In with (n := Z.to_nat k). clear N. revert K Z. generalize (o_slots o). intros l K Z.
  rewrite <- Z. rewrite <- (firstn_skipn (Z.to_nat (o_ncut o)) l) at 2. destruct (Nat.lt_ge_cases (Z.to_nat k) (length (firstn (Z.to_nat (o_ncut o)) l))) as [L|L].
  - symmetry. apply nth_error_app1. exact L.
  - rewrite firstn_length in L. assert (nth_error l (Z.to_nat k) <> None) by congruence. apply nth_error_Some in H. lia.
Qed.

Lemma checked f j k o : check_indices f j (Some k) = Ok o -> In o (m_cat f) /\ k < o_ncut o.
Proof.
  unfold check_indices. destruct (zlen (m_cat f) <=? j); [discriminate|]. intros C. apply bind_ok in C. destruct C as (o' & G & C).
  destruct (o_ncut o' =? 0); [discriminate|]. destruct (o_ncut o' <=? k) eqn:L; [discriminate|]. injection C as ->. split; [|lia].
  unfold py_index in G. destruct (zget (m_cat f) _) as [x|] eqn:Z in G; [|discriminate]. injection G as ->. apply zget_In in Z. exact Z.
Qed.
Lemma slot_used o k s : 0 <= k < o_ncut o -> get_slot o k = Ok s -> In s (used_slots o).
Proof.
  intros K G. unfold get_slot, py_index in G. replace (k <? 0) with false in G by lia.
  destruct (zget (o_slots o) k) as [x|] eqn:Z; [|discriminate]. injection G as ->. apply (used_at o k); assumption.
Qed.
Lemma head_inside {A} e (m : list A) a b : 0 <= a -> b <= e -> e <= zlen m -> slice (head_of e m) a b = slice m a b.
Proof.
  intros A0 B E. destruct (slice (head_of e m) a b) as [xs|er] eqn:H; [symmetry; apply head_slice in H; exact H|].
  unfold slice in *. destruct (Z_lt_ge_dec a b) as [L|L].
  - rewrite head_len in H by lia. replace ((0 <=? a) && (a <? b) && (b <=? e)) with true in H by lia. discriminate.
  - replace (a <? b) with false in * by lia. rewrite andb_false_r in *. cbn [andb] in *. congruence.
Qed.

Lemma cut_cutout e pe f j k t : roomy e pe f -> 0 <= k -> get_cutout (cut_at e pe f) j k t = get_cutout f j k t.
Proof.
  intros R K. destruct R as (W & E0 & P0 & T & X & P). unfold get_cutout.
  change (check_indices (cut_at e pe f) j (Some k)) with (check_indices f j (Some k)).
  destruct (check_indices f j (Some k)) as [o|] eqn:C; [cbn [bind]|reflexivity]. destruct (get_slot o k) as [s|] eqn:G; [cbn [bind]|reflexivity].
  unfold get_extension. rewrite cut_find. destruct (ext_find (m_ext f) t) as [m|] eqn:F; [cbn [option_map bind]|reflexivity].
  destruct (checked _ _ _ _ C) as (I & L). pose proof (slot_used o k s ltac:(lia) G) as U.
  destruct (in_tiles s_start (fun o _ => o_box o * o_box o) (m_cat f) o s 0 e T I U) as (B1 & _ & B2).
  rewrite head_inside; [reflexivity|exact B1|exact B2|exact (X t m F)].
Qed.
Lemma cut_psf e pe f j k : roomy e pe f -> 0 <= k -> get_psf (cut_at e pe f) j k = get_psf f j k.
Proof.
  intros R K. destruct R as (W & E0 & P0 & T & X & P). unfold get_psf. change (m_psf (cut_at e pe f)) with (option_map (head_of pe) (m_psf f)).
  destruct (m_psf f) as [p|] eqn:F; [cbn [option_map]|reflexivity]. destruct (P p eq_refl) as (PL & _ & TP & _).
  change (check_indices (cut_at e pe f) j (Some k)) with (check_indices f j (Some k)).
  destruct (check_indices f j (Some k)) as [o|] eqn:C; [cbn [bind]|reflexivity]. change (get_psf_shape (cut_at e pe f) o k) with (get_psf_shape f o k).
  destruct (get_psf_shape f o k) as [sh|] eqn:SH; [cbn [bind]|reflexivity]. destruct (get_slot o k) as [s|] eqn:G; [cbn [bind]|reflexivity].
  destruct (checked _ _ _ _ C) as (I & L). pose proof (slot_used o k s ltac:(lia) G) as U.
  destruct (in_tiles s_psf_start (psf_npix (m_psf_cols f)) (m_cat f) o s 0 pe TP I U) as (B1 & _ & B2).
  assert (E : fst sh * snd sh = psf_npix (m_psf_cols f) o s).
  { unfold get_psf_shape in SH. destruct (m_psf_cols f); rewrite ?G in SH; cbn [bind] in SH; try discriminate; injection SH as <-; reflexivity. }
  rewrite E, head_inside; [reflexivity|exact B1|exact B2|exact PL].
Qed.

Lemma roomy_range e pe f a b : roomy e pe f -> (m_psf f <> None -> psf_extractable (m_psf_cols f)) ->
  has_ext f TImage -> has_ext f TWeight -> has_ext f TSeg -> 0 <= a -> b < zlen (m_cat f) ->
  (exists i o, a <= i <= b /\ zget (m_cat f) i = Some o /\ 0 < o_ncut o) ->
  exists g, extract_range false f a b = Ok g /\ zlen (m_cat g) = b - a + 1 /\ m_info g = m_info f /\
    m_number_col g = m_number_col f /\ m_psf_cols g = m_psf_cols f /\ file_wf g /\ psf_wf g /\
    (forall t, t <> TOrmask -> (has_ext g t <-> has_ext f t)) /\
    forall i o, 0 <= i <= b - a -> zget (m_cat f) (a + i) = Some o ->
      (exists o', zget (m_cat g) i = Some o' /\ same_but_starts o o') /\
      (forall t, t <> TOrmask -> same_cutouts f (a + i) g i t) /\ same_psfs f (a + i) g i.
Proof.
  intros R PE HI HW HS A B N. destruct (cut_wf _ _ _ R) as (W & P).
  assert (HX : forall t, has_ext (cut_at e pe f) t <-> has_ext f t).
  { intros t. unfold has_ext. rewrite cut_find. destruct (ext_find (m_ext f) t); cbn [option_map]; split; intros (m & H); try discriminate; eexists; reflexivity. }
  destruct (range_ok false (cut_at e pe f) a b W P) as (g & G & L & I & NC & PC & WG & X & V); try (apply HX; assumption); try assumption.
  { intros NP. apply PE. intros E. apply NP. cbn [cut_at m_psf]. rewrite E. reflexivity. }
  exists g. split; [apply (cut_extract _ _ _ _ _ _ G)|]. split; [exact L|]. split; [exact I|]. split; [exact NC|]. split; [exact PC|].
  destruct (WG eq_refl) as (W1 & W2). split; [exact W1|]. split; [exact W2|]. split.
  - intros t T. rewrite (X t T). apply HX.
  - intros i o Hi O. destruct (V i o Hi O) as (V1 & V2 & V3). split; [exact V1|]. split.
    + intros t T k K. rewrite (V2 t T k K). apply cut_cutout; assumption.
    + intros k K. rewrite (V3 k K). apply cut_psf; assumption.
Qed.

(** * The file of coadds has room to spare *)
Section Coadds.
Variables (f : medsfile) (types : list ctype) (coadder : Z -> res (option cobs * Z)) (a b : Z) (rows0 : list crow).
Hypothesis A0 : 0 <= a.
Hypothesis HS : stamp_shapes f coadder.
Hypothesis R0 : Forall2 (fun o r => o_box (cr_obj r) = o_box o /\ o_ncut (cr_obj r) = 0 /\ cr_ncoadd r = 0 /\ cr_coadd_flags r = 0 /\ zlen (o_slots (cr_obj r)) = 2) (m_cat f) rows0.
Variables (total ptotal : Z) (st : wstate).
Hypothesis I : Inv f types coadder a b rows0 total ptotal (Z.max a b) st.

Notation Sp := (Sp f coadder a b).
Notation psf_data := (psf_data f coadder a b).
Notation co_at := (co_at f coadder a b).

Local Lemma psf_room n : 0 <= ptotal -> Sp (Z.of_nat n) <= ptotal.
Proof.
  intros P. induction n as [|n IH]; [exact P|]. replace (Z.of_nat (S n)) with (Z.of_nat n + 1) by lia.
  rewrite (Sp_step f coadder a b A0 HS) by lia. destruct (psf_data (Z.of_nat n)) as [d|] eqn:D; cbn [dlen]; [|lia].
  destruct (inv_psf _ _ _ _ _ _ _ _ _ _ I) as (PL & ST).
  assert (J : Z.of_nat n < Z.max a b).
  { unfold CoaddLemmas5.psf_data in D. destruct (co_at (Z.of_nat n)) as [co|] eqn:C; [|discriminate]. apply (co_at_Some f coadder a b A0) in C. destruct C as (? & ? & _ & C & _). lia. }
  destruct (Z_lt_ge_dec 0 (zlen d)) as [L|L]; [|lia]. pose proof (ST (Z.of_nat n) d ltac:(lia) D (zlen d - 1) ltac:(lia)) as E.
  destruct (zget_range_Some d (zlen d - 1)) as (v & V); [lia|]. rewrite V in E. apply zget_Some_range in E. lia.
Qed.

(** What a row of the file looks like. *)
Local Lemma row_cases n r : nth_error (ws_rows st) n = Some r ->
  (o_ncut (cr_obj r) = 0 /\ co_at (Z.of_nat n) = None \/
   exists co s rest, co_at (Z.of_nat n) = Some co /\ o_ncut (cr_obj r) = 1 /\ o_slots (cr_obj r) = filled_slot s co (Sc f coadder a b (Z.of_nat n)) (Sp (Z.of_nat n)) :: rest /\
     o_psf_box (cr_obj r) = nr (co_psf co)) /\
  zlen (o_slots (cr_obj r)) = 2 /\ exists o, nth_error (m_cat f) n = Some o /\ o_box (cr_obj r) = o_box o.
Proof.
  intros E. pose proof (inv_len _ _ _ _ _ _ _ _ _ _ I) as IL. pose proof (rows0_len f rows0 R0) as RL.
  assert (NL : (n < length (ws_rows st))%nat) by (apply nth_error_Some; congruence).
  destruct (zget_range_Some rows0 (Z.of_nat n)) as (r0 & Z0); [unfold zlen in *; lia|].
  destruct (inv_rows _ _ _ _ _ _ _ _ _ _ I _ _ Z0) as (r' & Z1 & D). rewrite zget_nat, E in Z1. injection Z1 as <-.
  destruct (rows0_get f rows0 R0 _ _ Z0) as (o & O & BX & NC & _ & _ & SL). rewrite zget_nat in O.
  destruct D as [[D (x & fl & C & W)]|[D ->]].
  - destruct x as [co|].
    + destruct W as (B & F). destruct (filled_obj _ _ _ _ _ _ F) as (s & rest & S1 & S2 & S3 & S4 & S5 & _).
      split; [|split; [rewrite S2, S1 in *; unfold zlen in *; cbn [length] in *; lia|exists o; split; [exact O|lia]]].
      right. exists co, s, rest. split; [apply (co_at_intro f coadder a b _ co fl o C); [lia|rewrite zget_nat; exact O]|]. repeat split; assumption.
    + subst r. cbn [failed_row cr_obj]. split; [|split; [exact SL|exists o; split; assumption]]. left. split; [exact NC|]. unfold CoaddLemmas5.co_at. rewrite C. reflexivity.
  - split; [|split; [exact SL|exists o; split; assumption]]. left. split; [exact NC|]. unfold CoaddLemmas5.co_at. destruct (coadder (Z.of_nat n)) as [[[co|] fl]|]; try reflexivity. dif X; [lia|reflexivity].
Qed.

Local Lemma psf_tiles_n n : (n <= length (ws_rows st))%nat -> tiles 0 (psf_pixel_ranges PsfBoxObj (map cr_obj (firstn n (ws_rows st)))) (Sp (Z.of_nat n)).
Proof.
  induction n as [|n IH]; intros L; [constructor|].
  destruct (nth_error (ws_rows st) n) as [r|] eqn:E; [|apply nth_error_None in E; lia].
  assert (FN : firstn (S n) (ws_rows st) = firstn n (ws_rows st) ++ [r]).
  { clear -E. revert E. generalize (ws_rows st). induction n as [|n IH]; intros [|x l] E; try discriminate; cbn [nth_error] in E; [inversion E; reflexivity|].
    change (firstn (S (S n)) (x :: l)) with (x :: firstn (S n) l). rewrite (IH _ E). reflexivity. }
  rewrite FN, map_app. unfold psf_pixel_ranges. rewrite flat_map_app. eapply tiles_app; [apply IH; lia|]. cbn [map flat_map]. rewrite app_nil_r.
  replace (Z.of_nat (S n)) with (Z.of_nat n + 1) by lia. rewrite (Sp_step f coadder a b A0 HS) by lia.
  destruct (row_cases n r E) as ([(N & C)|(co & s & rest & C & N & S & PB)] & _).
  - unfold used_slots, CoaddLemmas5.psf_data. rewrite N, C. cbn [Z.to_nat firstn map option_map dlen]. rewrite Z.add_0_r. constructor.
  - unfold used_slots, CoaddLemmas5.psf_data. rewrite N, S, C. cbn [Z.to_nat Pos.to_nat Pos.iter_op firstn map option_map dlen psf_npix].
    rewrite (psf_shape f coadder a b A0 HS _ _ C), PB. change (s_psf_start (filled_slot s co (Sc f coadder a b (Z.of_nat n)) (Sp (Z.of_nat n)))) with (Sp (Z.of_nat n)).
    replace (nr (co_psf co) * nr (co_psf co)) with (nr (co_psf co) ^ 2) by ring. constructor; [nia|constructor].
Qed.

Lemma coadds_roomy info ncol : 0 <= ptotal -> total = reserved_pixels f -> map fst (ws_ext st) = types -> Forall (fun o => 0 < o_box o) (m_cat f) ->
  exists e pe, roomy e pe (mkMeds (map cr_obj (ws_rows st)) ncol PsfBoxObj info (ws_ext st) (Some (ws_psf st))).
Proof.
  intros P0 T TY BP. pose proof (inv_len _ _ _ _ _ _ _ _ _ _ I) as IL. pose proof (rows0_len f rows0 R0) as RL.
  exists (Sc f coadder a b (zlen (m_cat f))), (Sp (zlen (m_cat f))). pose proof (zlen_nonneg (m_cat f)) as L0.
  split; [|split; [|split; [|split; [|split]]]]; cbn [m_cat m_ext m_psf m_psf_cols].
  - apply Forall_forall. intros o Io. apply in_map_iff in Io. destruct Io as (r & <- & Ir). apply In_nth_error in Ir. destruct Ir as (n & E).
    destruct (row_cases n r E) as (D & SL & o & O & B). rewrite SL, B. split; [|rewrite Forall_forall in BP; apply BP; apply (nth_error_In _ n); exact O].
    destruct D as [(N & _)|(? & ? & ? & _ & N & _)]; lia.
  - apply (store_nonneg (cut_data f coadder a b TImage) _ (Sc_0 f coadder a b) (Sc_step f coadder a b A0 HS TImage)). lia.
  - apply (store_nonneg psf_data _ (Sp_0 f coadder a b) (Sp_step f coadder a b A0 HS)). lia.
  - pose proof (out_tiles_n f types coadder a b rows0 A0 HS R0 total ptotal st I (length (ws_rows st)) (le_n _)) as X.
    rewrite firstn_all in X. change (Z.of_nat (length (ws_rows st))) with (zlen (ws_rows st)) in X. rewrite IL, RL in X. exact X.
  - intros t m F. assert (IT : In t types).
    { rewrite <- TY. clear -F. induction (ws_ext st) as [|[t' m'] l IH]; [discriminate|]. cbn [ext_find] in F. destruct (ctype_eqb t' t) eqn:E; [left; apply ctype_eqb_eq in E; exact E|right; apply IH; exact F]. }
    destruct (inv_ext _ _ _ _ _ _ _ _ _ _ I t IT) as (m' & M1 & M2 & _). rewrite F in M1. injection M1 as <-. rewrite M2, T, <- reserved_eq.
    apply (Sc_total f coadder a b A0 HS). lia.
  - intros p E. injection E as <-. split; [|split; [discriminate|split]].
    + destruct (inv_psf _ _ _ _ _ _ _ _ _ _ I) as (-> & _). unfold zlen. apply psf_room. exact P0.
    + pose proof (psf_tiles_n (length (ws_rows st)) (le_n _)) as X. rewrite firstn_all in X. change (Z.of_nat (length (ws_rows st))) with (zlen (ws_rows st)) in X. rewrite IL, RL in X. exact X.
    + intros o s Io Is. apply in_map_iff in Io. destruct Io as (r & <- & Ir). apply In_nth_error in Ir. destruct Ir as (n & E).
      destruct (row_cases n r E) as (D & _). destruct D as [(N & _)|(co & s' & rest & C & N & S & PB)]; [unfold used_slots in Is; rewrite N in Is; destruct Is|].
      cbn [psf_npix]. rewrite PB. apply (co_at_Some f coadder a b A0) in C. destruct C as (fl & o & C & _ & O). destruct (HS _ _ _ _ O C) as (_ & _ & _ & PP & _). nia.
Qed.
End Coadds.
