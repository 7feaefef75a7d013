(** Proofs about the C library. *)
From Coq Require Import String QArith Lia.
From Verif Require Import Base Img Types Reader CLib Meta SpecTiles SpecFile SpecCLib BaseLemmas ImgLemmas ReadLemmas FileLemmas CompareLemmas CompareLemmas2 CoaddLemmas8.
Open Scope Z_scope.

(** * Loading *)

Lemma load_array_get {A B} (def : B) (g : A -> B) n l k x : n <= zlen l -> 0 <= k < n -> zget l k = Some x ->
  zget (load_array def g n l) k = Some (g x).
Proof.
  intros Hn Hk Hx. unfold load_array.
  assert (HL : zlen (map g (firstn (Z.to_nat n) l)) = n).
  { unfold zlen in *. rewrite map_length, firstn_length. lia. }
  rewrite zget_app, HL. destruct (k <? n) eqn:E; [|lia].
  rewrite zget_map, zget_firstn, E, Hx. reflexivity.
Qed.

Lemma load_row_ok o : 0 <= o_ncut o <= zlen (o_slots o) -> exists co, load_row o = Ok co.
Proof.
  intros H. unfold load_row. destruct ((o_ncut o <? 0) || (zlen (o_slots o) <? o_ncut o)) eqn:E; [|eexists; reflexivity].
  apply orb_true_iff in E. destruct E; lia.
Qed.

Lemma open_wf f : file_wf f -> exists l, mapM load_row (m_cat f) = Ok l /\ zlen l = zlen (m_cat f).
Proof.
  intros W. destruct (mapM_total load_row (m_cat f)) as (l & L).
  { intros o Ho. apply load_row_ok. destruct W as (W & _). rewrite Forall_forall in W. apply W in Ho. lia. }
  exists l. split; [exact L|]. unfold zlen. rewrite (mapM_ok_length _ _ _ L). reflexivity.
Qed.

Lemma meds_open_inv cf m : meds_open cf = Ok (Some m) ->
  mapM load_row (m_cat (cf_file cf)) = Ok (cl_cat m) /\ cl_info m = m_info (cf_file cf) /\ cl_ext m = m_ext (cf_file cf).
Proof.
  unfold meds_open, read_object_table, read_image_info. intros H.
  destruct (m_cat (cf_file cf)) as [|o l] eqn:E; [discriminate|].
  destruct (mapM load_row (o :: l)) as [cl|e] eqn:M; cbn [bind] in H; [|discriminate].
  destruct (m_info (cf_file cf)) as [|i il] eqn:I; [discriminate|].
  destruct (forallb _ _); [|discriminate]. destruct (cf_meta cf); [|discriminate].
  inversion H; subst. cbn [cl_cat cl_info cl_ext]. auto.
Qed.

Lemma meds_open_iff cf : file_wf (cf_file cf) ->
  (exists m, meds_open cf = Ok (Some m)) /\ m_cat (cf_file cf) <> [] /\ m_info (cf_file cf) <> [] /\
    c_columns (cf_info_cols cf) /\ cf_meta cf <> None
  \/ meds_open cf = Ok None /\
    (m_cat (cf_file cf) = [] \/ m_info (cf_file cf) = [] \/ ~ c_columns (cf_info_cols cf) \/ cf_meta cf = None).
Proof.
  intros W. destruct (open_wf _ W) as (l & L & _).
  assert (HC : forallb (has_col (cf_info_cols cf)) INFO_COLUMNS = true <-> c_columns (cf_info_cols cf)).
  { unfold c_columns. fold INFO_COLUMNS. rewrite forallb_forall.
    split; intros H n Hn; specialize (H n Hn); unfold has_col in *.
    - apply existsb_exists in H. destruct H as (x & X & E). apply String.eqb_eq in E. subst; assumption.
    - apply existsb_exists. exists n. split; [assumption|apply String.eqb_refl]. }
  unfold meds_open, read_object_table, read_image_info.
  destruct (m_cat (cf_file cf)) as [|o ol] eqn:E; [right; cbn; auto|].
  rewrite L. cbn [bind].
  destruct (m_info (cf_file cf)) as [|i il] eqn:I; [right; cbn; auto|].
  destruct (forallb (has_col (cf_info_cols cf)) INFO_COLUMNS) eqn:C; [|right; split; [reflexivity|]; right; right; left; intros K; apply HC in K; congruence].
  destruct (cf_meta cf) eqn:M; [|right; auto]. left.
  split; [eexists; reflexivity|]. repeat split; try discriminate. now apply HC.
Qed.

(** * Lookups *)

Definition row_of (o : obj) : cobj :=
  mkCobj (o_ncut o) (o_box o)
    (load_array DEFVAL s_file (o_ncut o) (o_slots o)) (load_array DEFVAL s_start (o_ncut o) (o_slots o))
    (load_array qdef s_crow (o_ncut o) (o_slots o)) (load_array qdef s_ccol (o_ncut o) (o_slots o))
    (load_array (mkDistort qdef qdef qdef qdef) distortion_of (o_ncut o) (o_slots o)).

Lemma load_row_inv o co : load_row o = Ok co -> co = row_of o.
Proof. unfold load_row. destruct (_ || _); [discriminate|]. intros H. inversion H. reflexivity. Qed.

Lemma obj_row cf m iobj : meds_open cf = Ok (Some m) ->
  c_get_obj m iobj = option_map row_of (zget (m_cat (cf_file cf)) iobj).
Proof.
  intros H. destruct (meds_open_inv _ _ H) as (L & _ & _). unfold c_get_obj.
  assert (HL : zlen (cl_cat m) = zlen (m_cat (cf_file cf))) by (unfold zlen; rewrite (mapM_ok_length _ _ _ L); reflexivity).
  rewrite HL. destruct ((iobj <? 0) || (zlen (m_cat (cf_file cf)) <=? iobj)) eqn:E.
  - apply orb_true_iff in E. destruct (zget (m_cat (cf_file cf)) iobj) as [o|] eqn:Z0; [|reflexivity].
    apply zget_Some_range in Z0. destruct E; lia.
  - apply orb_false_iff in E. destruct (zget_range_Some (m_cat (cf_file cf)) iobj) as (o & O); [lia|].
    assert (N : nth_error (m_cat (cf_file cf)) (Z.to_nat iobj) = Some o).
    { unfold zget in O. destruct (iobj <? 0) eqn:E0; [discriminate|exact O]. }
    destruct (mapM_ok_nth _ _ _ _ _ L N) as (co & C1 & C2). apply load_row_inv in C1. subst co.
    rewrite O. cbn [option_map]. unfold zget. destruct (iobj <? 0) eqn:E0; [lia|exact C2].
Qed.

Lemma check_ok cf m iobj icut o s : meds_open cf = Ok (Some m) -> cutout_at (cf_file cf) iobj icut o s ->
  check_iobj_icutout m iobj icut = Some (row_of o).
Proof.
  intros H (A & B & C). unfold check_iobj_icutout. rewrite (obj_row _ _ iobj H), A. cbn [option_map row_of co_ncutout].
  destruct ((icut <? 0) || (o_ncut o <=? icut)) eqn:E; [|reflexivity]. apply orb_true_iff in E. destruct E; lia.
Qed.

Lemma check_none cf m iobj icut : file_wf (cf_file cf) -> meds_open cf = Ok (Some m) -> no_cutout (cf_file cf) iobj icut ->
  check_iobj_icutout m iobj icut = None.
Proof.
  intros W H N. unfold check_iobj_icutout. rewrite (obj_row _ _ iobj H).
  destruct (zget (m_cat (cf_file cf)) iobj) as [o|] eqn:O; [|reflexivity]. cbn [option_map row_of co_ncutout].
  destruct ((icut <? 0) || (o_ncut o <=? icut)) eqn:E; [reflexivity|]. exfalso. apply orb_false_iff in E.
  assert (K : 0 <= icut < o_ncut o) by lia.
  destruct (slots_exist _ o icut W (zget_In _ _ _ O) K) as (s & S1). exact (N o s (conj O (conj K S1))).
Qed.

Lemma wf_at f iobj icut o s : file_wf f -> cutout_at f iobj icut o s -> o_ncut o <= zlen (o_slots o) /\ 0 < o_box o.
Proof. intros (W & _) (A & _). rewrite Forall_forall in W. apply zget_In in A. apply W in A. lia. Qed.

Lemma mem_load {A B} (def : B) (g : A -> B) n l k x : n <= zlen l -> 0 <= k < n -> zget l k = Some x ->
  mem (load_array def g n l) k = Ok (g x).
Proof. intros H1 H2 H3. unfold mem. rewrite (load_array_get def g _ _ _ _ H1 H2 H3). reflexivity. Qed.

(** * Row pointers *)

Lemma row_pointers_get n p ncol k : 0 <= k < Z.of_nat n -> zget (row_pointers n p ncol) k = Some (p + k * ncol).
Proof.
  revert p k. induction n as [|n IH]; intros p k K; [lia|].
  cbn [row_pointers]. destruct (Z.eq_dec k 0) as [->|N].
  - cbn. f_equal. lia.
  - assert (E : zget (p :: row_pointers n (p + ncol) ncol) k = zget (row_pointers n (p + ncol) ncol) (k - 1)).
    { unfold zget. destruct (k <? 0) eqn:E1; [lia|]. destruct (k - 1 <? 0) eqn:E2; [lia|].
      replace (Z.to_nat k) with (S (Z.to_nat (k - 1))) by lia. reflexivity. }
    rewrite E, IH by lia. f_equal. lia.
Qed.

Lemma cutout_get_px pix n b r c x : 0 <= r < n * b -> zget pix (r * b + c) = Some x ->
  CUTOUT_GET (cutout_from_ptr pix n b b) r c = Ok x.
Proof.
  intros R X. unfold CUTOUT_GET, cutout_from_ptr. cbn [ci_rows ci_pix]. unfold mem.
  rewrite row_pointers_get by lia. cbn [bind]. rewrite Z.add_0_l, X. reflexivity.
Qed.

Lemma mosaic_get_px pix n b k r c x : 0 <= k < n -> 0 <= r < b -> zget pix ((k * b + r) * b + c) = Some x ->
  MOSAIC_GET (cutout_from_ptr pix n b b) k r c = Ok x.
Proof.
  intros K R X. unfold MOSAIC_GET. cbn [ci_cutout_nrow cutout_from_ptr].
  apply (cutout_get_px pix n b (k * b + r) c x); [nia|exact X].
Qed.

Lemma px_zget {A} (im : img A) r c x : px im r c = Some x -> zget (dat im) (r * nc im + c) = Some x.
Proof. unfold px. destruct (_ && _); [auto|discriminate]. Qed.

(** * Cutouts *)

Section Open.
Variables (cf : cfile) (m : clib).
Hypothesis W : file_wf (cf_file cf).
Hypothesis HO : meds_open cf = Ok (Some m).

Lemma cutout_same t mos iobj icut o s : ext_find (m_ext (cf_file cf)) t = Some mos ->
  cutout_at (cf_file cf) iobj icut o s ->
  exists im ci, get_cutout (cf_file cf) iobj icut t = Ok im /\ nr im = o_box o /\ nc im = o_box o /\
    c_get_cutoutp m t iobj icut = Ok (Some (dat im, o_box o, o_box o)) /\
    c_get_cutout m t iobj icut = Ok (Some ci) /\ holds_cutout ci im.
Proof.
  intros T C. destruct (get_cutout_eq _ _ _ _ _ _ _ W C T) as (xs & X1 & X2 & X3).
  destruct (meds_open_inv _ _ HO) as (_ & _ & E). destruct (wf_at _ _ _ _ _ W C) as (W1 & W2).
  assert (P : c_get_cutoutp m t iobj icut = Ok (Some (xs, o_box o, o_box o))).
  { unfold c_get_cutoutp. rewrite (check_ok _ _ _ _ _ _ HO C). cbn [row_of co_start co_box].
    destruct C as (C1 & C2 & C3). rewrite (mem_load DEFVAL s_start _ _ _ _ W1 C2 C3). cbn [bind].
    unfold get_cutout_data. rewrite E, T, X1. reflexivity. }
  exists (mkImg (o_box o) (o_box o) xs). eexists. split; [exact X2|]. split; [reflexivity|]. split; [reflexivity|].
  split; [exact P|]. split; [unfold c_get_cutout; rewrite P; reflexivity|].
  cbn [bind]. unfold holds_cutout. cbn [cutout_from_ptr ci_ncutout ci_cutout_nrow ci_cutout_ncol ci_cutout_size nr nc].
  repeat split.
  - destruct (px_Some_range _ _ _ _ H) as (R & _). apply px_zget in H. cbn [nr nc dat] in *.
    apply cutout_get_px; [lia|exact H].
  - destruct (px_Some_range _ _ _ _ H) as (R & _). apply px_zget in H. cbn [nr nc dat] in *.
    apply mosaic_get_px; [lia|lia|]. rewrite Z.mul_0_l, Z.add_0_l. exact H.
Qed.

Lemma cutout_none t iobj icut : ext_find (m_ext (cf_file cf)) t = None \/ no_cutout (cf_file cf) iobj icut ->
  c_get_cutoutp m t iobj icut = Ok None /\ c_get_cutout m t iobj icut = Ok None.
Proof.
  intros H. assert (P : c_get_cutoutp m t iobj icut = Ok None).
  2: { split; [exact P|]. unfold c_get_cutout. rewrite P. reflexivity. }
  unfold c_get_cutoutp. destruct (check_iobj_icutout m iobj icut) as [co|] eqn:C; [|reflexivity].
  destruct H as [H|H]; [|rewrite (check_none _ _ _ _ W HO H) in C; discriminate].
  assert (exists o s, cutout_at (cf_file cf) iobj icut o s) as (o & s & K).
  { unfold check_iobj_icutout in C. rewrite (obj_row _ _ _ HO) in C.
    destruct (zget (m_cat (cf_file cf)) iobj) as [o|] eqn:O; [|discriminate]. cbn [option_map row_of co_ncutout] in C.
    destruct ((icut <? 0) || (o_ncut o <=? icut)) eqn:E; [discriminate|]. apply orb_false_iff in E.
    assert (K : 0 <= icut < o_ncut o) by lia.
    destruct (slots_exist _ o icut W (zget_In _ _ _ O) K) as (s & S1). exists o, s. exact (conj O (conj K S1)). }
  destruct (wf_at _ _ _ _ _ W K) as (W1 & W2). rewrite (check_ok _ _ _ _ _ _ HO K) in C. inversion C; subst co.
  destruct K as (C1 & C2 & C3). cbn [row_of co_start co_box]. rewrite (mem_load DEFVAL s_start _ _ _ _ W1 C2 C3). cbn [bind].
  unfold get_cutout_data. destruct (meds_open_inv _ _ HO) as (_ & _ & E). rewrite E, H. reflexivity.
Qed.

Lemma mosaic_same t mos iobj o : ext_find (m_ext (cf_file cf)) t = Some mos ->
  zget (m_cat (cf_file cf)) iobj = Some o -> 0 < o_ncut o ->
  exists im ci, get_mosaic (cf_file cf) iobj t = Ok im /\
    c_get_mosaicp m t iobj = Ok (Some (dat im, o_ncut o, o_box o, o_box o)) /\
    c_get_mosaic m t iobj = Ok (Some ci) /\
    holds_mosaic ci (o_ncut o) (o_box o) (fun k im => get_cutout (cf_file cf) iobj k t = Ok im).
Proof.
  intros T O N. assert (K0 : 0 <= 0 < o_ncut o) by lia.
  destruct (slots_exist _ o 0 W (zget_In _ _ _ O) K0) as (s0 & S0).
  assert (C : cutout_at (cf_file cf) iobj 0 o s0) by exact (conj O (conj K0 S0)).
  destruct (mosaic_blocks _ _ _ _ _ W O N T) as (im & l & M1 & M2 & M3 & M4 & _ & _ & M5).
  destruct (wf_at _ _ _ _ _ W C) as (W1 & W2). destruct (meds_open_inv _ _ HO) as (_ & _ & E).
  assert (SL : slice mos (s_start s0) (s_start s0 + o_box o * o_box o * o_ncut o) = Ok (dat im)).
  { unfold get_mosaic in M1. destruct (check_indices (cf_file cf) iobj None) as [o'|] eqn:CI; [|discriminate].
    cbn [bind] in M1.
    assert (o' = o).
    { pose proof (check_indices_ok _ _ 0 _ O K0) as CC. unfold check_indices in *.
      destruct (zlen (m_cat (cf_file cf)) <=? iobj); [discriminate|].
      destruct (py_index (m_cat (cf_file cf)) iobj) as [o1|] eqn:PI; cbn [bind] in *; [|discriminate].
      destruct (o_ncut o1 =? 0); [discriminate|]. destruct (o_ncut o1 <=? 0); [discriminate|]. congruence. }
    subst o'. rewrite (get_slot_ok _ _ _ S0) in M1. cbn [bind] in M1. unfold get_extension in M1. rewrite T in M1. cbn [bind] in M1.
    destruct (slice mos _ _) as [xs|]; cbn [bind] in M1; [|discriminate]. f_equal.
    unfold reshape in M1. destruct (_ && _); [|discriminate]. inversion M1. reflexivity. }
  assert (P : c_get_mosaicp m t iobj = Ok (Some (dat im, o_ncut o, o_box o, o_box o))).
  { unfold c_get_mosaicp. rewrite (check_ok _ _ _ _ _ _ HO C). cbn [row_of co_start co_box co_ncutout].
    rewrite (mem_load DEFVAL s_start _ _ _ _ W1 K0 S0). cbn [bind].
    unfold get_cutout_data. rewrite E, T, SL. reflexivity. }
  exists im. eexists. split; [exact M1|]. split; [exact P|]. split; [unfold c_get_mosaic; rewrite P; reflexivity|].
  unfold holds_mosaic. cbn [cutout_from_ptr ci_ncutout ci_cutout_nrow ci_cutout_ncol ci_mosaic_nrow ci_mosaic_ncol ci_mosaic_size].
  repeat split. intros k K. destruct (M5 k K) as (ik & G & _ & I1 & I2 & I3 & I4).
  exists ik. split; [exact G|]. intros r c x X. destruct (px_Some_range _ _ _ _ X) as (R1 & R2). rewrite I1 in R1. rewrite I2 in R2.
  rewrite <- (I4 r c R1 R2) in X. apply px_zget in X. rewrite M4 in X. split.
  - apply mosaic_get_px; [exact K|exact R1|exact X].
  - apply cutout_get_px; [nia|exact X].
Qed.

Lemma mosaic_none t iobj : ext_find (m_ext (cf_file cf)) t = None \/ no_cutout (cf_file cf) iobj 0 ->
  c_get_mosaicp m t iobj = Ok None /\ c_get_mosaic m t iobj = Ok None.
Proof.
  intros H. assert (P : c_get_mosaicp m t iobj = Ok None).
  2: { split; [exact P|]. unfold c_get_mosaic. rewrite P. reflexivity. }
  unfold c_get_mosaicp. destruct (cutout_none t iobj 0 H) as (H1 & _). unfold c_get_cutoutp in H1.
  destruct (check_iobj_icutout m iobj 0) as [co|] eqn:C; [|reflexivity].
  destruct H as [H|H]; [|rewrite (check_none _ _ _ _ W HO H) in C; discriminate].
  destruct (mem (co_start co) 0); cbn [bind] in *; [|discriminate].
  unfold get_cutout_data. destruct (meds_open_inv _ _ HO) as (_ & _ & E). rewrite E, H. reflexivity.
Qed.

Lemma facts_same iobj icut o s : cutout_at (cf_file cf) iobj icut o s ->
  c_get_ncutout m iobj = o_ncut o /\ c_get_cutout_cen m iobj icut = Ok (true, s_crow s, s_ccol s) /\
  c_get_source_file_id m iobj icut = Ok (s_file s) /\
  (0 <= s_file s < zlen (m_info (cf_file cf)) -> exists i, get_source_info (cf_file cf) iobj icut = Ok i /\
     c_get_source_info m iobj icut = Ok (Some i)).
Proof.
  intros C. destruct (wf_at _ _ _ _ _ W C) as (W1 & W2). pose proof (check_ok _ _ _ _ _ _ HO C) as CK.
  pose proof C as (C1 & C2 & C3).
  assert (F : c_get_source_file_id m iobj icut = Ok (s_file s)).
  { unfold c_get_source_file_id. rewrite CK. exact (mem_load DEFVAL s_file _ _ _ _ W1 C2 C3). }
  split. { unfold c_get_ncutout. rewrite (obj_row _ _ _ HO), C1. reflexivity. }
  split. { unfold c_get_cutout_cen. rewrite CK. cbn [row_of co_crow co_ccol].
    rewrite (mem_load qdef s_crow _ _ _ _ W1 C2 C3), (mem_load qdef s_ccol _ _ _ _ W1 C2 C3). reflexivity. }
  split; [exact F|]. intros R. destruct (zget_range_Some _ _ R) as (i & I). exists i.
  split. { unfold get_source_info. rewrite (check_indices_ok _ _ _ _ C1 C2). cbn [bind]. rewrite (get_slot_ok _ _ _ C3). cbn [bind].
    unfold py_index. destruct (s_file s <? 0) eqn:E; [lia|]. rewrite I. reflexivity. }
  unfold c_get_source_info. rewrite F. cbn [bind]. destruct (s_file s <? 0) eqn:E; [lia|].
  destruct (meds_open_inv _ _ HO) as (_ & EI & _). unfold mem. rewrite EI, I. reflexivity.
Qed.

Lemma facts_none iobj icut : no_cutout (cf_file cf) iobj icut ->
  c_get_cutout_cen m iobj icut = Ok (false, qdef, qdef) /\ c_get_source_file_id m iobj icut = Ok (-9999) /\
  c_get_source_info m iobj icut = Ok None /\ c_get_distortion m iobj icut = Ok None.
Proof.
  intros N. pose proof (check_none _ _ _ _ W HO N) as C.
  unfold c_get_source_info, c_get_cutout_cen, c_get_source_file_id, c_get_distortion. rewrite C. repeat split.
Qed.

Lemma ncutout_none iobj : ~ (0 <= iobj < zlen (m_cat (cf_file cf))) -> c_get_ncutout m iobj = 0.
Proof. intros N. unfold c_get_ncutout. rewrite (obj_row _ _ _ HO). apply zget_None in N. rewrite N. reflexivity. Qed.

Lemma distortion_first iobj icut o s : cutout_at (cf_file cf) iobj icut o s ->
  exists s0, cutout_at (cf_file cf) iobj 0 o s0 /\ c_get_distortion m iobj icut = Ok (Some (distortion_of s0)).
Proof.
  intros C. destruct (wf_at _ _ _ _ _ W C) as (W1 & W2). pose proof (check_ok _ _ _ _ _ _ HO C) as CK.
  pose proof C as (C1 & C2 & C3). assert (K0 : 0 <= 0 < o_ncut o) by lia.
  destruct (slots_exist _ o 0 W (zget_In _ _ _ C1) K0) as (s0 & S0). exists s0. split; [exact (conj C1 (conj K0 S0))|].
  unfold c_get_distortion. rewrite CK. cbn [row_of co_dist]. rewrite (mem_load _ distortion_of _ _ _ _ W1 K0 S0). reflexivity.
Qed.

Lemma source_info_outside iobj icut o s : cutout_at (cf_file cf) iobj icut o s -> zlen (m_info (cf_file cf)) <= s_file s ->
  c_get_source_info m iobj icut = Err IndexError.
Proof.
  intros C R. destruct (facts_same _ _ _ _ C) as (_ & _ & F & _). unfold c_get_source_info. rewrite F. cbn [bind].
  pose proof (zlen_nonneg (m_info (cf_file cf))).
  destruct (s_file s <? 0) eqn:E; [lia|]. destruct (meds_open_inv _ _ HO) as (_ & EI & _). unfold mem. rewrite EI.
  destruct (zget (m_info (cf_file cf)) (s_file s)) eqn:Z0; [apply zget_Some_range in Z0; lia|reflexivity].
Qed.
End Open.
