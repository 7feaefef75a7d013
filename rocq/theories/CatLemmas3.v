(** The columns that the maker computes, on the way to the file. *)
From Coq Require Import String Lia ZifyBool.
From Verif Require Import Base BaseLemmas Types Meta CatCols SpecCat MetaLemmas CatLemmas.
Open Scope Z_scope.

Section Cat.
Context {A : Type}.
Implicit Types (t d : ctable A) (c : col A).

Lemma mapM_in {X Y} (f : X -> res Y) l l' x y : mapM f l = Ok l' -> In x l -> f x = Ok y -> In y l'.
Proof.
  revert l'. induction l as [|a l IH]; intros l' E I F; [destruct I|]. cbn [mapM] in E.
  apply bind_ok in E. destruct E as (b & E1 & E). apply bind_ok in E. destruct E as (bs & E2 & E). injection E as <-.
  destruct I as [->|I]; [left; congruence|right; apply (IH bs); assumption].
Qed.

Definition computed (psf : bool) : list string := cutout_columns ++ if psf then psf_columns else [].

Lemma computed_dtype (psf : bool) nmax ex m : In m (computed psf) ->
  In (m, Some nmax) (output_dtype nmax (ex ++ if psf then psf_dtype nmax else [])).
Proof.
  intros H. unfold computed in H. apply in_output_dtype. apply in_app_or in H. destruct H as [H|H].
  - right. left. rewrite skip5. split; [exact H|reflexivity].
  - right. right. apply in_or_app. right. destruct psf; [|destruct H]. unfold psf_dtype. apply in_map_iff. exists m. split; [reflexivity|exact H].
Qed.

Lemma computed_layout (psf : bool) m : In m (computed psf) -> mem_str m LAYOUT_COLUMNS = true.
Proof.
  intros H. apply mem_str_In. assert (B : forallb (fun m => mem_str m LAYOUT_COLUMNS) (computed true) = true) by (vm_compute; reflexivity).
  rewrite forallb_forall in B. apply mem_str_In. apply B. unfold computed in *. apply in_app_or in H. apply in_or_app.
  destruct H as [H|H]; [left; exact H|right]. destruct psf; [exact H|destruct H].
Qed.

Lemma struct_in (zero defval : A) nobj nmax extra d m w : get_meds_output_struct zero defval nobj nmax extra = Ok d ->
  In (m, w) (output_dtype nmax extra) -> m <> "ncutout"%string ->
  In (mkCol m w (repeat (repeat defval (Z.to_nat (len_of w))) (Z.to_nat nobj))) d.
Proof.
  unfold get_meds_output_struct. cbv zeta. generalize (output_dtype nmax extra). intros l. destruct (nodup_names _); [|discriminate]. intros E I N. injection E as <-.
  apply in_map_iff. exists (m, w). cbn [fst snd]. split; [|exact I].
  apply String.eqb_neq in N. rewrite N. reflexivity.
Qed.

Lemma computed_not_ncutout (psf : bool) m : In m (computed psf) -> m <> "ncutout"%string.
Proof.
  intros H E. subst m. assert (B : mem_str "ncutout" (computed true) = false) by reflexivity. apply mem_str_false in B. apply B.
  unfold computed in *. apply in_app_or in H. apply in_or_app. destruct H as [H|H]; [left; exact H|right]. destruct psf; [exact H|destruct H].
Qed.

Lemma layout_in fill d c : In c d -> mem_str (c_name c) LAYOUT_COLUMNS = true ->
  In (mkCol (c_name c) (c_width c) (fill (c_name c) (c_rows c))) (layout_cols fill d).
Proof. intros H M. unfold layout_cols. apply in_map_iff. exists c. rewrite M. auto. Qed.

Lemma resized_in (zero defval : A) (psf : bool) n maxcut (l : list descr) nmax d d' s : NoDup (map fst l) ->
  maxcut <= nmax -> 2 <= nmax ->
  cdescr d = output_dtype nmax (filter is_extra l ++ if psf then psf_dtype nmax else []) ->
  make_resized_cols zero defval psf n maxcut d = Ok d' -> In s d -> In (c_name s) (computed psf) -> c_width s = Some nmax ->
  let new := if maxcut <? 2 then 2 else maxcut in
  In (mkCol (c_name s) (Some new) (map (firstn (Z.to_nat new)) (c_rows s))) d'.
Proof.
  intros N Hm H2 D. unfold make_resized_cols. cbv zeta. set (new := if maxcut <? 2 then 2 else maxcut).
  intros E I M W. apply bind_ok in E. destruct E as (d0 & E0 & E).
  rewrite extra_fields_eq, D, filter_extra_output in E0.
  pose proof (struct_in zero defval n new _ d0 (c_name s) (Some new) E0 (computed_dtype psf new _ (c_name s) M) (computed_not_ncutout psf _ M)) as I0.
  eapply mapM_in; [exact E|exact I0|]. unfold resize_col. cbn [c_name c_width].
  assert (F : find_col d (c_name s) = Some s).
  { apply find_col_in; [|exact I]. rewrite cnames_descr, D. apply full_names_nodup. exact N. }
  rewrite F, W.
  assert (B : (true && mem_str (c_name s) (output_names []) || mem_str (c_name s) (map fst (psf_dtype new)))%bool = true).
  { rewrite psf_fst. apply orb_true_iff. unfold computed in M. apply in_app_or in M. destruct M as [M|M].
    - left. apply andb_true_iff. split; [reflexivity|]. apply mem_str_In. rewrite output_list. apply in_or_app. right. right. exact M.
    - right. destruct psf; [|destruct M]. apply mem_str_In. exact M. }
  rewrite B. replace (Z.min nmax new) with new by (unfold new; destruct (maxcut <? 2) eqn:?; lia). rewrite assign_same. reflexivity.
Qed.

Lemma computed_written (zero defval : A) (psf : bool) nmax0 n idx maxcut fill fill' t d m : good_input n t ->
  (forall i, In i idx -> 0 <= i < n) -> maxcut <= Z.max 2 nmax0 ->
  written_columns zero defval psf nmax0 n idx maxcut fill fill' t = Ok d ->
  In m (cutout_columns ++ if psf then psf_columns else []) ->
  let nmax := Z.max 2 nmax0 in let new := Z.max 2 maxcut in
  In (mkCol m (Some new) (fill' m (map (firstn (Z.to_nat new)) (fill m (repeat (repeat defval (Z.to_nat nmax)) (length idx)))))) d.
Proof.
  intros G Hi M E Im nmax new. unfold written_columns in E.
  apply bind_ok in E. destruct E as (d1 & E1 & E). apply bind_ok in E. destruct E as (d2 & E2 & E). apply bind_ok in E. destruct E as (d3 & E3 & E). injection E as <-.
  destruct (set_obj_data_ok zero defval psf nmax0 n t G) as (d1' & E1' & D1 & _ & R1). rewrite E1 in E1'. injection E1' as <-.
  replace (if nmax0 <? 2 then 2 else nmax0) with nmax in D1 by (unfold nmax; destruct (nmax0 <? 2) eqn:?; lia).
  pose proof G as (T & S & K). destruct T as (P & N & R).
  assert (ML : mem_str m LAYOUT_COLUMNS = true) by (apply (computed_layout psf); exact Im).
  (* after the constructor *)
  assert (I1 : In (mkCol m (Some nmax) (repeat (repeat defval (Z.to_nat nmax)) (Z.to_nat n))) d1).
  { unfold set_obj_data in E1. apply bind_ok in E1. destruct E1 as (u & _ & E1). unfold get_full_obj_data in E1.
    replace (if nmax0 <? 2 then 2 else nmax0) with nmax in E1 by (unfold nmax; destruct (nmax0 <? 2) eqn:?; lia). cbv zeta in E1.
    apply bind_ok in E1. destruct E1 as (d0 & E0 & E1). rewrite extra_fields_eq in E0.
    pose proof (struct_in zero defval n nmax _ d0 m (Some nmax) E0 (computed_dtype psf nmax _ m Im) (computed_not_ncutout psf _ Im)) as I0.
    assert (NF : NoDup (map fst (cdescr t))) by (rewrite <- cnames_descr; exact N).
    pose proof (full_names_nodup (cdescr t) psf nmax nmax NF) as NFF.
    destruct (struct_ok zero defval n nmax _ NFF P) as (d0' & E0' & D0 & _). rewrite E0 in E0'. injection E0' as <-.
    destruct (copy_fields_ok n t d0 N) as (d' & E' & _ & _ & C & _).
    - intros s c H H' Q. assert (NM : In (c_name s, c_width s) (cdescr d0)).
      { rewrite D0. apply in_output_dtype. destruct (good_extra n t s G H) as [[H1 ->]|H1].
        - left. split; [apply must_first5; exact H1|reflexivity].
        - right. right. apply in_or_app. left. apply filter_In. split; [apply in_descr; exact H|exact H1]. }
      rewrite <- D0 in NFF. eapply descr_unique; [exact NFF|apply in_descr; exact H'|rewrite Q; exact NM].
    - rewrite E1 in E'. injection E' as <-. apply C; [exact I0|]. cbn [c_name]. intros Q. apply in_map_iff in Q. destruct Q as (c & Q & Hc).
      apply (K c Hc). rewrite Q. unfold computed_columns. right. apply in_or_app. apply in_app_or in Im. destruct Im as [Im|Im]; [left; exact Im|right].
      destruct psf; [exact Im|destruct Im]. }
  (* trimming *)
  destruct (take_rows_ok d1 idx n R1 Hi) as (d2' & E2' & D2 & K2). rewrite E2 in E2'. injection E2' as <-.
  destruct (K2 _ I1) as (c2 & I2 & (N2 & W2 & L2 & S2)). cbn [c_name c_width c_rows] in N2, W2, S2.
  assert (R2 : c_rows c2 = repeat (repeat defval (Z.to_nat nmax)) (length idx)).
  { apply list_zget_ext; [unfold zlen; rewrite repeat_length; unfold zlen in L2; lia|]. intros k Hk. rewrite L2 in Hk.
    destruct (zget_range_Some idx k Hk) as (i & Ei). rewrite (S2 k i Ei).
    assert (Z : forall j p, 0 <= j < Z.of_nat p -> zget (repeat (repeat defval (Z.to_nat nmax)) p) j = Some (repeat defval (Z.to_nat nmax))).
    { intros j p Hj. destruct (zget_range_Some (repeat (repeat defval (Z.to_nat nmax)) p) j) as (y & Ey); [unfold zlen; rewrite repeat_length; lia|].
      rewrite Ey. f_equal. apply zget_In in Ey. apply repeat_spec in Ey. exact Ey. }
    apply zget_In in Ei. specialize (Hi i Ei). rewrite !Z by (unfold zlen in *; lia). reflexivity. }
  (* layout *)
  pose proof (layout_in fill d2 c2 I2 ltac:(rewrite N2; exact ML)) as I3. rewrite N2, W2, R2 in I3.
  assert (NT : NoDup (map fst (cdescr t))) by (rewrite <- cnames_descr; exact N).
  assert (DL : cdescr (layout_cols fill d2) = output_dtype nmax (filter is_extra (cdescr t) ++ if psf then psf_dtype nmax else [])).
  { rewrite layout_cols_descr, D2, D1. reflexivity. }
  pose proof (resized_in zero defval psf (zlen idx) maxcut (cdescr t) nmax _ d3 _ NT ltac:(unfold nmax; lia) ltac:(unfold nmax; lia) DL E3 I3 Im eq_refl) as I4.
  cbv zeta in I4. cbn [c_name c_rows] in I4.
  replace (if maxcut <? 2 then 2 else maxcut) with new in I4 by (unfold new; destruct (maxcut <? 2) eqn:?; lia).
  apply (layout_in fill') in I4; [exact I4|exact ML].
Qed.
End Cat.
