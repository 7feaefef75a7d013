(** Lemmas on the extensions of files extracted by number. *)
From Coq Require Import Lia ZifyBool ZifyNat String Permutation.
From Verif Require Import Base BaseLemmas Img Types MakerFile Extract MakerFail Meta ExtractExt SpecExtractExt NumExt SpecNumExt
  FailLemmas ExtractExtLemmas.
From Verif Require ExtractLemmas5 SpecExtract.
Open Scope Z_scope.

Lemma num_eq {X} nc pc order (f : list (hdu X)) ns :
  num_on_disk nc pc order f ns =
  match num_selection nc pc order f ns with Err er => ([], Some er) | Ok sel => go_writes (num_writes f sel) [] end.
Proof. reflexivity. Qed.

Lemma num_cut_named {X} (f : list (hdu X)) r n : named (num_cut f r n) [n].
Proof. unfold num_cut. destruct (read_pix f n); [|discriminate]. cbn [bind]. destruct (data_from_ranges _ _); [reflexivity|discriminate]. Qed.
Lemma num_cut_if_named {X} (f : list (hdu X)) r n : named (num_cut_if_there f r n) (if in_file f n then [n] else []).
Proof. unfold num_cut_if_there, in_file. destruct (hfind f n); [apply num_cut_named|reflexivity]. Qed.

Definition none_of (ranges : list (Z * Z)) : bool := match ranges with (a, _) :: _ => a =? -1 | [] => false end.
Definition num_list {X} (f : list (hdu X)) (any : bool) : list (list string) :=
  map (fun n => [n]) tables ++
  if any then map (fun n => [n]) dummies ++ [if in_file f "psf" then ["psf"%string] else []] else map (fun n => [n]) dummies.
Lemma num_list_concat {X} (f : list (hdu X)) any : concat (num_list f any) = num_names f any.
Proof.
  unfold num_list, num_names. rewrite concat_app. f_equal. destruct any; [|reflexivity]. rewrite concat_app. f_equal.
  cbn [filter concat]. rewrite app_nil_r. reflexivity.
Qed.
Lemma num_named {X} (f : list (hdu X)) rows r pr : Forall2 named (num_writes f (rows, r, pr)) (num_list f (negb (none_of r))).
Proof.
  unfold num_writes, num_list. fold (none_of r). apply Forall2_app.
  - repeat constructor; cbn [map tables]; try apply table_named.
  - destruct (none_of r); cbn [negb].
    + repeat constructor.
    + cbn [map dummies app]. repeat constructor; try apply num_cut_named; apply num_cut_if_named.
Qed.

(** * Whether there are cutouts *)
Lemma ranges_none rows r : placed rows -> row_ranges rows = Ok r -> negb (none_of r) = any_cutouts rows.
Proof.
  unfold row_ranges. intros P H. apply bind_ok in H. destruct H as (acc & F & H). injection H as <-.
  assert (G : forall rows acc0 acc, placed rows -> foldM row_ranges_step rows acc0 = Ok acc -> Forall (fun x => 0 <= fst x) acc0 ->
    Forall (fun x => 0 <= fst x) acc /\ (acc = [] <-> acc0 = [] /\ any_cutouts rows = false)).
  { clear. intros rows. induction rows as [|o rows IH]; intros acc0 acc P F A.
    - injection F as <-. split; [exact A|]. cbn. tauto.
    - cbn [foldM] in F. apply bind_ok in F. destruct F as (a1 & S & F). inversion P as [|? ? P1 P2]; subst.
      unfold row_ranges_step in S. unfold any_cutouts. cbn [existsb]. destruct (0 <? o_ncut o) eqn:N.
      + apply bind_ok in S. destruct S as (s & S0 & S). destruct (P1 ltac:(lia)) as (s' & l & E & Z0).
        unfold get_slot in S0. rewrite E in S0. unfold py_index in S0. cbn in S0. injection S0 as <-.
        assert (A1 : Forall (fun x => 0 <= fst x) a1 /\ a1 <> []).
        { destruct acc0 as [|[a b] acc0]; [injection S as <-; split; [repeat constructor; exact Z0|discriminate]|].
          inversion A as [|? ? A1 A2]; subst. destruct (s_start s' =? b); injection S as <-; (split; [|discriminate]).
          - constructor; [exact A1|exact A2].
          - constructor; [exact Z0|exact A]. }
        destruct A1 as [A1 N1]. destruct (IH _ _ P2 F A1) as [B C]. split; [exact B|]. rewrite C. cbn [orb]. intuition discriminate.
      + injection S as <-. destruct (IH _ _ P2 F A) as [B C]. split; [exact B|]. cbn [orb]. exact C. }
  destruct (G _ _ _ P F (Forall_nil _)) as [B C]. destruct acc as [|x acc].
  - destruct C as [C _]. destruct (C eq_refl) as [_ C']. rewrite C'. reflexivity.
  - destruct (any_cutouts rows); [|exfalso; destruct C as [_ C]; discriminate (C (conj eq_refl eq_refl))].
    assert (R : Forall (fun x => 0 <= fst x) (rev (x :: acc))).
    { apply Forall_forall. intros y Y. apply in_rev in Y. rewrite Forall_forall in B. exact (B _ Y). }
    assert (L : length (rev (x :: acc)) = S (length acc)) by (rewrite rev_length; reflexivity).
    destruct (rev (x :: acc)) as [|[a b] l]; [discriminate|]. inversion R; subst. cbn [none_of fst] in *. lia.
Qed.

Lemma num_selection_rows {X} nc pc order (f : list (hdu X)) ns sel : num_selection nc pc order f ns = Ok sel ->
  exists rows, read_obj f = Ok rows /\ exists inds sub r pr data, get_inds (mkMeds rows nc pc [] [] None) ns = Ok inds /\
    mapM (py_index rows) (order inds) = Ok sub /\ row_ranges sub = Ok r /\ sel = (data, r, pr).
Proof.
  unfold num_selection. intros H. apply bind_ok in H. destruct H as (rows & R & H). apply bind_ok in H. destruct H as (inds & I & H).
  apply bind_ok in H. destruct H as (sub & S & H). apply bind_ok in H. destruct H as (r & C & H).
  apply bind_ok in H. destruct H as (none & _ & H). apply bind_ok in H. destruct H as (data & _ & H).
  exists rows. split; [exact R|]. exists inds, sub, r.
  destruct (hfind f "psf").
  - apply bind_ok in H. destruct H as (pr & _ & H). apply bind_ok in H. destruct H as (pn & _ & H). apply bind_ok in H.
    destruct H as (data' & _ & H). injection H as <-. exists pr, data'. auto.
  - injection H as <-. exists [], data. auto.
Qed.

Lemma existsb_in {A} (g : A -> bool) l m : (forall x, In x l <-> In x m) -> existsb g l = existsb g m.
Proof.
  intros H. destruct (existsb g m) eqn:E.
  - apply existsb_exists in E. destruct E as (x & I & G). apply existsb_exists. exists x. split; [apply H; exact I|exact G].
  - destruct (existsb g l) eqn:F; [|reflexivity]. apply existsb_exists in F. destruct F as (x & I & G).
    rewrite <- E. symmetry. apply existsb_exists. exists x. split; [apply H; exact I|exact G].
Qed.

Theorem num_extensions {X} nc pc order (f : list (hdu X)) numbers out rows : (forall l, Permutation l (order l)) ->
  NoDup (map o_number rows) -> placed rows ->
  num_on_disk nc pc order f numbers = (out, None) -> read_obj f = Ok rows ->
  map fst out = num_names f (any_cutouts (filter (asked numbers) rows)).
Proof.
  rewrite num_eq. intros PO ND P H R. destruct (num_selection nc pc order f numbers) as [sel|er] eqn:SE; [|discriminate].
  destruct (num_selection_rows _ _ _ _ _ _ SE) as (rows' & R' & inds & sub & r & pr & data & GI & S & C & ->).
  rewrite R in R'. injection R' as <-.
  apply writes_ok in H. destruct H as (l & W & ->). cbn [app].
  rewrite (named_ok _ _ _ (num_named f data r pr) W), num_list_concat.
  assert (M : forall o, In o sub <-> In o (filter (asked numbers) rows)).
  { apply ExtractLemmas5.get_inds_ok in GI. cbn [m_cat] in GI. apply mapM_ok_Forall2 in S. intros o. rewrite filter_In. unfold asked.
    rewrite existsb_exists. split.
    - intros I. apply In_nth_error in I. destruct I as (j & J).
      assert (K : exists i, In i (order inds) /\ py_index rows i = Ok o).
      { clear - S J. revert j J. induction S as [|x y lx ly XY S IH]; intros [|j] J; try discriminate.
        - injection J as ->. exists x. split; [left; reflexivity|exact XY].
        - destruct (IH _ J) as (i & I & E). exists i. split; [right; exact I|exact E]. }
      destruct K as (i & I & E). apply (Permutation_in i (Permutation_sym (PO inds))) in I.
      assert (K : exists n o', In n numbers /\ zget rows i = Some o' /\ o_number o' = n).
      { clear - GI I. induction GI as [|n x ln lx (o' & Z & N) GI IH]; [destruct I|]. destruct I as [->|I].
        - exists n, o'. split; [left; reflexivity|]. auto.
        - destruct (IH I) as (n' & o'' & A & B). exists n', o''. split; [right; exact A|exact B]. }
      destruct K as (n & o' & IN & Z & N). assert (0 <= i) by (unfold zget in Z; destruct (i <? 0) eqn:Q; [discriminate|lia]).
      rewrite py_index_nonneg in E by assumption. rewrite Z in E. injection E as ->.
      split; [unfold zget in Z; destruct (i <? 0); [discriminate|exact (nth_error_In _ _ Z)]|]. exists n. split; [exact IN|]. lia.
    - intros (I & n & IN & E).
      assert (K : exists i o', In i inds /\ zget rows i = Some o' /\ o_number o' = n).
      { clear - GI IN. induction GI as [|n' x ln lx (o' & Z & N) GI IH]; [destruct IN|]. destruct IN as [->|IN].
        - exists x, o'. split; [left; reflexivity|]. auto.
        - destruct (IH IN) as (n'' & o'' & A & B). exists n'', o''. split; [right; exact A|exact B]. }
      destruct K as (i & o' & II & Z & N). assert (0 <= i) by (unfold zget in Z; destruct (i <? 0) eqn:Q; [discriminate|lia]).
      assert (o' = o).
      { unfold zget in Z. destruct (i <? 0); [discriminate|]. apply In_nth_error in I. destruct I as (j & J).
        assert (EQ : Z.to_nat i = j).
        { apply (proj1 (NoDup_nth_error (map o_number rows)) ND).
          - rewrite map_length. apply nth_error_Some. rewrite Z. discriminate.
          - rewrite !nth_error_map, Z, J. cbn [option_map]. f_equal. lia. }
        rewrite EQ, J in Z. injection Z as ->. reflexivity. }
      subst o'. apply (Permutation_in i (PO inds)) in II. clear - S II Z H. induction S as [|x y lx ly XY S IH]; [destruct II|].
      destruct II as [->|II]; [|right; exact (IH II)]. rewrite py_index_nonneg in XY by assumption. rewrite Z in XY. injection XY as ->. left. reflexivity. }
  assert (PS : placed sub).
  { unfold placed in *. rewrite Forall_forall in *. intros o I. apply P. apply M in I. apply filter_In in I. tauto. }
  rewrite (ranges_none _ _ PS C). unfold any_cutouts. rewrite (existsb_in _ _ _ M). reflexivity.
Qed.

(** * What is left after an exception *)
Theorem num_left {X} nc pc order (f : list (hdu X)) numbers out er oc ic :
  num_on_disk nc pc order f numbers = (out, Some er) ->
  exists any k, (k < length (num_names f any))%nat /\ map fst out = firstn k (num_names f any) /\
    (open_meds (hnames oc ic out) = Ok tt <-> (3 <= k)%nat) /\
    ((exists r, validate_meds (hnames oc ic out) = Ok r /\ forall n, ~ In (MissingExt n) r) <-> (4 <= k)%nat).
Proof.
  rewrite num_eq. intros H. destruct (num_selection nc pc order f numbers) as [sel|er'] eqn:SE.
  2:{ injection H as <- _. exists false, 0%nat. split; [cbn; lia|]. split; [reflexivity|].
      split; [split; [discriminate|lia]|]. split; [intros (r & F & _); discriminate|lia]. }
  destruct (num_selection_rows _ _ _ _ _ _ SE) as (rows' & R' & inds & sub & r & pr & data & _ & S' & C & ->).
  apply writes_err in H. destruct H as (l & ws2 & W & ->). cbn [app].
  destruct (named_err _ _ _ _ _ (num_named f data r pr) W) as (k & K & M). rewrite num_list_concat in K, M.
  exists (negb (none_of r)), k. split; [exact K|]. split; [exact M|].
  unfold hnames. rewrite missing_ext_iff, M. unfold num_names, open_meds, has_ext. cbn [vf_ext]. clear.
  destruct k as [|[|[|[|k]]]].
  1-3: split; (split; [discriminate|lia]).
  1: split; [split; [lia|reflexivity]|split; [discriminate|lia]].
  split; (split; [lia|]); intros _; destruct (none_of r); reflexivity.
Qed.

(** * Same as the extraction of the tables and mosaics *)
Lemma num_cut_same {X} (f : list (hdu X)) mf r t : mosaics_plain f -> m_ext mf = mosaics f ->
  num_cut f r (ctype_name t ++ "_cutouts") = let* x := cut_ranges_ext mf r t in Ok [mk_ext x].
Proof.
  intros P M. unfold num_cut, cut_ranges_ext, read_pix, in_ext. rewrite find_mosaic by exact P. rewrite M. destruct (ext_find _ _) as [m|]; [|reflexivity].
  cbn [option_map bind]. destruct (data_from_ranges _ _); reflexivity.
Qed.

Theorem num_same {X} nc pc order (f : list (hdu X)) mf numbers : mosaics_plain f -> meds_of nc pc f = Some mf ->
  in_file f "metadata" = true ->
  match extract_numbers order mf numbers with
  | Ok g => exists out, num_on_disk nc pc order f numbers = (out, None) /\ meds_of nc pc out = Some g
  | Err er => snd (num_on_disk nc pc order f numbers) = Some er
  end.
Proof.
  intros P MO MD. destruct (meds_of_inv _ _ _ _ MO) as (R & II & PS & ME & NC & PC).
  unfold in_file in MD. destruct (hfind f "metadata") as [md|] eqn:MF; [|discriminate].
  rewrite num_eq. unfold num_selection, extract_numbers. rewrite R, PC. cbn [bind].
  replace (get_inds mf numbers) with (get_inds (mkMeds (m_cat mf) nc pc [] [] None) numbers) by (unfold get_inds; rewrite NC; reflexivity).
  destruct (get_inds _ _) as [inds|er]; cbn [bind]; [|reflexivity].
  destruct (mapM _ _) as [sub|er]; cbn [bind]; [|reflexivity].
  destruct (row_ranges sub) as [r|er]; cbn [bind]; [|reflexivity].
  destruct (first_is_minus_one r) as [none|er] eqn:FM; cbn [bind]; [|reflexivity].
  assert (NO : none_of r = none) by (unfold first_is_minus_one in FM; destruct r as [|[a b] r]; [discriminate|]; injection FM as <-; reflexivity).
  destruct (if none then Ok sub else renumber sub 0) as [data|er]; cbn [bind]; [|reflexivity].
  rewrite PS.
  set (pr := match m_psf mf with None => Ok ([], data) | Some _ => _ end).
  assert (PR : match option_map (@HPix X) (m_psf mf) with
     | Some _ => let* psf_ranges := psf_row_ranges pc data in let* pnone := first_is_minus_one psf_ranges in
                 let* obj_data := if pnone then Ok data else renumber_psf pc data 0 in Ok (obj_data, r, psf_ranges)
     | None => Ok (data, r, []) end = let* x := pr in Ok (snd x, r, fst x)).
  { unfold pr. destruct (m_psf mf); cbn [option_map]; [|reflexivity]. destruct (psf_row_ranges pc data) as [q|]; cbn [bind]; [|reflexivity].
    destruct (first_is_minus_one q) as [pn|]; cbn [bind]; [|reflexivity]. destruct (if pn then _ else _); reflexivity. }
  rewrite PR. clear PR. clearbody pr. destruct pr as [[q data']|er]; cbn [bind fst snd]; [|reflexivity].
  unfold num_writes, read_table. rewrite II, MF. fold (none_of r). rewrite NO. cbn [bind].
  destruct none.
  - cbn [map dummy_ext app]. cbn [go_writes loop step bind app].
    eexists. split; [reflexivity|]. rewrite NC. exact (meds_of_out nc pc data' (m_info mf) md dummy_ext None [] eq_refl).
  - change "image_cutouts"%string with (ctype_name TImage ++ "_cutouts")%string.
    change "weight_cutouts"%string with (ctype_name TWeight ++ "_cutouts")%string.
    change "seg_cutouts"%string with (ctype_name TSeg ++ "_cutouts")%string.
    change "bmask_cutouts"%string with (ctype_name TBmask ++ "_cutouts")%string.
    rewrite !(num_cut_same f mf _ _ P ME). cbn [app].
    destruct (cut_ranges_ext mf r TImage) as [im|er]; cbn [bind]; [|reflexivity].
    destruct (cut_ranges_ext mf r TWeight) as [wt|er]; cbn [bind]; [|reflexivity].
    destruct (cut_ranges_ext mf r TSeg) as [sg|er]; cbn [bind]; [|reflexivity].
    destruct (cut_ranges_ext mf r TBmask) as [bm|er]; cbn [bind]; [|reflexivity].
    assert (PP : num_cut_if_there f q "psf" = let* p := match m_psf mf with
                | Some p => let* x := data_from_ranges q p in Ok (Some x) | None => Ok None end in
                Ok match p with Some x => [("psf"%string, HPix x)] | None => [] end).
    { unfold num_cut_if_there, num_cut, read_pix. rewrite PS. destruct (m_psf mf) as [p|]; [|reflexivity]. cbn [option_map bind].
      destruct (data_from_ranges _ _); reflexivity. }
    rewrite PP. destruct (match m_psf mf with Some p => let* x := data_from_ranges q p in Ok (Some x) | None => Ok None end) as [p|er]; cbn [bind]; [|reflexivity].
    cbn [go_writes loop step bind app].
    eexists. split; [reflexivity|].
    pose proof (meds_of_out nc pc data' (m_info mf) md [im; wt; sg; bm] p [] eq_refl) as Q.
    rewrite app_nil_r in Q. rewrite NC. exact Q.
Qed.

(** * The output file before and after *)
Theorem num_checks {X} nc pc order (inp old : option (list (hdu X))) meds_file sub_file numbers :
  ~ NoDup numbers \/ numbers = [] \/ meds_file = sub_file \/ inp = None ->
  exists e, num_extractor nc pc order inp old meds_file sub_file numbers = (old, Some e).
Proof.
  intros H. unfold num_extractor, early_check. destruct (has_repeat numbers) eqn:E; [eauto|].
  unfold check_inputs. destruct (String.eqb meds_file sub_file) eqn:S; [eauto|]. destruct numbers as [|n l]; [eauto|].
  destruct inp; [|eauto]. exfalso. destruct H as [H|[H|[H|H]]]; try discriminate.
  - apply H. clear - E. revert E. generalize (n :: l) as m. induction m as [|x m IH]; intros E; constructor; cbn [has_repeat] in E;
      apply orb_false_iff in E; destruct E as [E1 E2].
    + intros I. assert (existsb (Z.eqb x) m = true) by (apply existsb_exists; exists x; split; [exact I|lia]). congruence.
    + exact (IH E2).
  - subst. rewrite String.eqb_refl in S. discriminate.
Qed.
Theorem num_clobbers {X} nc pc order (f : list (hdu X)) old meds_file sub_file numbers :
  NoDup numbers -> numbers <> [] -> meds_file <> sub_file ->
  num_extractor nc pc order (Some f) old meds_file sub_file numbers =
  (Some (fst (num_on_disk nc pc order f (zsort numbers))), snd (num_on_disk nc pc order f (zsort numbers))).
Proof.
  intros ND NE NS. unfold num_extractor, early_check.
  assert (E : has_repeat numbers = false).
  { clear - ND. induction ND as [|x l N ND IH]; [reflexivity|]. cbn [has_repeat]. rewrite IH, orb_false_r.
    destruct (existsb (Z.eqb x) l) eqn:E; [|reflexivity]. apply existsb_exists in E. destruct E as (y & I & Q).
    exfalso. apply N. replace x with y by lia. exact I. }
  rewrite E. unfold check_inputs. replace (String.eqb meds_file sub_file) with false by (symmetry; apply String.eqb_neq; exact NS).
  destruct numbers as [|n l]; [contradiction|]. destruct (num_on_disk _ _ _ _ _); reflexivity.
Qed.
Lemma zsort_in x l : In x (zsort l) <-> In x l.
Proof.
  assert (I : forall y l, In x (zinsert y l) <-> x = y \/ In x l).
  { clear. intros y l. induction l as [|z l IH]; cbn [zinsert In]; [intuition|]. destruct (z <? y); cbn [In]; [rewrite IH|]; intuition. }
  unfold zsort. induction l as [|y l IH]; cbn [fold_right In]; [tauto|]. rewrite I, IH. intuition.
Qed.
Theorem num_unknown {X} pc order (f : list (hdu X)) old meds_file sub_file numbers n rows :
  NoDup numbers -> meds_file <> sub_file -> read_obj f = Ok rows -> In n numbers -> ~ In n (map o_number rows) ->
  num_extractor true pc order (Some f) old meds_file sub_file numbers = (Some [], Some AssertionError).
Proof.
  intros ND NS R IN NI. rewrite num_clobbers; [|exact ND|intros ->; destruct IN|exact NS].
  unfold num_on_disk, num_selection. rewrite R. cbn [bind].
  rewrite (ExtractLemmas5.get_inds_fails (mkMeds rows true pc [] [] None) (zsort numbers) n); [reflexivity|reflexivity|apply zsort_in; exact IN|].
  left. cbn [m_cat]. unfold SpecExtract.occurrences. 
  assert (G : filter (fun o => o_number o =? n) rows = []).
  { clear - NI. induction rows as [|o rows IH]; [reflexivity|]. cbn [filter map In] in *. destruct (o_number o =? n) eqn:E; [exfalso; apply NI; left; lia|].
    apply IH. tauto. }
  rewrite G. reflexivity.
Qed.
