(** Extraction by numbers: lookup of the rows, the result, its form. *)
From Coq Require Import Lia ZifyBool ZifyNat Permutation.
From Verif Require Import Base BaseLemmas Img ImgLemmas Types Reader ReadLemmas StartLemmas Extract
  SpecTiles SpecFile SpecExtract ExtractLemmas ExtractLemmas2 ExtractLemmas3 ExtractLemmas4.
Open Scope Z_scope.

(** * The output is well formed *)
Lemma assign_tiles st set (sz : slot -> Z) : (forall s v, st (set s v) = v) -> (forall s v, sz (set s v) = sz s) ->
  forall n loc sl, (n <= length sl)%nat -> (forall s, In s (firstn n sl) -> 0 <= sz s) ->
  tiles loc (map (fun s => (st s, st s + sz s)) (firstn n (assign set sz n loc sl))) (loc + total sz (firstn n sl)).
Proof.
  intros H1 H2. induction n as [|n IH]; intros loc sl L P.
  - cbn. rewrite Z.add_0_r. constructor.
  - destruct sl as [|s sl]; [cbn in L; lia|]. cbn [assign firstn map]. rewrite H1, H2. constructor.
    + specialize (P s (or_introl eq_refl)). lia.
    + replace (loc + total sz (s :: firstn n sl)) with (loc + sz s + total sz (firstn n sl)) by (unfold total; cbn [map fold_right]; ring).
      apply IH; [cbn in L; lia|]. intros s' I. apply P. right. exact I.
Qed.

Lemma ren_tiles st set sz : (forall s v, st (set s v) = v) -> (forall o s v, sz o (set s v) = sz o s) ->
  (forall o sl s, sz (set_slots o sl) s = sz o s) -> forall objs,
  Forall fits objs -> (forall o s, In o objs -> In s (used_slots o) -> 0 <= sz o s) ->
  forall loc, tiles loc (lranges st sz (ren set sz objs loc)) (loc + before sz objs (length objs)).
Proof.
  intros H1 H2 H3. induction objs as [|o objs IH]; intros F P loc.
  - unfold before. cbn. rewrite Z.add_0_r. constructor.
  - inversion F as [|? ? F1 F2]; subst. cbn [ren lranges flat_map]. eapply tiles_app.
    + unfold used_slots, ren_obj at 2. cbn [o_slots set_slots o_ncut]. rewrite (map_ext _ (fun s => (st s, st s + sz o s))).
      2:{ intros s. unfold ren_obj. rewrite H3. reflexivity. }
      apply (assign_tiles st set (sz o) H1 (H2 o)); [unfold fits, zlen in F1; lia|]. intros s I. apply (P o s (or_introl eq_refl) I).
    + replace (loc + before sz (o :: objs) (length (o :: objs))) with (loc + total (sz o) (used_slots o) + before sz objs (length objs))
        by (unfold before; cbn [length firstn map fold_right]; ring).
      apply IH; [exact F2|]. intros o' s I. apply P. right. exact I.
Qed.

Lemma lranges_ren st sz0 set sz objs : (forall s v, st (set s v) = st s) -> (forall o s v, sz0 o (set s v) = sz0 o s) ->
  (forall o sl s, sz0 (set_slots o sl) s = sz0 o s) -> forall loc,
  lranges st sz0 (ren set sz objs loc) = lranges st sz0 objs.
Proof.
  intros H1 H2 H3. induction objs as [|o objs IH]; intros loc; [reflexivity|]. unfold lranges in *. cbn [ren flat_map]. rewrite IH. f_equal.
  rewrite used_map_ren by (intros s v; rewrite H1, H2; reflexivity). apply map_ext. intros s. unfold ren_obj. rewrite H3. reflexivity.
Qed.

Lemma blocks_len st sz m objs : Forall (placed st sz m) objs -> zlen (blocks st sz m objs) = before sz objs (length objs).
Proof.
  induction 1 as [|o objs P _ IH]; [reflexivity|]. cbn [blocks flat_map]. rewrite zlen_app. unfold blocks in IH. rewrite IH, block_len by exact P. reflexivity.
Qed.

Lemma ren_fits set sz objs : Forall fits objs -> forall loc, Forall fits (ren set sz objs loc).
Proof. induction 1 as [|o objs F _ IH]; intros l; cbn [ren]; constructor; [apply fits_ren; exact F|apply IH]. Qed.
Lemma ren_box set sz objs : Forall (fun o => 0 < o_box o) objs -> forall loc, Forall (fun o => 0 < o_box o) (ren set sz objs loc).
Proof. induction 1 as [|o objs F _ IH]; intros l; cbn [ren]; constructor; [exact F|apply IH]. Qed.

Lemma numbers_wf f objs : file_wf f -> psf_wf f -> (m_psf f <> None -> m_psf_cols f = PsfRCCut) ->
  (forall t, four t -> has_ext f t) -> Forall (fun o => In o (m_cat f)) objs ->
  (forall p, m_psf f = Some p -> Forall (placed s_psf_start (psf_npix PsfRCCut) p) (ren set_start cutsz objs 0)) ->
  file_wf (numbers_result f objs) /\ psf_wf (numbers_result f objs).
Proof.
  intros WF PW PL FX IN PP.
  assert (FT : Forall fits objs).
  { destruct WF as (W & _). rewrite Forall_forall in *. intros o I. apply W. apply IN; exact I. }
  assert (BX : Forall (fun o => 0 < o_box o) objs).
  { destruct WF as (W & _). rewrite Forall_forall in *. intros o I. apply W. apply IN; exact I. }
  assert (LR : cut_ranges (numbers_objs objs (match m_psf f with Some _ => true | None => false end)) = cut_ranges (ren set_start cutsz objs 0)).
  { unfold numbers_objs. destruct (m_psf f); [|reflexivity]. apply (lranges_ren s_start cutsz); reflexivity. }
  split; [split|].
  - unfold numbers_result, numbers_objs. cbn [m_cat].
    assert (X : forall l, Forall fits l -> Forall (fun o => 0 < o_box o) l -> Forall (fun o => 0 <= o_ncut o <= zlen (o_slots o) /\ 0 < o_box o) l).
    { intros l A B. rewrite Forall_forall in *. intros o I. split; [apply A; exact I|apply B; exact I]. }
    destruct (m_psf f); apply X; repeat first [apply ren_fits|apply ren_box]; assumption.
  - intros t m' E. unfold numbers_result in *. cbn [m_cat m_ext] in *. rewrite LR.
    assert (exists m, ext_find (m_ext f) t = Some m /\ m' = blocks s_start cutsz m objs) as (m & Em & ->).
    { destruct (FX TImage) as (m1 & E1); [unfold four; tauto|]. destruct (FX TWeight) as (m2 & E2); [unfold four; tauto|].
      destruct (FX TSeg) as (m3 & E3); [unfold four; tauto|]. destruct (FX TBmask) as (m4 & E4); [unfold four; tauto|].
      rewrite E1, E2, E3, E4 in E. destruct t; cbn in E; try discriminate; injection E as <-; eexists; split; try reflexivity; assumption. }
    rewrite blocks_len.
    + change (cut_ranges (ren set_start cutsz objs 0)) with (lranges s_start cutsz (ren set_start cutsz objs 0)).
      rewrite <- (Z.add_0_l (before cutsz objs (length objs))). apply (ren_tiles s_start set_start cutsz); try reflexivity; [exact FT|].
      intros o s _ _. unfold cutsz. nia.
    + destruct WF as (W & T). rewrite Forall_forall in *. intros x Ix. apply (placed_in s_start cutsz (m_cat f)); [apply (T t); exact Em|apply IN; exact Ix|apply W, IN; exact Ix|].
      intros ? _. unfold cutsz. destruct (W x (IN x Ix)) as (_ & Bx). nia.
  - intros p' E. unfold numbers_result in *. cbn [m_psf m_cat m_psf_cols] in *. unfold numbers_objs. destruct (m_psf f) as [p|] eqn:Ep; [|discriminate].
    cbn [option_map] in E. injection E as <-. rewrite PL by discriminate. split; [discriminate|].
    assert (POS : forall o s, In o (ren set_start cutsz objs 0) -> In s (used_slots o) -> 0 < psf_npix PsfRCCut o s).
    { intros o s I Is. apply In_nth_error in I. destruct I as (i & E).
      assert (L := proj1 (nth_error_Some (ren set_start cutsz objs 0) i) ltac:(congruence)). rewrite ren_len in L. apply nth_error_Some in L.
      destruct (nth_error objs i) as [o0|] eqn:E0; [|congruence]. rewrite (ren_nth _ _ _ _ _ _ E0) in E. injection E as <-.
      assert (I0 : In o0 objs) by (eapply nth_error_In; exact E0). rewrite Forall_forall in IN.
      destruct (PW p Ep) as (_ & _ & PO). rewrite PL in PO by congruence.
      assert (M : In (psf_npix PsfRCCut o0 s) (map (psf_npix PsfRCCut o0) (used_slots o0))).
      { rewrite <- (used_map_ren (psf_npix PsfRCCut o0) set_start cutsz o0 (0 + before cutsz objs i)) by reflexivity. apply in_map. exact Is. }
      apply in_map_iff in M. destruct M as (s0 & M1 & M2). assert (G : 0 < psf_npix PsfRCCut o0 s0) by (apply PO; [apply IN; exact I0|exact M2]). rewrite M1 in G. exact G. }
    split.
    + rewrite blocks_len by (apply PP; reflexivity).
      change (psf_pixel_ranges PsfRCCut) with (lranges s_psf_start (psf_npix PsfRCCut)).
      set (r := ren set_start cutsz objs 0) in *. rewrite <- (Z.add_0_l (before (psf_npix PsfRCCut) r (length r))).
      apply (ren_tiles s_psf_start set_psf_start (psf_npix PsfRCCut)); try reflexivity; [apply ren_fits; exact FT|].
      intros o s I1 I2. specialize (POS o s I1 I2). lia.
    + intros o s I Is. apply In_nth_error in I. destruct I as (i & E). set (r := ren set_start cutsz objs 0) in *.
      assert (L := proj1 (nth_error_Some (ren set_psf_start (psf_npix PsfRCCut) r 0) i) ltac:(congruence)). rewrite ren_len in L. apply nth_error_Some in L.
      destruct (nth_error r i) as [o0|] eqn:E0; [|congruence]. rewrite (ren_nth _ _ _ _ _ _ E0) in E. injection E as <-.
      set (w := before (psf_npix PsfRCCut) r i) in *.
      assert (M : In (psf_npix PsfRCCut o0 s) (map (psf_npix PsfRCCut o0) (used_slots o0))).
      { rewrite <- (used_map_ren (psf_npix PsfRCCut o0) set_psf_start (psf_npix PsfRCCut) o0 w) by reflexivity. apply in_map. exact Is. }
      apply in_map_iff in M. destruct M as (s0 & M1 & M2). assert (G : 0 < psf_npix PsfRCCut o0 s0) by (apply POS; [eapply nth_error_In; exact E0|exact M2]). rewrite M1 in G. exact G.
Qed.

(** * Lookup of the rows *)

Lemma filter_unique {A} (p : A -> bool) l i : NoDup l -> In i l -> p i = true -> (forall j, In j l -> p j = true -> j = i) -> filter p l = [i].
Proof.
  induction l as [|a l IH]; intros N I P U; [destruct I|]. inversion N as [|? ? N1 N2]; subst. cbn [filter]. destruct (p a) eqn:Pa.
  - assert (a = i) by (apply U; [left; reflexivity|exact Pa]). subst a. f_equal.
    assert (H : forall j, In j l -> p j = false).
    { intros j Ij. destruct (p j) eqn:Pj; [|reflexivity]. assert (j = i) by (apply U; [right; exact Ij|exact Pj]). subst j. contradiction. }
    clear - H. induction l as [|b l IH]; [reflexivity|]. cbn [filter]. rewrite (H b) by (left; reflexivity). apply IH. intros j I. apply H. right. exact I.
  - destruct I as [->|I]; [congruence|]. apply IH; try assumption. intros j Ij. apply U. right. exact Ij.
Qed.

Lemma number_at_true cat i n : number_at cat i n = true -> exists o, zget cat i = Some o /\ o_number o = n.
Proof. unfold number_at. destruct (zget cat i) as [o|]; [|discriminate]. intros H. exists o. split; [reflexivity|lia]. Qed.

Lemma number_inj cat i j o o' : NoDup (map o_number cat) -> zget cat i = Some o -> zget cat j = Some o' -> o_number o = o_number o' -> i = j.
Proof.
  intros N Zi Zj E. assert (Ri := zget_Some_range _ _ _ Zi). assert (Rj := zget_Some_range _ _ _ Zj).
  rewrite <- (Z2Nat.id i), zget_nat in Zi by lia. rewrite <- (Z2Nat.id j), zget_nat in Zj by lia.
  apply (f_equal (option_map o_number)) in Zi, Zj. rewrite <- nth_error_map in Zi, Zj.
  assert (Z.to_nat i = Z.to_nat j); [|lia]. eapply NoDup_nth_error; [exact N| |].
  - apply nth_error_Some. rewrite Zi. discriminate.
  - rewrite Zi, Zj. cbn. congruence.
Qed.

Lemma get_ind_unique cat i o : NoDup (map o_number cat) -> zget cat i = Some o -> get_ind cat (o_number o) = Ok i.
Proof.
  intros N Zi. unfold get_ind. destruct (number_at cat (o_number o - 1) (o_number o)) eqn:E.
  - apply number_at_true in E. destruct E as (o' & E1 & E2). f_equal. eapply number_inj; eassumption.
  - rewrite (filter_unique _ _ i); [reflexivity|apply zrange_NoDup|apply In_zrange; eapply zget_Some_range; exact Zi| |].
    + unfold number_at. rewrite Zi. lia.
    + intros j _ H. apply number_at_true in H. destruct H as (o' & H1 & H2). eapply number_inj; eassumption.
Qed.

Lemma get_ind_ok cat n i : get_ind cat n = Ok i -> exists o, zget cat i = Some o /\ o_number o = n.
Proof.
  unfold get_ind. destruct (number_at cat (n - 1) n) eqn:E.
  - intros H. injection H as <-. apply number_at_true; exact E.
  - destruct (filter _ _) as [|a [|b l]] eqn:F; intros H; try discriminate. injection H as <-. apply number_at_true.
    assert (I : In a (filter (fun i => number_at cat i n) (zrange (zlen cat)))) by (rewrite F; left; reflexivity). apply filter_In in I. tauto.
Qed.

Lemma count_seq (p : obj -> bool) l : forall pre,
  length (filter (fun i => match nth_error (pre ++ l) i with Some o => p o | None => false end) (seq (length pre) (length l))) = length (filter p l).
Proof.
  induction l as [|o l IH]; intros pre; [reflexivity|]. cbn [length seq filter]. rewrite nth_error_app2 by lia. rewrite Nat.sub_diag. cbn [nth_error].
  specialize (IH (pre ++ [o])). rewrite app_length in IH. cbn [length] in IH. replace (length pre + 1)%nat with (S (length pre)) in IH by lia. rewrite <- app_assoc in IH. cbn [app] in IH.
  destruct (p o); cbn [length]; rewrite IH; reflexivity.
Qed.

Lemma count_indices cat n : zlen (filter (fun i => number_at cat i n) (zrange (zlen cat))) = occurrences cat n.
Proof.
  unfold occurrences. unfold zlen at 1 3. f_equal. rewrite <- (count_seq _ cat []). cbn [length app].
  assert (G : forall l, length (filter (fun i => number_at cat i n) (map Z.of_nat l)) = length (filter (fun i => match nth_error cat i with Some o => o_number o =? n | None => false end) l)).
  { induction l as [|a l IH]; [reflexivity|]. cbn [map filter]. unfold number_at at 1. rewrite zget_nat. destruct (nth_error cat a) as [o|]; [destruct (o_number o =? n)|]; cbn [length]; rewrite IH; reflexivity. }
  rewrite zrange_seq, G. unfold zlen. rewrite Nat2Z.id. reflexivity.
Qed.

Lemma get_ind_err cat n : (exists i, get_ind cat n = Ok i) \/ get_ind cat n = Err AssertionError.
Proof. unfold get_ind. destruct (if number_at cat (n - 1) n then _ else _) as [|a [|b l]]; [right|left; eexists|right]; reflexivity. Qed.

Lemma occ_pos cat n : (exists o, In o cat /\ o_number o = n) <-> 1 <= occurrences cat n.
Proof.
  unfold occurrences. split.
  - intros (o & I & E). assert (J : In o (filter (fun o => o_number o =? n) cat)) by (apply filter_In; split; [exact I|lia]).
    destruct (filter _ cat); [destruct J|]. rewrite zlen_cons. pose proof (zlen_nonneg l). lia.
  - destruct (filter _ cat) as [|o l] eqn:F; [cbn; lia|]. intros _. exists o.
    assert (J : In o (filter (fun o => o_number o =? n) cat)) by (rewrite F; left; reflexivity). apply filter_In in J. split; [tauto|lia].
Qed.

Lemma get_ind_fails cat n : get_ind cat n = Err AssertionError <->
  occurrences cat n = 0 \/ (2 <= occurrences cat n /\ forall o, zget cat (n - 1) = Some o -> o_number o <> n).
Proof.
  unfold get_ind. destruct (number_at cat (n - 1) n) eqn:E.
  - apply number_at_true in E. destruct E as (o & E1 & E2). split; [discriminate|]. intros [H|(_ & H)]; [|elim (H o E1 E2)].
    assert (1 <= occurrences cat n) by (apply occ_pos; exists o; split; [eapply zget_In; exact E1|exact E2]). lia.
  - rewrite <- count_indices. destruct (filter _ _) as [|a [|b l]].
    + split; [intros _; left; reflexivity|reflexivity].
    + split; [discriminate|]. cbn. lia.
    + split; [|reflexivity]. intros _. right. rewrite !zlen_cons. pose proof (zlen_nonneg l). split; [lia|]. intros o Zo Eo. unfold number_at in E. rewrite Zo in E. lia.
Qed.

Lemma get_inds_ok f numbers inds : get_inds f numbers = Ok inds ->
  Forall2 (fun n i => exists o, zget (m_cat f) i = Some o /\ o_number o = n) numbers inds.
Proof.
  unfold get_inds. destruct (m_number_col f); [|discriminate]. intros H. apply mapM_ok_Forall2 in H.
  induction H as [|n i numbers inds H _ IH]; constructor; [apply get_ind_ok; exact H|exact IH].
Qed.

Lemma mapM_first_err {X Y} (f : X -> res Y) e : (forall x, (exists y, f x = Ok y) \/ f x = Err e) -> forall l x, In x l -> f x = Err e -> mapM f l = Err e.
Proof.
  intros H. induction l as [|a l IH]; intros x I E; [destruct I|]. cbn [mapM]. destruct I as [->|I]; [rewrite E; reflexivity|].
  destruct (H a) as [(y & ->)| ->]; [|reflexivity]. cbn [bind]. rewrite (IH x I E). reflexivity.
Qed.

Lemma get_inds_fails f numbers n : m_number_col f = true -> In n numbers ->
  (occurrences (m_cat f) n = 0 \/ (2 <= occurrences (m_cat f) n /\ forall o, zget (m_cat f) (n - 1) = Some o -> o_number o <> n)) ->
  get_inds f numbers = Err AssertionError.
Proof.
  intros C I H. unfold get_inds. rewrite C. apply mapM_first_err with (x := n); [apply get_ind_err|exact I|apply get_ind_fails; exact H].
Qed.

Lemma get_inds_numbers cat numbers : NoDup (map o_number cat) -> (forall n, In n numbers -> exists o, In o cat /\ o_number o = n) ->
  exists inds, mapM (get_ind cat) numbers = Ok inds /\ Forall2 (fun n i => exists o, zget cat i = Some o /\ o_number o = n) numbers inds.
Proof.
  intros N. induction numbers as [|n numbers IH]; intros H.
  - exists []. split; [reflexivity|constructor].
  - destruct (H n (or_introl eq_refl)) as (o & Io & Eo). apply In_zget in Io. destruct Io as (i & Zi).
    destruct IH as (inds & E1 & E2); [intros m I; apply H; right; exact I|]. exists (i :: inds). cbn [mapM].
    rewrite <- Eo, (get_ind_unique cat i o N Zi). cbn [bind]. rewrite E1. split; [reflexivity|]. constructor; [exists o; split; [exact Zi|reflexivity]|exact E2].
Qed.

(** * No cutouts at all *)
Lemma no_cutouts f g i j o o' : zget (m_cat f) j = Some o -> zget (m_cat g) i = Some o' -> o_ncut o = 0 -> o_ncut o' = 0 ->
  (forall t k, get_cutout g i k t = Err ValueError /\ get_cutout f j k t = Err ValueError) /\
  (forall k, get_psf g i k = Err ValueError /\ get_psf f j k = Err ValueError).
Proof.
  assert (X : forall h i o k, zget (m_cat h) i = Some o -> o_ncut o = 0 -> check_indices h i k = Err ValueError).
  { clear. intros h i o k Z N. unfold check_indices. pose proof (zget_Some_range _ _ _ Z). replace (zlen (m_cat h) <=? i) with false by lia.
    rewrite py_index_nonneg by lia. rewrite Z. cbn [bind]. rewrite N. reflexivity. }
  intros Zf Zg Nf Ng. split; intros; split; unfold get_cutout, get_psf.
  - rewrite (X g i o' _ Zg Ng). reflexivity.
  - rewrite (X f j o _ Zf Nf). reflexivity.
  - destruct (m_psf g); [|reflexivity]. rewrite (X g i o' _ Zg Ng). reflexivity.
  - destruct (m_psf f); [|reflexivity]. rewrite (X f j o _ Zf Nf). reflexivity.
Qed.

Lemma row_ranges_none objs : (forall o, In o objs -> o_ncut o <= 0) -> row_ranges objs = Ok [(-1, -1)].
Proof.
  intros H. unfold row_ranges. assert (E : foldM row_ranges_step objs [] = Ok []).
  { induction objs as [|o objs IH]; [reflexivity|]. cbn [foldM]. unfold row_ranges_step at 1. replace (0 <? o_ncut o) with false by (specialize (H o (or_introl eq_refl)); lia).
    cbn [bind]. apply IH. intros o' I. apply H. right. exact I. }
  rewrite E. reflexivity.
Qed.

Lemma filter_nil {A} (p : A -> bool) l : (forall x, In x l -> p x = false) -> filter p l = [].
Proof. induction l as [|a l IH]; intros H; [reflexivity|]. cbn [filter]. rewrite (H a) by (left; reflexivity). apply IH. intros x I. apply H. right. exact I. Qed.

Lemma numbers_none order f numbers inds objs : get_inds f numbers = Ok inds -> mapM (py_index (m_cat f)) (order inds) = Ok objs ->
  (forall o, In o objs -> o_ncut o <= 0) ->
  extract_numbers order f numbers = Ok (mkMeds objs (m_number_col f) (m_psf_cols f) (m_info f) dummy_ext None).
Proof.
  intros GI MI H. unfold extract_numbers. rewrite GI. cbn [bind]. rewrite MI. cbn [bind]. rewrite row_ranges_none by exact H. cbn [bind first_is_minus_one].
  change (-1 =? -1) with true. cbv iota. cbn [bind]. destruct (m_psf f); [|reflexivity].
  unfold psf_row_ranges. rewrite filter_nil by (intros o I; specialize (H o I); lia). reflexivity.
Qed.

Lemma Permutation_Forall2_ex {A B} (R : A -> B -> Prop) l1 : forall l2, Forall2 R l1 l2 -> forall l2', Permutation l2' l2 -> exists l1', Permutation l1' l1 /\ Forall2 R l1' l2'.
Proof.
  intros l2 F l2' P. apply Permutation_sym in P. revert l1 F. induction P as [|x l l' P IH|x y l|l l' l'' P1 IH1 P2 IH2]; intros l1 F.
  - inversion F; subst. exists []. split; constructor.
  - inversion F as [|a b l1' l2 R1 F']; subst. destruct (IH _ F') as (l1'' & Q1 & Q2). exists (a :: l1''). split; [constructor; exact Q1|constructor; assumption].
  - inversion F as [|a b l1' l2 R1 F']; subst. inversion F' as [|a2 b2 l1'' l3 R2 F'']; subst. exists (a2 :: a :: l1''). split; [constructor|]. repeat constructor; assumption.
  - destruct (IH1 _ F) as (m1 & Q1 & Q2). destruct (IH2 _ Q2) as (m2 & Q3 & Q4). exists m2. split; [eapply perm_trans; eassumption|exact Q4].
Qed.

Theorem numbers_ok order f numbers : file_wf f -> psf_wf f -> (m_psf f <> None -> m_psf_cols f = PsfRCCut) ->
  has_ext f TImage -> has_ext f TWeight -> has_ext f TSeg -> has_ext f TBmask -> m_number_col f = true ->
  NoDup (map o_number (m_cat f)) -> (forall l, Permutation (order l) l) ->
  (forall n, In n numbers -> exists o, In o (m_cat f) /\ o_number o = n) ->
  exists g, extract_numbers order f numbers = Ok g /\ Permutation (map o_number (m_cat g)) numbers /\
    m_info g = m_info f /\ m_number_col g = true /\ m_psf_cols g = m_psf_cols f /\
    ((exists o, In o (m_cat g) /\ 0 < o_ncut o) -> file_wf g /\ psf_wf g) /\
    forall i o', zget (m_cat g) i = Some o' -> exists j o, zget (m_cat f) j = Some o /\ o_number o = o_number o' /\
      same_but_starts o o' /\
      same_cutouts f j g i TImage /\ same_cutouts f j g i TWeight /\ same_cutouts f j g i TSeg /\ same_cutouts f j g i TBmask /\
      same_psfs f j g i.
Proof.
  intros WF PW PL X1 X2 X3 X4 NC ND OP EX.
  assert (FX : forall t, four t -> has_ext f t) by (intros t [-> | [-> | [-> | ->]]]; assumption).
  destruct (get_inds_numbers (m_cat f) numbers ND EX) as (inds & G1 & G2).
  assert (GI : get_inds f numbers = Ok inds) by (unfold get_inds; rewrite NC; exact G1).
  destruct (Permutation_Forall2_ex _ _ _ G2 _ (OP inds)) as (nums' & P1 & P2).
  assert (exists objs, mapM (py_index (m_cat f)) (order inds) = Ok objs /\ map o_number objs = nums' /\ Forall (fun o => In o (m_cat f)) objs) as (objs & M1 & M2 & M3).
  { clear - P2. induction P2 as [|n i nums l (o & Z1 & Z2) _ (objs & I1 & I2 & I3)]; [exists []; repeat split; constructor|].
    exists (o :: objs). cbn [mapM]. pose proof (zget_Some_range _ _ _ Z1). rewrite py_index_nonneg, Z1 by lia. cbn [bind]. rewrite I1. cbn [map]. rewrite I2, Z2. split; [reflexivity|]. split; [reflexivity|].
    constructor; [eapply zget_In; exact Z1|exact I3]. }
  destruct (existsb (fun o => 0 <? o_ncut o) objs) eqn:EB.
  - apply existsb_exists in EB. destruct EB as (oc & Ic & Nc).
    destruct (numbers_eq order f numbers inds objs WF PW PL FX GI M1 M3) as (E1 & E2); [exists oc; split; [exact Ic|lia]|].
    exists (numbers_result f objs). split; [exact E1|].
    assert (NUM : map o_number (m_cat (numbers_result f objs)) = map o_number objs).
    { assert (R : forall set sz l loc, map o_number (ren set sz l loc) = map o_number l).
      { clear. intros set sz. induction l as [|o l IH]; intros loc; [reflexivity|]. cbn [ren map]. rewrite IH. reflexivity. }
      unfold numbers_result, numbers_objs. cbn [m_cat]. destruct (m_psf f); rewrite !R; reflexivity. }
    split; [rewrite NUM, M2; exact P1|]. do 3 (split; [first [reflexivity|exact NC]|]). split; [intros _; apply numbers_wf; assumption|].
    intros i o' Zg.
    assert (LEN : zlen (m_cat (numbers_result f objs)) = zlen objs).
    { unfold zlen. apply (f_equal (@length _)) in NUM. rewrite !map_length in NUM. lia. }
    destruct (zget_range_Some objs i) as (o & Zo); [pose proof (zget_Some_range _ _ _ Zg); lia|].
    assert (IO : In o (m_cat f)) by (rewrite Forall_forall in M3; apply M3; eapply zget_In; exact Zo).
    destruct (numbers_same f objs i o WF PL E2) as (o2 & Z2 & S2 & H); try assumption.
    { intros p s Ep Is. destruct (PW p Ep) as (_ & _ & PO). rewrite PL in PO by congruence. apply PO; assumption. }
    assert (o2 = o') by congruence. subst o2. apply In_zget in IO. destruct IO as (j & Zj). destruct (H j Zj) as (H1 & H2). exists j, o. split; [exact Zj|].
    split; [symmetry; apply (same_fields _ _ S2)|]. split; [exact S2|]. unfold four in H1. repeat split; [apply H1; tauto..|exact H2].
  - assert (NN : forall o, In o objs -> o_ncut o <= 0).
    { intros o I. destruct (0 <? o_ncut o) eqn:E; [|lia]. assert (existsb (fun o => 0 <? o_ncut o) objs = true) by (apply existsb_exists; exists o; split; assumption). congruence. }
    rewrite (numbers_none order f numbers inds objs GI M1 NN). eexists. split; [reflexivity|]. cbn [m_cat m_info m_number_col m_psf_cols].
    split; [rewrite M2; exact P1|]. split; [reflexivity|]. split; [exact NC|]. split; [reflexivity|]. split.
    { intros (o & I & N). specialize (NN o I). lia. }
    intros i o Zi. assert (IO : In o objs) by (eapply zget_In; exact Zi). assert (IF : In o (m_cat f)) by (rewrite Forall_forall in M3; apply M3; exact IO).
    assert (N0 : o_ncut o = 0). { destruct WF as (W & _). rewrite Forall_forall in W. destruct (W o IF) as (W1 & _). specialize (NN o IO). lia. }
    apply In_zget in IF. destruct IF as (j & Zj). exists j, o. split; [exact Zj|]. split; [reflexivity|]. split; [apply same_refl|].
    destruct (no_cutouts f (mkMeds objs (m_number_col f) (m_psf_cols f) (m_info f) dummy_ext None) i j o o Zj Zi N0 N0) as (C1 & C2).
    repeat split; intros k _; first [destruct (C1 TImage k)|destruct (C2 k)]; try congruence.
    + destruct (C1 TWeight k); congruence.
    + destruct (C1 TSeg k); congruence.
    + destruct (C1 TBmask k); congruence.
    + destruct (C2 k); congruence.
Qed.

(** * Ranges without cutouts *)
Lemma range_none ca f a b : 0 <= a <= b -> b < zlen (m_cat f) ->
  (forall i o, a <= i <= b -> zget (m_cat f) i = Some o -> o_ncut o = 0) ->
  exists g, extract_range ca f a b = Ok g /\ slice (m_cat f) a (b + 1) = Ok (m_cat g) /\ m_info g = m_info f /\
    m_number_col g = m_number_col f /\ has_ext g TImage /\ has_ext g TWeight /\ has_ext g TSeg /\ has_ext g TBmask /\
    forall i o, zget (m_cat g) i = Some o -> forall k,
      (forall t, get_cutout g i k t = Err ValueError) /\ (forall t, get_mosaic g i t = Err ValueError) /\
      (forall t, get_cutout_list g i t = Err ValueError) /\ get_psf g i k = Err ValueError.
Proof.
  intros A B H. destruct (slice_in_range (m_cat f) a (b + 1)) as (objs & S); try lia.
  destruct (slice_ok _ _ _ _ S) as (S1 & S2 & S3 & S4).
  assert (NN : forall o, In o objs -> o_ncut o = 0).
  { intros o I. apply In_zget in I. destruct I as (i & Zi). assert (R := zget_Some_range _ _ _ Zi). rewrite S4 in Zi by lia. apply (H (a + i)); [lia|exact Zi]. }
  unfold extract_range. rewrite S. cbn [bind]. rewrite row_range_none by (intros o I; rewrite NN by exact I; lia). cbn [bind].
  change (-1 =? -1) with true. cbv iota beta.
  assert (P : match m_psf f with Some _ => psf_row_range (m_psf_cols f) objs | None => Ok (-1, -1) end = Ok (-1, -1)).
  { destruct (m_psf f); [|reflexivity]. apply psf_row_range_none. intros o I. rewrite NN by exact I. lia. }
  rewrite P. cbn [bind]. change (-1 =? -1) with true. cbv iota beta. eexists. split; [reflexivity|]. cbn [m_cat m_info m_number_col].
  split; [reflexivity|]. split; [reflexivity|]. split; [reflexivity|]. do 4 (split; [eexists; reflexivity|]).
  intros i o Zi k. set (g := mkMeds _ _ _ _ _ _).
  assert (X : forall k, check_indices g i k = Err ValueError).
  { intros k'. unfold check_indices. assert (R := zget_Some_range _ _ _ Zi). cbn [m_cat g]. replace (zlen objs <=? i) with false by lia.
    rewrite py_index_nonneg by lia. rewrite Zi. cbn [bind]. rewrite NN by (eapply zget_In; exact Zi). reflexivity. }
  unfold get_cutout_list, get_cutout, get_mosaic, get_psf. rewrite !X. repeat split.
Qed.
