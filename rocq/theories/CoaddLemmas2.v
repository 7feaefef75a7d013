(** Symmetrising, interpolating, and the list of observations. *)
From Coq Require Import Lia ZifyBool ZifyNat Qabs Lqa Qfield Permutation.
From Verif Require Import Base BaseLemmas Img ImgLemmas Types Reader BoundsM MakerLayout MakerWrite Composite Coadd
  SpecTiles SpecFile SpecComposite SpecCoadd ReadLemmas CalibLemmas CompositeLemmas OutlierLemmas CoaddLemmas.
Open Scope Z_scope.

Lemma rot90_ok {A} (m z : img A) : img_ok m -> rot90 m = Ok z ->
  img_ok z /\ nr z = nc m /\ nc z = nr m /\
  forall r k, 0 <= r < nc m -> 0 <= k < nr m -> px z r k = px m k (nc m - 1 - r).
Proof.
  intros Hm H. unfold rot90 in H. apply tab2M_ok in H; [|apply Hm|apply Hm].
  destruct H as (I1 & I2 & I3 & I4). split; [exact I1|]. split; [exact I2|]. split; [exact I3|].
  intros r k Hr Hk. destruct (I4 r k Hr Hk) as (a & X & P). apply px_res_ok in X. congruence.
Qed.
Lemma rot90_exists {A} (m : img A) : img_ok m -> exists z, rot90 m = Ok z.
Proof.
  intros Hm. unfold rot90. apply tab2M_exists; [apply Hm|apply Hm|]. intros r k Hr Hk.
  destruct (px_in m k (nc m - 1 - r) Hm) as (a & P); [lia|lia|]. exists a. apply px_res_ok. exact P.
Qed.
Lemma img_zip_exists {A B C} (f : A -> B -> C) a b : nr a = nr b -> nc a = nc b -> exists c, img_zip f a b = Ok c.
Proof. intros H1 H2. unfold img_zip. rewrite H1, H2, !Z.eqb_refl. eexists; reflexivity. Qed.

Lemma symmetrize_weight_ok wt wt' : img_ok wt -> symmetrize_weight wt = Ok wt' -> nr wt = nc wt /\ sym_weight wt wt'.
Proof.
  intros Hw H. unfold symmetrize_weight in H. dif_in H E; [discriminate|]. assert (S : nr wt = nc wt) by lia. split; [exact S|].
  apply bind_ok in H. destruct H as (z & Z & H). apply rot90_ok in Z; [|exact Hw]. destruct Z as (Z1 & Z2 & Z3 & Z4).
  apply img_zip_ok in H; [|exact Hw|exact Z1]. destruct H as (_ & _ & H3 & H4 & H5 & H6).
  split; [exact H3|]. split; [exact H4|]. split; [exact H5|]. intros r k w v P Q.
  destruct (px_Some_range _ _ _ _ P) as [R1 R2]. rewrite H6, P, Z4, Q by lia. split.
  - intros V. apply Qeq_bool_iff in V. rewrite V. reflexivity.
  - intros V. apply Qeq_bool_false in V. rewrite V. reflexivity.
Qed.
Lemma symmetrize_weight_total wt : img_ok wt -> nr wt = nc wt -> exists wt', symmetrize_weight wt = Ok wt'.
Proof.
  intros Hw S. unfold symmetrize_weight. replace (nr wt =? nc wt) with true by lia. cbn [negb].
  destruct (rot90_exists wt Hw) as (z & Z). rewrite Z. cbn [bind]. apply rot90_ok in Z; [|exact Hw].
  destruct Z as (_ & Z2 & Z3 & _). apply img_zip_exists; lia.
Qed.

Lemma symmetrize_bmask_ok c bm bm' : img_ok bm -> nr bm = nc bm -> symmetrize_bmask c bm = Ok bm' ->
  sym_bmask (total_mask (c_bmask_flags c)) bm bm'.
Proof.
  intros Hb S H. unfold symmetrize_bmask in H. rewrite bad_flags_total in H.
  destruct (total_mask (c_bmask_flags c)) as [m|] eqn:EM.
  - dif_in H E; [lia|]. apply bind_ok in H. destruct H as (z & Z & H). apply rot90_ok in Z; [|exact Hb]. destruct Z as (Z1 & Z2 & Z3 & Z4).
    apply img_zip_ok in H; [|exact Hb|exact Z1]. destruct H as (_ & _ & H3 & H4 & H5 & H6).
    split; [exact H3|]. split; [exact H4|]. split; [exact H5|]. intros r k b v P Q.
    destruct (px_Some_range _ _ _ _ P) as [R1 R2]. rewrite H6, P, Z4, Q by lia. split.
    + intros V. apply has_flag_spec in V. rewrite V. reflexivity.
    + intros V. apply has_flag_false in V. rewrite V. reflexivity.
  - inversion H; subst. split; [exact Hb|]. split; [reflexivity|]. split; [reflexivity|]. intros r k b v P Q.
    split; [intros F; destruct (not_flagged_none _ F)|]. intros _. exact P.
Qed.
Lemma symmetrize_bmask_total c bm : img_ok bm -> nr bm = nc bm -> exists bm', symmetrize_bmask c bm = Ok bm'.
Proof.
  intros Hb S. unfold symmetrize_bmask. destruct (bad_flags c) as [y|]; [|eexists; reflexivity].
  replace (nr bm =? nc bm) with true by lia. cbn [negb].
  destruct (rot90_exists bm Hb) as (z & Z). rewrite Z. cbn [bind]. apply rot90_ok in Z; [|exact Hb].
  destruct Z as (_ & Z2 & Z3 & _). apply img_zip_exists; lia.
Qed.

(** * Flat indices *)
Lemma In_where l i : In i (where_ l) <-> zget l i = Some true.
Proof.
  unfold where_. rewrite filter_In, In_zrange. split.
  - intros [R H]. destruct (zget l i) as [[]|]; congruence.
  - intros H. rewrite H. split; [|reflexivity]. eapply zget_Some_range. exact H.
Qed.

Lemma zget_upd {A} (l : list A) i j a : 0 <= i < zlen l -> zget (upd l (Z.to_nat i) a) j = if j =? i then Some a else zget l j.
Proof.
  intros R. unfold zget. destruct (j <? 0) eqn:E; [dif E2; [lia|reflexivity]|]. rewrite nth_error_upd.
  unfold zlen in R. dif E2.
  - dif E3; [|lia]. dif E4; [reflexivity|lia].
  - dif E3; [lia|reflexivity].
Qed.

Lemma put_fold {A} (ps : list (Z * A)) : forall d, (forall p, In p ps -> 0 <= fst p < zlen d) ->
  let r := fold_left (fun d p => upd d (Z.to_nat (fst p)) (snd p)) ps d in
  zlen r = zlen d /\ (forall i, ~ In i (map fst ps) -> zget r i = zget d i) /\
  (forall i, In i (map fst ps) -> exists a, In a (map snd ps) /\ zget r i = Some a).
Proof.
  induction ps as [|[p a] ps IH]; intros d H; cbn [fold_left map fst snd].
  - split; [reflexivity|]. split; [reflexivity|]. intros i [].
  - assert (Hp : 0 <= p < zlen d) by (apply (H (p, a)); left; reflexivity).
    assert (L : zlen (upd d (Z.to_nat p) a) = zlen d) by (unfold zlen; rewrite upd_length; reflexivity).
    destruct (IH (upd d (Z.to_nat p) a)) as (H1 & H2 & H3).
    { intros q Hq. rewrite L. apply H. right. exact Hq. }
    split; [lia|]. split.
    + intros i Hi. rewrite H2 by (intros C; apply Hi; right; exact C). rewrite zget_upd by exact Hp.
      dif E; [|reflexivity]. exfalso. apply Hi. left. lia.
    + intros i Hi. destruct (in_dec Z.eq_dec i (map fst ps)) as [Y|N].
      * destruct (H3 i Y) as (b & B1 & B2). exists b. split; [right; exact B1|exact B2].
      * destruct Hi as [<-|C]; [|contradiction]. exists a. split; [left; reflexivity|]. rewrite H2 by exact N.
        rewrite zget_upd by exact Hp. rewrite Z.eqb_refl. reflexivity.
Qed.

Lemma map_fst_combine {A B} (l : list A) (l' : list B) : length l = length l' -> map fst (combine l l') = l.
Proof. revert l'; induction l as [|a l IH]; intros [|b l'] H; simpl in *; try discriminate; [reflexivity|]. f_equal. apply IH. lia. Qed.
Lemma map_snd_combine {A B} (l : list A) (l' : list B) : length l = length l' -> map snd (combine l l') = l'.
Proof. revert l'; induction l as [|a l IH]; intros [|b l'] H; simpl in *; try discriminate; [reflexivity|]. f_equal. apply IH. lia. Qed.

Lemma put_at_ok {A} (d r : list A) inds vals : (forall i, In i inds -> 0 <= i < zlen d) -> put_at d inds vals = Ok r ->
  zlen r = zlen d /\ (forall i, ~ In i inds -> zget r i = zget d i) /\
  (forall i, In i inds -> exists a, In a vals /\ zget r i = Some a).
Proof.
  intros HI H. unfold put_at in H. dif_in H E; [|discriminate]. inversion H; subst; clear H.
  assert (L : length inds = length vals) by (unfold zlen in E; lia).
  destruct (put_fold (combine inds vals) d) as (H1 & H2 & H3).
  { intros [p a] Hp. apply HI. cbn [fst]. apply in_combine_l in Hp. exact Hp. }
  rewrite (map_fst_combine _ _ L) in H2, H3. rewrite (map_snd_combine _ _ L) in H3. repeat split; assumption.
Qed.

(** * Medians *)
Lemma qinsert_In x l a : In a (qinsert x l) <-> a = x \/ In a l.
Proof.
  induction l as [|y l IH]; cbn [qinsert]; [cbn [In]; intuition congruence|]. destruct (qltb y x); cbn [In].
  - rewrite IH. intuition congruence.
  - intuition congruence.
Qed.
Lemma qsort_In l a : In a (qsort l) <-> In a l.
Proof. induction l as [|x l IH]; [reflexivity|]. unfold qsort. cbn [fold_right]. rewrite qinsert_In. fold (qsort l). rewrite IH. cbn [In]. intuition congruence. Qed.
Lemma qinsert_length x l : length (qinsert x l) = S (length l).
Proof. induction l as [|y l IH]; cbn [qinsert length]; [reflexivity|]. destruct (qltb y x); cbn [length]; lia. Qed.
Lemma qsort_length l : length (qsort l) = length l.
Proof. induction l as [|x l IH]; [reflexivity|]. unfold qsort. cbn [fold_right length]. rewrite qinsert_length. fold (qsort l). lia. Qed.

Lemma qmedian_pos l m : (forall x, In x l -> (0 < x)%Q) -> qmedian l = Ok m -> (0 < m)%Q.
Proof.
  intros HP H. unfold qmedian in H.
  assert (HG : forall i a, zget (qsort l) i = Some a -> (0 < a)%Q) by (intros i a Z; apply HP; rewrite <- qsort_In; eapply zget_In; exact Z).
  destruct (Z.even (zlen (qsort l))).
  - destruct (zget (qsort l) (zlen (qsort l) / 2 - 1)) as [a|] eqn:Z1; [|discriminate].
    destruct (zget (qsort l) (zlen (qsort l) / 2)) as [b|] eqn:Z2; [|discriminate]. inversion H; subst.
    pose proof (HG _ _ Z1). pose proof (HG _ _ Z2). apply Qlt_shift_div_l; lra.
  - destruct (zget (qsort l) (zlen (qsort l) / 2)) as [a|] eqn:Z1; [|discriminate]. inversion H; subst. eapply HG. exact Z1.
Qed.
Lemma qmedian_total l : l <> [] -> exists m, qmedian l = Ok m.
Proof.
  intros HN. unfold qmedian. set (s := qsort l). assert (L : 0 < zlen s).
  { unfold s, zlen. rewrite qsort_length. destruct l; [congruence|cbn [length]; lia]. }
  destruct (Z.even (zlen s)) eqn:E.
  - apply Z.even_spec in E. destruct E as (h & Hh). rewrite Hh, (Z.mul_comm 2 h), Z.div_mul by lia.
    destruct (zget_range_Some s (h - 1)) as (a & ->); [lia|]. destruct (zget_range_Some s h) as (b & ->); [lia|]. eexists; reflexivity.
  - destruct (zget_range_Some s (zlen s / 2)) as (a & ->); [|eexists; reflexivity].
    split; [apply Z.div_pos; lia|]. apply Z.div_lt; lia.
Qed.

(** * Interpolation *)
Lemma px_flat {A} (im : img A) r k : 0 <= r < nr im -> 0 <= k < nc im -> px im r k = zget (dat im) (r * nc im + k).
Proof. intros R K. unfold px. dif E; [reflexivity|lia]. Qed.

Lemma take_In {A} (d : list A) inds vs : take d inds = Ok vs -> (forall i, In i inds -> 0 <= i) ->
  forall v, In v vs -> exists i, In i inds /\ zget d i = Some v.
Proof.
  intros H. unfold take in H. apply mapM_ok_Forall2 in H. induction H as [|i v inds vs E F IH]; intros HI x [].
  - subst. exists i. split; [left; reflexivity|]. apply py_index_ok_nonneg; [apply HI; left; reflexivity|exact E].
  - destruct IH with (v := x) as (j & J1 & J2); [intros; apply HI; right; assumption|assumption|]. exists j. split; [right; exact J1|exact J2].
Qed.
Lemma take_total {A} (d : list A) inds : (forall i, In i inds -> 0 <= i < zlen d) -> exists vs, take d inds = Ok vs /\ length vs = length inds.
Proof.
  intros HI. unfold take. induction inds as [|i inds IH]; [exists []; split; reflexivity|].
  destruct IH as (vs & V & L); [intros; apply HI; right; assumption|].
  assert (R : 0 <= i < zlen d) by (apply HI; left; reflexivity). destruct (zget_range_Some d i R) as (a & Z).
  exists (a :: vs). cbn [mapM length]. rewrite (proj2 (py_index_ok_nonneg d i a (proj1 R)) Z). cbn [bind]. rewrite V. cbn [bind]. split; [reflexivity|lia].
Qed.

Lemma do_interp_ok o im wgood wbad z : img_ok im -> (forall i, In i wbad -> 0 <= i < zlen (dat im)) -> do_interp o im wgood wbad = Ok z ->
  img_ok z /\ nr z = nr im /\ nc z = nc im /\
  forall r k, 0 <= r < nr im -> 0 <= k < nc im -> ~ In (r * nc im + k) wbad -> px z r k = px im r k.
Proof.
  intros Hok HI H. unfold do_interp in H. apply bind_ok in H. destruct H as (vg & _ & H). apply bind_ok in H. destruct H as (vals & _ & H).
  apply bind_ok in H. destruct H as (d & D & H). inversion H; subst; clear H. apply put_at_ok in D; [|exact HI].
  destruct D as (D1 & D2 & _). destruct Hok as (I1 & I2 & I3). split; [unfold img_ok; cbn; lia|]. split; [reflexivity|]. split; [reflexivity|].
  intros r k R K N. rewrite !px_flat by assumption. cbn [dat nc]. apply D2. exact N.
Qed.

Lemma interp_spec c o icut im wt bm im' wt' noise n : img_ok im -> img_ok wt -> img_ok bm ->
  nr im = nr wt -> nc im = nc wt ->
  interp_bad_pixels c o icut im wt bm = Ok (im', wt', noise, n) ->
  repaired (total_mask (c_bmask_flags c)) im wt bm im' wt' noise n.
Proof.
  intros Hi Hw Hb S1 S2 H. unfold interp_bad_pixels in H. dif_in H EC; [discriminate|].
  apply bind_ok in H. destruct H as (z & Z & H). rewrite bad_flags_total in Z.
  pose proof (count_unusable _ _ _ _ Hw Hb Z) as CU. apply img_zip_ok in Z; [|exact Hw|exact Hb]. destruct Z as (Z1 & Z2 & Z3 & Z4 & Z5 & Z6).
  set (bad := total_mask (c_bmask_flags c)) in *.
  assert (HU : forall r k, 0 <= r < nr wt -> 0 <= k < nc wt -> (In (r * nc wt + k) (where_ (dat z)) <-> unusable_px bad wt bm (r, k))).
  { intros r k R K. rewrite In_where. rewrite <- Z5. rewrite <- px_flat by lia. rewrite Z6. unfold unusable_px. cbn [fst snd].
    destruct (px_in wt r k Hw) as (w & Pw); [lia|lia|]. destruct (px_in bm r k Hb) as (b & Pb); [lia|lia|]. rewrite Pw, Pb. split.
    - intros E. inversion E as [E']. exists w, b. repeat split. apply pix_bad_spec. exact E'.
    - intros (w' & b' & E1 & E2 & D). inversion E1; inversion E2; subst. f_equal. apply pix_bad_spec. exact D. }
  assert (HN : 0 <= zlen (dat z)) by apply zlen_nonneg.
  assert (LZ : zlen (dat z) = nr wt * nc wt) by (destruct Z3 as (_ & _ & Z3); rewrite Z3, Z4, Z5; reflexivity).
  assert (LW : zlen (dat wt) = nr wt * nc wt) by apply Hw.
  assert (LI : zlen (dat im) = nr wt * nc wt) by (destruct Hi as (_ & _ & Hi3); rewrite Hi3, S1, S2; reflexivity).
  assert (CW : zlen (filter (fun x => x) (dat z)) = zlen (where_ (dat z))).
  { destruct (count_list (fun x : bool => x) (dat z)) as (I & N & HI & L). rewrite <- L. unfold zlen. f_equal.
    apply Nat.le_antisymm; apply NoDup_incl_length.
    - exact N.
    - intros i Hi'. apply HI in Hi'. destruct Hi' as (a & A1 & ->). apply In_where. exact A1.
    - unfold where_. apply NoDup_filter. apply zrange_NoDup.
    - intros i Hi'. apply In_where in Hi'. apply HI. exists true. split; [exact Hi'|reflexivity]. }
  rewrite CW in CU.
  assert (OKN : forall w, 0 <= nr w -> 0 <= nc w -> img_ok (make_noise_image o icut w)) by (intros w N1 N2; apply tab2_ok; assumption).
  destruct Hw as (W1 & W2 & W3).
  destruct (where_ (dat z)) as [|i0 wb] eqn:EW.
  - inversion H; subst; clear H. unfold repaired. split; [exact Hi|]. split; [reflexivity|]. split; [reflexivity|].
    split; [split; [exact W1|split; [exact W2|exact W3]]|]. split; [reflexivity|]. split; [reflexivity|].
    split; [apply OKN; assumption|]. split; [reflexivity|]. split; [reflexivity|].
    split; [intros r k _; split; reflexivity|]. split; [|exact CU].
    intros r k w P. destruct (px_Some_range _ _ _ _ P) as [R K]. destruct (Qlt_le_dec 0 w) as [L|L]; [exact L|exfalso].
    assert (U : unusable_px bad wt' bm (r, k)).
    { destruct (px_in bm r k Hb) as (b & Pb); [lia|lia|]. exists w, b. cbn [fst snd]. repeat split; try assumption. left. exact L. }
    apply HU in U; [exact U|lia|lia].
  - rewrite <- EW in *. clear EW i0 wb.
    assert (RI : forall i, In i (where_ (dat z)) -> 0 <= i < nr wt * nc wt) by (intros i Hin; apply In_where in Hin; apply zget_Some_range in Hin; lia).
    apply bind_ok in H. destruct H as (gw & GW & H). apply bind_ok in H. destruct H as (med & MED & H).
    apply bind_ok in H. destruct H as (wd & WD & H). apply bind_ok in H. destruct H as (imi & IMI & H).
    apply bind_ok in H. destruct H as (ni & NI & H). inversion H; subst; clear H.
    assert (GP : forall r k w, px wt r k = Some w -> ~ unusable_px bad wt bm (r, k) -> (0 < w)%Q).
    { intros r k w P N. destruct (px_Some_range _ _ _ _ P) as [R K]. destruct (Qlt_le_dec 0 w) as [L|L]; [exact L|exfalso].
      apply N. destruct (px_in bm r k Hb) as (b & Pb); [lia|lia|]. exists w, b. cbn [fst snd]. repeat split; try assumption. left. exact L. }
    assert (MP : (0 < med)%Q).
    { eapply qmedian_pos; [|exact MED]. intros x Hx. destruct (take_In _ _ _ GW) with (v := x) as (i & I1 & I2); [|exact Hx|].
      - intros i I. apply In_where in I. apply zget_Some_range in I. lia.
      - apply In_where in I1. rewrite zget_map in I1. destruct (zget (dat z) i) as [[]|] eqn:ZI; try discriminate.
        pose proof (zget_Some_range _ _ _ I2) as RI2. destruct (unflat (nr wt) (nc wt) i) as (U1 & U2 & U3); [lia|lia|lia|].
        apply (GP (i / nc wt) (i mod nc wt)); [rewrite px_flat by lia; rewrite <- U3; exact I2|].
        intros C. apply HU in C; [|lia|lia]. rewrite <- U3 in C. apply In_where in C. congruence. }
    apply put_at_ok in WD; [|rewrite LW; exact RI]. destruct WD as (D1 & D2 & D3).
    assert (OKW : img_ok {| nr := nr wt; nc := nc wt; dat := wd |}) by (unfold img_ok; cbn; lia).
    apply do_interp_ok in IMI; [|exact Hi|rewrite LI; exact RI]. destruct IMI as (J1 & J2 & J3 & J4).
    assert (OKM : img_ok (make_noise_image o icut {| nr := nr wt; nc := nc wt; dat := wd |})) by (apply OKN; assumption).
    apply do_interp_ok in NI; [|exact OKM|].
    2:{ destruct OKM as (_ & _ & E3). rewrite E3. exact RI. }
    destruct NI as (K1 & K2 & K3 & K4).
    unfold repaired. split; [exact J1|]. split; [exact J2|]. split; [exact J3|]. split; [exact OKW|]. split; [reflexivity|]. split; [reflexivity|].
    split; [exact K1|]. split; [exact K2|]. split; [exact K3|]. split; [|split; [|exact CU]].
    + intros r k N. destruct (Z_le_dec 0 r) as [R1|R1]; [|rewrite !px_off by lia; split; reflexivity].
      destruct (Z_lt_dec r (nr wt)) as [R2|R2]; [|rewrite !px_off by (cbn [nr nc]; lia); split; reflexivity].
      destruct (Z_le_dec 0 k) as [R3|R3]; [|rewrite !px_off by (cbn [nr nc]; lia); split; reflexivity].
      destruct (Z_lt_dec k (nc wt)) as [R4|R4]; [|rewrite !px_off by (cbn [nr nc]; lia); split; reflexivity].
      assert (NI : ~ In (r * nc wt + k) (where_ (dat z))) by (intros C; apply N; apply HU; [lia|lia|exact C]).
      split; [apply J4; [lia|lia|rewrite S2; exact NI]|]. rewrite !px_flat by (cbn [nr nc]; lia). cbn [dat nc]. apply D2. exact NI.
    + intros r k w P. destruct (px_Some_range _ _ _ _ P) as [R K]. cbn [nr nc] in R, K. rewrite px_flat in P by (cbn [nr nc]; lia). cbn [dat nc] in P.
      destruct (in_dec Z.eq_dec (r * nc wt + k) (where_ (dat z))) as [Y|Y].
      * destruct (D3 _ Y) as (a & A1 & A2). apply in_map_iff in A1. destruct A1 as (_ & <- & _). congruence.
      * rewrite D2 in P by exact Y. rewrite <- px_flat in P by lia. apply (GP r k w P). intros C. apply Y. apply HU; [lia|lia|exact C].
Qed.
