(** The weights of the coadded cutouts in floating point. *)
From Coq Require Import Lia ZifyBool ZifyNat Lqa Qabs Permutation Sorted.
From Verif Require Import Base BaseLemmas Img ImgLemmas Types BoundsM MakerWrite Coadd Single SingleLemmas Typed LayoutFl FlMonoLemmas LayoutFlLemmas
  OutlierFl CoaddFl SpecCoadd SpecOutlierFl SpecCoaddFl CompositeLemmas CalibLemmas CoaddLemmas CoaddLemmas2 OutlierFlLemmas3 CoaddFlLemmas.
Open Scope Z_scope.

(** The same decisions as with exact weights *)
Lemma values_fin n wt : img_ok wt -> values n (imap Fin wt) = wt.
Proof. intros _. destruct wt as [h w d]. unfold values, imap. cbn [nr nc dat]. f_equal. rewrite map_map. cbn [value]. apply map_id. Qed.
Lemma same_fl c bm wt p q : img_ok wt -> img_ok bm -> nr bm = nr wt -> nc bm = nc wt -> 0 < nr wt -> 0 < nc wt ->
  0 <= p <= q -> 0 < q -> q * (nr wt * nc wt) <= 2 ^ 50 -> (c_max_masked_frac c == inject_Z p / inject_Z q)%Q ->
  cutout_flag_fl c (fround true (inject_Z p / inject_Z q)) bm (imap Fin wt) = cutout_flag c bm wt.
Proof.
  intros Hw Hb S1 S2 N1 N2 Hp Hq HB HM. unfold cutout_flag_fl, cutout_flag. destruct (hits_the_edge c bm); [reflexivity|].
  destruct (fraction_fl c bm (imap Fin wt) p q (imap_ok Fin wt Hw) Hb S1 S2 N1 N2 Hp Hq HB) as (v & Ev & T2). rewrite Ev. cbn [bind].
  rewrite central_values, sides_values, all_zero_values, !values_fin by exact Hw.
  destruct (get_mask_frac c bm wt) as [fr|e] eqn:F.
  2:{ exfalso. unfold get_mask_frac, img_zip in F. dif_in F E; [|lia]. cbn [bind] in F. dif_in F E2; [|discriminate]. destruct Hb as (B1 & B2 & B3). rewrite B3, S1, S2 in E2. nia. }
  cbn [bind]. replace (fl_ltb _ v) with (qltb (c_max_masked_frac c) fr); [reflexivity|].
  pose proof (frac_test_spec c wt bm fr Hw Hb F) as T1. apply eq_true_iff_eq. rewrite T1, T2. unfold frac_test, above. rewrite values_fin by exact Hw. cbn [nr nc imap].
  pose proof (inject_pos q Hq) as Pq.
  assert (X : forall n, (c_max_masked_frac c * inject_Z (nr wt * nc wt) < inject_Z n)%Q <-> p * (nr wt * nc wt) < n * q).
  { intros n. rewrite HM, Zlt_Qlt, !(inject_Z_mult p), (inject_Z_mult n). set (N := inject_Z (nr wt * nc wt)).
    assert (E : (inject_Z p * N == inject_Z p / inject_Z q * N * inject_Z q)%Q) by (field; lra). rewrite E. symmetry. apply Qmult_lt_r. exact Pq. }
  split; intros (n & C & L); exists n; (split; [exact C|]); apply X; exact L.
Qed.

(** The median of positive doubles *)
Lemma double_form q : double (Fin q) -> exists m e, (q == inject_Z m * two e)%Q /\ - 2 ^ f_prec true < m < 2 ^ f_prec true /\ - f_low true <= e.
Proof. intros (v & E & H). destruct (fround_form true q v E) as (m & e & F & B & C). exists m, e. split; [rewrite <- H; exact F|]. split; assumption. Qed.
Lemma twice_form q : double (Fin q) -> exists m e, (2 * q == inject_Z m * two e)%Q /\ - 2 ^ f_prec true < m < 2 ^ f_prec true /\ - f_low true <= e.
Proof.
  intros H. destruct (double_form q H) as (m & e & F & B & C). exists m, (e + 1). split; [|split; [exact B|lia]].
  rewrite two_plus. change (two 1) with (2#1)%Q. rewrite F. ring.
Qed.
Lemma fround_pos_cases x : (0 < x)%Q -> fround true x = Inf false \/ exists v, fround true x = Fin v.
Proof.
  intros H. unfold fround. pose proof (Qred_correct x) as R. set (y := Qred x) in *. cbv zeta. destruct (qltb 0 y) eqn:E.
  - destruct (qltb (fround_pos true y) _); [right; eexists; reflexivity|left; reflexivity].
  - apply qltb_false in E. exfalso. rewrite R in E. lra.
Qed.
Lemma fround_bounded x : (0 < x)%Q -> (x <= two 1001)%Q -> exists v, fround true x = Fin v.
Proof.
  intros H L. unfold fround. pose proof (Qred_correct x) as R. set (y := Qred x) in *. cbv zeta. destruct (qltb 0 y) eqn:E.
  - apply qltb_true in E. assert (B : (fround_pos true y <= inject_Z 1 * two 1001)%Q) by (apply fpos_le; [exact E|reflexivity|vm_compute; discriminate|rewrite R, Qmult_1_l; exact L]).
    destruct (qltb (fround_pos true y) _) eqn:Q; [eexists; reflexivity|]. apply qltb_false in Q. exfalso.
    assert (X : (inject_Z 1 * two 1001 < inject_Z (2 ^ f_emax true))%Q) by (vm_compute; reflexivity). apply (Qlt_irrefl (inject_Z 1 * two 1001)).
    eapply Qlt_le_trans; [exact X|]. eapply Qle_trans; [exact Q|exact B].
  - eapply ex_intro. destruct (qltb y 0) eqn:E2; [|reflexivity]. apply qltb_true in E2. exfalso. rewrite R in E2. lra.
Qed.

Definition small_fl (x : fl) : Prop := forall q, x = Fin q -> (q <= Qpower (2#1) 1000)%Q.
Lemma fadd_fin a b : fadd true (Fin a) (Fin b) = fround true (a + b).
Proof. unfold fadd. cbn [fneg fsub]. apply fround_eq. ring. Qed.
Lemma mean_pos a b : positive a -> positive b -> double a -> double b -> fl_leq a b ->
  let m := fmul true (fadd true a b) (Fin (1#2)) in positive m /\ fl_leq a m /\ (small_fl b -> fl_leq m b).
Proof.
  intros Pa Pb Da Db L. cbv zeta. assert (X : positive (Inf false)) by (left; reflexivity).
  assert (XI : fmul true (Inf false) (Fin (1#2)) = Inf false) by reflexivity.
  destruct Pa as [->|(x & -> & Px)].
  - destruct Pb as [->|(y & -> & Py)]; [|destruct L]. change (fadd true (Inf false) (Inf false)) with (Inf false). rewrite XI. split; [exact X|]. split; [exact I|]. intros _. exact I.
  - destruct Pb as [->|(y & -> & Py)].
    { change (fadd true (Fin x) (Inf false)) with (Inf false). rewrite XI. split; [exact X|]. split; [exact I|]. intros _. exact I. }
    cbn [fl_leq] in L. rewrite fadd_fin. destruct (fround_pos_cases (x + y)) as [E|(s & E)]; [lra| |].
    + rewrite E, XI. split; [exact X|]. split; [exact I|]. intros S. exfalso. specialize (S y eq_refl).
      destruct (fround_bounded (x + y)) as (v & V); [lra| |congruence].
      assert (T : (two 1001 == 2 * two 1000)%Q) by (vm_compute; reflexivity). rewrite T. change (Qpower (2#1) 1000) with (two 1000) in S. generalize dependent (two 1000). intros. lra.
    + rewrite E. cbn [fmul]. destruct (twice_form x Da) as (m1 & e1 & F1 & B1 & C1). destruct (double_form x Da) as (m2 & e2 & F2 & B2 & C2).
      assert (S1 : (2 * x <= s)%Q) by (rewrite F1; apply (fround_ge true (x + y) m1 e1 s B1 C1 E); rewrite <- F1; lra).
      destruct (fround_pos_cases (s * (1#2))) as [K|(v & K)]; [lra| |]; rewrite K.
      * split; [exact X|]. split; [exact I|]. intros S. exfalso. specialize (S y eq_refl).
        destruct (twice_form y Db) as (m3 & e3 & F3 & B3 & C3).
        assert (S2 : (s <= 2 * y)%Q) by (rewrite F3; apply (fround_le true (x + y) m3 e3 s B3 C3 E); rewrite <- F3; lra).
        destruct (fround_bounded (s * (1#2))) as (v & V); [lra| |congruence].
        assert (T : (two 1001 == 2 * two 1000)%Q) by (vm_compute; reflexivity). rewrite T. change (Qpower (2#1) 1000) with (two 1000) in S. pose proof (two_pos 1000) as TP. generalize dependent (two 1000). intros. lra.
      * assert (V1 : (x <= v)%Q) by (rewrite F2; apply (fround_ge true (s * (1#2)) m2 e2 v B2 C2 K); rewrite <- F2; lra).
        split; [right; exists v; split; [reflexivity|lra]|]. split; [exact V1|]. intros _. cbn [fl_leq].
        destruct (twice_form y Db) as (m3 & e3 & F3 & B3 & C3). destruct (double_form y Db) as (m4 & e4 & F4 & B4 & C4).
        assert (S2 : (s <= 2 * y)%Q) by (rewrite F3; apply (fround_le true (x + y) m3 e3 s B3 C3 E); rewrite <- F3; lra).
        rewrite F4. apply (fround_le true (s * (1#2)) m4 e4 v B4 C4 K). rewrite <- F4. lra.
Qed.

Lemma fl_leq_refl x : x <> NaN -> fl_leq x x.
Proof. destruct x as [q|[]|]; cbn; intros H; [apply Qle_refl|exact I|exact I|congruence]. Qed.
Lemma zget_cons_0 {A} (x : A) l : zget (x :: l) 0 = Some x.
Proof. reflexivity. Qed.
Lemma zget_cons_pos {A} (x : A) l i : 0 < i -> zget (x :: l) i = zget l (i - 1).
Proof.
  intros H. unfold zget. dif E; [lia|]. dif E2; [lia|]. replace (Z.to_nat i) with (S (Z.to_nat (i - 1))) by lia. reflexivity.
Qed.
Lemma sorted_le (s : list fl) : Forall (fun y => y <> NaN) s -> StronglySorted fl_leq s -> forall i j a b, i <= j -> zget s i = Some a -> zget s j = Some b -> fl_leq a b.
Proof.
  intros N S. induction S as [|x s S IH F]; intros i j a b L A B; [apply zget_Some_range in A; unfold zlen in A; cbn in A; lia|].
  inversion N as [|? ? Nx Ns]; subst. pose proof (zget_Some_range _ _ _ A) as Ra. pose proof (zget_Some_range _ _ _ B) as Rb.
  destruct (Z.eq_dec i 0) as [->|Hi].
  - rewrite zget_cons_0 in A. injection A as <-. destruct (Z.eq_dec j 0) as [->|Hj].
    + rewrite zget_cons_0 in B. injection B as <-. apply fl_leq_refl. exact Nx.
    + rewrite zget_cons_pos in B by lia. rewrite Forall_forall in F. apply F. eapply zget_In. exact B.
  - rewrite zget_cons_pos in A by lia. rewrite zget_cons_pos in B by lia. apply (IH Ns (i - 1) (j - 1)); [lia|exact A|exact B].
Qed.
Lemma median_pos l : l <> [] -> (forall x, In x l -> positive x /\ double x) -> exists m lo hi, fl_median l = Ok m /\ In lo l /\ In hi l /\
  positive m /\ fl_leq lo m /\ (small_fl hi -> fl_leq m hi).
Proof.
  intros Hne HP. assert (PN : forall x, positive x -> x <> NaN) by (intros x [->|(q & -> & _)]; discriminate).
  assert (NN : ~ In NaN l) by (intros C; apply HP in C; destruct C as (C & _); apply (PN NaN C); reflexivity).
  destruct (median_char l Hne NN) as (a & b & (s & P & S & A & B) & M & O). exists (if Z.even (zlen l) then fmul true (fadd true a b) (Fin (1#2)) else b), a, b.
  assert (Ia : In a l) by (eapply Permutation_in; [exact P|eapply zget_In; exact A]). assert (Ib : In b l) by (eapply Permutation_in; [exact P|eapply zget_In; exact B]).
  split; [exact M|]. split; [exact Ia|]. split; [exact Ib|]. destruct (HP a Ia) as (Pa & Da). destruct (HP b Ib) as (Pb & Db).
  assert (FN : Forall (fun y => y <> NaN) s) by (apply Forall_forall; intros x Hx; apply PN; apply HP; eapply Permutation_in; [exact P|exact Hx]).
  assert (L : fl_leq a b) by (eapply (sorted_le s FN S); [|exact A|exact B]; apply Z.div_le_mono; lia).
  destruct (Z.even (zlen l)) eqn:E; [apply mean_pos; assumption|]. split; [exact Pb|]. split; [exact L|]. intros _. apply fl_leq_refl. apply PN. exact Pb.
Qed.

(** Symmetrising *)
Lemma fl_zero_spec v : fl_zero v = true <-> is_zero v.
Proof.
  destruct v as [q|s|]; cbn [fl_zero]; split; try discriminate.
  - intros H. apply Qeq_bool_iff in H. exists q. split; [reflexivity|exact H].
  - intros (x & E & H). injection E as ->. apply Qeq_bool_iff. exact H.
  - intros (x & E & _). discriminate E.
  - intros (x & E & _). discriminate E.
Qed.
Lemma symmetrize_fl_ok wt wt' : img_ok wt -> symmetrize_weight_fl wt = Ok wt' -> nr wt = nc wt /\ sym_weight_fl wt wt'.
Proof.
  intros Hw H. unfold symmetrize_weight_fl in H. dif_in H E; [discriminate|]. assert (S : nr wt = nc wt) by lia. split; [exact S|].
  apply bind_ok in H. destruct H as (z & Z & H). apply rot90_ok in Z; [|exact Hw]. destruct Z as (Z1 & Z2 & Z3 & Z4).
  apply img_zip_ok in H; [|exact Hw|exact Z1]. destruct H as (_ & _ & H3 & H4 & H5 & H6).
  split; [exact H3|]. split; [exact H4|]. split; [exact H5|]. intros r k w v P Q.
  destruct (px_Some_range _ _ _ _ P) as [R1 R2]. rewrite H6, P, Z4, Q by lia. split; intros V.
  - apply fl_zero_spec in V. rewrite V. reflexivity.
  - destruct (fl_zero v) eqn:Z; [apply fl_zero_spec in Z; contradiction|reflexivity].
Qed.
Lemma sym_values wt wt' : img_ok wt -> nr wt = nc wt -> sym_weight_fl wt wt' -> forall r k v, px wt' r k = Some v -> px wt r k = Some v \/ v = Fin 0.
Proof.
  intros Hw S (H1 & H2 & H3 & H4) r k v P. destruct (px_Some_range _ _ _ _ P) as [R1 R2].
  destruct (px_in wt r k Hw) as (w & W); [lia|lia|]. destruct (px_in wt k (nc wt - 1 - r) Hw) as (u & U); [lia|lia|].
  destruct (H4 r k w u W U) as (A & B). destruct (fl_zero u) eqn:Z.
  - apply fl_zero_spec in Z. specialize (A Z). right. congruence.
  - left. rewrite B in P; [congruence|]. rewrite <- fl_zero_spec. congruence.
Qed.

(** Interpolating *)
Lemma bad_fl_spec bad w b : pix_bad_fl bad w b = false <-> fl_nonpos w = false /\ ~ flagged bad b.
Proof.
  unfold pix_bad_fl. rewrite orb_false_iff. split; intros (H & F); (split; [exact H|]).
  - intros C. apply has_flag_spec in C. congruence.
  - apply has_flag_false. exact F.
Qed.
Lemma nonpos_spec x : x <> NaN -> (fl_nonpos x = false <-> positive x).
Proof.
  intros N. destruct x as [q|[]|]; cbn [fl_nonpos]; [| | |congruence].
  - split.
    + intros H. right. exists q. split; [reflexivity|]. destruct (Qlt_le_dec 0 q) as [L|L]; [exact L|]. apply Qle_bool_iff in L. congruence.
    + intros [E|(y & E & L)]; [discriminate|]. injection E as ->. destruct (Qle_bool y 0) eqn:B; [|reflexivity]. apply Qle_bool_iff in B. lra.
  - split; [discriminate|]. intros [E|(y & E & _)]; discriminate.
  - split; [intros _; left; reflexivity|reflexivity].
Qed.
Lemma interp_char c wt bm wt' n : img_ok wt -> img_ok bm -> interp_weights_fl c wt bm = Ok (wt', n) ->
  let bad := total_mask (c_bmask_flags c) in
  let good := fun r k v => px wt r k = Some v /\ fl_nonpos v = false /\ exists b, px bm r k = Some b /\ ~ flagged bad b in
  img_ok wt' /\ nr wt' = nr wt /\ nc wt' = nc wt /\
  (wt' = wt /\ (forall r k v, px wt r k = Some v -> good r k v) \/
   exists gw m, fl_median gw = Ok m /\ gw <> [] /\ (forall v, In v gw <-> exists r k, good r k v) /\
     forall r k v', px wt' r k = Some v' -> good r k v' \/ (v' = m /\ ~ exists v, good r k v)) /\
  (forall r k v, good r k v -> px wt' r k = Some v).
Proof.
  intros Hw Hb H. cbv zeta. unfold interp_weights_fl in H. apply bind_ok in H. destruct H as (z & Z & H). rewrite bad_flags_total in Z.
  apply img_zip_ok in Z; [|exact Hw|exact Hb]. destruct Z as (Z1 & Z2 & Z3 & Z4 & Z5 & Z6).
  set (bad := total_mask (c_bmask_flags c)) in *. set (good := fun r k v => px wt r k = Some v /\ fl_nonpos v = false /\ exists b, px bm r k = Some b /\ ~ flagged bad b).
  assert (LZ : zlen (dat z) = nr wt * nc wt) by (destruct Z3 as (_ & _ & Z3); rewrite Z3, Z4, Z5; reflexivity).
  assert (LW : zlen (dat wt) = nr wt * nc wt) by apply Hw.
  assert (HG : forall r k v, px wt r k = Some v -> (good r k v <-> zget (dat z) (r * nc wt + k) = Some false)).
  { intros r k v P. destruct (px_Some_range _ _ _ _ P) as [R K]. rewrite <- Z5, <- px_flat by lia. rewrite Z6, P.
    destruct (px_in bm r k Hb) as (b & Pb); [lia|lia|]. rewrite Pb. split.
    - intros (_ & A & b' & B & C). f_equal. apply bad_fl_spec. split; [exact A|congruence].
    - intros E. injection E as E. apply bad_fl_spec in E. destruct E as (A & B). split; [exact P|]. split; [exact A|]. exists b. split; assumption. }
  destruct Hw as (W1 & W2 & W3). assert (Hw : img_ok wt) by (split; [exact W1|split; [exact W2|exact W3]]).
  assert (HZ : forall r k v, px wt r k = Some v -> exists x, zget (dat z) (r * nc wt + k) = Some x).
  { intros r k v P. destruct (px_Some_range _ _ _ _ P) as [R K]. apply zget_range_Some. nia. }
  destruct (where_ (dat z)) as [|i0 wb] eqn:EW.
  - injection H as <- <-. split; [exact Hw|]. split; [reflexivity|]. split; [reflexivity|].
    assert (A : forall r k v, px wt r k = Some v -> good r k v).
    { intros r k v P. apply HG; [exact P|]. destruct (HZ r k v P) as ([] & E); [|exact E]. apply In_where in E. rewrite EW in E. destruct E. }
    split; [left; split; [reflexivity|exact A]|]. intros r k v G. apply G.
  - rewrite <- EW in *. clear EW i0 wb.
    assert (RI : forall i, In i (where_ (dat z)) -> 0 <= i < nr wt * nc wt) by (intros i Hin; apply In_where in Hin; apply zget_Some_range in Hin; lia).
    apply bind_ok in H. destruct H as (gw & GW & H). apply bind_ok in H. destruct H as (med & MED & H).
    apply bind_ok in H. destruct H as (wd & WD & H). injection H as <- <-.
    apply put_at_ok in WD; [|rewrite LW; exact RI]. destruct WD as (D1 & D2 & D3).
    split; [unfold img_ok; cbn; lia|]. split; [reflexivity|]. split; [reflexivity|]. split.
    + right. exists gw, med. split; [exact MED|]. split; [intros ->; discriminate MED|]. split.
      * intros v. split.
        -- intros Hv. destruct (take_In _ _ _ GW) with (v := v) as (i & I1 & I2); [|exact Hv|].
           { intros i I. apply In_where in I. apply zget_Some_range in I. lia. }
           apply In_where in I1. rewrite zget_map in I1. destruct (zget (dat z) i) as [[]|] eqn:ZI; try discriminate.
           pose proof (zget_Some_range _ _ _ I2) as RI2. destruct (unflat (nr wt) (nc wt) i) as (U1 & U2 & U3); [lia|lia|lia|].
           exists (i / nc wt), (i mod nc wt). apply HG; [rewrite px_flat by lia; rewrite <- U3; exact I2|]. rewrite <- U3. exact ZI.
        -- intros (r & k & G). pose proof G as (P & _). destruct (px_Some_range _ _ _ _ P) as [R K]. apply HG in G; [|exact P].
           assert (IW : In (r * nc wt + k) (where_ (map negb (dat z)))) by (apply In_where; rewrite zget_map, G; reflexivity).
           unfold take in GW. apply mapM_ok_Forall2 in GW. clear - GW IW P R K. rewrite px_flat in P by lia.
           induction GW as [|i x l l' E F IH]; [destruct IW|]. destruct IW as [->|IW]; [|right; apply IH; exact IW].
           apply py_index_ok_nonneg in E; [|nia]. left. congruence.
      * intros r k v' P. destruct (px_Some_range _ _ _ _ P) as [R K]. cbn [nr nc] in R, K. rewrite px_flat in P by (cbn [nr nc]; lia). cbn [dat nc] in P.
        destruct (px_in wt r k Hw) as (w & Pw); [lia|lia|].
        destruct (in_dec Z.eq_dec (r * nc wt + k) (where_ (dat z))) as [Y|Y].
        -- right. destruct (D3 _ Y) as (a & A1 & A2). apply in_map_iff in A1. destruct A1 as (_ & <- & _). split; [congruence|].
           intros (v & G). pose proof G as (Pv & _). apply HG in G; [|exact Pv]. apply In_where in Y. congruence.
        -- left. rewrite D2 in P by exact Y. rewrite <- px_flat in P by lia. apply HG; [exact P|]. destruct (HZ r k v' P) as ([] & E); [|exact E]. destruct Y. apply In_where. exact E.
    + intros r k v G. pose proof G as (P & _). destruct (px_Some_range _ _ _ _ P) as [R K]. apply HG in G; [|exact P].
      rewrite px_flat by (cbn [nr nc]; lia). cbn [dat nc]. rewrite D2; [rewrite <- px_flat by lia; exact P|]. rewrite In_where. congruence.
Qed.

Lemma epoch_char c limit wt bm wt' : img_ok wt -> img_ok bm -> nr bm = nr wt -> nc bm = nc wt -> epoch_weights_fl c limit wt bm = Ok (Used wt') ->
  exists wt1 bm1 n, decided_on_fl c wt bm wt1 bm1 /\ img_ok wt1 /\ img_ok bm1 /\ cutout_flag_fl c limit bm1 wt1 = Ok 0 /\ interp_weights_fl c wt1 bm1 = Ok (wt', n) /\
    forall r k v, px wt1 r k = Some v -> px wt r k = Some v \/ v = Fin 0.
Proof.
  intros Hw Hb S1 S2 H. unfold epoch_weights_fl in H. apply bind_ok in H. destruct H as (wt1 & W & H). apply bind_ok in H. destruct H as (bm1 & B & H).
  apply bind_ok in H. destruct H as (fl & F & H). dif_in H E; [discriminate|]. assert (fl = 0) by lia. subst fl. apply bind_ok in H. destruct H as ([w2 n] & R & H). injection H as <-.
  cbn [fst]. exists wt1, bm1, n. unfold decided_on_fl. destruct (c_symmetrize c) eqn:ES.
  - apply symmetrize_fl_ok in W; [|exact Hw]. destruct W as (S & W). apply symmetrize_bmask_ok in B; [|exact Hb|lia]. pose proof W as (W1 & _). pose proof B as (B1 & _).
    split; [split; assumption|]. split; [exact W1|]. split; [exact B1|]. split; [exact F|]. split; [exact R|]. apply sym_values; assumption.
  - injection W as ->. injection B as ->. split; [split; reflexivity|]. split; [exact Hw|]. split; [exact Hb|]. split; [exact F|]. split; [exact R|]. intros; left; assumption.
Qed.

Lemma px_In_dat {A} (im : img A) r k v : px im r k = Some v -> In v (dat im).
Proof. intros P. destruct (px_Some_range _ _ _ _ P) as [R K]. rewrite px_flat in P by lia. eapply zget_In. exact P. Qed.

Lemma positive_fl c limit wt bm wt' : img_ok wt -> img_ok bm -> nr bm = nr wt -> nc bm = nc wt ->
  (forall v, In v (dat wt) -> double v /\ v <> NaN) -> epoch_weights_fl c limit wt bm = Ok (Used wt') ->
  exists wt1 bm1, decided_on_fl c wt bm wt1 bm1 /\ filled (total_mask (c_bmask_flags c)) wt1 bm1 wt' /\ forall r k v, px wt' r k = Some v -> positive v.
Proof.
  intros Hw Hb S1 S2 HD H. destruct (epoch_char c limit wt bm wt' Hw Hb S1 S2 H) as (wt1 & bm1 & n & D & W1 & B1 & _ & R & V). exists wt1, bm1. split; [exact D|].
  assert (HD1 : forall r k v, px wt1 r k = Some v -> double v /\ v <> NaN).
  { intros r k v P. destruct (V r k v P) as [Q| ->]; [apply HD; eapply px_In_dat; exact Q|]. split; [|discriminate]. exists 0%Q. split; reflexivity. }
  pose proof (interp_char c wt1 bm1 wt' n W1 B1 R) as C. cbv zeta in C. set (bad := total_mask (c_bmask_flags c)) in *.
  destruct C as (C1 & C2 & C3 & C4 & C5).
  assert (U : forall r k v, (px wt1 r k = Some v /\ fl_nonpos v = false /\ exists b, px bm1 r k = Some b /\ ~ flagged bad b) <-> usable_fl bad wt1 bm1 r k v).
  { intros r k v. unfold usable_fl. split; intros (P & Q & B); (split; [exact P|]); (split; [|exact B]); apply (nonpos_spec v (proj2 (HD1 r k v P))); exact Q. }
  assert (F : filled bad wt1 bm1 wt').
  { split; [exact C1|]. split; [exact C2|]. split; [exact C3|]. split; [intros r k v G; apply C5; apply U; exact G|].
    destruct C4 as [(-> & G)|(gw & m & M & NE & G & K)]; [left; intros r k v P; apply U; apply G; exact P|]. right.
    destruct (median_pos gw NE) as (m' & lo & hi & M' & I1 & I2 & P1 & P2 & P3).
    { intros x Hx. apply G in Hx. destruct Hx as (r & k & Hx). apply U in Hx. destruct Hx as (P & Q & _). split; [exact Q|]. apply (HD1 r k x P). }
    rewrite M in M'. injection M' as <-. apply G in I1. apply G in I2. destruct I1 as (r1 & k1 & I1). destruct I2 as (r2 & k2 & I2).
    exists m, lo, hi, r1, k1, r2, k2. split; [apply U; exact I1|]. split; [apply U; exact I2|]. split; [exact P1|]. split; [exact P2|]. split; [exact P3|].
    intros r k v' P. destruct (K r k v' P) as [X|(X & _)]; [left; apply U; exact X|right; exact X]. }
  split; [exact F|]. intros r k v P. destruct F as (_ & _ & _ & _ & [A|(m & lo & hi & r1 & k1 & r2 & k2 & _ & _ & PM & _ & _ & A)]).
  - apply A in P. apply P.
  - destruct (A r k v P) as [X| ->]; [apply X|exact PM].
Qed.

(** A NaN that is not flagged spreads *)
Lemma nan_fl c limit wt bm wt' : img_ok wt -> img_ok bm -> nr bm = nr wt -> nc bm = nc wt -> epoch_weights_fl c limit wt bm = Ok (Used wt') ->
  exists wt1 bm1, decided_on_fl c wt bm wt1 bm1 /\
    forall r k b, px wt1 r k = Some NaN -> px bm1 r k = Some b -> ~ flagged (total_mask (c_bmask_flags c)) b ->
      px wt' r k = Some NaN /\
      forall r2 k2 v, px wt1 r2 k2 = Some v -> v <> NaN -> (~ usable_fl (total_mask (c_bmask_flags c)) wt1 bm1 r2 k2 v) -> px wt' r2 k2 = Some NaN.
Proof.
  intros Hw Hb S1 S2 H. destruct (epoch_char c limit wt bm wt' Hw Hb S1 S2 H) as (wt1 & bm1 & n & D & W1 & B1 & _ & R & V). exists wt1, bm1. split; [exact D|].
  intros r k b P Q N. pose proof (interp_char c wt1 bm1 wt' n W1 B1 R) as C. cbv zeta in C. set (bad := total_mask (c_bmask_flags c)) in *.
  destruct C as (C1 & C2 & C3 & C4 & C5). assert (G : px wt1 r k = Some NaN /\ fl_nonpos NaN = false /\ exists b, px bm1 r k = Some b /\ ~ flagged bad b).
  { split; [exact P|]. split; [reflexivity|]. exists b. split; assumption. }
  split; [apply C5; exact G|]. intros r2 k2 v P2 Nv U.
  assert (NG : ~ (fl_nonpos v = false /\ exists b, px bm1 r2 k2 = Some b /\ ~ flagged bad b)).
  { intros (A & B). apply U. split; [exact P2|]. split; [apply nonpos_spec; assumption|exact B]. }
  destruct C4 as [(-> & A)|(gw & m & M & NE & A & K)].
  - exfalso. apply NG. destruct (A r2 k2 v P2) as (_ & X). exact X.
  - assert (IN : In NaN gw) by (apply A; exists r, k; exact G). rewrite (median_nan gw IN) in M. injection M as <-.
    destruct (px_Some_range _ _ _ _ P2) as [R2 K2]. destruct (px_in wt' r2 k2 C1) as (v' & P'); [lia|lia|]. rewrite P'. f_equal.
    destruct (K r2 k2 v' P') as [(X & Y)|(X & _)]; [|exact X]. exfalso. apply NG. rewrite P2 in X. injection X as <-. exact Y.
Qed.

(** The flag of a cutout, and whether it is used *)
Lemma epoch_flags c wt bm p q r : img_ok wt -> img_ok bm -> nr bm = nr wt -> nc bm = nc wt -> 0 < nr wt -> 0 < nc wt ->
  0 <= p <= q -> 0 < q -> q * (nr wt * nc wt) <= 2 ^ 50 ->
  epoch_weights_fl c (fround true (inject_Z p / inject_Z q)) wt bm = Ok r ->
  exists wt1 bm1, decided_on_fl c wt bm wt1 bm1 /\
    match r with
    | Left_out flag => flag <> 0 /\ reason_fl c (above c wt1 bm1 p q) wt1 bm1 flag
    | Used _ => reason_fl c (above c wt1 bm1 p q) wt1 bm1 0
    end.
Proof.
  intros Hw Hb S1 S2 N1 N2 Hp Hq HB H. unfold epoch_weights_fl in H. apply bind_ok in H. destruct H as (wt1 & W & H). apply bind_ok in H. destruct H as (bm1 & B & H).
  apply bind_ok in H. destruct H as (fl & F & H). exists wt1, bm1.
  assert (D : decided_on_fl c wt bm wt1 bm1 /\ img_ok wt1 /\ img_ok bm1 /\ nr wt1 = nr wt /\ nc wt1 = nc wt /\ nr bm1 = nr bm /\ nc bm1 = nc bm).
  { unfold decided_on_fl. destruct (c_symmetrize c) eqn:ES.
    - apply symmetrize_fl_ok in W; [|exact Hw]. destruct W as (S & W). apply symmetrize_bmask_ok in B; [|exact Hb|lia].
      pose proof W as (W1 & W2 & W3 & _). pose proof B as (B1 & B2 & B3 & _). split; [split; assumption|]. auto 10.
    - injection W as ->. injection B as ->. split; [split; reflexivity|]. auto 10. }
  destruct D as (D & Hw1 & Hb1 & E1 & E2 & E3 & E4). split; [exact D|].
  apply flags_fl in F; [|first [assumption|lia]..|rewrite E1, E2; exact HB].
  dif_in H E.
  - injection H as <-. split; [lia|exact F].
  - assert (fl = 0) by lia. subst fl. apply bind_ok in H. destruct H as (x & _ & H). injection H as <-. exact F.
Qed.

Lemma not_flagged_0 m : ~ flagged m 0.
Proof. intros (x & k & _ & _ & _ & H). rewrite Z.bits_0 in H. discriminate H. Qed.

Lemma positive_refuted_fl : exists c limit wt bm wt', img_ok wt /\ img_ok bm /\ nr bm = nr wt /\ nc bm = nc wt /\
  (forall v, In v (dat wt) -> double v) /\ epoch_weights_fl c limit wt bm = Ok (Used wt') /\
  exists r k q, px wt r k = Some (Fin q) /\ px bm r k = Some 0 /\ px wt' r k = Some NaN.
Proof.
  exists (ex_cfl false), ex_limit, (ex_wt NaN), ex_bm.
  destruct (epoch_weights_fl (ex_cfl false) ex_limit (ex_wt NaN) ex_bm) as [[f|wt']|e] eqn:E; [vm_compute in E; discriminate E| |vm_compute in E; discriminate E].
  exists wt'. split; [vm_compute; intuition congruence|]. split; [vm_compute; intuition congruence|]. split; [reflexivity|]. split; [reflexivity|]. split.
  - cbn [dat ex_wt In]. intros v H. repeat (destruct H as [<-|H]; [try exact I; cbn [double]; eexists; (split; [vm_compute; reflexivity|reflexivity])|]). destruct H.
  - split; [reflexivity|]. exists 0, 0, 0%Q. split; [reflexivity|]. split; [reflexivity|]. vm_compute in E. injection E as <-. reflexivity.
Qed.
