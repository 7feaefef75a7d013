(** Chains of extractions. *)
From Coq Require Import Lia ZifyBool ZifyNat Permutation.
From Verif Require Import Base BaseLemmas Img Types Reader Extract SpecTiles SpecFile SpecExtract SpecChain
  ExtractLemmas ExtractLemmas2 ExtractLemmas3 ExtractLemmas4 ExtractLemmas5 ExtractLemmas6.
Open Scope Z_scope.

Definition cutful (g : medsfile) : Prop := exists o, In o (m_cat g) /\ 0 < o_ncut o.
Definition good (g : medsfile) : Prop :=
  m_number_col g = true /\ NoDup (map o_number (m_cat g)) /\
  Forall (fun o => 0 <= o_ncut o <= zlen (o_slots o) /\ 0 < o_box o) (m_cat g) /\
  (cutful g -> file_wf g /\ psf_wf g /\ (m_psf g <> None -> m_psf_cols g = PsfRCCut) /\ forall t, four t -> has_ext g t).
Definition rel (f g : medsfile) : Prop := forall i o', zget (m_cat g) i = Some o' ->
  exists j o, zget (m_cat f) j = Some o /\ same_but_starts o o' /\
    (forall t, four t -> same_cutouts f j g i t) /\ same_psfs f j g i.

Lemma cutful_dec g : cutful g \/ forall o, In o (m_cat g) -> o_ncut o <= 0.
Proof.
  unfold cutful. destruct (existsb (fun o => 0 <? o_ncut o) (m_cat g)) eqn:E.
  - left. apply existsb_exists in E. destruct E as (o & I & N). exists o. split; [exact I|lia].
  - right. intros o I. destruct (0 <? o_ncut o) eqn:N; [|lia].
    assert (existsb (fun o => 0 <? o_ncut o) (m_cat g) = true) by (apply existsb_exists; exists o; split; assumption). congruence.
Qed.

Lemma same_number o o' : same_but_starts o o' -> o_number o' = o_number o /\ o_ncut o' = o_ncut o /\ o_box o' = o_box o /\ zlen (o_slots o') = zlen (o_slots o).
Proof.
  intros (E & F). assert (L : length (o_slots o) = length (o_slots o')) by (clear E; induction F; cbn; congruence).
  rewrite E. cbn. repeat split; try reflexivity. unfold zlen. rewrite L. reflexivity.
Qed.

Lemma nodup_sub (f g : medsfile) a : (forall i o', zget (m_cat g) i = Some o' -> exists o, zget (m_cat f) (a + i) = Some o /\ o_number o' = o_number o) ->
  NoDup (map o_number (m_cat f)) -> NoDup (map o_number (m_cat g)).
Proof.
  intros H N. apply NoDup_nth_error. intros i j I E. rewrite map_length in I. rewrite !nth_error_map in E.
  assert (X : exists o, nth_error (m_cat g) i = Some o).
  { apply nth_error_Some in I. destruct (nth_error (m_cat g) i); [eauto|congruence]. }
  destruct X as (o & Eo). rewrite Eo in E. cbn [option_map] in E. destruct (nth_error (m_cat g) j) as [o2|] eqn:E2; [|discriminate].
  cbn [option_map] in E. injection E as E.
  destruct (H (Z.of_nat i) o) as (p & P1 & P2); [rewrite zget_nat; exact Eo|]. destruct (H (Z.of_nat j) o2) as (q & Q1 & Q2); [rewrite zget_nat; exact E2|].
  assert (a + Z.of_nat i = a + Z.of_nat j) by (apply (number_inj (m_cat f) _ _ p q N P1 Q1); congruence). lia.
Qed.


Ltac inv_bind H := let x := fresh "x" in let K := fresh "K" in apply bind_ok in H; destruct H as (x & K & H).
Lemma range_psf ca g h a b : extract_range ca g a b = Ok h -> m_psf g = None -> m_psf h = None.
Proof.
  unfold extract_range. intros H E. rewrite E in H. inv_bind H. inv_bind H. destruct x0 as [cs ce]. inv_bind H. destruct x0 as [ps pe]. cbv zeta in H.
  destruct (cs =? -1); [injection H as <-; reflexivity|]. do 5 inv_bind H. cbn [bind] in H. injection H as <-. reflexivity.
Qed.
Lemma numbers_shape order g h numbers : extract_numbers order g numbers = Ok h ->
  (m_psf g = None -> m_psf h = None) /\ forall t, four t -> has_ext h t.
Proof.
  unfold extract_numbers. intros H. do 6 inv_bind H. destruct x4 as [pr od]. destruct x2.
  - injection H as <-. split; [reflexivity|]. intros t [-> | [-> | [-> | ->]]]; eexists; reflexivity.
  - do 5 inv_bind H. injection H as <-.
    assert (S : forall t y, cut_ranges_ext g x1 t = Ok y -> fst y = t).
    { intros t y C. unfold cut_ranges_ext in C. do 2 inv_bind C. injection C as <-. reflexivity. }
    apply S in K5, K6, K7, K8. destruct x2 as [t1 y1], x4 as [t2 y2], x5 as [t3 y3], x6 as [t4 y4]. cbn [fst] in *. subst.
    split; [intros E; rewrite E in K9; injection K9 as <-; reflexivity|].
    intros t [-> | [-> | [-> | ->]]]; eexists; reflexivity.
Qed.

Lemma step_range g h a b : good g -> extract_range false g a b = Ok h -> good h /\ rel g h /\ m_info h = m_info g.
Proof.
  intros (NC & ND & WF & CU) H.
  assert (S : exists objs, slice (m_cat g) a (b + 1) = Ok objs).
  { unfold extract_range in H. inv_bind H. eauto. }
  destruct S as (objs & S). destruct (slice_ok _ _ _ _ S) as (B1 & B2 & B3 & B4).
  destruct (existsb (fun o => 0 <? o_ncut o) objs) eqn:EB.
  - apply existsb_exists in EB. destruct EB as (o0 & I0 & N0). apply In_zget in I0. destruct I0 as (i0 & Z0).
    pose proof (zget_Some_range _ _ _ Z0) as R0. rewrite B4 in Z0 by lia.
    destruct CU as (C1 & C2 & C3 & C4); [exists o0; split; [eapply zget_In; exact Z0|lia]|].
    destruct (range_ok false g a b C1 C2) as (h' & H' & L & MI & MN & MP & MW & ME & MO).
    + intros P. left. exact (C3 P).
    + apply C4; unfold four; tauto.
    + apply C4; unfold four; tauto.
    + apply C4; unfold four; tauto.
    + lia.
    + lia.
    + exists (a + i0), o0. split; [lia|]. split; [exact Z0|lia].
    + rewrite H in H'. injection H' as <-.
      assert (RR : forall i o', zget (m_cat h) i = Some o' -> exists o, zget (m_cat g) (a + i) = Some o /\ same_but_starts o o' /\
                (forall t, t <> TOrmask -> same_cutouts g (a + i) h i t) /\ same_psfs g (a + i) h i).
      { intros i o' Z. pose proof (zget_Some_range _ _ _ Z) as R. destruct (zget_range_Some (m_cat g) (a + i)) as (o & Zo); [lia|].
        destruct (MO i o ltac:(lia) Zo) as ((o2 & Z2 & S2) & T1 & T2). rewrite Z in Z2. injection Z2 as <-. exists o. auto. }
      split; [|split; [|exact MI]].
      * split; [rewrite MN; exact NC|]. split.
        { apply (nodup_sub g h a); [|exact ND]. intros i o' Z. destruct (RR i o' Z) as (o & Zo & So & _). exists o. split; [exact Zo|]. apply (same_number _ _ So). }
        split.
        { apply Forall_forall. intros o' I. apply In_zget in I. destruct I as (i & Z). destruct (RR i o' Z) as (o & Zo & So & _).
          destruct (same_number _ _ So) as (_ & E1 & E2 & E3). rewrite E1, E2, E3. rewrite Forall_forall in WF. apply WF. eapply zget_In; exact Zo. }
        intros _. destruct (MW eq_refl) as (W1 & W2). split; [exact W1|]. split; [exact W2|]. split.
        { intros P. rewrite MP. apply C3. intros E. apply P. exact (range_psf _ _ _ _ _ H E). }
        intros t T. apply ME; [destruct T as [-> | [-> | [-> | ->]]]; discriminate|]. apply C4. exact T.
      * intros i o' Z. destruct (RR i o' Z) as (o & Zo & So & T1 & T2). exists (a + i), o. split; [exact Zo|]. split; [exact So|]. split; [|exact T2].
        intros t T. apply T1. destruct T as [-> | [-> | [-> | ->]]]; discriminate.
  - assert (NN : forall o, In o objs -> o_ncut o = 0).
    { intros o I. assert (I' := I). apply In_zget in I'. destruct I' as (i & Z). pose proof (zget_Some_range _ _ _ Z) as R. rewrite B4 in Z by lia. apply zget_In in Z.
      rewrite Forall_forall in WF. destruct (WF o Z) as (W1 & _). destruct (0 <? o_ncut o) eqn:E; [|lia].
      assert (existsb (fun o => 0 <? o_ncut o) objs = true) by (apply existsb_exists; exists o; split; assumption). congruence. }
    destruct (range_none false g a b) as (h' & H' & SL & MI & MN & _); [lia|lia| |].
    { intros i o Hi Zo. apply NN. apply zget_In with (i := i - a). rewrite B4 by lia. replace (a + (i - a)) with i by lia. exact Zo. }
    rewrite H in H'. injection H' as <-. rewrite S in SL. injection SL as ->.
    assert (RR : forall i o, zget (m_cat h) i = Some o -> zget (m_cat g) (a + i) = Some o).
    { intros i o Z. pose proof (zget_Some_range _ _ _ Z) as R. rewrite <- B4 by lia. exact Z. }
    split; [|split; [|exact MI]].
    + split; [rewrite MN; exact NC|]. split; [|split].
      * apply (nodup_sub g h a); [|exact ND]. intros i o Z. exists o. split; [exact (RR i o Z)|reflexivity].
      * apply Forall_forall. intros o I. apply In_zget in I. destruct I as (i & Z). rewrite Forall_forall in WF. apply WF. eapply zget_In. exact (RR i o Z).
      * intros (o & I & N). rewrite (NN o I) in N. lia.
    + intros i o Z. exists (a + i), o. split; [exact (RR i o Z)|]. split; [apply same_refl|].
      assert (N0 : o_ncut o = 0) by (apply NN; eapply zget_In; exact Z).
      destruct (no_cutouts g h i (a + i) o o (RR i o Z) Z N0 N0) as (X1 & X2). split.
      * intros t _ k _. destruct (X1 t k). congruence.
      * intros k _. destruct (X2 k). congruence.
Qed.

Lemma get_inds_exist g numbers inds : get_inds g numbers = Ok inds -> forall n, In n numbers -> exists o, In o (m_cat g) /\ o_number o = n.
Proof.
  intros H n I. apply get_inds_ok in H. induction H as [|m i ms is_ (o & Z & E) _ IH]; [destruct I|]. destruct I as [->|I]; [|exact (IH I)].
  exists o. split; [eapply zget_In; exact Z|exact E].
Qed.

Lemma step_numbers order g h numbers : good g -> (forall l, Permutation (order l) l) -> NoDup numbers ->
  extract_numbers order g numbers = Ok h -> good h /\ rel g h /\ m_info h = m_info g.
Proof.
  intros (NC & ND & WF & CU) OP NN H.
  assert (GI : exists inds, get_inds g numbers = Ok inds) by (unfold extract_numbers in H; inv_bind H; eauto).
  destruct GI as (inds & GI). pose proof (get_inds_exist g numbers inds GI) as EX.
  destruct (numbers_shape _ _ _ _ H) as (SH1 & SH2).
  assert (CORE : forall g', m_cat g' = m_cat g -> file_wf g' -> psf_wf g' -> (m_psf g' <> None -> m_psf_cols g' = PsfRCCut) ->
     (forall t, four t -> has_ext g' t) -> m_number_col g' = true -> extract_numbers order g' numbers = Ok h ->
     NoDup (map o_number (m_cat h)) /\ m_info h = m_info g' /\ m_number_col h = true /\ m_psf_cols h = m_psf_cols g' /\
     (cutful h -> file_wf h /\ psf_wf h) /\ rel g' h).
  { intros g' EC C1 C2 C3 C4 NC' H'.
    destruct (numbers_ok order g' numbers C1 C2 C3) as (h' & E & P & MI & MN & MP & MW & MO);
      try (apply C4; unfold four; tauto); try (rewrite EC); try assumption.
    rewrite H' in E. injection E as <-.
    split; [apply (Permutation_NoDup (Permutation_sym P) NN)|]. split; [exact MI|]. split; [exact MN|]. split; [exact MP|]. split; [exact MW|].
    intros i o' Z. destruct (MO i o' Z) as (j & o & Zj & _ & S & T1 & T2 & T3 & T4 & T5). exists j, o. split; [exact Zj|]. split; [exact S|]. split; [|exact T5].
    intros t [-> | [-> | [-> | ->]]]; assumption. }
  assert (WFH : forall g', m_cat g' = m_cat g -> rel g' h -> Forall (fun o => 0 <= o_ncut o <= zlen (o_slots o) /\ 0 < o_box o) (m_cat h)).
  { intros g' EC R. apply Forall_forall. intros o' I. apply In_zget in I. destruct I as (i & Z). destruct (R i o' Z) as (j & o & Zo & So & _).
    destruct (same_number _ _ So) as (_ & E1 & E2 & E3). rewrite E1, E2, E3. rewrite Forall_forall in WF. apply WF. rewrite EC in Zo. eapply zget_In; exact Zo. }
  destruct (cutful_dec g) as [C|C].
  - destruct (CU C) as (C1 & C2 & C3 & C4). destruct (CORE g eq_refl C1 C2 C3 C4 NC H) as (A1 & A2 & A3 & A4 & A5 & A6).
    split; [|split; [exact A6|exact A2]]. split; [exact A3|]. split; [exact A1|]. split; [apply (WFH g eq_refl A6)|].
    intros CH. destruct (A5 CH) as (W1 & W2). split; [exact W1|]. split; [exact W2|]. split; [|exact SH2].
    intros P. rewrite A4. apply C3. intros E. exact (P (SH1 E)).
  - set (g' := mkMeds (m_cat g) true (m_psf_cols g) (m_info g) [(TImage, []); (TWeight, []); (TSeg, []); (TBmask, [])] None).
    assert (GI' : get_inds g' numbers = Ok inds) by (unfold get_inds in *; rewrite NC in GI; exact GI).
    assert (M : exists objs, mapM (py_index (m_cat g)) (order inds) = Ok objs).
    { unfold extract_numbers in H. rewrite GI in H. cbn [bind] in H. inv_bind H. eauto. }
    destruct M as (objs & M).
    assert (NO : forall o, In o objs -> o_ncut o <= 0).
    { intros o I. apply C. clear - M I. revert objs M I. induction (order inds) as [|i l IH]; intros objs M I; cbn [mapM] in M.
      - injection M as <-. destruct I.
      - inv_bind M. inv_bind M. injection M as <-. destruct I as [->|I]; [|exact (IH _ K0 I)].
        unfold py_index in K. destruct (zget _ _) eqn:Z; [|discriminate]. injection K as ->. eapply zget_In; exact Z. }
    assert (H' : extract_numbers order g' numbers = Ok h).
    { rewrite (numbers_none order g numbers inds objs GI M NO) in H. rewrite (numbers_none order g' numbers inds objs GI' M NO).
      cbn [m_number_col m_psf_cols m_info g']. rewrite <- H, NC. reflexivity. }
    assert (W' : file_wf g').
    { split; [exact WF|]. intros t m E. assert (m = []).
      { cbn [m_ext g' ext_find] in E. destruct t; cbn in E; try discriminate; injection E as <-; reflexivity. }
      subst m. cbn [m_cat g']. unfold cut_ranges. replace (flat_map _ (m_cat g)) with (@nil (Z * Z)); [constructor|].
      clear - C. induction (m_cat g) as [|o l IH]; [reflexivity|]. cbn [flat_map]. rewrite <- IH by (intros x I; apply C; right; exact I).
      unfold used_slots. replace (Z.to_nat (o_ncut o)) with 0%nat by (specialize (C o (or_introl eq_refl)); lia). reflexivity. }
    destruct (CORE g' eq_refl W') as (A1 & A2 & A3 & A4 & A5 & A6); try assumption; try reflexivity.
    { intros p E. discriminate. } { intros E. contradiction (E eq_refl). }
    { intros t [-> | [-> | [-> | ->]]]; eexists; reflexivity. }
    assert (R : rel g h).
    { intros i o' Z. destruct (A6 i o' Z) as (j & o & Zj & S & _). cbn [m_cat g'] in Zj. exists j, o. split; [exact Zj|]. split; [exact S|].
      assert (N0 : o_ncut o = 0). { apply zget_In in Zj. rewrite Forall_forall in WF. destruct (WF o Zj). specialize (C o Zj). lia. }
      assert (N1 : o_ncut o' = 0) by (destruct (same_number _ _ S) as (_ & -> & _); exact N0).
      destruct (no_cutouts g h i j o o' Zj Z N0 N1) as (X1 & X2). split.
      - intros t _ k _. destruct (X1 t k). congruence.
      - intros k _. destruct (X2 k). congruence. }
    split; [|split; [exact R|exact A2]]. split; [exact A3|]. split; [exact A1|]. split; [exact (WFH g eq_refl R)|].
    intros (o' & I & N). exfalso. apply In_zget in I. destruct I as (i & Z). destruct (R i o' Z) as (j & o & Zj & S & _).
    destruct (same_number _ _ S) as (_ & E & _). apply zget_In in Zj. specialize (C o Zj). lia.
Qed.

Lemma rel_refl f : rel f f.
Proof. intros i o Z. exists i, o. split; [exact Z|]. split; [apply same_refl|]. split; intros; intro; reflexivity. Qed.
Lemma rel_trans f g h : rel f g -> rel g h -> rel f h.
Proof.
  intros A B i o' Z. destruct (B i o' Z) as (j & o & Zj & S & T1 & T2). destruct (A j o Zj) as (k & p & Zk & S2 & U1 & U2).
  exists k, p. split; [exact Zk|]. split; [exact (same_trans _ _ _ S2 S)|]. split.
  - intros t T n N. rewrite (T1 t T n N). exact (U1 t T n N).
  - intros n N. rewrite (T2 n N). exact (U2 n N).
Qed.

Lemma extractable_good f : extractable f -> good f.
Proof.
  intros (W & P & C & X1 & X2 & X3 & X4 & NC & ND). split; [exact NC|]. split; [exact ND|]. split; [exact (proj1 W)|].
  intros _. split; [exact W|]. split; [exact P|]. split; [exact C|]. intros t [-> | [-> | [-> | ->]]]; assumption.
Qed.
Lemma chain f g : extractable f -> derived f g -> good g /\ rel f g /\ m_info g = m_info f.
Proof.
  intros E D. induction D as [|g h a b D (G & R & I) X|g h order numbers D (G & R & I) OP NN X].
  - split; [apply extractable_good; exact E|]. split; [apply rel_refl|reflexivity].
  - destruct (step_range g h a b G X) as (G2 & R2 & I2). split; [exact G2|]. split; [exact (rel_trans _ _ _ R R2)|congruence].
  - destruct (step_numbers order g h numbers G OP NN X) as (G2 & R2 & I2). split; [exact G2|]. split; [exact (rel_trans _ _ _ R R2)|congruence].
Qed.

Theorem chain_object f g i o' : extractable f -> derived f g -> zget (m_cat g) i = Some o' ->
  exists j o, zget (m_cat f) j = Some o /\ o_number o = o_number o' /\ same_object f j g i.
Proof.
  intros E D Z. destruct (chain f g E D) as (_ & R & I). destruct (R i o' Z) as (j & o & Zj & S & T1 & T2). exists j, o. split; [exact Zj|].
  split; [symmetry; apply (same_number _ _ S)|]. split; [exists o, o'; auto|]. split; [exact T1|]. split; [exact T2|].
  intros k K. assert (F : fits o). { destruct E as ((W & _) & _). rewrite Forall_forall in W. apply W. eapply zget_In; exact Zj. }
  destruct (other_accessors f g i j o o' Zj Z S F I k K) as (A & B & _). auto.
Qed.

Theorem chain_agree f g h i j o p : extractable f -> derived f g -> derived f h ->
  zget (m_cat g) i = Some o -> zget (m_cat h) j = Some p -> o_number o = o_number p ->
  (forall t k, four t -> 0 <= k -> get_cutout g i k t = get_cutout h j k t) /\
  (forall k, 0 <= k -> get_psf g i k = get_psf h j k /\ get_source_info g i k = get_source_info h j k /\ get_jacobian g i k = get_jacobian h j k).
Proof.
  intros E D1 D2 Z1 Z2 N. destruct (chain_object f g i o E D1 Z1) as (a & x & Za & Na & _ & A1 & A2 & A3).
  destruct (chain_object f h j p E D2 Z2) as (b & y & Zb & Nb & _ & B1 & B2 & B3).
  assert (ND : NoDup (map o_number (m_cat f))) by (destruct E as (_ & _ & _ & _ & _ & _ & _ & _ & ND); exact ND).
  assert (a = b) by (apply (number_inj _ _ _ x y ND Za Zb); congruence). subst b. split.
  - intros t k T K. rewrite (A1 t T k K), (B1 t T k K). reflexivity.
  - intros k K. rewrite (A2 k K), (B2 k K). destruct (A3 k K) as (-> & ->), (B3 k K) as (-> & ->). auto.
Qed.

Theorem chain_range f g a b : extractable f -> derived f g -> 0 <= a <= b -> b < zlen (m_cat g) ->
  exists h, extract_range false g a b = Ok h.
Proof.
  intros E D A B. destruct (chain f g E D) as ((NC & ND & WF & CU) & _).
  destruct (slice_in_range (m_cat g) a (b + 1)) as (objs & S); try lia. destruct (slice_ok _ _ _ _ S) as (B1 & B2 & B3 & B4).
  destruct (existsb (fun o => 0 <? o_ncut o) objs) eqn:EB.
  - apply existsb_exists in EB. destruct EB as (o0 & I0 & N0). apply In_zget in I0. destruct I0 as (i0 & Z0).
    pose proof (zget_Some_range _ _ _ Z0) as R0. rewrite B4 in Z0 by lia.
    destruct CU as (C1 & C2 & C3 & C4); [exists o0; split; [eapply zget_In; exact Z0|lia]|].
    destruct (range_ok false g a b C1 C2) as (h & H & _); try (apply C4; unfold four; tauto); try lia.
    + intros P. left. exact (C3 P).
    + exists (a + i0), o0. split; [lia|]. split; [exact Z0|lia].
    + eauto.
  - destruct (range_none false g a b) as (h & H & _); [lia|lia| |eauto].
    intros i o Hi Zo. assert (I : In o objs). { apply zget_In with (i := i - a). rewrite B4 by lia. replace (a + (i - a)) with i by lia. exact Zo. }
    apply zget_In in Zo. rewrite Forall_forall in WF. destruct (WF o Zo) as (W1 & _). destruct (0 <? o_ncut o) eqn:Q; [|lia].
    assert (existsb (fun o => 0 <? o_ncut o) objs = true) by (apply existsb_exists; exists o; split; assumption). congruence.
Qed.

Theorem chain_numbers f g order numbers : extractable f -> derived f g -> (forall l, Permutation (order l) l) ->
  (forall n, In n numbers -> In n (map o_number (m_cat g))) ->
  exists h, extract_numbers order g numbers = Ok h /\ Permutation (map o_number (m_cat h)) numbers.
Proof.
  intros E D OP EX. destruct (chain f g E D) as ((NC & ND & WF & CU) & _).
  assert (EX' : forall n, In n numbers -> exists o, In o (m_cat g) /\ o_number o = n).
  { intros n I. apply EX in I. apply in_map_iff in I. destruct I as (o & A & B). eauto. }
  destruct (cutful_dec g) as [C|C].
  - destruct (CU C) as (C1 & C2 & C3 & C4).
    destruct (numbers_ok order g numbers C1 C2 C3) as (h & H & P & _); try (apply C4; unfold four; tauto); try assumption. eauto.
  - destruct (get_inds_numbers (m_cat g) numbers ND EX') as (inds & G1 & G2).
    assert (GI : get_inds g numbers = Ok inds) by (unfold get_inds; rewrite NC; exact G1).
    destruct (Permutation_Forall2_ex _ _ _ G2 _ (OP inds)) as (nums' & P1 & P2).
    assert (exists objs, mapM (py_index (m_cat g)) (order inds) = Ok objs /\ map o_number objs = nums' /\ Forall (fun o => In o (m_cat g)) objs) as (objs & M1 & M2 & M3).
    { clear - P2. induction P2 as [|n i nums l (o & Z1 & Z2) _ (objs & I1 & I2 & I3)]; [exists []; repeat split; constructor|].
      exists (o :: objs). cbn [mapM]. pose proof (zget_Some_range _ _ _ Z1). rewrite py_index_nonneg, Z1 by lia. cbn [bind]. rewrite I1. cbn [map]. rewrite I2, Z2. split; [reflexivity|]. split; [reflexivity|].
      constructor; [eapply zget_In; exact Z1|exact I3]. }
    rewrite (numbers_none order g numbers inds objs GI M1). { eexists. split; [reflexivity|]. cbn [m_cat]. rewrite M2. exact P1. }
    intros o I. apply C. rewrite Forall_forall in M3. exact (M3 o I).
Qed.

From Verif Require Import MakerLayout MakerWrite MakerFile.
Theorem maker_extractable k types rows psf input junk pjunk f :
  Forall (fun o => 1 <= o_box o) input -> 1 <= k_njob k -> psfs_fit psf ->
  make_meds k types rows psf input junk pjunk = Ok f -> k_number_col k = true ->
  has_ext f TImage -> has_ext f TWeight -> has_ext f TSeg -> has_ext f TBmask ->
  NoDup (map o_number (m_cat f)) -> extractable f.
Proof.
  intros B J PF M NC X1 X2 X3 X4 ND. destruct (written_extractable _ _ _ _ _ _ _ _ B J PF M) as (WF & PW & PL & NK).
  repeat split; try assumption; [apply WF|apply WF|apply (PW p H)|apply (PW p H)|apply (PW p H)|congruence].
Qed.
