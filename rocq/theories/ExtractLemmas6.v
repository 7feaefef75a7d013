(** Files of the maker, other accessors, and the life of an extractor object. *)
From Coq Require Import Lia ZifyBool ZifyNat Permutation String.
From Verif Require Import Base BaseLemmas Img ImgLemmas Types Reader ReadLemmas StartLemmas Extract
  MakerLayout MakerWrite MakerFile MakerLemmas MakerLemmas3
  SpecTiles SpecFile SpecExtract ExtractLemmas ExtractLemmas2 ExtractLemmas3 ExtractLemmas4 ExtractLemmas5.
Open Scope Z_scope.

(** * Files of the maker *)
Lemma written_psf_cols k types rows psf input junk pjunk f : make_meds k types rows psf input junk pjunk = Ok f ->
  m_number_col f = k_number_col k /\ match psf with Some _ => m_psf_cols f = PsfRCCut | None => m_psf f = None end.
Proof.
  unfold make_meds. intros H. apply bind_ok in H. destruct H as (m & H1 & H). apply bind_ok in H. destruct H as ((m' & f') & H2 & H). injection H as <-.
  unfold new_maker in H1. apply bind_ok in H1. destruct H1 as (names & _ & H1). apply bind_ok in H1. destruct H1 as (tys & _ & H1). apply bind_ok in H1. destruct H1 as ([] & _ & H1). injection H1 as <-.
  unfold write in H2. apply bind_ok in H2. destruct H2 as (((cat & total) & tp) & _ & H2). apply bind_ok in H2. destruct H2 as (f & H2 & H3). injection H3 as _ <-.
  cbn [mk_conf mk_psf mk_rows] in H2. unfold write_data in H2. apply bind_ok in H2. destruct H2 as (ext & _ & H2). apply bind_ok in H2. destruct H2 as (p & Hp & H2). injection H2 as <-. cbn.
  split; [reflexivity|]. destruct psf; [reflexivity|]. injection Hp as <-. reflexivity.
Qed.


Lemma written_extractable k types rows psf input junk pjunk f : Forall (fun o => 1 <= o_box o) input -> 1 <= k_njob k -> psfs_fit psf ->
  make_meds k types rows psf input junk pjunk = Ok f ->
  file_wf f /\ psf_wf f /\ (m_psf f <> None -> m_psf_cols f = PsfRCCut) /\ m_number_col f = k_number_col k.
Proof.
  intros B J PF M. assert (WF := written_file_wf _ _ _ _ _ _ _ _ B M). destruct (written_psf_cols _ _ _ _ _ _ _ _ M) as (NC & PC).
  split; [exact WF|]. destruct psf as [ps|].
  - destruct (written_psf k types rows ps input junk pjunk f J) as (h & H1 & H2 & H3); [intros p r c col I; apply (PF ps p r c col eq_refl I)|exact M|].
    split; [|split; [intros _; exact PC|exact NC]]. intros p Ep. rewrite PC. split; [discriminate|]. assert (p = h) by congruence. subst p. split; [exact H2|].
    intros o s Io Is. assert (F : fits o) by (destruct WF as (W & _); rewrite Forall_forall in W; apply W; exact Io).
    destruct (used_In o s F Is) as (kk & Zk & Hk). apply In_zget in Io. destruct Io as (i & Zi).
    destruct (H3 i kk o s) as (p & P1 & P2 & P3 & P4 & _); [repeat split; assumption || lia|].
    cbn [psf_npix]. rewrite P3, P4. apply (PF ps p _ _ _ eq_refl). eapply zget_In; exact P1.
  - split; [intros p Ep; congruence|]. split; [congruence|exact NC].
Qed.

(** * Accessors that read no mosaic *)
Lemma other_accessors f g i j o o' : zget (m_cat f) j = Some o -> zget (m_cat g) i = Some o' -> same_but_starts o o' -> fits o ->
  m_info g = m_info f -> forall k, 0 <= k ->
  get_source_info g i k = get_source_info f j k /\ get_jacobian g i k = get_jacobian f j k /\ get_cutout_rowcol g i k = get_cutout_rowcol f j k.
Proof.
  intros Zf Zg S F I k K. destruct (same_fields o o' S) as (_ & N & _).
  pose proof (zget_Some_range _ _ _ Zf). pose proof (zget_Some_range _ _ _ Zg).
  assert (RC : get_cutout_rowcol g i k = get_cutout_rowcol f j k).
  { unfold get_cutout_rowcol. rewrite !py_index_nonneg, Zf, Zg by lia. cbn [bind]. unfold get_slot. rewrite !py_index_nonneg by lia.
    destruct (zget (o_slots o) k) as [s|] eqn:Es.
    - destruct (same_slot o o' k s S Es) as (s' & -> & E). cbn [bind]. rewrite E. reflexivity.
    - rewrite (same_slot_none o o' k S Es). reflexivity. }
  destruct (check_same f g i j o o' k Zf Zg K N F) as [(A & E1 & E2)|(A & E1 & E2)].
  - unfold get_source_info, get_jacobian. rewrite E1, E2, RC. repeat split.
  - unfold get_source_info, get_jacobian. rewrite E1, E2, RC, I. cbn [bind]. destruct (slot_exists o k F A) as (s & Es). destruct (same_slot o o' k s S Es) as (s' & Es' & E).
    rewrite (get_slot_zget o k s) by assumption. rewrite (get_slot_zget o' k s') by assumption. cbn [bind]. rewrite E. repeat split.
Qed.

(** * The numbers given by the caller *)
Lemma has_repeat_iff l : has_repeat l = false <-> NoDup l.
Proof.
  induction l as [|x l IH]; [split; [constructor|reflexivity]|]. cbn [has_repeat]. rewrite orb_false_iff, IH. split.
  - intros (A & B). constructor; [|exact B]. intros I. assert (existsb (Z.eqb x) l = true) by (apply existsb_exists; exists x; split; [exact I|lia]). congruence.
  - intros H. inversion H as [|? ? A B]; subst. split; [|exact B]. destruct (existsb (Z.eqb x) l) eqn:E; [|reflexivity]. apply existsb_exists in E. destruct E as (y & Iy & Ey).
    assert (x = y) by lia. subst y. contradiction.
Qed.

Lemma zinsert_perm x l : Permutation (zinsert x l) (x :: l).
Proof. induction l as [|y l IH]; [constructor; constructor|]. cbn [zinsert]. destruct (y <? x); [|apply Permutation_refl]. eapply perm_trans; [apply perm_skip; exact IH|]. constructor. Qed.
Lemma zsort_perm l : Permutation (zsort l) l.
Proof. induction l as [|x l IH]; [constructor|]. cbn. eapply perm_trans; [apply zinsert_perm|]. constructor. exact IH. Qed.

(** * Life of an extractor *)
Lemma put_same {M} (d : disk M) p s : put d p s p = s.
Proof. unfold put. rewrite Z.eqb_refl. reflexivity. Qed.
Lemma put_other {M} (d : disk M) p s q : q <> p -> put d p s q = d q.
Proof. unfold put. intros H. replace (q =? p) with false by lia. reflexivity. Qed.

Lemma close_other {M} resolve cl sub (d : disk M) q : q <> resolve sub -> close resolve cl sub d q = d q.
Proof. intros H. unfold close. destruct cl; [|reflexivity]. destruct (d (resolve sub)); [reflexivity|apply put_other; exact H..]. Qed.

Lemma life_other {M} resolve order r meds sub cl (d : disk M) q : q <> resolve sub ->
  fst (extractor_life resolve order r meds sub cl d) q = d q.
Proof.
  intros H. unfold extractor_life. destruct (early_check r); [|reflexivity]. destruct (check_inputs meds sub r).
  - unfold do_extract. destruct (d (resolve meds)); cbn [fst]; rewrite ?close_other by exact H; try reflexivity.
    destruct (extraction order r f); cbn [fst]; rewrite close_other by exact H; rewrite ?put_other by exact H; reflexivity.
  - cbn [fst]. apply close_other. exact H.
Qed.

Lemma life_input {M} resolve order r meds sub cl (d : disk M) : resolve meds <> resolve sub ->
  fst (extractor_life resolve order r meds sub cl d) (resolve meds) = d (resolve meds).
Proof. intros H. apply life_other. exact H. Qed.

Lemma life_rejected {M} resolve order r meds sub (d : disk M) e : snd (extractor_life resolve order r meds sub false d) = Err e ->
  early_check r = Err e \/ check_inputs meds sub r = Err e -> fst (extractor_life resolve order r meds sub false d) = d.
Proof.
  intros _ [H|H]; unfold extractor_life.
  - rewrite H. reflexivity.
  - destruct (early_check r); [|reflexivity]. rewrite H. reflexivity.
Qed.

Lemma life_ok {M} resolve order r meds sub cl (d : disk M) f meta g :
  early_check r = Ok tt -> check_inputs meds sub r = Ok tt -> d (resolve meds) = Present f meta -> extraction order r f = Ok g ->
  snd (extractor_life resolve order r meds sub cl d) = Ok tt /\
  fst (extractor_life resolve order r meds sub cl d) (resolve sub) = if cl then Absent else Present g meta.
Proof.
  intros E1 E2 E3 E4. unfold extractor_life, do_extract. rewrite E1, E2, E3, E4. cbn [fst snd]. split; [reflexivity|].
  unfold close. destruct cl; rewrite ?put_same; reflexivity.
Qed.

Lemma life_catalog {M} resolve order meds sub (d : disk M) f meta : meds <> sub -> resolve meds <> resolve sub -> d (resolve meds) = Present f meta ->
  exists g, snd (extractor_life resolve order CatalogOnly meds sub false d) = Ok tt /\
    fst (extractor_life resolve order CatalogOnly meds sub false d) (resolve sub) = Present g meta /\
    fst (extractor_life resolve order CatalogOnly meds sub false d) (resolve meds) = Present f meta /\
    m_cat g = m_cat f /\ m_info g = m_info f /\ m_number_col g = m_number_col f /\ m_psf_cols g = m_psf_cols f.
Proof.
  intros N R D. exists (extract_catalog f).
  assert (C : check_inputs meds sub CatalogOnly = Ok tt) by (unfold check_inputs; destruct (String.eqb_spec meds sub); [congruence|reflexivity]).
  destruct (life_ok resolve order CatalogOnly meds sub false d f meta (extract_catalog f) eq_refl C D eq_refl) as (L1 & L2).
  split; [exact L1|]. split; [exact L2|]. split; [rewrite life_input by exact R; exact D|]. repeat split.
Qed.

(** * The two extractions from start to end *)
Lemma life_numbers {M} resolve order meds sub (d : disk M) f meta numbers :
  file_wf f -> psf_wf f -> (m_psf f <> None -> m_psf_cols f = PsfRCCut) ->
  has_ext f TImage -> has_ext f TWeight -> has_ext f TSeg -> has_ext f TBmask -> m_number_col f = true ->
  NoDup (map o_number (m_cat f)) -> (forall l, Permutation (order l) l) ->
  NoDup numbers -> numbers <> [] -> (forall n, In n numbers -> exists o, In o (m_cat f) /\ o_number o = n) ->
  meds <> sub -> d (resolve meds) = Present f meta ->
  let d' := extractor_life resolve order (ByNumbers numbers) meds sub false d in
  exists g, snd d' = Ok tt /\ fst d' (resolve sub) = Present g meta /\
    Permutation (map o_number (m_cat g)) numbers /\ m_info g = m_info f /\
    ((exists o, In o (m_cat g) /\ 0 < o_ncut o) -> file_wf g /\ psf_wf g) /\
    forall i o', zget (m_cat g) i = Some o' -> exists j o, zget (m_cat f) j = Some o /\ o_number o = o_number o' /\
      same_but_starts o o' /\
      same_cutouts f j g i TImage /\ same_cutouts f j g i TWeight /\ same_cutouts f j g i TSeg /\ same_cutouts f j g i TBmask /\
      same_psfs f j g i.
Proof.
  intros WF PW PL X1 X2 X3 X4 NC ND OP NN NE EX NM D d'.
  destruct (numbers_ok order f (zsort numbers) WF PW PL X1 X2 X3 X4 NC ND OP) as (g & E & P & I & _ & _ & W & H).
  { intros n In. apply EX. eapply Permutation_in; [apply zsort_perm|exact In]. }
  destruct (life_ok resolve order (ByNumbers numbers) meds sub false d f meta g) as (L1 & L2).
  - cbn. rewrite (proj2 (has_repeat_iff numbers) NN). reflexivity.
  - unfold check_inputs. destruct (String.eqb_spec meds sub); [congruence|]. destruct numbers; [congruence|reflexivity].
  - exact D.
  - exact E.
  - exists g. split; [exact L1|]. split; [exact L2|]. split; [eapply perm_trans; [exact P|apply zsort_perm]|]. split; [exact I|]. split; [exact W|exact H].
Qed.

(** * Composition of extractions without cutouts *)
Lemma range_compose_none f a b c d g : file_wf f -> psf_wf f -> (m_psf f <> None -> psf_extractable (m_psf_cols f)) ->
  has_ext f TImage -> has_ext f TWeight -> has_ext f TSeg ->
  0 <= a -> b < zlen (m_cat f) -> 0 <= c <= d -> d <= b - a ->
  (forall i o, a + c <= i <= a + d -> zget (m_cat f) i = Some o -> o_ncut o = 0) ->
  extract_range false f a b = Ok g ->
  exists h h', extract_range false g c d = Ok h /\ extract_range false f (a + c) (a + d) = Ok h' /\
    Forall2 same_but_starts (m_cat h') (m_cat h) /\
    forall i, 0 <= i <= d - c -> forall k,
      (forall t, get_cutout h i k t = Err ValueError /\ get_cutout h' i k t = Err ValueError) /\
      get_psf h i k = Err ValueError /\ get_psf h' i k = Err ValueError.
Proof.
  intros WF PW PX X1 X2 X3 A B C D N G.
  assert (SB : zlen (m_cat g) = b - a + 1 /\ forall i o, 0 <= i <= b - a -> zget (m_cat f) (a + i) = Some o -> exists o', zget (m_cat g) i = Some o' /\ same_but_starts o o').
  { destruct (existsb (fun i => match zget (m_cat f) (a + i) with Some o => 0 <? o_ncut o | None => false end) (zrange (b - a + 1))) eqn:E.
    - apply existsb_exists in E. destruct E as (i & I & E). apply In_zrange in I. destruct (zget (m_cat f) (a + i)) as [o|] eqn:Zi; [|discriminate].
      destruct (range_ok false f a b WF PW PX X1 X2 X3 A B) as (g' & E1 & E2 & _ & _ & _ & _ & _ & H).
      { exists (a + i), o. split; [lia|]. split; [exact Zi|lia]. }
      assert (g' = g) by congruence. subst g'. split; [exact E2|]. intros i' o' Hi Zi'. apply (H i' o' Hi Zi').
    - destruct (range_none false f a b) as (g' & E1 & E2 & _); [lia|lia| |].
      { intros i o Hi Zi. assert (P : 0 <= o_ncut o) by (destruct WF as (W & _); rewrite Forall_forall in W; apply (W o); eapply zget_In; exact Zi).
        destruct (0 <? o_ncut o) eqn:Eo; [|lia]. assert (existsb (fun i => match zget (m_cat f) (a + i) with Some o => 0 <? o_ncut o | None => false end) (zrange (b - a + 1)) = true); [|congruence].
        apply existsb_exists. exists (i - a). split; [apply In_zrange; lia|]. replace (a + (i - a)) with i by lia. rewrite Zi. exact Eo. }
      assert (g' = g) by congruence. subst g'. destruct (slice_ok _ _ _ _ E2) as (S1 & S2 & S3 & S4). split; [lia|]. intros i o Hi Zi. exists o. split; [rewrite S4 by lia; exact Zi|apply same_refl]. }
  destruct SB as (LG & SB).
  destruct (range_none false f (a + c) (a + d)) as (h' & F1 & F2 & _ & _ & _ & _ & _ & _ & F3); [lia|lia|exact N|].
  destruct (range_none false g c d) as (h & G1 & G2 & _ & _ & _ & _ & _ & _ & G3); [lia|lia| |].
  { intros i o Hi Zi. destruct (zget_range_Some (m_cat f) (a + i)) as (o0 & Z0); [lia|]. destruct (SB i o0) as (o' & Z' & S); [lia|exact Z0|].
    assert (o' = o) by congruence. subst o'. destruct (same_fields _ _ S) as (_ & -> & _). apply (N (a + i)); [lia|exact Z0]. }
  exists h, h'. split; [exact G1|]. split; [exact F1|].
  destruct (slice_ok _ _ _ _ F2) as (S1 & S2 & S3 & S4). destruct (slice_ok _ _ _ _ G2) as (T1 & T2 & T3 & T4). split.
  - assert (Q : forall (l l' : list obj), zlen l = zlen l' -> (forall i o o', zget l i = Some o -> zget l' i = Some o' -> same_but_starts o o') -> Forall2 same_but_starts l l').
    { clear. induction l as [|x l IH]; intros [|x' l'] L H; try (unfold zlen in L; cbn in L; lia); [constructor|]. constructor.
      - apply (H 0); reflexivity.
      - apply IH; [rewrite !zlen_cons in L; lia|]. intros i o o' Z1 Z2. pose proof (zget_Some_range _ _ _ Z1). pose proof (zget_Some_range _ _ _ Z2). apply (H (1 + i)).
        + change (x :: l) with ([x] ++ l). rewrite zget_app. change (zlen [x]) with 1. replace (1 + i <? 1) with false by lia. replace (1 + i - 1) with i by lia. exact Z1.
        + change (x' :: l') with ([x'] ++ l'). rewrite zget_app. change (zlen [x']) with 1. replace (1 + i <? 1) with false by lia. replace (1 + i - 1) with i by lia. exact Z2. }
    apply Q; [lia|]. intros i o o' Z1 Z2. pose proof (zget_Some_range _ _ _ Z1). rewrite S4 in Z1 by lia. rewrite T4 in Z2 by lia.
    destruct (SB (c + i) o) as (o2 & Y1 & Y2); [lia|rewrite <- Z1; f_equal; lia|]. assert (o2 = o') by congruence. subst o2. exact Y2.
  - intros i Hi k. destruct (zget_range_Some (m_cat h) i) as (o & Zo); [lia|]. destruct (zget_range_Some (m_cat h') i) as (o' & Zo'); [lia|].
    destruct (G3 i o Zo k) as (U1 & _ & _ & U2). destruct (F3 i o' Zo' k) as (V1 & _ & _ & V2). split; [intros t; split; [apply U1|apply V1]|split; assumption].
Qed.
