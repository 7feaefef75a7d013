(** Extracting a range of a written file gives what the maker writes for that
    part of the catalog (C83). *)
From Coq Require Import Lia ZifyBool ZifyNat.
From Verif Require Import Base Img Types Reader MakerLayout MakerWrite MakerFile Extract
  SpecTiles SpecLayout SpecFile SpecExtract SpecLocal
  BaseLemmas FileLemmas MakerLemmas MakerLemmas2 MakerLemmas3 ExtractLemmas ExtractLemmas2 ExtractLemmas5 ExtractLemmas6 ExtractLemmas7
  LocalLemmas.
Open Scope Z_scope.

Lemma ext_find_iff e t : In t (map fst e) <-> exists m, ext_find e t = Some m.
Proof.
  induction e as [|[t' m'] e IH]; cbn.
  - split; [tauto|]. intros (m & H). discriminate.
  - assert (X : ctype_eqb t' t = true <-> t' = t) by (destruct t', t; cbn; split; intros; congruence).
    destruct (ctype_eqb t' t) eqn:D.
    + split; [intros _; exists m'; reflexivity|]. intros _. left. apply X. reflexivity.
    + rewrite <- IH. split; [intros [E|E]; [apply X in E; congruence|exact E]|tauto].
Qed.

Lemma extract_make k types types2 rows psf input input2 j1 j2 p1 p2 f f2 ca a b :
  first_image_is_coadd (k_l k) && trim_to_coadd (k_l k) = false ->
  Forall (fun o => 1 <= o_box o) input -> Forall (fun r => source_ok (ir_src r)) rows ->
  1 <= k_njob k -> psfs_fit psf ->
  make_meds k types rows psf input j1 p1 = Ok f -> make_meds k types2 rows psf input2 j2 p2 = Ok f2 ->
  has_ext f TImage -> has_ext f TWeight -> has_ext f TSeg ->
  0 <= a -> b < zlen input -> zlen input2 = b - a + 1 ->
  (forall i, 0 <= i <= b - a -> zget input2 i = zget input (a + i)) ->
  (exists o, In o (m_cat f2) /\ 0 < o_ncut o) ->
  exists g, extract_range ca f a b = Ok g /\ zlen (m_cat g) = zlen (m_cat f2) /\ m_info g = m_info f2 /\
    forall i, 0 <= i <= b - a -> exists o o', zget (m_cat g) i = Some o /\ zget (m_cat f2) i = Some o' /\
      o_id o = o_id o' /\ o_number o = o_number o' /\ o_ra o = o_ra o' /\ o_dec o = o_dec o' /\
      o_box o = o_box o' /\ o_ncut o = o_ncut o' /\
      forall icut, 0 <= icut < o_ncut o ->
        same_cutout rows g i f2 i icut /\ (psf <> None -> same_psf g i f2 i icut).
Proof.
  intros NT B Hs J PF M M2 X1 X2 X3 A Bd L2 Hin (ox & Hox & Hpos).
  assert (S1 : selected (k_l k) (map ir_image rows) input input) by (unfold selected; rewrite NT; reflexivity).
  assert (S2 : selected (k_l k) (map ir_image rows) input2 input2) by (unfold selected; rewrite NT; reflexivity).
  assert (B2 : Forall (fun o => 1 <= o_box o) input2).
  { rewrite Forall_forall in *. intros o Ho. apply In_nth_error in Ho. destruct Ho as (n & Hn).
    assert (Hz : zget input2 (Z.of_nat n) = Some o) by (rewrite zget_nat; exact Hn).
    pose proof (zget_Some_range _ _ _ Hz). rewrite Hin in Hz by lia. apply B. eapply zget_In; exact Hz. }
  destruct (written_rows _ _ _ _ _ _ _ _ _ M S1) as (n1 & L & _ & _ & R1).
  destruct (written_rows _ _ _ _ _ _ _ _ _ M2 S2) as (n2 & L' & _ & _ & R2).
  destruct (written_extractable _ _ _ _ _ _ _ _ B J PF M) as (WF & PW & PL & _).
  assert (OI : forall i o, zget input2 i = Some o -> exists o1 o2, zget (m_cat f) (a + i) = Some o1 /\ zget (m_cat f2) i = Some o2 /\
     o_id o1 = o_id o2 /\ o_number o1 = o_number o2 /\ o_ra o1 = o_ra o2 /\ o_dec o1 = o_dec o2 /\
     o_box o1 = o_box o2 /\ o_ncut o1 = o_ncut o2 /\
     forall icut, 0 <= icut < o_ncut o1 -> same_cutout rows f (a + i) f2 i icut /\ (psf <> None -> same_psf f (a + i) f2 i icut)).
  { intros i o Hz. pose proof (zget_Some_range _ _ _ Hz). assert (Hz1 : zget input (a + i) = Some o) by (rewrite <- Hin by lia; exact Hz).
    destruct (objects_independent _ _ _ _ _ _ _ _ _ _ _ _ _ _ _ M M2 S1 S2 B B2 Hs J PF _ _ _ _ Hz1 Hz (same_input_refl k o))
      as (o1 & o2 & A1 & A2 & A3 & A4 & A5). exists o1, o2. split; [exact A1|]. split; [exact A2|].
    destruct (R1 _ _ _ Hz1 A1) as (C1 & C2 & C3 & C4 & _). destruct (R2 _ _ _ Hz A2) as (D1 & D2 & D3 & D4 & _).
    repeat (split; [congruence|]). exact A5. }
  destruct (range_ok ca f a b WF PW) as (g & E1 & E2 & E3 & _ & _ & _ & ET & H); try assumption.
  { intros P. left. apply PL. exact P. }
  { lia. }
  { apply In_nth_error in Hox. destruct Hox as (n & Hn).
    assert (Hz : zget (m_cat f2) (Z.of_nat n) = Some ox) by (rewrite zget_nat; exact Hn).
    pose proof (zget_Some_range _ _ _ Hz) as Hr.
    destruct (zget_range_Some input2 (Z.of_nat n)) as (oi & Hoi); [lia|].
    destruct (OI _ _ Hoi) as (o1 & o2 & A1 & A2 & A3 & _ & _ & _ & _ & A4 & _).
    exists (a + Z.of_nat n), o1. split; [lia|]. split; [exact A1|]. rewrite Hz in A2. injection A2 as <-. lia. }
  exists g. split; [exact E1|]. split; [lia|].
  assert (I1 : m_info f = map ir_info rows) by (destruct (make_meds_layout _ _ _ _ _ _ _ _ M) as (? & ? & ? & ? & ? & _ & _ & _ & _ & _ & _ & _ & _ & _ & I & _); exact I).
  assert (I2 : m_info f2 = map ir_info rows) by (destruct (make_meds_layout _ _ _ _ _ _ _ _ M2) as (? & ? & ? & ? & ? & _ & _ & _ & _ & _ & _ & _ & _ & _ & I & _); exact I).
  split; [congruence|]. intros i Hi.
  destruct (zget_range_Some input2 i) as (oi & Hoi); [lia|].
  destruct (OI _ _ Hoi) as (o1 & o2 & A1 & A2 & A3 & A4 & A5 & A6 & A7 & A8 & A9).
  destruct (H i o1 Hi A1) as ((og & G & S) & HC & HP).
  exists og, o2. split; [exact G|]. split; [exact A2|].
  assert (F : fits o1) by (destruct WF as (W & _); rewrite Forall_forall in W; apply W; eapply zget_In; exact A1).
  assert (Eog : og = set_slots o1 (o_slots og)) by (destruct S; assumption).
  assert (Nog : o_ncut og = o_ncut o1) by (rewrite Eog; reflexivity).
  split; [rewrite Eog; exact A3|]. split; [rewrite Eog; exact A4|]. split; [rewrite Eog; exact A5|].
  split; [rewrite Eog; exact A6|]. split; [rewrite Eog; exact A7|]. split; [congruence|].
  intros icut Hc. rewrite Nog in Hc. destruct (A9 icut Hc) as (SC & SP).
  destruct SC as (r1 & r2 & s1 & s2 & row & Z1 & Z2 & Z3 & Z4 & Z5 & Z6 & (j & Z7 & Z7') & (inf & Z8 & Z8') & Z9).
  rewrite A1 in Z1. injection Z1 as <-.
  destruct (other_accessors f g i (a + i) o1 og A1 G S F E3 icut) as (U & V & _); [lia|].
  split.
  - destruct (same_slot o1 og icut s1 S Z2) as (sg & Zg & Eg).
    exists og, r2, sg, s2, row. split; [exact G|]. split; [exact Zg|]. split; [exact Z3|]. split; [exact Z4|].
    split; [rewrite Eg; exact Z5|]. split; [unfold same_place; rewrite Eg; exact Z6|].
    split; [exists j; split; [rewrite V; exact Z7|exact Z7']|].
    split; [exists inf; split; [rewrite U; exact Z8|exact Z8']|].
    intros t T1 T2 HF.
    assert (Ct : cutout_at f2 i icut r2 s2).
    { rewrite A2 in Z3. injection Z3 as <-. repeat split; try assumption; lia. }
    assert (Hrow2 : zget rows (s_file s2) = Some row) by (destruct Z6 as (Z6 & _); rewrite <- Z6; exact Z5).
    assert (To : t <> TOrmask).
    { intros ->. exact (written_nofill _ _ _ _ _ _ _ _ M2 TOrmask _ _ _ _ _ T2 eq_refl Ct Hrow2 HF). }
    destruct (Z9 t) as (im & Y1 & Y2); [|exact T2|exact HF|].
    { apply ext_find_iff. apply (ET t To). apply ext_find_iff. exact T1. }
    exists im. split; [|exact Y2]. rewrite (HC t To icut) by lia. exact Y1.
  - intros Hn. destruct (SP Hn) as (im & Y1 & Y2). exists im. split; [|exact Y2]. rewrite (HP icut) by lia. exact Y1.
Qed.
