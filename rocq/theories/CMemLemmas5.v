(** Proofs about the memory of the C library: opening and giving back. *)
From Coq Require Import String Permutation Lia ZifyBool ZifyNat.
From Verif Require Import Base BaseLemmas Img Types Reader CLib CMem SpecCMem CMemLemmas CMemLemmas2 CMemLemmas3 CMemLemmas4.
From Verif Require CLibLemmas2.
Open Scope Z_scope.

Lemma all_fit_iff f t : mf_meta f = Some t -> (all_fit t <-> meta_fits f).
Proof.
  intro MF. split.
  - intros A t' MF'. rewrite MF in MF'. injection MF' as <-. intros n c len HT HF TF TX.
    unfold all_fit, text_fits in A. unfold meta_text in HT. apply existsb_exists in HT as (k & J & EQ).
    apply String.eqb_eq in EQ. subst k.
    destruct A as (A0 & A1 & A2 & A3 & A5 & A6 & A7 & A8 & A9). cbn [In] in J.
    destruct J as [<-|[<-|[<-|[<-|[<-|[<-|[<-|[<-|[<-|[]]]]]]]]]].
    + exact (A0 HF c len TF TX).
    + exact (A1 HF c len TF TX).
    + exact (A2 HF c len TF TX).
    + exact (A3 HF c len TF TX).
    + exact (A5 HF c len TF TX).
    + exact (A6 HF c len TF TX).
    + exact (A7 HF c len TF TX).
    + exact (A8 HF c len TF TX).
    + exact (A9 HF c len TF TX).
  - intro M. specialize (M t MF). unfold all_fit, text_fits. repeat split; intros HF c len TF TX; eapply M; try exact TF; try exact TX; try exact HF; reflexivity.
Qed.

Definition all_within (f : memfile) : Prop := cutouts_fit f /\ names_fit f /\ meta_fits f.

(** The blocks of an open file. *)
Definition meds_blocks (t : ctable) (wc wi len : Z) (m : mmeds) : list (Z * Z) :=
  [(md_path m, len + 1)] ++ cat_blocks wc (md_cat m) ++ info_blocks wi (md_info m) ++ meta_blocks t (md_meta m) ++
  [(md_fits m, 1)] ++ [(md_self m, 1)].

Lemma wp_open (E : Prop) len f (Q : option mmeds -> heap -> Prop) h L : inv h L -> 0 <= len -> sane f -> (all_within f \/ E) ->
  (forall lost h', inv h' (lost ++ L) -> length lost = (if rows_unreadable f then 4%nat else 0%nat) -> (readable f -> False) -> Q None h') ->
  (forall m lost t wc wi h', mf_meta f = Some t -> inv h' (meds_blocks t wc wi len m ++ lost ++ L) -> Permutation (map snd lost) (lost_meta t) ->
     all_within f -> rows_unreadable f = false -> Q (Some m) h') ->
  wp E (m_open len (Some f)) Q h.
Proof.
  intros I LN S G KN KS. unfold m_open.
  apply wp_bind. eapply wp_alloc; [exact I|left; lia|]. intros fits h0 _ I0.
  apply wp_bind. eapply (wp_object_table E f); [exact I0|exact S|unfold all_within in G; tauto| |].
  { intros lost h1 I1 LL NR. apply wp_bind. eapply wp_free.
    - eapply inv_perm; [exact I1|]. symmetry. apply Permutation_middle.
    - intros h2 I2. apply wp_ret. eapply KN; eauto. }
  intros cat wc h1 I1 U FC. apply wp_bind.
  eapply (wp_image_info E f); [exact I1|exact S|unfold all_within in G; tauto| |].
  { intros h2 I2 NR. apply wp_bind. eapply wp_free.
    - eapply inv_perm; [exact I2|]. symmetry. apply Permutation_middle.
    - intros h3 I3. apply wp_bind. eapply wp_cat_free; [exact I3|]. intros h4 I4. apply wp_ret. apply (KN []); [exact I4|now rewrite U|exact NR]. }
  intros info wi h2 I2 FN. apply wp_bind.
  destruct (mf_meta f) as [t|] eqn:MF.
  2:{ unfold m_read_meta. rewrite MF. apply wp_ret. apply wp_bind. apply (wp_free E fits 1 _ _ (info_blocks wi info ++ cat_blocks wc cat ++ L)).
      - eapply inv_perm; [exact I2|]. change ((fits, 1) :: L) with ([(fits, 1)] ++ L).
        change (?a :: info_blocks wi info ++ cat_blocks wc cat ++ L) with ([a] ++ info_blocks wi info ++ cat_blocks wc cat ++ L). perm.
      - intros h3 I3. apply wp_bind. eapply wp_cat_free.
        + eapply inv_perm; [exact I3|]. apply Permutation_app_swap_app.
        + intros h4 I4. apply wp_bind. eapply wp_info_free; [exact I4|]. intros h5 I5. apply wp_ret. apply (KN []); [exact I5|now rewrite U|].
          intros [_ [_ (t' & H)]]. congruence. }
  eapply (wp_read_meta t (proj2 (proj2 S) t MF) E f); [exact MF|exact I2| |].
  { rewrite (all_fit_iff f t MF). unfold all_within in G. tauto. }
  intros meta lost h3 I3 PL AF. apply wp_bind. eapply wp_alloc; [exact I3|left; lia|]. intros self h4 _ I4.
  apply wp_bind. eapply wp_alloc; [exact I4|left; lia|]. intros path h5 _ I5. apply wp_ret.
  eapply (KS _ lost t wc wi); [reflexivity| |exact PL| |exact U].
  - eapply inv_perm; [exact I5|]. unfold meds_blocks. cbn [md_path md_cat md_info md_meta md_fits md_self].
    change ((path, len + 1) :: (self, 1) :: lost ++ meta_blocks t meta ++ info_blocks wi info ++ cat_blocks wc cat ++ (fits, 1) :: L)
      with ([(path, len + 1)] ++ [(self, 1)] ++ lost ++ meta_blocks t meta ++ info_blocks wi info ++ cat_blocks wc cat ++ [(fits, 1)] ++ L).
    rewrite <- !app_assoc. perm.
  - split; [exact FC|]. split; [exact FN|]. now apply (all_fit_iff f t MF).
Qed.

Lemma wp_meds_free (E : Prop) t wc wi len m (Q : unit -> heap -> Prop) h L : inv h (meds_blocks t wc wi len m ++ L) ->
  (forall h', inv h' L -> Q tt h') -> wp E (m_free (Some m)) Q h.
Proof.
  intros I K. unfold m_free. unfold meds_blocks in I. rewrite <- !app_assoc in I.
  apply wp_bind. eapply (wp_write E (md_self m) 1); [exact I|rewrite !in_app_iff; cbn; tauto|left; lia|]. intros _.
  apply wp_bind. eapply wp_free; [exact I|]. clear h I. intros h I.
  apply wp_bind. eapply wp_cat_free; [exact I|]. clear h I. intros h I.
  apply wp_bind. eapply wp_info_free; [exact I|]. clear h I. intros h I.
  apply wp_bind. eapply wp_meta_free; [exact I|]. clear h I. intros h I.
  apply wp_bind. eapply wp_free; [exact I|]. clear h I. intros h I.
  eapply wp_free; [exact I|exact K].
Qed.

Lemma inv_clean h : clean h -> inv h (h_live h).
Proof. intro C. split; [exact C|reflexivity]. Qed.

Lemma open_within len f h : clean h -> 0 <= len -> sane f -> cutouts_fit f -> names_fit f -> meta_fits f ->
  exists r h', m_open len (Some f) h = Ok (r, h').
Proof.
  intros C LN S F1 F2 F3.
  assert (W : wp False (m_open len (Some f)) (fun _ _ => True) h).
  { eapply (wp_open False len f); [now apply inv_clean|exact LN|exact S|left; now split|auto|auto]. }
  unfold wp in W. destruct (m_open len (Some f) h) as [[r h']|e]; [|destruct W]. now exists r, h'.
Qed.

Lemma open_iff len f h : clean h -> 0 <= len -> sane f -> readable f ->
  ((exists m h', m_open len (Some f) h = Ok (Some m, h')) <-> (cutouts_fit f /\ names_fit f /\ meta_fits f)).
Proof.
  intros C LN S R.
  assert (W : forall E, (all_within f \/ E) -> wp E (m_open len (Some f)) (fun r _ => all_within f /\ exists m, r = Some m) h).
  { intros E G. eapply (wp_open E len f); [now apply inv_clean|exact LN|exact S|exact G| |].
    - intros lost h' _ _ NR. destruct (NR R).
    - intros m lost t wc wi h' _ _ _ A _. split; [exact A|]. now exists m. }
  split.
  - intros (m & h' & EQ). specialize (W True (or_intror Logic.I)). unfold wp in W. rewrite EQ in W. exact (proj1 W).
  - intro A. specialize (W False (or_introl A)). unfold wp in W.
    destruct (m_open len (Some f) h) as [[r h']|e]; [|destruct W]. destruct W as [_ (m & ->)]. now exists m, h'.
Qed.

Lemma names_shorter_fit f : sane f -> names_shorter f -> names_fit f.
Proof.
  intros S NS t nrow F n c i len J TF Hi TX. destruct (NS t nrow F) as [W X]. specialize (X n c i len J TF Hi TX).
  assert (B : cc_width c <= namelen t); [|lia].
  unfold namelen. destruct (proj2 (CLibLemmas2.namelen_iff (col_size t "image_path") (col_size t "wcs_path") (col_size t "sky_path") (col_size t "seg_path")) (or_introl W)) as (B1 & B2 & B3 & B4).
  assert (EQ : cc_width c = col_size t n) by (unfold col_size; now rewrite TF). rewrite EQ.
  cbn [In] in J. destruct J as [<-|[<-|[<-|[<-|[]]]]]; assumption.
Qed.

Lemma open_free len f h r h1 : clean h -> 0 <= len -> sane f -> m_open len (Some f) h = Ok (r, h1) ->
  exists h2 lost, m_free r h1 = Ok (tt, h2) /\ left_over h h2 lost /\
  match r with
  | None => zlen lost = if rows_unreadable f then 4 else 0
  | Some _ => exists t, mf_meta f = Some t /\ Permutation (map snd lost) (lost_meta t)
  end.
Proof.
  intros C LN S EQ.
  set (P := fun r h1 => exists h2 lost, m_free r h1 = Ok (tt, h2) /\ left_over h h2 lost /\
    match r with
    | None => zlen lost = if rows_unreadable f then 4 else 0
    | Some _ => exists t, mf_meta f = Some t /\ Permutation (map snd lost) (lost_meta t)
    end).
  assert (W : wp True (m_open len (Some f)) P h).
  { eapply (wp_open True len f); [apply inv_clean; exact C|exact LN|exact S|now right| |].
    - intros lost h' [_ I] LL _. exists h', lost. split; [reflexivity|]. split; [exact I|]. unfold zlen. rewrite LL. now destruct (rows_unreadable f).
    - intros m lost t wc wi h' MF I PL _ _.
      assert (W2 : wp False (m_free (Some m)) (fun _ h2 => inv h2 (lost ++ h_live h)) h') by (eapply wp_meds_free; [exact I|auto]).
      unfold wp in W2. destruct (m_free (Some m) h') as [[[] h2]|e] eqn:F; [|destruct W2]. destruct W2 as [_ I2].
      exists h2, lost. split; [exact F|]. split; [exact I2|]. now exists t. }
  unfold wp in W. rewrite EQ in W. exact W.
Qed.
