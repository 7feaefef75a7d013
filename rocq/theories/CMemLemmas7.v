(** Proofs about the memory of the C library: the claims that fail, and the files of the examples. *)
From Coq Require Import String Permutation Lia ZifyBool ZifyNat.
From Verif Require Import Base BaseLemmas Img Types Reader CLib CMem SpecCMem CMemLemmas CMemLemmas5.
Open Scope Z_scope.

Lemma tfind_Forall (P : ccol -> Prop) t n c : Forall (fun kc => P (snd kc)) t -> tfind t n = Some c -> P c.
Proof.
  induction 1 as [|[k x] t H F IH]; cbn; [discriminate|]. destruct (String.eqb k n); [|exact IH]. now intros [= <-].
Qed.
Lemma sane_x t : Forall (fun kc => 0 <= cc_width (snd kc) /\ forall i len, cc_text (snd kc) i = Some len -> 0 <= len) t -> sane_table t.
Proof. intros F n c H. exact (tfind_Forall (fun c => 0 <= cc_width c /\ forall i len, cc_text c i = Some len -> 0 <= len) t n c F H). Qed.

Ltac sane_tac := apply sane_x; repeat constructor; cbn; try lia; intros; try discriminate;
  repeat match goal with H : Some _ = Some _ |- _ => injection H as <- end; lia.

Lemma mf_x_sane k : 0 <= k -> sane (mf_x k).
Proof.
  intro K. split; [|split].
  - intros t l H. injection H as <- <-. sane_tac.
  - intros t l H. injection H as <- <-. split; [|lia]. sane_tac.
  - intros t H. injection H as <-. sane_tac.
Qed.
Lemma mf_x_readable k : readable (mf_x k).
Proof.
  split; [|split].
  - exists (obj_x 3), [2; 3]. split; [reflexivity|]. split; [discriminate|]. intros n Hn. cbn in Hn.
    repeat (destruct Hn as [<-|Hn]; [eexists; split; [reflexivity|reflexivity]|]). destruct Hn.
  - exists (info_x 20 k), 3. split; [reflexivity|]. split; [lia|]. split.
    + intros n Hn. cbn in Hn. repeat (destruct Hn as [<-|Hn]; [eexists; split; [reflexivity|reflexivity]|]). destruct Hn.
    + intros n Hn. cbn in Hn. repeat (destruct Hn as [<-|Hn]; [eexists; split; [reflexivity|intros; now exists k]|]). destruct Hn.
  - now exists (meta_x 30 12 "").
Qed.
Lemma mf_x_cutouts k : cutouts_fit (mf_x k).
Proof. intros t l H. injection H as <- <-. repeat constructor; vm_compute; discriminate. Qed.
Lemma info_x_col w k n c : In n ["image_path"; "wcs_path"; "sky_path"; "seg_path"]%string -> tfind (info_x w k) n = Some c -> c = text_col w k.
Proof. intros J. cbn in J. repeat (destruct J as [<-|J]; [intros [= <-]; reflexivity|]). destruct J. Qed.
Lemma mf_x_names k : k < 20 -> names_fit (mf_x k).
Proof.
  intros K t nrow H. injection H as <- <-. intros n c i len J TF Hi TX. rewrite (info_x_col _ _ _ _ J TF) in TX. injection TX as <-.
  change (k < 20). exact K.
Qed.
Lemma mf_x_meta k : meta_fits (mf_x k).
Proof.
  intros t H. injection H as <-. intros n c len HT HF TF TX.
  assert (P : forall len, cc_text c 0 = Some len -> len < cc_width c); [|now apply P].
  refine (tfind_Forall (fun c => forall len, cc_text c 0 = Some len -> len < cc_width c) _ n c _ TF).
  repeat constructor; cbn; intros l X; try discriminate; injection X as <-; lia.
Qed.
Lemma heap_x_clean : clean heap_x.
Proof. split; cbn; repeat constructor; cbn; intuition lia. Qed.

(** A name that fills the buffer. *)
Lemma full_name len f h : clean h -> 0 <= len -> sane f -> readable f ->
  forall t nrow name c i, mf_info f = Some (t, nrow) -> In name ["image_path"; "wcs_path"; "sky_path"; "seg_path"]%string ->
  (forall n, In n ["image_path"; "wcs_path"; "sky_path"; "seg_path"]%string -> col_size t n = cc_width c) ->
  tfind t name = Some c -> 0 <= i < nrow -> cc_text c i = Some (cc_width c) ->
  exists e, m_open len (Some f) h = Err e.
Proof.
  intros C LN S R t nrow name c i F J W TF Hi TX.
  assert (NN : wp True (m_open len (Some f)) (fun r _ => r <> None) h).
  { eapply (wp_open True len f); [now apply inv_clean|exact LN|exact S|now right| |].
    - intros lost h' _ _ X. destruct (X R).
    - discriminate. }
  destruct (m_open len (Some f) h) as [[[m|] h']|e] eqn:EQ; [|unfold wp in NN; rewrite EQ in NN; congruence|now exists e].
  exfalso.
  destruct (proj1 (open_iff len f h C LN S R) (ex_intro _ m (ex_intro _ h' EQ))) as (_ & N & _).
  specialize (N t nrow F name c i _ J TF Hi TX).
  unfold namelen in N.
  rewrite (W "image_path"%string), (W "wcs_path"%string), (W "sky_path"%string), (W "seg_path"%string) in N by (cbn; tauto).
  unfold get_namelen_max in N. rewrite !Z.ltb_irrefl in N. lia.
Qed.

Lemma desdata_lost t c : tfind t "desdata" = Some c -> In (cc_width c) (lost_meta t).
Proof.
  intro TF. unfold lost_meta. apply in_flat_map. exists "desdata"%string. split; [cbn; tauto|]. rewrite TF. cbn. now left.
Qed.
