(** Proofs about the memory of the C library: image_info and the metadata. *)
From Coq Require Import String Permutation Lia ZifyBool ZifyNat.
From Verif Require Import Base BaseLemmas Img Types Reader CLib CMem SpecCMem CMemLemmas CMemLemmas2.
Open Scope Z_scope.

(** Text of a column. *)
Definition text_of (t : ctable) (row : Z) (n : string) : option Z :=
  match tfind t n with None => None | Some c => cc_text c row end.
Definition text_reads (t : ctable) (row : Z) (n : string) : bool :=
  match text_of t row n with Some _ => true | None => false end.

Lemma wp_read_str (E : Prop) t n row p s (Q : bool -> heap -> Prop) h L : inv h L -> In (p, s) L ->
  ((forall len, text_of t row n = Some len -> len < s) \/ E) ->
  ((forall len, text_of t row n = Some len -> len < s) -> Q (text_reads t row n) h) -> wp E (read_str t n row p) Q h.
Proof.
  intros I J G K. unfold read_str, text_reads, text_of in *.
  destruct (tfind t n) as [c|]; [|apply wp_ret; apply K; discriminate].
  destruct (cc_text c row) as [len|]; [|apply wp_ret; apply K; discriminate].
  apply wp_bind. eapply wp_write; [exact I|exact J| |].
  - destruct G as [G|G]; [left|now right]. specialize (G len eq_refl). lia.
  - intro LE. apply wp_ret. apply K. intros l H. injection H as <-. lia.
Qed.

Lemma wp_read_strs (E : Prop) t row s l (Q : bool -> heap -> Prop) h L : inv h L ->
  Forall (fun np => In (snd np, s) L) l ->
  ((forall n len, In n (map fst l) -> text_of t row n = Some len -> len < s) \/ E) ->
  ((forallb (text_reads t row) (map fst l) = true -> forall n len, In n (map fst l) -> text_of t row n = Some len -> len < s) ->
    Q (forallb (text_reads t row) (map fst l)) h) ->
  wp E (read_strs t row l) Q h.
Proof.
  intro I. revert Q. induction l as [|[k p] l IH]; intros Q F G K; cbn [read_strs].
  - apply wp_ret. apply K. intros _ n len [].
  - apply Forall_cons_iff in F as [F1 F2]. apply wp_bind. eapply wp_read_str; [exact I|exact F1| |].
    { destruct G as [G|G]; [left|now right]. intros len H. apply (G k len); [now left|exact H]. }
    intro H1. cbn [map fst forallb] in K. destruct (text_reads t row k); cbn [andb] in K.
    + apply IH; [exact F2| |].
      * destruct G as [G|G]; [left|now right]. intros n len J. apply G. now right.
      * intro H2. apply K. intros R n len [<-|J] T; [now apply H1|]. now apply (H2 R n len).
    + apply wp_ret. apply K. discriminate.
Qed.

(** An image can be read. *)
Definition image_reads (t : ctable) (row : Z) : bool :=
  forallb (col_reads t row) ["image_id"; "image_flags"]%string && forallb (text_reads t row) PATHS &&
  forallb (col_reads t row) ["magzp"; "scale"]%string.
Fixpoint images_read (t : ctable) (row : Z) (k : nat) : bool :=
  match k with O => true | S k' => image_reads t row && images_read t (row + 1) k' end.
Lemma images_read_spec t k : forall row, images_read t row k = true <-> forall i, row <= i < row + Z.of_nat k -> image_reads t i = true.
Proof.
  induction k as [|k IH]; intro row; cbn [images_read].
  - split; [intros _ i Hi; lia|reflexivity].
  - rewrite andb_true_iff, IH. split.
    + intros [H1 H2] i Hi. destruct (Z.eq_dec i row) as [->|D]; [exact H1|]. apply H2. lia.
    + intro H. split; [apply H; lia|]. intros i Hi. apply H. lia.
Qed.

Definition paths_fit (t : ctable) (s row : Z) : Prop :=
  forall n len, In n PATHS -> text_of t row n = Some len -> len < s.

Lemma wp_load_image (E : Prop) t data size row o s (Q : bool -> heap -> Prop) h L : inv h L -> In (data, size) L -> row + 1 <= size ->
  length o = 4%nat -> (forall p, In p o -> In (p, s) L) -> (paths_fit t s row \/ E) ->
  ((image_reads t row = true -> paths_fit t s row) -> Q (image_reads t row) h) -> wp E (load_image t data row o) Q h.
Proof.
  intros I J B LO FO G K. unfold load_image. unfold image_reads in K.
  assert (C : map fst (combine PATHS o) = PATHS) by (apply map_fst_combine; rewrite LO; reflexivity).
  apply wp_bind. eapply (wp_load_cols E t row (row + 1) size); [exact I|repeat constructor; exact J|left; lia|]. intros _.
  change (map fst [("image_id", data); ("image_flags", data)]%string) with ["image_id"; "image_flags"]%string.
  destruct (forallb (col_reads t row) ["image_id"; "image_flags"]%string); cbn [andb negb] in *; [|apply wp_ret; apply K; discriminate].
  apply wp_bind. eapply (wp_read_strs E t row s); [exact I| | |].
  { apply Forall_forall. intros [k p] X. apply in_combine_r in X. now apply FO. }
  { rewrite C. exact G. }
  rewrite C. intro P.
  destruct (forallb (text_reads t row) PATHS); cbn [andb negb] in *; [|apply wp_ret; apply K; discriminate].
  eapply (wp_load_cols E t row (row + 1) size); [exact I|repeat constructor; exact J|left; lia|]. intros _.
  apply K. intros _. exact (P eq_refl).
Qed.

Lemma wp_load_images (E : Prop) t data size s : forall l row (Q : bool -> heap -> Prop) h L, inv h L -> In (data, size) L -> row + zlen l <= size ->
  (forall o, In o l -> length o = 4%nat /\ forall p, In p o -> In (p, s) L) ->
  ((forall i, row <= i < row + zlen l -> paths_fit t s i) \/ E) ->
  ((images_read t row (length l) = true -> forall i, row <= i < row + zlen l -> paths_fit t s i) -> Q (images_read t row (length l)) h) ->
  wp E (load_images t data row l) Q h.
Proof.
  induction l as [|o l IH]; intros row Q h L I J B FO G K; cbn [load_images].
  - apply wp_ret. apply K. intros _ i Hi. change (zlen []) with 0 in Hi. lia.
  - rewrite zlen_cons in *. pose proof (zlen_nonneg l). destruct (FO o (or_introl eq_refl)) as [F1 F2].
    apply wp_bind. eapply wp_load_image; [exact I|exact J|lia|exact F1|exact F2| |].
    { destruct G as [G|G]; [left|now right]. apply G. lia. }
    intro P. cbn [length images_read] in K. destruct (image_reads t row); cbn [andb] in *.
    + apply (IH (row + 1) _ h L); [exact I|exact J|lia| | |].
      * intros o' X. apply FO. now right.
      * destruct G as [G|G]; [left|now right]. intros i Hi. apply G. lia.
      * intro P2. apply K. intros R i Hi. destruct (Z.eq_dec i row) as [->|D]; [now apply P|]. apply (P2 R). lia.
    + apply wp_ret. apply K. discriminate.
Qed.

Lemma namelen_nonneg t : sane_table t -> 0 <= namelen t.
Proof.
  intro S. unfold namelen, get_namelen_max.
  pose proof (col_size_nonneg t "image_path" S). pose proof (col_size_nonneg t "sky_path" S). pose proof (col_size_nonneg t "seg_path" S).
  repeat match goal with |- context [if ?b then _ else _] => destruct b end; lia.
Qed.

Lemma wp_image_info (E : Prop) f (Q : option minfo -> heap -> Prop) h L : inv h L -> sane f -> (names_fit f \/ E) ->
  (forall h', inv h' L -> (readable f -> False) -> Q None h') ->
  (forall c w h', inv h' (info_blocks w c ++ L) -> names_fit f -> Q (Some c) h') ->
  wp E (m_read_image_info f) Q h.
Proof.
  intros I S G KN KS. unfold m_read_image_info.
  destruct (mf_info f) as [[t nrow]|] eqn:F.
  2:{ apply wp_ret. apply KN; [exact I|]. intros [_ [(t & n & H & _) _]]. congruence. }
  destruct (Z.eqb_spec nrow 0) as [Z0|NZ].
  { apply wp_ret. apply KN; [exact I|]. intros [_ [(t' & n' & H & P & _) _]]. rewrite F in H. injection H as <- <-. lia. }
  destruct (proj1 (proj2 S) t nrow F) as [ST N0].
  apply wp_bind. eapply (wp_info_new E nrow (namelen t)); [exact I|exact N0|left; now apply namelen_nonneg|].
  intros c h1 LO FO I1. apply wp_bind. eapply (wp_write E (mi_self c) 1); [exact I1| |left; lia|].
  { apply in_or_app. left. unfold info_blocks. apply in_or_app. right. now left. }
  intros _. apply wp_bind.
  eapply (wp_load_images E t (mi_data c) (zlen (mi_images c)) (namelen t)); [exact I1| |lia| | |].
  - apply in_or_app. left. unfold info_blocks. apply in_or_app. right. right. now left.
  - intros o J. rewrite Forall_forall in FO. split; [now apply FO|]. intros p P. apply in_or_app. left. unfold info_blocks.
    apply in_or_app. left. unfold group. apply in_flat_map. exists o. split; [exact J|]. now apply in_blocks.
  - destruct G as [G|G]; [left|now right]. intros i Hi n len J T. unfold text_of in T.
    destruct (tfind t n) as [c'|] eqn:TF; [|discriminate]. apply (G t nrow F n c' i len J TF); [lia|exact T].
  - intro P. replace (length (mi_images c)) with (Z.to_nat nrow) in * by (unfold zlen in LO; lia).
    destruct (images_read t 0 (Z.to_nat nrow)) eqn:R.
    + apply wp_ret. eapply KS; [exact I1|]. intros t' n' F'. rewrite F in F'. injection F' as <- <-.
      intros n c' i len J TF Hi T. apply (P eq_refl i ltac:(lia) n len J). unfold text_of. now rewrite TF.
    + apply wp_bind. eapply wp_info_free; [exact I1|]. intros h2 I2. apply wp_ret. apply KN; [exact I2|].
      intros [_ [(t' & n' & F' & NP & RN & RT) _]]. rewrite F in F'. injection F' as <- <-.
      assert (images_read t 0 (Z.to_nat nrow) = true); [|congruence]. apply images_read_spec. intros i Hi.
      assert (RN' : forall n, In n ["image_id"; "image_flags"; "magzp"; "scale"]%string -> col_reads t i n = true).
      { intros n Hn. destruct (RN n Hn) as (c' & T & N). unfold col_reads. rewrite T. apply N. lia. }
      unfold image_reads. rewrite !andb_true_iff. repeat split; apply forallb_forall; intros n Hn.
      * apply RN'. cbn in Hn |- *. tauto.
      * destruct (RT n Hn) as (c' & T & N). destruct (N i ltac:(lia)) as (len & H). unfold text_reads, text_of. now rewrite T, H.
      * apply RN'. cbn in Hn |- *. tauto.
Qed.
