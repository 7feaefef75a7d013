(** Proofs about the memory of the C library: the tables. *)
From Coq Require Import String Permutation Lia ZifyBool ZifyNat.
From Verif Require Import Base BaseLemmas Img Types Reader CLib CMem SpecCMem CMemLemmas.
Open Scope Z_scope.

Definition group (w : Z) (l : list (list Z)) : list (Z * Z) := flat_map (blocks w) l.

Lemma wp_alloc_objs (E : Prop) w n data size : forall i (Q : list (list Z) -> heap -> Prop) h L, inv h L -> In (data, size) L ->
  i + Z.of_nat n <= size -> (0 <= w \/ E) ->
  (forall os h', length os = n -> Forall (fun o => length o = 9%nat) os -> inv h' (group w os ++ L) -> Q os h') ->
  wp E (alloc_objs n data i w) Q h.
Proof.
  induction n as [|n IH]; intros i Q h L I J B G K; cbn [alloc_objs alloc_images].
  - apply wp_ret. now apply K.
  - apply wp_bind. eapply wp_write; [exact I|exact J|left; lia|]. intros _. apply wp_bind.
    eapply wp_allocs; [exact I|exact G|]. intros ps h1 LN _ I1. apply wp_bind.
    eapply (IH (i + 1)); [exact I1| |lia|exact G|].
    { apply in_or_app. now right. }
    intros os h2 LO FO I2. apply wp_ret. apply K; [cbn; lia|now constructor|].
    eapply inv_perm; [exact I2|]. unfold group. cbn. rewrite !app_assoc. apply Permutation_app_tail. apply Permutation_app_comm.
Qed.
Lemma wp_alloc_images (E : Prop) w n data size : forall i (Q : list (list Z) -> heap -> Prop) h L, inv h L -> In (data, size) L ->
  i + Z.of_nat n <= size -> (0 <= w \/ E) ->
  (forall os h', length os = n -> Forall (fun o => length o = 4%nat) os -> inv h' (group w os ++ L) -> Q os h') ->
  wp E (alloc_images n data i w) Q h.
Proof.
  induction n as [|n IH]; intros i Q h L I J B G K; cbn [alloc_objs alloc_images].
  - apply wp_ret. now apply K.
  - apply wp_bind. eapply wp_write; [exact I|exact J|left; lia|]. intros _. apply wp_bind.
    eapply wp_allocs; [exact I|exact G|]. intros ps h1 LN _ I1. apply wp_bind.
    eapply (IH (i + 1)); [exact I1| |lia|exact G|].
    { apply in_or_app. now right. }
    intros os h2 LO FO I2. apply wp_ret. apply K; [cbn; lia|now constructor|].
    eapply inv_perm; [exact I2|]. unfold group. cbn. rewrite !app_assoc. apply Permutation_app_tail. apply Permutation_app_comm.
Qed.

Lemma wp_free_objs (E : Prop) w data size os : forall i (Q : unit -> heap -> Prop) h L, inv h (group w os ++ L) -> In (data, size) L ->
  i + zlen os <= size -> (forall h', inv h' L -> Q tt h') -> wp E (free_objs data i os) Q h.
Proof.
  induction os as [|o os IH]; intros i Q h L I J B K; cbn [free_objs free_images].
  - apply wp_ret. now apply K.
  - rewrite zlen_cons in B. pose proof (zlen_nonneg os).
    apply wp_bind. eapply wp_write; [exact I|apply in_or_app; right; exact J|left; lia|]. intros _. apply wp_bind.
    unfold group in I. cbn in I. rewrite <- app_assoc in I. eapply wp_frees; [exact I|]. intros h1 I1.
    eapply (IH (i + 1)); [exact I1|exact J|lia|exact K].
Qed.
Lemma wp_free_images (E : Prop) w data size os : forall i (Q : unit -> heap -> Prop) h L, inv h (group w os ++ L) -> In (data, size) L ->
  i + zlen os <= size -> (forall h', inv h' L -> Q tt h') -> wp E (free_images data i os) Q h.
Proof.
  induction os as [|o os IH]; intros i Q h L I J B K; cbn [free_objs free_images].
  - apply wp_ret. now apply K.
  - rewrite zlen_cons in B. pose proof (zlen_nonneg os).
    apply wp_bind. eapply wp_write; [exact I|apply in_or_app; right; exact J|left; lia|]. intros _. apply wp_bind.
    unfold group in I. cbn in I. rewrite <- app_assoc in I. eapply wp_frees; [exact I|]. intros h1 I1.
    eapply (IH (i + 1)); [exact I1|exact J|lia|exact K].
Qed.

(** A catalogue and its blocks. *)
Definition cat_blocks (w : Z) (c : mcat) : list (Z * Z) :=
  group w (mc_objs c) ++ [(mc_self c, 1); (mc_data c, zlen (mc_objs c))].
Definition info_blocks (w : Z) (c : minfo) : list (Z * Z) :=
  group w (mi_images c) ++ [(mi_self c, 1); (mi_data c, zlen (mi_images c))].

Lemma wp_cat_new (E : Prop) size w (Q : mcat -> heap -> Prop) h L : inv h L -> 0 <= size -> (0 <= w \/ E) ->
  (forall c h', zlen (mc_objs c) = size -> Forall (fun o => length o = 9%nat) (mc_objs c) -> inv h' (cat_blocks w c ++ L) -> Q c h') ->
  wp E (meds_cat_new size w) Q h.
Proof.
  intros I S G K. unfold meds_cat_new. apply wp_bind.
  eapply wp_alloc; [exact I|left; lia|]. intros self h1 _ I1. apply wp_bind.
  eapply wp_alloc; [exact I1|left; lia|]. intros data h2 _ I2. apply wp_bind.
  eapply (wp_alloc_objs E w (Z.to_nat size) data size 0); [exact I2|now left|lia|exact G|].
  intros os h3 LO FO I3. apply wp_ret. assert (Z1 : zlen os = size) by (unfold zlen; lia).
  apply K; cbn; [exact Z1|exact FO|].
  eapply inv_perm; [exact I3|]. unfold cat_blocks. cbn. rewrite <- app_assoc. apply Permutation_app_head.
  rewrite Z1. cbn. apply perm_swap.
Qed.
Lemma wp_info_new (E : Prop) size w (Q : minfo -> heap -> Prop) h L : inv h L -> 0 <= size -> (0 <= w \/ E) ->
  (forall c h', zlen (mi_images c) = size -> Forall (fun o => length o = 4%nat) (mi_images c) -> inv h' (info_blocks w c ++ L) -> Q c h') ->
  wp E (meds_info_cat_new size w) Q h.
Proof.
  intros I S G K. unfold meds_info_cat_new. apply wp_bind.
  eapply wp_alloc; [exact I|left; lia|]. intros self h1 _ I1. apply wp_bind.
  eapply wp_alloc; [exact I1|left; lia|]. intros data h2 _ I2. apply wp_bind.
  eapply (wp_alloc_images E w (Z.to_nat size) data size 0); [exact I2|now left|lia|exact G|].
  intros os h3 LO FO I3. apply wp_ret. assert (Z1 : zlen os = size) by (unfold zlen; lia).
  apply K; cbn; [exact Z1|exact FO|].
  eapply inv_perm; [exact I3|]. unfold info_blocks. cbn. rewrite <- app_assoc. apply Permutation_app_head.
  rewrite Z1. cbn. apply perm_swap.
Qed.
Lemma wp_cat_free (E : Prop) w c (Q : unit -> heap -> Prop) h L : inv h (cat_blocks w c ++ L) ->
  (forall h', inv h' L -> Q tt h') -> wp E (meds_cat_free c) Q h.
Proof.
  intros I K. unfold meds_cat_free. unfold cat_blocks in I. rewrite <- app_assoc in I. cbn in I.
  apply wp_bind. eapply (wp_write E (mc_self c) 1); [exact I| |left; lia|].
  { apply in_or_app. right. now left. }
  intros _. apply wp_bind. eapply wp_free_objs; [exact I|right; now left|lia|]. intros h1 I1.
  apply wp_bind. eapply wp_free; [eapply inv_perm; [exact I1|apply perm_swap]|]. intros h2 I2.
  eapply wp_free; [exact I2|exact K].
Qed.
Lemma wp_info_free (E : Prop) w c (Q : unit -> heap -> Prop) h L : inv h (info_blocks w c ++ L) ->
  (forall h', inv h' L -> Q tt h') -> wp E (meds_info_cat_free c) Q h.
Proof.
  intros I K. unfold meds_info_cat_free. unfold info_blocks in I. rewrite <- app_assoc in I. cbn in I.
  apply wp_bind. eapply (wp_write E (mi_self c) 1); [exact I| |left; lia|].
  { apply in_or_app. right. now left. }
  intros _. apply wp_bind. eapply wp_free_images; [exact I|right; now left|lia|]. intros h1 I1.
  apply wp_bind. eapply wp_free; [eapply inv_perm; [exact I1|apply perm_swap]|]. intros h2 I2.
  eapply wp_free; [exact I2|exact K].
Qed.

Lemma map_fst_combine {A B} (a : list A) (b : list B) : length a = length b -> map fst (combine a b) = a.
Proof. revert b. induction a as [|x a IH]; intros [|y b] H; cbn in *; try discriminate; [reflexivity|]. f_equal. apply IH. lia. Qed.

(** One row. *)
Definition row_reads (t : ctable) (row : Z) : bool := forallb (col_reads t row) MEDS_COLNAMES.

Ltac list_of H o :=
  repeat (destruct o as [|? o]; cbn in H; try discriminate H).

Lemma wp_load_row (E : Prop) t data size row n w o ndist ds (Q : bool * (Z * list Z) -> heap -> Prop) h L :
  inv h (blocks ndist ds ++ L) -> In (data, size) L -> row + 1 <= size -> length o = 9%nat -> (forall p, In p o -> In (p, w) L) ->
  length ds = 4%nat -> 0 <= ndist -> (n <= w \/ E) ->
  (forall nd' ds' h', inv h' (blocks nd' ds' ++ L) -> length ds' = 4%nat -> 0 <= nd' -> (row_reads t row = true -> n <= w) ->
     Q (row_reads t row, (nd', ds')) h') ->
  wp E (load_table_row t data row n o ndist ds) Q h.
Proof.
  intros I J B LO FO LD ND G K. unfold load_table_row.
  assert (J' : In (data, size) (blocks ndist ds ++ L)) by (apply in_or_app; now right).
  apply wp_bind. eapply (wp_load_cols E t row (row + 1) size); [exact I| |left; lia|].
  { cbn. repeat constructor; exact J'. }
  intros _.
  assert (RR : row_reads t row = (forallb (col_reads t row) ["ncutout"; "box_size"]%string &&
     (forallb (col_reads t row) (firstn 8 (skipn 2 MEDS_COLNAMES)) && forallb (col_reads t row) (skipn 10 MEDS_COLNAMES)))%bool).
  { unfold row_reads. rewrite <- !forallb_app. reflexivity. }
  rewrite RR in K. clear RR.
  change (map fst [("ncutout", data); ("box_size", data)]%string) with ["ncutout"; "box_size"]%string.
  destruct (forallb (col_reads t row) ["ncutout"; "box_size"]%string); cbn [andb negb] in *; [|apply wp_ret; apply K; auto; discriminate].
  apply wp_bind. eapply (wp_load_cols E t row n w); [exact I| |exact G|].
  { apply Forall_forall. intros [k p] X. apply in_combine_r in X. apply in_or_app. right. now apply FO. }
  list_of LO o. list_of LD ds.
  intro LE. specialize (LE ltac:(discriminate)).
  match goal with |- context [map fst ?x] => change (map fst x) with (firstn 8 (skipn 2 MEDS_COLNAMES)) end.
  destruct (forallb (col_reads t row) (firstn 8 (skipn 2 MEDS_COLNAMES))); cbn [andb negb] in *; [|apply wp_ret; apply K; auto; discriminate].
  apply wp_bind.
  match goal with |- wp E ?m ?QQ h => enough (X : forall ds' nd' h', inv h' (blocks nd' ds' ++ L) -> length ds' = 4%nat -> 0 <= nd' ->
     n <= nd' -> QQ (nd', ds') h') end.
  { destruct (Z.ltb_spec ndist n).
    - apply wp_bind. eapply wp_reallocs; [exact I|lia|]. intros ps' h' LP IP. apply wp_ret. apply X; auto; lia.
    - apply wp_ret. apply X; auto. }
  intros ds' nd' h' I' L' N' LE'. cbn [snd]. list_of L' ds'.
  apply wp_bind. eapply (wp_load_cols E t row n nd'); [exact I'| |left; lia|].
  { apply Forall_forall. intros [k p] X. apply in_combine_r in X. apply in_or_app. left. now apply in_blocks. }
  intros _. rewrite map_fst_combine by reflexivity.
  destruct (forallb (col_reads t row) (skipn 10 MEDS_COLNAMES)); cbn [negb]; [|apply wp_ret; apply K; auto].
  cbn [nth_error]. apply wp_bind.
  eapply (wp_write E _ w n); [exact I'|apply in_or_app; right; apply FO; cbn; tauto|exact G|].
  intros _. apply wp_ret. apply K; auto.
Qed.

Fixpoint rows_read (t : ctable) (row : Z) (k : nat) : bool :=
  match k with O => true | S k' => row_reads t row && rows_read t (row + 1) k' end.

Lemma wp_load_rows (E : Prop) t data size w : forall l row ndist ds (Q : bool * list Z -> heap -> Prop) h L,
  inv h (blocks ndist ds ++ L) -> In (data, size) L -> row + zlen l <= size ->
  (forall n o, In (n, o) l -> length o = 9%nat /\ forall p, In p o -> In (p, w) L) ->
  length ds = 4%nat -> 0 <= ndist -> (Forall (fun n => n <= w) (map fst l) \/ E) ->
  (forall nd' ds' h', inv h' (blocks nd' ds' ++ L) -> length ds' = 4%nat ->
     (rows_read t row (length l) = true -> Forall (fun n => n <= w) (map fst l)) -> Q (rows_read t row (length l), ds') h') ->
  wp E (load_table_rows t data row l ndist ds) Q h.
Proof.
  induction l as [|[n o] l IH]; intros row ndist ds Q h L I J B FO LD ND G K.
  - cbn. apply wp_ret. eapply K; [exact I|exact LD|]. constructor.
  - rewrite zlen_cons in B. pose proof (zlen_nonneg l).
    cbn [load_table_rows]. apply wp_bind. destruct (FO n o (or_introl eq_refl)) as [F1 F2].
    eapply (wp_load_row E t data size row n w); [exact I|exact J|lia|exact F1|exact F2|exact LD|exact ND| |].
    { destruct G as [G|G]; [left|now right]. cbn in G. now apply Forall_cons_iff in G as [? _]. }
    intros nd1 ds1 h1 I1 L1 N1 LE1. cbn [fst snd]. cbn [length rows_read] in K.
    destruct (row_reads t row); cbn [negb andb] in *.
    + eapply (IH (row + 1) nd1 ds1); [exact I1|exact J|lia| |exact L1|exact N1| |].
      * intros n' o' J'. apply (FO n' o'). now right.
      * destruct G as [G|G]; [left|now right]. cbn in G. now apply Forall_cons_iff in G as [_ ?].
      * intros nd2 ds2 h2 I2 L2 LE2. eapply K; [exact I2|exact L2|]. intro R. cbn. constructor; auto.
    + apply wp_ret. eapply K; [exact I1|exact L1|]. discriminate.
Qed.

Lemma rows_read_spec t k : forall row, rows_read t row k = true <-> forall i, row <= i < row + Z.of_nat k -> row_reads t i = true.
Proof.
  induction k as [|k IH]; intro row; cbn [rows_read].
  - split; [intros _ i Hi; lia|reflexivity].
  - rewrite andb_true_iff, IH. split.
    + intros [H1 H2] i Hi. destruct (Z.eq_dec i row) as [->|D]; [exact H1|]. apply H2. lia.
    + intro H. split; [apply H; lia|]. intros i Hi. apply H. lia.
Qed.
Lemma unreadable_spec f t l : mf_obj f = Some (t, l) -> get_colnums t = true ->
  rows_unreadable f = negb (rows_read t 0 (length l)).
Proof.
  intros F C. unfold rows_unreadable. rewrite F, C. cbn [andb].
  destruct (rows_read t 0 (length l)) eqn:R; cbn [negb].
  - rewrite rows_read_spec in R. destruct (existsb _ _) eqn:X; [|reflexivity]. exfalso.
    apply existsb_exists in X as (i & Hi & X). apply In_zrange in Hi. unfold zlen in Hi.
    apply existsb_exists in X as (n & Hn & X). specialize (R i ltac:(lia)). unfold row_reads in R.
    rewrite forallb_forall in R. specialize (R n Hn). unfold col_reads in R. destruct (tfind t n); [|discriminate].
    rewrite R in X. discriminate.
  - destruct (existsb _ _) eqn:X; [reflexivity|]. exfalso.
    assert (rows_read t 0 (length l) = true); [|congruence].
    apply rows_read_spec. intros i Hi. unfold row_reads. apply forallb_forall. intros n Hn.
    destruct (col_reads t i n) eqn:CR; [reflexivity|].
    assert (true = false); [|discriminate]. rewrite <- X. symmetry. apply existsb_exists. exists i. split; [apply In_zrange; unfold zlen; lia|].
    apply existsb_exists. exists n. split; [exact Hn|]. unfold col_reads in CR. destruct (tfind t n); [|reflexivity]. now rewrite CR.
Qed.

Lemma wp_load_table (E : Prop) t ncut c w (Q : bool -> heap -> Prop) h L :
  inv h (cat_blocks w c ++ L) -> zlen (mc_objs c) = zlen ncut -> Forall (fun o => length o = 9%nat) (mc_objs c) ->
  (Forall (fun n => n <= w) ncut \/ E) ->
  (forall b lost h', inv h' (lost ++ cat_blocks w c ++ L) -> b = (get_colnums t && rows_read t 0 (length ncut))%bool ->
     length lost = (if get_colnums t && negb b then 4%nat else 0%nat) ->
     (b = true -> Forall (fun n => n <= w) ncut) -> Q b h') ->
  wp E (load_table t ncut c) Q h.
Proof.
  intros I LO FO G K. unfold load_table.
  assert (LL : length ncut = length (mc_objs c)) by (unfold zlen in LO; lia).
  destruct (get_colnums t) eqn:C; cbn [negb andb] in *.
  2:{ apply wp_ret. apply (K false []); auto. discriminate. }
  apply wp_bind. change [20; 20; 20; 20] with (repeat 20 4).
  eapply wp_allocs; [exact I|left; lia|]. intros ds h1 L1 _ I1.
  apply wp_bind. eapply (wp_write E (mc_self c) 1); [exact I1| |left; lia|].
  { apply in_or_app. right. apply in_or_app. left. unfold cat_blocks. apply in_or_app. right. now left. }
  intros _. apply wp_bind.
  eapply (wp_load_rows E t (mc_data c) (zlen (mc_objs c)) w); [exact I1| | | |exact L1|lia| |].
  - apply in_or_app. left. unfold cat_blocks. apply in_or_app. right. right. now left.
  - unfold zlen. rewrite combine_length. lia.
  - intros n o J. apply in_combine_r in J. rewrite Forall_forall in FO. split; [now apply FO|].
    intros p P. apply in_or_app. left. unfold cat_blocks. apply in_or_app. left.
    unfold group. apply in_flat_map. exists o. split; [exact J|]. now apply in_blocks.
  - rewrite map_fst_combine by exact LL. exact G.
  - rewrite map_fst_combine by exact LL.
    replace (length (combine ncut (mc_objs c))) with (length ncut) by (rewrite combine_length; lia).
    intros nd' ds' h2 I2 L2 R. cbn [fst snd]. destruct (rows_read t 0 (length ncut)) eqn:RR; cbn [negb].
    + apply wp_bind. eapply wp_frees; [exact I2|]. intros h3 I3. apply wp_ret. apply (K true []); auto.
    + apply wp_ret. apply (K false (blocks nd' ds')); auto.
      unfold blocks. rewrite map_length. exact L2.
Qed.

Lemma col_size_nonneg t n : sane_table t -> 0 <= col_size t n.
Proof. intro S. unfold col_size. destruct (tfind t n) as [c|] eqn:F; [|lia]. now apply (S n c). Qed.

Lemma wp_object_table (E : Prop) f (Q : option mcat -> heap -> Prop) h L : inv h L -> sane f -> (cutouts_fit f \/ E) ->
  (forall lost h', inv h' (lost ++ L) -> length lost = (if rows_unreadable f then 4%nat else 0%nat) -> 
     (readable f -> False) -> Q None h') ->
  (forall c w h', inv h' (cat_blocks w c ++ L) -> rows_unreadable f = false -> cutouts_fit f -> Q (Some c) h') ->
  wp E (m_read_object_table f) Q h.
Proof.
  intros I S G KN KS. unfold m_read_object_table.
  destruct (mf_obj f) as [[t ncut]|] eqn:F.
  2:{ apply wp_ret. apply (KN []); [exact I| |].
      - unfold rows_unreadable. now rewrite F.
      - intros [(t & l & H & _) _]. congruence. }
  assert (U : zlen ncut = 0 -> rows_unreadable f = false).
  { intro Z0. unfold rows_unreadable. rewrite F, Z0. cbn. apply andb_false_r. }
  destruct (Z.eqb_spec (zlen ncut) 0) as [Z0|NZ].
  { apply wp_ret. apply (KN []); [exact I|now rewrite U|].
    intros [(t' & l' & H & NN & _) _]. rewrite F in H. injection H as <- <-. destruct ncut; [now apply NN|]. rewrite zlen_cons in Z0. pose proof (zlen_nonneg ncut). lia. }
  pose proof (zlen_nonneg ncut). set (w := col_size t "file_id").
  apply wp_bind. eapply (wp_cat_new E (zlen ncut) w); [exact I|lia|left; apply col_size_nonneg; now apply (proj1 S t ncut)|].
  intros c h1 LO FO I1. apply wp_bind.
  eapply (wp_load_table E t ncut c w); [exact I1|exact LO|exact FO| |].
  { destruct G as [G|G]; [left|now right]. exact (G t ncut F). }
  intros b lost h2 I2 B LL FF. destruct b.
  - apply wp_ret. symmetry in B. apply andb_true_iff in B as [C R]. rewrite C in LL. cbn in LL.
    destruct lost; [|discriminate]. apply (KS c w h2).
    + exact I2.
    + rewrite (unreadable_spec f t ncut F C), R. reflexivity.
    + intros t' l' F'. rewrite F in F'. injection F' as <- <-. auto.
  - apply wp_bind. eapply (wp_cat_free E w c).
    { eapply inv_perm; [exact I2|]. apply Permutation_app_swap_app. }
    intros h3 I3. apply wp_ret. apply (KN lost); [exact I3| |].
    + destruct (get_colnums t) eqn:C; cbn in LL.
      * rewrite (unreadable_spec f t ncut F C). cbn in B. rewrite <- B. exact LL.
      * unfold rows_unreadable. rewrite F, C. exact LL.
    + intros [(t' & l' & F' & NN & RD) _]. rewrite F in F'. injection F' as <- <-.
      symmetry in B. apply andb_false_iff in B as [B|B].
      * assert (get_colnums t = true); [|congruence]. apply forallb_forall. intros n Hn. destruct (RD n Hn) as (c' & -> & _). reflexivity.
      * assert (rows_read t 0 (length ncut) = true); [|congruence]. apply rows_read_spec. intros i Hi. apply forallb_forall. intros n Hn.
        destruct (RD n Hn) as (c' & T & N). unfold col_reads. rewrite T. apply N. unfold zlen. lia.
Qed.
