(** Proofs about the memory of the C library: the metadata. *)
From Coq Require Import String Permutation Lia ZifyBool ZifyNat.
From Verif Require Import Base BaseLemmas Img Types Reader CLib CMem SpecCMem CMemLemmas CMemLemmas2 CMemLemmas3.
Open Scope Z_scope.

Lemma bring_skip {A} (a b r x : list A) : Permutation r (a ++ x) -> Permutation (b ++ r) (a ++ b ++ x).
Proof. intro P. etransitivity; [apply Permutation_app_head; exact P|]. apply Permutation_app_swap_app. Qed.
Ltac bring a := lazymatch goal with
  | |- Permutation (a ++ ?r) (a ++ _) => reflexivity
  | |- Permutation (?b ++ _) _ => apply bring_skip; bring a
  end.
Lemma bring_first {A} (a l r x : list A) : Permutation r (a ++ x) -> Permutation l x -> Permutation (a ++ l) r.
Proof. intros P Q. etransitivity; [apply Permutation_app_head; exact Q|]. now symmetry. Qed.
Ltac perm := repeat (lazymatch goal with |- Permutation (?a ++ _) _ => eapply bring_first; [bring a|] end); reflexivity.

Section Meta.
Variable t : ctable.
Hypothesis ST : sane_table t.
Variable E : Prop.

(** The first [k] fields can be read. *)
Definition F (k : nat) : bool := forallb (meta_fine t) (firstn k META_FIELDS).
Lemma F_S k n : nth_error META_FIELDS k = Some n -> F (S k) = F k && meta_fine t n.
Proof.
  intro H. unfold F. assert (X : firstn (S k) META_FIELDS = firstn k META_FIELDS ++ [n]).
  { revert k H. generalize META_FIELDS. induction l as [|x l IH]; intros [|k] H; cbn in *; try discriminate; [congruence|].
    f_equal. now apply IH. }
  rewrite X, forallb_app. cbn. now rewrite andb_true_r.
Qed.

Lemma number_F k n : nth_error META_FIELDS k = Some n -> meta_text n = false -> read_number_byname t (negb (F k)) n = negb (F (S k)).
Proof.
  intros H N. rewrite (F_S k n H). unfold read_number_byname, meta_fine. rewrite N.
  destruct (tfind t n) as [c|]; [|now rewrite andb_false_r]. now rewrite negb_andb.
Qed.

Definition kept (n : string) (p : option Z) : list (Z * Z) := match p with None => [] | Some q => [(q, col_size t n)] end.
(** Lost by reading field [k]. *)
Definition lost1 (k : nat) (n : string) : list Z :=
  match tfind t n with None => [] | Some c => if F (S k) then [] else [cc_width c] end.
Definition text_fits (k : nat) (n : string) : Prop :=
  F (S k) = true -> forall c len, tfind t n = Some c -> cc_text c 0 = Some len -> len < cc_width c.

Lemma wp_string k n (Q : bool * option Z -> heap -> Prop) h L : nth_error META_FIELDS k = Some n -> meta_text n = true ->
  inv h L -> (text_fits k n \/ E) ->
  (forall p lost h', inv h' (kept n p ++ lost ++ L) -> map snd lost = lost1 k n -> text_fits k n ->
     (if F (S k) then exists q, p = Some q /\ 1 <= col_size t n else p = None) -> Q (negb (F (S k)), p) h') ->
  wp E (read_string_byname t (negb (F k)) n) Q h.
Proof.
  intros HK HT I G K. unfold read_string_byname. pose proof (F_S k n HK) as FS. unfold meta_fine in FS. rewrite HT in FS.
  unfold lost1, text_fits, col_size, kept, col_size in *. destruct (tfind t n) as [c|] eqn:TF.
  2:{ apply wp_ret. rewrite andb_false_r in FS. rewrite FS in *. apply (K None []); auto; discriminate. }
  destruct (ST n c TF) as [W0 T0].
  apply wp_bind. eapply wp_alloc; [exact I|now left|]. intros q h1 _ I1.
  destruct (F k) eqn:FK; cbn [negb andb] in *.
  2:{ apply wp_ret. rewrite FS in *. apply (K None [(q, cc_width c)]); auto; discriminate. }
  apply wp_bind. eapply (wp_read_str E t n 0 q (cc_width c)); [exact I1|now left| |].
  - unfold text_of. rewrite TF. destruct (cc_text c 0) as [len|] eqn:TX; [|left; discriminate].
    destruct G as [G|G]; [left|now right]. intros l H. apply (G FS c l eq_refl). congruence.
  - unfold text_reads, text_of. rewrite TF. intro LT. destruct (cc_text c 0) as [len|] eqn:TX.
    + apply wp_ret. rewrite FS in *. apply (K (Some q) []); auto.
      * intros _ c' l H H'. injection H as <-. rewrite TX in H'. injection H' as <-. auto.
      * exists q. split; [reflexivity|]. specialize (LT len eq_refl). specialize (T0 0 len TX). lia.
    + apply wp_ret. rewrite FS in *. apply (K None [(q, cc_width c)]); auto; discriminate.
Qed.

Lemma wp_free_opt n p (Q : unit -> heap -> Prop) h L : inv h (kept n p ++ L) -> (forall h', inv h' L -> Q tt h') -> wp E (free_opt p) Q h.
Proof.
  intros I K. destruct p as [p|]; cbn [free_opt kept] in *; [|now apply wp_ret, K].
  eapply wp_free; [exact I|exact K].
Qed.
Lemma wp_use_opt k n p (Q : unit -> heap -> Prop) h L : inv h L -> incl (kept n p) L ->
  (if F (S k) then exists q, p = Some q /\ 1 <= col_size t n else p = None) -> Q tt h ->
  wp E (match (negb (F (S k)), p) with (false, Some p) => use p | (false, None) => fun _ => Err IndexError | (true, _) => ret tt end) Q h.
Proof.
  intros I J X K. destruct (F (S k)); cbn [negb]; [|now apply wp_ret].
  destruct X as (q & -> & W). eapply (wp_write E q (col_size t n) 1); [exact I|apply J; now left|now left|]. auto.
Qed.

Definition meta_blocks (m : mmeta) : list (Z * Z) :=
  kept "cat_file" (mm_cat_file m) ++ kept "coadd_file" (mm_coadd_file m) ++ kept "coaddcat_file" (mm_coaddcat_file m) ++
  kept "coadd_srclist" (mm_coadd_srclist m) ++ kept "cutout_file" (mm_cutout_file m) ++ kept "medsconf" (mm_medsconf m) ++
  [(mm_self m, 1)].

Definition lost_all : list Z :=
  lost1 0 "cat_file" ++ lost1 1 "coadd_file" ++ lost1 2 "coadd_srclist" ++ lost1 3 "cutout_file" ++
  (match tfind t "desdata" with None => [] | Some c => [cc_width c] end) ++
  lost1 15 "coaddcat_file" ++ lost1 16 "medsconf" ++ lost1 17 "min_boxsize" ++ lost1 18 "max_boxsize".
Definition lostf (n : string) : list Z :=
  match tfind t n with
  | None => []
  | Some c => if meta_text n && (String.eqb n "desdata" || negb (fine_upto t n)) then [cc_width c] else []
  end.
Lemma lostf_number n : meta_text n = false -> lostf n = [].
Proof. intro H. unfold lostf. rewrite H. now destruct (tfind t n). Qed.
Lemma lostf_text k n : meta_text n = true -> String.eqb n "desdata" = false -> fine_upto t n = F (S k) -> lostf n = lost1 k n.
Proof.
  intros H1 H2 H3. unfold lostf, lost1. rewrite H1, H2, H3. destruct (tfind t n); [|reflexivity]. cbn [andb orb]. now destruct (F (S k)).
Qed.
Lemma lost_all_ok : lost_all = lost_meta t.
Proof.
  change (lost_meta t) with (flat_map lostf META_FIELDS). unfold META_FIELDS. cbn [flat_map].
  assert (D : lostf "desdata" = match tfind t "desdata" with None => [] | Some c => [cc_width c] end) by reflexivity.
  rewrite D.
  rewrite (lostf_text 0 "cat_file"), (lostf_text 1 "coadd_file"), (lostf_text 2 "coadd_srclist"), (lostf_text 3 "cutout_file"),
    (lostf_text 15 "coaddcat_file"), (lostf_text 16 "medsconf"), (lostf_text 17 "min_boxsize"), (lostf_text 18 "max_boxsize") by reflexivity.
  rewrite !lostf_number by reflexivity. unfold lost_all. cbn [app]. now rewrite app_nil_r.
Qed.
Lemma wp_meta_free m (Q : unit -> heap -> Prop) h L : inv h (meta_blocks m ++ L) ->
  (forall h', inv h' L -> Q tt h') -> wp E (meds_meta_free m) Q h.
Proof.
  intros I K. unfold meds_meta_free, meta_blocks in *. rewrite <- !app_assoc in I.
  apply wp_bind. eapply (wp_write E (mm_self m) 1); [exact I|rewrite !in_app_iff; cbn; tauto|left; lia|]. intros _.
  do 6 (apply wp_bind; eapply wp_free_opt; [exact I|clear h I; intros h I]).
  eapply wp_free; [exact I|exact K].
Qed.

(** The text fields of the metadata fit. *)
Definition all_fit : Prop :=
  text_fits 0 "cat_file" /\ text_fits 1 "coadd_file" /\ text_fits 2 "coadd_srclist" /\ text_fits 3 "cutout_file" /\
  text_fits 5 "desdata" /\ text_fits 15 "coaddcat_file" /\ text_fits 16 "medsconf" /\ text_fits 17 "min_boxsize" /\ text_fits 18 "max_boxsize".

Lemma numbers_F : forall l k, (forall i n, nth_error l i = Some n -> nth_error META_FIELDS (k + i) = Some n /\ meta_text n = false) ->
  read_numbers t (negb (F k)) l = negb (F (k + length l)).
Proof.
  induction l as [|n l IH]; intros k H.
  - cbn [length]. now rewrite Nat.add_0_r.
  - unfold read_numbers. cbn [fold_left]. destruct (H O n eq_refl) as [H1 H2]. rewrite Nat.add_0_r in H1.
    rewrite (number_F k n H1 H2). change (fold_left (fun b n => read_number_byname t b n) l (negb (F (S k)))) with (read_numbers t (negb (F (S k))) l).
    rewrite IH; [cbn [length]; do 2 f_equal; lia|]. intros i m J. specialize (H (S i) m J). now replace (S k + i)%nat with (k + S i)%nat by lia.
Qed.

Lemma wp_read_meta f (Q : option mmeta -> heap -> Prop) h L : mf_meta f = Some t -> inv h L -> (all_fit \/ E) ->
  (forall m lost h', inv h' (lost ++ meta_blocks m ++ L) -> Permutation (map snd lost) (lost_meta t) -> all_fit -> Q (Some m) h') ->
  wp E (m_read_meta f) Q h.
Proof.
  intros MF I G K. unfold m_read_meta. rewrite MF.
  apply wp_bind. eapply wp_alloc; [exact I|left; lia|]. intros self h0 _ I0.
  apply wp_bind. eapply (wp_write E self 1); [exact I0|now left|left; lia|]. intros _.
  change ((self, 1) :: L) with ([(self, 1)] ++ L) in I0.
  change (read_string_byname t false "cat_file") with (read_string_byname t (negb (F 0)) "cat_file").
  apply wp_bind. eapply (wp_string 0 "cat_file"); [reflexivity|reflexivity|exact I0|unfold all_fit in G; tauto|].
  clear I0. intros p0 l0 h1 I1 E0 T0 X0. cbn [fst snd].
  apply wp_bind. eapply (wp_string 1 "coadd_file"); [reflexivity|reflexivity|exact I1|unfold all_fit in G; tauto|].
  clear I1. intros p1 l1 h2 I2 E1 T1 X1. cbn [fst snd].
  apply wp_bind. eapply (wp_string 2 "coadd_srclist"); [reflexivity|reflexivity|exact I2|unfold all_fit in G; tauto|].
  clear I2. intros p2 l2 h3 I3 E2 T2 X2. cbn [fst snd].
  apply wp_bind. eapply (wp_string 3 "cutout_file"); [reflexivity|reflexivity|exact I3|unfold all_fit in G; tauto|].
  clear I3. intros p3 l3 h4 I4 E3 T3 X3. cbn [fst snd].
  rewrite (number_F 4 "magzp_ref") by reflexivity.
  apply wp_bind. eapply (wp_string 5 "desdata"); [reflexivity|reflexivity|exact I4|unfold all_fit in G; tauto|].
  clear I4. intros p5 l5 h5 I5 E5 T5 X5. cbn [fst snd].
  rewrite (numbers_F _ 6).
  2:{ intros i n J. do 9 (destruct i as [|i]; [injection J as <-; split; reflexivity|]). now destruct i. }
  cbn [length Nat.add].
  apply wp_bind. eapply (wp_string 15 "coaddcat_file"); [reflexivity|reflexivity|exact I5|unfold all_fit in G; tauto|].
  clear I5. intros p6 l6 h6 I6 E6 T6 X6. cbn [fst snd].
  apply wp_bind. eapply (wp_string 16 "medsconf"); [reflexivity|reflexivity|exact I6|unfold all_fit in G; tauto|].
  clear I6. intros p7 l7 h7 I7 E7 T7 X7. cbn [fst snd].
  apply wp_bind. eapply (wp_string 17 "min_boxsize"); [reflexivity|reflexivity|exact I7|unfold all_fit in G; tauto|].
  clear I7. intros p8 l8 h8 I8 E8 T8 X8. cbn [fst snd].
  apply wp_bind. eapply (wp_use_opt 17 "min_boxsize"); [exact I8|intros b J; apply in_or_app; now left|exact X8|].
  apply wp_bind. eapply (wp_string 18 "max_boxsize"); [reflexivity|reflexivity|exact I8|unfold all_fit in G; tauto|].
  clear I8. intros p9 l9 h9 I9 E9 T9 X9. cbn [fst snd].
  apply wp_bind. eapply (wp_use_opt 18 "max_boxsize"); [exact I9|intros b J; apply in_or_app; now left|exact X9|].
  apply wp_bind. eapply (wp_free_opt "min_boxsize").
  { eapply inv_perm; [exact I9|]. bring (kept "min_boxsize" p8). }
  intros h10 I10. apply wp_bind. eapply (wp_free_opt "max_boxsize"); [exact I10|].
  clear I9 I10. intros h11 I11. apply wp_ret.
  apply (K _ (l0 ++ l1 ++ l2 ++ l3 ++ (kept "desdata" p5 ++ l5) ++ l6 ++ l7 ++ l8 ++ l9)).
  - eapply inv_perm; [exact I11|]. unfold meta_blocks. cbn [mm_self mm_cat_file mm_coadd_file mm_coadd_srclist mm_cutout_file mm_coaddcat_file mm_medsconf].
    rewrite <- !app_assoc. perm.
  - rewrite <- lost_all_ok. unfold lost_all. rewrite !map_app, E0, E1, E2, E3, E6, E7, E8, E9.
    assert (D : map snd (kept "desdata" p5) ++ map snd l5 = match tfind t "desdata" with None => [] | Some c => [cc_width c] end).
    { rewrite E5. unfold lost1. destruct (F 6).
      - destruct X5 as (q & -> & W). unfold kept, col_size in *. destruct (tfind t "desdata"); [reflexivity|]. lia.
      - rewrite X5. reflexivity. }
    rewrite D. reflexivity.
  - unfold all_fit. tauto.
Qed.
End Meta.
