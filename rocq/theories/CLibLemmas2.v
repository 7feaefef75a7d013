(** Proofs about box sizes, metadata and validation. *)
From Coq Require Import String QArith Qround Lia Sorting.
From Verif Require Import Base Img Types CLib Meta SpecCLib SpecMeta BaseLemmas.
Open Scope Z_scope.

(** * Sizes *)

Lemma round_loop_ok l : StronglySorted Z.lt l -> forall d size, (exists s, In s l /\ size <= s) ->
  In (round_loop l d size) l /\ size <= round_loop l d size /\ forall s, In s l -> size <= s -> round_loop l d size <= s.
Proof.
  induction 1 as [|a l HS IH HF]; intros d size (s & S1 & S2); [destruct S1|].
  cbn [round_loop]. destruct (size <=? a) eqn:E.
  - split; [left; reflexivity|]. split; [lia|]. intros s' [<-|S'] L; [lia|]. rewrite Forall_forall in HF. specialize (HF _ S'). lia.
  - destruct (IH a size) as (I1 & I2 & I3).
    { destruct S1 as [<-|S1]; [lia|]. exists s. auto. }
    split; [right; exact I1|]. split; [exact I2|]. intros s' [<-|S'] L; [lia|auto].
Qed.

Lemma round_loop_over l : forall d size, (forall s, In s l -> s < size) -> round_loop l d size = last l d.
Proof.
  induction l as [|a l IH]; intros d size H; [reflexivity|]. cbn [round_loop].
  destruct (size <=? a) eqn:E; [specialize (H a (or_introl eq_refl)); lia|].
  rewrite IH by (intros s S1; apply H; right; exact S1). destruct l as [|b l]; [reflexivity|].
  cbn [last]. clear. revert b. induction l as [|c l IH]; intros b; [reflexivity|]. cbn [last]. apply IH.
Qed.

Lemma SIZES_sorted : StronglySorted Z.lt SIZES.
Proof. unfold SIZES. repeat (apply SSorted_cons; [|repeat constructor]). apply SSorted_nil. Qed.

Lemma SIZES_fft n : In n SIZES -> fft_size n.
Proof.
  unfold SIZES. intros H. repeat (destruct H as [<-|H]);
  [exists 0|exists 0|exists 1|exists 1|exists 2|exists 2|exists 3|exists 3|exists 4|exists 4|exists 5|exists 5|exists 6|exists 6
  |exists 7|exists 7|exists 8|exists 8|exists 9|exists 9|exists 10|exists 10|exists 11|exists 11|destruct H]; lia.
Qed.

Lemma fft_SIZES n : fft_size n -> n <= 6144 -> In n SIZES.
Proof.
  intros (k & K & E) L.
  assert (k < 12).
  { destruct (Z_lt_le_dec k 12) as [|G]; [assumption|]. exfalso.
    assert (2 ^ 12 <= 2 ^ k) by (apply Z.pow_le_mono_r; lia). change (2 ^ 12) with 4096 in *. lia. }
  assert (C : k = 0 \/ k = 1 \/ k = 2 \/ k = 3 \/ k = 4 \/ k = 5 \/ k = 6 \/ k = 7 \/ k = 8 \/ k = 9 \/ k = 10 \/ k = 11) by lia.
  repeat (destruct C as [->|C]); try (subst k); destruct E as [->| ->]; unfold SIZES; cbn; tauto.
Qed.

Lemma SIZES_max n : In n SIZES -> 2 <= n <= 6144.
Proof. unfold SIZES. intros H. repeat (destruct H as [<-|H]); try lia. destruct H. Qed.

Lemma fft_round_ok size : size <= 6144 ->
  fft_size (fft_round_size size) /\ size <= fft_round_size size /\ fft_round_size size <= 6144 /\
  forall n, fft_size n -> size <= n -> fft_round_size size <= n.
Proof.
  intros H. unfold fft_round_size.
  destruct (round_loop_ok SIZES SIZES_sorted 0 size) as (A & B & C).
  { exists 6144. split; [unfold SIZES; cbn; tauto|exact H]. }
  split; [apply SIZES_fft; exact A|]. split; [exact B|]. pose proof (SIZES_max _ A). split; [lia|].
  intros n N L. destruct (Z_le_gt_dec n 6144) as [G|G]; [apply C; [apply fft_SIZES; assumption|exact L]|lia].
Qed.

Lemma fft_round_over size : 6144 < size -> fft_round_size size = 6144.
Proof.
  intros H. unfold fft_round_size. rewrite round_loop_over; [reflexivity|]. intros s S1. pose proof (SIZES_max _ S1). lia.
Qed.

Lemma fft_round_fft size : fft_size (fft_round_size size) /\ fft_round_size size <= 6144.
Proof.
  destruct (Z_le_gt_dec size 6144) as [G|G]; [destruct (fft_round_ok _ G) as (A & _ & B & _); auto|].
  rewrite fft_round_over by lia. split; [|lia]. exists 11. lia.
Qed.

Lemma fft_round_mono a b : a <= b -> fft_round_size a <= fft_round_size b.
Proof.
  intros H. destruct (Z_le_gt_dec b 6144) as [G|G].
  - destruct (fft_round_ok b G) as (B1 & B2 & B3 & _). destruct (fft_round_ok a) as (_ & _ & _ & A4); [lia|]. apply A4; [exact B1|lia].
  - rewrite (fft_round_over b) by lia. apply fft_round_fft.
Qed.

Lemma fft_round_fixed n : fft_size n -> n <= 6144 -> fft_round_size n = n.
Proof. intros F L. destruct (fft_round_ok n L) as (_ & A & _ & B). specialize (B n F ltac:(lia)). lia. Qed.

Lemma fft_even n : fft_size n -> n <> 3 -> exists m, n = 2 * m.
Proof.
  intros (k & K & [->| ->]) N; [eexists; reflexivity|].
  destruct (Z.eq_dec k 0) as [->|NZ]; [cbn in N; lia|]. exists (3 * 2 ^ (k - 1)).
  replace (2 ^ k) with (2 ^ (1 + (k - 1))) by (f_equal; lia). rewrite Z.pow_add_r by lia. lia.
Qed.

Lemma ceil_even x m : (2 * x <= inject_Z (2 * m))%Q -> 2 * Qceiling x <= 2 * m.
Proof.
  intros H. assert (L : (x <= inject_Z m)%Q).
  { rewrite inject_Z_mult in H. change (inject_Z 2) with 2%Q in H. apply (Qmult_le_l _ _ 2); [reflexivity|exact H]. }
  apply Qceiling_resp_le in L. rewrite Qceiling_Z in L. lia.
Qed.

Lemma sigma_needs fr e : ((10 * (fr * 2 / FWHM_FAC)) * (1 + e) == 2 * (fr * 2 / FWHM_FAC * 5 * (1 + e)))%Q.
Proof. generalize (fr * 2 / FWHM_FAC)%Q. intros x. ring. Qed.

Lemma sigma_covers fr e n : get_sigma_size fr e <= n -> ((10 * (fr * 2 / FWHM_FAC)) * (1 + e) <= inject_Z n)%Q.
Proof.
  intros H. rewrite sigma_needs. unfold get_sigma_size in H. set (x := (fr * 2 / FWHM_FAC * 5 * (1 + e))%Q) in *.
  apply Qle_trans with (inject_Z (2 * Qceiling x)); [|rewrite <- Zle_Qle; exact H].
  rewrite inject_Z_mult. apply Qmult_le_l; [reflexivity|]. apply Qle_ceiling.
Qed.

Section Box.
Variables (r0 r1 c0 c1 : Z) (fr e : Q) (mn mx : Z).
Let r := input_box_size r0 r1 c0 c1 fr e mn mx.

Lemma box_fft : fft_size r.
Proof. unfold r, input_box_size, get_box_size. apply fft_round_fft. Qed.

Lemma box_cases : exists need, r = fft_round_size (Z.min need (fft_round_size mx)) /\
  need = Z.max (Z.max (Z.max (r1 - r0 + 1) (c1 - c0 + 1)) (get_sigma_size fr e)) (fft_round_size mn).
Proof.
  eexists. split; [|reflexivity]. unfold r, input_box_size, get_box_size.
  generalize (get_sigma_size fr e) (fft_round_size mn) (fft_round_size mx). intros s m M. cbv zeta.
  assert (MX : forall a b, (if a <? b then b else a) = Z.max b a) by (intros a b; destruct (a <? b) eqn:E; lia).
  assert (MN : forall a b, (if b <? a then b else a) = Z.min a b) by (intros a b; destruct (b <? a) eqn:E; lia).
  rewrite !MX, MN. f_equal. lia.
Qed.

Lemma box_max : r <= fft_round_size mx.
Proof.
  destruct box_cases as (need & -> & _). destruct (fft_round_fft mx) as (A & B).
  rewrite <- (fft_round_fixed _ A B) at 2. apply fft_round_mono. lia.
Qed.

Lemma box_min : fft_round_size mn <= fft_round_size mx -> fft_round_size mn <= r.
Proof.
  intros L. destruct box_cases as (need & -> & E). destruct (fft_round_fft mn) as (A & B).
  rewrite <- (fft_round_fixed _ A B) at 1. apply fft_round_mono. lia.
Qed.

Lemma box_covers : r = fft_round_size mx \/ box_needs r0 r1 c0 c1 fr e r.
Proof.
  destruct box_cases as (need & R & E). destruct (fft_round_fft mx) as (A & B).
  destruct (Z_le_gt_dec need (fft_round_size mx)) as [G|G].
  - right. rewrite Z.min_l in R by exact G. destruct (fft_round_ok need) as (_ & L & _ & _); [lia|]. rewrite <- R in L.
    split; [lia|]. split; [lia|]. apply sigma_covers. lia.
  - left. rewrite Z.min_r in R by lia. rewrite R. apply fft_round_fixed; assumption.
Qed.

Lemma box_least n : fft_size n -> n <> 3 -> fft_round_size mn <= n -> box_needs r0 r1 c0 c1 fr e n -> r <= n.
Proof.
  intros F N3 L (B1 & B2 & B3). destruct box_cases as (need & R & E).
  assert (S : get_sigma_size fr e <= n).
  { destruct (fft_even n F N3) as (m & ->). unfold get_sigma_size. apply ceil_even. rewrite <- sigma_needs. exact B3. }
  destruct (Z_le_gt_dec n 6144) as [G|G].
  - rewrite R. rewrite <- (fft_round_fixed n F G). apply fft_round_mono. lia.
  - pose proof (proj2 (fft_round_fft mx)). pose proof box_max. lia.
Qed.
End Box.

(** * Name buffers *)

Lemma namelen_iff src wcs sky seg :
  (src <= get_namelen_max src wcs sky seg /\ wcs <= get_namelen_max src wcs sky seg /\
   sky <= get_namelen_max src wcs sky seg /\ seg <= get_namelen_max src wcs sky seg) <->
  (wcs <= src \/ (wcs <= Z.max sky seg /\ src <= Z.max sky seg)).
Proof.
  unfold get_namelen_max. cbv zeta.
  destruct (src <? wcs) eqn:E1.
  - destruct (sky <? sky) eqn:E2; [lia|]. destruct (sky <? seg) eqn:E3; lia.
  - destruct (src <? sky) eqn:E2; [destruct (sky <? seg) eqn:E3|destruct (src <? seg) eqn:E3]; lia.
Qed.

(** * Metadata fields of the C library *)

Lemma table_get_In tbl n : table_get tbl n <> None <-> In n (map fst tbl).
Proof.
  induction tbl as [|[k v] l IH]; cbn; [split; [congruence|intros []]|].
  destruct (String.eqb k n) eqn:E.
  - apply String.eqb_eq in E. split; [left; exact E|discriminate].
  - rewrite IH. apply String.eqb_neq in E. split; [right; assumption|intros [?|?]; [contradiction|assumption]].
Qed.

Lemma read_fields_failed tbl l i n : nth_error l i = Some n -> nth_error (read_fields tbl true l) i = Some (n, None).
Proof.
  revert i. induction l as [|a l IH]; intros [|i] H; try discriminate; cbn [read_fields read_field nth_error] in *.
  - inversion H; subst. unfold read_field. destruct (table_get tbl n); reflexivity.
  - unfold read_field. destruct (table_get tbl a); cbn [nth_error]; apply IH; exact H.
Qed.

Lemma read_fields_ok tbl l i n : nth_error l i = Some n ->
  ((forall p, In p (firstn i l) -> In p (map fst tbl)) /\ nth_error (read_fields tbl false l) i = Some (n, table_get tbl n)) \/
  ((exists p, In p (firstn i l) /\ ~ In p (map fst tbl)) /\ nth_error (read_fields tbl false l) i = Some (n, None)).
Proof.
  revert i. induction l as [|a l IH]; intros [|i] H; try discriminate; cbn [nth_error] in H.
  - inversion H; subst. left. split; [intros p []|]. cbn [read_fields]. unfold read_field. destruct (table_get tbl n); reflexivity.
  - cbn [read_fields firstn]. unfold read_field. destruct (table_get tbl a) as [v|] eqn:E; cbn [nth_error].
    + assert (IA : In a (map fst tbl)) by (apply table_get_In; congruence).
      destruct (IH i H) as [(A & B)|((p & P1 & P2) & B)].
      * left. split; [intros p [<-|P1]; auto|exact B].
      * right. split; [exists p; split; [right; exact P1|exact P2]|exact B].
    + right. split; [exists a; split; [left; reflexivity|]; rewrite <- table_get_In; congruence|]. apply read_fields_failed. exact H.
Qed.
