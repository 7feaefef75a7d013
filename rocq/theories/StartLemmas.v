(** Start rows: closed form and tiling. *)
From Coq Require Import Lia ZifyBool ZifyNat.
From Verif Require Import Base BaseLemmas Img Types MakerLayout SpecTiles.
Ltac Zify.zify_post_hook ::= Z.div_mod_to_equations.

(** Closed form of the slots after the start rows are set. *)
Fixpoint starts (n : nat) (row d : Z) (sl : list slot) : list slot :=
  match n, sl with
  | S n', s :: sl' => set_start s row :: starts n' (row + d) d sl'
  | _, _ => sl
  end.

Lemma upd_app_mid {A} (pre : list A) a b l : upd (pre ++ a :: l) (length pre) b = pre ++ b :: l.
Proof. induction pre as [|x pre IH]; simpl; [reflexivity|]. rewrite IH; reflexivity. Qed.

Lemma nth_app_mid {A} (pre : list A) a l : nth_error (pre ++ a :: l) (length pre) = Some a.
Proof. induction pre as [|x pre IH]; simpl; auto. Qed.

Lemma start_fold d n : forall pre sl row npix, (n <= length sl)%nat ->
  foldM (fun (st : list slot * Z * Z) (icut : Z) =>
        let '(sl, row, npix) := st in
        let* sl' := modify sl (Z.to_nat icut) (fun s => set_start s row) in
        Ok (sl', row + d, npix + d))
    (map Z.of_nat (seq (length pre) n)) (pre ++ sl, row, npix)
  = Ok (pre ++ starts n row d sl, row + Z.of_nat n * d, npix + Z.of_nat n * d).
Proof.
  induction n as [|n IH]; intros pre sl row npix Hn; cbn [seq map foldM starts].
  - rewrite !Z.add_0_r. reflexivity.
  - destruct sl as [|s sl]; simpl in Hn; [lia|].
    unfold modify. rewrite Nat2Z.id, nth_app_mid. cbn [bind].
    rewrite upd_app_mid.
    replace (pre ++ set_start s row :: sl) with ((pre ++ [set_start s row]) ++ sl)
      by (rewrite <- app_assoc; reflexivity).
    specialize (IH (pre ++ [set_start s row]) sl (row + d) (npix + d)).
    rewrite app_length, Nat.add_1_r in IH.
    eapply eq_trans; [apply IH; lia|].
    rewrite <- app_assoc. cbn [app]. rewrite Nat2Z.inj_succ. f_equal; f_equal; [f_equal|]; ring.
Qed.

Lemma starts_0 row d sl : starts 0 row d sl = sl.
Proof. reflexivity. Qed.

Lemma set_slots_id o : set_slots o (o_slots o) = o.
Proof. destruct o; reflexivity. Qed.

Lemma start_rows_obj_eq o row npix : 0 <= o_ncut o <= zlen (o_slots o) ->
  start_rows_obj o row npix =
  Ok (set_slots o (starts (Z.to_nat (o_ncut o)) row (o_box o * o_box o) (o_slots o)),
      row + o_ncut o * (o_box o * o_box o), npix + o_ncut o * (o_box o * o_box o)).
Proof.
  intros H. unfold start_rows_obj. dif E.
  - pose proof (start_fold (o_box o * o_box o) (Z.to_nat (o_ncut o)) [] (o_slots o) row npix) as F.
    cbn [app length] in F. unfold zrange. rewrite F by (unfold zlen in H; lia). cbn [bind].
    rewrite Z2Nat.id by lia. reflexivity.
  - assert (o_ncut o = 0) as -> by lia. simpl Z.to_nat. rewrite starts_0, set_slots_id, Z.mul_0_l, !Z.add_0_r. reflexivity.
Qed.

Lemma starts_length n : forall row d sl, length (starts n row d sl) = length sl.
Proof. induction n as [|n IH]; intros row d [|s sl]; simpl; auto. Qed.

Lemma starts_nth n : forall row d sl k,
  nth_error (starts n row d sl) k =
  match nth_error sl k with
  | Some s => Some (if (k <? n)%nat then set_start s (row + Z.of_nat k * d) else s)
  | None => None
  end.
Proof.
  induction n as [|n IH]; intros row d sl k; cbn [starts].
  - destruct (nth_error sl k); reflexivity.
  - destruct sl as [|s sl]; [destruct k; reflexivity|].
    destruct k as [|k].
    + cbn [nth_error Nat.ltb Nat.leb]. rewrite Z.add_0_r. reflexivity.
    + cbn [nth_error]. rewrite IH. destruct (nth_error sl k); [|reflexivity].
      change (S k <? S n)%nat with (k <? n)%nat. f_equal.
      destruct (k <? n)%nat; [|reflexivity]. f_equal. lia.
Qed.

Lemma starts_firstn n row d sl : (n <= length sl)%nat ->
  firstn n (starts n row d sl) = starts n row d (firstn n sl).
Proof.
  revert row sl; induction n as [|n IH]; intros row sl H; [reflexivity|].
  destruct sl as [|s sl]; [reflexivity|]. simpl. f_equal. apply IH. simpl in H; lia.
Qed.

Lemma set_start_start s v : s_start (set_start s v) = v.
Proof. reflexivity. Qed.

Lemma tiles_app a rs m rs' b : tiles a rs m -> tiles m rs' b -> tiles a (rs ++ rs') b.
Proof.
  intros H; revert b. induction H as [a|a m' rs m Hle Ht IH]; intros b H'; [exact H'|].
  simpl. constructor; [exact Hle|]. apply IH; exact H'.
Qed.

Lemma tiles_le a rs b : tiles a rs b -> a <= b.
Proof. induction 1; lia. Qed.

Lemma starts_tiles b n : 0 <= b -> forall row sl, (n <= length sl)%nat ->
  tiles row (map (fun s => (s_start s, s_start s + b)) (firstn n (starts n row b sl)))
        (row + Z.of_nat n * b).
Proof.
  intros Hb. induction n as [|n IH]; intros row sl H.
  - simpl. rewrite Z.add_0_r. constructor.
  - destruct sl as [|s sl]; simpl in H; [lia|]. cbn [starts firstn map].
    rewrite set_start_start. constructor; [lia|].
    specialize (IH (row + b) sl). replace (row + Z.of_nat (S n) * b) with (row + b + Z.of_nat n * b) by lia.
    apply IH; lia.
Qed.

Definition npix_of (o : obj) : Z := o_ncut o * (o_box o * o_box o).

Definition started (row : Z) (o : obj) : obj :=
  set_slots o (starts (Z.to_nat (o_ncut o)) row (o_box o * o_box o) (o_slots o)).

Fixpoint started_cat (row : Z) (cat : list obj) : list obj :=
  match cat with
  | [] => []
  | o :: cat' => started row o :: started_cat (row + npix_of o) cat'
  end.

Lemma start_rows_loop_eq cat : Forall (fun o => 0 <= o_ncut o <= zlen (o_slots o)) cat ->
  forall row npix,
  start_rows_loop cat row npix =
  Ok (started_cat row cat, row + fold_right Z.add 0 (map npix_of cat),
      npix + fold_right Z.add 0 (map npix_of cat)).
Proof.
  induction 1 as [|o cat Ho Hc IH]; intros row npix; cbn [start_rows_loop started_cat map fold_right].
  - rewrite !Z.add_0_r. reflexivity.
  - rewrite start_rows_obj_eq by exact Ho. cbn [bind]. rewrite IH. cbn [bind].
    unfold started, npix_of. rewrite !Z.add_assoc. reflexivity.
Qed.

Lemma fold_left_add l : forall a, fold_left Z.add l a = a + fold_right Z.add 0 l.
Proof. induction l as [|x l IH]; intros a; simpl; [lia|]. rewrite IH. lia. Qed.

Lemma zsum_eq l : zsum l = fold_right Z.add 0 l.
Proof. unfold zsum. rewrite fold_left_add. lia. Qed.

Lemma set_start_rows_eq cat : Forall (fun o => 0 <= o_ncut o <= zlen (o_slots o)) cat ->
  set_start_rows cat = Ok (started_cat 0 cat, zsum (map npix_of cat)).
Proof.
  intros H. unfold set_start_rows. rewrite start_rows_loop_eq by exact H. cbn [bind].
  assert (E : map (fun o => o_ncut o * o_box o ^ 2) cat = map npix_of cat).
  { apply map_ext. intros o. unfold npix_of. ring. }
  rewrite E, zsum_eq. rewrite Z.add_0_l, Z.eqb_refl. reflexivity.
Qed.

Lemma started_used row o : 0 <= o_ncut o <= zlen (o_slots o) ->
  used_slots (started row o) =
  firstn (Z.to_nat (o_ncut o)) (starts (Z.to_nat (o_ncut o)) row (o_box o * o_box o) (o_slots o)).
Proof. reflexivity. Qed.

Lemma started_cat_tiles cat : Forall (fun o => 0 <= o_ncut o <= zlen (o_slots o)) cat ->
  forall row, tiles row (cut_ranges (started_cat row cat)) (row + fold_right Z.add 0 (map npix_of cat)).
Proof.
  induction 1 as [|o cat Ho Hc IH]; intros row; cbn [started_cat cut_ranges flat_map map fold_right].
  - rewrite Z.add_0_r. constructor.
  - apply tiles_app with (m := row + npix_of o).
    + rewrite started_used by exact Ho. cbn [started o_box set_slots].
      replace (npix_of o) with (Z.of_nat (Z.to_nat (o_ncut o)) * (o_box o * o_box o))
        by (unfold npix_of; rewrite Z2Nat.id by lia; reflexivity).
      apply starts_tiles; [nia|]. unfold zlen in Ho. lia.
    + rewrite Z.add_assoc. apply IH.
Qed.

Lemma started_cat_length row cat : length (started_cat row cat) = length cat.
Proof. revert row; induction cat as [|o cat IH]; intros row; simpl; auto. Qed.

Lemma started_cat_nth cat : forall row i,
  nth_error (started_cat row cat) i =
  match nth_error cat i with
  | Some o => Some (started (row + fold_right Z.add 0 (map npix_of (firstn i cat))) o)
  | None => None
  end.
Proof.
  induction cat as [|o cat IH]; intros row [|i]; simpl; auto.
  - rewrite Z.add_0_r. reflexivity.
  - rewrite IH. destruct (nth_error cat i); [|reflexivity]. rewrite Z.add_assoc. reflexivity.
Qed.

(** Distinct members of a tiling do not overlap. *)
Lemma tiles_keys {K} (rng : K -> Z * Z) ks : forall a b, tiles a (map rng ks) b ->
  (forall k, In k ks -> a <= fst (rng k) /\ fst (rng k) <= snd (rng k) /\ snd (rng k) <= b) /\
  (forall k1 k2, In k1 ks -> In k2 ks ->
     k1 = k2 \/ snd (rng k1) <= fst (rng k2) \/ snd (rng k2) <= fst (rng k1)).
Proof.
  induction ks as [|k ks IH]; intros a b H; simpl in H.
  - split; intros; contradiction.
  - inversion H as [|a' m rs b' Hle Ht E1 E2 E3]; subst. rewrite <- E2 in *.
    destruct (IH _ _ Ht) as [I1 I2]. pose proof (tiles_le _ _ _ Ht).
    assert (Hm : forall k', In k' ks -> m <= fst (rng k')) by (intros k' Hk'; apply I1; exact Hk').
    split.
    + intros k' [->|Hk']; [rewrite <- E2; simpl; lia|]. specialize (I1 k' Hk'). lia.
    + intros k1 k2 [->|H1] [->|H2]; [left; reflexivity| | |apply I2; assumption].
      * right; left. rewrite <- E2; simpl. auto.
      * right; right. rewrite <- E2; simpl. auto.
Qed.

Lemma tiles_bound rs : forall a b, tiles a rs b -> forall j y, nth_error rs j = Some y ->
  a <= fst y /\ fst y <= snd y /\ snd y <= b.
Proof.
  induction rs as [|z l IHl]; intros a b H j y Hy; [destruct j; discriminate|].
  inversion H as [|a' m rs' b' Hle Ht E1 E2 E3]; subst.
  pose proof (tiles_le _ _ _ Ht). destruct j as [|j]; simpl in Hy.
  - inversion Hy; subst; simpl. lia.
  - destruct (IHl _ _ Ht _ _ Hy) as (I1 & I2 & I3). lia.
Qed.

(** In terms of positions in the list: earlier ranges end before later ones start. *)
Lemma tiles_order rs : forall a b, tiles a rs b -> forall i j x y, (i < j)%nat ->
  nth_error rs i = Some x -> nth_error rs j = Some y -> a <= fst x /\ snd x <= fst y /\ snd y <= b.
Proof.
  induction rs as [|r rs IH]; intros a b H i j x y Hij Hx Hy.
  - destruct i; discriminate.
  - inversion H as [|a' m rs' b' Hle Ht E1 E2 E3]; subst.
    destruct j as [|j]; [lia|]. destruct i as [|i]; simpl in Hx, Hy.
    + inversion Hx; subst; simpl. destruct (tiles_bound _ _ _ Ht _ _ Hy). lia.
    + destruct (IH _ _ Ht i j x y) as (I1 & I2 & I3); auto; [lia|]. lia.
Qed.
