(** The arrays of the tree are used within their bounds and hold the tree. *)
From Coq Require Import Permutation QArith Lia ZifyBool ZifyNat.
From Verif Require Import Base BoundsM Fast3tree FtMem SpecUberseg SpecFtMem.
From Verif Require Import BaseLemmas FtLemmas.
Open Scope Z_scope.

(** * Lists *)
Lemma zget_upd {A} (l : list A) k v m : 0 <= k < zlen l -> zget (upd l (Z.to_nat k) v) m = if m =? k then Some v else zget l m.
Proof.
  intros Hk. destruct (Z_lt_dec m 0).
  - replace (m =? k) with false by lia. unfold zget. destruct (m <? 0) eqn:?; [reflexivity|lia].
  - unfold zget. replace (m <? 0) with false by lia. unfold zlen in Hk.
    assert (HQ : (Z.to_nat k < length l)%nat) by lia. destruct (m =? k) eqn:EQ.
    + assert (m = k) by lia. subst m. revert HQ. generalize (Z.to_nat k). clear. induction l as [|a l IH]; intros [|k] HQ; cbn in *; try lia; [reflexivity|]. apply IH. lia.
    + assert (HNE : Z.to_nat m <> Z.to_nat k) by lia. revert HNE HQ. generalize (Z.to_nat m) (Z.to_nat k). clear.
      induction l as [|a l IH]; intros [|m] [|k] HNE HQ; cbn in *; try lia; try reflexivity. apply IH; lia.
Qed.

Lemma zlen_upd {A} (l : list A) k v : zlen (upd l k v) = zlen l.
Proof. unfold zlen. f_equal. revert k. induction l as [|a l IH]; intros [|k]; cbn; auto. Qed.

Lemma zget_firstn {A} (l : list A) n m : 0 <= n -> zget (firstn (Z.to_nat n) l) m = if m <? n then zget l m else None.
Proof.
  intros Hn. unfold zget. destruct (m <? 0) eqn:E; [destruct (m <? n); reflexivity|]. destruct (m <? n) eqn:E2.
  - assert (H : (Z.to_nat m < Z.to_nat n)%nat) by lia. revert H. generalize (Z.to_nat m) (Z.to_nat n). clear.
    induction l as [|a l IH]; intros [|m] [|n] H; cbn; try lia; try reflexivity. apply IH. lia.
  - apply nth_error_None. rewrite firstn_length. lia.
Qed.

Lemma zget_skipn {A} (l : list A) n m : 0 <= n -> 0 <= m -> zget (skipn (Z.to_nat n) l) m = zget l (n + m).
Proof.
  intros Hn Hm. unfold zget. replace (m <? 0) with false by lia. replace (n + m <? 0) with false by lia.
  replace (Z.to_nat (n + m)) with (Z.to_nat n + Z.to_nat m)%nat by lia. generalize (Z.to_nat n) (Z.to_nat m). clear.
  intros n. revert l. induction n as [|n IH]; intros l m; [reflexivity|]. destruct l as [|a l]; [destruct m; reflexivity|]. apply IH.
Qed.

Lemma zget_repeat {A} (x : A) n m y : zget (repeat x n) m = Some y -> y = x.
Proof. intros H. apply zget_In in H. apply repeat_spec in H. exact H. Qed.

Lemma zlen_firstn {A} (l : list A) n : 0 <= n <= zlen l -> zlen (firstn (Z.to_nat n) l) = n.
Proof. unfold zlen. intros H. rewrite firstn_length. lia. Qed.
Lemma zlen_skipn {A} (l : list A) n : 0 <= n <= zlen l -> zlen (skipn (Z.to_nat n) l) = zlen l - n.
Proof. unfold zlen. intros H. rewrite skipn_length. lia. Qed.

(** * Access *)
Lemma deref_ok m i n : zget (t_root m) i = Some n -> deref m (PAt (t_gen m) i) = Ok n.
Proof. intros H. cbn. rewrite Z.eqb_refl, H. reflexivity. Qed.

Lemma store_ok m i n n' : zget (t_root m) i = Some n ->
  store m (PAt (t_gen m) i) n' = Ok (mkT (t_points m) (t_gen m) (upd (t_root m) (Z.to_nat i) n') (t_num_nodes m) (t_alloc m)).
Proof. intros H. unfold store. rewrite (deref_ok _ _ _ H). reflexivity. Qed.

Lemma get_range_ok m off n : 0 <= off -> 0 <= n -> off + n <= zlen (t_points m) ->
  exists l, get_range m off n = Ok l /\ zlen l = n /\ forall k, 0 <= k < n -> zget l k = zget (t_points m) (off + k).
Proof.
  intros H1 H2 H3. unfold get_range. replace ((0 <=? off) && (0 <=? n) && (off + n <=? zlen (t_points m))) with true by lia.
  eexists. split; [reflexivity|]. split.
  - rewrite zlen_firstn; [lia|]. rewrite zlen_skipn; lia.
  - intros k Hk. rewrite zget_firstn by lia. replace (k <? n) with true by lia. apply zget_skipn; lia.
Qed.

Lemma get_range_inv m off n l : get_range m off n = Ok l -> 0 <= off /\ 0 <= n /\ off + n <= zlen (t_points m) /\ zlen l = n /\
  forall k, 0 <= k < n -> zget l k = zget (t_points m) (off + k).
Proof.
  intros H. assert (HC : (0 <=? off) && (0 <=? n) && (off + n <=? zlen (t_points m)) = true).
  { unfold get_range in H. destruct ((0 <=? off) && (0 <=? n) && (off + n <=? zlen (t_points m))); [reflexivity|discriminate]. }
  assert (H1 : 0 <= off) by lia. assert (H2 : 0 <= n) by lia. assert (H3 : off + n <= zlen (t_points m)) by lia.
  destruct (get_range_ok m off n H1 H2 H3) as (l' & E & L & G). assert (l' = l) by congruence. subst l'. auto.
Qed.

Lemma range_eq (l l' : list pt) : zlen l = zlen l' -> (forall k, 0 <= k < zlen l -> zget l k = zget l' k) -> l = l'.
Proof.
  apply list_zget_ext.
Qed.

Lemma put_range_zget m off l k : 0 <= off -> off + zlen l <= zlen (t_points m) ->
  zget (t_points (put_range m off l)) k = if (off <=? k) && (k <? off + zlen l) then zget l (k - off) else zget (t_points m) k.
Proof.
  intros H1 H2. cbn [put_range t_points]. pose proof (zlen_nonneg l). rewrite !zget_app. rewrite zlen_firstn by lia.
  destruct (k <? off) eqn:E.
  - replace ((off <=? k) && (k <? off + zlen l)) with false by lia. rewrite zget_firstn by lia. rewrite E. reflexivity.
  - destruct (k - off <? zlen l) eqn:E2.
    + replace ((off <=? k) && (k <? off + zlen l)) with true by lia. reflexivity.
    + replace ((off <=? k) && (k <? off + zlen l)) with false by lia.
      replace (Z.to_nat off + length l)%nat with (Z.to_nat (off + zlen l)) by (unfold zlen; lia). rewrite zget_skipn by lia. f_equal. lia.
Qed.

Lemma put_range_zlen m off l : 0 <= off -> off + zlen l <= zlen (t_points m) -> zlen (t_points (put_range m off l)) = zlen (t_points m).
Proof.
  intros H1 H2. pose proof (zlen_nonneg l). cbn [put_range t_points]. rewrite !zlen_app, zlen_firstn by lia.
  replace (Z.to_nat off + length l)%nat with (Z.to_nat (off + zlen l)) by (unfold zlen; lia). rewrite zlen_skipn by lia. lia.
Qed.

(** * The invariant *)
Definition offs (n : mnode) : Prop := exists a b c, n_left n = POff a /\ n_right n = POff b /\ n_parent n = POff c.

Definition mem_ok (m : mtree) : Prop :=
  zlen (t_root m) = t_alloc m /\ 1 <= t_num_nodes m <= t_alloc m /\
  forall j n, j < t_num_nodes m -> zget (t_root m) j = Some n -> offs n.

Lemma node_at m j : mem_ok m -> 0 <= j < t_num_nodes m -> exists n, zget (t_root m) j = Some n.
Proof. intros (H1 & H2 & _) Hj. apply zget_range_Some. lia. Qed.

Lemma held_frame nodes nodes' points points' mk i off t ix : held nodes points mk i off t ix ->
  (forall j, In j ix -> zget nodes' j = zget nodes j) ->
  (forall k, off <= k < off + zlen (tpts t) -> zget points' k = zget points k) -> held nodes' points' mk i off t ix.
Proof.
  intros H. induction H as [i off nd b pts H1 H2 H3 H4 H5 H6 H7|i off nd b d l r li ri il ir H1 H2 H3 H4 H5 H6 H7 H8 H9 Hl IHl Hr IHr]; intros HN HP.
  - eapply H_leaf; eauto.
    + rewrite HN by (left; reflexivity). exact H1.
    + intros k Hk. cbn [tpts] in HP. rewrite HP by lia. apply H7. exact Hk.
  - assert (HDl : exists tl, il = li :: tl) by (inversion Hl; eexists; reflexivity).
    assert (HDr : exists tr, ir = ri :: tr) by (inversion Hr; eexists; reflexivity).
    cbn [tpts] in HP. rewrite zlen_app in HP. pose proof (zlen_nonneg (tpts l)). pose proof (zlen_nonneg (tpts r)).
    assert (Nl : forall j, In j il -> zget nodes' j = zget nodes j) by (intros; apply HN; right; apply in_app_iff; auto).
    assert (Nr : forall j, In j ir -> zget nodes' j = zget nodes j) by (intros; apply HN; right; apply in_app_iff; auto).
    eapply H_node with (nd := nd); eauto.
    + rewrite HN by (left; reflexivity). exact H1.
    + destruct H8 as (nl & A & B). exists nl. rewrite Nl by (destruct HDl as (tl & ->); left; reflexivity). auto.
    + destruct H9 as (nr & A & B). exists nr. rewrite Nr by (destruct HDr as (tr & ->); left; reflexivity). auto.
    + apply IHl; [exact Nl|]. intros k Hk. apply HP. lia.
    + apply IHr; [exact Nr|]. intros k Hk. apply HP. lia.
Qed.

Lemma held_head nodes points mk i off t ix : held nodes points mk i off t ix -> exists tl, ix = i :: tl.
Proof. intros H. inversion H; eexists; reflexivity. Qed.
