(** Lemmas on the accessors that return lists. *)
From Coq Require Import Lia ZifyBool ZifyNat.
From Verif Require Import Base BaseLemmas Img Types Reader ReadLemmas Composite Uberseg SpecTiles SpecFile SpecExtract SpecLists.
Open Scope Z_scope.

Lemma listed_from {A} (one : Z -> res A) n : forall a,
  match mapM one (map (fun i => a + Z.of_nat i) (seq 0 n)) with
  | Ok l => length l = n /\ forall k, (k < n)%nat -> exists x, one (a + Z.of_nat k) = Ok x /\ nth_error l k = Some x
  | Err e => exists k, (k < n)%nat /\ one (a + Z.of_nat k) = Err e /\ forall j, (j < k)%nat -> exists x, one (a + Z.of_nat j) = Ok x
  end.
Proof.
  induction n as [|n IH]; intros a; [cbn; split; [reflexivity|intros; lia]|].
  cbn [seq map mapM]. rewrite <- seq_shift, map_map. destruct (one (a + Z.of_nat 0)) as [x|e] eqn:E0; cbn [bind].
  - specialize (IH (a + 1)). erewrite map_ext in IH; [|intros i; instantiate (1 := fun i => a + Z.of_nat (S i)); cbv beta; lia].
    destruct (mapM one _) as [l|e]; cbn [bind].
    + destruct IH as (L & H). split; [cbn; lia|]. intros [|k] K; [exists x; auto|]. destruct (H k) as (y & Y1 & Y2); [lia|]. exists y. cbn [nth_error]. split; [|exact Y2].
      replace (a + Z.of_nat (S k)) with (a + 1 + Z.of_nat k) by lia. exact Y1.
    + destruct IH as (k & K & H1 & H2). exists (S k). split; [lia|]. split; [replace (a + Z.of_nat (S k)) with (a + 1 + Z.of_nat k) by lia; exact H1|].
      intros [|j] J; [eauto|]. destruct (H2 j) as (y & Y); [lia|]. exists y. replace (a + Z.of_nat (S j)) with (a + 1 + Z.of_nat j) by lia. exact Y.
  - exists 0%nat. split; [lia|]. split; [exact E0|]. intros j J. lia.
Qed.
Lemma listed_mapM {A} n (one : Z -> res A) : 0 <= n -> listed n one (mapM one (zrange n)).
Proof.
  intros N. pose proof (listed_from one (Z.to_nat n) 0) as H. unfold listed, zrange.
  erewrite map_ext in H; [|intros i; instantiate (1 := Z.of_nat); cbv beta; lia].
  destruct (mapM one _) as [l|e].
  - destruct H as (L & H). split; [unfold zlen; lia|]. intros k K. destruct (H (Z.to_nat k)) as (x & X1 & X2); [lia|]. exists x.
    replace (0 + Z.of_nat (Z.to_nat k)) with k in X1 by lia. split; [exact X1|]. unfold zget. destruct (k <? 0) eqn:E; [lia|exact X2].
  - destruct H as (k & K & H1 & H2). exists (Z.of_nat k). split; [lia|]. split; [exact H1|]. intros j J. destruct (H2 (Z.to_nat j)) as (x & X); [lia|]. exists x.
    replace j with (0 + Z.of_nat (Z.to_nat j)) by lia. exact X.
Qed.

Lemma py_in f i (o : obj) : zget (m_cat f) i = Some o -> py_index (m_cat f) i = Ok o.
Proof. intros Z. pose proof (zget_Some_range _ _ _ Z). rewrite py_index_nonneg, Z by lia. reflexivity. Qed.

Lemma psf_lists f i o : zget (m_cat f) i = Some o -> 0 <= o_ncut o ->
  listed (o_ncut o) (get_psf f i) (get_psf_list f i) /\ listed (o_ncut o) (get_psf f i) (get_cutout_list_any f i RPsf).
Proof. intros Z N. unfold get_cutout_list_any, get_psf_list. rewrite (py_in f i o Z). cbn [bind]. split; apply (listed_mapM _ (get_psf f i)); exact N. Qed.
Lemma jacobian_lists f i o : zget (m_cat f) i = Some o -> 0 < o_ncut o -> listed (o_ncut o) (get_jacobian f i) (get_jacobian_list f i).
Proof.
  intros Z N. unfold get_jacobian_list, check_indices. pose proof (zget_Some_range _ _ _ Z). rewrite (py_in f i o Z). cbn [bind].
  replace (zlen (m_cat f) <=? i) with false by lia. replace (o_ncut o =? 0) with false by lia. cbn [bind]. apply (listed_mapM _ (get_jacobian f i)). lia.
Qed.
Lemma uberseg_lists fuel f i o fast : zget (m_cat f) i = Some o -> 0 <= o_ncut o ->
  listed (o_ncut o) (fun k => get_uberseg fuel f i k fast) (get_uberseg_list fuel f i fast).
Proof. intros Z N. unfold get_uberseg_list. rewrite (py_in f i o Z). cbn [bind]. apply (listed_mapM _ (fun k => get_uberseg fuel f i k fast)). exact N. Qed.
Lemma cutout_lists f i o t : file_wf f -> has_ext f t -> zget (m_cat f) i = Some o -> 0 < o_ncut o ->
  listed (o_ncut o) (fun k => get_cutout f i k t) (get_cutout_list_any f i (RCut t)).
Proof.
  intros W (m & E) Z N. unfold get_cutout_list_any. destruct (mosaic_blocks f i o t m W Z N E) as (mos & l & _ & _ & _ & _ & -> & L & H).
  split; [exact L|]. intros k K. destruct (H k K) as (im & A & B & _). eauto.
Qed.

Lemma numbers f i o : zget (m_cat f) i = Some o ->
  (m_number_col f = true -> get_number f i = Ok (o_number o) /\ number_col f i = Ok (o_number o)) /\
  (m_number_col f = false -> get_number f i = Ok (i + 1) /\ number_col f i = Err ValueError).
Proof. intros Z. unfold get_number, number_col. split; intros ->; [rewrite (py_in f i o Z)|]; split; reflexivity. Qed.

Lemma bind_err {A B} (x : res A) (e : err) : (let* _ := x in Err e) = Err e :> res B \/ exists e', x = Err e'.
Proof. destruct x; [left; reflexivity|right; eauto]. Qed.
Lemma no_number f i k : m_number_col f = false -> forall im,
  (forall canonical, get_cseg_weight f i k canonical <> Ok im) /\
  (forall fuel fast, get_uberseg fuel f i k fast = Ok im -> get_cweight_cutout f i k false = Ok im).
Proof.
  intros N im. split.
  - intros ca H. unfold get_cseg_weight in H. destruct (get_cutout f i k TSeg); [|discriminate]. cbn [bind] in H. destruct (get_cutout f i k TWeight); [|discriminate]. cbn [bind] in H.
    unfold number_col in H. rewrite N in H. discriminate.
  - intros fuel fast H. unfold get_uberseg in H. destruct (get_cweight_cutout f i k false) as [w|]; [|discriminate]. cbn [bind] in H.
    destruct (interpolate_coadd_seg f i k) as [s|]; [|discriminate]. cbn [bind] in H. destruct (zlen (quniq (dat s)) =? 2); [exact H|].
    unfold number_col in H. rewrite N in H. discriminate.
Qed.
