(** Searching the tree in memory: the buffer of results. *)
From Coq Require Import Permutation QArith Lia ZifyBool ZifyNat.
From Verif Require Import Base BoundsM Fast3tree FtMem SpecUberseg SpecFtMem.
From Verif Require Import BaseLemmas FtLemmas FtMemLemmas FtMemLemmas2 FtMemLemmas3.
Open Scope Z_scope.

Notation buf_ok := fits.

(** What the results hold. *)
Notation answer := found.

Lemma answer_ext r r' os : buf_ok r -> buf_ok r' -> r_num r' = r_num r + zlen os ->
  (forall k, 0 <= k < r_num r -> zget (r_buf r') k = zget (r_buf r) k) ->
  (forall k, 0 <= k < zlen os -> zget (r_buf r') (r_num r + k) = zget os k) -> answer r' = answer r ++ os.
Proof.
  intros (B1 & B2) (B1' & B2') HN H1 H2. unfold answer. pose proof (zlen_nonneg os) as HO. apply list_zget_ext.
  - rewrite zlen_app, !zlen_firstn by lia. lia.
  - intros k Hk. rewrite zlen_firstn in Hk by lia. rewrite zget_firstn by lia. replace (k <? r_num r') with true by lia.
    rewrite zget_app, zlen_firstn by lia. destruct (k <? r_num r) eqn:E.
    + rewrite zget_firstn by lia. rewrite E. apply H1. lia.
    + rewrite <- H2 by lia. f_equal. lia.
Qed.

Section Search.
Variable junk : Z.

Lemma space_ok n r : buf_ok r -> 0 <= n_num n -> let r' := check_results_space junk n r in
  buf_ok r' /\ r_num r' = r_num r /\ r_num r' + n_num n <= r_alloc r' /\ answer r' = answer r.
Proof.
  intros (B1 & B2) Hn. unfold check_results_space. destruct (r_alloc r <? r_num r + n_num n) eqn:E; cbv zeta.
  - cbn [r_num r_alloc r_buf]. pose proof (zlen_nonneg (r_buf r)).
    assert (HF : firstn (Z.to_nat (r_num r + n_num n + 1000)) (r_buf r) = r_buf r) by (apply firstn_all2; unfold zlen in *; lia).
    rewrite HF. split; [|split; [reflexivity|split; [lia|]]].
    + split; cbn [r_num r_alloc r_buf]; [|lia]. rewrite zlen_app. unfold zlen at 2. rewrite repeat_length. unfold zlen in *. lia.
    + unfold answer. cbn [r_num r_buf]. rewrite firstn_app. replace (Z.to_nat (r_num r) - length (r_buf r))%nat with O by (unfold zlen in *; lia).
      cbn [firstn]. apply app_nil_r.
  - split; [split; assumption|]. split; [reflexivity|]. split; [lia|reflexivity].
Qed.

Lemma put_result_ok r k x : 0 <= k < zlen (r_buf r) -> put_result r k x = Ok (mkR (r_num r) (r_alloc r) (upd (r_buf r) (Z.to_nat k) x)).
Proof. intros H. unfold put_result. replace ((0 <=? k) && (k <? zlen (r_buf r))) with true by lia. reflexivity. Qed.

Lemma put_all_ok n r : buf_ok r -> 0 <= n_num n -> r_num r + n_num n <= r_alloc r ->
  exists r', put_all n r = Ok r' /\ buf_ok r' /\ answer r' = answer r ++ places (n_points n) (n_num n).
Proof.
  intros B Hn HS. pose proof B as (B1 & B2). unfold put_all.
  destruct (foldM_zrange (fun j r' => r_num r' = r_num r /\ r_alloc r' = r_alloc r /\ zlen (r_buf r') = r_alloc r /\
     (forall k, 0 <= k < r_num r -> zget (r_buf r') k = zget (r_buf r) k) /\ (forall k, 0 <= k < j -> zget (r_buf r') (r_num r + k) = Some (n_points n + k)))
     (fun r i => put_result r (r_num r + i) (n_points n + i)) (n_num n) r Hn) as (r' & E & A1 & A2 & A3 & A4 & A5).
  - repeat split; auto. intros k Hk. lia.
  - intros j r1 Hj (A1 & A2 & A3 & A4 & A5). rewrite put_result_ok by lia. eexists. split; [reflexivity|]. cbn [r_num r_alloc r_buf]. rewrite zlen_upd.
    split; [exact A1|]. split; [exact A2|]. split; [exact A3|]. split.
    + intros k Hk. rewrite zget_upd by lia. replace (k =? r_num r1 + j) with false by lia. apply A4. exact Hk.
    + intros k Hk. rewrite zget_upd by lia. destruct (r_num r + k =? r_num r1 + j) eqn:Ek; [f_equal; lia|]. apply A5. lia.
  - rewrite E. cbn [bind]. eexists. split; [reflexivity|]. assert (BO : buf_ok (mkR (r_num r' + n_num n) (r_alloc r') (r_buf r'))) by (split; cbn [r_num r_alloc r_buf]; lia).
    split; [exact BO|]. assert (LP : zlen (places (n_points n) (n_num n)) = n_num n) by (unfold places; rewrite zlen_map, zlen_zrange; lia). apply answer_ext; try assumption; cbn [r_num r_buf].
    + rewrite LP. lia.
    + intros k Hk. rewrite LP in Hk. rewrite A5 by lia. unfold places. rewrite zget_map, zget_zrange by lia. reflexivity.
Qed.

Lemma put_near_ok m n c r2 r pts : buf_ok r -> n_num n = zlen pts -> r_num r + n_num n <= r_alloc r -> 
  (forall k, 0 <= k < zlen pts -> zget (t_points m) (n_points n + k) = zget pts k) ->
  exists r' os, put_near m n c r2 r = Ok r' /\ buf_ok r' /\ answer r' = answer r ++ os /\
    Forall2 (fun o p => zget (t_points m) o = Some p) os (filter (fun p => qltb (pdist c p) r2) pts) /\ NoDup os /\
    forall o, In o os -> n_points n <= o < n_points n + n_num n.
Proof.
  intros B HN HS HP. pose proof B as (B1 & B2). unfold put_near. pose proof (zlen_nonneg pts) as HZ.
  destruct (foldM_zrange (fun j r' => exists os, buf_ok r' /\ r_alloc r' = r_alloc r /\ r_num r' <= r_num r + j /\ answer r' = answer r ++ os /\
      Forall2 (fun o p => zget (t_points m) o = Some p) os (filter (fun p => qltb (pdist c p) r2) (firstn (Z.to_nat j) pts)) /\ NoDup os /\
      forall o, In o os -> n_points n <= o < n_points n + j)
     (fun r i => match zget (t_points m) (n_points n + i) with
      | None => Err IndexError
      | Some p => if qltb (pdist c p) r2 then let* r := put_result r (r_num r) (n_points n + i) in Ok (mkR (r_num r + 1) (r_alloc r) (r_buf r)) else Ok r
      end) (n_num n) r ltac:(lia)) as (r' & E & os & A1 & A2 & A3 & A4 & A5 & A6 & A7).
  - exists []. split; [exact B|]. split; [reflexivity|]. split; [lia|]. split; [rewrite app_nil_r; reflexivity|]. split; [constructor|]. split; [constructor|]. intros o [].
  - intros j r1 Hj (os & A1 & A2 & A3 & A4 & A5 & A6 & A7). destruct (zget_range_Some pts j ltac:(lia)) as (p & Ep).
    assert (EP : zget (t_points m) (n_points n + j) = Some p) by (rewrite HP by lia; exact Ep). rewrite EP.
    assert (FS : firstn (Z.to_nat (j + 1)) pts = firstn (Z.to_nat j) pts ++ [p]).
    { apply list_zget_ext; rewrite ?zlen_app, ?zlen_firstn by lia; [unfold zlen; cbn; lia|]. intros k Hk. rewrite zget_app, zlen_firstn by lia. rewrite !zget_firstn by lia.
      replace (k <? j + 1) with true by lia. destruct (k <? j) eqn:Ek; [reflexivity|]. replace k with j by lia. rewrite Ep, Z.sub_diag. reflexivity. }
    rewrite FS, filter_app. cbn [filter]. destruct (qltb (pdist c p) r2) eqn:EQ.
    + pose proof A1 as (C1 & C2). rewrite put_result_ok by lia. cbn [bind]. eexists. split; [reflexivity|]. exists (os ++ [n_points n + j]).
      set (r3 := mkR (r_num r1 + 1) (r_alloc r1) (upd (r_buf r1) (Z.to_nat (r_num r1)) (n_points n + j))). cbn [r_num r_alloc r_buf]. fold r3.
      assert (B3 : buf_ok r3) by (split; cbn [r3 r_buf r_alloc r_num]; rewrite ?zlen_upd; lia).
      split; [exact B3|]. split; [exact A2|]. split; [cbn [r3 r_num]; lia|]. split; [|split; [|split]].
      * rewrite app_assoc, <- A4. apply answer_ext; try assumption; try reflexivity.
        -- intros k Hk. cbn [r3 r_buf]. rewrite zget_upd by lia. replace (k =? r_num r1) with false by lia. reflexivity.
        -- intros k Hk. change (zlen [n_points n + j]) with 1 in Hk. assert (k = 0) by lia. subst k. cbn [r3 r_buf]. rewrite Z.add_0_r, zget_upd by lia. rewrite Z.eqb_refl. reflexivity.
      * apply Forall2_app; [exact A5|]. repeat constructor. exact EP.
      * apply (Permutation_NoDup (l := n_points n + j :: os)); [apply Permutation_cons_append|]. constructor; [|exact A6]. intros C. apply A7 in C. lia.
      * intros o Ho. apply in_app_iff in Ho. destruct Ho as [Ho|[<-|[]]]; [apply A7 in Ho|]; lia.
    + exists r1. split; [reflexivity|]. exists os. rewrite app_nil_r. split; [exact A1|]. split; [exact A2|]. split; [lia|]. split; [exact A4|]. split; [exact A5|]. split; [exact A6|].
      intros o Ho. apply A7 in Ho. lia.
  - exists r', os. rewrite firstn_all2 in A5 by (unfold zlen in *; lia). auto 10.
Qed.

Lemma Forall2_places (l points : list pt) off : 0 <= zlen l -> (forall k, 0 <= k < zlen l -> zget points (off + k) = zget l k) ->
  Forall2 (fun o p => zget points o = Some p) (places off (zlen l)) l.
Proof.
  intros _. revert off. induction l as [|p l IH]; intros off H; [constructor|]. rewrite zlen_cons. pose proof (zlen_nonneg l). rewrite zlen_cons in H.
  replace (zlen l + 1) with (1 + zlen l) by lia. rewrite places_app, places_1 by lia. cbn [app]. constructor.
  - specialize (H 0 ltac:(lia)). rewrite Z.add_0_r in H. rewrite H. reflexivity.
  - apply IH. intros k Hk. specialize (H (k + 1) ltac:(lia)). replace (off + 1 + k) with (off + (k + 1)) by lia. rewrite H.
    unfold zget. replace (k + 1 <? 0) with false by lia. replace (k <? 0) with false by lia. replace (Z.to_nat (k + 1)) with (S (Z.to_nat k)) by lia. reflexivity.
Qed.

Lemma places_NoDup a n : NoDup (places a n).
Proof. unfold places. apply FinFun.Injective_map_NoDup; [intros x y; lia|apply zrange_NoDup]. Qed.

Lemma sphere_mem_ok m c r2 i off t ix : held (t_root m) (t_points m) (PAt (t_gen m)) i off t ix ->
  forall fuel r, (length ix <= fuel)%nat -> buf_ok r ->
  exists r' os, sphere_mem junk fuel m (PAt (t_gen m) i) c r2 r = Ok r' /\ buf_ok r' /\ answer r' = answer r ++ os /\
    Forall2 (fun o p => zget (t_points m) o = Some p) os (find_sphere t c r2) /\ NoDup os /\ forall o, In o os -> off <= o < off + zlen (tpts t).
Proof.
  intros H. induction H as [i off nd b pts H1 H2 H3 H4 H5 H6 H7|i off nd b d l r li ri il ir H1 H2 H3 H4 H5 H6 H7 H8 H9 Hl IHl Hr IHr];
    intros fuel q Hf B; (destruct fuel as [|fuel]; [cbn [length] in Hf; lia|]); cbn [sphere_mem find_sphere tbox]; rewrite (deref_ok _ _ _ H1); cbn [bind]; rewrite H3.
  - pose proof (zlen_nonneg pts) as HZ. destruct (box_not_intersect_sphere b c r2).
    { exists q, []. rewrite app_nil_r. repeat (split; [auto; constructor|]). intros o []. }
    destruct (space_ok nd q B ltac:(lia)) as (S1 & S2 & S3 & S4). destruct (box_inside_sphere b c r2).
    + destruct (put_all_ok nd _ S1 ltac:(lia) S3) as (r' & E & B' & A). rewrite E. exists r', (places (n_points nd) (n_num nd)). rewrite S4 in A. rewrite H4, H5 in *. cbn [tpts].
      split; [reflexivity|]. split; [exact B'|]. split; [exact A|]. split; [apply Forall2_places; auto|]. split; [apply places_NoDup|]. intros o Ho. apply In_places in Ho. exact Ho.
    + rewrite H2. destruct (put_near_ok m nd c r2 _ pts S1 H5 S3) as (r' & os & E & B' & A1 & A2 & A3 & A4).
      { intros k Hk. rewrite H4. apply H7. exact Hk. }
      exists r', os. rewrite S4 in A1. rewrite H4, H5 in A4. auto 10.
  - pose proof (zlen_nonneg (tpts l)) as HZ1. pose proof (zlen_nonneg (tpts r)) as HZ2. destruct (box_not_intersect_sphere b c r2).
    { exists q, []. rewrite app_nil_r. repeat (split; [auto; constructor|]). intros o []. }
    destruct (box_inside_sphere b c r2).
    + destruct (space_ok nd q B ltac:(lia)) as (S1 & S2 & S3 & S4). destruct (put_all_ok nd _ S1 ltac:(lia) S3) as (r' & E & B' & A). rewrite E. exists r', (places (n_points nd) (n_num nd)). rewrite S4 in A. rewrite H4, H5 in *.
      cbn [tpts]. rewrite zlen_app.
      split; [reflexivity|]. split; [exact B'|]. split; [exact A|]. split; [|split; [apply places_NoDup|intros o Ho; apply In_places in Ho; exact Ho]].
      rewrite <- zlen_app. apply Forall2_places; [apply zlen_nonneg|]. intros k Hk.
      destruct (held_points _ _ _ _ _ _ _ Hl) as (_ & PL). destruct (held_points _ _ _ _ _ _ _ Hr) as (_ & PR). rewrite zlen_app in Hk. rewrite zget_app.
      destruct (k <? zlen (tpts l)) eqn:Ek; [apply PL; lia|]. rewrite <- PR by lia. f_equal. lia.
    + rewrite H2, H6, H7. cbn [length] in Hf. rewrite app_length in Hf.
      destruct (IHl fuel q ltac:(lia) B) as (r1 & o1 & E1 & B1 & A1 & F1 & N1 & I1). rewrite E1. cbn [bind].
      destruct (IHr fuel r1 ltac:(lia) B1) as (r3 & o2 & E2 & B2 & A2 & F2 & N2 & I2). rewrite E2. exists r3, (o1 ++ o2).
      split; [reflexivity|]. split; [exact B2|]. split; [rewrite A2, A1, app_assoc; reflexivity|]. split; [apply Forall2_app; assumption|]. split.
      * clear -N1 N2 I1 I2. induction o1 as [|x o1 IH]; [exact N2|]. cbn [app]. inversion N1; subst. constructor.
        -- rewrite in_app_iff. intros [C|C]; [contradiction|]. apply I2 in C. specialize (I1 x (or_introl eq_refl)). lia.
        -- apply IH; [assumption|]. intros o Ho. apply I1. right. exact Ho.
      * cbn [tpts]. rewrite zlen_app. intros o Ho. apply in_app_iff in Ho. destruct Ho as [Ho|Ho]; [apply I1 in Ho|apply I2 in Ho]; lia.
Qed.

Theorem find_sphere_mem_ok m t ix r c r2 : held (t_root m) (t_points m) (PAt (t_gen m)) 0 0 t ix -> Permutation ix (zrange (t_num_nodes m)) ->
  zlen (r_buf r) = r_alloc r ->
  exists r', find_sphere_mem junk m r c r2 = Ok r' /\ buf_ok r' /\ NoDup (answer r') /\
    Forall2 (fun o p => zget (t_points m) o = Some p) (answer r') (find_sphere t c r2).
Proof.
  intros H HP HR. unfold find_sphere_mem. pose proof (zlen_nonneg (r_buf r)).
  destruct (sphere_mem_ok m c r2 0 0 t ix H (Z.to_nat (t_num_nodes m)) (mkR 0 (r_alloc r) (r_buf r))) as (r' & os & E & B & A & F & N & _).
  - rewrite (Permutation_length HP), zrange_length. lia.
  - split; cbn; lia.
  - unfold answer at 2 in A. cbn [r_num r_buf firstn app Z.to_nat] in A. exists r'. rewrite A. auto.
Qed.
End Search.
