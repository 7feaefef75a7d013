(** The in-place mosaic accessors agree with the single-cutout ones. *)
From Coq Require Import Lia ZifyBool ZifyNat Qabs Lqa.
From Verif Require Import Base BaseLemmas Img ImgLemmas Types Reader BoundsM MakerLayout Composite
  SpecTiles SpecFile SpecComposite ReadLemmas CompositeLemmas.
Open Scope Z_scope.
Ltac Zify.zify_post_hook ::= Z.div_mod_to_equations.

Definition block {A} (m : img A) (b k : Z) : res (img A) := sub2d m (k * b) ((k + 1) * b) 0 b.

Section InPlace.
Context (b n : Z) (Hb : 0 < b) (Hn : 0 <= n).

Definition stacked {A} (m : img A) : Prop := img_ok m /\ nr m = n * b /\ nc m = b.
Definition square {A} (m : img A) : Prop := img_ok m /\ nr m = b /\ nc m = b.

Lemma bounds_k k : 0 <= k < n -> np_bound (n * b) (k * b) = k * b /\ np_bound (n * b) ((k + 1) * b) = (k + 1) * b /\
  np_bound b 0 = 0 /\ np_bound b b = b.
Proof.
  intros Hk. assert (0 <= k * b) by nia. assert ((k + 1) * b <= n * b) by nia. assert (k * b <= (k + 1) * b) by nia.
  unfold np_bound. repeat split.
  - dif E; lia.
  - dif E; lia.
  - dif E; lia.
  - dif E; lia.
Qed.

Lemma block_ok {A} (m : img A) k : stacked m -> 0 <= k < n ->
  exists im, block m b k = Ok im /\ square im /\
    forall r c, 0 <= r < b -> 0 <= c < b -> px im r c = px m (k * b + r) c.
Proof.
  intros (M1 & M2 & M3) Hk. unfold block, sub2d. rewrite M2, M3.
  destruct (bounds_k k Hk) as (B1 & B2 & B3 & B4). rewrite B1, B2, B3, B4.
  replace (Z.max 0 ((k + 1) * b - k * b)) with b by lia. replace (Z.max 0 (b - 0)) with b by lia.
  destruct (tab2M_exists b b (fun i j => px_res m (k * b + i) (0 + j))) as (im & E); [lia|lia| |].
  { intros r c Hr Hc. destruct (px_in m (k * b + r) (0 + c)) as (a & Ha); [exact M1|rewrite M2; nia|lia|].
    exists a. apply px_res_ok. exact Ha. }
  exists im. split; [exact E|]. apply tab2M_ok in E; [|lia|lia]. destruct E as (E1 & E2 & E3 & E4).
  split; [repeat split; assumption || apply E1|]. intros r c Hr Hc. destruct (E4 r c Hr Hc) as (a & Ha & Hp).
  apply px_res_ok in Ha. rewrite Hp, <- Ha. f_equal. 
Qed.

Lemma paste_ok {A} (m c : img A) k : stacked m -> square c -> 0 <= k < n ->
  exists m', paste m (k * b) ((k + 1) * b) 0 b c = Ok m' /\ stacked m' /\
    block m' b k = Ok c /\ forall k', 0 <= k' < n -> k' <> k -> block m' b k' = block m b k'.
Proof.
  intros HM (C1 & C2 & C3) Hk. pose proof HM as (M1 & M2 & M3). unfold paste. rewrite M2, M3.
  destruct (bounds_k k Hk) as (B1 & B2 & B3 & B4). rewrite B1, B2, B3, B4.
  replace (Z.max 0 ((k + 1) * b - k * b)) with b by lia. replace (Z.max 0 (b - 0)) with b by lia.
  rewrite C2, C3, Z.eqb_refl. cbn [andb].
  match goal with |- context [tab2M _ _ ?g] => set (G := g) end.
  assert (HG : forall r cc, 0 <= r < n * b -> 0 <= cc < b ->
     exists a, G r cc = Ok a /\
       (if (k * b <=? r) && (r <? (k + 1) * b) then px c (r - k * b) cc = Some a else px m r cc = Some a)).
  { intros r cc Hr Hc. unfold G.
    destruct ((k * b <=? r) && (r <? (k + 1) * b)) eqn:E.
    - replace (0 <=? cc) with true by lia. replace (cc <? b) with true by lia. cbn [andb].
      destruct (px_in c (r - k * b) (cc - 0)) as (a & Ha); [exact C1|lia|lia|].
      exists a. split; [apply px_res_ok; exact Ha|]. rewrite <- Ha. f_equal. lia.
    - cbn [andb]. destruct (px_in m r cc) as (a & Ha); [exact M1|lia|lia|].
      exists a. split; [apply px_res_ok; exact Ha|exact Ha]. }
  destruct (tab2M_exists (n * b) b G) as (m' & E); [nia|lia| |].
  { intros r cc Hr Hc. destruct (HG r cc Hr Hc) as (a & Ha & _). exists a; exact Ha. }
  exists m'. split; [exact E|]. apply tab2M_ok in E; [|nia|lia]. destruct E as (E1 & E2 & E3 & E4).
  assert (HM' : stacked m') by (repeat split; assumption || apply E1). split; [exact HM'|].
  assert (HP : forall r cc, 0 <= r < n * b -> 0 <= cc < b ->
    px m' r cc = if (k * b <=? r) && (r <? (k + 1) * b) then px c (r - k * b) cc else px m r cc).
  { intros r cc Hr Hc. destruct (E4 r cc Hr Hc) as (a & Ha & Hp). destruct (HG r cc Hr Hc) as (a' & Ha' & HH).
    rewrite Ha in Ha'. inversion Ha'; subst a'. rewrite Hp. dif E; symmetry; exact HH. }
  split.
  - destruct (block_ok m' k HM' Hk) as (im & I1 & (S1 & S2 & S3) & I3). rewrite I1. f_equal.
    apply img_ext; try assumption; try lia. rewrite S2, S3. intros r cc Hr Hc.
    rewrite I3 by assumption. rewrite HP by nia. dif E; [|nia]. f_equal. lia.
  - intros k' Hk' Hne. destruct (block_ok m' k' HM' Hk') as (im & I1 & (S1 & S2 & S3) & I3).
    destruct (block_ok m k' HM Hk') as (im2 & J1 & (T1 & T2 & T3) & J3). rewrite I1, J1. f_equal.
    apply img_ext; try assumption; try lia. rewrite S2, S3. intros r cc Hr Hc.
    rewrite I3, J3 by assumption. rewrite HP by nia. dif E; [exfalso; nia|reflexivity].
Qed.

Context (g : Z -> img Q -> res (img Q)).
Hypothesis Hg : forall k im im', square im -> g k im = Ok im' -> square im'.

Definition istep (m : img Q) (k : Z) : res (img Q) :=
  let* wt := sub2d m (k * b) ((k + 1) * b) 0 b in
  let* cwt := g k wt in paste m (k * b) ((k + 1) * b) 0 b cwt.

Lemma inplace_fold ks : forall m, NoDup ks -> (forall k, In k ks -> 0 <= k < n) -> stacked m ->
  match mapM (fun k => let* im := block m b k in g k im) ks with
  | Err e => foldM istep ks m = Err e
  | Ok l => exists m', foldM istep ks m = Ok m' /\ stacked m' /\ mapM (block m' b) ks = Ok l /\
              forall k, 0 <= k < n -> ~ In k ks -> block m' b k = block m b k
  end.
Proof.
  induction ks as [|k ks IH]; intros m Hnd Hr Hm; cbn [mapM foldM].
  - exists m. repeat split; try apply Hm. 
  - inversion Hnd as [|? ? Hnot Hnd']; subst.
    assert (Hk : 0 <= k < n) by (apply Hr; left; reflexivity).
    destruct (block_ok m k Hm Hk) as (im & E1 & Hsq & _).
    rewrite E1. unfold block in E1. cbn [bind].
    destruct (g k im) as [c|e] eqn:Eg; cbn [bind]; [|unfold istep at 1; rewrite E1; cbn [bind]; rewrite Eg; reflexivity].
    destruct (paste_ok m c k Hm (Hg _ _ _ Hsq Eg) Hk) as (m1 & P1 & P2 & P3 & P4).
    assert (EX : mapM (fun k => let* im := block m b k in g k im) ks = mapM (fun k => let* im := block m1 b k in g k im) ks).
    { apply mapM_ext_in. intros k' Hk'. rewrite P4; [reflexivity|apply Hr; right; exact Hk'|]. intros ->. contradiction. }
    rewrite EX. specialize (IH m1 Hnd' (fun k' H => Hr k' (or_intror H)) P2).
    destruct (mapM _ ks) as [l|e]; cbn [bind].
    + destruct IH as (m' & I1 & I2 & I3 & I4). exists m'.
      split; [unfold istep at 1; rewrite E1; cbn [bind]; rewrite Eg; cbn [bind]; rewrite P1; cbn [bind]; exact I1|].
      split; [exact I2|]. split.
      * rewrite (I4 k Hk Hnot), P3. cbn [bind]. rewrite I3. reflexivity.
      * intros k' Hk' Hn'. rewrite I4; [|exact Hk'|intros HH; apply Hn'; right; exact HH].
        apply P4; [exact Hk'|]. intros ->. apply Hn'. left; reflexivity.
    + unfold istep at 1. rewrite E1. cbn [bind]. rewrite Eg. cbn [bind]. rewrite P1. cbn [bind]. exact IH.
Qed.

Lemma inplace_split mos : stacked mos ->
  (let* m := inplace_blocks g mos in split_mosaic m) =
  mapM (fun k => let* im := block mos b k in g k im) (zrange n).
Proof.
  intros HM. pose proof HM as (M1 & M2 & M3). unfold inplace_blocks. rewrite M3. dif E; [lia|].
  assert (Hd : nr mos / b = n) by (rewrite M2; apply Z.div_mul; lia). rewrite Hd.
  pose proof (inplace_fold (zrange n) mos (zrange_NoDup n) (fun k => proj1 (In_zrange n k)) HM) as HF.
  change (foldM istep (zrange n) mos) with (foldM (fun m k =>
     let* wt := sub2d m (k * b) ((k + 1) * b) 0 b in
     let* cwt := g k wt in paste m (k * b) ((k + 1) * b) 0 b cwt) (zrange n) mos) in HF.
  destruct (mapM _ (zrange n)) as [l|e].
  - destruct HF as (m' & F1 & F2 & F3 & _).
    change (foldM istep (zrange n) mos) with (foldM (fun m k =>
     let* wt := sub2d m (k * b) ((k + 1) * b) 0 b in
     let* cwt := g k wt in paste m (k * b) ((k + 1) * b) 0 b cwt) (zrange n) mos) in F1.
    rewrite F1. cbn [bind]. unfold split_mosaic. destruct F2 as (N1 & N2 & N3). rewrite N3, E, N2.
    rewrite Z.div_mul by lia. exact F3.
  - change (foldM istep (zrange n) mos) with (foldM (fun m k =>
     let* wt := sub2d m (k * b) ((k + 1) * b) 0 b in
     let* cwt := g k wt in paste m (k * b) ((k + 1) * b) 0 b cwt) (zrange n) mos) in HF.
    rewrite HF. reflexivity.
Qed.
End InPlace.

Lemma composite_shape f iobj icut im seg restrict cim : img_ok im ->
  make_composite_image f iobj icut im seg restrict = Ok cim -> img_ok cim /\ nr cim = nr im /\ nc cim = nc im.
Proof.
  intros (I1 & I2 & I3) H. unfold make_composite_image in H.
  apply bind_ok in H. destruct H as (cc & _ & H). apply bind_ok in H. destruct H as (cen & _ & H).
  apply bind_ok in H. destruct H as (sid & _ & H). dif_in H E.
  - apply tab2M_ok in H; [tauto|assumption..].
  - apply bind_ok in H. destruct H as (j & _ & H). apply bind_ok in H. destruct H as (j0 & _ & H).
    destruct (mat_inv j0); (apply tab2M_ok in H; [tauto|assumption..]).
Qed.

(** Blocks of a mosaic are the cutouts. *)
Lemma mosaic_block f iobj o t m : file_wf f -> zget (m_cat f) iobj = Some o -> 0 < o_ncut o ->
  ext_find (m_ext f) t = Some m ->
  exists mos, get_mosaic f iobj t = Ok mos /\ stacked (o_box o) (o_ncut o) mos /\ 0 < o_box o /\
    forall k, 0 <= k < o_ncut o ->
      block mos (o_box o) k = get_cutout f iobj k t /\
      exists im, get_cutout f iobj k t = Ok im /\ square (o_box o) im.
Proof.
  intros Hwf Ho Hn Hm. destruct (mosaic_blocks f iobj o t m Hwf Ho Hn Hm) as (mos & l & M1 & M2 & M3 & M4 & _ & _ & M7).
  assert (Hb : 0 < o_box o).
  { destruct Hwf as [Hf _]. rewrite Forall_forall in Hf. apply (Hf o). eapply zget_In; exact Ho. }
  assert (HS : stacked (o_box o) (o_ncut o) mos) by (repeat split; assumption || apply M2).
  exists mos. split; [exact M1|]. split; [exact HS|]. split; [exact Hb|]. intros k Hk.
  destruct (M7 k Hk) as (im & G1 & _ & G3 & G4 & G5 & G6).
  split; [|exists im; split; [exact G1|repeat split; assumption || apply G5]].
  destruct (block_ok (o_box o) (o_ncut o) Hb mos k HS Hk) as (im2 & B1 & (S1 & S2 & S3) & B3).
  rewrite B1, G1. f_equal. apply img_ext; try assumption; try lia.
  rewrite S2, S3. intros r c Hr Hc. rewrite B3 by assumption. apply G6; assumption.
Qed.

Lemma cweight_list_eq f iobj o mw ms restrict : file_wf f -> zget (m_cat f) iobj = Some o -> 0 < o_ncut o ->
  ext_find (m_ext f) TWeight = Some mw -> ext_find (m_ext f) TSeg = Some ms ->
  get_cweight_cutout_list f iobj restrict =
  mapM (fun k => get_cweight_cutout f iobj k restrict) (zrange (o_ncut o)).
Proof.
  intros Hwf Ho Hn Hw Hs. destruct (mosaic_block f iobj o TWeight mw Hwf Ho Hn Hw) as (mos & M1 & M2 & Hb & M3).
  destruct (mosaic_block f iobj o TSeg ms Hwf Ho Hn Hs) as (mos2 & _ & _ & _ & N3).
  destruct (N3 0 ltac:(lia)) as (_ & seg & N4 & _).
  unfold get_cweight_cutout_list, get_cweight_mosaic. rewrite M1, N4. cbn [bind].
  rewrite (inplace_split (o_box o) (o_ncut o) Hb ltac:(lia)
             (fun k wt => make_composite_image f iobj k wt seg restrict)); [|intros k im im' (S1 & S2 & S3) E|exact M2].
  - apply mapM_ext_in. intros k Hk. apply In_zrange in Hk. destruct (M3 k Hk) as (E & _). rewrite E.
    unfold get_cweight_cutout. rewrite N4. destruct (get_cutout f iobj k TWeight); reflexivity.
  - apply composite_shape in E; [|exact S1]. unfold square. destruct E as (E1 & E2 & E3). repeat split; try apply E1; lia.
Qed.

Lemma fill_block b n (m : img Q) v k im : 0 < b -> stacked b n m -> 0 <= k < n -> block m b k = Ok im ->
  block (fill_with m v) b k = Ok (fill_with im v).
Proof.
  intros Hb HM Hk E. assert (HF : stacked b n (fill_with m v)).
  { destruct HM as (M1 & M2 & M3). repeat split; try (apply imap_ok; exact M1); assumption. }
  destruct (block_ok b n Hb m k HM Hk) as (im1 & E1 & (S1 & S2 & S3) & P1). rewrite E in E1. inversion E1; subst im1.
  destruct (block_ok b n Hb _ k HF Hk) as (im2 & E2 & (T1 & T2 & T3) & P2). rewrite E2. f_equal.
  apply img_ext; [assumption|apply imap_ok; assumption|unfold fill_with; cbn; lia|unfold fill_with; cbn; lia|].
  rewrite T2, T3. intros r c Hr Hc. rewrite P2 by assumption. unfold fill_with. rewrite !px_imap.
  rewrite P1 by assumption. reflexivity.
Qed.

Lemma cseg_list_eq f iobj o ms : file_wf f -> zget (m_cat f) iobj = Some o -> 0 < o_ncut o ->
  ext_find (m_ext f) TSeg = Some ms ->
  get_cseg_cutout_list f iobj = mapM (fun k => get_cseg_cutout f iobj k) (zrange (o_ncut o)).
Proof.
  intros Hwf Ho Hn Hs. destruct (mosaic_block f iobj o TSeg ms Hwf Ho Hn Hs) as (mos & M1 & M2 & Hb & M3).
  destruct (M3 0 ltac:(lia)) as (_ & seg & N4 & _).
  unfold get_cseg_cutout_list, get_cseg_mosaic. rewrite M1, N4. cbn [bind].
  assert (exists num, get_number f iobj = Ok num) as (num & EN).
  { unfold get_number. destruct (m_number_col f); [|eexists; reflexivity].
    pose proof (zget_Some_range _ _ _ Ho) as R. rewrite (proj2 (py_index_ok_nonneg _ _ _ (proj1 R)) Ho). eexists; reflexivity. }
  rewrite EN. cbn [bind].
  rewrite (inplace_split (o_box o) (o_ncut o) Hb ltac:(lia)
             (fun k wt => make_composite_image f iobj k wt seg false)).
  - apply mapM_ext_in. intros k Hk. apply In_zrange in Hk. destruct (M3 k Hk) as (E & im & G1 & G2).
    rewrite G1 in E. rewrite (fill_block _ _ _ _ _ _ Hb M2 Hk E).
    unfold get_cseg_cutout. rewrite G1, EN, N4. reflexivity.
  - intros k im im' (S1 & S2 & S3) E. apply composite_shape in E; [|exact S1]. unfold square.
    destruct E as (E1 & E2 & E3). repeat split; try apply E1; lia.
  - destruct M2 as (A1 & A2 & A3). repeat split; try (apply imap_ok; exact A1); assumption.
Qed.

Lemma interpolate_square f iobj o k seg im : get_cutout f iobj 0 TSeg = Ok seg -> square (o_box o) seg ->
  interpolate_coadd_seg f iobj k = Ok im -> square (o_box o) im.
Proof.
  intros Hseg (S1 & S2 & S3) H. unfold interpolate_coadd_seg in H. rewrite Hseg in H. cbn [bind] in H.
  dif_in H E; [inversion H; subst; repeat split; assumption || apply S1|].
  apply bind_ok in H. destruct H as (j & _ & H). apply bind_ok in H. destruct H as (cen & _ & H).
  unfold interpolate_coadd_seg_image in H. rewrite Hseg in H. cbn [bind] in H.
  apply bind_ok in H. destruct H as (j0 & _ & H). apply bind_ok in H. destruct H as (c0 & _ & H).
  apply bind_ok in H. destruct H as (inv & _ & H). destruct S1 as (Z1 & Z2 & Z3).
  apply tab2M_ok in H; [|assumption..]. destruct H as (O1 & O2 & O3 & _).
  repeat split; try apply O1; lia.
Qed.

Lemma interp_mosaic_eq f iobj o ms : file_wf f -> zget (m_cat f) iobj = Some o -> 0 < o_ncut o ->
  ext_find (m_ext f) TSeg = Some ms ->
  (let* m := interpolate_coadd_seg_mosaic f iobj in split_mosaic m) =
  mapM (fun k => interpolate_coadd_seg f iobj k) (zrange (o_ncut o)).
Proof.
  intros Hwf Ho Hn Hs. destruct (mosaic_block f iobj o TSeg ms Hwf Ho Hn Hs) as (mos & M1 & M2 & Hb & M3).
  destruct (M3 0 ltac:(lia)) as (_ & seg & N4 & N5).
  unfold interpolate_coadd_seg_mosaic. rewrite M1. cbn [bind].
  rewrite (inplace_split (o_box o) (o_ncut o) Hb ltac:(lia)
             (fun k sg => if k =? 0 then Ok sg else interpolate_coadd_seg f iobj k)); [| |exact M2].
  - apply mapM_ext_in. intros k Hk. apply In_zrange in Hk. destruct (M3 k Hk) as (E & im & G1 & G2). rewrite E, G1.
    cbn [bind]. dif E0; [|reflexivity]. assert (k = 0) by lia. subst k. unfold interpolate_coadd_seg. rewrite G1. reflexivity.
  - intros k im im' Hsq E. dif_in E E0; [inversion E; subst; exact Hsq|]. eapply interpolate_square; eassumption.
Qed.
