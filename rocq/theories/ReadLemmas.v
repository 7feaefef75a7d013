(** Reading from files with tiled mosaics. *)
From Coq Require Import Lia ZifyBool ZifyNat.
From Verif Require Import Base BaseLemmas Img ImgLemmas Types Reader MakerLayout MakerWrite MakerFile
  SpecTiles SpecLayout SpecFile StartLemmas StampLemmas WriteLemmas.
Ltac Zify.zify_post_hook ::= Z.div_mod_to_equations.

Lemma check_indices_ok f iobj icut o : zget (m_cat f) iobj = Some o -> 0 <= icut < o_ncut o ->
  check_indices f iobj (Some icut) = Ok o.
Proof.
  intros Ho Hk. pose proof (zget_Some_range _ _ _ Ho) as Hr. unfold check_indices.
  dif E; [lia|]. rewrite py_index_nonneg by lia. rewrite Ho. cbn [bind].
  dif E1; [lia|]. dif E2; [lia|]. reflexivity.
Qed.

Lemma check_indices_none_ok f iobj o : zget (m_cat f) iobj = Some o -> o_ncut o <> 0 ->
  check_indices f iobj None = Ok o.
Proof.
  intros Ho Hk. pose proof (zget_Some_range _ _ _ Ho) as Hr. unfold check_indices.
  dif E; [lia|]. rewrite py_index_nonneg by lia. rewrite Ho. cbn [bind].
  dif E1; [lia|]. reflexivity.
Qed.

Lemma get_slot_ok o k s : zget (o_slots o) k = Some s -> get_slot o k = Ok s.
Proof.
  intros H. pose proof (zget_Some_range _ _ _ H). unfold get_slot.
  rewrite py_index_nonneg by lia. rewrite H. reflexivity.
Qed.

(** Range of a cutout lies in the mosaic. *)
Lemma cut_in_range f iobj icut o s t m : file_wf f -> cutout_at f iobj icut o s ->
  ext_find (m_ext f) t = Some m ->
  0 <= s_start s /\ s_start s + o_box o * o_box o <= zlen m /\ 0 < o_box o.
Proof.
  intros (Hwf & Ht) (Ho & Hk & Hs) Hm. specialize (Ht t m Hm).
  assert (Hcw : cat_wf (m_cat f)).
  { eapply Forall_impl; [|exact Hwf]. intros a (A1 & A2). split; [exact A1|lia]. }
  rewrite <- cat_keys_ranges in Ht by exact Hcw.
  destruct (tiles_keys k_range _ _ _ Ht) as [T1 _].
  assert (Hin : In (o, icut, s) (cat_keys (m_cat f))).
  { pose proof (zget_Some_range _ _ _ Ho).
    apply (cat_keys_in _ (Z.to_nat iobj)); auto.
    unfold zget in Ho. destruct (iobj <? 0); [discriminate|exact Ho]. }
  specialize (T1 _ Hin). unfold k_range, k_slot, k_obj in T1; simpl in T1.
  rewrite Forall_forall in Hwf. destruct (Hwf o (zget_In _ _ _ Ho)). lia.
Qed.

Lemma get_cutout_eq f iobj icut o s t m : file_wf f -> cutout_at f iobj icut o s ->
  ext_find (m_ext f) t = Some m ->
  exists xs, slice m (s_start s) (s_start s + o_box o * o_box o) = Ok xs /\
    get_cutout f iobj icut t = Ok (mkImg (o_box o) (o_box o) xs) /\ zlen xs = o_box o * o_box o.
Proof.
  intros Hwf Hc Hm. destruct (cut_in_range f iobj icut o s t m Hwf Hc Hm) as (R1 & R2 & R3).
  destruct Hc as (Ho & Hk & Hs).
  destruct (slice_in_range m (s_start s) (s_start s + o_box o * o_box o)) as (xs & Hx); [lia|nia|lia|].
  exists xs. split; [exact Hx|]. pose proof (slice_ok _ _ _ _ Hx) as (_ & _ & L & _).
  split; [|lia]. unfold get_cutout. rewrite (check_indices_ok f iobj icut o Ho Hk). cbn [bind].
  rewrite (get_slot_ok o icut s Hs). cbn [bind]. unfold get_extension. rewrite Hm. cbn [bind].
  rewrite Hx. cbn [bind]. unfold reshape. dif E; [reflexivity|lia].
Qed.

(** If the mosaic holds an image at the place of a cutout, the reader returns it. *)
Lemma get_cutout_content f iobj icut o s t m im : file_wf f -> cutout_at f iobj icut o s ->
  ext_find (m_ext f) t = Some m -> img_ok im -> nr im = o_box o -> nc im = o_box o ->
  (forall j, 0 <= j < o_box o * o_box o -> zget m (s_start s + j) = zget (dat im) j) ->
  get_cutout f iobj icut t = Ok im.
Proof.
  intros Hwf Hc Hm Him Hr Hcc H.
  destruct (get_cutout_eq f iobj icut o s t m Hwf Hc Hm) as (xs & Hx & -> & L).
  f_equal. pose proof (slice_ok _ _ _ _ Hx) as (S1 & S2 & S3 & S4).
  destruct im as [h w d]; simpl in *. subst h w. f_equal. destruct Him as (I1 & I2 & I3); simpl in *.
  apply list_zget_ext; [lia|]. intros i Hi. rewrite S4 by lia. apply H. lia.
Qed.

Lemma used_slots_nth o k : nth_error (used_slots o) k =
  if (k <? Z.to_nat (o_ncut o))%nat then nth_error (o_slots o) k else None.
Proof. apply nth_error_firstn. Qed.

(** Starts within one object are consecutive. *)
Lemma tiles_consecutive b (sl : list slot) : forall a e,
  tiles a (map (fun s => (s_start s, s_start s + b)) sl) e ->
  forall k s, nth_error sl k = Some s -> s_start s = a + Z.of_nat k * b.
Proof.
  induction sl as [|s0 sl IH]; intros a e H k s Hk; [destruct k; discriminate|].
  inversion H as [|a' m rs b' Hle Ht E1 E2 E3]; subst. destruct k as [|k]; simpl in Hk.
  - inversion Hk; subst. lia.
  - rewrite (IH _ _ Ht k s Hk). lia.
Qed.

Lemma tiles_split rs1 : forall a rs2 b, tiles a (rs1 ++ rs2) b ->
  exists m, tiles a rs1 m /\ tiles m rs2 b.
Proof.
  induction rs1 as [|r rs1 IH]; intros a rs2 b H; simpl in H.
  - exists a. split; [constructor|exact H].
  - inversion H as [|a' m rs b' Hle Ht E1 E2 E3]; subst.
    destruct (IH _ _ _ Ht) as (x & X1 & X2). exists x. split; [constructor; assumption|exact X2].
Qed.

Lemma obj_tiles cat o : In o cat -> forall a b, tiles a (cut_ranges cat) b ->
  exists x y, tiles x (map (fun s => (s_start s, s_start s + o_box o * o_box o)) (used_slots o)) y.
Proof.
  intros Ho a b H. apply in_split in Ho. destruct Ho as (l1 & l2 & ->).
  unfold cut_ranges in H. rewrite flat_map_app in H. cbn [flat_map] in H.
  apply tiles_split in H. destruct H as (m & _ & H).
  apply tiles_split in H. destruct H as (m' & H & _). exists m, m'. exact H.
Qed.

Lemma cutout_starts f iobj o s0 t m : file_wf f -> ext_find (m_ext f) t = Some m ->
  cutout_at f iobj 0 o s0 -> forall icut s, cutout_at f iobj icut o s ->
  s_start s = s_start s0 + icut * (o_box o * o_box o).
Proof.
  intros (Hwf & Ht) Hm (Ho & Hk0 & Hs0) icut s (_ & Hk & Hs). specialize (Ht t m Hm).
  destruct (obj_tiles _ o (zget_In _ _ _ Ho) _ _ Ht) as (x & y & T).
  assert (G : forall k sk, 0 <= k < o_ncut o -> zget (o_slots o) k = Some sk ->
     s_start sk = x + k * (o_box o * o_box o)).
  { intros k sk Hk' Hsk. rewrite (tiles_consecutive _ _ _ _ T (Z.to_nat k) sk).
    - rewrite Z2Nat.id by lia. reflexivity.
    - rewrite used_slots_nth. dif E; [|lia]. unfold zget in Hsk. destruct (k <? 0); [discriminate|exact Hsk]. }
  rewrite (G icut s Hk Hs), (G 0 s0 Hk0 Hs0). lia.
Qed.

Lemma slots_exist f o k : file_wf f -> In o (m_cat f) -> 0 <= k < o_ncut o ->
  exists s, zget (o_slots o) k = Some s.
Proof.
  intros (Hwf & _) Ho Hk. rewrite Forall_forall in Hwf. destruct (Hwf o Ho) as [H _].
  apply zget_range_Some. lia.
Qed.

(** The mosaic of an object. *)
Lemma get_mosaic_eq f iobj o t m : file_wf f -> zget (m_cat f) iobj = Some o -> 0 < o_ncut o ->
  ext_find (m_ext f) t = Some m ->
  exists mos, get_mosaic f iobj t = Ok mos /\ img_ok mos /\
    nr mos = o_ncut o * o_box o /\ nc mos = o_box o /\
    forall icut s, cutout_at f iobj icut o s ->
    forall j, 0 <= j < o_box o * o_box o ->
      zget (dat mos) (icut * (o_box o * o_box o) + j) = zget m (s_start s + j).
Proof.
  intros Hwf Ho Hn Hm.
  destruct (slots_exist f o 0 Hwf (zget_In _ _ _ Ho)) as (s0 & Hs0); [lia|].
  destruct (slots_exist f o (o_ncut o - 1) Hwf (zget_In _ _ _ Ho)) as (sl & Hsl); [lia|].
  assert (C0 : cutout_at f iobj 0 o s0) by (repeat split; auto; lia).
  assert (CL : cutout_at f iobj (o_ncut o - 1) o sl) by (repeat split; auto; lia).
  destruct (cut_in_range _ _ _ _ _ _ _ Hwf C0 Hm) as (R1 & R2 & R3).
  destruct (cut_in_range _ _ _ _ _ _ _ Hwf CL Hm) as (R4 & R5 & _).
  pose proof (cutout_starts f iobj o s0 t m Hwf Hm C0) as ST.
  rewrite (ST _ _ CL) in R4, R5.
  destruct (slice_in_range m (s_start s0) (s_start s0 + o_box o * o_box o * o_ncut o)) as (xs & Hx);
    [lia|nia|nia|].
  pose proof (slice_ok _ _ _ _ Hx) as (S1 & S2 & S3 & S4).
  exists (mkImg (o_ncut o * o_box o) (o_box o) xs).
  assert (Hok : img_ok (mkImg (o_ncut o * o_box o) (o_box o) xs)).
  { unfold img_ok; simpl. repeat split; [nia|lia|]. rewrite S3. ring. }
  split; [|split; [exact Hok|split; [reflexivity|split; [reflexivity|]]]].
  - unfold get_mosaic. rewrite (check_indices_none_ok f iobj o Ho) by lia. cbn [bind].
    rewrite (get_slot_ok o 0 s0 Hs0). cbn [bind]. unfold get_extension. rewrite Hm. cbn [bind].
    rewrite Hx. cbn [bind]. unfold reshape. dif E; [reflexivity|].
    assert (zlen xs = o_ncut o * o_box o * o_box o) by (rewrite S3; ring). nia.
  - intros icut s C j Hj. cbn [dat]. rewrite (ST _ _ C). destruct C as (_ & Hk & _).
    rewrite S4 by nia. f_equal. ring.
Qed.

(** [split_mosaic] on a stack of squares. *)
Lemma split_mosaic_eq {A} (mos : img A) (b n : Z) : img_ok mos -> 0 < b -> 0 <= n ->
  nr mos = n * b -> nc mos = b ->
  exists l, split_mosaic mos = Ok l /\ zlen l = n /\
    forall k, 0 <= k < n -> exists im, zget l k = Some im /\ img_ok im /\ nr im = b /\ nc im = b /\
      forall r c, 0 <= r < b -> 0 <= c < b -> px im r c = px mos (k * b + r) c.
Proof.
  intros Hok Hb Hn Hr Hc. unfold split_mosaic. dif E; [lia|].
  rewrite Hr, Hc, Z.div_mul by lia.
  assert (G : forall k, 0 <= k < n -> exists im, sub2d mos (k * b) ((k + 1) * b) 0 b = Ok im /\ img_ok im /\
     nr im = b /\ nc im = b /\ forall r c, 0 <= r < b -> 0 <= c < b -> px im r c = px mos (k * b + r) c).
  { intros k Hk. unfold sub2d, np_bound. rewrite Hr, Hc.
    dif E0; [nia|]. dif E1; [nia|]. dif E2; [lia|]. dif E3; [lia|].
    rewrite !Z.min_l by nia.
    replace (Z.max 0 ((k + 1) * b - k * b)) with b by nia.
    replace (Z.max 0 (b - 0)) with b by lia.
    destruct (tab2M_exists b b (fun i j => px_res mos (k * b + i) (0 + j))) as (im & Him).
    - lia.
    - lia.
    - intros r c Hr' Hc'. unfold px_res. destruct (px_in mos (k * b + r) (0 + c) Hok) as (a & Ha); [nia|lia|].
      rewrite Ha. eexists; reflexivity.
    - exists im. split; [exact Him|]. apply tab2M_ok in Him; [|lia|lia].
      destruct Him as (I1 & I2 & I3 & I4). repeat split; auto; try apply I1.
      intros r c Hr' Hc'. destruct (I4 r c Hr' Hc') as (a & A1 & A2). rewrite A2.
      unfold px_res in A1. destruct (px mos (k * b + r) (0 + c)) eqn:P; inversion A1; subst.
      rewrite Z.add_0_l in P. congruence. }
  assert (HM : exists l, mapM (fun i => sub2d mos (i * b) ((i + 1) * b) 0 b) (zrange n) = Ok l).
  { assert (GI : forall xs, (forall i, In i xs -> 0 <= i < n) ->
       exists l, mapM (fun i => sub2d mos (i * b) ((i + 1) * b) 0 b) xs = Ok l).
    { induction xs as [|x xs IH]; intros Hx; [exists []; reflexivity|].
      destruct (G x) as (im & Him & _); [apply Hx; left; reflexivity|].
      destruct IH as (l & Hl); [intros; apply Hx; right; assumption|].
      exists (im :: l). cbn [mapM]. rewrite Him. cbn [bind]. rewrite Hl. reflexivity. }
    apply GI. intros i Hi. apply In_zrange in Hi. exact Hi. }
  destruct HM as (l & Hl). exists l. split; [exact Hl|].
  pose proof (mapM_ok_length _ _ _ Hl) as HL. rewrite zrange_length in HL.
  split; [unfold zlen; lia|]. intros k Hk.
  destruct (mapM_ok_nth _ _ _ (Z.to_nat k) k Hl) as (im & Him & Hn').
  { rewrite zrange_nth by lia. f_equal. lia. }
  exists im. split; [unfold zget; dif E1; [lia|exact Hn']|].
  destruct (G k Hk) as (im' & Him' & G1). rewrite Him in Him'. inversion Him'; subst. exact G1.
Qed.

(** Mosaic, list and single cutout accessors agree. *)
Lemma mosaic_blocks f iobj o t m : file_wf f -> zget (m_cat f) iobj = Some o -> 0 < o_ncut o ->
  ext_find (m_ext f) t = Some m ->
  exists mos l, get_mosaic f iobj t = Ok mos /\ img_ok mos /\
    nr mos = o_ncut o * o_box o /\ nc mos = o_box o /\
    get_cutout_list f iobj t = Ok l /\ zlen l = o_ncut o /\
    forall icut, 0 <= icut < o_ncut o ->
      exists im, get_cutout f iobj icut t = Ok im /\ zget l icut = Some im /\
        nr im = o_box o /\ nc im = o_box o /\ img_ok im /\
        forall r c, 0 <= r < o_box o -> 0 <= c < o_box o ->
          px mos (icut * o_box o + r) c = px im r c.
Proof.
  intros Hwf Ho Hn Hm.
  destruct (get_mosaic_eq f iobj o t m Hwf Ho Hn Hm) as (mos & HM & Hok & Hr & Hc & HD).
  assert (Hb : 0 < o_box o).
  { destruct Hwf as [W _]. rewrite Forall_forall in W. apply (W o (zget_In _ _ _ Ho)). }
  destruct (split_mosaic_eq mos (o_box o) (o_ncut o) Hok Hb) as (l & HS & HL & HB); [lia|exact Hr|exact Hc|].
  exists mos, l. repeat (split; [assumption|]). split; [|split; [exact HL|]].
  { unfold get_cutout_list. rewrite HM. exact HS. }
  intros icut Hk. destruct (slots_exist f o icut Hwf (zget_In _ _ _ Ho) Hk) as (s & Hs).
  assert (C : cutout_at f iobj icut o s) by (repeat split; auto; lia).
  destruct (get_cutout_eq f iobj icut o s t m Hwf C Hm) as (xs & Hx & HG & HXL).
  destruct (HB icut Hk) as (im & Hz & Hi & Hir & Hic & Hp).
  assert (Hxok : img_ok (mkImg (o_box o) (o_box o) xs)) by (unfold img_ok; simpl; repeat split; lia).
  assert (PX : forall r c, 0 <= r < o_box o -> 0 <= c < o_box o ->
     px mos (icut * o_box o + r) c = px (mkImg (o_box o) (o_box o) xs) r c).
  { intros r c Hr' Hc'. unfold px. rewrite Hr, Hc. simpl nr; simpl nc; simpl dat.
    dif E1; [|nia]. dif E2; [|lia].
    pose proof (slice_ok _ _ _ _ Hx) as (S1 & S2 & S3 & S4). rewrite S4 by nia.
    rewrite <- (HD icut s C) by nia. f_equal. ring. }
  assert (im = mkImg (o_box o) (o_box o) xs) as ->.
  { apply img_ext; auto. intros r c Hr' Hc'. rewrite Hir in Hr'. rewrite Hic in Hc'.
    rewrite Hp by assumption. apply PX; assumption. }
  exists (mkImg (o_box o) (o_box o) xs). repeat (split; [assumption|]). exact PX.
Qed.
