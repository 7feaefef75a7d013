(** What the writing loops leave in a mosaic. *)
From Coq Require Import Lia ZifyBool ZifyNat.
From Verif Require Import Base BaseLemmas Img ImgLemmas Types MakerLayout MakerWrite SpecTiles
  StartLemmas StampLemmas.
Ltac Zify.zify_post_hook ::= Z.div_mod_to_equations.

(** A sequence of writes to pairwise disjoint (or identical) places. *)
Lemma foldM_writes {A K} (start : K -> Z) (data : K -> list A) (ws : list K) :
  forall hdu : list A,
  (forall k, In k ws -> 0 <= start k /\ start k + zlen (data k) <= zlen hdu) ->
  (forall k1 k2, In k1 ws -> In k2 ws ->
     (start k1 = start k2 /\ data k1 = data k2) \/
     start k1 + zlen (data k1) <= start k2 \/ start k2 + zlen (data k2) <= start k1) ->
  exists hdu', foldM (fun h k => write_at h (start k) (data k)) ws hdu = Ok hdu' /\
    zlen hdu' = zlen hdu /\
    (forall k, In k ws -> forall j, 0 <= j < zlen (data k) ->
       zget hdu' (start k + j) = zget (data k) j) /\
    (forall p, (forall k, In k ws -> ~ (start k <= p < start k + zlen (data k))) ->
       zget hdu' p = zget hdu p).
Proof.
  induction ws as [|k ws IH]; intros hdu Hr Hd.
  - exists hdu. simpl. repeat split; auto. intros k [].
  - cbn [foldM]. destruct (write_at_in_range hdu (start k) (data k)) as (h1 & E1).
    { apply Hr; left; reflexivity. } { apply Hr; left; reflexivity. }
    rewrite E1. cbn [bind]. apply write_at_ok in E1. destruct E1 as (W1 & W2 & W3 & W4).
    destruct (IH h1) as (h2 & F & L & G & N).
    { intros k' Hk'. rewrite W3. apply Hr. right; exact Hk'. }
    { intros k1 k2 H1 H2. apply Hd; right; assumption. }
    exists h2. split; [exact F|]. split; [lia|]. split.
    + intros k' [->|Hk'] j Hj; [|apply G; assumption].
      destruct (existsb (fun k2 => (start k2 <=? start k' + j) && (start k' + j <? start k2 + zlen (data k2))) ws) eqn:EX.
      * apply existsb_exists in EX. destruct EX as (k2 & H2 & Hc).
        destruct (Hd k' k2) as [[S D]|Hdis]; [left; reflexivity|right; exact H2| |].
        -- specialize (G k2 H2 j). rewrite S, D in *. apply G. exact Hj.
        -- lia.
      * rewrite N.
        -- rewrite W4. dif E; [|lia]. f_equal. lia.
        -- intros k2 H2 Hc. assert (existsb (fun k2 => (start k2 <=? start k' + j) && (start k' + j <? start k2 + zlen (data k2))) ws = true).
           { apply existsb_exists. exists k2. split; [exact H2|lia]. }
           congruence.
    + intros p Hp. rewrite N.
      * rewrite W4. dif E; [|reflexivity]. exfalso. apply (Hp k); [left; reflexivity|lia].
      * intros k2 H2. apply Hp. right; exact H2.
Qed.

(** All (object, cutout index, slot) triples in use, in catalog order. *)
Definition cat_keys (cat : list obj) : list (obj * Z * slot) :=
  flat_map (fun o => map (fun ks => (o, fst ks, snd ks)) (combine (zrange (o_ncut o)) (used_slots o))) cat.

Definition k_obj (k : obj * Z * slot) : obj := fst (fst k).
Definition k_cut (k : obj * Z * slot) : Z := snd (fst k).
Definition k_slot (k : obj * Z * slot) : slot := snd k.
Definition k_range (k : obj * Z * slot) : Z * Z :=
  (s_start (k_slot k), s_start (k_slot k) + o_box (k_obj k) * o_box (k_obj k)).

Lemma map_combine_snd {A B C} (f : B -> C) (l : list A) (l' : list B) :
  length l = length l' -> map (fun p => f (snd p)) (combine l l') = map f l'.
Proof.
  revert l'; induction l as [|a l IH]; intros [|b l'] H; simpl in *; try discriminate; auto.
  f_equal. apply IH. lia.
Qed.

Lemma used_slots_length o : obj_wf o -> length (used_slots o) = Z.to_nat (o_ncut o).
Proof.
  intros [H _]. unfold used_slots. rewrite firstn_length. unfold zlen in H. lia.
Qed.

Lemma cat_keys_ranges cat : cat_wf cat -> map k_range (cat_keys cat) = cut_ranges cat.
Proof.
  induction 1 as [|o cat Ho Hc IH]; [reflexivity|].
  unfold cat_keys, cut_ranges in *. cbn [flat_map]. rewrite map_app, IH. f_equal.
  rewrite map_map. unfold k_range, k_obj, k_slot; simpl.
  apply (map_combine_snd (fun s => (s_start s, s_start s + o_box o * o_box o))).
  rewrite zrange_length, used_slots_length by exact Ho. reflexivity.
Qed.

Lemma cat_keys_in cat i o k s : cat_wf cat -> nth_error cat i = Some o ->
  0 <= k < o_ncut o -> zget (o_slots o) k = Some s -> In (o, k, s) (cat_keys cat).
Proof.
  intros Hwf Hi Hk Hs. unfold cat_keys. apply in_flat_map. exists o.
  split; [eapply nth_error_In; exact Hi|].
  apply in_map_iff. exists (k, s). split; [reflexivity|].
  assert (Ho : obj_wf o) by (eapply Forall_forall; [exact Hwf|eapply nth_error_In; exact Hi]).
  assert (N : nth_error (combine (zrange (o_ncut o)) (used_slots o)) (Z.to_nat k) = Some (k, s)).
  { assert (N1 : nth_error (zrange (o_ncut o)) (Z.to_nat k) = Some k)
      by (rewrite zrange_nth by lia; f_equal; lia).
    assert (N2 : nth_error (used_slots o) (Z.to_nat k) = Some s).
    { unfold used_slots. rewrite nth_error_firstn. dif E; [|lia].
      unfold zget in Hs. destruct (k <? 0) eqn:E0; [lia|exact Hs]. }
    revert N1 N2. generalize (zrange (o_ncut o)) (used_slots o) (Z.to_nat k).
    intros l l' n; revert l l'. induction n as [|n IH]; intros [|a l] [|b l']; simpl; try discriminate.
    - intros H1 H2; inversion H1; inversion H2; reflexivity.
    - apply IH. }
  eapply nth_error_In; exact N.
Qed.

Lemma in_cat_keys cat o k s : cat_wf cat -> In (o, k, s) (cat_keys cat) ->
  In o cat /\ 0 <= k < o_ncut o /\ zget (o_slots o) k = Some s /\ obj_wf o.
Proof.
  intros Hwf H. unfold cat_keys in H. apply in_flat_map in H. destruct H as (o' & Ho & H).
  apply in_map_iff in H. destruct H as ([k' s'] & E & H). simpl in E. inversion E; subst.
  assert (Hw : obj_wf o) by (eapply Forall_forall; [exact Hwf|exact Ho]).
  split; [exact Ho|].
  apply In_nth_error in H. destruct H as (n & Hn).
  assert (G : forall (l : list Z) (l' : list slot) n a b, nth_error (combine l l') n = Some (a, b) ->
             nth_error l n = Some a /\ nth_error l' n = Some b).
  { induction l as [|x l IH]; intros [|y l'] [|m] a b; simpl; try discriminate.
    - intros X; inversion X; auto.
    - apply IH. }
  apply G in Hn. destruct Hn as [N1 N2].
  assert (Hlt : (n < Z.to_nat (o_ncut o))%nat).
  { rewrite <- (zrange_length (o_ncut o)). apply nth_error_Some. congruence. }
  rewrite zrange_nth in N1 by exact Hlt. inversion N1; subst k; clear N1.
  split; [lia|]. split; [|exact Hw].
  rewrite zget_nat. unfold used_slots in N2. rewrite nth_error_firstn in N2.
  dif_in N2 E2; [exact N2|discriminate].
Qed.

(** Loop over the cutouts of an object, indices replaced by the slots themselves. *)
Lemma foldM_cuts {T} (o : obj) (g : T -> Z -> slot -> res T) hdu : 0 <= o_ncut o <= zlen (o_slots o) ->
  foldM (fun hdu icut => let* s := get_slot o icut in g hdu icut s) (zrange (o_ncut o)) hdu =
  foldM (fun hdu ks => g hdu (fst ks) (snd ks)) (combine (zrange (o_ncut o)) (used_slots o)) hdu.
Proof.
  intros Hn.
  assert (G : forall n i hdu, (i + n <= length (o_slots o))%nat ->
     foldM (fun hdu icut => let* s := get_slot o icut in g hdu icut s) (map Z.of_nat (seq i n)) hdu =
     foldM (fun hdu ks => g hdu (fst ks) (snd ks))
       (combine (map Z.of_nat (seq i n)) (firstn n (skipn i (o_slots o)))) hdu).
  { induction n as [|n IH]; intros i h Hi; cbn [seq map foldM]; [reflexivity|].
    assert (exists s, nth_error (o_slots o) i = Some s) as (s & Hs).
    { destruct (nth_error (o_slots o) i) eqn:E; [eexists; reflexivity|].
      apply nth_error_None in E. lia. }
    assert (Hsk : skipn i (o_slots o) = s :: skipn (S i) (o_slots o)).
    { clear -Hs. revert i Hs. generalize (o_slots o). induction l as [|a l IH]; intros [|i] H; simpl in *; try discriminate.
      - inversion H; reflexivity.
      - apply IH; exact H. }
    rewrite Hsk. cbn [firstn combine foldM fst snd].
    unfold get_slot at 1. rewrite py_index_nonneg by lia. rewrite zget_nat, Hs. cbn [bind].
    apply bind_ext. intros a _. apply IH. lia. }
  unfold zrange, used_slots. rewrite (G _ 0%nat hdu); [reflexivity|]. unfold zlen in Hn. lia.
Qed.

(** Same over the whole catalog. *)
Lemma foldM_cat_keys {T} (g : T -> obj -> Z -> slot -> res T) cat s0 :
  Forall (fun o => 0 <= o_ncut o <= zlen (o_slots o)) cat ->
  foldM (fun st o => foldM (fun st icut => let* s := get_slot o icut in g st o icut s)
                           (zrange (o_ncut o)) st) cat s0 =
  foldM (fun st k => g st (k_obj k) (k_cut k) (k_slot k)) (cat_keys cat) s0.
Proof.
  intros H. unfold cat_keys. rewrite <- foldM_flat_map. apply foldM_ext_in. intros st o Ho.
  rewrite (foldM_cuts o (fun st icut s => g st o icut s)) by (eapply Forall_forall in H; [exact H|exact Ho]).
  rewrite foldM_map. reflexivity.
Qed.

Lemma in_cat_keys' cat o k s : Forall (fun o => 0 <= o_ncut o <= zlen (o_slots o)) cat ->
  In (o, k, s) (cat_keys cat) <-> In o cat /\ 0 <= k < o_ncut o /\ zget (o_slots o) k = Some s.
Proof.
  intros Hwf. unfold cat_keys. rewrite in_flat_map. split.
  - intros (o' & Ho & H).
    apply in_map_iff in H. destruct H as ([k' s'] & E & H). simpl in E. inversion E; subst.
    split; [exact Ho|].
    apply In_nth_error in H. destruct H as (n & Hn).
    assert (G : forall (l : list Z) (l' : list slot) n a b, nth_error (combine l l') n = Some (a, b) ->
               nth_error l n = Some a /\ nth_error l' n = Some b).
    { induction l as [|x l IH]; intros [|y l'] [|m] a b; simpl; try discriminate.
      - intros X; inversion X; auto.
      - apply IH. }
    apply G in Hn. destruct Hn as [N1 N2].
    assert (Hlt : (n < Z.to_nat (o_ncut o))%nat).
    { rewrite <- (zrange_length (o_ncut o)). apply nth_error_Some. congruence. }
    rewrite zrange_nth in N1 by exact Hlt. inversion N1; subst k; clear N1.
    split; [lia|].
    rewrite zget_nat. unfold used_slots in N2. rewrite nth_error_firstn in N2.
    dif_in N2 E2; [exact N2|discriminate].
  - intros (Ho & Hk & Hs). exists o. split; [exact Ho|].
    apply in_map_iff. exists (k, s). split; [reflexivity|].
    assert (N : nth_error (combine (zrange (o_ncut o)) (used_slots o)) (Z.to_nat k) = Some (k, s)).
    { assert (N1 : nth_error (zrange (o_ncut o)) (Z.to_nat k) = Some k)
        by (rewrite zrange_nth by lia; f_equal; lia).
      assert (N2 : nth_error (used_slots o) (Z.to_nat k) = Some s).
      { unfold used_slots. rewrite nth_error_firstn. dif E; [|lia].
        unfold zget in Hs. destruct (k <? 0) eqn:E0; [lia|exact Hs]. }
      revert N1 N2. generalize (zrange (o_ncut o)) (used_slots o) (Z.to_nat k).
      intros l l' n; revert l l'. induction n as [|n IH]; intros [|a l] [|b l']; simpl; try discriminate.
      - intros H1 H2; inversion H1; inversion H2; reflexivity.
      - apply IH. }
    eapply nth_error_In; exact N.
Qed.

Section Write.
  Context {A : Type} (v : A) (cat : list obj) (nfile : Z) (imgs : Z -> option (img A)).
  Hypothesis Hwf : cat_wf cat.
  Hypothesis Himgs : forall f im, imgs f = Some im -> img_ok im.

  Definition wkey : Type := (obj * Z * slot) * img A.
  Definition wstart (k : wkey) : Z := s_start (k_slot (fst k)).
  Definition wdata (k : wkey) : list A :=
    dat (crop v (snd k) (s_osr (k_slot (fst k))) (s_osc (k_slot (fst k))) (o_box (k_obj (fst k)))).

  (** The writes of one file. *)
  Definition file_writes (f : Z) (im : img A) : list wkey :=
    map (fun k => (k, im)) (filter (fun k => s_file (k_slot k) =? f) (cat_keys cat)).

  Lemma foldM_filter {S X} (p : X -> bool) (f : S -> X -> res S) xs s :
    foldM (fun s x => if p x then f s x else Ok s) xs s = foldM f (filter p xs) s.
  Proof.
    revert s; induction xs as [|x xs IH]; intros s; simpl; [reflexivity|].
    destruct (p x); simpl; [apply bind_ext; intros; apply IH|apply IH].
  Qed.

  Lemma write_file_flat f im hdu : img_ok im ->
    write_file_cutouts (Ok v) cat f im hdu =
    foldM (fun h k => write_at h (wstart k) (wdata k)) (file_writes f im) hdu.
  Proof.
    intros Him. unfold write_file_cutouts, file_writes.
    rewrite foldM_map. unfold cat_keys.
    rewrite <- (foldM_filter (fun k => s_file (k_slot k) =? f)
                 (fun h k => write_at h (wstart (k, im)) (wdata (k, im)))).
    rewrite <- foldM_flat_map. apply foldM_ext_in. intros h o Ho.
    assert (Hw : obj_wf o) by (eapply Forall_forall; [exact Hwf|exact Ho]).
    rewrite (foldM_cuts o (fun hdu icut s =>
       if s_file s =? f then write_cutout (Ok v) o icut hdu im else Ok hdu)) by exact (proj1 Hw).
    rewrite foldM_map. apply foldM_ext_in. intros h' [k s] Hks. cbn [fst snd].
    unfold k_slot at 1; cbn [snd]. destruct (s_file s =? f) eqn:Ef; [|reflexivity].
    assert (Hin : In (o, k, s) (cat_keys cat)).
    { unfold cat_keys. apply in_flat_map. exists o. split; [exact Ho|].
      apply in_map_iff. exists (k, s). split; [reflexivity|exact Hks]. }
    apply in_cat_keys in Hin; [|exact Hwf]. destruct Hin as (_ & Hk & Hs & _).
    unfold write_cutout. unfold get_slot. rewrite py_index_nonneg by lia. rewrite Hs. cbn [bind].
    rewrite make_stamp_crop; [|apply Hw|exact Him]. cbn [bind]. reflexivity.
  Qed.

  Definition all_writes : list wkey :=
    flat_map (fun f => match imgs f with Some im => file_writes f im | None => [] end) (zrange nfile).

  Lemma write_cutouts_flat read hdu :
    (forall f, 0 <= f < nfile -> read f = Ok (imgs f)) ->
    write_cutouts (Ok v) cat nfile read hdu =
    foldM (fun h k => write_at h (wstart k) (wdata k)) all_writes hdu.
  Proof.
    intros Hread. unfold write_cutouts, all_writes. rewrite <- foldM_flat_map.
    apply foldM_ext_in. intros h f Hf. apply In_zrange in Hf.
    rewrite Hread by exact Hf. cbn [bind]. destruct (imgs f) as [im|] eqn:E; [|reflexivity].
    apply write_file_flat. eapply Himgs; exact E.
  Qed.

  Lemma in_all_writes k im : In (k, im) all_writes <->
    In k (cat_keys cat) /\ 0 <= s_file (k_slot k) < nfile /\ imgs (s_file (k_slot k)) = Some im.
  Proof.
    unfold all_writes. rewrite in_flat_map. split.
    - intros (f & Hf & H). apply In_zrange in Hf. destruct (imgs f) as [im'|] eqn:E; [|contradiction].
      unfold file_writes in H. apply in_map_iff in H. destruct H as (k' & Ek & H).
      inversion Ek; subst. apply filter_In in H. destruct H as [H1 H2].
      assert (f = s_file (k_slot k)) by lia. subst f. auto.
    - intros (H1 & H2 & H3). exists (s_file (k_slot k)). split; [apply In_zrange; exact H2|].
      rewrite H3. unfold file_writes. apply in_map_iff. exists k. split; [reflexivity|].
      apply filter_In. split; [exact H1|]. lia.
  Qed.

  (** Main lemma: which pixels the mosaic holds after writing. *)
  Lemma write_cutouts_spec read hdu :
    (forall f, 0 <= f < nfile -> read f = Ok (imgs f)) ->
    tiles 0 (cut_ranges cat) (zlen hdu) ->
    exists hdu', write_cutouts (Ok v) cat nfile read hdu = Ok hdu' /\ zlen hdu' = zlen hdu /\
      (forall k im, In k (cat_keys cat) -> 0 <= s_file (k_slot k) < nfile ->
         imgs (s_file (k_slot k)) = Some im ->
         forall j, 0 <= j < o_box (k_obj k) * o_box (k_obj k) ->
         zget hdu' (s_start (k_slot k) + j) =
         zget (dat (crop v im (s_osr (k_slot k)) (s_osc (k_slot k)) (o_box (k_obj k)))) j) /\
      (forall p, (forall k, In k (cat_keys cat) -> 0 <= s_file (k_slot k) < nfile ->
          imgs (s_file (k_slot k)) <> None -> ~ (fst (k_range k) <= p < snd (k_range k))) ->
         zget hdu' p = zget hdu p).
  Proof.
    intros Hread Ht. rewrite write_cutouts_flat by exact Hread.
    rewrite <- cat_keys_ranges in Ht by exact Hwf.
    destruct (tiles_keys k_range _ _ _ Ht) as [T1 T2].
    assert (Hlen : forall k, In k all_writes -> zlen (wdata k) = o_box (k_obj (fst k)) * o_box (k_obj (fst k))).
    { intros [k im] Hk. apply in_all_writes in Hk. destruct Hk as (Hk & _ & _).
      destruct k as [[o c] s]. apply in_cat_keys in Hk; [|exact Hwf].
      unfold wdata. apply crop_len. simpl. apply Hk. }
    destruct (foldM_writes wstart wdata all_writes hdu) as (h & F & L & G & N).
    - intros k Hk. rewrite Hlen by exact Hk. destruct k as [k im].
      apply in_all_writes in Hk. destruct Hk as (Hk & _ & _).
      specialize (T1 k Hk). unfold k_range in T1. simpl in T1. unfold wstart; simpl. lia.
    - intros k1 k2 H1 H2. rewrite !Hlen by assumption. destruct k1 as [k1 im1], k2 as [k2 im2].
      apply in_all_writes in H1. apply in_all_writes in H2.
      destruct H1 as (A1 & A2 & A3). destruct H2 as (B1 & B2 & B3).
      destruct (T2 k1 k2 A1 B1) as [->|Hdis].
      + left. rewrite A3 in B3. inversion B3; subst. auto.
      + right. unfold k_range, wstart in *; simpl in *. exact Hdis.
    - exists h. split; [exact F|]. split; [exact L|]. split.
      + intros k im Hk Hf Hi j Hj. assert (Hin : In (k, im) all_writes) by (apply in_all_writes; auto).
        specialize (G (k, im) Hin j). rewrite Hlen in G by exact Hin. apply G. exact Hj.
      + intros p Hp. apply N. intros [k im] Hk. rewrite Hlen by exact Hk.
        apply in_all_writes in Hk. destruct Hk as (A1 & A2 & A3).
        specialize (Hp k A1 A2). unfold k_range, wstart in *; simpl in *. apply Hp. congruence.
  Qed.
End Write.
