(** Proofs about the memory of the C library: cutouts. *)
From Coq Require Import String Permutation Lia ZifyBool ZifyNat.
From Verif Require Import Base BaseLemmas Img Types Reader CLib SpecCLib CLibLemmas CMem SpecCMem CMemLemmas CMemLemmas5.
Open Scope Z_scope.

Lemma wp_lift {A} (E : Prop) (r : res A) a (Q : A -> heap -> Prop) h : r = Ok a -> Q a h -> wp E (lift r) Q h.
Proof. intros -> H. exact H. Qed.

Section Get.
Variables (cf : cfile) (m : clib).
Hypothesis OPEN : meds_open cf = Ok (Some m).
Hypothesis BOX : Forall (fun o => 0 < o_box o) (m_cat (cf_file cf)).
Let f := cf_file cf.
Variable E : Prop.

Lemma row_slots iobj o : zget (m_cat f) iobj = Some o -> o_ncut o <= zlen (o_slots o) /\ 0 < o_box o.
Proof.
  intro Z1. split.
  - destruct (meds_open_inv cf m OPEN) as [MM _]. pose proof (zget_In _ _ _ Z1) as J.
    assert (X : forall l l', mapM load_row l = Ok l' -> In o l -> exists co, load_row o = Ok co).
    { induction l as [|x l IH]; intros l' H; [intros []|]. cbn in H. intro K.
      destruct (load_row x) as [y|] eqn:LX; [|discriminate]. cbn in H. destruct (mapM load_row l) as [ys|] eqn:LL; [|discriminate].
      destruct K as [<-|K]; [now exists y|]. now apply (IH ys eq_refl). }
    destruct (X _ _ MM J) as (co & LR). unfold load_row in LR.
    destruct ((o_ncut o <? 0) || (zlen (o_slots o) <? o_ncut o)) eqn:B; [discriminate|]. lia.
  - rewrite Forall_forall in BOX. apply BOX. exact (zget_In _ _ _ Z1).
Qed.

(** The start of cutout [i]. *)
Lemma start_ok iobj o i : zget (m_cat f) iobj = Some o -> 0 <= i < o_ncut o -> exists s, mem (co_start (row_of o)) i = Ok s.
Proof.
  intros Z1 Hi. destruct (row_slots iobj o Z1) as [S _]. destruct (zget (o_slots o) i) as [x|] eqn:ZX.
  - exists (s_start x). unfold row_of. cbn. apply mem_load; [lia|lia|exact ZX].
  - exfalso. assert (exists x, zget (o_slots o) i = Some x) as [x X] by (apply zget_range_Some; lia). congruence.
Qed.

Lemma check_row iobj i : check_iobj_icutout m iobj i =
  match zget (m_cat f) iobj with
  | None => None
  | Some o => if (0 <=? i) && (i <? o_ncut o) then Some (row_of o) else None
  end.
Proof.
  unfold check_iobj_icutout. rewrite (obj_row cf m iobj OPEN). fold f. destruct (zget (m_cat f) iobj) as [o|]; [|reflexivity]. cbn [option_map].
  change (co_ncutout (row_of o)) with (o_ncut o).
  destruct ((i <? 0) || (o_ncut o <=? i)) eqn:B1, ((0 <=? i) && (i <? o_ncut o)) eqn:B2; try reflexivity; lia.
Qed.

Lemma wp_data t start npix (Q : option Z -> heap -> Prop) h L : inv h L -> 0 <= npix ->
  (ext_find (m_ext f) t = None -> forall p h', inv h' ((p, npix) :: L) -> Q None h') ->
  (ext_find (m_ext f) t <> None -> get_cutout_data m t start npix = None -> forall h', inv h' L -> Q None h') ->
  (forall xs p h', ext_find (m_ext f) t <> None -> get_cutout_data m t start npix = Some xs -> inv h' ((p, npix) :: L) -> Q (Some p) h') ->
  wp E (m_cutout_data m t start npix) Q h.
Proof.
  intros I N K1 K2 K3. destruct (meds_open_inv cf m OPEN) as (_ & _ & EX). unfold m_cutout_data.
  unfold get_cutout_data in *. rewrite EX in *. fold f in K2, K3 |- *.
  apply wp_bind. eapply wp_alloc; [exact I|now left|]. intros p h1 _ I1.
  destruct (ext_find (m_ext f) t) as [mos|].
  2:{ apply wp_ret. eapply K1; [reflexivity|exact I1]. }
  apply wp_bind. eapply wp_write; [exact I1|now left|left; lia|]. intros _.
  destruct (slice mos start (start + npix)) as [xs|e].
  - apply wp_ret. eapply K3; [discriminate|reflexivity|exact I1].
  - apply wp_bind. eapply wp_free; [exact I1|]. intros h2 I2. apply wp_ret. apply K2; [discriminate|reflexivity|exact I2].
Qed.

Definition cut_blocks (c : mcutout) (npix nrow : Z) : list (Z * Z) := [(mt_pix c, npix); (mt_rows c, nrow); (mt_self c, 1)].

Lemma wp_from_ptr pix n box npix (Q : option mcutout -> heap -> Prop) h L : inv h ((pix, npix) :: L) -> 0 < n * box ->
  (forall c h', inv h' (cut_blocks c npix (n * box) ++ L) -> Q (Some c) h') ->
  wp E (do c <- m_cutout_from_ptr pix n box; ret (Some c)) Q h.
Proof.
  intros I P K. apply wp_bind. unfold m_cutout_from_ptr.
  apply wp_bind. eapply wp_alloc; [exact I|left; lia|]. intros self h1 _ I1.
  apply wp_bind. eapply (wp_write E self 1); [exact I1|now left|left; lia|]. intros _.
  apply wp_bind. eapply wp_alloc; [exact I1|left; lia|]. intros rows h2 _ I2.
  apply wp_bind. eapply wp_write; [exact I2|now left|left; lia|]. intros _.
  apply wp_bind. eapply wp_write; [exact I2|now left|left; lia|]. intros _.
  apply wp_ret. apply wp_ret. apply K. eapply inv_perm; [exact I2|]. unfold cut_blocks. cbn.
  eapply Permutation_trans; [apply perm_skip; apply perm_swap|]. eapply Permutation_trans; [apply perm_swap|]. reflexivity.
Qed.

Lemma wp_cutout_free c npix nrow (Q : unit -> heap -> Prop) h L : inv h (cut_blocks c npix nrow ++ L) -> 0 < nrow ->
  (forall h', inv h' L -> Q tt h') -> wp E (m_cutout_free (Some c)) Q h.
Proof.
  intros I P K. unfold m_cutout_free, cut_blocks in *. cbn [app] in I.
  apply wp_bind. eapply (wp_write E (mt_self c) 1); [exact I|cbn; tauto|left; lia|]. intros _.
  apply wp_bind. eapply (wp_write E (mt_rows c) nrow); [exact I|cbn; tauto|left; lia|]. intros _.
  apply wp_bind. eapply wp_free; [exact I|]. clear h I. intros h I.
  apply wp_bind. eapply (wp_write E (mt_rows c) nrow); [exact I|cbn; tauto|left; lia|]. intros _.
  apply wp_bind. eapply wp_free; [exact I|]. clear h I. intros h I.
  eapply wp_free; [exact I|exact K].
Qed.

Lemma wp_request q (Q : bool -> heap -> Prop) h L : inv h L ->
  (forall lost h', inv h' (lost ++ L) -> map snd lost = lost_request f q -> Q (gives m q) h') ->
  wp E (do c <- m_get m q; do _ <- m_cutout_free c; ret (match c with Some _ => true | None => false end)) Q h.
Proof.
  intros I K. apply wp_bind. unfold m_get. unfold lost_request, gives in K. destruct q as [t iobj [i|]]; cbn [rq_cut rq_type rq_obj] in *.
  - apply wp_bind. unfold m_cutoutp. unfold c_get_cutout, c_get_cutoutp in K. rewrite check_row in *.
    destruct (zget (m_cat f) iobj) as [o|] eqn:Z1.
    2:{ apply wp_ret. apply wp_ret. cbn. apply wp_bind. apply wp_ret. apply wp_ret. apply (K []); [exact I|reflexivity]. }
    destruct ((0 <=? i) && (i <? o_ncut o)) eqn:B.
    2:{ apply wp_ret. apply wp_ret. cbn. apply wp_bind. apply wp_ret. apply wp_ret. apply (K []); [exact I|]. now destruct (ext_find (m_ext f) t). }
    destruct (start_ok iobj o i Z1 ltac:(lia)) as (s & ST). destruct (row_slots iobj o Z1) as [_ BX].
    change (co_box (row_of o)) with (o_box o) in *. rewrite ST in K. cbn [bind] in K.
    apply wp_bind. eapply wp_lift; [exact ST|]. apply wp_bind.
    eapply wp_data; [exact I|nia| | |].
    + intros X p h' I'. apply wp_ret. apply wp_ret. cbn. apply wp_bind. apply wp_ret. apply wp_ret.
      assert (D : get_cutout_data m t s (o_box o * o_box o) = None).
      { unfold get_cutout_data. destruct (meds_open_inv cf m OPEN) as (_ & _ & ->). fold f. now rewrite X. }
      rewrite D, X in K. apply (K [(p, o_box o * o_box o)]); [exact I'|reflexivity].
    + intros X D h' I'. apply wp_ret. apply wp_ret. cbn. apply wp_bind. apply wp_ret. apply wp_ret.
      rewrite D in K. apply (K []); [exact I'|]. now destruct (ext_find (m_ext f) t).
    + intros xs p h' X D I'. apply wp_ret. rewrite D in K. cbn [bind] in K.
      eapply wp_from_ptr; [exact I'|lia|]. intros c h2 I2. apply wp_bind. eapply wp_cutout_free; [exact I2|lia|].
      intros h3 I3. apply wp_ret. apply (K []); [exact I3|]. now destruct (ext_find (m_ext f) t).
  - apply wp_bind. unfold m_mosaicp. unfold c_get_mosaic, c_get_mosaicp in K. rewrite check_row in *.
    destruct (zget (m_cat f) iobj) as [o|] eqn:Z1.
    2:{ apply wp_ret. apply wp_ret. cbn. apply wp_bind. apply wp_ret. apply wp_ret. apply (K []); [exact I|reflexivity]. }
    change ((0 <=? 0) && (0 <? o_ncut o)) with (0 <? o_ncut o) in *.
    destruct (0 <? o_ncut o) eqn:B.
    2:{ apply wp_ret. apply wp_ret. cbn. apply wp_bind. apply wp_ret. apply wp_ret. apply (K []); [exact I|]. now destruct (ext_find (m_ext f) t). }
    destruct (start_ok iobj o 0 Z1 ltac:(lia)) as (s & ST). destruct (row_slots iobj o Z1) as [_ BX].
    change (co_box (row_of o)) with (o_box o) in *. change (co_ncutout (row_of o)) with (o_ncut o) in *. rewrite ST in K. cbn [bind] in K.
    apply wp_bind. eapply wp_lift; [exact ST|]. apply wp_bind.
    assert (0 < o_box o * o_box o) by nia. assert (0 < o_ncut o * o_box o) by nia.
    eapply wp_data; [exact I|nia| | |].
    + intros X p h' I'. apply wp_ret. apply wp_ret. cbn. apply wp_bind. apply wp_ret. apply wp_ret.
      assert (D : get_cutout_data m t s (o_box o * o_box o * o_ncut o) = None).
      { unfold get_cutout_data. destruct (meds_open_inv cf m OPEN) as (_ & _ & ->). fold f. now rewrite X. }
      rewrite D, X in K. apply (K [(p, o_box o * o_box o * o_ncut o)]); [exact I'|reflexivity].
    + intros X D h' I'. apply wp_ret. apply wp_ret. cbn. apply wp_bind. apply wp_ret. apply wp_ret.
      rewrite D in K. apply (K []); [exact I'|]. now destruct (ext_find (m_ext f) t).
    + intros xs p h' X D I'. apply wp_ret. rewrite D in K. cbn [bind] in K.
      eapply wp_from_ptr; [exact I'|lia|]. intros c h2 I2. apply wp_bind. eapply wp_cutout_free; [exact I2|lia|].
      intros h3 I3. apply wp_ret. apply (K []); [exact I3|]. now destruct (ext_find (m_ext f) t).
Qed.
End Get.

Lemma requests_ok cf m qs : meds_open cf = Ok (Some m) -> Forall (fun o => 0 < o_box o) (m_cat (cf_file cf)) ->
  forall h, clean h -> exists h' lost, requests m qs h = Ok (map (gives m) qs, h') /\ left_over h h' lost /\
    Permutation (map snd lost) (flat_map (lost_request (cf_file cf)) qs).
Proof.
  intros O B h C.
  assert (W : forall qs h L, inv h L -> wp False (requests m qs) (fun bs h' => bs = map (gives m) qs /\ exists lost, inv h' (lost ++ L) /\
     Permutation (map snd lost) (flat_map (lost_request (cf_file cf)) qs)) h).
  { clear h C qs. induction qs as [|q qs IH]; intros h L I.
    - cbn. apply wp_ret. split; [reflexivity|]. exists []. split; [exact I|constructor].
    - cbn [requests].
      pose proof (wp_request cf m O B False q (fun b h' => b = gives m q /\ exists lost, inv h' (lost ++ L) /\ map snd lost = lost_request (cf_file cf) q) h L I) as R.
      specialize (R ltac:(intros lost h' I' S; split; [reflexivity|]; now exists lost)).
      unfold wp, mbind in R |- *. destruct (m_get m q h) as [[c h1]|]; cbn [bind fst snd] in *; [|exact R].
      destruct (m_cutout_free c h1) as [[[] h2]|]; cbn [bind fst snd] in *; [|exact R].
      cbn [ret] in R. destruct R as [R1 (l1 & I1 & S1)]. specialize (IH h2 _ I1). unfold wp in IH.
      destruct (requests m qs h2) as [[bs h3]|]; cbn [bind fst snd] in *; [|exact IH]. cbn [ret].
      destruct IH as [-> (l2 & I2 & S2)]. split; [cbn [map]; now rewrite <- R1|]. exists (l1 ++ l2). split.
      + eapply inv_perm; [exact I2|]. rewrite <- app_assoc. apply Permutation_app_swap_app.
      + cbn [flat_map]. rewrite map_app, S1. now apply Permutation_app_head. }
  specialize (W qs h _ (inv_clean h C)). unfold wp in W. destruct (requests m qs h) as [[bs h']|]; [|destruct W].
  destruct W as [-> (lost & [_ I] & S)]. now exists h', lost.
Qed.
