(** Lemmas on the C accessors of any file that opens, consistent or not. *)
From Coq Require Import Lia String ZifyBool.
From Verif Require Import Base Img Types Reader CLib SpecFile SpecCLib BaseLemmas CLibLemmas.
Open Scope Z_scope.

Section Any.
Variable cf : cfile.
Variable m : clib.
Hypothesis HO : meds_open cf = Ok (Some m).

Lemma open_counts iobj o : zget (m_cat (cf_file cf)) iobj = Some o -> 0 <= o_ncut o <= zlen (o_slots o).
Proof.
  intros H. destruct (meds_open_inv _ _ HO) as (L & _ & _).
  assert (N : nth_error (m_cat (cf_file cf)) (Z.to_nat iobj) = Some o).
  { pose proof (zget_Some_range _ _ _ H). unfold zget in H. destruct (iobj <? 0) eqn:E0; [discriminate|exact H]. }
  destruct (mapM_ok_nth _ _ _ _ _ L N) as (co & C1 & _). unfold load_row in C1.
  destruct (_ || _) eqn:E; [discriminate|]. apply orb_false_iff in E. lia.
Qed.

(** The check of the two indices: the row and the slot, or none. *)
Lemma check_any iobj icut :
  (exists o s, cutout_at (cf_file cf) iobj icut o s /\ check_iobj_icutout m iobj icut = Some (row_of o) /\ o_ncut o <= zlen (o_slots o)) \/
  ((forall o s, ~ cutout_at (cf_file cf) iobj icut o s) /\ check_iobj_icutout m iobj icut = None).
Proof.
  destruct (zget (m_cat (cf_file cf)) iobj) as [o|] eqn:E.
  - pose proof (open_counts _ _ E) as R. destruct (Z_le_gt_dec 0 icut) as [P|P]; [destruct (Z_lt_ge_dec icut (o_ncut o)) as [Q|Q]|].
    + left. destruct (zget_range_Some (o_slots o) icut) as [s S]; [lia|]. exists o, s.
      assert (C : cutout_at (cf_file cf) iobj icut o s) by (split; [exact E|]; split; [lia|exact S]).
      split; [exact C|]. split; [exact (check_ok _ _ _ _ _ _ HO C)|lia].
    + right. split; [intros o' s (A & B & _); assert (o' = o) by congruence; subst; lia|].
      unfold check_iobj_icutout. rewrite (obj_row _ _ iobj HO), E. cbn [option_map row_of co_ncutout].
      replace ((icut <? 0) || (o_ncut o <=? icut)) with true by lia. reflexivity.
    + right. split; [intros o' s (A & B & _); assert (o' = o) by congruence; subst; lia|].
      unfold check_iobj_icutout. rewrite (obj_row _ _ iobj HO), E. cbn [option_map row_of co_ncutout].
      replace ((icut <? 0) || (o_ncut o <=? icut)) with true by lia. reflexivity.
  - right. split; [intros o s (A & _); congruence|]. unfold check_iobj_icutout. rewrite (obj_row _ _ iobj HO), E. reflexivity.
Qed.

Lemma slot_0 iobj icut o s : cutout_at (cf_file cf) iobj icut o s -> o_ncut o <= zlen (o_slots o) -> exists s0, zget (o_slots o) 0 = Some s0.
Proof. intros (_ & B & _) R. apply zget_range_Some. lia. Qed.

Lemma cen_safe iobj icut : exists x, c_get_cutout_cen m iobj icut = Ok x /\
  (fst (fst x) = true <-> exists o s, cutout_at (cf_file cf) iobj icut o s).
Proof.
  unfold c_get_cutout_cen. destruct (check_any iobj icut) as [(o & s & C & -> & R)|[N ->]].
  - pose proof C as (C1 & C2 & C3). cbn [row_of co_crow co_ccol].
    rewrite (mem_load _ s_crow _ _ _ _ R C2 C3). cbn [bind]. rewrite (mem_load _ s_ccol _ _ _ _ R C2 C3). cbn [bind].
    eexists. split; [reflexivity|]. split; [eauto|reflexivity].
  - eexists. split; [reflexivity|]. split; [discriminate|]. intros (o & s & C). destruct (N o s C).
Qed.

Lemma file_id_safe iobj icut : exists x, c_get_source_file_id m iobj icut = Ok x /\
  forall o s, cutout_at (cf_file cf) iobj icut o s -> x = s_file s.
Proof.
  unfold c_get_source_file_id. destruct (check_any iobj icut) as [(o & s & C & -> & R)|[N ->]].
  - pose proof C as (C1 & C2 & C3). cbn [row_of co_file]. rewrite (mem_load _ s_file _ _ _ _ R C2 C3). eexists. split; [reflexivity|].
    intros o' s' (D1 & D2 & D3). congruence.
  - eexists. split; [reflexivity|]. intros o s C. destruct (N o s C).
Qed.

Lemma distortion_safe iobj icut : exists x, c_get_distortion m iobj icut = Ok x /\
  (x <> None <-> exists o s, cutout_at (cf_file cf) iobj icut o s).
Proof.
  unfold c_get_distortion. destruct (check_any iobj icut) as [(o & s & C & -> & R)|[N ->]].
  - destruct (slot_0 _ _ _ _ C R) as [s0 S0]. pose proof C as (C1 & C2 & C3). cbn [row_of co_dist].
    rewrite (mem_load _ distortion_of _ _ 0 _ R ltac:(lia) S0). cbn [bind]. eexists. split; [reflexivity|]. split; [eauto|discriminate].
  - eexists. split; [reflexivity|]. split; [congruence|]. intros (o & s & C). destruct (N o s C).
Qed.

Lemma info_exact iobj icut :
  (c_get_source_info m iobj icut = Err IndexError /\
     exists o s, cutout_at (cf_file cf) iobj icut o s /\ zlen (m_info (cf_file cf)) <= s_file s) \/
  (exists x, c_get_source_info m iobj icut = Ok x /\
     forall o s, cutout_at (cf_file cf) iobj icut o s -> s_file s < zlen (m_info (cf_file cf))).
Proof.
  unfold c_get_source_info, c_get_source_file_id. destruct (meds_open_inv _ _ HO) as (_ & EI & _).
  pose proof (zlen_nonneg (m_info (cf_file cf))) as NN.
  destruct (check_any iobj icut) as [(o & s & C & -> & R)|[N ->]].
  - pose proof C as (C1 & C2 & C3). cbn [row_of co_file]. rewrite (mem_load _ s_file _ _ _ _ R C2 C3). cbn [bind].
    assert (U : forall o' s', cutout_at (cf_file cf) iobj icut o' s' -> s' = s) by (intros o' s' (D1 & D2 & D3); congruence).
    destruct (s_file s <? 0) eqn:E.
    + right. eexists. split; [reflexivity|]. intros o' s' C'. rewrite (U _ _ C'). lia.
    + unfold mem. rewrite EI. destruct (zget (m_info (cf_file cf)) (s_file s)) as [i|] eqn:Z0.
      * right. eexists. split; [reflexivity|]. intros o' s' C'. rewrite (U _ _ C'). apply zget_Some_range in Z0. lia.
      * left. split; [reflexivity|]. exists o, s. split; [exact C|].
        destruct (Z_lt_ge_dec (s_file s) (zlen (m_info (cf_file cf)))) as [L|L]; [|lia].
        destruct (zget_range_Some (m_info (cf_file cf)) (s_file s)) as [i I]; [lia|congruence].
  - right. cbn. eexists. split; [reflexivity|]. intros o s C. destruct (N o s C).
Qed.

(** Pixels. *)
Lemma slice_len {A} (l : list A) a b xs : slice l a b = Ok xs -> zlen xs = b - a.
Proof.
  unfold slice. destruct (_ && _) eqn:E; [|discriminate]. intros H. injection H as <-.
  unfold zlen in *. rewrite firstn_length, skipn_length. lia.
Qed.
Lemma data_len t a n xs : get_cutout_data m t a n = Some xs -> zlen xs = n.
Proof.
  unfold get_cutout_data. destruct (ext_find _ t) as [mos|]; [|discriminate]. destruct (slice mos a (a + n)) as [ys|] eqn:E; [|discriminate].
  intros H. injection H as <-. apply slice_len in E. lia.
Qed.

Lemma cutout_safe t iobj icut : exists x, c_get_cutout m t iobj icut = Ok x /\
  forall ci, x = Some ci -> exists o s, cutout_at (cf_file cf) iobj icut o s /\
    ci_cutout_nrow ci = o_box o /\ ci_cutout_ncol ci = o_box o /\
    forall r c, 0 <= r < o_box o -> 0 <= c < o_box o -> exists p, CUTOUT_GET ci r c = Ok p.
Proof.
  unfold c_get_cutout, c_get_cutoutp. destruct (check_any iobj icut) as [(o & s & C & -> & R)|[N ->]].
  - pose proof C as (C1 & C2 & C3). cbn [row_of co_start co_box]. rewrite (mem_load _ s_start _ _ _ _ R C2 C3). cbn [bind].
    destruct (get_cutout_data m t (s_start s) (o_box o * o_box o)) as [xs|] eqn:E; cbn [bind].
    + eexists. split; [reflexivity|]. intros ci H. injection H as <-. exists o, s. split; [exact C|]. split; [reflexivity|]. split; [reflexivity|].
      intros r c Hr Hc. apply data_len in E. destruct (zget_range_Some xs (r * o_box o + c)) as [p P]; [nia|].
      exists p. apply cutout_get_px; [lia|exact P].
    + eexists. split; [reflexivity|]. discriminate.
  - eexists. split; [reflexivity|]. discriminate.
Qed.

Lemma mosaic_safe t iobj : exists x, c_get_mosaic m t iobj = Ok x /\
  forall ci, x = Some ci -> exists o, zget (m_cat (cf_file cf)) iobj = Some o /\
    ci_ncutout ci = o_ncut o /\ ci_cutout_nrow ci = o_box o /\ ci_cutout_ncol ci = o_box o /\
    forall k r c, 0 <= k < o_ncut o -> 0 <= r < o_box o -> 0 <= c < o_box o -> exists p, MOSAIC_GET ci k r c = Ok p.
Proof.
  unfold c_get_mosaic, c_get_mosaicp. destruct (check_any iobj 0) as [(o & s & C & -> & R)|[N ->]].
  - pose proof C as (C1 & C2 & C3). cbn [row_of co_start co_box co_ncutout]. rewrite (mem_load _ s_start _ _ _ _ R C2 C3). cbn [bind].
    destruct (get_cutout_data m t (s_start s) (o_box o * o_box o * o_ncut o)) as [xs|] eqn:E; cbn [bind].
    + eexists. split; [reflexivity|]. intros ci H. injection H as <-. exists o. split; [exact C1|]. split; [reflexivity|]. split; [reflexivity|]. split; [reflexivity|].
      intros k r c Hk Hr Hc. apply data_len in E.
      assert (B1 : 0 <= k * o_box o) by nia. assert (B2 : k * o_box o + r < o_ncut o * o_box o) by nia.
      assert (B3 : 0 <= (k * o_box o + r) * o_box o) by nia.
      assert (B4 : (k * o_box o + r) * o_box o + c < o_ncut o * o_box o * o_box o) by nia.
      destruct (zget_range_Some xs ((k * o_box o + r) * o_box o + c)) as [p P]; [lia|].
      exists p. now apply mosaic_get_px.
    + eexists. split; [reflexivity|]. discriminate.
  - eexists. split; [reflexivity|]. discriminate.
Qed.
End Any.
