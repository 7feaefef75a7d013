(** Positions, Jacobians and sources in the file of coadds. *)
From Coq Require Import Lia ZifyBool.
From Verif Require Import Base Img Types Reader MakerLayout MakerFile Composite Coadd SpecCoadd.
From Verif Require Import BaseLemmas CoaddLemmas5 CoaddLemmas6 CoaddLemmas8 ReadLemmas.
Open Scope Z_scope.

Lemma obj_data_slots f rows0 : coadd_obj_data f = Ok rows0 ->
  Forall2 (fun o r => exists s, get_slot o 0 = Ok s /\ o_slots (cr_obj r) = [coadd_slot s; empty_coadd_slot] /\
     o_ra (cr_obj r) = o_ra o /\ o_dec (cr_obj r) = o_dec o) (m_cat f) rows0.
Proof.
  unfold coadd_obj_data. intros H. apply bind_ok in H. destruct H as (m & _ & H). destruct (negb _); [discriminate|].
  revert rows0 H. generalize (Z.max (m - 1) 2). intros n. induction (m_cat f) as [|o l IH]; intros rows0 H; cbn [mapM] in H; [inversion H; constructor|].
  apply bind_ok in H. destruct H as (r & R & H). apply bind_ok in H. destruct H as (rs & RS & H). inversion H; subst rows0. constructor; [|apply IH; exact RS].
  unfold coadd_row in R. apply bind_ok in R. destruct R as (s & S & R). inversion R; subst r. exists s. cbn. auto.
Qed.

Lemma coadd_geometry f ct tp junk pjunk coadder rg rows f' j co fl o : stamp_shapes f coadder -> range_from_zero rg -> 0 <= tp ->
  write_coadds f ct tp junk pjunk coadder rg = Ok (rows, f') -> asked f rg j -> zget (m_cat f) j = Some o -> coadder j = Ok (Some co, fl) ->
  exists o' s s', zget (m_cat f') j = Some o' /\ o_ra o' = o_ra o /\ o_dec o' = o_dec o /\
    get_slot o 0 = Ok s /\ get_slot o' 0 = Ok s' /\
    s_orow s' = s_orow s /\ s_ocol s' = s_ocol s /\ s_osr s' = s_osr s /\ s_osc s' = s_osc s /\
    get_jacobian f' j 0 = Ok (co_jac co) /\
    forall i, zget (m_info f) 0 = Some i -> get_source_info f' j 0 = Ok i.
Proof.
  intros HS RG T H A O C. assert (L : 0 <= lo_of rg) by (destruct rg as [[a b]|]; cbn in *; lia).
  destruct (write_coadds_inv _ _ _ _ _ _ _ _ _ HS L T H) as (rows0 & st & RD & I & -> & ->).
  destruct (obj_data_ok _ _ RD) as (n & _ & _ & R1). pose proof (weaken_rows _ _ _ R1) as R0. pose proof (obj_data_slots _ _ RD) as RS.
  apply asked_iff in A. destruct (out_row f (add_types ct) coadder (lo_of rg) (hi_of f rg) rows0 R0 _ _ st I j co fl o C A O) as (r0 & r & Z0 & Z1 & B & F).
  destruct (Forall2_zget _ _ _ RS j r0 Z0) as (o1 & O1 & s & S1 & S2 & S3 & S4). rewrite O in O1. inversion O1; subst o1; clear O1.
  pose proof F as F'. unfold filled_row in F'. apply bind_ok in F'. destruct F' as (l1 & _ & F'). rewrite S2 in F'. inversion F' as [F2]. clear F'.
  destruct (filled_obj _ _ _ _ _ _ F) as (s0 & rest & P1 & P2 & _ & P4 & _). rewrite S2 in P1. injection P1 as <- <-.
  set (g := mkMeds _ _ _ _ _ _). exists (cr_obj r), s, (filled_slot (coadd_slot s) co (Sc f coadder (lo_of rg) (hi_of f rg) j) (Sp f coadder (lo_of rg) (hi_of f rg) j)).
  assert (G : zget (m_cat g) j = Some (cr_obj r)) by (cbn [g m_cat]; rewrite zget_map, Z1; reflexivity).
  assert (GS : get_slot (cr_obj r) 0 = Ok (filled_slot (coadd_slot s) co (Sc f coadder (lo_of rg) (hi_of f rg) j) (Sp f coadder (lo_of rg) (hi_of f rg) j))) by (unfold get_slot; rewrite P2; reflexivity).
  assert (CI : check_indices g j (Some 0) = Ok (cr_obj r)) by (apply check_indices_ok; [exact G|lia]).
  split; [exact G|]. split; [rewrite <- S3, <- F2; reflexivity|]. split; [rewrite <- S4, <- F2; reflexivity|]. split; [exact S1|]. split; [exact GS|].
  repeat (split; [reflexivity|]). pose proof (zget_Some_range _ _ _ G) as GR. split.
  - unfold get_jacobian, get_cutout_rowcol. rewrite CI. cbn [bind]. rewrite (proj2 (py_index_ok_nonneg (m_cat g) j (cr_obj r) (proj1 GR)) G). cbn [bind]. rewrite GS. cbn [bind fst snd filled_slot s_crow s_ccol s_dudrow s_dudcol s_dvdrow s_dvdcol].
    destruct (co_jac co). reflexivity.
  - intros i II. unfold get_source_info. rewrite CI. cbn [bind]. rewrite GS. cbn [bind]. cbn [filled_slot coadd_slot s_file g m_info].
    apply py_index_ok_nonneg; [lia|]. destruct (m_info f); [discriminate|exact II].
Qed.

Lemma coadd_source f ct tp junk pjunk coadder rg rows f' j co fl o s : stamp_shapes f coadder -> range_from_zero rg -> 0 <= tp ->
  write_coadds f ct tp junk pjunk coadder rg = Ok (rows, f') -> asked f rg j -> zget (m_cat f) j = Some o -> coadder j = Ok (Some co, fl) ->
  0 < o_ncut o -> zget (o_slots o) 0 = Some s -> s_file s = 0 -> m_info f <> [] ->
  get_source_info f' j 0 = get_source_info f j 0.
Proof.
  intros HS RG T H A O C N Z F NE. destruct (coadd_geometry _ _ _ _ _ _ _ _ _ _ _ _ _ HS RG T H A O C) as (o' & s0 & s' & _ & _ & _ & _ & _ & _ & _ & _ & _ & _ & G).
  destruct (m_info f) as [|i l] eqn:E; [contradiction|]. rewrite (G i eq_refl). symmetry. unfold get_source_info.
  rewrite (check_indices_ok f j 0 o O) by lia. cbn [bind]. unfold get_slot. rewrite (proj2 (py_index_ok_nonneg (o_slots o) 0 s (Z.le_refl 0)) Z). cbn [bind].
  rewrite F, E. reflexivity.
Qed.
