(** A maker asked to write a second time. *)
From Coq Require Import String Lia ZifyBool Sorted.
From Verif Require Import Base Img Types Reader MakerLayout MakerWrite MakerFile SpecTiles SpecLayout SpecFile.
From Verif Require Import BaseLemmas ImgLemmas LayoutLemmas StartLemmas BuildLemmas WriteLemmas StampLemmas CalibLemmas FileLemmas ReadLemmas
  MakerLemmas MakerLemmas4 CatLemmas2 AgainLemmas AgainLemmas2.
Open Scope Z_scope.

Lemma maker_write_make k types rows psf input m0 junk pjunk m1 f1 :
  new_maker k types rows psf input = Ok m0 -> write m0 junk pjunk = Ok (m1, f1) ->
  make_meds k types rows psf input junk pjunk = Ok f1 /\ mk_cat m1 = m_cat f1 /\ mk_rows m1 = rows /\ mk_psf m1 = psf /\
  k_l (mk_conf m1) = k_l k /\ k_unusable (mk_conf m1) = k_unusable k /\ types_of types (k_types (mk_conf m1)).
Proof.
  intros N W. split; [unfold make_meds; rewrite N; cbn [bind]; rewrite W; reflexivity|].
  unfold new_maker in N. apply bind_ok in N. destruct N as (names & A & N). apply bind_ok in N. destruct N as (tys & B & N). apply bind_ok in N. destruct N as (u & _ & N).
  injection N as <-. unfold write in W. cbn [mk_conf mk_rows mk_psf mk_cat] in W. apply bind_ok in W. destruct W as ([[cat tot] tp] & _ & W).
  apply bind_ok in W. destruct W as (f & D & W). assert (f = f1) by congruence. subst f. assert (E : m1 = mkMaker (mkMconf (k_l k) (k_p k) (k_unusable k) tys (k_joblib k) (k_njob k) (k_number_col k)) rows psf cat) by congruence.
  subst m1. cbn [mk_cat mk_rows mk_psf mk_conf k_l k_unusable k_types].
  split; [|repeat split; exists names; auto]. unfold write_data in D. apply bind_ok in D. destruct D as (ext & _ & D). apply bind_ok in D. destruct D as (p & _ & D).
  injection D as <-. reflexivity.
Qed.

(** A stored cutout, whatever catalog the file was written from. *)
Lemma stored_cutout u srcs tys total junk f : file_wf f -> Forall source_ok srcs -> tiles 0 (cut_ranges (m_cat f)) total ->
  write_types u (m_cat f) srcs tys (reserve tys total junk) = Ok (m_ext f) ->
  forall iobj icut o s t v src im, cutout_at f iobj icut o s -> In t tys -> fill_value t = Some v ->
    zget srcs (s_file s) = Some src -> read_image u src t = Ok (Some im) ->
    get_cutout f iobj icut t = Ok (crop v im (s_osr s) (s_osc s) (o_box o)).
Proof.
  intros Hwf Hs HT W iobj icut o s t v src im Hc Ht Hv Hz Hr.
  assert (Hcw : cat_wf (m_cat f)) by (apply cat_wf_weaken; exact (proj1 Hwf)).
  pose proof (tiles_le _ _ _ HT) as Ht0.
  destruct (write_types_content u (m_cat f) srcs total Hcw Hs HT tys _ _ (fun t m E => reserve_len tys total junk t m Ht0 E) W) as (W1 & W2 & W3 & W4 & W5).
  destruct (W4 t Ht) as (m & Hm & Hcon). destruct Hc as (Ho & Hk & Hsl).
  assert (Hin : In (o, icut, s) (cat_keys (m_cat f))).
  { apply in_cat_keys'; [eapply Forall_impl; [|exact (proj1 Hwf)]; simpl; tauto|]. split; [eapply zget_In; exact Ho|]. split; assumption. }
  destruct (cut_in_range f iobj icut o s t m Hwf) as (R1 & R2 & R3); [repeat split; try eassumption; lia|exact Hm|].
  eapply get_cutout_content; [exact Hwf|repeat split; try eassumption; lia|exact Hm|..].
  - apply crop_ok. lia.
  - reflexivity.
  - reflexivity.
  - intros j Hj. apply (Hcon v Hv (o, icut, s) _ im Hin Hz Hr j Hj).
Qed.

Lemma second_layout m1 junk pjunk r : write m1 junk pjunk = Ok r ->
  exists cat2 n2, build_layout (k_l (mk_conf m1)) (map ir_image (mk_rows m1)) (mk_cat m1) = Ok (cat2, n2).
Proof.
  intros H. unfold write in H. apply bind_ok in H. destruct H as (l & L & _). unfold full_layout in L. apply bind_ok in L. destruct L as ((cat2 & n2) & L & _). eauto.
Qed.

Lemma second_write_fails k types rows psf input m0 junk pjunk m1 f1 o junk' pjunk' :
  new_maker k types rows psf input = Ok m0 -> write m0 junk pjunk = Ok (m1, f1) ->
  In o (m_cat f1) -> 2 <= o_ncut o -> write m1 junk' pjunk' = Err IndexError.
Proof.
  intros N W I O. destruct (maker_write_make _ _ _ _ _ _ _ _ _ _ N W) as (M & EC & ER & EP & EL & _).
  apply make_meds_layout in M. destruct M as (tys & objs & ns & total & cat0 & H1 & H2 & H3 & H4 & H5 & H6 & H7 & H8 & _).
  unfold write, full_layout. rewrite EC, ER, EL.
  destruct (build_layout (k_l k) (map ir_image rows) (m_cat f1)) as [[cat2 n2]|e] eqn:B.
  - exfalso. pose proof (again_small (k_l k) (map ir_image rows) input objs (m_cat f1) ns H2 H3 H4 H5 H6 cat2 n2 B) as S.
    rewrite Forall_forall in S. specialize (S o I). lia.
  - rewrite (again_error (k_l k) (map ir_image rows) input objs (m_cat f1) ns H2 H3 H4 H5 H6 H8 e B). reflexivity.
Qed.

Lemma Forall2_zget_l {A B} (R : A -> B -> Prop) l l' : Forall2 R l l' -> forall i a, zget l i = Some a -> exists b, zget l' i = Some b /\ R a b.
Proof.
  intros F i a H. unfold zget in *. destruct (i <? 0); [discriminate|]. revert H. generalize (Z.to_nat i). induction F as [|x y l l' K F IH]; intros n H; destruct n; cbn in *; try discriminate.
  - injection H as ->. eauto.
  - eauto.
Qed.

Lemma second_write k types rows input m0 junk pjunk m1 f1 junk' pjunk' m2 f2 :
  Forall (fun o => 1 <= o_box o) input -> Forall (fun r => source_ok (ir_src r)) rows ->
  new_maker k types rows None input = Ok m0 -> write m0 junk pjunk = Ok (m1, f1) -> write m1 junk' pjunk' = Ok (m2, f2) ->
  zlen (m_cat f2) = zlen (m_cat f1) /\ map fst (m_ext f2) = map fst (m_ext f1) /\
  forall i o1, zget (m_cat f1) i = Some o1 -> o_ncut o1 <= 1 /\
    exists o2, zget (m_cat f2) i = Some o2 /\ o_id o2 = o_id o1 /\ o_box o2 = o_box o1 /\ o_ncut o2 = 2 * o_ncut o1 /\
      forall icut s t v row, cutout_at f2 i icut o2 s -> In t (map fst (m_ext f1)) -> fill_value t = Some v ->
        zget rows (s_file s) = Some row -> has_file (ir_src row) t ->
        (exists s1, cutout_at f1 i 0 o1 s1 /\ s_file s1 = s_file s) /\
        exists im, get_cutout f1 i 0 t = Ok im /\ get_cutout f2 i icut t = Ok im.
Proof.
  intros Hb Hsrc N W W'. destruct (maker_write_make _ _ _ _ _ _ _ _ _ _ N W) as (M & EC & ER & EP & EL & EU & TY).
  pose proof (written_file_wf _ _ _ _ _ _ _ _ Hb M) as Hwf1.
  apply make_meds_layout in M. destruct M as (tys & objs & ns & total & cat0 & H1 & H2 & H3 & H4 & H5 & H6 & H7 & H8 & H9 & _).
  assert (tys = k_types (mk_conf m1)).
  { destruct H1 as (n1 & A1 & B1). destruct TY as (n2 & A2 & B2). assert (n2 = n1) by congruence. subst n2. congruence. }
  subst tys.
  unfold write, full_layout in W'. rewrite EC, ER, EL, EP in W'. apply bind_ok in W'. destruct W' as ([[cat2 n2] tp] & L & W').
  apply bind_ok in L. destruct L as ((cat2' & n2') & B & L). cbn [fst snd] in L. injection L as -> -> <-.
  apply bind_ok in W'. destruct W' as (f2' & D & E). assert (f2' = f2) by congruence. subst f2'. clear E.
  unfold write_data in D. apply bind_ok in D. destruct D as (ext & WT & D). cbn [bind] in D. injection D as <-. cbn [m_cat m_ext].
  destruct (again_inv (k_l k) (map ir_image rows) input objs (m_cat f1) ns H2 H3 H4 H5 H6 cat2 n2 B) as (RW & TI & CW).
  assert (Z2 : 0 <= n2) by (eapply tiles_le; exact TI).
  rewrite EU in WT.
  destruct (write_types_len (k_unusable k) cat2 (map ir_src rows) (k_types (mk_conf m1)) n2 _ _ (fun t m E => reserve_len _ n2 junk' t m Z2 E) WT) as (X1 & X2).
  rewrite reserve_fst in X1.
  destruct (write_types_len (k_unusable k) (m_cat f1) (map ir_src rows) (k_types (mk_conf m1)) total _ _ (fun t m E => reserve_len _ total junk t m (tiles_le _ _ _ H7) E) H9) as (Y1 & Y2).
  rewrite reserve_fst in Y1.
  assert (Hwf2 : file_wf (mkMeds cat2 (k_number_col (mk_conf m1)) PsfNone (map ir_info rows) ext None)).
  { split; cbn [m_cat m_ext].
    - destruct Hwf1 as (Q & _). clear -RW CW Q. induction RW as [|a b l l' K F IH]; [constructor|]. inversion CW; inversion Q; subst. constructor; [|auto].
      split; [assumption|]. destruct K as (_ & K & _). rewrite K. tauto.
    - intros t m Hm. rewrite (X2 t m Hm). exact TI. }
  assert (Hs : Forall source_ok (map ir_src rows)) by (apply Forall_map; exact Hsrc).
  split; [clear -RW; unfold zlen; induction RW; cbn [length]; lia|]. split; [congruence|].
  intros i o1 G1. destruct (Forall2_zget_l _ _ _ RW i o1 G1) as (o2 & G2 & (P & BX & SM & DB & _ & V)).
  split; [exact SM|]. exists o2. split; [exact G2|]. split; [exact (proj2 (proj2 (proj2 (proj2 P))))|]. split; [exact BX|]. split; [exact DB|].
  intros icut s t v row C2 Ht Hv Hrow Hf. pose proof C2 as (_ & K1 & K2). cbn [m_cat] in *.
  destruct (V icut s K2 (proj2 K1)) as (s1 & Z1 & SV). destruct SV as (E1 & _ & _ & E4 & E5 & _).
  assert (C1 : cutout_at f1 i 0 o1 s1) by (split; [exact G1|split; [lia|exact Z1]]).
  split; [exists s1; split; [exact C1|congruence]|].
  assert (Hz : zget (map ir_src rows) (s_file s) = Some (ir_src row)) by (rewrite zget_map, Hrow; reflexivity).
  rewrite Y1 in Ht.
  assert (Hcw : cat_wf (m_cat f1)) by (apply cat_wf_weaken; exact (proj1 Hwf1)).
  destruct (write_types_content (k_unusable k) (m_cat f1) (map ir_src rows) total Hcw Hs H7 _ _ _ (fun t m E => reserve_len _ total junk t m (tiles_le _ _ _ H7) E) H9) as (_ & _ & _ & _ & W5).
  destruct (W5 t _ _ Ht Hz) as (oim & Hr). destruct (read_image_has_file _ _ _ _ Hr Hf) as (im & ->).
  exists (crop v im (s_osr s1) (s_osc s1) (o_box o1)). split.
  - eapply stored_cutout; [exact Hwf1|exact Hs|exact H7|exact H9|exact C1|exact Ht|exact Hv|rewrite <- E1; exact Hz|exact Hr].
  - rewrite <- E4, <- E5, <- BX. eapply stored_cutout; [exact Hwf2|exact Hs|exact TI|exact WT|exact C2|exact Ht|exact Hv|exact Hz|exact Hr].
Qed.

Lemma second_write_exact k types rows input m0 junk pjunk m1 f1 junk' pjunk' :
  Forall (fun o => 1 <= o_box o) input -> Forall (fun r => source_ok (ir_src r)) rows ->
  new_maker k types rows None input = Ok m0 -> write m0 junk pjunk = Ok (m1, f1) ->
  (forall t, In t (map fst (m_ext f1)) -> fill_value t <> None) ->
  (exists m2 f2, write m1 junk' pjunk' = Ok (m2, f2)) <-> Forall (fun o => o_ncut o <= 1) (m_cat f1).
Proof.
  intros Hb Hsrc N W FV. destruct (maker_write_make _ _ _ _ _ _ _ _ _ _ N W) as (M & EC & ER & EP & EL & EU & TY).
  pose proof (written_file_wf _ _ _ _ _ _ _ _ Hb M) as Hwf1.
  apply make_meds_layout in M. destruct M as (tys & objs & ns & total & cat0 & H1 & H2 & H3 & H4 & H5 & H6 & H7 & H8 & H9 & _).
  assert (tys = k_types (mk_conf m1)).
  { destruct H1 as (n1 & A1 & B1). destruct TY as (n2 & A2 & B2). assert (n2 = n1) by congruence. subst n2. congruence. }
  subst tys.
  split.
  - intros (m2 & f2 & W2). apply second_layout in W2. destruct W2 as (cat2 & n2 & B). rewrite EC, ER, EL in B.
    exact (again_small (k_l k) (map ir_image rows) input objs (m_cat f1) ns H2 H3 H4 H5 H6 cat2 n2 B).
  - intros SM. destruct (again_possible (k_l k) (map ir_image rows) input objs (m_cat f1) ns H2 H3 H4 H5 H6 H8 SM) as ((cat2 & n2) & B).
    destruct (again_inv (k_l k) (map ir_image rows) input objs (m_cat f1) ns H2 H3 H4 H5 H6 cat2 n2 B) as (RW & TI & CW).
    assert (Hs : Forall source_ok (map ir_src rows)) by (apply Forall_map; exact Hsrc).
    assert (Hcw : cat_wf (m_cat f1)) by (apply cat_wf_weaken; exact (proj1 Hwf1)).
    destruct (write_types_content (k_unusable k) (m_cat f1) (map ir_src rows) total Hcw Hs H7 _ _ _ (fun t m E => reserve_len _ total junk t m (tiles_le _ _ _ H7) E) H9) as (W1 & _ & _ & _ & W5).
    rewrite reserve_fst in W1.
    destruct (write_types_possible (k_unusable k) cat2 (map ir_src rows) n2 (k_types (mk_conf m1)) (reserve (k_types (mk_conf m1)) n2 junk')) as (ext & WT).
    + apply cat_wf_weaken. destruct Hwf1 as (Q & _). clear -RW CW Q. induction RW as [|a b l l' K F IH]; [constructor|]. inversion CW; inversion Q; subst. constructor; [|auto].
      split; [assumption|]. destruct K as (_ & K & _). rewrite K. tauto.
    + exact Hs.
    + exact TI.
    + intros t Ht. split; [apply FV; rewrite W1; exact Ht|]. intros src I. apply In_zget in I. destruct I as (f & I). exact (W5 t f src Ht I).
    + intros t Ht. rewrite reserve_fst. exact Ht.
    + intros t m. apply reserve_len. eapply tiles_le; exact TI.
    + eexists. eexists. unfold write, full_layout. rewrite EC, ER, EL, EP, B. cbn [bind fst snd]. unfold write_data. rewrite EU, WT. cbn [bind]. reflexivity.
Qed.
