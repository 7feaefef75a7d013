(** Proofs about box sizes below zero. *)
From Coq Require Import String Lia ZifyBool.
From Verif Require Import Base BaseLemmas Img ImgLemmas Types MakerLayout MakerWrite MakerFile SpecTiles SpecLayout SpecFile LayoutLemmas ReadLemmas FileLemmas MakerLemmas.
Open Scope Z_scope.

Lemma foldM_each {S X} (f : S -> X -> res S) xs : forall s s', foldM f xs s = Ok s' -> forall x, In x xs -> exists a b, f a x = Ok b.
Proof.
  induction xs as [|y xs IH]; intros s s' H x Hx; [destruct Hx|]. cbn [foldM] in H. apply bind_ok in H. destruct H as (s1 & H1 & H2).
  destruct Hx as [<-|Hx]; [exists s, s1; exact H1|]. exact (IH _ _ H2 x Hx).
Qed.

Lemma stamp_box {A} (fill : res A) b r c im x : make_stamp fill b r c im = Ok x -> 0 <= b.
Proof.
  unfold make_stamp. destruct (get_clipped_boxes _ _ _) as [[? ?] [? ?]]. destruct (get_clipped_boxes _ _ _) as [[? ?] [? ?]].
  destruct (b <? 0) eqn:E; intros H; [discriminate|lia].
Qed.

Lemma written_box_one {A} (fill : res A) cat nfile read hdu hdu' : write_cutouts fill cat nfile read hdu = Ok hdu' ->
  (forall f im, read f = Ok im -> im <> None) ->
  forall o icut s, In o cat -> 0 <= icut < o_ncut o -> zget (o_slots o) icut = Some s -> 0 <= s_file s < nfile -> 0 <= o_box o.
Proof.
  intros H HR o icut s Ho Hi Hs Hf. unfold write_cutouts in H.
  destruct (foldM_each _ _ _ _ H (s_file s)) as (a & b & E); [apply In_zrange; exact Hf|].
  apply bind_ok in E. destruct E as (im & Ei & E). destruct im as [im|]; [|destruct (HR _ _ Ei eq_refl)].
  unfold write_file_cutouts in E. destruct (foldM_each _ _ _ _ E o Ho) as (a1 & b1 & E1).
  destruct (foldM_each _ _ _ _ E1 icut) as (a2 & b2 & E2); [apply In_zrange; exact Hi|].
  rewrite (get_slot_ok _ _ _ Hs) in E2. cbn [bind] in E2. rewrite Z.eqb_refl in E2.
  unfold write_cutout in E2. rewrite (get_slot_ok _ _ _ Hs) in E2. cbn [bind] in E2. apply bind_ok in E2. destruct E2 as (st & E2 & _).
  exact (stamp_box _ _ _ _ _ _ E2).
Qed.

Lemma types_have_image types tys : types_of types tys -> In TImage tys.
Proof.
  intros (names & N & M). unfold set_cutout_types in N. destruct (existsb _ (_ :: _)); [discriminate|]. injection N as <-.
  cbn [mapM] in M. apply bind_ok in M. destruct M as (t & Ht & M). apply bind_ok in M. destruct M as (ts & _ & M). injection M as <-.
  cbn in Ht. injection Ht as <-. left. reflexivity.
Qed.

Lemma written_box k types rows psf input junk pjunk f : make_meds k types rows psf input junk pjunk = Ok f ->
  forall i icut o s, cutout_at f i icut o s -> 0 <= o_box o.
Proof.
  intros H i icut o s (Ho & Hi & Hs). pose proof (written_selected _ _ _ _ _ _ _ _ H) as (objs & Hsel).
  destruct (written_rows _ _ _ _ _ _ _ _ _ H Hsel) as (n & L & _ & _ & R).
  apply make_meds_layout in H. destruct H as (tys & objs' & nslots & total & cat0 & H1 & _ & _ & _ & _ & _ & _ & _ & H9 & _).
  pose proof (types_have_image _ _ H1) as TI.
  unfold write_types in H9. destruct (foldM_each _ _ _ _ H9 TImage TI) as (a & b & E).
  destruct (ext_find a TImage) as [hdu|]; [|discriminate]. apply bind_ok in E. destruct E as (hdu' & E & _).
  pose proof (zget_Some_range _ _ _ Ho) as Rg. destruct (zget_range_Some objs i) as (o0 & Ho0); [lia|].
  destruct (R i o0 o Ho0 Ho) as (_ & _ & _ & _ & _ & _ & _ & _ & _ & _ & _ & _ & D). destruct (D icut s Hs) as (D1 & _).
  destruct (D1 (proj2 Hi)) as (im & Hz & _). apply zget_Some_range in Hz. rewrite zlen_map in Hz.
  refine (written_box_one _ _ _ _ _ _ E _ o icut s (zget_In _ _ _ Ho) Hi Hs _); [|rewrite zlen_map; exact Hz].
  intros fid im0 Hr. apply bind_ok in Hr. destruct Hr as (src & _ & Hr). unfold read_image in Hr.
  apply bind_ok in Hr. destruct Hr as (p & _ & Hr). apply bind_ok in Hr. destruct Hr as (q & _ & Hr).
  destruct p as [p|]; [|discriminate]. apply bind_ok in Hr. destruct Hr as (x & _ & Hr). injection Hr as <-. discriminate.
Qed.

Lemma written_input_box k types rows psf input junk pjunk f objs : make_meds k types rows psf input junk pjunk = Ok f ->
  selected (k_l k) (map ir_image rows) input objs ->
  forall i o fid im, zget objs i = Some o -> zget (map ir_image rows) fid = Some im -> accepted (k_l k) fid im o -> -1 <= o_box o.
Proof.
  intros H Hsel i o fid im Ho Hf Ha. destruct (written_rows _ _ _ _ _ _ _ _ _ H Hsel) as (n & L & _ & _ & R).
  pose proof (zget_Some_range _ _ _ Ho) as Rg. destruct (zget_range_Some (m_cat f) i) as (o' & Ho'); [lia|].
  destruct (written_files _ _ _ _ _ _ _ _ _ H Hsel i o o' Ho Ho') as (F1 & _ & F3).
  assert (I : In fid (map s_file (used_slots o'))) by (apply F3; exists im; split; assumption).
  apply in_map_iff in I. destruct I as (s & _ & I). apply In_zget in I. destruct I as (icut & I).
  pose proof (zget_Some_range _ _ _ I) as Ri. rewrite F1 in Ri.
  assert (Hs : zget (o_slots o') icut = Some s).
  { unfold used_slots, zget in I. unfold zget. destruct (icut <? 0); [discriminate|]. rewrite nth_error_firstn in I. destruct (_ <? _)%nat; [exact I|discriminate]. }
  pose proof (written_box _ _ _ _ _ _ _ _ H i icut o' s) as B.
  assert (0 <= o_box o') by (apply B; repeat split; try assumption; lia).
  destruct (R i o o' Ho Ho') as (_ & _ & _ & _ & _ & _ & _ & Bx & _). rewrite Bx in *. lia.
Qed.

Lemma unset_refused k types rows psf input junk pjunk objs : selected (k_l k) (map ir_image rows) input objs ->
  forall o fid im, In o objs -> o_box o = DEFVAL -> zget (map ir_image rows) fid = Some im -> accepted (k_l k) fid im o ->
  exists e, make_meds k types rows psf input junk pjunk = Err e.
Proof.
  intros Hsel o fid im Ho Hb Hf Ha. destruct (make_meds k types rows psf input junk pjunk) as [f|e] eqn:E; [exfalso|eexists; reflexivity].
  apply In_zget in Ho. destruct Ho as (i & Ho). pose proof (written_input_box _ _ _ _ _ _ _ _ _ E Hsel i o fid im Ho Hf Ha) as B.
  rewrite Hb in B. unfold DEFVAL in B. lia.
Qed.
