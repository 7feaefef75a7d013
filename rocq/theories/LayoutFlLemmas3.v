(** The layout in doubles and the layout in exact numbers. *)
From Coq Require Import Qabs Lqa Lia ZifyBool.
From Verif Require Import Base BaseLemmas Img Types MakerLayout Typed SpecTyped SpecLayout LayoutFl SpecLayoutFl LayoutFlLemmas LayoutFlLemmas2
  MakerWrite MakerFile SpecTiles SpecFile MakerLemmas ExampleData.
Open Scope Z_scope.

Lemma int_part_unique x t : int_part x t -> t = qtrunc x.
Proof.
  intros H. pose proof (int_part_trunc x) as T. set (s := qtrunc x) in *. clearbody s.
  destruct H as [(A & B & C)|(A & B & C)], T as [(A' & B' & C')|(A' & B' & C')]; try (exfalso; lra).
  - assert (H1 : (inject_Z t < inject_Z (s + 1))%Q) by (rewrite inject_Z_plus; change (inject_Z 1) with 1%Q; lra). assert (H2 : (inject_Z s < inject_Z (t + 1))%Q) by (rewrite inject_Z_plus; change (inject_Z 1) with 1%Q; lra).
    rewrite <- Zlt_Qlt in H1, H2. clear - H1 H2. lia.
  - assert (H1 : (inject_Z t < inject_Z (s + 1))%Q) by (rewrite inject_Z_plus; change (inject_Z 1) with 1%Q; lra). assert (H2 : (inject_Z s < inject_Z (t + 1))%Q) by (rewrite inject_Z_plus; change (inject_Z 1) with 1%Q; lra).
    rewrite <- Zlt_Qlt in H1, H2. clear - H1 H2. lia.
Qed.

Lemma qtrunc_comp x y : (x == y)%Q -> qtrunc x = qtrunc y.
Proof.
  intros E. apply int_part_unique. pose proof (int_part_trunc x) as T. destruct T as [(A & B & C)|(A & B & C)]; [left|right]; repeat split; lra.
Qed.

Lemma agrees_accepted ub c f im o half :
  let r := snd (w_pos (im_wcs im) (o_ra o) (o_dec o) (color_arg c f o)) in
  let q := fst (w_pos (im_wcs im) (o_ra o) (o_dec o) (color_arg c f o)) in
  fi_sane (fimage_of c f im) -> coarse r -> coarse q -> coarse (im_offset im) -> coarse (spec_buffer c f) ->
  (SpecLayout.accepted c f im o <-> w_cut (im_wcs im) (o_ra o) (o_dec o) = true /\
     exists a b, fl_cutout ub (fimage_of c f im) half (Fin r) (Fin q) = Some (a, b)).
Proof.
  intros r q HS Cr Cq Co Cb.
  assert (B : buffer_of (fimage_of c f im) = spec_buffer c f).
  { unfold buffer_of, fimage_of, spec_buffer. cbn [fi_buffer]. destruct ((f =? 0) && first_image_is_coadd c); reflexivity. }
  rewrite (accepted_coarse ub (fimage_of c f im) half r q HS Cr Cq Co) by (rewrite B; exact Cb).
  rewrite B. unfold SpecLayout.accepted, spec_row, spec_col. fold r q. unfold fimage_of. cbn [fi_nrow fi_ncol].
  set (n := inject_Z (w_nrow (im_wcs im))). set (m := inject_Z (w_ncol (im_wcs im))). clearbody n m r q.
  split; intros H; destruct H as (H & H'); (split; [exact H|]); repeat split; lra.
Qed.

Lemma agrees_slot ub c images o box s im :
  let r := snd (w_pos (im_wcs im) (o_ra o) (o_dec o) (color_arg c (s_file s) o)) in
  let q := fst (w_pos (im_wcs im) (o_ra o) (o_dec o) (color_arg c (s_file s) o)) in
  fi_sane (fimage_of c (s_file s) im) -> half_sane (box / 2) -> coarse r -> coarse q -> coarse (im_offset im) ->
  zget images (s_file s) = Some im -> slot_describes c images o box s ->
  forall a b, fl_cutout ub (fimage_of c (s_file s) im) (box / 2) (Fin r) (Fin q) = Some (a, b) ->
  axis_is (s_orow s) (s_osr s) (s_crow s) a /\ axis_is (s_ocol s) (s_osc s) (s_ccol s) b.
Proof.
  intros r q HS HH Cr Cq Co Hz (im' & Hz' & D1 & D2 & D3 & D4 & D5 & D6 & _) a b E. rewrite Hz in Hz'. injection Hz' as <-.
  destruct (exact_coarse ub _ _ _ _ _ _ HS HH Cr Cq Co E) as (Ea & Eb).
  destruct (positions ub _ _ _ _ _ _ HS HH E) as (r' & q' & Er & Eq & Pa & Pb). injection Er as <-. injection Eq as <-.
  assert (K : forall x ax, axis_ok (box / 2) (offset_of (fimage_of c (s_file s) im)) x ax -> axis_exact (offset_of (fimage_of c (s_file s) im)) x ax ->
    axis_is (x - im_offset im)%Q (qtrunc (x - im_offset im) - box / 2 + 1) (x - im_offset im - inject_Z (qtrunc (x - im_offset im) - box / 2 + 1))%Q ax).
  { intros x ax (z & p & t & Z1 & Z2 & Z3 & Z4 & _) (z' & p' & Z1' & Z2' & Z5 & Z6). rewrite Z1 in Z1'. injection Z1' as <-. rewrite Z2 in Z2'. injection Z2' as <-.
    change (offset_of (fimage_of c (s_file s) im)) with (im_offset im) in *. apply int_part_unique in Z3. rewrite (qtrunc_comp _ _ Z5) in Z3.
    exists z, p. split; [exact Z1|]. split; [exact Z5|]. split; [rewrite Z4, Z3; reflexivity|]. split; [exact Z2|].
    rewrite <- Z3, <- Z4. set (st := inject_Z (ax_start ax)) in *. clearbody st. lra. }
  split.
  - rewrite D5, D3, D1. apply (K r a); assumption.
  - rewrite D6, D4, D2. apply (K q b); assumption.
Qed.

Lemma laid_out_doubles ub c images nslots o o' : laid_out c images nslots o o' -> half_sane (o_box o' / 2) ->
  (forall f im, zget images f = Some im -> fi_sane (fimage_of c f im) /\ coarse (im_offset im) /\ coarse (spec_buffer c f) /\
     coarse (fst (w_pos (im_wcs im) (o_ra o) (o_dec o) (color_arg c f o))) /\ coarse (snd (w_pos (im_wcs im) (o_ra o) (o_dec o) (color_arg c f o)))) ->
  let double := fun f im => let '(col, row) := w_pos (im_wcs im) (o_ra o) (o_dec o) (color_arg c f o) in
    fl_cutout ub (fimage_of c f im) (o_box o' / 2) (Fin row) (Fin col) in
  (forall f, In f (map s_file (firstn (Z.to_nat (o_ncut o')) (o_slots o'))) <->
     exists im, zget images f = Some im /\ w_cut (im_wcs im) (o_ra o) (o_dec o) = true /\ double f im <> None) /\
  (forall k s, zget (o_slots o') k = Some s -> k < o_ncut o' -> exists im a b, zget images (s_file s) = Some im /\ double (s_file s) im = Some (a, b) /\
     axis_is (s_orow s) (s_osr s) (s_crow s) a /\ axis_is (s_ocol s) (s_osc s) (s_ccol s) b).
Proof.
  intros L HH HC double. destruct L as (_ & _ & _ & _ & _ & _ & _ & _ & L1 & L2 & _ & LF & LS).
  assert (DD : forall f im, double f im = fl_cutout ub (fimage_of c f im) (o_box o' / 2)
     (Fin (snd (w_pos (im_wcs im) (o_ra o) (o_dec o) (color_arg c f o)))) (Fin (fst (w_pos (im_wcs im) (o_ra o) (o_dec o) (color_arg c f o))))).
  { intros f im. unfold double. destruct (w_pos _ _ _ _) as [col row]. reflexivity. }
  assert (NE : forall f im, double f im <> None <-> exists a b, double f im = Some (a, b)).
  { intros f im. destruct (double f im) as [[a b]|]; split; intros H; [do 2 eexists; reflexivity|discriminate|destruct (H eq_refl)|destruct H as (a & b & H); discriminate]. }
  assert (AC : forall f im, zget images f = Some im -> (SpecLayout.accepted c f im o <-> w_cut (im_wcs im) (o_ra o) (o_dec o) = true /\ double f im <> None)).
  { intros f im Hz. destruct (HC f im Hz) as (S & C1 & C2 & C3 & C4). rewrite NE, DD. apply agrees_accepted; assumption. }
  split.
  - intros f. rewrite LF. split; intros (im & Hz & H); exists im; (split; [exact Hz|]); apply (AC f im Hz); exact H.
  - intros k s Hk Hn. destruct (LS k s Hk) as (D & _). specialize (D Hn). destruct D as (im & Hz & D).
    assert (I : In (s_file s) (map s_file (firstn (Z.to_nat (o_ncut o')) (o_slots o')))).
    { apply in_map. pose proof (zget_Some_range _ _ _ Hk) as R. unfold zget in Hk. replace (k <? 0) with false in Hk by lia.
      apply nth_error_In with (n := Z.to_nat k). rewrite nth_error_firstn. replace (Z.to_nat k <? Z.to_nat (o_ncut o'))%nat with true by (symmetry; apply Nat.ltb_lt; lia). exact Hk. }
    apply LF in I. destruct I as (im' & Hz' & A). rewrite Hz in Hz'. injection Hz' as <-. apply (AC _ _ Hz) in A. destruct A as (_ & A). apply NE in A. destruct A as (a & b & A).
    exists im, a, b. split; [exact Hz|]. split; [exact A|]. destruct (HC _ _ Hz) as (S & C1 & C2 & C3 & C4). rewrite DD in A.
    apply (agrees_slot ub c images o (o_box o') s im S HH C4 C3 C1 Hz) with (a := a) (b := b); [|exact A]. exists im. split; [exact Hz|exact D].
Qed.

Lemma written_doubles ub k types rows psf input junk pjunk f objs :
  make_meds k types rows psf input junk pjunk = Ok f -> selected (k_l k) (map ir_image rows) input objs ->
  forall i o o', zget objs i = Some o -> zget (m_cat f) i = Some o' -> half_sane (o_box o' / 2) ->
  (forall fid im, zget (map ir_image rows) fid = Some im -> image_coarse (k_l k) fid im o) ->
  (forall fid, In fid (map s_file (used_slots o')) <->
     exists im, zget (map ir_image rows) fid = Some im /\ w_cut (im_wcs im) (o_ra o) (o_dec o) = true /\
       double_cutout ub (k_l k) fid im o (o_box o' / 2) <> None) /\
  (forall icut s, cutout_at f i icut o' s -> exists im a b, zget (map ir_image rows) (s_file s) = Some im /\
     double_cutout ub (k_l k) (s_file s) im o (o_box o' / 2) = Some (a, b) /\
     axis_is (s_orow s) (s_osr s) (s_crow s) a /\ axis_is (s_ocol s) (s_osc s) (s_ccol s) b).
Proof.
  intros H Hs i o o' Ho Ho' HH HC. destruct (written_rows _ _ _ _ _ _ _ _ _ H Hs) as (n & _ & _ & _ & R).
  destruct (laid_out_doubles ub _ _ _ _ _ (R i o o' Ho Ho') HH HC) as (A & B). split; [exact A|].
  intros icut s (_ & Hk & Hz). apply (B icut s Hz). exact (proj2 Hk).
Qed.

Lemma coarse_quarter (x : Q) : (Z.pos (Qden x) | 2 ^ 20) -> coarse x.
Proof.
  intros (k & Hk). exists (Qnum x * k). destruct x as [n d]. cbn [Qnum Qden] in *. change (2 ^ 20) with 1048576 in *.
  change (n # d == inject_Z (n * k) / inject_Z 1048576)%Q. unfold Qeq, Qdiv, Qmult, Qinv, inject_Z. cbn [Qnum Qden].
  change (1 * 1048576)%positive with 1048576%positive. rewrite Hk. lia.
Qed.

Lemma coarse_b (x : Q) : (2 ^ 20 mod Z.pos (Qden x) =? 0) = true -> coarse x.
Proof. intros H. apply coarse_quarter, Z.mod_divide; [discriminate|]. apply Z.eqb_eq. exact H. Qed.

Lemma ex_coarse o fid im : In o ex_objs -> zget (map ir_image ex_rows) fid = Some im -> image_coarse (k_l ex_conf) fid im o.
Proof.
  intros Ho Hz. pose proof (zget_Some_range _ _ _ Hz) as R. change (zlen (map ir_image ex_rows)) with 3 in R.
  assert (F1 : is_float true 1). { exists 1, 0. split; [reflexivity|]. split; [lia|]. split; [lia|]. vm_compute. reflexivity. }
  assert (E : fid = 0 \/ fid = 1 \/ fid = 2) by (clear - R; lia).
  assert (B : coarse (spec_buffer (k_l ex_conf) fid)) by (destruct E as [->|[->| ->]]; apply coarse_b; reflexivity).
  assert (I : fi_sane (fimage_of (k_l ex_conf) fid im) /\ coarse (im_offset im)).
  { destruct E as [->|[->| ->]]; injection Hz as <-; (split; [|apply coarse_b; reflexivity]);
      (split; [cbn; lia|]); (split; [cbn; lia|]); (split; [exists 1%Q; split; [reflexivity|]; split; [exact F1|vm_compute; intros H; discriminate H]|]);
      cbn; try exact Logic.I. exists 1%Q. split; [reflexivity|]. split; [exact F1|]. split; vm_compute; intros H; discriminate H. }
  split; [exact (proj1 I)|]. split; [exact (proj2 I)|]. split; [exact B|].
  destruct Ho as [<-|[<-|[<-|[]]]]; destruct E as [->|[->| ->]]; injection Hz as <-; split; apply coarse_b; reflexivity.
Qed.
