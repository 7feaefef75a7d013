(** The coadder gives a result. *)
From Coq Require Import Lia ZifyBool ZifyNat Qabs.
From Verif Require Import Base BaseLemmas Img ImgLemmas Types Reader BoundsM MakerLayout MakerWrite Composite Coadd
  SpecTiles SpecFile SpecComposite SpecCoadd ReadLemmas CalibLemmas CompositeLemmas CompositeLemmas2 CompositeLemmas3 OutlierLemmas FileLemmas WriteLemmas
  CoaddLemmas CoaddLemmas2 CoaddLemmas3 CoaddLemmas4 CoaddLemmas5 CoaddLemmas6.
Open Scope Z_scope.

Lemma mapM_total {X Y} (g : X -> res Y) xs : (forall x, In x xs -> exists y, g x = Ok y) -> exists ys, mapM g xs = Ok ys.
Proof.
  induction xs as [|x xs IH]; intros H; [eexists; reflexivity|]. destruct (H x (or_introl eq_refl)) as (y & Y1). destruct IH as (ys & YS); [intros; apply H; right; assumption|].
  cbn [mapM]. rewrite Y1. cbn [bind]. rewrite YS. cbn [bind]. eexists. reflexivity.
Qed.

Lemma get_row_total {A} (im : img A) r : img_ok im -> 0 <= r < nr im -> exists l, get_row im r = Ok l.
Proof.
  intros H R. unfold get_row. apply mapM_total. intros k K. apply In_zrange in K.
  destruct (px_in im r k H R K) as (v & V). exists v. apply px_res_ok. exact V.
Qed.
Lemma get_col_total {A} (im : img A) k : img_ok im -> 0 <= k < nc im -> exists l, get_col im k = Ok l.
Proof.
  intros H R. unfold get_col. apply mapM_total. intros r K. apply In_zrange in K.
  destruct (px_in im r k H K R) as (v & V). exists v. apply px_res_ok. exact V.
Qed.
Lemma any_side_total {A} (p : A -> bool) im : img_ok im -> 0 < nr im -> 0 < nc im -> exists x, any_side p im = Ok x.
Proof.
  intros H R K. unfold any_side. replace ((nr im =? 0) || (nc im =? 0)) with false by lia.
  destruct (get_row_total im 0 H) as (a & ->); [lia|]. destruct (get_row_total im (nr im - 1) H) as (b & ->); [lia|].
  destruct (get_col_total im 0 H) as (c & ->); [lia|]. destruct (get_col_total im (nc im - 1) H) as (d & ->); [lia|]. cbn [bind]. eexists. reflexivity.
Qed.

Lemma cutout_flag_total c wt bm : c_edge_check c = true -> img_ok wt -> img_ok bm -> 0 < nr wt -> 0 < nc wt -> nr bm = nr wt -> nc bm = nc wt ->
  exists fl, cutout_flag c bm wt = Ok fl.
Proof.
  intros HE H HB R K S1 S2. unfold cutout_flag. destruct (hits_the_edge c bm); [eexists; reflexivity|].
  destruct (zip_some c wt bm H R K S1 S2 HB) as (x & ->). cbn [bind]. destruct (qltb _ x); [eexists; reflexivity|].
  destruct (central_total c wt bm H HB S1 S2) as (y & ->). cbn [bind]. destruct y; [eexists; reflexivity|].
  unfold ps_edge_pixels_are_masked. rewrite HE. destruct (any_side_total (fun w => Qeq_bool w 0) wt H R K) as (z & ->). cbn [bind].
  destruct z; [cbn [bind]; eexists; reflexivity|]. destruct (bad_flags c) as [bf|].
  - destruct (any_side_total (has_flag (Some bf)) bm HB) as (z & ->); [lia|lia|]. cbn [bind]. destruct z; [eexists; reflexivity|].
    destruct (negb _); eexists; reflexivity.
  - cbn [bind]. destruct (negb _); eexists; reflexivity.
Qed.

(** A cutout that is used has a usable pixel. *)
Lemma used_has_good c wt bm : (c_max_masked_frac c < 1)%Q -> img_ok wt -> img_ok bm -> 0 < nr wt -> 0 < nc wt -> nr bm = nr wt -> nc bm = nc wt ->
  cutout_flag c bm wt = Ok 0 ->
  exists r k, 0 <= r < nr wt /\ 0 <= k < nc wt /\ ~ unusable_px (total_mask (c_bmask_flags c)) wt bm (r, k).
Proof.
  intros HF H HB R K S1 S2 E. unfold cutout_flag in E. destruct (hits_the_edge c bm); [discriminate|]. apply bind_ok in E. destruct E as (fr & FR & E).
  destruct (qltb (c_max_masked_frac c) fr) eqn:Q; [discriminate|]. clear E. apply qltb_false in Q. unfold get_mask_frac in FR.
  apply bind_ok in FR. destruct FR as (z & Z & FR). dif_in FR EZ; [discriminate|]. inversion FR; subst fr; clear FR.
  pose proof (img_zip_ok _ _ _ _ H HB Z) as (_ & _ & Z1 & Z2 & Z3 & Z6). pose proof Z1 as (A1 & A2 & A3). pose proof HB as (B1 & B2 & B3).
  assert (LZ : zlen (dat z) = zlen (dat bm)) by congruence.
  assert (X : existsb negb (dat z) = true).
  { destruct (existsb negb (dat z)) eqn:X; [reflexivity|]. exfalso. assert (F : filter (fun x : bool => x) (dat z) = dat z).
    { clear - X. induction (dat z) as [|b l IH]; [reflexivity|]. cbn [existsb] in X. apply orb_false_iff in X. destruct X as (X1 & X2). destruct b; [|discriminate]. cbn [filter]. rewrite IH by exact X2. reflexivity. }
    rewrite F, LZ in Q. assert (P : (inject_Z (zlen (dat bm)) / inject_Z (zlen (dat bm)) == 1)%Q).
    { unfold Qdiv. apply Qmult_inv_r. assert (0 < inject_Z (zlen (dat bm)))%Q by (apply inject_pos; pose proof (zlen_nonneg (dat bm)); lia). intros N. rewrite N in H0. discriminate. }
    rewrite P in Q. apply (Qlt_not_le _ _ HF). exact Q. }
  apply existsb_exists in X. destruct X as (b & I & NB). destruct b; [discriminate|]. apply (In_dat_px z false Z1) in I. destruct I as (r & k & P).
  destruct (px_Some_range _ _ _ _ P) as (R1 & K1). exists r, k. split; [lia|]. split; [lia|]. intros (w & b & P1 & P2 & U). cbn [fst snd] in P1, P2.
  apply pix_bad_spec in U. destruct (px_in wt r k H) as (w' & W'); [lia|lia|].
  specialize (Z6 r k). rewrite P, P1, P2 in Z6. inversion Z6 as [E]. rewrite <- bad_flags_total in U. congruence.
Qed.

Lemma step_total c o f iobj ob b ims wts segs bms st k s : oracle_total o -> c_edge_check c = true -> c_cubic c = true -> (c_max_masked_frac c < 1)%Q ->
  cutout_at f iobj (k + 1) ob s -> 0 < b ->
  (forall im, In im ims -> sq b im) -> (forall im, In im wts -> sq b im) -> (forall im, In im bms -> sq b im) ->
  0 <= k < zlen ims -> zlen wts = zlen ims -> zlen segs = zlen ims -> zlen bms = zlen ims -> zlen (snd st) = zlen ims ->
  exists st', obslist_step c o f iobj ims wts segs bms st k = Ok st' /\ zlen (snd st') = zlen ims.
Proof.
  intros (_ & OP & OI & _) HE HC HF CA B HI HW HB K L1 L2 L3 L4. unfold obslist_step.
  destruct (zget_range_Some ims k K) as (im & IM). destruct (zget_range_Some wts k) as (w & WT); [lia|]. destruct (zget_range_Some segs k) as (sg & SG); [lia|]. destruct (zget_range_Some bms k) as (m & BM); [lia|].
  rewrite (proj2 (py_index_ok_nonneg _ _ _ (proj1 K)) IM), (proj2 (py_index_ok_nonneg _ _ _ (proj1 K)) WT), (proj2 (py_index_ok_nonneg _ _ _ (proj1 K)) SG), (proj2 (py_index_ok_nonneg _ _ _ (proj1 K)) BM). cbn [bind].
  destruct (HI _ (zget_In _ _ _ IM)) as (I1 & I2 & I3). pose proof (HW _ (zget_In _ _ _ WT)) as SW. pose proof (HB _ (zget_In _ _ _ BM)) as SB.
  assert (D : exists w' m', (if c_symmetrize c then symmetrize_weight w else Ok w) = Ok w' /\ (if c_symmetrize c then symmetrize_bmask c m else Ok m) = Ok m' /\ sq b w' /\ sq b m').
  { destruct SW as (S1 & S2 & S3), SB as (T1 & T2 & T3). destruct (c_symmetrize c).
    - destruct (symmetrize_weight_total w S1) as (w' & W'); [lia|]. destruct (symmetrize_bmask_total c m T1) as (m' & M'); [lia|]. exists w', m'. split; [exact W'|]. split; [exact M'|].
      apply symmetrize_weight_ok in W'; [|exact S1]. apply symmetrize_bmask_ok in M'; [|exact T1|lia]. destruct W' as (_ & U1 & U2 & U3 & _), M' as (V1 & V2 & V3 & _). repeat split; try assumption; try lia; try apply U1; try apply V1.
    - exists w, m. repeat split; try assumption; try apply S1; try apply T1. }
  destruct D as (w' & m' & -> & -> & (S1 & S2 & S3) & (T1 & T2 & T3)). cbn [bind].
  destruct (cutout_flag_total c w' m' HE S1 T1) as (fl & FL); try lia. rewrite FL. cbn [bind]. dif E.
  - unfold modify. destruct (zget_range_Some (snd st) k) as (y & Y); [lia|]. unfold zget in Y. destruct (k <? 0) eqn:E2; [lia|]. rewrite Y. cbn [bind]. eexists. split; [reflexivity|].
    cbn [snd]. unfold zlen in *. rewrite upd_length. exact L4.
  - assert (fl = 0) by lia. subst fl. destruct CA as (C1 & C2 & C3). unfold get_jacobian. rewrite (check_indices_ok f iobj (k + 1) ob C1 C2). cbn [bind]. rewrite (rowcol_ok _ _ _ _ _ C1 C3). cbn [bind]. rewrite (get_slot_ok _ _ _ C3). cbn [bind].
    match goal with |- context [or_psf o _ ?j] => destruct (OP (k + 1) j) as (p & ->) end. cbn [bind].
    destruct (interp_total_spec c o (k + 1) im w' m' OI HC I1 S1 T1) as (im' & wt' & noise & n & -> & _); try lia; [apply used_has_good; try assumption; lia|].
    cbn [bind]. eexists. split; [reflexivity|]. exact L4.
Qed.

Lemma image_total f iobj ob s0 seg jm cen : file_wf f -> cutout_at f iobj 0 ob s0 -> get_cutout f iobj 0 TSeg = Ok seg -> ~ (jac_det s0 == 0)%Q ->
  exists im, interpolate_coadd_seg_image f iobj jm cen = Ok im.
Proof.
  intros W CA G D. destruct (cutout_square _ _ _ _ _ _ _ W CA G) as ((T1 & T2 & T3) & Hb). destruct CA as (A & B & C).
  unfold interpolate_coadd_seg_image. rewrite G, (jacmat_ok f iobj 0 ob s0 A C), (rowcol_ok f iobj 0 ob s0 A C). cbn [bind].
  destruct (mat_inv (slot_mat s0)) as [inv|e] eqn:Ei.
  2:{ unfold mat_inv, slot_mat in Ei. destruct (Qeq_bool _ 0) eqn:Eq; [|discriminate]. apply Qeq_bool_iff in Eq. contradiction. }
  cbn [bind]. apply tab2M_exists; [lia|lia|]. intros r k R K. destruct jm as [[[j1 j2] j3] j4].
  match goal with |- context [to_coadd _ _ ?cc _ _ _ _ _] => set (ce := cc); destruct ce as [c1 c2] eqn:CE end. clear CE ce.
  set (s := mkSlot 0 0 0 0 0 0 c1 c2 j1 j2 j3 j4 0 0 0 0 0 0).
  destruct (to_coadd_spec s0 s inv (nr seg) (nc seg) r k ltac:(lia) ltac:(lia) Ei) as (X & Y & i & j & _ & _ & _ & _ & _ & T6 & T7).
  change (slot_mat s) with (j1, j2, j3, j4) in *. change (slot_cen s) with (c1, c2) in *.
  destruct (to_coadd _ _ _ _ _ _ _ _) as [cr cc]. cbn [fst snd] in *.
  destruct (px_in seg cr cc T1 T6 T7) as (v & Hv). exists v. apply px_res_ok. exact Hv.
Qed.

Lemma get_coadd_obs_total c o f jm iobj ob s0 : file_wf f -> cutout_at f iobj 0 ob s0 -> ~ (jac_det s0 == 0)%Q ->
  (forall t, In t [TImage; TWeight; TBmask; TSeg] -> exists m, ext_find (m_ext f) t = Some m) ->
  c_edge_check c = true -> c_cubic c = true -> (c_max_masked_frac c < 1)%Q -> oracle_total o -> reject_keeps_shapes o ->
  exists r flags, get_coadd_obs c o f jm iobj = Ok (r, flags).
Proof.
  intros W CA D EX HE HC HF OT OR. pose proof CA as (A & BN & S0).
  assert (HB : 0 < o_box ob) by (destruct W as (W & _); rewrite Forall_forall in W; apply (W ob (zget_In _ _ _ A))).
  destruct (EX TImage) as (mi & MI); [cbn; tauto|]. destruct (EX TWeight) as (mw & MW); [cbn; tauto|]. destruct (EX TBmask) as (mb & MB); [cbn; tauto|]. destruct (EX TSeg) as (ms & MS); [cbn; tauto|].
  destruct (mosaic_blocks f iobj ob TImage mi W A ltac:(lia) MI) as (_ & li & _ & _ & _ & _ & LI & NI & _).
  destruct (mosaic_blocks f iobj ob TWeight mw W A ltac:(lia) MW) as (_ & lw & _ & _ & _ & _ & LW & NW & _).
  destruct (mosaic_blocks f iobj ob TBmask mb W A ltac:(lia) MB) as (_ & lb & _ & _ & _ & _ & LB & NB & _).
  destruct (get_cutout_eq f iobj 0 ob s0 TSeg ms W CA MS) as (sx & _ & SEG & _).
  destruct (cutout_list_shapes _ _ _ _ _ A LI) as (_ & _ & _ & SI). destruct (cutout_list_shapes _ _ _ _ _ A LW) as (_ & _ & _ & SW). destruct (cutout_list_shapes _ _ _ _ _ A LB) as (_ & _ & _ & SB).
  assert (OB : exists l fl, get_obslist c o f iobj = Ok (l, fl) /\ (l <> [] -> fl <> None)).
  { unfold get_obslist. rewrite LI. cbn [bind]. dif E1; [eexists; eexists; split; [reflexivity|congruence]|]. rewrite LW, LB. cbn [bind].
    destruct li as [|i0 li]; [unfold zlen in NI; cbn [length] in NI; lia|]. destruct lw as [|w0 lw]; [unfold zlen in NW; cbn [length] in NW; lia|]. destruct lb as [|b0 lb]; [unfold zlen in NB; cbn [length] in NB; lia|].
    rewrite zlen_cons in NI, NW, NB. cbn [tl].
    assert (RW : exists lw', (if c_reject c then or_reject o li lw else Ok lw) = Ok lw' /\ zlen lw' = zlen lw /\ forall im, In im lw' -> sq (o_box ob) im).
    { destruct (c_reject c).
      - destruct OT as (O1 & _). destruct (O1 li lw) as (lw' & RJ). exists lw'. split; [exact RJ|]. eapply reject_shapes; [exact OR|exact RJ|]. intros; apply SW; right; assumption.
      - exists lw. split; [reflexivity|]. split; [reflexivity|]. intros; apply SW; right; assumption. }
    destruct RW as (lw' & -> & NW' & SW'). cbn [bind].
    destruct (mapM_total (fun i => interpolate_coadd_seg f iobj (i + 1)) (zrange (zlen li))) as (segs & SG).
    { intros k K. apply In_zrange in K. destruct (slots_exist f ob (k + 1) W (zget_In _ _ _ A)) as (s & S); [lia|].
      assert (CK : cutout_at f iobj (k + 1) ob s) by (split; [exact A|split; [lia|exact S]]).
      destruct (interpolation_semantics f iobj (k + 1) ob s0 s _ W CK S0 SEG (or_intror D)) as (im & X & _). exists im. exact X. }
    rewrite SG. cbn [bind]. pose proof (mapM_ok_length _ _ _ SG) as LS.
    assert (FT : forall n st, Z.of_nat n <= zlen li -> zlen (snd st) = zlen li -> exists st', foldM (obslist_step c o f iobj li lw' segs (map (imap qtrunc) lb)) (zrange (Z.of_nat n)) st = Ok st' /\ zlen (snd st') = zlen li).
    { induction n as [|n IH]; intros st N LL; [exists st; split; [reflexivity|exact LL]|]. rewrite zrange_S, foldM_app. destruct (IH st ltac:(lia) LL) as (st1 & -> & L1). cbn [bind foldM].
      destruct (slots_exist f ob (Z.of_nat n + 1) W (zget_In _ _ _ A)) as (s & S); [lia|].
      destruct (step_total c o f iobj ob (o_box ob) li lw' segs (map (imap qtrunc) lb) st1 (Z.of_nat n) s OT HE HC HF) as (st2 & -> & L2); try assumption; try lia.
      - split; [exact A|]. split; [lia|exact S].
      - intros; apply SI; right; assumption.
      - intros im I. apply in_map_iff in I. destruct I as (x & <- & I). destruct (SB x (or_intror I)) as ((X1 & X2 & X3) & X4 & X5). split; [|split; [exact X4|exact X5]].
        split; [exact X1|]. split; [exact X2|]. cbn [dat imap nr nc]. rewrite zlen_map. exact X3.
      - unfold zlen. rewrite LS. change (zlen (zrange (zlen li)) = zlen li). rewrite zlen_zrange; [reflexivity|apply zlen_nonneg].
      - rewrite zlen_map. lia.
      - cbn [bind]. exists st2. split; [reflexivity|exact L2]. }
    destruct (FT (length li) ([], map (fun _ => 0) (zrange (zlen li)))) as (st' & FS & _); [unfold zlen; lia|cbn [snd]; rewrite zlen_map, zlen_zrange; [reflexivity|apply zlen_nonneg]|].
    change (Z.of_nat (length li)) with (zlen li) in FS. rewrite FS.
    cbn [bind]. eexists. eexists. split; [reflexivity|discriminate]. }
  destruct OB as (l & fl & OB & FN). unfold get_coadd_obs. rewrite OB. cbn [bind]. destruct l as [|ob0 l]; [eexists; eexists; reflexivity|].
  destruct fl as [fl|]; [|exfalso; apply FN; congruence].
  destruct (get_obslist_spec c o f iobj ob _ _ OR A OB) as [(_ & X & _)|(_ & ims & wts & bms & ds & _ & DE & _ & _ & _ & SQ)]; [discriminate|].
  assert (BM : forall x, In x (ob0 :: l) -> sq (o_box ob) (ob_bmask x)).
  { destruct DE as (_ & _ & F2). intros x I. apply In_nth_error in I. destruct I as (n & N).
    assert (exists d, In d ds /\ ob_bmask x = d_bm d) as (d & I & ->).
    { clear - F2 N. revert n N. remember (filter _ ds) as fs eqn:EF. assert (SUB : forall d, In d fs -> In d ds) by (intros d I; subst fs; apply filter_In in I; apply I). clear EF.
      induction F2 as [|d y fs' l' (R1 & _) F2 IH]; intros [|n] N; try discriminate.
      - cbn in N. inversion N; subst y. exists d. split; [apply SUB; left; reflexivity|exact R1].
      - eapply IH; [intros; apply SUB; right; assumption|exact N]. }
    apply SQ. exact I. }
  assert (OM : forall xs m0, (forall x, In x xs -> sq (o_box ob) (ob_bmask x)) -> sq (o_box ob) m0 -> exists m, foldM (fun m x => img_lor m (ob_bmask x)) xs m0 = Ok m).
  { induction xs as [|x xs IH]; intros m0 HX HM; [eexists; reflexivity|]. cbn [foldM]. destruct (HX x (or_introl eq_refl)) as (X1 & X2 & X3). destruct HM as (M1 & M2 & M3).
    destruct (img_zip_exists Z.lor m0 (ob_bmask x)) as (m1 & E1); [lia|lia|]. unfold img_lor at 1. rewrite E1. cbn [bind]. apply IH; [intros; apply HX; right; assumption|].
    apply img_zip_ok in E1; [|exact M1|exact X1]. destruct E1 as (_ & _ & E1 & E2 & E3 & _). split; [exact E1|]. split; lia. }
  destruct (OM (ob0 :: l) (imap (fun b => b * 0) (ob_bmask ob0)) BM) as (m & ->).
  { destruct (BM ob0 (or_introl eq_refl)) as ((X1 & X2 & X3) & X4 & X5). split; [|split; [exact X4|exact X5]]. split; [exact X1|]. split; [exact X2|]. cbn [dat imap nr nc]. rewrite zlen_map. exact X3. }
  cbn [bind]. destruct OT as (_ & _ & _ & O4). destruct (O4 (ob0 :: l)) as ([[[[[[x1 x2] x3] x4] x5] x6] x7] & ->); [discriminate|]. cbn [bind].
  destruct (image_total f iobj ob s0 _ jm None W CA SEG D) as (seg & ->). cbn [bind]. eexists. eexists. reflexivity.
Qed.

Lemma coadd_flags c o f jm iobj ob r flags : reject_keeps_shapes o -> zget (m_cat f) iobj = Some ob ->
  get_coadd_obs c o f jm iobj = Ok (r, flags) ->
  (o_ncut ob = 1 /\ r = None /\ flags = 1) \/
  (1 < o_ncut ob /\ exists ims wts bms ds obslist, epoch_maps c o f iobj ims wts bms /\ decided c ims wts bms ds obslist /\
     zlen ds = o_ncut ob - 1 /\
     match r with
     | None => zeros (map d_flag ds) = 0 /\ flags = 1
     | Some co => 0 < zeros (map d_flag ds) /\ flags = 0 /\ co_ncoadd co = zeros (map d_flag ds) /\ co_imflags co = map d_flag ds
     end).
Proof.
  intros R O H. destruct (get_coadd_obs_spec _ _ _ _ _ _ _ _ R O H) as [X|(N & ims & wts & bms & ds & ol & E & D & L & M)]; [left; exact X|right].
  split; [exact N|]. exists ims, wts, bms, ds, ol. split; [exact E|]. split; [exact D|]. split; [exact L|].
  destruct r as [co|]; [|exact M]. destruct M as (M1 & M2 & M3 & M4 & _). auto.
Qed.
Lemma one_bit c wt bm fl : first_reason c wt bm fl -> fl = 0 \/ fl = 2 \/ fl = 4 \/ fl = 8 \/ fl = 16 \/ fl = 32.
Proof. apply first_reason_flag. Qed.

Lemma coadd_masks c o f jm iobj ob co flags : reject_keeps_shapes o -> zget (m_cat f) iobj = Some ob ->
  get_coadd_obs c o f jm iobj = Ok (Some co, flags) ->
  exists ims wts bms ds obslist, epoch_maps c o f iobj ims wts bms /\ decided c ims wts bms ds obslist /\
    square_of (o_box ob) (co_bmask co) /\ square_of (o_box ob) (co_ormask co) /\
    (forall p q v, px (co_bmask co) p q = Some v -> v = 0) /\
    forall p q, 0 <= p < o_box ob -> 0 <= q < o_box ob ->
      exists v, px (co_ormask co) p q = Some v /\
        forall i, Z.testbit v i = true <->
          exists d u, In d ds /\ d_flag d = 0 /\ px (d_bm d) p q = Some u /\ Z.testbit u i = true.
Proof.
  intros R O H. destruct (get_coadd_obs_spec _ _ _ _ _ _ _ _ R O H) as [(_ & X & _)|(N & ims & wts & bms & ds & ol & E & D & L & M)]; [discriminate|].
  destruct M as (M1 & M2 & M3 & M4 & M5 & M6 & M7 & M8). exists ims, wts, bms, ds, ol. auto 8.
Qed.

Lemma add_types_in ct t : In t ct \/ t = TOrmask \/ t = TNoise -> In t (add_types ct).
Proof.
  intros I. unfold add_types. cbn [fold_left].
  assert (X : forall l u, (if existsb (ctype_eqb u) l then l else l ++ [u]) = l \/ (if existsb (ctype_eqb u) l then l else l ++ [u]) = l ++ [u]) by (intros; destruct (existsb _ _); tauto).
  assert (Y : forall l u, In u (if existsb (ctype_eqb u) l then l else l ++ [u])).
  { intros l u. destruct (existsb _ _) eqn:E; [|apply in_or_app; right; left; reflexivity]. apply existsb_exists in E. destruct E as (v & V & E). apply ctype_eqb_eq in E. subst. exact V. }
  destruct I as [I|[-> | ->]].
  - destruct (X (if existsb (ctype_eqb TOrmask) ct then ct else ct ++ [TOrmask]) TNoise) as [-> | ->]; try (apply in_or_app; left); destruct (X ct TOrmask) as [-> | ->]; try (apply in_or_app; left); exact I.
  - destruct (X (if existsb (ctype_eqb TOrmask) ct then ct else ct ++ [TOrmask]) TNoise) as [-> | ->]; try (apply in_or_app; left); apply Y.
  - apply Y.
Qed.
Lemma file_layout f ct tp junk pjunk coadder rg rows f' : stamp_shapes f coadder -> range_from_zero rg -> 0 <= tp ->
  write_coadds f ct tp junk pjunk coadder rg = Ok (rows, f') ->
  m_cat f' = map cr_obj rows /\ zlen rows = zlen (m_cat f) /\
  exists e, tiles 0 (cut_ranges (m_cat f')) e /\ e <= reserved_pixels f /\
     forall t, In t ct \/ t = TOrmask \/ t = TNoise -> exists m, ext_find (m_ext f') t = Some m /\ zlen m = reserved_pixels f.
Proof.
  intros S R T H. assert (L : 0 <= lo_of rg) by (destruct rg as [[a b]|]; cbn in *; lia).
  destruct (write_coadds_ok _ _ _ _ _ _ _ _ _ S L T H) as (A & B & (e & C1 & C2 & C3) & _). split; [exact A|]. split; [exact B|].
  exists e. split; [exact C1|]. split; [exact C2|]. intros t I. apply C3, add_types_in. exact I.
Qed.

Lemma file_pixels f ct tp junk pjunk coadder rg rows f' j co fl : stamp_shapes f coadder -> range_from_zero rg -> 0 <= tp ->
  write_coadds f ct tp junk pjunk coadder rg = Ok (rows, f') -> asked f rg j -> 0 <= j < zlen (m_cat f) -> coadder j = Ok (Some co, fl) ->
  (forall t, In t ct \/ t = TOrmask \/ t = TNoise -> get_cutout f' j 0 t = Ok (coadd_plane co t)) /\ get_psf f' j 0 = Ok (co_psf co).
Proof.
  intros S R T H. assert (L : 0 <= lo_of rg) by (destruct rg as [[a b]|]; cbn in *; lia).
  destruct (write_coadds_ok _ _ _ _ _ _ _ _ _ S L T H) as (_ & _ & _ & C & _). intros A J X. destruct (C j co fl A J X) as (C1 & C2). split; [|exact C2]. intros t I. apply C1, add_types_in. exact I.
Qed.

Lemma file_rows f ct tp junk pjunk coadder rg rows f' j r : stamp_shapes f coadder -> range_from_zero rg -> 0 <= tp ->
  write_coadds f ct tp junk pjunk coadder rg = Ok (rows, f') -> zget rows j = Some r ->
  exists o, zget (m_cat f) j = Some o /\ o_box (cr_obj r) = o_box o /\ cr_orig_ncutout r = o_ncut o - 1 /\
       o_id (cr_obj r) = o_id o /\ o_number (cr_obj r) = o_number o /\
     ((exists co fl rest, asked f rg j /\ coadder j = Ok (Some co, fl) /\ o_ncut (cr_obj r) = 1 /\
         cr_coadd_flags r = fl /\ cr_ncoadd r = co_ncoadd co /\ cr_orig_flags r = co_imflags co ++ rest) \/
      (exists fl, asked f rg j /\ coadder j = Ok (None, fl) /\ o_ncut (cr_obj r) = 0 /\
         cr_coadd_flags r = fl /\ cr_ncoadd r = 0 /\ forall x, In x (cr_orig_flags r) -> x = -9999) \/
      (~ asked f rg j /\ o_ncut (cr_obj r) = 0 /\ cr_coadd_flags r = 0 /\ cr_ncoadd r = 0 /\ forall x, In x (cr_orig_flags r) -> x = -9999)).
Proof.
  intros S R T H. assert (L : 0 <= lo_of rg) by (destruct rg as [[a b]|]; cbn in *; lia).
  destruct (write_coadds_ok _ _ _ _ _ _ _ _ _ S L T H) as (_ & _ & _ & _ & C). exact (C j r).
Qed.

Lemma file_written f ct tp junk pjunk coadder rg : stamp_shapes f coadder -> range_inside f rg ->
  m_cat f <> [] -> m_number_col f = true -> Forall (fun o => o_slots o <> []) (m_cat f) ->
  (forall j, asked f rg j -> exists x fl, coadder j = Ok (x, fl) /\
     forall co o, x = Some co -> zget (m_cat f) j = Some o -> zlen (co_imflags co) <= o_ncut o - 1) ->
  psf_space f coadder rg tp ->
  exists rows f', write_coadds f ct tp junk pjunk coadder rg = Ok (rows, f').
Proof.
  intros S R NE. apply write_coadds_total; try assumption; destruct rg as [[a b]|]; cbn in *; lia.
Qed.

(** The coadder's results can be written. *)
Lemma coadds_written c o f jm ct tp junk pjunk rg : reject_keeps_shapes o -> coadds_stamps o -> oracle_total o ->
  file_wf f -> m_cat f <> [] -> m_number_col f = true ->
  (forall j ob, zget (m_cat f) j = Some ob -> exists s0, 0 < o_ncut ob /\ zget (o_slots ob) 0 = Some s0 /\ ~ (jac_det s0 == 0)%Q) ->
  (forall t, In t [TImage; TWeight; TBmask; TSeg] -> exists m, ext_find (m_ext f) t = Some m) ->
  c_edge_check c = true -> c_cubic c = true -> (c_max_masked_frac c < 1)%Q ->
  range_inside f rg -> psf_space f (get_coadd_obs c o f jm) rg tp ->
  exists rows f', write_coadds f ct tp junk pjunk (get_coadd_obs c o f jm) rg = Ok (rows, f').
Proof.
  intros R S T W NE NC OB EX HE HC HF RG PS. apply file_written; try assumption.
  - apply coadder_stamps; assumption.
  - apply Forall_forall. intros ob I. apply In_zget in I. destruct I as (j & J). destruct (OB j ob J) as (s0 & _ & Z0 & _). intros N. rewrite N in Z0. destruct (zget_Some_range _ _ _ Z0). unfold zlen in *. cbn [length] in *. lia.
  - intros j A. assert (RJ : 0 <= j < zlen (m_cat f)) by (destruct rg as [[a b]|]; cbn in *; lia). destruct (zget_range_Some _ _ RJ) as (ob & J). destruct (OB j ob J) as (s0 & N & Z0 & D).
    destruct (get_coadd_obs_total c o f jm j ob s0) as (x & fl & G); try assumption; [split; [exact J|split; [lia|exact Z0]]|].
    exists x, fl. split; [exact G|]. intros co ob' -> J'. rewrite J in J'. inversion J'; subst ob'.
    destruct (coadd_flags _ _ _ _ _ _ _ _ R J G) as [(_ & X & _)|(_ & ims & wts & bms & ds & ol & _ & _ & LD & _ & _ & _ & ->)]; [discriminate|]. rewrite zlen_map. lia.
Qed.

Lemma reasons_recorded f ct tp junk pjunk coadder rg rows f' j r : stamp_shapes f coadder -> range_from_zero rg -> 0 <= tp ->
  write_coadds f ct tp junk pjunk coadder rg = Ok (rows, f') -> zget rows j = Some r -> o_ncut (cr_obj r) <> 0 ->
  exists co fl rest, coadder j = Ok (Some co, fl) /\ cr_orig_flags r = co_imflags co ++ rest.
Proof.
  intros S R T H J N. destruct (file_rows _ _ _ _ _ _ _ _ _ _ _ S R T H J) as (o & _ & _ & _ & _ & _ & X).
  destruct X as [(co & fl & rest & _ & C & _ & _ & _ & E)|[(fl & _ & _ & X & _)|(_ & X & _)]]; [|contradiction..]. exists co, fl, rest. split; assumption.
Qed.
