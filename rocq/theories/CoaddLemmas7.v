(** Witnesses and small facts on the coadder. *)
From Coq Require Import Lia ZifyBool ZifyNat String.
From Verif Require Import Base BaseLemmas Img ImgLemmas Types Reader BoundsM MakerLayout MakerWrite MakerFile Composite Coadd
  SpecTiles SpecFile SpecComposite SpecCoadd ReadLemmas FileLemmas CoaddLemmas CoaddLemmas2 CoaddLemmas3 CoaddLemmas4 CoaddLemmas5 CoaddLemmas6
  ExampleData ExampleCoadd.
From Verif Require MakerLemmas.
Open Scope Z_scope.

Lemma ex_reject_ok n : reject_keeps_shapes (ex_oracle n).
Proof.
  intros ims wts wts' OK H. cbn [ex_oracle or_reject] in H. unfold ex_reject in H.
  assert (K : forall l : list (img Q), Forall img_ok l -> Forall2 (fun w w' : img Q => img_ok w' /\ nr w' = nr w /\ nc w' = nc w) l l).
  { induction 1 as [|x l X XS IH]; constructor; [split; [exact X|split; reflexivity]|exact IH]. }
  destruct (rev wts) as [|w l] eqn:E; inversion H; subst; clear H.
  - assert (wts = []) by (rewrite <- (rev_involutive wts), E; reflexivity). subst. constructor.
  - assert (W : wts = rev l ++ [w]) by (rewrite <- (rev_involutive wts), E; reflexivity). rewrite W in *. apply Forall_app in OK. destruct OK as (O1 & O2).
    apply Forall2_app; [apply K; exact O1|]. constructor; [|constructor]. inversion O2 as [|? ? (A1 & A2 & A3) _]; subst.
    split; [|split; reflexivity]. split; [exact A1|]. split; [exact A2|]. cbn [dat nr nc]. unfold zlen in *. rewrite upd_length. exact A3.
Qed.
Lemma ex_stamps n : 0 < n -> coadds_stamps (ex_oracle n).
Proof.
  intros N. split.
  - intros icut j p H. cbn [ex_oracle or_psf] in H. inversion H; subst. split; [apply tab2_ok; lia|]. split; [exact N|reflexivity].
  - intros b l im wt noise jac psf r0 c0 F H. cbn [ex_oracle or_coadd] in H. destruct l as [|ob l]; [discriminate|]. inversion H; subst. inversion F; subst. assumption.
Qed.
Lemma ex_interp n : interp_total (ex_oracle n).
Proof. intros good vals bad _. cbn [ex_oracle or_interp]. eexists. split; [reflexivity|]. apply map_length. Qed.

Lemma ex_total n : oracle_total (ex_oracle n).
Proof.
  split; [intros ims wts; cbn; unfold ex_reject; destruct (rev wts); eexists; reflexivity|]. split; [intros; eexists; reflexivity|].
  split; [apply ex_interp|]. intros [|ob l] N; [congruence|]. eexists. reflexivity.
Qed.

Lemma ex_cfile_wf f : ex_cfile = Ok f -> file_wf f.
Proof.
  unfold ex_cfile. intros E. apply MakerLemmas.written_file_wf in E; [exact E|].
  unfold ex_cobjs. repeat (apply Forall_cons; [cbv [ex_obj o_box]; lia|]). constructor.
Qed.

Lemma not_invariant : exists wt wt' r k w v, img_ok wt /\ nr wt = nc wt /\ symmetrize_weight wt = Ok wt' /\
  px wt' r k = Some w /\ (w == 0)%Q /\ px wt' k (nc wt - 1 - r) = Some v /\ ~ (v == 0)%Q.
Proof.
  exists (mkImg 2 2 [0; 1; 1; 1]%Q), (mkImg 2 2 [0; 1; 0; 1]%Q), 0, 0, 0%Q, 1%Q.
  split; [unfold img_ok, zlen; cbn; lia|]. split; [reflexivity|]. split; [vm_compute; reflexivity|].
  split; [reflexivity|]. split; [reflexivity|]. split; [reflexivity|]. discriminate.
Qed.
Lemma bmask_not_invariant : exists c bm bm' r k x y, img_ok bm /\ nr bm = nc bm /\ symmetrize_bmask c bm = Ok bm' /\
  px bm' r k = Some x /\ flagged (total_mask (c_bmask_flags c)) x /\
  px bm' k (nc bm - 1 - r) = Some y /\ ~ flagged (total_mask (c_bmask_flags c)) y.
Proof.
  exists (ex_cconf [1] [8] true true true 1 1), (mkImg 2 2 [1; 0; 0; 0]), (mkImg 2 2 [1; 0; 1; 0]), 0, 0, 1, 0.
  split; [unfold img_ok, zlen; cbn; lia|]. split; [reflexivity|]. split; [vm_compute; reflexivity|].
  split; [reflexivity|]. split; [apply has_flag_spec; reflexivity|]. split; [reflexivity|]. apply has_flag_false. reflexivity.
Qed.
Lemma edge_bit_lost : exists c bm bm', img_ok bm /\ nr bm = nc bm /\ symmetrize_bmask c bm = Ok bm' /\
  edge_test c bm /\ ~ edge_test c bm'.
Proof.
  exists (ex_cconf [1] [8] true true true 1 1), (mkImg 2 2 [1; 0; 8; 0]), (mkImg 2 2 [1; 0; 1; 0]).
  assert (A : img_ok (mkImg 2 2 [1; 0; 8; 0])) by (unfold img_ok, zlen; cbn; lia).
  assert (B : img_ok (mkImg 2 2 [1; 0; 1; 0])) by (unfold img_ok, zlen; cbn; lia).
  split; [exact A|]. split; [reflexivity|]. split; [vm_compute; reflexivity|]. split; [apply edge_test_spec; [exact A|reflexivity]|].
  rewrite <- edge_test_spec by exact B. discriminate.
Qed.

Lemma overlap_missed : exists c w b fl, c_bmask_flags c = Some [1; 1] /\ (0 < w)%Q /\ In fl [1; 1] /\ Z.land b fl <> 0 /\ pix_bad (bad_flags c) w b = false.
Proof.
  exists (ex_cconf [1; 1] [8] true true true 1 1), 1%Q, 1, 1. split; [reflexivity|]. split; [reflexivity|]. split; [left; reflexivity|]. split; [discriminate|reflexivity].
Qed.

Lemma edge_switch : exists c wt bm, c_edge_check c = false /\ img_ok wt /\ img_ok bm /\ nr wt = 2 /\ nc wt = 2 /\ nr bm = 2 /\ nc bm = 2 /\
  (forall r k w, px wt r k = Some w -> (0 < w)%Q) /\ (forall r k b, px bm r k = Some b -> b = 0) /\ cutout_flag c bm wt = Err UnboundLocalError.
Proof.
  exists (ex_cconf [1] [8] true true false 1 1), (mkImg 2 2 [1; 1; 1; 1]%Q), (mkImg 2 2 [0; 0; 0; 0]).
  assert (A : img_ok (mkImg 2 2 [1; 1; 1; 1]%Q)) by (unfold img_ok, zlen; cbn; lia).
  assert (B : img_ok (mkImg 2 2 [0; 0; 0; 0])) by (unfold img_ok, zlen; cbn; lia).
  split; [reflexivity|]. split; [exact A|]. split; [exact B|]. do 4 (split; [reflexivity|]). split; [|split; [|vm_compute; reflexivity]].
  - intros r k w P. assert (I : In w [1; 1; 1; 1]%Q) by (apply (In_dat_px (mkImg 2 2 [1; 1; 1; 1]%Q) w A); exists r, k; exact P). repeat destruct I as [<-|I]; try reflexivity. destruct I.
  - intros r k b P. assert (I : In b [0; 0; 0; 0]) by (apply (In_dat_px (mkImg 2 2 [0; 0; 0; 0]) b B); exists r, k; exact P). repeat destruct I as [<-|I]; try reflexivity. destruct I.
Qed.

(** A central size of 6 on a stamp of 4 pixels tests rows and columns 2 and 3. *)
Lemma central_missed : exists c wt bm, c_central_check c = true /\ img_ok wt /\ img_ok bm /\ nr wt = 4 /\ nc wt = 4 /\ nr bm = 4 /\ nc bm = 4 /\
  (4 < c_central_size c)%Q /\ px wt 1 1 = Some 0%Q /\ cutout_flag c bm wt = Ok 0.
Proof.
  exists (ex_cconf [1] [8] true true true 6 (1#2)), (mkImg 4 4 [1; 1; 1; 1; 1; 0; 1; 1; 1; 1; 1; 1; 1; 1; 1; 1]%Q), (tab2 4 4 (fun _ _ => 0)).
  split; [reflexivity|]. split; [unfold img_ok, zlen; cbn; lia|]. split; [apply tab2_ok; lia|]. do 4 (split; [reflexivity|]). split; [reflexivity|]. split; [reflexivity|]. vm_compute. reflexivity.
Qed.

Lemma central_off c wt bm : c_central_check c = false -> img_ok wt -> img_ok bm -> nr bm = nr wt -> nc bm = nc wt -> cutout_flag c bm wt <> Ok 8.
Proof.
  intros HC H HB S1 S2 E. apply cutout_flag_spec in E; try assumption. unfold first_reason in E.
  destruct E as [(X & _)|(_ & [(X & _)|(_ & [(_ & (X & _))|(_ & [(X & _)|(_ & [(X & _)|(X & _)])])])])]; try discriminate. congruence.
Qed.
Lemma central_rejected c wt bm r k fl : c_central_check c = true -> img_ok wt -> img_ok bm -> nr bm = nr wt -> nc bm = nc wt -> nc wt = nr wt ->
  (0 < c_central_size c)%Q -> (c_central_size c <= inject_Z (nr wt))%Q ->
  half_box c (nr wt) r -> half_box c (nr wt) k -> unusable_px (total_mask (c_bmask_flags c)) wt bm (r, k) ->
  cutout_flag c bm wt = Ok fl -> fl = 2 \/ fl = 4 \/ fl = 8.
Proof.
  intros HC H HB S1 S2 S HS HN R K U E. pose proof (central_detected c wt bm r k HC H HB S1 S2 S HS HN R K U) as D.
  unfold cutout_flag in E. destruct (hits_the_edge c bm); [inversion E; left; reflexivity|]. apply bind_ok in E. destruct E as (x & _ & E).
  destruct (qltb _ _); [inversion E; right; left; reflexivity|]. rewrite D in E. cbn [bind] in E. inversion E. right; right. reflexivity.
Qed.

Lemma second_differs : exists (h : list (cdict Z)) x y, construct_all 0 h [Some 0%nat; Some 0%nat] = Ok [x; y] /\ x <> y.
Proof. exists [mkCdict (Some false) 7], (false, 7), (true, 7). split; [reflexivity|discriminate]. Qed.

Lemma same_settings {K} (dflt : K) h cs l i j x y : construct_all dflt h cs = Ok l -> nth_error cs i = nth_error cs j ->
  (forall r d, nth_error cs i = Some (Some r) -> nth_error h r = Some d -> cd_dither d = None \/ cd_dither d = Some true) ->
  nth_error l i = Some x -> nth_error l j = Some y -> x = y.
Proof.
  intros H E D X Y. destruct (construct_history dflt cs h l H) as (L & S).
  destruct (nth_error cs i) as [c|] eqn:C.
  2:{ apply nth_error_None in C. assert (N : nth_error l i <> None) by congruence. apply nth_error_Some in N. lia. }
  pose proof (S i c C) as S1. pose proof (S j c (eq_sym E)) as S2. rewrite X in S1. rewrite Y in S2. unfold setting in *.
  destruct c as [r|]; [|congruence]. destruct (nth_error h r) as [d|] eqn:H0; [|discriminate]. specialize (D r d eq_refl H0).
  inversion S1 as [S1']; inversion S2 as [S2']. f_equal. destruct D as [->| ->]; destruct (used_before r (firstn i cs)), (used_before r (firstn j cs)); reflexivity.
Qed.

Lemma no_cutouts_raises c o f jm iobj ob : zget (m_cat f) iobj = Some ob -> o_ncut ob = 0 -> get_coadd_obs c o f jm iobj = Err ValueError.
Proof.
  intros HO N. unfold get_coadd_obs, get_obslist, get_cutout_list, get_mosaic, check_indices. pose proof (zget_Some_range _ _ _ HO).
  replace (zlen (m_cat f) <=? iobj) with false by lia. rewrite (proj2 (py_index_ok_nonneg _ _ _ (proj1 H)) HO). cbn [bind]. rewrite N. reflexivity.
Qed.
Lemma foldM_stops {S X} (g : S -> X -> res S) xs x s : In x xs -> (forall s s', g s x <> Ok s') -> forall s', foldM g xs s <> Ok s'.
Proof.
  intros I H. revert s. induction xs as [|y xs IH]; [destruct I|]. intros s s' E. cbn [foldM] in E. apply bind_ok in E. destruct E as (s1 & E1 & E2).
  destruct I as [->|I]; [exact (H _ _ E1)|]. exact (IH I _ _ E2).
Qed.
Lemma no_cutouts_no_file c o f jm iobj ob ct tp junk pjunk rg r : zget (m_cat f) iobj = Some ob -> o_ncut ob = 0 -> asked f rg iobj ->
  write_coadds f ct tp junk pjunk (get_coadd_obs c o f jm) rg <> Ok r.
Proof.
  intros HO N A E. unfold write_coadds in E. apply bind_ok in E. destruct E as (rows & _ & E).
  assert (RG : match rg with Some r => r | None => (0, zlen (m_cat f)) end = (lo_of rg, hi_of f rg)) by (destruct rg as [[x y]|]; reflexivity).
  rewrite RG in E. apply bind_ok in E. destruct E as (st & F & _). apply asked_iff in A. revert F. apply (foldM_stops _ _ iobj).
  - unfold zrange2. apply in_map_iff. exists (iobj - lo_of rg). split; [lia|]. apply In_zrange. lia.
  - intros s s' X. unfold write_object_cutouts in X. rewrite (no_cutouts_raises c o f jm iobj ob HO N) in X. discriminate.
Qed.
Lemma no_cutouts_witness : exists f, file_wf f /\ m_cat f <> [] /\ exists c o ob, zget (m_cat f) 1 = Some ob /\ get_coadd_obs c o f (1, 0, 0, 1)%Q 1 = Err ValueError.
Proof.
  exists (ex_small PsfNone [TImage]). split; [|split; [discriminate|]].
  - split; [repeat (apply Forall_cons; [cbn; unfold zlen; cbn [length]; lia|]); constructor|].
    intros t m H. cbn in H. destruct t; cbn in H; inversion H; subst. cbn. repeat (constructor; [lia|]). constructor.
  - exists (ex_cconf [1] [8] true true true 1 1), (ex_oracle 3). eexists. split; reflexivity.
Qed.

(** With a coadd the reasons are recorded, without one they are not. *)
Lemma reasons_lost : exists f rows g r ds, 
  write_coadds f [TImage; TWeight; TSeg; TBmask] 40 ex_junk (fun _ => 0%Q)
    (get_coadd_obs (ex_cconf [1; 2; 1073741824] [8] false true true 2 (1#4)) (ex_oracle 3) f (1#4, 0, 0, 1#4)%Q) None = Ok (rows, g) /\
  get_obslist (ex_cconf [1; 2; 1073741824] [8] false true true 2 (1#4)) (ex_oracle 3) f 1 = Ok ([], Some ds) /\
  zget rows 1 = Some r /\ ds = [8; 8] /\ cr_orig_ncutout r = 2 /\ cr_orig_flags r = [-9999; -9999; -9999].
Proof.
  destruct ex_cfile as [f|] eqn:E; [|vm_compute in E; discriminate]. exists f. vm_compute in E. inversion E; subst; clear E.
  eexists. eexists. eexists. eexists. split; [vm_compute; reflexivity|]. split; [vm_compute; reflexivity|]. split; [vm_compute; reflexivity|]. split; [vm_compute; reflexivity|]. split; vm_compute; reflexivity.
Qed.
