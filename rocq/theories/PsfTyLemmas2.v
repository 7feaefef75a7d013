(** The PSF extension of type f4 against the one of exact numbers. *)
From Coq Require Import Lia ZifyBool ZifyNat String.
From Verif Require Import Base BaseLemmas Img ImgLemmas Types BoundsM Reader ReadLemmas MakerLayout MakerWrite MakerFile SpecTiles SpecLayout SpecFile StartLemmas StampLemmas LayoutLemmas BuildLemmas
  WriteLemmas FileLemmas PsfLemmas MakerLemmas2 MakerLemmas3 Typed SpecTyped PsfTy SpecPsfTy PsfTyLemmas.
Open Scope Z_scope.

Section Render.
  Variables (c : lconf) (pc : pconf) (psfs : list tpsf).
  Definition tren (o : obj) (s : slot) : arr :=
    match zget psfs (s_file s) with
    | Some p => tp_rec p (s_orow s) (s_ocol s) (psf_color_arg c pc (s_file s) o)
    | None => mkArr (KF false) (mkImg 0 0 [])
    end.
  Lemma rendered_tren o s : rendered c pc (map shape_of psfs) o s = imap (fun _ => 0%Q) (a_im (tren o s)).
  Proof. unfold rendered, tren. rewrite zget_map. destruct (zget psfs (s_file s)); reflexivity. Qed.

  Definition tput (h : list fl) (k : obj * Z * slot) : res (list fl) := put_typed (k_slot k) (tren (k_obj k) (k_slot k)) h.
  Definition qput (h : list Q) (k : obj * Z * slot) : res (list Q) := put_psf (k_slot k) (rendered c pc (map shape_of psfs) (k_obj k) (k_slot k)) h.
  Definition tdata (k : obj * Z * slot) : list fl := map (to_fl false) (dat (a_im (tren (k_obj k) (k_slot k)))).
  Definition storable (a : arr) : Prop := forall x, In x (dat (a_im a)) -> exists v, store_single (a_kind a) x = Ok v.

  Lemma typed_flat cat hdu : Forall ncut_ok cat -> Forall (fun o => Forall (file_valid (map shape_of psfs)) (used_slots o)) cat ->
    write_psf_typed c pc psfs cat hdu = foldM tput (cat_keys cat) hdu.
  Proof.
    intros Hn Hv. unfold write_psf_typed.
    rewrite (foldM_cat_keys (fun h o _ s => let* a := render_typed c pc psfs o s in put_typed s a h)) by exact Hn.
    apply foldM_ext_in. intros h k Hk. pose proof (keys_valid _ cat k Hn Hv Hk) as V. unfold file_valid in V. rewrite zlen_map in V.
    unfold render_typed, tput, tren. destruct (zget_range_Some psfs (s_file (k_slot k)) V) as (p & Hp).
    rewrite (proj2 (py_index_ok_nonneg psfs _ p (proj1 V))) by exact Hp. rewrite Hp. reflexivity.
  Qed.

  Lemma store_all a d : mapM (store_single (a_kind a)) (dat (a_im a)) = Ok d -> d = map (to_fl false) (dat (a_im a)) /\ storable a.
  Proof.
    intros H. split.
    - revert d H. generalize (dat (a_im a)). induction l as [|x l IH]; intros d H; cbn [mapM] in H.
      + injection H as <-. reflexivity.
      + apply bind_ok in H. destruct H as (v & Hv & H). apply bind_ok in H. destruct H as (vs & Hvs & H). injection H as <-.
        cbn [map]. rewrite (store_value _ _ _ Hv), (IH _ Hvs). reflexivity.
    - intros x Hx. revert d H Hx. generalize (dat (a_im a)). induction l as [|y l IH]; intros d H Hx; [contradiction|]. cbn [mapM] in H.
      apply bind_ok in H. destruct H as (v & Hv & H). apply bind_ok in H. destruct H as (vs & Hvs & H).
      destruct Hx as [->|Hx]; [eauto|eapply IH; eassumption].
  Qed.
  Lemma store_ok a : storable a -> mapM (store_single (a_kind a)) (dat (a_im a)) = Ok (map (to_fl false) (dat (a_im a))).
  Proof. intros H. apply mapM_map_ok. intros x Hx. destruct (H x Hx) as (v & E). rewrite E. f_equal. eapply store_value; exact E. Qed.
  Lemma store_not_ok a : ~ storable a -> mapM (store_single (a_kind a)) (dat (a_im a)) = Err FitsError.
  Proof.
    unfold storable. generalize (dat (a_im a)). induction l as [|x l IH]; intros H; [exfalso; apply H; intros x []|].
    cbn [mapM]. destruct (store_fails (a_kind a) x) as [(v & E)|E]; rewrite E; cbn [bind]; [|reflexivity].
    rewrite IH; [reflexivity|]. intros G. apply H. intros y [<-|Hy]; [eauto|apply G; exact Hy].
  Qed.
  Lemma storable_dec a : storable a \/ ~ storable a.
  Proof.
    unfold storable. generalize (dat (a_im a)). induction l as [|x l IH]; [left; intros x []|].
    destruct (store_fails (a_kind a) x) as [(v & E)|E].
    - destruct IH as [G|G]; [left; intros y [<-|Hy]; eauto|right; intros F; apply G; intros y Hy; apply F; right; exact Hy].
    - right. intros F. destruct (F x (or_introl eq_refl)) as (v & E'). congruence.
  Qed.

  Lemma write_at_sim2 {A B} (h : list A) (g : list B) st (d : list A) (e : list B) h' : zlen h = zlen g -> zlen d = zlen e ->
    write_at h st d = Ok h' -> exists g', write_at g st e = Ok g' /\ zlen h' = zlen g'.
  Proof.
    intros L1 L2 H. pose proof (write_at_ok _ _ _ _ H) as (W1 & W2 & W3 & _).
    destruct (write_at_in_range g st e) as (g' & G); [lia|lia|]. exists g'. split; [exact G|].
    apply write_at_ok in G. destruct G as (_ & _ & G3 & _). lia.
  Qed.

  (** Writing succeeds as for exact numbers, when everything can be stored. *)
  Lemma tput_to_q ks : forall (h : list fl) (g : list Q) h', zlen h = zlen g -> foldM tput ks h = Ok h' ->
    (exists g', foldM qput ks g = Ok g' /\ zlen h' = zlen g') /\
    (forall k, In k ks -> storable (tren (k_obj k) (k_slot k))) /\
    foldM (fun h k => write_at h (s_psf_start (k_slot k)) (tdata k)) ks h = Ok h'.
  Proof.
    induction ks as [|k ks IH]; intros h g h' L H.
    - cbn [foldM] in *. injection H as <-. split; [eauto|]. split; [intros k []|reflexivity].
    - cbn [foldM] in *. apply bind_ok in H. destruct H as (h1 & H1 & H2).
      unfold tput, put_typed in H1. destruct (_ && _) eqn:ES; [|discriminate]. apply bind_ok in H1. destruct H1 as (d & Hd & H1).
      apply store_all in Hd. destruct Hd as [-> Hs].
      destruct (write_at_sim2 h g (s_psf_start (k_slot k)) (map (to_fl false) (dat (a_im (tren (k_obj k) (k_slot k))))) (map (fun _ : num => 0%Q) (dat (a_im (tren (k_obj k) (k_slot k))))) h1 L ltac:(rewrite !zlen_map; reflexivity) H1) as (g1 & G1 & L1).
      destruct (IH h1 g1 h' L1 H2) as ((g' & G2 & L2) & S & W). split; [|split].
      + exists g'. split; [|exact L2]. unfold qput at 1, put_psf. rewrite rendered_tren. cbn [imap nr nc dat]. rewrite ES, G1. exact G2.
      + intros k' [<-|Hk']; [exact Hs|apply S; exact Hk'].
      + unfold tdata at 1. rewrite H1. exact W.
  Qed.
  Lemma q_to_tput ks : forall (h : list fl) (g : list Q) g', zlen h = zlen g -> foldM qput ks g = Ok g' ->
    ((forall k, In k ks -> storable (tren (k_obj k) (k_slot k))) -> exists h', foldM tput ks h = Ok h') /\
    (forall k, In k ks -> ~ storable (tren (k_obj k) (k_slot k)) -> foldM tput ks h = Err FitsError).
  Proof.
    induction ks as [|k ks IH]; intros h g g' L H.
    - cbn [foldM] in *. split; [eauto|intros k []].
    - cbn [foldM] in *. apply bind_ok in H. destruct H as (g1 & H1 & H2).
      unfold qput, put_psf in H1. rewrite rendered_tren in H1. cbn [imap nr nc dat] in H1. destruct (_ && _) eqn:ES; [|discriminate].
      destruct (write_at_sim2 g h (s_psf_start (k_slot k)) (map (fun _ : num => 0%Q) (dat (a_im (tren (k_obj k) (k_slot k))))) (tdata k) g1 ltac:(lia) ltac:(unfold tdata; rewrite !zlen_map; reflexivity) H1) as (h1 & G1 & L1).
      destruct (IH h1 g1 g' ltac:(lia) H2) as (P & N).
      destruct (storable_dec (tren (k_obj k) (k_slot k))) as [D|D].
      + assert (E : tput h k = Ok h1). { unfold tput, put_typed. rewrite ES, (store_ok _ D). cbn [bind]. exact G1. }
        rewrite E. cbn [bind]. split.
        * intros S. apply P. intros k' Hk'. apply S. right; exact Hk'.
        * intros k' [<-|Hk'] Nk; [contradiction|]. eapply N; eassumption.
      + assert (E : tput h k = Err FitsError). { unfold tput, put_typed. rewrite ES, (store_not_ok _ D). reflexivity. }
        rewrite E. cbn [bind]. split; [|reflexivity]. intros S. exfalso. apply D. apply S. left; reflexivity.
  Qed.
End Render.

Definition typed_of (k : mconf) rows cat ext (h : list fl) : pfile :=
  mkPfile (mkMeds cat (k_number_col k) PsfRCCut (map ir_info rows) ext None) h.
Definition exact_of (k : mconf) rows cat ext (h : list Q) : medsfile :=
  mkMeds cat (k_number_col k) PsfRCCut (map ir_info rows) ext (Some h).

Lemma typed_split k types rows psfs input junk pjunk qjunk :
  (exists e, make_psf_typed k types rows psfs input junk pjunk = Err e /\
     make_meds (with_joblib k false 1) types rows (Some (map shape_of psfs)) input junk qjunk = Err e) \/
  exists cat tp ext, Forall ncut_ok cat /\ Forall (fun o => Forall (file_valid (map shape_of psfs)) (used_slots o)) cat /\
    make_psf_typed k types rows psfs input junk pjunk =
      (let* h := foldM (tput (k_l k) (k_p k) psfs) (cat_keys cat) (map pjunk (zrange tp)) in Ok (typed_of k rows cat ext h)) /\
    make_meds (with_joblib k false 1) types rows (Some (map shape_of psfs)) input junk qjunk =
      (let* h := foldM (qput (k_l k) (k_p k) psfs) (cat_keys cat) (map qjunk (zrange tp)) in Ok (exact_of k rows cat ext h)).
Proof.
  unfold make_psf_typed, make_meds, new_maker, write.
  destruct (set_cutout_types types) as [nm|e] eqn:E1; cbn [bind]; [|left; eauto].
  destruct (mapM _ nm) as [tys|e] eqn:E2; cbn [bind]; [|left; eauto].
  destruct (zlen (map shape_of psfs) =? zlen rows) eqn:E3; cbn [bind]; [|left; eauto].
  cbn [mk_conf mk_rows mk_psf mk_cat]. cbn [with_joblib k_l k_p k_unusable k_types k_joblib k_njob k_number_col].
  unfold full_layout. cbn [k_l k_p].
  destruct (build_layout (k_l k) (map ir_image rows) (init_cat (k_l k) (map ir_image rows) input)) as [[cat0 total]|e] eqn:E4; cbn [bind fst snd]; [|left; eauto].
  destruct (set_psf_layout (k_l k) (k_p k) (map shape_of psfs) cat0) as [[cat tp]|e] eqn:E5; cbn [bind fst snd]; [|left; eauto].
  unfold write_data. cbn [k_l k_p k_unusable k_types k_joblib k_njob k_number_col].
  destruct (write_types (k_unusable k) cat (map ir_src rows) tys (reserve tys total junk)) as [ext|e] eqn:E6; cbn [bind]; [|left; eauto].
  right. exists cat, tp, ext.
  destruct (build_layout_inv _ _ _ _ _ E4) as (objs & nslots & B1 & B2 & B3 & B4 & B5 & B6 & B7).
  assert (HL : zlen (map shape_of psfs) = zlen (map ir_image rows)) by (rewrite (zlen_map ir_image rows); lia).
  pose proof (laid_out_ncut_ok _ _ _ _ _ B3) as N0. pose proof (psf_files_valid _ _ _ _ _ _ HL B3) as V0.
  rewrite set_psf_layout_eq in E5 by assumption. injection E5 as <- <-.
  set (cat := pstarted_cat (k_l k) (k_p k) (map shape_of psfs) 0 cat0) in *.
  assert (B : Forall2 (laid_out (k_l k) (map ir_image rows) nslots) objs cat) by (apply pstarted_cat_laid_out; exact B3).
  pose proof (laid_out_ncut_ok _ _ _ _ _ B) as N. pose proof (psf_files_valid _ _ _ _ _ _ HL B) as V.
  split; [exact N|]. split; [exact V|].
  rewrite typed_flat by assumption. rewrite serial_flat by assumption. split; [reflexivity|].
  unfold qput. destruct (foldM _ _ _); reflexivity.
Qed.

(** The file of exact numbers made alongside. *)
Lemma typed_exact k types rows psfs input junk pjunk qjunk f :
  make_psf_typed k types rows psfs input junk pjunk = Ok f ->
  exists f' h', make_meds (with_joblib k false 1) types rows (Some (map shape_of psfs)) input junk qjunk = Ok f' /\
    m_psf f' = Some h' /\ zlen h' = zlen (pf_psf f) /\
    pf_meds f = mkMeds (m_cat f') (m_number_col f') PsfRCCut (m_info f') (m_ext f') None /\
    Forall ncut_ok (m_cat f') /\
    (forall kk, In kk (cat_keys (m_cat f')) -> storable (tren (k_l k) (k_p k) psfs (k_obj kk) (k_slot kk))) /\
    exists tp, foldM (fun h kk => write_at h (s_psf_start (k_slot kk)) (tdata (k_l k) (k_p k) psfs kk))
      (cat_keys (m_cat f')) (map pjunk (zrange tp)) = Ok (pf_psf f).
Proof.
  intros H. destruct (typed_split k types rows psfs input junk pjunk qjunk) as [(e & E & _)|(cat & tp & ext & N & V & E1 & E2)]; [congruence|].
  rewrite E1 in H. apply bind_ok in H. destruct H as (h & Hh & H). injection H as <-.
  assert (ZL : zlen (map pjunk (zrange tp)) = zlen (map qjunk (zrange tp))) by (rewrite !zlen_map; reflexivity).
  destruct (tput_to_q _ _ _ _ _ _ _ ZL Hh) as ((g & G & L) & S & W).
  rewrite G in E2. cbn [bind] in E2. eexists. exists g. split; [exact E2|]. unfold exact_of, typed_of. cbn.
  split; [reflexivity|]. split; [lia|]. split; [reflexivity|]. split; [exact N|]. split; [exact S|]. exists tp. exact W.
Qed.

(** Everything about one cutout. *)
Lemma typed_cutout k types rows psfs input junk pjunk f : psfs_ok psfs ->
  make_psf_typed k types rows psfs input junk pjunk = Ok f ->
  tiles 0 (psf_ranges (m_cat (pf_meds f))) (zlen (pf_psf f)) /\
  forall iobj icut o s, cutout_at (pf_meds f) iobj icut o s ->
    exists a, rendered_for k psfs o s a /\ s_psf_nr s = nr (a_im a) /\ s_psf_nc s = nc (a_im a) /\ storable a /\
      (0 < nr (a_im a) * nc (a_im a) -> get_psf_typed f iobj icut = Ok (imap (to_fl false) (a_im a))).
Proof.
  intros Hok H. destruct (typed_exact _ _ _ _ _ _ _ (fun _ => 0%Q) _ H) as (f' & h' & M & P & L & EM & N & ST & tp & W).
  assert (OKq : forall p r c col, In p (map shape_of psfs) -> img_ok (p_rec p r c col)).
  { intros p r c col Hp. apply in_map_iff in Hp. destruct Hp as (p0 & <- & Hp). destruct (Hok p0 r c col Hp) as (G & _).
    cbn. destruct G as (G1 & G2 & G3). repeat split; cbn; [exact G1|exact G2|]. rewrite zlen_map. exact G3. }
  destruct (written_psf (with_joblib k false 1) _ _ _ _ _ _ _ (Z.le_refl 1) OKq M) as (h & P' & T & C).
  rewrite P in P'. injection P' as <-. rewrite L in T. rewrite EM. cbn [m_cat]. split; [exact T|].
  pose proof T as T'. rewrite <- (cat_keys_psf_ranges _ N) in T'. destruct (tiles_keys p_range _ _ _ T') as [K1 K2].
  assert (CUT : forall iobj icut o s, cutout_at f' iobj icut o s -> exists a, rendered_for k psfs o s a /\
     tren (k_l k) (k_p k) psfs o s = a /\ s_psf_nr s = nr (a_im a) /\ s_psf_nc s = nc (a_im a) /\ img_ok (a_im a)).
  { intros iobj icut o s Hc. destruct (C iobj icut o s Hc) as (p & Hp & _ & R & Cc & _). rewrite zget_map in Hp.
    destruct (zget psfs (s_file s)) as [p0|] eqn:Z0; [|discriminate]. injection Hp as <-.
    exists (tp_rec p0 (s_orow s) (s_ocol s) (psf_color_arg (k_l k) (k_p k) (s_file s) o)).
    split; [exists p0; split; [exact Z0|reflexivity]|]. split; [unfold tren; rewrite Z0; reflexivity|].
    split; [exact R|]. split; [exact Cc|]. destruct (Hok p0 (s_orow s) (s_ocol s) (psf_color_arg (k_l k) (k_p k) (s_file s) o)) as (G & _); [eapply zget_In; exact Z0|exact G]. }
  assert (DL : forall kk, In kk (cat_keys (m_cat f')) -> zlen (tdata (k_l k) (k_p k) psfs kk) = s_psf_nr (k_slot kk) * s_psf_nc (k_slot kk)).
  { intros kk Hkk. destruct (key_cutout f' kk N Hkk) as (iobj & Hc). destruct (CUT _ _ _ _ Hc) as (a & _ & Ea & R & Cc & G).
    unfold tdata. rewrite Ea, zlen_map, R, Cc. apply G. }
  assert (ZT : zlen (map pjunk (zrange tp)) = zlen (pf_psf f)).
  { clear -W. revert W. generalize (map pjunk (zrange tp)) as h0. induction (cat_keys (m_cat f')) as [|kk ks IH]; intros h0 W; cbn [foldM] in W.
    - injection W as ->. reflexivity.
    - apply bind_ok in W. destruct W as (h1 & W1 & W). apply write_at_ok in W1. destruct W1 as (_ & _ & W1 & _). rewrite <- (IH _ W). lia. }
  destruct (foldM_writes (fun kk => s_psf_start (k_slot kk)) (tdata (k_l k) (k_p k) psfs) (cat_keys (m_cat f')) (map pjunk (zrange tp)))
    as (h2 & W1 & W2 & W3 & _).
  - intros kk Hkk. rewrite (DL kk Hkk), ZT. destruct (K1 kk Hkk) as (A & B & D). unfold p_range in *. simpl in *. lia.
  - intros k1 k2 Hk1 Hk2. rewrite (DL k1 Hk1), (DL k2 Hk2). destruct (K2 k1 k2 Hk1 Hk2) as [->|[D|D]].
    + left. split; reflexivity.
    + right. left. exact D.
    + right. right. exact D.
  - rewrite W1 in W. injection W as ->. intros iobj icut o s Hc.
    assert (Hc' : cutout_at f' iobj icut o s) by exact Hc. pose proof (cutout_key f' iobj icut o s N Hc') as Hk.
    destruct (CUT _ _ _ _ Hc') as (a & Ra & Ea & R & Cc & G). exists a. split; [exact Ra|]. split; [exact R|]. split; [exact Cc|].
    pose proof (ST _ Hk) as Sa. cbn [k_obj k_slot fst snd] in Sa. rewrite Ea in Sa. split; [exact Sa|]. intros Hpos.
    destruct Hc' as (C1 & C2 & C3). unfold get_psf_typed. rewrite EM.
    rewrite (check_indices_ok (mkMeds (m_cat f') (m_number_col f') PsfRCCut (m_info f') (m_ext f') None) iobj icut o C1 C2). cbn [bind].
    unfold get_psf_shape. cbn [m_psf_cols]. rewrite (get_slot_ok _ _ _ C3). cbn [bind fst snd].
    destruct (K1 _ Hk) as (A & B & D). unfold p_range in *. cbn [fst snd k_slot] in *. destruct G as (G1 & G2 & G3).
    assert (ES : slice (pf_psf f) (s_psf_start s) (s_psf_start s + s_psf_nr s * s_psf_nc s) = Ok (map (to_fl false) (dat (a_im a)))).
    { apply slice_spec; try lia.
      - rewrite zlen_map, R, Cc. nia.
      - intros j Hj. specialize (W3 _ Hk j). rewrite (DL _ Hk) in W3. unfold tdata in W3. cbn [k_slot k_obj fst snd] in W3. rewrite Ea in W3.
        apply W3. lia. }
    rewrite ES. cbn [bind]. unfold reshape. rewrite zlen_map, R, Cc. dif E; [|lia]. reflexivity.
Qed.
