(** Extraction from files of coadds. *)
From Coq Require Import Lia ZifyBool ZifyNat.
From Verif Require Import Base BaseLemmas Img ImgLemmas Types Reader ReadLemmas StartLemmas Extract MakerLayout MakerWrite Composite Coadd
  SpecTiles SpecFile SpecExtract SpecComposite SpecCoadd FileLemmas ExtractLemmas ExtractLemmas2 ExtractLemmas3 ExtractLemmas4 ExtractLemmas5
  CoaddLemmas CoaddLemmas2 CoaddLemmas3 CoaddLemmas5 CoaddLemmas6 CoaddLemmas8 CoaddExtLemmas SpecCoaddExt.
Open Scope Z_scope.

Lemma object_ext types coadder st i st' : write_object_cutouts types coadder st i = Ok st' -> map fst (ws_ext st') = map fst (ws_ext st).
Proof.
  unfold write_object_cutouts. intros H. apply bind_ok in H. destruct H as ([x fl] & _ & H). apply bind_ok in H. destruct H as (r & _ & H).
  destruct x as [co|]; [|injection H as <-; reflexivity]. destruct (negb _); [discriminate|].
  apply bind_ok in H. destruct H as (r' & _ & H). apply bind_ok in H. destruct H as (ext & E & H). apply bind_ok in H. destruct H as (psf & _ & H).
  injection H as <-. cbn [ws_ext]. apply write_types_ok in E. apply E.
Qed.
Lemma objects_ext types coadder l : forall st st', foldM (write_object_cutouts types coadder) l st = Ok st' -> map fst (ws_ext st') = map fst (ws_ext st).
Proof.
  induction l as [|i l IH]; intros st st' H; [injection H as <-; reflexivity|]. cbn [foldM] in H. apply bind_ok in H. destruct H as (s1 & H1 & H).
  rewrite (IH _ _ H). apply (object_ext _ _ _ _ _ H1).
Qed.
Lemma file_types f ct tp junk pjunk coadder rg rows f' : write_coadds f ct tp junk pjunk coadder rg = Ok (rows, f') -> map fst (m_ext f') = add_types ct.
Proof.
  unfold write_coadds. intros H. apply bind_ok in H. destruct H as (rows0 & _ & H). destruct (match rg with Some r => r | None => _ end) as [a b].
  apply bind_ok in H. destruct H as (st & F & H). injection H as <- <-. cbn [m_ext]. rewrite (objects_ext _ _ _ _ _ F). cbn [ws_ext].
  unfold reserve. rewrite map_map. apply map_id.
Qed.

Lemma lo_from rg : range_from_zero rg -> 0 <= lo_of rg.
Proof. destruct rg as [[a b]|]; cbn; lia. Qed.

Lemma file_roomy f ct tp junk pjunk coadder rg rows f' : stamp_shapes f coadder -> range_from_zero rg -> 0 <= tp ->
  Forall (fun o => 0 < o_box o) (m_cat f) -> write_coadds f ct tp junk pjunk coadder rg = Ok (rows, f') ->
  m_psf_cols f' = PsfBoxObj /\ m_psf f' <> None /\ m_number_col f' = true /\ exists e pe, roomy e pe f'.
Proof.
  intros HS RG P BP H. pose proof (file_types _ _ _ _ _ _ _ _ _ H) as TY. apply lo_from in RG.
  destruct (write_coadds_inv _ _ _ _ _ _ _ _ _ HS RG P H) as (rows0 & st & RD & I & -> & ->).
  split; [reflexivity|]. split; [discriminate|]. split; [reflexivity|].
  destruct (obj_data_ok _ _ RD) as (n & _ & _ & R1). apply weaken_rows in R1.
  apply (coadds_roomy _ _ _ _ _ _ RG HS R1 _ _ _ I); [exact P|reflexivity|exact TY|exact BP].
Qed.

Lemma add_types_in ct t : In t ct -> In t (add_types ct).
Proof.
  intros I. unfold add_types. cbn [fold_left].
  destruct (existsb (ctype_eqb TOrmask) ct); [|set (l := ct ++ [TOrmask]); assert (I' : In t l) by (apply in_or_app; left; exact I); clearbody l; clear I; rename I' into I].
  - destruct (existsb (ctype_eqb TNoise) ct); [exact I|apply in_or_app; left; exact I].
  - destruct (existsb (ctype_eqb TNoise) l); [exact I|apply in_or_app; left; exact I].
Qed.

Lemma find_In (e : list (ctype * list Q)) t : In t (map fst e) -> exists m, ext_find e t = Some m.
Proof.
  induction e as [|[t' m] e IH]; [intros []|]. cbn [map fst ext_find]. intros [E|I].
  - subst t'. rewrite ctype_eqb_refl. eexists; reflexivity.
  - destruct (ctype_eqb t' t); [eexists; reflexivity|apply IH; exact I].
Qed.

Lemma range_of_coadds f ct tp junk pjunk coadder rg rows f' a b : stamp_shapes f coadder -> range_from_zero rg -> 0 <= tp ->
  Forall (fun o => 0 < o_box o) (m_cat f) -> write_coadds f ct tp junk pjunk coadder rg = Ok (rows, f') ->
  incl [TImage; TWeight; TSeg] ct -> 0 <= a -> b < zlen (m_cat f) ->
  (exists j co fl, a <= j <= b /\ asked f rg j /\ coadder j = Ok (Some co, fl)) ->
  exists g, extract_range false f' a b = Ok g /\ zlen (m_cat g) = b - a + 1 /\ m_info g = m_info f' /\ file_wf g /\ psf_wf g /\
    (forall t, t <> TOrmask -> (has_ext g t <-> In t (add_types ct))) /\
    (forall i o, 0 <= i <= b - a -> zget (m_cat f') (a + i) = Some o ->
      (exists o', zget (m_cat g) i = Some o' /\ same_but_starts o o') /\
      (forall t, t <> TOrmask -> same_cutouts f' (a + i) g i t) /\ same_psfs f' (a + i) g i) /\
    forall i co fl, 0 <= i <= b - a -> asked f rg (a + i) -> coadder (a + i) = Ok (Some co, fl) ->
      (forall t, In t (add_types ct) -> t <> TOrmask -> get_cutout g i 0 t = Ok (coadd_plane co t)) /\ get_psf g i 0 = Ok (co_psf co).
Proof.
  intros HS RG P BP H INC A B (j & co & fl & J & AJ & CJ).
  destruct (file_roomy _ _ _ _ _ _ _ _ _ HS RG P BP H) as (PC & PN & _ & e & pe & RO).
  pose proof (file_types _ _ _ _ _ _ _ _ _ H) as TY.
  destruct (write_coadds_ok _ _ _ _ _ _ _ _ _ HS (lo_from _ RG) P H) as (MC & RL & _ & OUT & ROW).
  assert (CL : zlen (m_cat f') = zlen (m_cat f)) by (rewrite MC, zlen_map; exact RL).
  assert (HX : forall t, has_ext f' t <-> In t (add_types ct)).
  { intros t. unfold has_ext. rewrite <- TY. split; [|apply find_In]. intros (m & F). clear -F. induction (m_ext f') as [|[t' m'] l IH]; [discriminate|].
    cbn [ext_find] in F. cbn [map fst]. destruct (ctype_eqb t' t) eqn:E; [left; apply ctype_eqb_eq; exact E|right; apply IH; exact F]. }
  assert (HT : forall t, In t [TImage; TWeight; TSeg] -> has_ext f' t) by (intros t I; apply HX; apply add_types_in; apply INC; exact I).
  destruct (roomy_range e pe f' a b RO) as (g & G & L & I & _ & _ & W1 & W2 & X & V); [|apply HT; cbn; tauto..|exact A|lia| |].
  - intros _. rewrite PC. right. right. reflexivity.
  - destruct (zget_range_Some rows j) as (r & R); [lia|]. exists j, (cr_obj r). split; [exact J|]. split; [rewrite MC, zget_map, R; reflexivity|].
    destruct (ROW j r R) as (o & _ & _ & _ & _ & _ & [(co' & fl' & rest & _ & _ & N & _)|[(fl' & _ & C & _)|(NA & _)]]); [lia|congruence|contradiction].
  - exists g. split; [exact G|]. split; [exact L|]. split; [exact I|]. split; [exact W1|]. split; [exact W2|]. split.
    + intros t T. rewrite (X t T). apply HX.
    + split; [exact V|]. intros i c l Hi AI CI. assert (R : 0 <= a + i < zlen (m_cat f)) by lia.
      destruct (zget_range_Some (m_cat f') (a + i)) as (o & O); [lia|]. destruct (V i o Hi O) as (_ & V2 & V3). destruct (OUT _ _ _ AI R CI) as (O1 & O2). split.
      * intros t T NT. rewrite (V2 t NT 0 (Z.le_refl 0)). apply O1. exact T.
      * rewrite (V3 0 (Z.le_refl 0)). exact O2.
Qed.

(** * By numbers *)
Lemma box_psf_fails cols objs : cols = PsfBoxObj \/ cols = PsfBoxCut -> (exists o, In o objs /\ 0 < o_ncut o) ->
  forall loc l, renumber_psf cols objs loc <> Ok l.
Proof.
  intros C. induction objs as [|o objs IH]; intros (x & I & N) loc l H; [destruct I|]. cbn [renumber_psf] in H.
  apply bind_ok in H. destruct H as (ol & O & H). apply bind_ok in H. destruct H as (r & R & H).
  destruct I as [->|I]; [|apply (IH (ex_intro _ x (conj I N)) _ _ R)].
  unfold renumber_psf_obj in O. apply bind_ok in O. destruct O as (st & F & _). unfold zrange in F.
  destruct (Z.to_nat (o_ncut x)) as [|n] eqn:E; [lia|]. cbn [seq map foldM] in F. apply bind_ok in F. destruct F as (s1 & F & _).
  apply bind_ok in F. destruct F as (sl & _ & F). apply bind_ok in F. destruct F as (s & _ & F). destruct C as [-> | ->]; discriminate.
Qed.

Definition psf_starts_ok (o : obj) : Prop := fits o /\ forall s, In s (used_slots o) -> 0 <= s_psf_start s.

Lemma first_psf cols objs pr : Forall psf_starts_ok objs -> (exists o, In o objs /\ 0 < o_ncut o) ->
  psf_row_ranges cols objs = Ok pr -> first_is_minus_one pr = Ok false.
Proof.
  intros W (o & I & N) H. unfold psf_row_ranges in H. destruct (filter (fun o => 0 <? o_ncut o) objs) as [|a w] eqn:F.
  - exfalso. assert (X : In o (filter (fun o => 0 <? o_ncut o) objs)) by (apply filter_In; split; [exact I|lia]). rewrite F in X. destruct X.
  - assert (IA : In a (filter (fun o => 0 <? o_ncut o) objs)) by (rewrite F; left; reflexivity). apply filter_In in IA. destruct IA as (IA & NA).
    cbn [mapM] in H. apply bind_ok in H. destruct H as ([x y] & E & H). apply bind_ok in H. destruct H as (r & _ & H). injection H as <-.
    cbn [first_is_minus_one]. f_equal. unfold psf_row_range in E. cbn [filter] in E. rewrite NA in E. cbn [List.last] in E.
    apply bind_ok in E. destruct E as (s0 & G & E). apply bind_ok in E. destruct E as (np & _ & E). apply bind_ok in E. destruct E as (s1 & _ & E). injection E as <- _.
    rewrite Forall_forall in W. destruct (W a IA) as (_ & S). specialize (S s0 (slot_used a 0 s0 ltac:(lia) G)). lia.
Qed.

Lemma ren_starts objs : forall loc, Forall psf_starts_ok objs -> Forall psf_starts_ok (ren set_start cutsz objs loc) /\
  ((exists o, In o objs /\ 0 < o_ncut o) -> exists o, In o (ren set_start cutsz objs loc) /\ 0 < o_ncut o).
Proof.
  induction objs as [|o objs IH]; intros loc H; [split; [constructor|intros X; exact X]|]. inversion H as [|? ? (F & S) H']; subst. cbn [ren].
  destruct (IH (loc + total (cutsz o) (used_slots o)) H') as (I1 & I2). split.
  - constructor; [|exact I1]. split; [apply fits_ren; exact F|]. intros s Is.
    assert (E : map s_psf_start (used_slots (ren_obj set_start cutsz o loc)) = map s_psf_start (used_slots o)) by (apply used_map_ren; intros; reflexivity).
    apply (in_map s_psf_start) in Is. rewrite E in Is. apply in_map_iff in Is. destruct Is as (s' & <- & Is'). apply S. exact Is'.
  - intros (x & [->|I] & N); [eexists; split; [left; reflexivity|exact N]|]. destruct I2 as (y & Y & M); [exists x; split; assumption|]. exists y. split; [right; exact Y|exact M].
Qed.

Lemma box_numbers order f numbers g : Forall psf_starts_ok (m_cat f) -> m_psf f <> None -> m_psf_cols f = PsfBoxObj \/ m_psf_cols f = PsfBoxCut ->
  extract_numbers order f numbers = Ok g -> forall o, In o (m_cat g) -> o_ncut o <= 0.
Proof.
  intros W PN PC H. unfold extract_numbers in H. apply bind_ok in H. destruct H as (inds & GI & H). apply bind_ok in H. destruct H as (objs & MI & H).
  assert (IN : Forall psf_starts_ok objs).
  { apply Forall_forall. intros o I. rewrite Forall_forall in W. apply W. clear -MI I. revert objs MI I. induction (order inds) as [|i l IH]; intros objs MI I; cbn [mapM] in MI.
    - injection MI as <-. destruct I.
    - apply bind_ok in MI. destruct MI as (x & X & MI). apply bind_ok in MI. destruct MI as (r & R & MI). injection MI as <-. destruct I as [->|I]; [|apply (IH r R I)].
      unfold py_index in X. destruct (zget (m_cat f) _) as [y|] eqn:Z in X; [|discriminate]. injection X as ->. apply zget_In in Z. exact Z. }
  assert (D : (exists o, In o objs /\ 0 < o_ncut o) \/ forall o, In o objs -> o_ncut o <= 0).
  { clear. induction objs as [|o objs IH]; [right; intros o []|]. destruct (Z_lt_ge_dec 0 (o_ncut o)) as [L|L]; [left; exists o; split; [left; reflexivity|exact L]|].
    destruct IH as [(x & I & N)|IH]; [left; exists x; split; [right; exact I|exact N]|right; intros x [->|I]; [lia|apply IH; exact I]]. }
  destruct D as [D|D].
  - exfalso. apply bind_ok in H. destruct H as (rs & _ & H). apply bind_ok in H. destruct H as (none & _ & H). apply bind_ok in H. destruct H as (objs' & O & H).
    apply bind_ok in H. destruct H as (pr & P & _). destruct (m_psf f) as [p|]; [|apply PN; reflexivity].
    assert (D' : Forall psf_starts_ok objs' /\ exists o, In o objs' /\ 0 < o_ncut o).
    { destruct none; [injection O as <-; split; assumption|].
      rewrite renumber_eq in O by (eapply Forall_impl; [|exact IN]; intros o (F & _); exact F). injection O as <-. destruct (ren_starts objs 0 IN) as (I1 & I2). split; [exact I1|apply I2; exact D]. }
    destruct D' as (I' & D'). apply bind_ok in P. destruct P as (pr' & PR & P). rewrite (first_psf _ _ _ I' D' PR) in P. cbn [bind] in P.
    apply bind_ok in P. destruct P as (objs2 & P & _). apply (box_psf_fails _ _ PC D' _ _ P).
  - assert (E : extract_numbers order f numbers = Ok g).
    { unfold extract_numbers. rewrite GI. cbn [bind]. rewrite MI. exact H. }
    rewrite (numbers_none _ _ _ _ _ GI MI D) in E. injection E as <-. exact D.
Qed.

Lemma roomy_starts e pe f p : roomy e pe f -> m_psf f = Some p -> Forall psf_starts_ok (m_cat f).
Proof.
  intros (W & _ & _ & _ & _ & P) E. destruct (P p E) as (_ & _ & T & _). apply Forall_forall. intros o I. rewrite Forall_forall in W.
  split; [apply (W o I)|]. intros s S. apply (in_tiles s_psf_start (psf_npix (m_psf_cols f)) (m_cat f) o s 0 pe T I S).
Qed.

Lemma numbers_of_coadds f ct tp junk pjunk coadder rg rows f' order numbers g : stamp_shapes f coadder -> range_from_zero rg -> 0 <= tp ->
  Forall (fun o => 0 < o_box o) (m_cat f) -> write_coadds f ct tp junk pjunk coadder rg = Ok (rows, f') ->
  extract_numbers order f' numbers = Ok g -> forall o, In o (m_cat g) -> o_ncut o <= 0.
Proof.
  intros HS RG P BP H G o I. destruct (file_roomy _ _ _ _ _ _ _ _ _ HS RG P BP H) as (PC & PN & _ & e & pe & RO).
  destruct (m_psf f') as [p|] eqn:E; [|contradiction]. pose proof (roomy_starts _ _ _ _ RO E) as ST.
  apply (box_numbers order f' numbers g ST ltac:(rewrite E; discriminate) (or_introl PC) G o I).
Qed.

(** * The example *)
Lemma ex_numbers : exists rows f o im, ex_coadds = Ok (rows, f) /\ zget (m_cat f) 3 = Some o /\ o_number o = 4 /\
  get_cutout f 3 0 TImage = Ok im /\ (exists g, extract_range false f 3 3 = Ok g) /\
  extract_numbers (fun l => l) f [4] = Err ValueError.
Proof.
  do 4 eexists. split; [vm_compute; reflexivity|]. split; [vm_compute; reflexivity|]. split; [vm_compute; reflexivity|].
  split; [vm_compute; reflexivity|]. split; [eexists; vm_compute; reflexivity|vm_compute; reflexivity].
Qed.
Lemma ex_ormask : exists rows f g im, ex_coadds = Ok (rows, f) /\ extract_range false f 3 3 = Ok g /\
  get_cutout f 3 0 TOrmask = Ok im /\ get_cutout g 0 0 TOrmask = Err ValueError.
Proof.
  do 4 eexists. split; [vm_compute; reflexivity|]. split; [vm_compute; reflexivity|]. split; vm_compute; reflexivity.
Qed.
