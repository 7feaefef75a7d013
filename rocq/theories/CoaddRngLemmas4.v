(** A coadd maker used again: its rows, compared with those of a new maker. *)
From Coq Require Import Lia ZifyBool ZifyNat Qabs Lqa Qfield Permutation.
From Verif Require Import Base BaseLemmas Img ImgLemmas Types Reader BoundsM MakerLayout MakerWrite MakerFile Composite Coadd CoaddRng
  SpecTiles SpecFile SpecComposite SpecCoadd SpecCoaddRng ReadLemmas CalibLemmas CompositeLemmas OutlierLemmas
  CoaddLemmas CoaddLemmas2 CoaddLemmas3 CoaddLemmas4 CoaddLemmas5 CoaddLemmas6 CoaddRngLemmas CoaddRngLemmas2 CoaddRngLemmas3.
Open Scope Z_scope.

Lemma ok_inj {A} (x y : A) : Ok x = Ok y -> x = y. Proof. congruence. Qed.

(** What a write does not change in a row. *)
Definition base_slot (s : slot) : slot :=
  mkSlot (s_file s) 0 (s_orow s) (s_ocol s) (s_osr s) (s_osc s) 0 0 0 0 0 0 (s_psf_nr s) (s_psf_nc s) (s_psf_box s) 0 0 0.
Definition base_slots (l : list slot) : list slot := match l with [] => [] | s :: r => base_slot s :: r end.
Definition base_obj (o : obj) : obj :=
  mkObj (o_id o) (o_number o) (o_box o) (o_ra o) (o_dec o) (o_color o) (o_wcs_color o) (o_psf_color o) (o_psf_nr o) (o_psf_nc o) 0 0 (base_slots (o_slots o)).
Definition rowsim (a b : crow) : Prop :=
  base_obj (cr_obj a) = base_obj (cr_obj b) /\ cr_orig_ncutout a = cr_orig_ncutout b /\ length (cr_orig_flags a) = length (cr_orig_flags b).

Lemma rowsim_refl a : rowsim a a. Proof. repeat split. Qed.
Lemma rowsim_box a b : rowsim a b -> o_box (cr_obj a) = o_box (cr_obj b).
Proof. intros (H & _). apply (f_equal o_box) in H. exact H. Qed.

Lemma set_prefix_len l v r : set_prefix l v = Ok r -> length r = length l.
Proof.
  unfold set_prefix. intros H. dif_in H E; [|discriminate]. inversion H; subst. rewrite app_length, skipn_length. unfold zlen in E. lia.
Qed.

Lemma filled_sim a r co fl x y : filled_row r co fl x y = Ok a -> rowsim r a.
Proof.
  unfold filled_row. intros H. apply bind_ok in H. destruct H as (w & W & H). destruct (o_slots (cr_obj r)) as [|s rest] eqn:E; [discriminate|].
  inversion H; subst; clear H. split; [|split]; cbn [cr_obj cr_orig_ncutout cr_orig_flags].
  - unfold base_obj. cbn [o_id o_number o_box o_ra o_dec o_color o_wcs_color o_psf_color o_psf_nr o_psf_nc o_slots]. rewrite E. reflexivity.
  - reflexivity.
  - symmetry. eapply set_prefix_len. exact W.
Qed.

(** Filling two rows with the same base gives rows that differ in flags of
    images that do not exist only. *)
Lemma filled_two r1 r2 co fl x y a2 : rowsim r1 r2 -> filled_row r2 co fl x y = Ok a2 ->
  exists a1, filled_row r1 co fl x y = Ok a1 /\ cr_obj a1 = cr_obj a2 /\ cr_ncoadd a1 = cr_ncoadd a2 /\ cr_coadd_flags a1 = cr_coadd_flags a2.
Proof.
  intros (B & N & L) H. unfold filled_row in *. apply bind_ok in H. destruct H as (w & W & H).
  unfold set_prefix in *. dif_in W E; [|discriminate]. unfold zlen in *. rewrite L, E. cbn [bind].
  apply (f_equal (fun o => (o_id o, o_number o, o_box o, o_ra o, o_dec o, o_color o, o_wcs_color o, o_psf_color o, o_psf_nr o, o_psf_nc o, o_slots o))) in B.
  cbn [o_id o_number o_box o_ra o_dec o_color o_wcs_color o_psf_color o_psf_nr o_psf_nc o_slots base_obj] in B.
  injection B as E1 E2 E3 E4 E5 E6 E7 E8 E9 E10 ES. rewrite E1, E2, E3, E4, E5, E6, E7, E8, E9, E10.
  destruct (o_slots (cr_obj r2)) as [|s2 rest2]; [discriminate|]. destruct (o_slots (cr_obj r1)) as [|s1 rest1]; [discriminate|].
  cbn [base_slots] in ES. injection ES as ES1 ES2 ES3 ES4 ES5 ES6 ES7 ES8 ->.
  inversion H; subst. eexists. split; [reflexivity|]. cbn [cr_obj cr_ncoadd cr_coadd_flags]. split; [|split; reflexivity].
  unfold filled_slot. rewrite ES1, ES2, ES3, ES4, ES5, ES6, ES7, ES8. reflexivity.
Qed.

Definition ws_same (s1 s2 : wstate) : Prop :=
  ws_ext s1 = ws_ext s2 /\ ws_psf s1 = ws_psf s2 /\ ws_row_start s1 = ws_row_start s2 /\ ws_size s1 = ws_size s2 /\
  ws_psf_row_start s1 = ws_psf_row_start s2 /\ ws_psf_size s1 = ws_psf_size s2 /\ Forall2 rowsim (ws_rows s1) (ws_rows s2).

(** How a row came out of the loop over [js]. *)
Definition outcome (coadder : Z -> res (option cobs * Z)) (js : list Z) (j : Z) (r1 r2 a1 a2 : crow) : Prop :=
  (~ In j js /\ a1 = r1 /\ a2 = r2) \/
  (In j js /\ exists fl, coadder j = Ok (None, fl) /\ a1 = failed_row r1 fl /\ a2 = failed_row r2 fl) \/
  (In j js /\ exists co fl x y, coadder j = Ok (Some co, fl) /\ filled_row r1 co fl x y = Ok a1 /\ filled_row r2 co fl x y = Ok a2).

Lemma Forall2_zget_l {A B} (R : A -> B -> Prop) l l' : Forall2 R l l' -> forall j a, zget l j = Some a -> exists b, zget l' j = Some b /\ R a b.
Proof.
  intros F j a H. pose proof (Forall2_len _ _ _ F) as L. pose proof (zget_Some_range _ _ _ H) as BR.
  destruct (zget_range_Some l' j) as (b & J); [unfold zlen in *; lia|]. exists b. split; [exact J|].
  destruct (Forall2_zget _ _ _ F j b J) as (a' & A1 & A2). rewrite H in A1. inversion A1; subst. exact A2.
Qed.

Lemma Forall2_upd {A B} (R : A -> B -> Prop) l l' : Forall2 R l l' -> forall n a b, R a b -> Forall2 R (upd l n a) (upd l' n b).
Proof.
  induction 1 as [|x y l l' H F IH]; intros n a b R1; [destruct n; constructor|]. destruct n; cbn [upd]; constructor; auto.
Qed.

Lemma sim_step types coadder s1 s2 i s2' : 0 <= i -> ws_same s1 s2 -> write_object_cutouts types coadder s2 i = Ok s2' ->
  exists s1', write_object_cutouts types coadder s1 i = Ok s1' /\ ws_same s1' s2' /\
    forall j r1 r2, zget (ws_rows s1) j = Some r1 -> zget (ws_rows s2) j = Some r2 ->
      exists a1 a2, zget (ws_rows s1') j = Some a1 /\ zget (ws_rows s2') j = Some a2 /\ outcome coadder [i] j r1 r2 a1 a2.
Proof.
  intros HI (E1 & E2 & E3 & E4 & E5 & E6 & F) H. unfold write_object_cutouts in H |- *.
  apply bind_ok in H. destruct H as ([x fl] & X & H). rewrite X; cbn [bind].
  apply bind_ok in H. destruct H as (r2 & R2 & H). destruct (zget (ws_rows s2) i) as [r2'|] eqn:G2; [|discriminate]. inversion R2; subst r2'; clear R2.
  destruct (Forall2_zget _ _ _ F i r2 G2) as (r1 & G1 & RS). rewrite G1; cbn [bind].
  pose proof (zget_Some_range _ _ _ G1) as B1. pose proof (zget_Some_range _ _ _ G2) as B2.
  destruct x as [co|].
  - rewrite (rowsim_box _ _ RS). dif_in H EB; [discriminate|].
    apply bind_ok in H. destruct H as (a2 & A2 & H). apply bind_ok in H. destruct H as (ext & X2 & H). apply bind_ok in H. destruct H as (psf & P2 & H).
    apply ok_inj in H. subst s2'. rewrite E1, E2, E3, E4, E5, E6.
    destruct (filled_two _ _ _ _ _ _ _ RS A2) as (a1 & A1 & _). rewrite A1; cbn [bind]. rewrite X2; cbn [bind]. rewrite P2; cbn [bind].
    eexists. split; [reflexivity|]. cbn [ws_ext ws_psf ws_row_start ws_size ws_psf_row_start ws_psf_size ws_rows]. split.
    + repeat split. apply Forall2_upd; [exact F|]. pose proof (filled_sim _ _ _ _ _ _ A1) as (U1 & U2 & U3). pose proof (filled_sim _ _ _ _ _ _ A2) as (V1 & V2 & V3).
      destruct RS as (W1 & W2 & W3). split; [congruence|]. split; congruence.
    + intros j q1 q2 Q1 Q2. rewrite !zget_upd by lia. dif E.
      * assert (j = i) by lia. subst j. rewrite G1 in Q1. rewrite G2 in Q2. inversion Q1; inversion Q2; subst. exists a1, a2. split; [reflexivity|]. split; [reflexivity|].
        right. right. split; [left; reflexivity|]. exists co, fl, (ws_row_start s2 + ws_size s2), (ws_psf_row_start s2 + ws_psf_size s2). split; [exact X|]. split; assumption.
      * exists q1, q2. split; [exact Q1|]. split; [exact Q2|]. left. split; [intros [C|[]]; lia|split; reflexivity].
  - apply ok_inj in H. subst s2'. eexists. split; [reflexivity|]. cbn [ws_ext ws_psf ws_row_start ws_size ws_psf_row_start ws_psf_size ws_rows]. split.
    + repeat split; try assumption. apply Forall2_upd; [exact F|]. exact RS.
    + intros j q1 q2 Q1 Q2. rewrite !zget_upd by lia. dif E.
      * assert (j = i) by lia. subst j. rewrite G1 in Q1. rewrite G2 in Q2. inversion Q1; inversion Q2; subst. eexists _, _. split; [reflexivity|]. split; [reflexivity|].
        right. left. split; [left; reflexivity|]. exists fl. split; [exact X|]. split; reflexivity.
      * exists q1, q2. split; [exact Q1|]. split; [exact Q2|]. left. split; [intros [C|[]]; lia|split; reflexivity].
Qed.

Lemma sim_fold types coadder : forall js s1 s2 s2', NoDup js -> (forall i, In i js -> 0 <= i) -> ws_same s1 s2 ->
  foldM (write_object_cutouts types coadder) js s2 = Ok s2' ->
  exists s1', foldM (write_object_cutouts types coadder) js s1 = Ok s1' /\ ws_same s1' s2' /\
    forall j r1 r2, zget (ws_rows s1) j = Some r1 -> zget (ws_rows s2) j = Some r2 ->
      exists a1 a2, zget (ws_rows s1') j = Some a1 /\ zget (ws_rows s2') j = Some a2 /\ outcome coadder js j r1 r2 a1 a2.
Proof.
  induction js as [|i js IH]; intros s1 s2 s2' N P W H; cbn [foldM] in *.
  - inversion H; subst. exists s1. split; [reflexivity|]. split; [exact W|]. intros j r1 r2 R1 R2. exists r1, r2. split; [exact R1|]. split; [exact R2|]. left. split; [intros []|split; reflexivity].
  - apply bind_ok in H. destruct H as (m2 & S & H). inversion N as [|? ? N1 N2]; subst.
    destruct (sim_step _ _ _ _ _ _ (P i (or_introl eq_refl)) W S) as (m1 & -> & W1 & O1). cbn [bind].
    destruct (IH m1 m2 s2' N2) as (s1' & F & W2 & O2); [intros x X; apply P; right; exact X|exact W1|exact H|].
    exists s1'. split; [exact F|]. split; [exact W2|]. intros j r1 r2 R1 R2.
    destruct (O1 _ _ _ R1 R2) as (b1 & b2 & B1 & B2 & OB). destruct (O2 _ _ _ B1 B2) as (a1 & a2 & A1 & A2 & OA). exists a1, a2. split; [exact A1|]. split; [exact A2|].
    destruct OB as [(NI & -> & ->)|[([<-|[]] & fl & C & -> & ->)|([<-|[]] & co & fl & x & y & C & D1 & D2)]].
    + destruct OA as [(NJ & -> & ->)|[(IJ & OA)|(IJ & OA)]].
      * left. split; [|split; reflexivity]. intros [<-|K]; [apply NI; left; reflexivity|exact (NJ K)].
      * right. left. split; [right; exact IJ|exact OA].
      * right. right. split; [right; exact IJ|exact OA].
    + destruct OA as [(NJ & -> & ->)|[(IJ & OA)|(IJ & OA)]]; [|contradiction|contradiction].
      right. left. split; [left; reflexivity|]. exists fl. split; [exact C|]. split; reflexivity.
    + destruct OA as [(NJ & -> & ->)|[(IJ & OA)|(IJ & OA)]]; [|contradiction|contradiction].
      right. right. split; [left; reflexivity|]. exists co, fl, x, y. split; [exact C|]. split; assumption.
Qed.

(** * Makers *)

Definition may_coadd (cs : Z -> Z -> res (option cobs * Z * Z)) (j : Z) : Prop := exists q co fl q', cs q j = Ok (Some co, fl, q').
(** The rows [rows] of a maker after some writes; [rows0] when new. *)
Definition hist (cs : Z -> Z -> res (option cobs * Z * Z)) (rows0 rows : list crow) : Prop :=
  Forall2 rowsim rows0 rows /\ forall j r, zget rows j = Some r -> o_ncut (cr_obj r) = 0 \/ (o_ncut (cr_obj r) = 1 /\ may_coadd cs j).

Lemma Forall2_rowsim_refl l : Forall2 rowsim l l.
Proof. induction l; constructor; [apply rowsim_refl|assumption]. Qed.

Lemma rows_trans l1 l2 : Forall2 rowsim l1 l2 -> forall l3, Forall2 rowsim l1 l3 -> Forall2 rowsim l2 l3.
Proof.
  induction 1 as [|x y l1 l2 H F IH]; intros l3 G; inversion G as [|? z ? l3' G1 G2]; subst; constructor; [|apply IH; exact G2].
  destruct H as (A & B & C), G1 as (D & E & K). split; [congruence|]. split; congruence.
Qed.
Lemma rowsim_sym_list l1 l2 : Forall2 rowsim l1 l2 -> Forall2 rowsim l2 l1.
Proof. intros F. exact (rows_trans _ _ F _ (Forall2_rowsim_refl l1)). Qed.

Lemma obj_data_rows f rows0 : coadd_obj_data f = Ok rows0 -> forall j r, zget rows0 j = Some r -> o_ncut (cr_obj r) = 0.
Proof. intros H j r R. destruct (obj_data_ok _ _ H) as (n & _ & _ & F). destruct (Forall2_zget _ _ _ F j r R) as (o & _ & _ & K & _). exact K. Qed.

Lemma rows_len types coadder : forall js sa sb, foldM (write_object_cutouts types coadder) js sa = Ok sb -> length (ws_rows sb) = length (ws_rows sa).
Proof.
  induction js as [|i js IH]; intros sa sb G; cbn [foldM] in G; [inversion G; reflexivity|]. apply bind_ok in G. destruct G as (sm & G1 & G2).
  rewrite (IH _ _ G2). unfold write_object_cutouts in G1. apply bind_ok in G1. destruct G1 as ([x fl] & _ & G1). apply bind_ok in G1. destruct G1 as (r & _ & G1).
  destruct x as [co|].
  - dif_in G1 EB; [discriminate|]. apply bind_ok in G1. destruct G1 as (? & _ & G1). apply bind_ok in G1. destruct G1 as (? & _ & G1). apply bind_ok in G1. destruct G1 as (? & _ & G1).
    apply ok_inj in G1. subst sm. cbn [ws_rows]. apply upd_length.
  - apply ok_inj in G1. subst sm. cbn [ws_rows]. apply upd_length.
Qed.

Lemma rowsim_list : forall l l', length l = length l' -> (forall j a b, zget l j = Some a -> zget l' j = Some b -> rowsim a b) -> Forall2 rowsim l l'.
Proof.
  induction l as [|x l IH]; intros [|y l'] L K; try discriminate; constructor.
  - apply (K 0); reflexivity.
  - apply IH; [cbn in L; lia|]. intros j a b J1 J2. pose proof (zget_Some_range _ _ _ J1) as BR. apply (K (j + 1)).
    + unfold zget in *. destruct (j <? 0) eqn:EJ; [lia|]. replace (j + 1 <? 0) with false by lia. replace (Z.to_nat (j + 1)) with (S (Z.to_nat j)) by lia. exact J1.
    + unfold zget in *. destruct (j <? 0) eqn:EJ; [lia|]. replace (j + 1 <? 0) with false by lia. replace (Z.to_nat (j + 1)) with (S (Z.to_nat j)) by lia. exact J2.
Qed.

(** One write after others, beside the write of a new maker that asks the same coadder. *)
Lemma write_hist f ct tp cs junk pjunk mk rg mk' f' rows0 : coadd_obj_data f = Ok rows0 -> range_from_zero rg -> hist cs rows0 (cm_rows mk) ->
  coadd_write f ct tp cs junk pjunk mk rg = Ok (mk', f') ->
  hist cs rows0 (cm_rows mk') /\
  exists l coadder rows1 f1, coadd_calls cs (cm_pos mk) (asked_list f rg) = Ok (l, cm_pos mk') /\ map coadder (asked_list f rg) = map Ok l /\
    (forall j x, coadder j = Ok x -> asked f rg j /\ exists q q', cs q j = Ok (x, q')) /\
    write_coadds f ct tp junk pjunk coadder rg = Ok (rows1, f1) /\
    m_ext f' = m_ext f1 /\ m_psf f' = m_psf f1 /\ m_psf_cols f' = m_psf_cols f1 /\ m_cat f' = map cr_obj (cm_rows mk') /\
    forall j r0 r, zget rows0 j = Some r0 -> zget (cm_rows mk) j = Some r ->
      exists a1 a2, zget rows1 j = Some a1 /\ zget (cm_rows mk') j = Some a2 /\ outcome coadder (asked_list f rg) j r0 r a1 a2.
Proof.
  intros R HR (HS & HN) H. apply coadd_write_run in H. destruct H as (l & coadder & st & C & M & A & F & E1 & E2).
  set (s1 := mkWstate rows0 (reserve (add_types ct) (Coadd.zsum (map (fun o => o_box o ^ 2) (m_cat f))) junk) (map pjunk (zrange tp)) 0 0 0 0).
  match type of F with foldM _ _ ?s = _ => set (s2 := s) in F end.
  destruct (sim_fold (add_types ct) coadder (asked_list f rg) s1 s2 st (zrange2_NoDup _ _)) as (s1' & F1 & W & O).
  - intros i I. apply asked_list_In in I. unfold asked in I. destruct rg as [[a b]|]; cbn [range_from_zero] in HR; lia.
  - repeat split. exact HS.
  - exact F.
  - split.
    + rewrite E1. split.
      * assert (Z0 : Forall2 rowsim rows0 (ws_rows s1')).
        { apply rowsim_list; [symmetry; exact (rows_len _ _ _ _ _ F1)|]. intros j a b J1 J2.
          destruct (Forall2_zget_l _ _ _ HS j a J1) as (x & X & _). destruct (O j a x J1 X) as (b1 & b2 & L1 & L2 & OK).
          rewrite L1 in J2. inversion J2; subst b1. destruct OK as [(_ & -> & _)|[(_ & fl & _ & -> & _)|(_ & co & fl & x1 & y1 & _ & K & _)]].
            - apply rowsim_refl.
            - split; [reflexivity|]. split; reflexivity.
            - eapply filled_sim. exact K. }
        destruct W as (_ & _ & _ & _ & _ & _ & W). exact (rows_trans _ _ (rowsim_sym_list _ _ Z0) _ W).
      * intros j a2 J. destruct W as (_ & _ & _ & _ & _ & _ & W).
        assert (LR : zlen (ws_rows st) = zlen (cm_rows mk)).
        { unfold zlen. rewrite (rows_len _ _ _ _ _ F). reflexivity. }
        pose proof (zget_Some_range _ _ _ J) as JR. destruct (zget_range_Some (cm_rows mk) j) as (r2 & R2); [lia|].
        destruct (Forall2_zget _ _ _ HS j r2 R2) as (r1 & R1 & _). destruct (O j r1 r2 R1 R2) as (b1 & b2 & L1 & L2 & OK). rewrite L2 in J. inversion J; subst b2.
        destruct OK as [(_ & _ & ->)|[(_ & fl & _ & _ & ->)|(I & co & fl & x & y & CO & _ & K)]].
        -- apply HN. exact R2.
        -- exact (HN j r2 R2).
        -- right. apply filled_obj in K. destruct K as (s & rest & _ & _ & _ & K & _). split; [exact K|]. destruct (A _ _ CO) as (_ & q & q' & Q). exists q, co, fl, q'. exact Q.
    + exists l, coadder, (ws_rows s1'), (mkMeds (map cr_obj (ws_rows s1')) true PsfBoxObj (firstn 1 (m_info f)) (ws_ext s1') (Some (ws_psf s1'))).
      split; [exact C|]. split; [exact M|]. split; [exact A|]. split.
      { unfold write_coadds. rewrite R. cbn [bind]. change (match rg with Some r => r | None => (0, zlen (m_cat f)) end) with (lo_hi f rg).
        unfold asked_list in F1. destruct (lo_hi f rg) as [a b]. cbn [fst snd] in F1. fold s1. rewrite F1. reflexivity. }
      destruct W as (W1 & W2 & _). subst f'. cbn [m_ext m_psf m_psf_cols m_cat]. split; [congruence|]. split; [congruence|]. split; [reflexivity|]. split; [rewrite E1; reflexivity|].
      intros j r0 r R1 R2. destruct (O j r0 r R1 R2) as (a1 & a2 & L1 & L2 & OK). exists a1, a2. split; [exact L1|]. split; [rewrite E1; exact L2|exact OK].
Qed.
