(** Lemmas: renaming the objects. *)
From Coq Require Import Lia QArith.
From Verif Require Import Base Img Types Reader BoundsM MakerLayout Composite Fast3tree Uberseg SpecRelabel BaseLemmas UbersegLemmas.
From Verif Require ImgLemmas.
Open Scope Z_scope.

Lemma both_bind {A B C D} (R : A -> B -> Prop) (S : C -> D -> Prop) x y f g :
  both R x y -> (forall a b, R a b -> both S (f a) (g b)) -> both S (bind x f) (bind y g).
Proof. destruct x, y; cbn; intros H K; try easy. now apply K. Qed.

Lemma both_eq {A} (x y : res A) : both eq x y <-> x = y.
Proof. destruct x, y; cbn; split; intros H; try easy; congruence. Qed.

Lemma both_imp {A B} (R S : A -> B -> Prop) x y : (forall a b, R a b -> S a b) -> both R x y -> both S x y.
Proof. destruct x, y; cbn; auto. Qed.

Lemma both_refl {A} (R : A -> A -> Prop) x : (forall a, R a a) -> both R x x.
Proof. destruct x; cbn; auto. Qed.

Section Par.
  Context {A B : Type} (R : A -> B -> Prop).

  Lemma F2_len l l' : Forall2 R l l' -> zlen l' = zlen l.
  Proof. induction 1; [reflexivity|]. rewrite !zlen_cons. lia. Qed.

  Definition oboth (x : option A) (y : option B) : Prop :=
    match x, y with Some a, Some b => R a b | None, None => True | _, _ => False end.

  Lemma F2_nth l l' : Forall2 R l l' -> forall n, oboth (nth_error l n) (nth_error l' n).
  Proof. induction 1; intros [|n]; cbn; auto. Qed.

  Lemma F2_zget l l' i : Forall2 R l l' -> oboth (zget l i) (zget l' i).
  Proof. intros H. unfold zget. destruct (i <? 0); [exact I|]. now apply F2_nth. Qed.

  Lemma F2_py_index l l' i : Forall2 R l l' -> both R (py_index l i) (py_index l' i).
  Proof.
    intros H. unfold py_index. rewrite (F2_len _ _ H).
    pose proof (F2_zget l l' (if i <? 0 then i + zlen l else i) H) as K.
    destruct (zget l _), (zget l' _); cbn in K |- *; try easy.
  Qed.

  Lemma F2_firstn l l' : Forall2 R l l' -> forall n, Forall2 R (firstn n l) (firstn n l').
  Proof. induction 1; intros [|n]; cbn; auto. Qed.

  Lemma F2_skipn l l' : Forall2 R l l' -> forall n, Forall2 R (skipn n l) (skipn n l').
  Proof. induction 1; intros [|n]; cbn; auto. Qed.

  Lemma F2_upd l l' : Forall2 R l l' -> forall n a b, R a b -> Forall2 R (upd l n a) (upd l' n b).
  Proof. induction 1; intros [|n] a b K; cbn; auto. Qed.

  Lemma F2_slice l l' a b : Forall2 R l l' -> both (Forall2 R) (slice l a b) (slice l' a b).
  Proof.
    intros H. unfold slice. rewrite (F2_len _ _ H). destruct (_ && _ && _); cbn; [|reflexivity].
    now apply F2_firstn, F2_skipn.
  Qed.

  Definition imgR (a : img A) (b : img B) : Prop := nr b = nr a /\ nc b = nc a /\ Forall2 R (dat a) (dat b).

  Lemma F2_reshape l l' h w : Forall2 R l l' -> both imgR (reshape l h w) (reshape l' h w).
  Proof.
    intros H. unfold reshape. rewrite (F2_len _ _ H). destruct (_ && _ && _); cbn; [|reflexivity].
    repeat split; assumption.
  Qed.

  Lemma R_px a b r c : imgR a b -> oboth (px a r c) (px b r c).
  Proof.
    intros (E1 & E2 & H). unfold px. rewrite E1, E2. destruct (_ && _ && _ && _); cbn; [|exact I].
    now apply F2_zget.
  Qed.

  Lemma R_px_res a b r c : imgR a b -> both R (px_res a r c) (px_res b r c).
  Proof.
    intros H. unfold px_res. pose proof (R_px a b r c H) as K.
    destruct (px a r c), (px b r c); cbn in *; easy.
  Qed.

  Lemma R_px_wrap a b r c : imgR a b -> both R (px_wrap a r c) (px_wrap b r c).
  Proof.
    intros H. unfold px_wrap. pose proof H as (E1 & E2 & _). rewrite E1, E2. now apply R_px_res.
  Qed.

  Lemma R_mapM {X} (f : X -> res A) (g : X -> res B) xs : (forall x, In x xs -> both R (f x) (g x)) ->
    both (Forall2 R) (mapM f xs) (mapM g xs).
  Proof.
    induction xs as [|x xs IH]; intros H; cbn; [constructor|].
    apply both_bind with (R := R); [apply H; now left|]. intros a b Rab.
    apply both_bind with (R := Forall2 R); [apply IH; intros y Hy; apply H; now right|]. intros l l' Rl. cbn. auto.
  Qed.

  Lemma R_tab2M h w (f : Z -> Z -> res A) (g : Z -> Z -> res B) : (forall r c, both R (f r c) (g r c)) ->
    both imgR (tab2M h w f) (tab2M h w g).
  Proof.
    intros H. unfold tab2M. apply both_bind with (R := Forall2 R).
    - apply R_mapM. intros p _. apply H.
    - intros l l' Rl. cbn. repeat split; assumption.
  Qed.

  Lemma R_sub2d a b r0 r1 c0 c1 : imgR a b -> both imgR (sub2d a r0 r1 c0 c1) (sub2d b r0 r1 c0 c1).
  Proof.
    intros H. unfold sub2d. pose proof H as (E1 & E2 & _). rewrite E1, E2.
    apply R_tab2M. intros r c. now apply R_px_res.
  Qed.

  Lemma R_paste a b r0 r1 c0 c1 s s' : imgR a b -> imgR s s' ->
    both imgR (paste a r0 r1 c0 c1 s) (paste b r0 r1 c0 c1 s').
  Proof.
    intros H K. unfold paste. pose proof H as (E1 & E2 & _). pose proof K as (E3 & E4 & _). rewrite E1, E2, E3, E4.
    destruct (_ && _); cbn; [|reflexivity].
    apply R_tab2M. intros r c. destruct (_ && _ && _ && _); now apply R_px_res.
  Qed.

  Lemma R_split a b : imgR a b -> both (Forall2 imgR) (split_mosaic a) (split_mosaic b).
  Proof.
    intros H. unfold split_mosaic. pose proof H as (E1 & E2 & _). rewrite E1, E2.
    destruct (nc a =? 0); cbn; [reflexivity|].
    assert (K : forall xs, both (Forall2 imgR)
       (mapM (fun i => sub2d a (i * nc a) ((i + 1) * nc a) 0 (nc a)) xs)
       (mapM (fun i => sub2d b (i * nc a) ((i + 1) * nc a) 0 (nc a)) xs)).
    { induction xs as [|x xs IH]; cbn; [constructor|]. eapply both_bind; [apply R_sub2d; eassumption|]. intros u v Ru.
      eapply both_bind; [exact IH|]. intros l l' Rl. cbn. auto. }
    apply K.
  Qed.
End Par.

Lemma imgR_eq {A} (a b : img A) : imgR eq a b -> a = b.
Proof.
  intros (E1 & E2 & H). assert (E3 : dat a = dat b) by (induction H; [reflexivity|congruence]).
  destruct a, b; cbn in *; congruence.
Qed.

Lemma both_foldM {S S' X} (R : S -> S' -> Prop) (f : S -> X -> res S) (g : S' -> X -> res S') xs :
  (forall s s' x, R s s' -> both R (f s x) (g s' x)) -> forall s s', R s s' -> both R (foldM f xs s) (foldM g xs s').
Proof.
  intros H. induction xs as [|x xs IH]; intros s s' Rs; cbn; [exact Rs|].
  eapply both_bind; [now apply H|]. intros t t' Rt. now apply IH.
Qed.

Lemma R_inplace (R : Q -> Q -> Prop) g g' a b : imgR R a b ->
  (forall k s s', imgR R s s' -> both (imgR R) (g k s) (g' k s')) -> both (imgR R) (inplace_blocks g a) (inplace_blocks g' b).
Proof.
  intros H K. unfold inplace_blocks. pose proof H as (E1 & E2 & _). rewrite E1, E2.
  destruct (nc a =? 0); cbn; [reflexivity|]. apply both_foldM; [|exact H].
  intros s s' k Rs. eapply both_bind; [apply R_sub2d; exact Rs|]. intros u v Ru.
  eapply both_bind; [apply K; exact Ru|]. intros w w' Rw. apply R_paste; assumption.
Qed.

Section Rename.
  Variable phi : Z -> Z.
  Hypothesis Hphi : renaming phi.

  Notation rn := (renamed phi).
  Notation rimg := (imgR (renamed phi)).

  Lemma phi_inj a b : phi a = phi b <-> a = b.
  Proof. destruct Hphi as (H & _). split; [apply H|congruence]. Qed.

  Lemma phi_nonneg z : 0 <= z -> 0 <= phi z.
  Proof.
    destruct Hphi as (_ & H0 & H1). intros H. destruct (Z.eq_dec z 0) as [-> | N]; [lia|].
    specialize (H1 z). lia.
  Qed.

  Lemma phi_pos z : 0 <= z -> (0 <? phi z) = (0 <? z).
  Proof.
    destruct Hphi as (_ & H0 & H1). intros H. destruct (Z.eq_dec z 0) as [-> | N]; [now rewrite H0|].
    specialize (H1 z ltac:(lia)). rewrite (proj2 (Z.ltb_lt _ _) H1). symmetry. apply Z.ltb_lt. lia.
  Qed.

  Lemma inj_eqb a b : Qeq_bool (inject_Z a) (inject_Z b) = (a =? b).
  Proof.
    destruct (Z.eqb_spec a b) as [-> | N].
    - apply Qeq_bool_iff. reflexivity.
    - destruct (Qeq_bool _ _) eqn:E; [|reflexivity]. apply Qeq_bool_iff in E. unfold inject_Z, Qeq in E. cbn in E. lia.
  Qed.

  Lemma phi_eqb a b : (phi a =? phi b) = (a =? b).
  Proof. destruct (Z.eqb_spec a b) as [-> | N]; [apply Z.eqb_refl|]. apply Z.eqb_neq. now rewrite phi_inj. Qed.

  Lemma Qeq_bool_comp a a' b b' : (a == a')%Q -> (b == b')%Q -> Qeq_bool a b = Qeq_bool a' b'.
  Proof.
    intros H K. destruct (Qeq_bool a b) eqn:E.
    - apply Qeq_bool_iff in E. symmetry. apply Qeq_bool_iff. now rewrite <- H, <- K.
    - destruct (Qeq_bool a' b') eqn:E'; [|reflexivity]. apply Qeq_bool_iff in E'.
      rewrite <- E. apply Qeq_bool_iff. now rewrite H, K.
  Qed.

  Lemma rn_eqb a a' b b' : rn a a' -> rn b b' -> Qeq_bool a' b' = Qeq_bool a b.
  Proof.
    intros (x & _ & H1 & H2) (y & _ & K1 & K2).
    rewrite (Qeq_bool_comp _ _ _ _ H1 K1), (Qeq_bool_comp _ _ _ _ H2 K2), !inj_eqb. apply phi_eqb.
  Qed.

  Lemma rn_zero : rn 0 0.
  Proof. exists 0. destruct Hphi as (_ & -> & _). repeat split; reflexivity || lia. Qed.

  Lemma rn_inj z : 0 <= z -> rn (inject_Z z) (inject_Z (phi z)).
  Proof. intros H. exists z. repeat split; reflexivity || assumption. Qed.

  Lemma rn_zero_eqb a a' : rn a a' -> Qeq_bool a' 0 = Qeq_bool a 0.
  Proof. intros H. apply (rn_eqb a a' 0 0 H rn_zero). Qed.

  Lemma rn_logic rs a a' b b' : rn a a' -> rn b b' -> seg_logic rs a' b' = seg_logic rs a b.
  Proof.
    intros H K. unfold seg_logic. rewrite (rn_eqb b b' a a' K H), (rn_zero_eqb b b' K). reflexivity.
  Qed.

  Lemma rn_trunc a a' : rn a a' -> 0 <= qtrunc a /\ qtrunc a' = phi (qtrunc a).
  Proof. intros (z & Hz & H & K). rewrite (qtrunc_int _ _ H), (qtrunc_int _ _ K). auto. Qed.

  (** * The accessors *)
  Variables f f' : medsfile.
  Hypothesis Hf : renamed_file phi f f'.

  Notation ro := (renamed_obj phi).

  Lemma len_cat : zlen (m_cat f') = zlen (m_cat f).
  Proof. apply (F2_len ro), (rf_cat _ _ _ Hf). Qed.

  Lemma ro_index i : both ro (py_index (m_cat f) i) (py_index (m_cat f') i).
  Proof. apply F2_py_index, (rf_cat _ _ _ Hf). Qed.

  Lemma ro_check i k : both ro (check_indices f i k) (check_indices f' i k).
  Proof.
    unfold check_indices. rewrite len_cat. destruct (_ <=? i); cbn; [reflexivity|].
    eapply both_bind; [apply ro_index|]. intros o o' Ro. pose proof Ro as (_ & E).
    replace (o_ncut o') with (o_ncut o) by (rewrite E; reflexivity).
    destruct (o_ncut o =? 0); cbn; [reflexivity|]. destruct k as [k|]; [|exact Ro].
    destruct (_ <=? k); [reflexivity|exact Ro].
  Qed.

  Lemma ro_slot o o' k : ro o o' -> get_slot o' k = get_slot o k.
  Proof. intros (_ & ->). reflexivity. Qed.
  Lemma ro_box o o' : ro o o' -> o_box o' = o_box o.
  Proof. intros (_ & ->). reflexivity. Qed.
  Lemma ro_ncut o o' : ro o o' -> o_ncut o' = o_ncut o.
  Proof. intros (_ & ->). reflexivity. Qed.
  Lemma ro_number o o' : ro o o' -> 0 <= o_number o /\ o_number o' = phi (o_number o).
  Proof. intros (H & ->). split; [exact H|reflexivity]. Qed.

  Definition rt (t : ctype) : Q -> Q -> Prop := match t with TSeg => rn | _ => eq end.

  Lemma rt_ext t : both (Forall2 (rt t)) (get_extension f t) (get_extension f' t).
  Proof.
    unfold get_extension.
    assert (K : t <> TSeg -> rt t = eq -> both (Forall2 (rt t))
       (match ext_find (m_ext f) t with Some m => Ok m | None => Err ValueError end)
       (match ext_find (m_ext f') t with Some m => Ok m | None => Err ValueError end)).
    { intros N E. rewrite (rf_ext _ _ _ Hf t N), E. destruct (ext_find (m_ext f) t) as [m|]; cbn; [|reflexivity].
      induction m; constructor; auto. }
    destruct t; try (apply K; [discriminate|reflexivity]).
    pose proof (rf_seg _ _ _ Hf) as S. cbn [rt]. destruct (ext_find (m_ext f) TSeg), (ext_find (m_ext f') TSeg); cbn; easy.
  Qed.

  Lemma rt_cutout t i k : both (imgR (rt t)) (get_cutout f i k t) (get_cutout f' i k t).
  Proof.
    unfold get_cutout. eapply both_bind; [apply ro_check|]. intros o o' Ro.
    rewrite (ro_slot o o' k Ro), (ro_box o o' Ro).
    eapply both_bind with (R := eq); [now apply both_eq|]. intros s ? <-.
    eapply both_bind; [apply rt_ext|]. intros m m' Rm.
    eapply both_bind; [apply F2_slice; eassumption|]. intros l l' Rl. now apply F2_reshape.
  Qed.

  Lemma rt_mosaic t i : both (imgR (rt t)) (get_mosaic f i t) (get_mosaic f' i t).
  Proof.
    unfold get_mosaic. eapply both_bind; [apply ro_check|]. intros o o' Ro.
    rewrite (ro_slot o o' 0 Ro), (ro_box o o' Ro), (ro_ncut o o' Ro).
    eapply both_bind with (R := eq); [now apply both_eq|]. intros s ? <-.
    eapply both_bind; [apply rt_ext|]. intros m m' Rm.
    eapply both_bind; [apply F2_slice; eassumption|]. intros l l' Rl. now apply F2_reshape.
  Qed.

  Lemma cutout_seg i k : both rimg (get_cutout f i k TSeg) (get_cutout f' i k TSeg).
  Proof. exact (rt_cutout TSeg i k). Qed.
  Lemma cutout_weight i k : both (imgR eq) (get_cutout f i k TWeight) (get_cutout f' i k TWeight).
  Proof. exact (rt_cutout TWeight i k). Qed.

  Lemma rowcol_eq i k : get_cutout_rowcol f' i k = get_cutout_rowcol f i k.
  Proof.
    symmetry. apply both_eq. unfold get_cutout_rowcol. eapply both_bind; [apply ro_index|]. intros o o' Ro.
    rewrite (ro_slot o o' k Ro). now apply both_eq.
  Qed.

  Lemma jacob_eq i k : get_jacobian_matrix f' i k = get_jacobian_matrix f i k.
  Proof.
    symmetry. apply both_eq. unfold get_jacobian_matrix. eapply both_bind; [apply ro_index|]. intros o o' Ro.
    rewrite (ro_slot o o' k Ro). now apply both_eq.
  Qed.

  Lemma number_rel i : both (fun n n' => 0 <= n /\ n' = phi n) (number_col f i) (number_col f' i).
  Proof.
    unfold number_col. rewrite (rf_col _ _ _ Hf). destruct (m_number_col f); cbn; [|reflexivity].
    eapply both_bind; [apply ro_index|]. intros o o' Ro. cbn. now apply ro_number.
  Qed.

  (** * Composites *)
  Lemma composite_rel (R : Q -> Q -> Prop) i k im im' seg seg' rs : R 0%Q 0%Q -> imgR R im im' -> rimg seg seg' ->
    both (imgR R) (make_composite_image f i k im seg rs) (make_composite_image f' i k im' seg' rs).
  Proof.
    intros R0 Him Hseg. unfold make_composite_image. rewrite !rowcol_eq, !jacob_eq.
    pose proof Him as (E1 & E2 & _). pose proof Hseg as (E3 & E4 & _). rewrite E1, E2, E3, E4.
    eapply both_bind with (R := eq); [now apply both_eq|]. intros cc ? <-.
    eapply both_bind with (R := eq); [now apply both_eq|]. intros cen ? <-.
    eapply both_bind; [apply R_px_wrap; eassumption|]. intros g g' Rg.
    assert (P : forall r c x y, both R
      (let* s := px_res seg r c in let* v := px_res im x y in Ok (if seg_logic rs g s then 0%Q else v))
      (let* s := px_res seg' r c in let* v := px_res im' x y in Ok (if seg_logic rs g' s then 0%Q else v))).
    { intros r c x y. eapply both_bind; [apply R_px_res; eassumption|]. intros s s' Rs.
      eapply both_bind; [apply R_px_res; eassumption|]. intros v v' Rv. cbn. rewrite (rn_logic rs g g' s s' Rg Rs).
      destruct (seg_logic rs g s); assumption. }
    destruct (k =? 0).
    - apply R_tab2M. intros r c. apply P.
    - eapply both_bind with (R := eq); [now apply both_eq|]. intros sj ? <-.
      eapply both_bind with (R := eq); [now apply both_eq|]. intros cj ? <-.
      destruct (mat_inv cj) as [cjinv|].
      + apply R_tab2M. intros r c. destruct (to_coadd _ _ _ _ _ _ _ _) as [u v]. apply P.
      + apply R_tab2M. intros r c. exact R0.
  Qed.

  Lemma cweight_cutout i k rs : get_cweight_cutout f' i k rs = get_cweight_cutout f i k rs.
  Proof.
    symmetry. apply both_eq. eapply both_imp; [apply (@imgR_eq Q)|]. unfold get_cweight_cutout.
    eapply both_bind; [apply cutout_weight|]. intros w w' Rw.
    eapply both_bind; [apply cutout_seg|]. intros s s' Rs. now apply composite_rel.
  Qed.

  Lemma cweight_mosaic i rs : get_cweight_mosaic f' i rs = get_cweight_mosaic f i rs.
  Proof.
    symmetry. apply both_eq. eapply both_imp; [apply (@imgR_eq Q)|]. unfold get_cweight_mosaic.
    eapply both_bind; [exact (rt_mosaic TWeight i)|]. intros w w' Rw.
    eapply both_bind; [apply cutout_seg|]. intros s s' Rs.
    apply R_inplace; [exact Rw|]. intros k u u' Ru. now apply composite_rel.
  Qed.

  Lemma cweight_list i rs : get_cweight_cutout_list f' i rs = get_cweight_cutout_list f i rs.
  Proof. unfold get_cweight_cutout_list. now rewrite cweight_mosaic. Qed.

  Lemma fill_rel a b n : 0 <= n -> rimg a b -> rimg (fill_with a (inject_Z n)) (fill_with b (inject_Z (phi n))).
  Proof.
    intros Hn (E1 & E2 & H). repeat split; [exact E1|exact E2|]. cbn.
    induction H; constructor; auto. now apply rn_inj.
  Qed.

  Lemma get_number_rel i : m_number_col f = true -> both (fun n n' => 0 <= n /\ n' = phi n) (get_number f i) (get_number f' i).
  Proof.
    intros C. unfold get_number. rewrite (rf_col _ _ _ Hf), C.
    eapply both_bind; [apply ro_index|]. intros o o' Ro. cbn. now apply ro_number.
  Qed.

  Lemma cseg_cutout i k : m_number_col f = true -> both (renamed_img phi) (get_cseg_cutout f i k) (get_cseg_cutout f' i k).
  Proof.
    intros C. unfold get_cseg_cutout. eapply both_bind; [apply cutout_seg|]. intros s s' Rs.
    eapply both_bind; [now apply get_number_rel|]. intros n n' (Hn & ->).
    eapply both_bind; [apply cutout_seg|]. intros cs cs' Rcs.
    apply composite_rel; [apply rn_zero|now apply fill_rel|exact Rcs].
  Qed.

  Lemma cseg_mosaic i : m_number_col f = true -> both (renamed_img phi) (get_cseg_mosaic f i) (get_cseg_mosaic f' i).
  Proof.
    intros C. unfold get_cseg_mosaic. eapply both_bind; [exact (rt_mosaic TSeg i)|]. intros s s' Rs.
    eapply both_bind; [now apply get_number_rel|]. intros n n' (Hn & ->).
    eapply both_bind; [apply cutout_seg|]. intros cs cs' Rcs.
    apply R_inplace; [now apply fill_rel|]. intros k u u' Ru. apply composite_rel; [apply rn_zero|exact Ru|exact Rcs].
  Qed.

  Lemma interp_image i jm cen : both rimg (interpolate_coadd_seg_image f i jm cen) (interpolate_coadd_seg_image f' i jm cen).
  Proof.
    unfold interpolate_coadd_seg_image. eapply both_bind; [apply cutout_seg|]. intros s s' Rs.
    pose proof Rs as (E1 & E2 & _). rewrite E1, E2, rowcol_eq, jacob_eq.
    eapply both_bind with (R := eq); [now apply both_eq|]. intros cj ? <-.
    eapply both_bind with (R := eq); [now apply both_eq|]. intros cc ? <-.
    eapply both_bind with (R := eq); [now apply both_eq|]. intros ci ? <-.
    apply R_tab2M. intros r c. destruct (to_coadd _ _ _ _ _ _ _ _) as [u v]. now apply R_px_res.
  Qed.

  Lemma interp i k : both rimg (interpolate_coadd_seg f i k) (interpolate_coadd_seg f' i k).
  Proof.
    unfold interpolate_coadd_seg. eapply both_bind; [apply cutout_seg|]. intros s s' Rs.
    destruct (k =? 0); [exact Rs|]. rewrite rowcol_eq, jacob_eq.
    eapply both_bind with (R := eq); [now apply both_eq|]. intros jm ? <-.
    eapply both_bind with (R := eq); [now apply both_eq|]. intros cen ? <-. apply interp_image.
  Qed.

  Lemma filter_eq {A} (p q : A -> bool) l : (forall x, p x = q x) -> filter p l = filter q l.
  Proof. intros H. induction l as [|x l IH]; cbn; [reflexivity|]. rewrite H, IH. reflexivity. Qed.

  Lemma cseg_weight i k uc : get_cseg_weight f' i k uc = get_cseg_weight f i k uc.
  Proof.
    symmetry. apply both_eq. unfold get_cseg_weight. eapply both_bind; [apply cutout_seg|]. intros s s' Rs.
    eapply both_bind; [apply cutout_weight|]. intros w w' Rw. apply imgR_eq in Rw as <-.
    eapply both_bind; [apply number_rel|]. intros n n' (Hn & ->).
    pose proof Rs as (E1 & E2 & _). rewrite E1, E2, rowcol_eq.
    rewrite (filter_eq
      (fun p => match px s' (fst p) (snd p) with Some v => other_seg (inject_Z (phi n)) v | None => false end)
      (fun p => match px s (fst p) (snd p) with Some v => other_seg (inject_Z n) v | None => false end)).
    - apply both_eq. reflexivity.
    - intros p. pose proof (R_px rn s s' (fst p) (snd p) Rs) as K.
      destruct (px s _ _), (px s' _ _); cbn in K; try easy. unfold other_seg.
      now rewrite (rn_zero_eqb _ _ K), (rn_eqb _ _ _ _ K (rn_inj n Hn)).
  Qed.

  (** * Uberseg *)
  Lemma existsb_rn x x' l l' : rn x x' -> Forall2 rn l l' -> existsb (Qeq_bool x') l' = existsb (Qeq_bool x) l.
  Proof. intros Hx H. induction H; cbn; [reflexivity|]. now rewrite IHForall2, (rn_eqb _ _ _ _ Hx H). Qed.

  Lemma quniq_rn l l' : Forall2 rn l l' -> Forall2 rn (quniq l) (quniq l').
  Proof.
    induction 1; cbn; [constructor|]. rewrite (existsb_rn _ _ _ _ H H0). destruct (existsb _ _); auto.
  Qed.

  Lemma obj_inds_rn s s' : rimg s s' -> obj_inds s' = obj_inds s.
  Proof.
    intros H. unfold obj_inds. pose proof H as (E1 & E2 & _). rewrite E1, E2. apply filter_eq. intros p.
    pose proof (R_px rn s s' (fst p) (snd p) H) as K. destruct (px s _ _), (px s' _ _); cbn in K; try easy.
    now rewrite (rn_zero_eqb _ _ K).
  Qed.

  Lemma slow_rn s s' w n inds : 0 <= n -> rimg s s' -> both (imgR eq) (uberseg_slow s w n inds) (uberseg_slow s' w (phi n) inds).
  Proof.
    intros Hn H. unfold uberseg_slow. pose proof H as (E1 & E2 & _). rewrite E1, E2. apply R_tab2M. intros r c.
    eapply both_bind with (R := eq); [now apply both_eq|]. intros p ? <-.
    eapply both_bind; [apply R_px_res; eassumption|]. intros v v' Rv.
    eapply both_bind with (R := eq); [now apply both_eq|]. intros x ? <-. cbn.
    now rewrite (rn_eqb _ _ _ _ Rv (rn_inj n Hn)).
  Qed.

  (** The tree of renamed points. *)
  Definition rz (z z' : Z) : Prop := 0 <= z /\ z' = phi z.
  Definition rp (p p' : pt) : Prop := p_idx p' = p_idx p /\ p_0 p' = p_0 p /\ p_1 p' = p_1 p /\ rz (p_seg p) (p_seg p').
  Inductive rtree : tree -> tree -> Prop :=
  | rt_leaf b l l' : Forall2 rp l l' -> rtree (TLeaf b l) (TLeaf b l')
  | rt_node b d l l' r r' : rtree l l' -> rtree r r' -> rtree (TNode b d l r) (TNode b d l' r').

  Lemma rp_coord d p p' : rp p p' -> coord d p' = coord d p.
  Proof. intros (_ & H0 & H1 & _). destruct d; assumption. Qed.
  Lemma rp_pdist c p p' : rp p p' -> pdist c p' = pdist c p.
  Proof. intros (_ & H0 & H1 & _). unfold pdist. now rewrite H0, H1. Qed.

  Lemma F2_map_eq {A C} (R : A -> A -> Prop) (g : A -> C) l l' : (forall a b, R a b -> g b = g a) -> Forall2 R l l' -> map g l' = map g l.
  Proof. intros H. induction 1; cbn; [reflexivity|]. rewrite IHForall2. f_equal. now apply H. Qed.

  Lemma rp_minmax l l' : Forall2 rp l l' -> find_minmax l' = find_minmax l.
  Proof.
    intros H. destruct H as [|p p' l l' (_ & H0 & H1 & _) H]; [reflexivity|]. cbn.
    rewrite H0, H1, (F2_map_eq rp p_0 l l'), (F2_map_eq rp p_1 l l'); try assumption; [reflexivity| |].
    - intros a b (_ & _ & K & _). exact K.
    - intros a b (_ & K & _). exact K.
  Qed.

  Lemma rp_cget l l' i : Forall2 rp l l' -> both rp (cget l i) (cget l' i).
  Proof. intros H. unfold cget. pose proof (F2_zget rp l l' i H). destruct (zget l i), (zget l' i); cbn in *; easy. Qed.

  Notation rsort := (fun x y : list pt * Z => Forall2 rp (fst x) (fst y) /\ snd y = snd x).

  Lemma rp_sort_loop d lim fuel : forall l l' i j, Forall2 rp l l' -> both rsort (sort_loop fuel d lim l i j) (sort_loop fuel d lim l' i j).
  Proof.
    induction fuel as [|fuel IH]; intros l l' i j H; cbn.
    - destruct (i <? j); [reflexivity|]. destruct (i =? j); [|cbn; auto].
      eapply both_bind; [apply rp_cget; eassumption|]. intros p p' Rp. cbn. now rewrite (rp_coord d p p' Rp).
    - destruct (i <? j).
      + eapply both_bind; [apply rp_cget; eassumption|]. intros p p' Rp. rewrite (rp_coord d p p' Rp).
        destruct (qltb lim _); [|now apply IH].
        eapply both_bind; [apply rp_cget; eassumption|]. intros q q' Rq. apply IH. now repeat apply F2_upd.
      + destruct (i =? j); [|cbn; auto].
        eapply both_bind; [apply rp_cget; eassumption|]. intros p p' Rp. cbn. now rewrite (rp_coord d p p' Rp).
  Qed.

  Lemma F2_length {A B} (R : A -> B -> Prop) l l' : Forall2 R l l' -> length l' = length l.
  Proof. induction 1; cbn; congruence. Qed.

  Lemma rp_sort b l l' : Forall2 rp l l' -> both rsort (sort_dim_pos b l) (sort_dim_pos b l').
  Proof.
    intros H. unfold sort_dim_pos. rewrite (F2_len rp _ _ H), (F2_length rp _ _ H).
    destruct (Qeq_bool _ _); [cbn; auto|]. now apply rp_sort_loop.
  Qed.

  Lemma rp_split fuel : forall b l l', Forall2 rp l l' -> both rtree (split_node fuel b l) (split_node fuel b l').
  Proof.
    induction fuel as [|fuel IH]; intros b l l' H; cbn [split_node]; [reflexivity|].
    eapply both_bind; [apply rp_sort; eassumption|]. intros [p n] [p' n'] (Rp & E). cbn in Rp, E. subst n'.
    rewrite (F2_len rp _ _ Rp). destruct (_ || _); [now constructor|].
    pose proof (F2_firstn rp _ _ Rp (Z.to_nat n)) as Rl. pose proof (F2_skipn rp _ _ Rp (Z.to_nat n)) as Rr.
    cbv zeta. rewrite (rp_minmax _ _ Rl), (rp_minmax _ _ Rr), (F2_len rp _ _ Rl), (F2_len rp _ _ Rr).
    eapply both_bind with (R := eq); [now apply both_eq|]. intros lb ? <-.
    eapply both_bind with (R := eq); [now apply both_eq|]. intros rb ? <-.
    eapply both_bind with (R := rtree).
    { destruct (_ <? _); [now apply IH|now constructor]. }
    intros t t' Rt. eapply both_bind with (R := rtree).
    { destruct (_ <? _); [now apply IH|now constructor]. }
    intros u u' Ru. now constructor.
  Qed.

  Lemma rp_build l l' : Forall2 rp l l' -> both rtree (fast3tree_build l) (fast3tree_build l').
  Proof.
    intros H. unfold fast3tree_build. rewrite (F2_len rp _ _ H), (F2_length rp _ _ H).
    eapply both_bind with (R := eq).
    - apply both_eq. destruct H as [|p p' l l' Hp H]; [reflexivity|]. symmetry. apply rp_minmax. now constructor.
    - intros b ? <-. destruct (_ <? _); [now apply rp_split|now constructor].
  Qed.

  Lemma rtree_box t t' : rtree t t' -> tbox t' = tbox t.
  Proof. now intros []. Qed.
  Lemma rtree_pts t t' : rtree t t' -> Forall2 rp (tpts t) (tpts t').
  Proof. induction 1; cbn; [assumption|]. now apply Forall2_app. Qed.

  Lemma F2_filter {A} (R : A -> A -> Prop) p l l' : (forall a b, R a b -> p b = p a) -> Forall2 R l l' ->
    Forall2 R (filter p l) (filter p l').
  Proof. intros H. induction 1; cbn; [constructor|]. rewrite (H _ _ H0). destruct (p x); auto. Qed.

  Lemma rtree_sphere c r2 t t' : rtree t t' -> Forall2 rp (find_sphere t c r2) (find_sphere t' c r2).
  Proof.
    induction 1 as [b l l' H|b d l l' r r' Hl IHl Hr IHr]; cbn.
    - destruct (box_not_intersect_sphere b c r2); [constructor|]. destruct (box_inside_sphere b c r2); [exact H|].
      apply F2_filter; [|exact H]. intros p p' Rp. now rewrite (rp_pdist c p p' Rp).
    - destruct (box_not_intersect_sphere b c r2); [constructor|]. destruct (box_inside_sphere b c r2).
      + apply Forall2_app; now apply rtree_pts.
      + now apply Forall2_app.
  Qed.

  Lemma F2_fold_eq {A S} (R : A -> A -> Prop) (g : S -> A -> S) l l' : (forall s a b, R a b -> g s b = g s a) -> Forall2 R l l' ->
    forall s, fold_left g l' s = fold_left g l s.
  Proof. intros H. induction 1; intros s; cbn; [reflexivity|]. rewrite (H s _ _ H0). apply IHForall2. Qed.

  Lemma rtree_closest c o t t' : rtree t t' -> forall a r2,
    find_next_closest_dist t' a c r2 o = find_next_closest_dist t a c r2 o.
  Proof.
    induction 1 as [b l l' H|b d l l' r r' Hl IHl Hr IHr]; intros a r2; cbn.
    - destruct (_ || _); [reflexivity|]. apply (F2_fold_eq rp); [|exact H].
      intros s p p' Rp. now rewrite (rp_pdist c p p' Rp).
    - destruct (_ || _); [reflexivity|]. destruct (qltb _ _); now rewrite IHl, IHr.
  Qed.

  Notation rnode := (fun x y : addr * tree => fst y = fst x /\ rtree (snd x) (snd y)).

  Lemma rtree_descend c t t' : rtree t t' -> forall a st st', Forall2 rnode st st' ->
    Forall2 rnode (descend t a st c) (descend t' a st' c).
  Proof.
    induction 1 as [b l l' H|b d l l' r r' Hl IHl Hr IHr]; intros a st st' Hst; cbn [descend].
    - constructor; [|exact Hst]. cbn. split; [reflexivity|now constructor].
    - rewrite (rtree_box _ _ Hl).
      destruct (Qle_bool _ _); [apply IHl|apply IHr]; (constructor; [|exact Hst]); cbn; (split; [reflexivity|now constructor]).
  Qed.

  Lemma rtree_climb st st' : Forall2 rnode st st' -> oboth rnode (climb st) (climb st').
  Proof.
    induction 1 as [|[a n] [a' n'] st st' (E & Hn) Hst IH]; cbn; [exact I|]. cbn in E, Hn. subst a'.
    destruct Hst as [|[a1 n1] [a2 n2] st st' (E & Hn1) Hst]; [cbn; auto|]. cbn in E, Hn1. subst a2.
    destruct Hn1 as [b l l' Hl|b d l l' r r' Hl Hr]; [cbn; auto|]. rewrite (rtree_box _ _ Hn).
    destruct (Qeq_bool _ _); [exact IH|cbn; auto].
  Qed.

  Lemma rtree_next c t t' : rtree t t' -> find_next_closest_distance t' c = find_next_closest_distance t c.
  Proof.
    intros H. unfold find_next_closest_distance.
    pose proof (rtree_climb _ _ (rtree_descend c t t' H [] [] [] (Forall2_nil _))) as K.
    destruct (climb (descend t [] [] c)) as [[a n]|], (climb (descend t' [] [] c)) as [[a' n']|]; cbn in K; try easy.
    destruct K as (-> & Hn). f_equal. rewrite (rtree_box _ _ Hn), (rtree_closest _ _ _ _ H).
    rewrite (F2_fold_eq rp _ (tpts n) (tpts n')); [reflexivity| |now apply rtree_pts].
    intros s p p' Rp. now rewrite (rp_pdist c p p' Rp).
  Qed.

  Lemma rtree_search c maxr2 t t' fuel : rtree t t' -> forall r2,
    both (Forall2 rp) (search_loop fuel t c r2 maxr2) (search_loop fuel t' c r2 maxr2).
  Proof.
    intros H. induction fuel as [|fuel IH]; intros r2; cbn [search_loop]; [reflexivity|].
    destruct (rtree_sphere c r2 t t' H) as [|p p' l l' Hp Hl]; [|cbn; auto].
    destruct (Qle_bool r2 maxr2); [apply IH|cbn; constructor].
  Qed.

  Notation rm := (fun m m' : Z * Q => snd m' = snd m /\ (rz (fst m) (fst m') \/ (fst m = -1 /\ fst m' = -1))).

  Lemma rp_fold c l l' : Forall2 rp l l' -> forall m m', rm m m' ->
    rm (fold_left (closest_step c) l m) (fold_left (closest_step c) l' m').
  Proof.
    induction 1 as [|p p' l l' Hp Hl IH]; intros m m' Hm; cbn; [exact Hm|]. apply IH.
    destruct Hm as (E & Hm). unfold closest_step. rewrite (rp_pdist c p p' Hp), E.
    assert (T : (fst m' =? -1) = (fst m =? -1)).
    { destruct Hm as [(H & ->)|(-> & ->)]; [|reflexivity]. pose proof (phi_nonneg _ H). lia. }
    rewrite T. destruct (_ || _); cbn; [|auto]. destruct Hp as (_ & _ & _ & Hz). auto.
  Qed.

  Lemma px_trunc s s' : rimg s s' -> imgR rz (imap qtrunc s) (imap qtrunc s').
  Proof.
    intros (E1 & E2 & H). repeat split; [exact E1|exact E2|]. cbn. induction H; constructor; auto. now apply rn_trunc.
  Qed.

  Lemma tree_rn fuel s s' w n inds : 0 <= n -> imgR rz s s' ->
    both (imgR eq) (uberseg_tree fuel s w n inds) (uberseg_tree fuel s' w (phi n) inds).
  Proof.
    intros Hn H. unfold uberseg_tree. eapply both_bind with (R := Forall2 rp).
    - unfold tree_points. apply R_mapM. intros k _. destruct (zget inds k) as [p|]; [|reflexivity].
      eapply both_bind; [apply R_px_res; eassumption|]. intros v v' Rv. cbn. repeat split; apply Rv.
    - intros l l' Rl. eapply both_bind; [apply rp_build; eassumption|]. intros t t' Rt.
      pose proof H as (E1 & E2 & _). rewrite E1, E2. apply R_tab2M. intros r c.
      eapply both_bind; [apply R_px_res; eassumption|]. intros v v' (Hv & ->).
      eapply both_bind with (R := eq); [now apply both_eq|]. intros x ? <-.
      rewrite phi_eqb, (phi_pos v Hv). destruct (v =? n); [reflexivity|]. destruct (_ && _); [reflexivity|].
      cbv zeta. rewrite (rtree_next _ _ _ Rt). eapply both_bind with (R := eq); [now apply both_eq|]. intros r2 ? <-.
      eapply both_bind; [apply rtree_search; eassumption|]. intros q q' Rq.
      pose proof (rp_fold (inject_Z r, inject_Z c) q q' Rq (-1, 0%Q) (-1, 0%Q) (conj eq_refl (or_intror (conj eq_refl eq_refl)))) as (_ & K).
      unfold closest_seg. destruct K as [(Hz & ->)|(-> & ->)]; [|reflexivity].
      pose proof (phi_nonneg _ Hz) as Hz'. revert Hz Hz'. generalize (fst (fold_left (closest_step (inject_Z r, inject_Z c)) q (-1, 0%Q))).
      intros z Hz Hz'.
      rewrite (proj2 (Z.eqb_neq (phi z) (-1)) ltac:(lia)), (proj2 (Z.eqb_neq z (-1)) ltac:(lia)), phi_eqb.
      destruct (negb _); reflexivity.
  Qed.

  Lemma uberseg fuel i k fast : get_uberseg fuel f' i k fast = get_uberseg fuel f i k fast.
  Proof.
    symmetry. apply both_eq. eapply both_imp; [apply (@imgR_eq Q)|]. unfold get_uberseg. rewrite cweight_cutout.
    eapply both_bind with (R := eq); [now apply both_eq|]. intros w ? <-.
    eapply both_bind; [apply interp|]. intros s s' Rs. pose proof Rs as (_ & _ & Rd).
    rewrite (F2_len rn _ _ (quniq_rn _ _ Rd)), (obj_inds_rn s s' Rs).
    destruct (_ =? 2).
    { cbn. repeat split. induction (dat w); auto. }
    eapply both_bind; [apply number_rel|]. intros n n' (Hn & ->).
    destruct fast; [apply tree_rn; [exact Hn|now apply px_trunc]|now apply slow_rn].
  Qed.

  Lemma uberseg_list fuel i fast : get_uberseg_list fuel f' i fast = get_uberseg_list fuel f i fast.
  Proof.
    symmetry. apply both_eq. unfold get_uberseg_list. eapply both_bind; [apply ro_index|]. intros o o' Ro.
    rewrite (ro_ncut o o' Ro). apply both_eq. apply mapM_ext_in. intros k _. symmetry. apply uberseg.
  Qed.
End Rename.

Lemma weights_renamed phi f f' iobj k : renaming phi -> renamed_file phi f f' ->
  (forall rs, get_cweight_cutout f' iobj k rs = get_cweight_cutout f iobj k rs) /\
  (forall rs, get_cweight_mosaic f' iobj rs = get_cweight_mosaic f iobj rs) /\
  (forall rs, get_cweight_cutout_list f' iobj rs = get_cweight_cutout_list f iobj rs) /\
  (forall uc, get_cseg_weight f' iobj k uc = get_cseg_weight f iobj k uc) /\
  (forall fuel fast, get_uberseg fuel f' iobj k fast = get_uberseg fuel f iobj k fast) /\
  (forall fuel fast, get_uberseg_list fuel f' iobj fast = get_uberseg_list fuel f iobj fast).
Proof.
  intros H K. repeat split; intros.
  - now apply cweight_cutout with (phi := phi).
  - now apply cweight_mosaic with (phi := phi).
  - now apply cweight_list with (phi := phi).
  - now apply cseg_weight with (phi := phi).
  - now apply uberseg with (phi := phi).
  - now apply uberseg_list with (phi := phi).
Qed.

Lemma segs_renamed phi f f' iobj k : renaming phi -> renamed_file phi f f' -> m_number_col f = true ->
  both (renamed_img phi) (get_cutout f iobj k TSeg) (get_cutout f' iobj k TSeg) /\
  both (renamed_img phi) (interpolate_coadd_seg f iobj k) (interpolate_coadd_seg f' iobj k) /\
  both (renamed_img phi) (get_cseg_cutout f iobj k) (get_cseg_cutout f' iobj k) /\
  both (renamed_img phi) (get_cseg_mosaic f iobj) (get_cseg_mosaic f' iobj).
Proof.
  intros H K C. repeat split.
  - now apply (cutout_seg phi f f').
  - now apply (interp phi f f').
  - now apply (cseg_cutout phi H f f').
  - now apply (cseg_mosaic phi H f f').
Qed.
