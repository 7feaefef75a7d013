(** The mask checks of the coadder in floating point. *)
From Coq Require Import Lia ZifyBool ZifyNat Lqa Qabs.
From Verif Require Import Base BaseLemmas Img ImgLemmas Types BoundsM MakerWrite Coadd Single SingleLemmas Typed LayoutFl FlMonoLemmas LayoutFlLemmas
  OutlierFl CoaddFl SpecCoadd SpecOutlierFl SpecCoaddFl CompositeLemmas CalibLemmas CoaddLemmas.
Open Scope Z_scope.
Local Notation e53 := (1 # 9007199254740992)%Q.
Local Notation e100 := (1 # 1267650600228229401496703205376)%Q.

(** The masked fraction *)
Lemma fround_eq d x y : (x == y)%Q -> fround d x = fround d y.
Proof. intros H. unfold fround. rewrite (Qred_complete x y H). reflexivity. Qed.

Lemma ratio_split k n p q : 0 < n -> 0 < q ->
  (inject_Z k / inject_Z n - inject_Z p / inject_Z q == inject_Z (k * q - p * n) / inject_Z (n * q))%Q.
Proof.
  intros Hn Hq. unfold Z.sub. rewrite inject_Z_plus, inject_Z_opp, !inject_Z_mult.
  pose proof (inject_pos n Hn). pose proof (inject_pos q Hq). field. split; lra.
Qed.
Lemma ratio_bounds k n : 0 <= k <= n -> 0 < n -> (0 <= inject_Z k / inject_Z n <= 1)%Q.
Proof.
  intros H Hn. pose proof (inject_pos n Hn) as P. split.
  - apply Qle_shift_div_l; [exact P|]. rewrite Qmult_0_l. change 0%Q with (inject_Z 0). rewrite <- Zle_Qle. lia.
  - apply Qle_shift_div_r; [exact P|]. rewrite Qmult_1_l. rewrite <- Zle_Qle. lia.
Qed.

Lemma fraction_num k n p q : 0 <= k <= n -> 0 < n -> 0 <= p <= q -> 0 < q -> q * n <= 2 ^ 50 ->
  exists v, fdiv_int (fround true (inject_Z k)) n = Ok v /\
    (fl_ltb (fround true (inject_Z p / inject_Z q)) v = true <-> p * n < k * q).
Proof.
  intros Hk Hn Hp Hq Hb. assert (n <= 2 ^ 50) by nia.
  destruct (fround_int k ltac:(lia)) as (a & Ea & Ka). destruct (fround_int n ltac:(lia)) as (b & Eb & Kb).
  unfold fdiv_int. dif E0; [lia|]. rewrite Ea, Eb. eexists. split; [reflexivity|].
  pose proof (inject_pos n Hn) as Pn. pose proof (inject_pos q Hq) as Pq.
  rewrite (fround_eq true (a / b) (inject_Z k / inject_Z n)) by (rewrite Ka, Kb; reflexivity).
  pose proof (ratio_bounds k n Hk Hn) as B1. pose proof (ratio_bounds p q Hp Hq) as B2. pose proof (ratio_split k n p q Hn Hq) as D.
  set (x := (inject_Z k / inject_Z n)%Q) in *. set (y := (inject_Z p / inject_Z q)%Q) in *.
  destruct (fin x) as (v & Ev); [rewrite Qabs_pos by lra; apply Qle_trans with 1%Q; [lra|discriminate]|].
  destruct (fin y) as (t & Et); [rewrite Qabs_pos by lra; apply Qle_trans with 1%Q; [lra|discriminate]|].
  rewrite Ev, Et. cbn [fl_ltb]. rewrite qltb_true. split.
  - intros L. destruct (Z_lt_le_dec (p * n) (k * q)) as [G|G]; [exact G|exfalso].
    assert (x <= y)%Q.
    { assert (x - y <= 0)%Q; [|lra]. rewrite D. apply Qle_shift_div_r; [apply inject_pos; nia|]. rewrite Qmult_0_l. change 0%Q with (inject_Z 0). rewrite <- Zle_Qle. lia. }
    pose proof (fround_mono true x y v t Ev Et H0). lra.
  - intros L. assert (G : ((1 # 1125899906842624) <= x - y)%Q).
    { rewrite D. apply Qle_shift_div_l; [apply inject_pos; nia|].
      apply Qle_trans with 1%Q; [|change 1%Q with (inject_Z 1); rewrite <- Zle_Qle; lia].
      apply Qle_trans with ((1 # 1125899906842624) * inject_Z (2 ^ 50))%Q; [|discriminate].
      rewrite !(Qmult_comm (1 # _)). apply Qmult_le_compat_r; [rewrite <- Zle_Qle; lia|discriminate]. }
    pose proof (err x v Ev) as E1. pose proof (err y t Et) as E2. rewrite Qabs_pos in E1 by lra. rewrite Qabs_pos in E2 by lra.
    assert (C1 : (e53 <= 1 # 9007199254740992)%Q) by (vm_compute; discriminate). assert (C2 : (e100 <= 1 # 1125899906842624000)%Q) by (vm_compute; discriminate).
    assert (e53 * x <= 1 # 9007199254740992)%Q.
    { apply Qle_trans with (e53 * 1)%Q; [|lra]. rewrite !(Qmult_comm e53). apply Qmult_le_compat_r; [lra|vm_compute; discriminate]. }
    assert (e53 * y <= 1 # 9007199254740992)%Q.
    { apply Qle_trans with (e53 * 1)%Q; [|lra]. rewrite !(Qmult_comm e53). apply Qmult_le_compat_r; [lra|vm_compute; discriminate]. }
    clear D Et Ev. lra.
Qed.

(** Weights as rationals *)
Lemma nonpos_value x : fl_nonpos x = Qle_bool (value 1 x) 0.
Proof. destruct x as [q|[]|]; reflexivity. Qed.
Lemma pos_value x : fl_ltb (Fin 0) x = qltb 0 (value 0 x).
Proof. destruct x as [q|[]|]; reflexivity. Qed.
Lemma zero_value x : fl_zero x = Qeq_bool (value 1 x) 0.
Proof. destruct x as [q|[]|]; reflexivity. Qed.
Lemma values_map n wt : values n wt = imap (value n) wt.
Proof. reflexivity. Qed.
Lemma values_ok n wt : img_ok wt -> img_ok (values n wt).
Proof. apply imap_ok. Qed.

Lemma combine_map_l {A B C} (g : A -> B) (l : list A) (l' : list C) : combine (map g l) l' = map (fun p => (g (fst p), snd p)) (combine l l').
Proof. revert l'. induction l as [|a l IH]; intros [|b l']; cbn; [reflexivity..|]. rewrite IH. reflexivity. Qed.
Lemma zip_imap {A A' B C} (f : A' -> B -> C) (g : A -> A') a b : img_zip f (imap g a) b = img_zip (fun x y => f (g x) y) a b.
Proof. unfold img_zip. cbn [nr nc dat imap]. destruct (_ && _); [|reflexivity]. do 2 f_equal. rewrite combine_map_l, map_map. reflexivity. Qed.
Lemma zip_ext {A B C} (f g : A -> B -> C) a b : (forall x y, f x y = g x y) -> img_zip f a b = img_zip g a b.
Proof. intros H. unfold img_zip. destruct (_ && _); [|reflexivity]. do 2 f_equal. apply map_ext. intros p. apply H. Qed.
Lemma px_res_imap {A B} (g : A -> B) im r c : px_res (imap g im) r c = rmap g (px_res im r c).
Proof. unfold px_res. rewrite px_imap. destruct (px im r c); reflexivity. Qed.
Lemma mapM_rmap {X A B} (g : A -> B) (f : X -> res A) xs : mapM (fun x => rmap g (f x)) xs = rmap (map g) (mapM f xs).
Proof.
  induction xs as [|x xs IH]; [reflexivity|]. cbn [mapM]. destruct (f x) as [a|e]; [|reflexivity]. cbn [rmap bind]. rewrite IH.
  destruct (mapM f xs); reflexivity.
Qed.
Lemma sub2d_imap {A B} (g : A -> B) im a b c d : sub2d (imap g im) a b c d = rmap (imap g) (sub2d im a b c d).
Proof.
  unfold sub2d, tab2M. cbn [nr nc imap]. rewrite (mapM_ext_in _ (fun p => rmap g (px_res im (np_bound (nr im) a + p / Z.max 0 (np_bound (nc im) d - np_bound (nc im) c)) (np_bound (nc im) c + p mod Z.max 0 (np_bound (nc im) d - np_bound (nc im) c)))))
    by (intros; apply px_res_imap).
  rewrite mapM_rmap. destruct (mapM _ _); reflexivity.
Qed.
Lemma forallb_map {A B} (p : B -> bool) (g : A -> B) l : forallb p (map g l) = forallb (fun x => p (g x)) l.
Proof. induction l; cbn; [reflexivity|]. rewrite IHl. reflexivity. Qed.
Lemma existsb_map {A B} (p : B -> bool) (g : A -> B) l : existsb p (map g l) = existsb (fun x => p (g x)) l.
Proof. induction l; cbn; [reflexivity|]. rewrite IHl. reflexivity. Qed.
Lemma any_side_imap {A B} (p : B -> bool) (g : A -> B) im : any_side p (imap g im) = any_side (fun x => p (g x)) im.
Proof.
  unfold any_side, get_row, get_col. cbn [nr nc imap]. destruct (_ || _); [reflexivity|].
  rewrite !(mapM_ext_in (fun c => px_res (imap g im) _ c) (fun c => rmap g (px_res im _ c))) by (intros; apply px_res_imap).
  rewrite !(mapM_ext_in (fun r => px_res (imap g im) r _) (fun r => rmap g (px_res im r _))) by (intros; apply px_res_imap).
  rewrite !mapM_rmap. repeat (match goal with |- context [rmap (map g) ?m] => destruct m end; [|reflexivity]; cbn [rmap bind]).
  rewrite !forallb_map. reflexivity.
Qed.
Lemma any_side_ext {A} (p p' : A -> bool) im : (forall x, p x = p' x) -> any_side p im = any_side p' im.
Proof.
  intros H. unfold any_side. destruct (_ || _); [reflexivity|]. repeat (match goal with |- context [bind ?m _] => destruct m end; [|reflexivity]; cbn [bind]).
  assert (E : forall l, forallb p l = forallb p' l) by (induction l as [|x l IH]; cbn; [reflexivity|rewrite H, IH; reflexivity]).
  rewrite !E. reflexivity.
Qed.

Lemma central_values c bm wt : central_region_is_masked_fl c bm wt = central_region_is_masked c bm (values 0 wt).
Proof.
  unfold central_region_is_masked_fl, central_region_is_masked. destruct (c_central_check c); [|reflexivity]. rewrite values_map. cbn [nr imap].
  rewrite sub2d_imap. destruct (sub2d wt _ _ _ _) as [w|e]; [|reflexivity]. cbn [rmap bind].
  destruct (sub2d bm _ _ _ _) as [b|e]; [|reflexivity]. cbn [bind]. rewrite zip_imap.
  rewrite (zip_ext _ (fun x y => qltb 0 (value 0 x) && negb (has_flag (bad_flags c) y))); [reflexivity|]. intros x y. rewrite pos_value. reflexivity.
Qed.
Lemma sides_values c bm wt : ps_edge_pixels_are_masked_fl c bm wt = ps_edge_pixels_are_masked c bm (values 1 wt).
Proof.
  unfold ps_edge_pixels_are_masked_fl, ps_edge_pixels_are_masked. destruct (c_edge_check c); [|reflexivity]. rewrite values_map, any_side_imap.
  rewrite (any_side_ext fl_zero (fun x => Qeq_bool (value 1 x) 0)) by apply zero_value. reflexivity.
Qed.
Lemma all_zero_values wt : existsb (fun w => fl_ltb (Fin 0) w) (dat wt) = existsb (fun w => qltb 0 w) (dat (values 0 wt)).
Proof. cbn [dat values]. rewrite existsb_map. induction (dat wt) as [|x l IH]; cbn [existsb]; [reflexivity|]. rewrite IH, pos_value. reflexivity. Qed.
Lemma bad_values bad bm wt : img_zip (pix_bad_fl bad) wt bm = img_zip (pix_bad bad) (values 1 wt) bm.
Proof. rewrite values_map, zip_imap. apply zip_ext. intros x y. unfold pix_bad_fl, pix_bad. rewrite nonpos_value. reflexivity. Qed.

Lemma filter_le {A} (p : A -> bool) l : zlen (filter p l) <= zlen l.
Proof. unfold zlen. induction l as [|a l IH]; cbn [filter length]; [lia|]. destruct (p a); cbn [length]; lia. Qed.
Lemma fraction_fl c bm wt p q : img_ok wt -> img_ok bm -> nr bm = nr wt -> nc bm = nc wt -> 0 < nr wt -> 0 < nc wt ->
  0 <= p <= q -> 0 < q -> q * (nr wt * nc wt) <= 2 ^ 50 ->
  exists v, get_mask_frac_fl c bm wt = Ok v /\ (fl_ltb (fround true (inject_Z p / inject_Z q)) v = true <-> above c wt bm p q).
Proof.
  intros Hw Hb S1 S2 N1 N2 Hp Hq HB. unfold get_mask_frac_fl. rewrite bad_values.
  destruct (img_zip (pix_bad (bad_flags c)) (values 1 wt) bm) as [z|e] eqn:Z.
  2:{ exfalso. unfold img_zip in Z. cbn [nr nc values] in Z. dif_in Z E; [discriminate|]. lia. }
  cbn [bind]. pose proof Z as Z'. rewrite bad_flags_total in Z. pose proof (count_unusable _ _ _ _ (values_ok 1 wt Hw) Hb Z) as CU.
  apply img_zip_ok in Z'; [|exact (values_ok 1 wt Hw)|exact Hb]. destruct Z' as (_ & _ & (_ & _ & Z3) & Z4 & Z5 & _). cbn [nr nc values] in Z4, Z5.
  set (k := zlen (filter (fun x => x) (dat z))) in *.
  assert (LB : zlen (dat bm) = nr wt * nc wt) by (destruct Hb as (_ & _ & B3); rewrite B3, S1, S2; reflexivity). rewrite LB.
  assert (K : 0 <= k <= nr wt * nc wt).
  { split; [apply zlen_nonneg|]. rewrite <- Z4, <- Z5, <- Z3. apply filter_le. }
  destruct (fraction_num k (nr wt * nc wt) p q K ltac:(nia) Hp Hq HB) as (v & Ev & Hv). exists v. split; [exact Ev|]. rewrite Hv. unfold above. split.
  - intros L. exists k. split; [exact CU|lia].
  - intros (n & CN & L). rewrite (counted_unique _ _ _ CN CU) in L. lia.
Qed.

Lemma flags_fl c bm wt p q fl : img_ok wt -> img_ok bm -> nr bm = nr wt -> nc bm = nc wt -> 0 < nr wt -> 0 < nc wt ->
  0 <= p <= q -> 0 < q -> q * (nr wt * nc wt) <= 2 ^ 50 ->
  cutout_flag_fl c (fround true (inject_Z p / inject_Z q)) bm wt = Ok fl -> reason_fl c (above c wt bm p q) wt bm fl.
Proof.
  intros Hw Hb S1 S2 N1 N2 Hp Hq HB H. unfold cutout_flag_fl in H. unfold reason_fl.
  pose proof (edge_test_spec c bm Hb) as T1. destruct (hits_the_edge c bm).
  { inversion H; subst. left. split; [reflexivity|]. apply T1. reflexivity. }
  right. split; [rewrite <- T1; discriminate|]. destruct (fraction_fl c bm wt p q Hw Hb S1 S2 N1 N2 Hp Hq HB) as (v & Ev & T2).
  rewrite Ev in H. cbn [bind] in H. destruct (fl_ltb _ v).
  { inversion H; subst. left. split; [reflexivity|]. apply T2. reflexivity. }
  right. split; [rewrite <- T2; discriminate|]. apply bind_ok in H. destruct H as (ce & C & H). rewrite central_values in C.
  pose proof (central_spec c (values 0 wt) bm ce (values_ok 0 wt Hw) Hb S1 S2 C) as T3. destruct ce.
  { inversion H; subst. left. split; [reflexivity|]. apply T3. reflexivity. }
  right. split; [rewrite <- T3; discriminate|]. apply bind_ok in H. destruct H as (si & S & H). rewrite sides_values in S.
  pose proof (sides_spec c (values 1 wt) bm si (values_ok 1 wt Hw) Hb S1 S2 S) as T4. destruct si.
  { inversion H; subst. left. split; [reflexivity|]. apply T4. reflexivity. }
  right. split; [rewrite <- T4; discriminate|]. rewrite all_zero_values in H.
  pose proof (zero_test_spec (values 0 wt) (values_ok 0 wt Hw)) as T5. destruct (existsb _ (dat (values 0 wt))); cbn [negb] in H; inversion H; subst.
  - right. split; [reflexivity|]. rewrite <- T5. discriminate.
  - left. split; [reflexivity|]. apply T5. reflexivity.
Qed.
