(** The scaling of the pictures of meds-view. *)
From Coq Require Import Lia Lqa Setoid Morphisms ZifyBool ZifyNat.
From Verif Require Import Base BaseLemmas Img ImgLemmas Types Reader SpecFile BoundsM Composite Uberseg View SpecView.
Open Scope Z_scope.

Lemma qltb_iff a b : qltb a b = true <-> (a < b)%Q.
Proof. unfold qltb. rewrite negb_true_iff. split; intros H. - apply Qnot_le_lt. intros L. apply Qle_bool_iff in L. congruence. - destruct (Qle_bool b a) eqn:E; [|reflexivity]. apply Qle_bool_iff in E. lra. Qed.
Lemma qltb_false a b : qltb a b = false <-> (b <= a)%Q.
Proof. unfold qltb. rewrite negb_false_iff. apply Qle_bool_iff. Qed.

Lemma qmax2_cases a b : (qmax2 a b = a /\ (b <= a)%Q) \/ (qmax2 a b = b /\ (a < b)%Q).
Proof. unfold qmax2. destruct (qltb a b) eqn:E; [right; split; [reflexivity|apply qltb_iff; exact E]|left; split; [reflexivity|apply qltb_false; exact E]]. Qed.
Lemma qmin2_cases a b : (qmin2 a b = a /\ (a <= b)%Q) \/ (qmin2 a b = b /\ (b < a)%Q).
Proof. unfold qmin2. destruct (qltb b a) eqn:E; [right; split; [reflexivity|apply qltb_iff; exact E]|left; split; [reflexivity|apply qltb_false; exact E]]. Qed.

Lemma fold_qmax l : forall a, is_max (a :: l) (fold_left qmax2 l a).
Proof.
  induction l as [|b l IH]; intros a; cbn [fold_left].
  - split; [left; reflexivity|]. constructor; [apply Qle_refl|constructor].
  - destruct (IH (qmax2 a b)) as [I1 I2]. inversion I2 as [|? ? I3 I4]; subst.
    destruct (qmax2_cases a b) as [[E L]|[E L]]; rewrite E in *.
    + split; [destruct I1 as [<-|I1]; [left; reflexivity|right; right; exact I1]|]. constructor; [exact I3|]. constructor; [lra|exact I4].
    + split; [right; exact I1|]. constructor; [lra|]. constructor; [exact I3|exact I4].
Qed.
Lemma fold_qmin l : forall a, is_min (a :: l) (fold_left qmin2 l a).
Proof.
  induction l as [|b l IH]; intros a; cbn [fold_left].
  - split; [left; reflexivity|]. constructor; [apply Qle_refl|constructor].
  - destruct (IH (qmin2 a b)) as [I1 I2]. inversion I2 as [|? ? I3 I4]; subst.
    destruct (qmin2_cases a b) as [[E L]|[E L]]; rewrite E in *.
    + split; [destruct I1 as [<-|I1]; [left; reflexivity|right; right; exact I1]|]. constructor; [exact I3|]. constructor; [lra|exact I4].
    + split; [right; exact I1|]. constructor; [lra|]. constructor; [exact I3|exact I4].
Qed.
Lemma fold_fmax l : forall a, fold_left fmax (map Fin l) (Fin a) = Fin (fold_left qmax2 l a).
Proof. induction l as [|b l IH]; intros a; cbn [fold_left map]; [reflexivity|]. cbn [fmax]. unfold qmax2 at 2. destruct (qltb a b); apply IH. Qed.

Lemma np_max_fin l : l <> [] -> exists m, np_max (map Fin l) = Ok (Fin m) /\ is_max l m.
Proof. destruct l as [|a l]; [congruence|]. intros _. eexists. cbn [map np_max]. rewrite fold_fmax. split; [reflexivity|apply fold_qmax]. Qed.
Lemma np_qmax_ok l : l <> [] -> exists m, np_qmax l = Ok m /\ is_max l m.
Proof. destruct l as [|a l]; [congruence|]. intros _. eexists. cbn [np_qmax]. split; [reflexivity|apply fold_qmax]. Qed.
Lemma np_qmin_ok l : l <> [] -> exists m, np_qmin l = Ok m /\ is_min l m.
Proof. destruct l as [|a l]; [congruence|]. intros _. eexists. cbn [np_qmin]. split; [reflexivity|apply fold_qmin]. Qed.
Lemma is_max_unique l a b : is_max l a -> is_max l b -> (a == b)%Q.
Proof. intros [A1 A2] [B1 B2]. rewrite Forall_forall in *. specialize (A2 _ B1). specialize (B2 _ A1). lra. Qed.
Lemma is_min_unique l a b : is_min l a -> is_min l b -> (a == b)%Q.
Proof. intros [A1 A2] [B1 B2]. rewrite Forall_forall in *. specialize (A2 _ B1). specialize (B2 _ A1). lra. Qed.
Lemma is_max_nonempty l m : is_max l m -> l <> [].
Proof. intros [H _] ->. destruct H. Qed.
(** Extremes under increasing and decreasing maps. *)
Lemma is_max_map g l m : (forall x y, In x l -> In y l -> (x <= y)%Q -> (g x <= g y)%Q) -> is_max l m -> is_max (map g l) (g m).
Proof. intros G [A B]. split; [apply in_map; exact A|]. rewrite Forall_forall in *. intros y Hy. apply in_map_iff in Hy. destruct Hy as (x & <- & Hx). apply G; auto. Qed.
Lemma is_max_map_dec g l m : (forall x y, In x l -> In y l -> (x <= y)%Q -> (g y <= g x)%Q) -> is_min l m -> is_max (map g l) (g m).
Proof. intros G [A B]. split; [apply in_map; exact A|]. rewrite Forall_forall in *. intros y Hy. apply in_map_iff in Hy. destruct Hy as (x & <- & Hx). apply G; auto. Qed.
Lemma is_min_map g l m : (forall x y, In x l -> In y l -> (x <= y)%Q -> (g x <= g y)%Q) -> is_min l m -> is_min (map g l) (g m).
Proof. intros G [A B]. split; [apply in_map; exact A|]. rewrite Forall_forall in *. intros y Hy. apply in_map_iff in Hy. destruct Hy as (x & <- & Hx). apply G; auto. Qed.

Lemma imap_imap {A B C} (g : B -> C) (h : A -> B) im : imap g (imap h im) = imap (fun x => g (h x)) im.
Proof. unfold imap. cbn [nr nc dat]. rewrite map_map. reflexivity. Qed.

Lemma px_dat {A} (im : img A) r c x : px im r c = Some x -> In x (dat im).
Proof. unfold px. destruct (_ && _); [|discriminate]. apply zget_In. Qed.

Lemma drawn_imap (R : Q -> Q -> Prop) im g : img_ok im -> (forall x, In x (dat im) -> exists y, g x = Fin y /\ R x y) -> drawn R im (imap g im).
Proof.
  intros O H. split; [apply imap_ok; exact O|]. split; [reflexivity|]. split; [reflexivity|]. intros r c x Hx.
  rewrite px_imap, Hx. cbn [option_map]. destruct (H x (px_dat _ _ _ _ Hx)) as (y & -> & Hy). exists y. auto.
Qed.
Lemma drawn_weaken (R S : Q -> Q -> Prop) im p : drawn R im p -> (forall x y, In x (dat im) -> R x y -> S x y) -> drawn S im p.
Proof.
  intros (A & B & C & D) H. repeat (split; [assumption|]). intros r c x Hx. destruct (D r c x Hx) as (y & Hy & HR).
  exists y. split; [exact Hy|]. apply H; [eapply px_dat; exact Hx|exact HR].
Qed.

Lemma finv_fin m : ~ (m == 0)%Q -> finv (Fin m) = Fin (1 / m).
Proof. intros H. unfold finv. destruct (Qeq_bool m 0) eqn:E; [apply Qeq_bool_iff in E; contradiction|reflexivity]. Qed.
Lemma finv_zero m : (m == 0)%Q -> finv (Fin m) = PInf.
Proof. intros H. unfold finv. apply Qeq_bool_iff in H. rewrite H. reflexivity. Qed.
Lemma fclip_fin x : exists y, fclip (Fin x) = Fin y /\ (0 <= y <= 1)%Q /\ ((x <= 0)%Q -> (y == 0)%Q) /\ ((1 <= x)%Q -> (y == 1)%Q) /\ ((0 <= x <= 1)%Q -> (y == x)%Q).
Proof.
  cbn [fclip]. destruct (qltb x 0) eqn:E1; [apply qltb_iff in E1|apply qltb_false in E1; destruct (qltb 1 x) eqn:E2; [apply qltb_iff in E2|apply qltb_false in E2]];
    eexists; (split; [reflexivity|]); repeat split; intros; try lra.
Qed.

(** [x / m] *)
Lemma div_pos_le x m : (0 < m)%Q -> ((x * (1 / m)) * m == x)%Q.
Proof. intros H. field. lra. Qed.
Lemma div_neg_le x m : ~ (m == 0)%Q -> ((x * (1 / m)) * m == x)%Q.
Proof. intros H. field. exact H. Qed.

(** Linear scaling with a positive, negative or zero largest pixel. *)
Lemma linear_pos im m : img_ok im -> is_max (dat im) m -> (0 < m)%Q ->
  exists p, linear_scale (imap Fin im) = Ok p /\
    drawn (fun x y => (0 <= y <= 1)%Q /\ ((0 <= x)%Q -> (y * m == x)%Q) /\ ((x <= 0)%Q -> (y == 0)%Q)) im p.
Proof.
  intros O M P. unfold linear_scale. cbn [imap dat]. destruct (np_max_fin (dat im) (is_max_nonempty _ _ M)) as (m' & -> & M').
  pose proof (is_max_unique _ _ _ M' M) as E. cbn [bind]. eexists. split; [reflexivity|].
  rewrite finv_fin by lra. change (imap Fin im) with (imap Fin im). rewrite imap_imap. apply drawn_imap; [exact O|]. intros x Hx.
  cbn [fmul]. destruct (fclip_fin (x * (1 / m'))) as (y & -> & Y1 & Y2 & Y3 & Y4). exists y. split; [reflexivity|]. split; [exact Y1|].
  assert (D : ((x * (1 / m')) * m' == x)%Q) by (apply div_pos_le; lra). set (z := (x * (1 / m'))%Q) in *.
  destruct M' as [_ M']. rewrite Forall_forall in M'. specialize (M' x Hx).
  split; intros HX.
  - assert (0 <= z)%Q by nra. assert (z <= 1)%Q by nra. rewrite Y4 by (split; assumption). rewrite <- E. exact D.
  - apply Y2. nra.
Qed.
Lemma linear_neg im m : img_ok im -> is_max (dat im) m -> (m < 0)%Q ->
  exists p, linear_scale (imap Fin im) = Ok p /\ drawn (fun x y => (y == 1)%Q) im p.
Proof.
  intros O M P. unfold linear_scale. cbn [imap dat]. destruct (np_max_fin (dat im) (is_max_nonempty _ _ M)) as (m' & -> & M').
  pose proof (is_max_unique _ _ _ M' M) as E. cbn [bind]. eexists. split; [reflexivity|].
  rewrite finv_fin by lra. change (imap Fin im) with (imap Fin im). rewrite imap_imap. apply drawn_imap; [exact O|]. intros x Hx.
  cbn [fmul]. destruct (fclip_fin (x * (1 / m'))) as (y & -> & Y1 & Y2 & Y3 & Y4). exists y. split; [reflexivity|].
  assert (D : ((x * (1 / m')) * m' == x)%Q) by (apply div_neg_le; lra). set (z := (x * (1 / m'))%Q) in *.
  destruct M' as [_ M']. rewrite Forall_forall in M'. specialize (M' x Hx). apply Y3. nra.
Qed.
Lemma linear_zero im m : img_ok im -> is_max (dat im) m -> (m == 0)%Q ->
  exists p, linear_scale (imap Fin im) = Ok p /\ img_ok p /\ nr p = nr im /\ nc p = nc im /\
    forall r c x, px im r c = Some x -> px p r c = Some (if Qeq_bool x 0 then Nan else Fin 0).
Proof.
  intros O M P. unfold linear_scale. cbn [imap dat]. destruct (np_max_fin (dat im) (is_max_nonempty _ _ M)) as (m' & -> & M').
  pose proof (is_max_unique _ _ _ M' M) as E. cbn [bind]. eexists. split; [reflexivity|].
  rewrite finv_zero by lra. change (imap Fin im) with (imap Fin im). rewrite imap_imap.
  split; [apply imap_ok; exact O|]. split; [reflexivity|]. split; [reflexivity|]. intros r c x Hx. rewrite px_imap, Hx. cbn [option_map]. f_equal.
  cbn [fmul]. destruct (Qeq_bool x 0) eqn:E0; [reflexivity|]. destruct M' as [_ M']. rewrite Forall_forall in M'. specialize (M' x (px_dat _ _ _ _ Hx)).
  assert (qltb 0 x = false) as -> by (apply qltb_false; lra). reflexivity.
Qed.

Lemma dat_nonempty_wt l m : is_max l m -> l <> [].
Proof. apply is_max_nonempty. Qed.

Section Image.
Variable sd : Q -> Q.
Hypothesis sd_eq : respects sd.

Lemma map_Fin_dat (im : img Q) : map Fin (dat im) = dat (imap Fin im).
Proof. reflexivity. Qed.

Lemma image_pos im wt m wmax s : img_ok im -> is_max (dat im) m -> is_max (dat wt) wmax -> noise_of sd wmax s -> (0 < m + s)%Q ->
  exists p, (let* a := prepare_image sd im wt in linear_scale a) = Ok p /\
    drawn (fun x y => (0 <= y <= 1)%Q /\ ((0 <= x + s)%Q -> (y * (m + s) == x + s)%Q) /\ ((x + s <= 0)%Q -> (y == 0)%Q)) im p.
Proof.
  intros O M W N P. unfold prepare_image. destruct (np_qmax_ok _ (is_max_nonempty _ _ W)) as (w & -> & W').
  pose proof (is_max_unique _ _ _ W' W) as EW. cbn [bind]. destruct N as [N1 N2]. destruct (qltb 0 w) eqn:Q.
  - apply qltb_iff in Q. assert (ES : (sd w == s)%Q) by (rewrite (N1 ltac:(lra)); apply sd_eq; exact EW).
    set (im1 := imap (fun x => (x + sd w)%Q) im). change (imap (fun x => fadd (Fin x) (sd w)) im) with (imap (fun x => Fin (x + sd w)) im).
    rewrite <- (imap_imap Fin (fun x => (x + sd w)%Q) im). fold im1.
    assert (M1 : is_max (dat im1) (m + sd w)%Q).
    { apply (is_max_map (fun x => (x + sd w)%Q)); [intros; lra|exact M]. }
    change (dat (imap Fin im1)) with (map Fin (dat im1)). destruct (np_max_fin (dat im1) (is_max_nonempty _ _ M1)) as (m' & E & M').
  rewrite E. cbn [bind].
    pose proof (is_max_unique _ _ _ M' M1) as EM. rewrite finv_fin by lra.
    replace (imap (fun x => fmul x (Fin (1 / m'))) (imap Fin im1)) with (imap Fin (imap (fun x => (x * (1 / m'))%Q) im1)) by (rewrite !imap_imap; reflexivity).
    set (im2 := imap (fun x => (x * (1 / m'))%Q) im1).
    assert (I0 : (0 <= 1 / m')%Q). { unfold Qdiv. apply Qmult_le_0_compat; [lra|]. apply Qinv_le_0_compat. lra. }
    assert (M2 : is_max (dat im2) ((m + sd w) * (1 / m'))%Q).
    { apply (is_max_map (fun x => (x * (1 / m'))%Q)); [intros; nra|exact M1]. }
    assert (ONE : ((m + sd w) * (1 / m') == 1)%Q) by (rewrite <- EM; field; lra).
    destruct (linear_pos im2 _ (imap_ok _ _ (imap_ok _ _ O)) M2 ltac:(lra)) as (p & -> & D1 & D2 & D3 & D4).
    exists p. split; [reflexivity|]. split; [exact D1|]. split; [exact D2|]. split; [exact D3|].
    intros r c x Hx. destruct (D4 r c ((x + sd w) * (1 / m'))%Q) as (y & Hy & R1 & R2 & R3).
    { unfold im2, im1. rewrite !px_imap, Hx. reflexivity. }
    exists y. split; [exact Hy|]. split; [exact R1|]. rewrite ONE in R2.
    assert (Z : ((x + sd w) * (1 / m') * m' == x + s)%Q) by (rewrite <- ES; field; lra).
    set (z := ((x + sd w) * (1 / m'))%Q) in *. split; intros HX.
    + assert (0 <= z)%Q by nra. specialize (R2 H). rewrite <- Z. assert (y == z)%Q by lra. rewrite H0. nra.
    + apply R3. nra.
  - apply qltb_false in Q. specialize (N2 ltac:(lra)).
    destruct (linear_pos im m O M ltac:(lra)) as (p & E & D). cbn [bind]. exists p. split; [exact E|].
    apply (drawn_weaken _ _ _ _ D). intros x y _ (A & B & C). split; [exact A|]. split; intros HX.
    + rewrite N2, !Qplus_0_r. apply B. lra.
    + apply C. lra.
Qed.

(** With noise added, a negative largest pixel turns the picture into its negative. *)
Lemma image_neg im wt m lo wmax s : img_ok im -> is_max (dat im) m -> is_min (dat im) lo -> is_max (dat wt) wmax -> noise_of sd wmax s -> (0 < wmax)%Q ->
  (m + s < 0)%Q ->
  exists p, (let* a := prepare_image sd im wt in linear_scale a) = Ok p /\ drawn (fun x y => (y * (lo + s) == x + s)%Q) im p.
Proof.
  intros O M LO W N PW P. unfold prepare_image. destruct (np_qmax_ok _ (is_max_nonempty _ _ W)) as (w & -> & W').
  pose proof (is_max_unique _ _ _ W' W) as EW. cbn [bind]. destruct N as [N1 N2].
  assert (Q : qltb 0 w = true) by (apply qltb_iff; lra). rewrite Q. apply qltb_iff in Q.
  assert (ES : (sd w == s)%Q) by (rewrite (N1 ltac:(lra)); apply sd_eq; exact EW).
  set (im1 := imap (fun x => (x + sd w)%Q) im). change (imap (fun x => fadd (Fin x) (sd w)) im) with (imap (fun x => Fin (x + sd w)) im).
  rewrite <- (imap_imap Fin (fun x => (x + sd w)%Q) im). fold im1.
  assert (M1 : is_max (dat im1) (m + sd w)%Q).
  { apply (is_max_map (fun x => (x + sd w)%Q)); [intros; lra|exact M]. }
  assert (L1 : is_min (dat im1) (lo + sd w)%Q).
  { apply (is_min_map (fun x => (x + sd w)%Q)); [intros; lra|exact LO]. }
  change (dat (imap Fin im1)) with (map Fin (dat im1)). destruct (np_max_fin (dat im1) (is_max_nonempty _ _ M1)) as (m' & E & M').
  rewrite E. cbn [bind].
  pose proof (is_max_unique _ _ _ M' M1) as EM. rewrite finv_fin by lra.
  replace (imap (fun x => fmul x (Fin (1 / m'))) (imap Fin im1)) with (imap Fin (imap (fun x => (x * (1 / m'))%Q) im1)) by (rewrite !imap_imap; reflexivity).
  set (im2 := imap (fun x => (x * (1 / m'))%Q) im1).
  assert (I0 : (1 / m' <= 0)%Q). { assert (Z : ((1 / m') * m' == 1)%Q) by (field; lra). set (v := (1 / m')%Q) in *. nra. }
  assert (M2 : is_max (dat im2) ((lo + sd w) * (1 / m'))%Q).
  { apply (is_max_map_dec (fun x => (x * (1 / m'))%Q)); [intros; nra|exact L1]. }
  assert (LM : (lo + sd w <= m')%Q). { destruct L1 as [_ L1]. rewrite Forall_forall in L1. apply L1. apply M'. }
  assert (TOP : ((lo + sd w) * (1 / m') * m' == lo + s)%Q) by (rewrite <- ES; field; lra).
  assert (ONE : (0 < (lo + sd w) * (1 / m'))%Q) by (set (v := ((lo + sd w) * (1 / m'))%Q) in *; nra).
  destruct (linear_pos im2 _ (imap_ok _ _ (imap_ok _ _ O)) M2 ONE) as (p & -> & D1 & D2 & D3 & D4).
  exists p. split; [reflexivity|]. split; [exact D1|]. split; [exact D2|]. split; [exact D3|].
  intros r c x Hx. destruct (D4 r c ((x + sd w) * (1 / m'))%Q) as (y & Hy & R1 & R2 & R3).
  { unfold im2, im1. rewrite !px_imap, Hx. reflexivity. }
  exists y. split; [exact Hy|].
  assert (Z : ((x + sd w) * (1 / m') * m' == x + s)%Q) by (rewrite <- ES; field; lra).
  assert (X : (x <= m)%Q). { destruct M as [_ M]. rewrite Forall_forall in M. apply M. eapply px_dat; exact Hx. }
  set (z := ((x + sd w) * (1 / m'))%Q) in *. set (t := ((lo + sd w) * (1 / m'))%Q) in *.
  assert (0 <= z)%Q by nra. specialize (R2 H). rewrite <- TOP, <- Z, <- R2. ring.
Qed.

Lemma image_white im wt m wmax : img_ok im -> is_max (dat im) m -> is_max (dat wt) wmax -> (wmax <= 0)%Q -> (m < 0)%Q ->
  exists p, (let* a := prepare_image sd im wt in linear_scale a) = Ok p /\ drawn (fun x y => (y == 1)%Q) im p.
Proof.
  intros O M W PW P. unfold prepare_image. destruct (np_qmax_ok _ (is_max_nonempty _ _ W)) as (w & -> & W').
  pose proof (is_max_unique _ _ _ W' W) as EW. cbn [bind]. assert (qltb 0 w = false) as -> by (apply qltb_false; lra).
  cbn [bind]. apply linear_neg with (m := m); assumption.
Qed.

Lemma fmax_nan_l x : fmax Nan x = Nan. Proof. reflexivity. Qed.
Lemma fmax_nan_r x : fmax x Nan = Nan. Proof. destruct x; reflexivity. Qed.
Lemma fold_fmax_nan l : fold_left fmax l Nan = Nan.
Proof. induction l; cbn [fold_left]; [reflexivity|exact IHl]. Qed.
Lemma np_max_nan l : In Nan l -> np_max l = Ok Nan.
Proof.
  destruct l as [|a l]; [intros []|]. intros H. cbn [np_max]. f_equal. destruct H as [->|H]; [apply fold_fmax_nan|].
  revert a. induction l as [|b l IH]; [destruct H|]. intros a. cbn [fold_left]. destruct H as [->|H]; [rewrite fmax_nan_r; apply fold_fmax_nan|apply IH; exact H].
Qed.

Lemma image_nan im wt m wmax s : img_ok im -> is_max (dat im) m -> is_max (dat wt) wmax -> noise_of sd wmax s -> (0 < wmax)%Q -> (m + s == 0)%Q ->
  exists p, (let* a := prepare_image sd im wt in linear_scale a) = Ok p /\ nr p = nr im /\ nc p = nc im /\
    forall r c x, px im r c = Some x -> px p r c = Some Nan.
Proof.
  intros O M W N PW P. unfold prepare_image. destruct (np_qmax_ok _ (is_max_nonempty _ _ W)) as (w & -> & W').
  pose proof (is_max_unique _ _ _ W' W) as EW. cbn [bind]. destruct N as [N1 N2].
  assert (Q : qltb 0 w = true) by (apply qltb_iff; lra). rewrite Q. apply qltb_iff in Q.
  assert (ES : (sd w == s)%Q) by (rewrite (N1 ltac:(lra)); apply sd_eq; exact EW).
  set (im1 := imap (fun x => (x + sd w)%Q) im). change (imap (fun x => fadd (Fin x) (sd w)) im) with (imap (fun x => Fin (x + sd w)) im).
  rewrite <- (imap_imap Fin (fun x => (x + sd w)%Q) im). fold im1.
  assert (M1 : is_max (dat im1) (m + sd w)%Q).
  { apply (is_max_map (fun x => (x + sd w)%Q)); [intros; lra|exact M]. }
  change (dat (imap Fin im1)) with (map Fin (dat im1)). destruct (np_max_fin (dat im1) (is_max_nonempty _ _ M1)) as (m' & E & M').
  rewrite E. cbn [bind].
  pose proof (is_max_unique _ _ _ M' M1) as EM. rewrite finv_zero by lra.
  unfold linear_scale. rewrite np_max_nan.
  - cbn [bind finv]. eexists. split; [reflexivity|]. split; [reflexivity|]. split; [reflexivity|].
    intros r c x Hx. unfold im1. rewrite !px_imap, Hx. cbn [option_map fmul]. destruct (Qeq_bool _ _); [reflexivity|]. destruct (qltb _ _); reflexivity.
  - apply in_map_iff. exists (Fin m'). split; [cbn [fmul]; assert (Z : (m' == 0)%Q) by lra; apply Qeq_bool_iff in Z; rewrite Z; reflexivity|].
    apply in_map. exact (proj1 M').
Qed.
End Image.
