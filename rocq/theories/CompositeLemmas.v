(** Lemmas on composite images. *)
From Coq Require Import Lia ZifyBool ZifyNat Qabs Lqa.
From Verif Require Import Base BaseLemmas Img ImgLemmas Types Reader BoundsM MakerLayout Composite
  SpecTiles SpecFile SpecComposite ReadLemmas.
Open Scope Z_scope.
Ltac Zify.zify_post_hook ::= Z.div_mod_to_equations.

Lemma qltb_true a b : qltb a b = true <-> (a < b)%Q.
Proof.
  unfold qltb. rewrite negb_true_iff. split; intros H.
  - apply Qnot_le_lt. intros L. apply Qle_bool_iff in L. congruence.
  - destruct (Qle_bool b a) eqn:E; [|reflexivity]. apply Qle_bool_iff in E. exfalso. apply (Qlt_not_le _ _ H E).
Qed.

Lemma qltb_false a b : qltb a b = false <-> (b <= a)%Q.
Proof.
  unfold qltb. rewrite negb_false_iff. apply Qle_bool_iff.
Qed.

Lemma Qeq_bool_false a b : Qeq_bool a b = false <-> ~ (a == b)%Q.
Proof.
  split; intros H.
  - intros E. apply Qeq_bool_iff in E. congruence.
  - destruct (Qeq_bool a b) eqn:E; [|reflexivity]. apply Qeq_bool_iff in E. contradiction.
Qed.

Lemma qround_nearest x : nearest_int x (qround x).
Proof.
  unfold nearest_int, qround. set (f := Qfloor x).
  pose proof (Qfloor_le x) as H1. pose proof (Qlt_floor x) as H2. fold f in H1, H2.
  rewrite inject_Z_plus in H2. change (inject_Z 1) with 1%Q in H2.
  assert (HA : forall y, (0 <= y)%Q -> (Qabs y == y)%Q) by (intros y Hy; rewrite Qabs_pos by exact Hy; reflexivity).
  assert (HB : forall y, (y <= 0)%Q -> (Qabs y == - y)%Q) by (intros y Hy; rewrite Qabs_neg by exact Hy; reflexivity).
  destruct (qltb (x - inject_Z f) (1#2)) eqn:E1; [apply qltb_true in E1|apply qltb_false in E1].
  - rewrite HA by lra. split; [lra|]. intros E. lra.
  - destruct (qltb (1#2) (x - inject_Z f)) eqn:E2; [apply qltb_true in E2|apply qltb_false in E2].
    + rewrite inject_Z_plus. change (inject_Z 1) with 1%Q. rewrite HB by lra. split; [lra|]. intros E. lra.
    + destruct (Z.even f) eqn:E3.
      * rewrite HA by lra. split; [lra|]. intros _. exact E3.
      * rewrite inject_Z_plus. change (inject_Z 1) with 1%Q. rewrite HB by lra. split; [lra|]. intros _.
        replace (f + 1) with (Z.succ f) by lia. rewrite Z.even_succ, <- Z.negb_even, E3. reflexivity.
Qed.

Lemma nearest_int_exact i x : (x == inject_Z i)%Q -> qround x = i.
Proof.
  intros E. unfold qround. assert (F : Qfloor x = i) by (rewrite E; apply Qfloor_Z). rewrite F.
  destruct (qltb (x - inject_Z i) (1#2)) eqn:E1; [reflexivity|]. apply qltb_false in E1. rewrite E in E1. lra.
Qed.

Lemma zclip_clamped n i : 0 < n -> clamped n i (zclip i 0 (n - 1)) /\ 0 <= zclip i 0 (n - 1) < n.
Proof. intros Hn. unfold clamped, zclip. lia. Qed.

Lemma mat_inv_ok a b c d m : mat_inv (a, b, c, d) = Ok m ->
  ~ (a * d - b * c == 0)%Q /\ m = (d / (a * d - b * c), - b / (a * d - b * c), - c / (a * d - b * c), a / (a * d - b * c))%Q.
Proof.
  unfold mat_inv. destruct (Qeq_bool _ 0) eqn:E; [discriminate|]. intros H. inversion H. split; [|reflexivity].
  apply Qeq_bool_false. exact E.
Qed.

Definition slot_mat (s : slot) : mat := (s_dudrow s, s_dudcol s, s_dvdrow s, s_dvdcol s).
Definition slot_cen (s : slot) : Q * Q := (s_crow s, s_ccol s).

Lemma to_coadd_spec s0 s inv h w r c : 0 < h -> 0 < w -> mat_inv (slot_mat s0) = Ok inv ->
  exists x y i j, same_sky s0 s r c x y /\ nearest_int x i /\ nearest_int y j /\
    clamped h i (fst (to_coadd (slot_mat s) inv (slot_cen s) (slot_cen s0) h w r c)) /\
    clamped w j (snd (to_coadd (slot_mat s) inv (slot_cen s) (slot_cen s0) h w r c)) /\
    0 <= fst (to_coadd (slot_mat s) inv (slot_cen s) (slot_cen s0) h w r c) < h /\
    0 <= snd (to_coadd (slot_mat s) inv (slot_cen s) (slot_cen s0) h w r c) < w.
Proof.
  intros Hh Hw Hi. apply mat_inv_ok in Hi. destruct Hi as (Hd & ->).
  unfold to_coadd, slot_mat, slot_cen. cbn [fst snd].
  set (det := (s_dudrow s0 * s_dvdcol s0 - s_dudcol s0 * s_dvdrow s0)%Q) in *.
  match goal with |- context [qround ?x] => set (X := x) end.
  match goal with |- context [zclip (qround ?y) 0 (w - 1)] => set (Y := y) end.
  exists X, Y, (qround X), (qround Y).
  assert (HX : same_sky s0 s r c X Y).
  { unfold same_sky, sky_u, sky_v, X, Y. unfold det in *. split; field; exact Hd. }
  destruct (zclip_clamped h (qround X) Hh) as [C1 C2]. destruct (zclip_clamped w (qround Y) Hw) as [C3 C4].
  repeat split; try apply HX; try apply (qround_nearest X); try apply (qround_nearest Y); try assumption; try apply C1; try apply C3; lia.
Qed.

(** Same Jacobian and centre: the identity. *)
Lemma to_coadd_same s0 s inv h w r c : 0 <= r < h -> 0 <= c < w -> mat_inv (slot_mat s0) = Ok inv ->
  (s_dudrow s == s_dudrow s0)%Q -> (s_dudcol s == s_dudcol s0)%Q ->
  (s_dvdrow s == s_dvdrow s0)%Q -> (s_dvdcol s == s_dvdcol s0)%Q ->
  (s_crow s == s_crow s0)%Q -> (s_ccol s == s_ccol s0)%Q ->
  to_coadd (slot_mat s) inv (slot_cen s) (slot_cen s0) h w r c = (r, c).
Proof.
  intros Hr Hc Hi E1 E2 E3 E4 E5 E6. apply mat_inv_ok in Hi. destruct Hi as (Hd & ->).
  unfold to_coadd, slot_mat, slot_cen. cbn [fst snd].
  rewrite (nearest_int_exact r), (nearest_int_exact c).
  - unfold zclip. f_equal; lia.
  - rewrite E1, E2, E3, E4, E5, E6. field. exact Hd.
  - rewrite E1, E2, E3, E4, E5, E6. field. exact Hd.
Qed.

(** Accessors at a slot. *)
Lemma rowcol_ok f iobj icut o s : zget (m_cat f) iobj = Some o -> zget (o_slots o) icut = Some s ->
  get_cutout_rowcol f iobj icut = Ok (slot_cen s).
Proof.
  intros Ho Hs. unfold get_cutout_rowcol. pose proof (zget_Some_range _ _ _ Ho) as R.
  rewrite (proj2 (py_index_ok_nonneg _ _ _ (proj1 R)) Ho). cbn [bind]. rewrite (get_slot_ok _ _ _ Hs). reflexivity.
Qed.

Lemma jacmat_ok f iobj icut o s : zget (m_cat f) iobj = Some o -> zget (o_slots o) icut = Some s ->
  get_jacobian_matrix f iobj icut = Ok (slot_mat s).
Proof.
  intros Ho Hs. unfold get_jacobian_matrix. pose proof (zget_Some_range _ _ _ Ho) as R.
  rewrite (proj2 (py_index_ok_nonneg _ _ _ (proj1 R)) Ho). cbn [bind]. rewrite (get_slot_ok _ _ _ Hs). reflexivity.
Qed.

Lemma number_ok f iobj o : zget (m_cat f) iobj = Some o -> m_number_col f = true -> get_number f iobj = Ok (o_number o).
Proof.
  intros Ho Hm. unfold get_number. rewrite Hm. pose proof (zget_Some_range _ _ _ Ho) as R.
  rewrite (proj2 (py_index_ok_nonneg _ _ _ (proj1 R)) Ho). reflexivity.
Qed.

Lemma px_res_ok {A} (im : img A) r c a : px_res im r c = Ok a <-> px im r c = Some a.
Proof. unfold px_res. destruct (px im r c); split; intros H; inversion H; reflexivity. Qed.

Lemma seg_logic_spec restrict segid v : seg_logic restrict segid v = true <-> masked_seg restrict segid v.
Proof.
  unfold seg_logic, masked_seg. destruct restrict.
  - rewrite negb_true_iff, Qeq_bool_false. tauto.
  - rewrite andb_true_iff, !negb_true_iff, !Qeq_bool_false. intuition congruence.
Qed.

Lemma central_ok seg s0 v : px_wrap seg (qtrunc (s_crow s0)) (qtrunc (s_ccol s0)) = Ok v ->
  (0 <= s_crow s0)%Q -> (0 <= s_ccol s0)%Q -> central_seg seg s0 v.
Proof.
  intros H Hr Hc. unfold px_wrap in H. apply px_res_ok in H. unfold central_seg.
  assert (T : forall x, (0 <= x)%Q -> qtrunc x = Qfloor x /\ 0 <= Qfloor x).
  { intros x Hx. unfold qtrunc. apply Qle_bool_iff in Hx. rewrite Hx. split; [reflexivity|].
    change 0 with (Qfloor (inject_Z 0)). apply Qfloor_resp_le. apply Qle_bool_iff. exact Hx. }
  destruct (T _ Hr) as [T1 T2]. destruct (T _ Hc) as [T3 T4]. rewrite T1, T3 in H.
  dif_in H E1; [lia|]. dif_in H E2; [lia|]. exact H.
Qed.

(** Shape and content of a composite. *)
Lemma composite_spec f iobj icut o s0 s im seg restrict cim :
  zget (m_cat f) iobj = Some o -> zget (o_slots o) 0 = Some s0 -> zget (o_slots o) icut = Some s ->
  img_ok im -> img_ok seg -> 0 < nr seg -> 0 < nc seg ->
  make_composite_image f iobj icut im seg restrict = Ok cim ->
  img_ok cim /\ nr cim = nr im /\ nc cim = nc im /\
  exists segid, ((0 <= s_crow s0)%Q -> (0 <= s_ccol s0)%Q -> central_seg seg s0 segid) /\
    forall r c x y, px im r c = Some x -> px cim r c = Some y ->
      (icut <> 0 /\ (jac_det s0 == 0)%Q /\ y = 0%Q) \/
      ((icut = 0 \/ ~ (jac_det s0 == 0)%Q) /\
       exists v, seen seg s0 s icut r c v /\
        (masked_seg restrict segid v -> y = 0%Q) /\ (~ masked_seg restrict segid v -> y = x)).
Proof.
  intros Ho H0 Hs Him Hseg Hh Hw H. unfold make_composite_image in H.
  rewrite (rowcol_ok f iobj 0 o s0 Ho H0), (rowcol_ok f iobj icut o s Ho Hs) in H. cbn [bind slot_cen fst snd] in H.
  apply bind_ok in H. destruct H as (segid & Hid & H).
  pose proof (central_ok _ _ _ Hid) as HC. pose proof Him as (I1 & I2 & I3).
  assert (HL : forall v x, (masked_seg restrict segid v -> (if seg_logic restrict segid v then 0%Q else x) = 0%Q) /\
                           (~ masked_seg restrict segid v -> (if seg_logic restrict segid v then 0%Q else x) = x)).
  { intros v x. destruct (seg_logic restrict segid v) eqn:EL.
    - apply seg_logic_spec in EL. tauto.
    - split; [intros M; apply seg_logic_spec in M; congruence|reflexivity]. }
  dif_in H E0.
  - apply tab2M_ok in H; [|assumption..]. destruct H as (O1 & O2 & O3 & O4). split; [exact O1|]. split; [exact O2|].
    split; [exact O3|]. exists segid. split; [exact HC|]. intros r c x y Hx Hy. right. split; [left; lia|].
    destruct (px_Some_range _ _ _ _ Hx) as [Rr Rc].
    destruct (O4 r c Rr Rc) as (a & Ha & Hp). apply bind_ok in Ha. destruct Ha as (v & Hv & Ha).
    apply bind_ok in Ha. destruct Ha as (x' & Hx' & Ha). apply px_res_ok in Hv. apply px_res_ok in Hx'.
    rewrite Hx in Hx'. inversion Hx'; subst x'. rewrite Hy in Hp. inversion Hp; subst a. inversion Ha as [E].
    exists v. split; [unfold seen; rewrite E0; exact Hv|]. apply HL.
  - rewrite (jacmat_ok f iobj icut o s Ho Hs), (jacmat_ok f iobj 0 o s0 Ho H0) in H. cbn [bind] in H.
    destruct (mat_inv (slot_mat s0)) as [inv|e] eqn:Ei.
    + apply tab2M_ok in H; [|assumption..]. destruct H as (O1 & O2 & O3 & O4). split; [exact O1|]. split; [exact O2|].
      split; [exact O3|]. exists segid. split; [exact HC|]. intros r c x y Hx Hy. right.
      split; [right; apply mat_inv_ok in Ei; apply Ei|].
      destruct (px_Some_range _ _ _ _ Hx) as [Rr Rc]. destruct (O4 r c Rr Rc) as (a & Ha & Hp).
      destruct (to_coadd_spec s0 s inv (nr seg) (nc seg) r c Hh Hw Ei) as (X & Y & i & j & T1 & T2 & T3 & T4 & T5 & T6 & T7).
      unfold slot_cen in *. destruct (to_coadd _ _ _ _ _ _ _ _) as [cr cc]. cbn [fst snd] in *.
      apply bind_ok in Ha. destruct Ha as (v & Hv & Ha).
      apply bind_ok in Ha. destruct Ha as (x' & Hx' & Ha). apply px_res_ok in Hv. apply px_res_ok in Hx'.
      rewrite Hx in Hx'. inversion Hx'; subst x'. rewrite Hy in Hp. inversion Hp; subst a. inversion Ha as [E].
      exists v. split; [|apply HL]. unfold seen. rewrite E0. exists X, Y, i, j, cr, cc. auto 10.
    + apply tab2M_ok in H; [|assumption..]. destruct H as (O1 & O2 & O3 & O4). split; [exact O1|]. split; [exact O2|].
      split; [exact O3|]. exists segid. split; [exact HC|]. intros r c x y Hx Hy. left. split; [lia|].
      split.
      * unfold mat_inv, slot_mat in Ei. destruct (Qeq_bool _ 0) eqn:Eq; [|discriminate]. apply Qeq_bool_iff in Eq. exact Eq.
      * destruct (px_Some_range _ _ _ _ Hx) as [Rr Rc]. destruct (O4 r c Rr Rc) as (a & Ha & Hp).
        inversion Ha; subst a. rewrite Hy in Hp. inversion Hp. reflexivity.
Qed.
