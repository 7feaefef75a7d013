(** The scaling of psf images, segmentation maps and bitmasks by meds-view. *)
From Coq Require Import Lia Lqa Setoid Morphisms ZifyBool ZifyNat.
From Verif Require Import Base BaseLemmas Img ImgLemmas Types Reader SpecFile BoundsM Composite Uberseg View SpecView ViewLemmas2.
Open Scope Z_scope.

Lemma drawn_of_imap (R : Q -> Q -> Prop) g im p : drawn R (imap g im) p -> drawn (fun x y => R (g x) y) im p.
Proof.
  intros (A & B & C & D). split; [exact A|]. split; [exact B|]. split; [exact C|]. intros r c x Hx.
  apply D. rewrite px_imap, Hx. reflexivity.
Qed.

Lemma scaled_twice im1 M m' : img_ok im1 -> is_max (dat im1) M -> (0 < M)%Q -> (m' == M)%Q ->
  exists p, linear_scale (imap (fun x => fmul x (finv (Fin m'))) (imap Fin im1)) = Ok p /\
    drawn (fun x y => (0 <= y <= 1)%Q /\ ((0 <= x)%Q -> (y * M == x)%Q) /\ ((x <= 0)%Q -> (y == 0)%Q)) im1 p.
Proof.
  intros O M1 P E. rewrite finv_fin by lra.
  replace (imap (fun x => fmul x (Fin (1 / m'))) (imap Fin im1)) with (imap Fin (imap (fun x => (x * (1 / m'))%Q) im1)) by (rewrite !imap_imap; reflexivity).
  set (im2 := imap (fun x => (x * (1 / m'))%Q) im1).
  assert (I0 : (0 <= 1 / m')%Q). { unfold Qdiv. apply Qmult_le_0_compat; [lra|]. apply Qinv_le_0_compat. lra. }
  assert (M2 : is_max (dat im2) (M * (1 / m'))%Q) by (apply (is_max_map (fun x => (x * (1 / m'))%Q)); [intros; nra|exact M1]).
  assert (ONE : (M * (1 / m') == 1)%Q) by (rewrite <- E; field; lra).
  destruct (linear_pos im2 _ (imap_ok _ _ O) M2 ltac:(lra)) as (p & -> & D).
  exists p. split; [reflexivity|]. apply drawn_of_imap in D. apply (drawn_weaken _ _ _ _ D). intros x y _ (A & B & C). split; [exact A|].
  assert (Z : (x * (1 / m') * m' == x)%Q) by (field; lra). rewrite ONE in B. set (z := (x * (1 / m'))%Q) in *. split; intros HX.
  - assert (0 <= z)%Q by nra. specialize (B H). assert (YZ : (y == z)%Q) by lra. rewrite YZ, <- E. exact Z.
  - apply C. nra.
Qed.

Lemma scaled_nan im1 m' : img_ok im1 -> is_max (dat im1) m' -> (m' == 0)%Q ->
  exists p, linear_scale (imap (fun x => fmul x (finv (Fin m'))) (imap Fin im1)) = Ok p /\ nr p = nr im1 /\ nc p = nc im1 /\
    forall r c x, px im1 r c = Some x -> px p r c = Some Nan.
Proof.
  intros O M1 E. rewrite finv_zero by exact E. unfold linear_scale. rewrite np_max_nan.
  - cbn [bind finv]. eexists. split; [reflexivity|]. split; [reflexivity|]. split; [reflexivity|].
    intros r c x Hx. rewrite !px_imap, Hx. cbn [option_map fmul]. destruct (Qeq_bool _ _); [reflexivity|]. destruct (qltb _ _); reflexivity.
  - apply in_map_iff. exists (Fin m'). split; [cbn [fmul]; apply Qeq_bool_iff in E; rewrite E; reflexivity|]. apply in_map. exact (proj1 M1).
Qed.

Section Logs.
Variable lg : Q -> Q.
Hypothesis lg_eq : respects lg.
Hypothesis lg_inc : forall a b, (0 < a)%Q -> (a < b)%Q -> (lg a < lg b)%Q.

Lemma lg_le a b : (0 < a)%Q -> (a <= b)%Q -> (lg a <= lg b)%Q.
Proof. intros H L. destruct (Qlt_le_dec a b) as [S|S]; [apply Qlt_le_weak, lg_inc; assumption|]. assert (a == b)%Q as X by lra. rewrite (lg_eq _ _ X). apply Qle_refl. Qed.

Let tiny : Q := (1#1000000)%Q.
Definition lgc (x : Q) : Q := lg (qmax2 x (1#1000000)).

Lemma qmax2_tiny x : (0 < qmax2 x tiny)%Q.
Proof. destruct (qmax2_cases x tiny) as [[-> L]|[-> L]]; unfold tiny in *; lra. Qed.
Lemma qmax2_mono x y : (x <= y)%Q -> (qmax2 x tiny <= qmax2 y tiny)%Q.
Proof. intros H. destruct (qmax2_cases x tiny) as [[-> L]|[-> L]]; destruct (qmax2_cases y tiny) as [[-> K]|[-> K]]; lra. Qed.
Lemma lgc_le x y : (x <= y)%Q -> (lgc x <= lgc y)%Q.
Proof. intros H. unfold lgc. fold tiny. apply lg_le; [apply qmax2_tiny|apply qmax2_mono; exact H]. Qed.

Lemma psf_prepared im m mn : img_ok im -> is_max (dat im) m -> is_min (dat im) mn ->
  exists lo m', prepare_psf lg im = Ok (imap (fun x => fmul x (finv (Fin m'))) (imap Fin (imap (fun x => (lgc x + - lo)%Q) im))) /\
    (lo == lgc mn)%Q /\ (m' == lgc m - lgc mn)%Q /\ is_max (dat (imap (fun x => (lgc x + - lo)%Q) im)) m'.
Proof.
  intros O M MN. unfold prepare_psf.
  change (imap (fun x => lg (qmax2 x (1 # 1000000))) im) with (imap lgc im). set (im1 := imap lgc im).
  assert (L1 : is_min (dat im1) (lgc mn)) by (apply is_min_map; [intros; apply lgc_le; assumption|exact MN]).
  destruct (np_qmin_ok (dat im1)) as (lo & -> & L2); [destruct L1 as [L1 _]; intros E; rewrite E in L1; destruct L1|].
  cbn [bind]. change (imap (fun x => fadd (Fin x) (- lo)) im1) with (imap (fun x => Fin (x + - lo)) im1).
  rewrite <- (imap_imap Fin (fun x => (x + - lo)%Q) im1). set (im2 := imap (fun x => (x + - lo)%Q) im1).
  assert (M2 : is_max (dat im2) (lgc m + - lo)%Q).
  { apply (is_max_map (fun x => (x + - lo)%Q)); [intros; lra|]. apply is_max_map; [intros; apply lgc_le; assumption|exact M]. }
  change (dat (imap Fin im2)) with (map Fin (dat im2)). destruct (np_max_fin (dat im2) (is_max_nonempty _ _ M2)) as (m' & -> & M').
  cbn [bind]. exists lo, m'. unfold im2, im1. rewrite (imap_imap (fun x => (x + - lo)%Q) lgc). 
  pose proof (is_min_unique _ _ _ L2 L1) as EL. pose proof (is_max_unique _ _ _ M' M2) as EM.
  split; [reflexivity|]. split; [exact EL|]. split; [lra|]. unfold im2, im1 in M'. rewrite imap_imap in M'. exact M'.
Qed.

Lemma psf_scaled im m mn : img_ok im -> is_max (dat im) m -> is_min (dat im) mn -> (lgc mn < lgc m)%Q ->
  exists p, (let* a := prepare_psf lg im in linear_scale a) = Ok p /\
    drawn (fun x y => (0 <= y <= 1)%Q /\ (y * (lgc m - lgc mn) == lgc x - lgc mn)%Q) im p.
Proof.
  intros O M MN H. destruct (psf_prepared im m mn O M MN) as (lo & m' & -> & EL & EM & IM). cbn [bind].
  destruct (scaled_twice _ m' m' (imap_ok _ _ O) IM ltac:(lra) (Qeq_refl _)) as (p & -> & D). exists p. split; [reflexivity|].
  apply drawn_of_imap in D. apply (drawn_weaken _ _ _ _ D). intros x y Hx (A & B & C). split; [exact A|].
  assert (lgc mn <= lgc x)%Q. { apply lgc_le. destruct MN as [_ MN]. rewrite Forall_forall in MN. apply MN. exact Hx. }
  rewrite <- EM. rewrite B by lra. lra.
Qed.

Lemma psf_nan im m mn : img_ok im -> is_max (dat im) m -> is_min (dat im) mn -> (lgc mn == lgc m)%Q ->
  exists p, (let* a := prepare_psf lg im in linear_scale a) = Ok p /\ nr p = nr im /\ nc p = nc im /\
    forall r c x, px im r c = Some x -> px p r c = Some Nan.
Proof.
  intros O M MN H. destruct (psf_prepared im m mn O M MN) as (lo & m' & -> & EL & EM & IM). cbn [bind].
  destruct (scaled_nan _ m' (imap_ok _ _ O) IM ltac:(lra)) as (p & -> & A & B & C). exists p. split; [reflexivity|]. split; [exact A|]. split; [exact B|].
  intros r c x Hx. apply (C r c (lgc x + - lo)%Q). rewrite px_imap, Hx. reflexivity.
Qed.

Hypothesis lg_one : (lg 1 == 0)%Q.

Lemma seg_fin im : Forall (fun x => (0 <= x)%Q) (dat im) -> prepare_seg lg im = imap Fin (imap (fun x => lg (x + 1)) im).
Proof.
  intros H. rewrite imap_imap. unfold prepare_seg, imap. f_equal. apply map_ext_in. intros x Hx. rewrite Forall_forall in H. specialize (H x Hx).
  unfold flog. assert (qltb 0 (x + 1) = true) as -> by (apply qltb_iff; lra). reflexivity.
Qed.

Lemma seg_scaled im m : img_ok im -> is_max (dat im) m -> Forall (fun x => (0 <= x)%Q) (dat im) -> (0 < m)%Q ->
  exists p, linear_scale (prepare_seg lg im) = Ok p /\ drawn (fun x y => (0 <= y <= 1)%Q /\ (y * lg (m + 1) == lg (x + 1))%Q) im p.
Proof.
  intros O M N P. rewrite seg_fin by exact N. pose proof N as N'. rewrite Forall_forall in N'.
  assert (M1 : is_max (dat (imap (fun x => lg (x + 1)) im)) (lg (m + 1))).
  { apply (is_max_map (fun x => lg (x + 1))); [|exact M]. intros x y Hx Hy L. pose proof (N' x Hx). apply lg_le; lra. }
  assert (PM : (0 < lg (m + 1))%Q) by (rewrite <- lg_one; apply lg_inc; lra).
  destruct (linear_pos _ _ (imap_ok _ _ O) M1 PM) as (p & -> & D). exists p. split; [reflexivity|].
  apply drawn_of_imap in D. apply (drawn_weaken _ _ _ _ D). intros x y Hx (A & B & C). split; [exact A|]. apply B.
  rewrite <- lg_one. apply lg_le; [lra|]. pose proof (N' x Hx). lra.
Qed.

(** A pixel below -1 spoils the whole picture. *)
Lemma seg_spoiled im x0 : In x0 (dat im) -> (x0 < -1)%Q ->
  exists p, linear_scale (prepare_seg lg im) = Ok p /\ nr p = nr im /\ nc p = nc im /\ forall r c x, px im r c = Some x -> px p r c = Some Nan.
Proof.
  intros H L. unfold linear_scale. rewrite np_max_nan.
  - cbn [bind finv]. eexists. split; [reflexivity|]. split; [reflexivity|]. split; [reflexivity|]. intros r c x Hx.
    unfold prepare_seg. rewrite !px_imap, Hx. cbn [option_map]. destruct (flog lg (x + 1)); reflexivity.
  - unfold prepare_seg. cbn [imap dat]. apply in_map_iff. exists x0. split; [|exact H]. unfold flog.
    assert (qltb 0 (x0 + 1) = false) as -> by (apply qltb_false; lra). destruct (Qeq_bool (x0 + 1) 0) eqn:E; [apply Qeq_bool_iff in E; lra|reflexivity].
Qed.
End Logs.
