(** Lemmas on makers and the arrays of the program. *)
From Coq Require Import Lia ZifyBool ZifyNat String.
From Verif Require Import Base BaseLemmas Img Types MakerLayout MakerWrite MakerFile Meta MakerMem ExampleData SpecMakerMem MemoryLemmas.
Open Scope Z_scope.

Definition placed_maker (n : nat) (m : gmem) (h : hmaker) : Prop :=
  (n <= hm_info h)%nat /\ hm_meta h = S (hm_info h) /\ hm_obj h = S (S (hm_info h)) /\ (hm_obj h < length m)%nat.
Definition minv (n : nat) (st : mstate) : Prop :=
  (n <= length (fst st))%nat /\ Forall (placed_maker n (fst st)) (snd st) /\
  forall j k h h', (j < k)%nat -> nth_error (snd st) j = Some h -> nth_error (snd st) k = Some h' -> (hm_obj h < hm_info h')%nat.

Lemma make_maker_places vs x m m' h : make_maker vs x m = Ok (m', h) ->
  exists a b c, m' = m ++ [a; b; c] /\ hm_info h = length m /\ hm_meta h = S (length m) /\ hm_obj h = S (S (length m)).
Proof.
  unfold make_maker. intros H. repeat (apply bind_ok in H; destruct H as (? & _ & H)). injection H as <- <-.
  eexists _, _, _. split; [reflexivity|]. auto.
Qed.
Lemma write_maker_mem h junk pjunk m : fst (write_maker h junk pjunk m) = m \/ exists c, fst (write_maker h junk pjunk m) = upd m (hm_obj h) (GObj c).
Proof.
  unfold write_maker. match goal with |- context [match ?b with _ => _ end] => destruct b as [[cat f]|e] end; [right; exists cat; reflexivity|left; reflexivity].
Qed.
Lemma placed_len n m m' h : (length m <= length m')%nat -> placed_maker n m h -> placed_maker n m' h.
Proof. unfold placed_maker. intros L (A & B & C & D). repeat split; auto. lia. Qed.
Lemma placed_upd n m a c h : placed_maker n m h -> placed_maker n (upd m a c) h.
Proof. apply placed_len. rewrite upd_length. lia. Qed.

Lemma mact_inv vs n st a : minv n st -> minv n (fst (mact vs n st a)).
Proof.
  destruct st as [m hs]. intros (L & F & O). cbn [fst snd] in *. destruct a as [x|i junk pjunk|a c]; cbn [mact].
  - destruct (make_maker vs x m) as [[m' h]|e] eqn:E; [|split; [exact L|split; [exact F|exact O]]].
    apply make_maker_places in E. destruct E as (a & b & c & -> & P1 & P2 & P3). cbn [fst snd].
    assert (LL : length (m ++ [a; b; c]) = S (S (S (length m)))) by (rewrite app_length; simpl; lia).
    split; [cbn [fst]; lia|]. split.
    + cbn [fst snd]. apply Forall_app. split; [eapply Forall_impl; [|exact F]; intros y; apply placed_len; lia|]. constructor; [|constructor].
      unfold placed_maker. rewrite LL, P1, P2, P3. repeat split; lia.
    + cbn [snd]. intros j k h1 h2 JK A B. destruct (Nat.lt_ge_cases k (length hs)) as [K|K].
      * rewrite nth_error_app1 in A, B by lia. exact (O j k h1 h2 JK A B).
      * assert (k = length hs) by (assert (k < length (hs ++ [h]))%nat by (apply nth_error_Some; congruence); rewrite app_length in *; simpl in *; lia).
        subst k. rewrite nth_error_app2, Nat.sub_diag in B by lia. injection B as <-. rewrite nth_error_app1 in A by exact JK.
        rewrite Forall_forall in F. destruct (F h1 (nth_error_In _ _ A)) as (_ & _ & _ & D). rewrite P1. exact D.
  - destruct (nth_error hs i) as [h|]; [|split; [exact L|split; [exact F|exact O]]].
    pose proof (write_maker_mem h junk pjunk m) as W. destruct (write_maker h junk pjunk m) as [m' f]. cbn [fst snd] in *.
    destruct W as [->|(c & ->)]; [split; [exact L|split; [exact F|exact O]]|].
    split; [cbn [fst]; rewrite upd_length; exact L|]. split; [|exact O]. cbn [fst snd]. eapply Forall_impl; [|exact F]. intros y. apply placed_upd.
  - destruct (Nat.ltb a n); [|split; [exact L|split; [exact F|exact O]]].
    split; [cbn [fst]; rewrite upd_length; exact L|]. split; [|exact O]. cbn [fst snd]. eapply Forall_impl; [|exact F]. intros y. apply placed_upd.
Qed.
Lemma mrun_inv vs n : forall acts st, minv n st -> minv n (mrun vs n st acts).
Proof. intros acts. induction acts as [|a acts IH]; intros st H; [exact H|]. apply IH. apply mact_inv. exact H. Qed.
Lemma mrun_app vs n a b : forall st, mrun vs n st (a ++ b) = mrun vs n (mrun vs n st a) b.
Proof. induction a as [|x a IH]; intros st; [reflexivity|]. simpl. apply IH. Qed.

(** ** The program's arrays *)
Lemma upd_firstn {A} n : forall (l : list A) i x, (i < n)%nat -> firstn n (upd l i x) = upd (firstn n l) i x.
Proof.
  induction n as [|n IH]; intros l i x H; [lia|]. destruct l as [|y l]; [destruct i; reflexivity|]. destruct i as [|i]; [reflexivity|].
  simpl. rewrite IH by lia. reflexivity.
Qed.
Lemma upd_firstn_out {A} n : forall (l : list A) i x, (n <= i)%nat -> firstn n (upd l i x) = firstn n l.
Proof.
  induction n as [|n IH]; intros l i x H; [reflexivity|]. destruct l as [|y l]; [destruct i; reflexivity|]. destruct i as [|i]; [lia|].
  simpl. rewrite IH by lia. reflexivity.
Qed.
Lemma upd_out {A} : forall (l : list A) i x, (length l <= i)%nat -> upd l i x = l.
Proof. induction l as [|y l IH]; intros [|i] x H; simpl in *; try lia; auto. rewrite IH by lia. reflexivity. Qed.

Definition change_of (m : gmem) (a : maction) : gmem := match a with Change b c => upd m b c | _ => m end.
Lemma changed_cons m a acts : changed m (a :: acts) = changed (change_of m a) acts.
Proof. destruct a; reflexivity. Qed.
Lemma changed_app m a b : changed m (a ++ b) = changed (changed m a) b.
Proof. revert m. induction a as [|x a IH]; intros m; [reflexivity|]. rewrite <- app_comm_cons, !changed_cons. apply IH. Qed.

Lemma mact_given vs n st a : minv n st -> firstn n (fst (fst (mact vs n st a))) = change_of (firstn n (fst st)) a.
Proof.
  destruct st as [m hs]. intros (L & F & O). cbn [fst snd] in *. destruct a as [x|i junk pjunk|a c]; cbn [mact change_of].
  - destruct (make_maker vs x m) as [[m' h]|e] eqn:E; [|reflexivity].
    apply make_maker_places in E. destruct E as (a & b & c & -> & _). cbn [fst]. rewrite firstn_app.
    replace (n - length m)%nat with 0%nat by lia. simpl. apply app_nil_r.
  - destruct (nth_error hs i) as [h|] eqn:E; [|reflexivity].
    pose proof (write_maker_mem h junk pjunk m) as W. destruct (write_maker h junk pjunk m) as [m' f]. cbn [fst snd] in *.
    destruct W as [->|(c & ->)]; [reflexivity|]. rewrite Forall_forall in F. destruct (F h (nth_error_In _ _ E)) as (A & B & C & D).
    apply upd_firstn_out. lia.
  - destruct (Nat.ltb a n) eqn:E; cbn [fst].
    + apply upd_firstn. apply Nat.ltb_lt. exact E.
    + rewrite upd_out; [reflexivity|]. apply Nat.ltb_ge in E. rewrite firstn_length. lia.
Qed.
Lemma mrun_given vs n : forall acts st, minv n st -> firstn n (fst (mrun vs n st acts)) = changed (firstn n (fst st)) acts.
Proof.
  intros acts. induction acts as [|a acts IH]; intros st H; [reflexivity|]. cbn [mrun]. rewrite changed_cons.
  rewrite IH by (apply mact_inv; exact H). rewrite mact_given by exact H. reflexivity.
Qed.
Lemma start_inv m0 : minv (length m0) (m0, []).
Proof. split; [cbn; lia|]. split; [constructor|]. intros [|j] k h h' _ H; discriminate H. Qed.
Lemma given_kept vs m0 acts : firstn (length m0) (fst (mrun vs (length m0) (m0, []) acts)) = changed m0 acts.
Proof. rewrite mrun_given by apply start_inv. cbn [fst]. rewrite firstn_all. reflexivity. Qed.

Lemma nth_firstn {A} n : forall (l : list A) i, (i < n)%nat -> nth_error (firstn n l) i = nth_error l i.
Proof. induction n as [|n IH]; intros l i H; [lia|]. destruct l as [|x l]; [destruct i; reflexivity|]. destruct i as [|i]; [reflexivity|]. simpl. apply IH. lia. Qed.

(** ** The maker's own arrays *)
Definition keeps_own (h : hmaker) (m m' : gmem) : Prop :=
  nth_error m' (hm_info h) = nth_error m (hm_info h) /\ nth_error m' (hm_meta h) = nth_error m (hm_meta h) /\ nth_error m' (hm_obj h) = nth_error m (hm_obj h).
Lemma mact_keeps vs n st a i h : minv n st -> nth_error (snd st) i = Some h -> not_writing i a ->
  keeps_own h (fst st) (fst (fst (mact vs n st a))) /\ nth_error (snd (fst (mact vs n st a))) i = Some h.
Proof.
  destruct st as [m hs]. intros (L & F & O) N W. cbn [fst snd] in *.
  assert (P : placed_maker n m h) by (rewrite Forall_forall in F; exact (F h (nth_error_In _ _ N))). destruct P as (P1 & P2 & P3 & P4).
  destruct a as [x|j junk pjunk|a c]; cbn [mact].
  - destruct (make_maker vs x m) as [[m' h']|e] eqn:E; [|split; [repeat split; reflexivity|exact N]].
    apply make_maker_places in E. destruct E as (a & b & c & -> & _). cbn [fst snd]. unfold keeps_own. rewrite !nth_error_app1 by lia.
    split; [auto|]. rewrite nth_error_app1; [exact N|]. apply nth_error_Some. congruence.
  - cbn [not_writing] in W. destruct (nth_error hs j) as [h'|] eqn:E; [|split; [repeat split; reflexivity|exact N]].
    pose proof (write_maker_mem h' junk pjunk m) as WW. destruct (write_maker h' junk pjunk m) as [m' f]. cbn [fst snd] in *.
    split; [|exact N]. destruct WW as [->|(c & ->)]; [repeat split; reflexivity|].
    assert (P' : placed_maker n m h') by (rewrite Forall_forall in F; exact (F h' (nth_error_In _ _ E))). destruct P' as (Q1 & Q2 & Q3 & Q4).
    assert (D : (hm_obj h' < hm_info h)%nat \/ (hm_obj h < hm_info h')%nat).
    { destruct (Nat.lt_total j i) as [J|[J|J]]; [left; exact (O j i h' h J E N)|congruence|right; exact (O i j h h' J N E)]. }
    unfold keeps_own. rewrite !upd_other by lia. auto.
  - destruct (Nat.ltb a n) eqn:E; [|split; [repeat split; reflexivity|exact N]]. apply Nat.ltb_lt in E. cbn [fst snd].
    split; [|exact N]. unfold keeps_own. rewrite !upd_other by lia. auto.
Qed.
Lemma mrun_keeps vs n i h : forall acts st, minv n st -> nth_error (snd st) i = Some h -> Forall (not_writing i) acts ->
  keeps_own h (fst st) (fst (mrun vs n st acts)) /\ nth_error (snd (mrun vs n st acts)) i = Some h.
Proof.
  intros acts. induction acts as [|a acts IH]; intros st H N W; [split; [repeat split; reflexivity|exact N]|]. inversion W as [|? ? W1 W2]; subst.
  destruct (mact_keeps vs n st a i h H N W1) as (K1 & N1). cbn [mrun].
  destruct (IH _ (mact_inv vs n st a H) N1 W2) as ((A & B & C) & N2). destruct K1 as (A1 & B1 & C1).
  split; [|exact N2]. unfold keeps_own. rewrite A, B, C. auto.
Qed.

(** ** What is written *)
Lemma opt_ext {A} (g g' : nat -> res A) a : (forall b, a = Some b -> g b = g' b) -> opt g a = opt g' a.
Proof. intros H. destruct a as [b|]; [|reflexivity]. simpl. rewrite (H b eq_refl). reflexivity. Qed.

Lemma written_late vs m0 acts1 x acts2 m' h junk pjunk : let n := length m0 in let st1 := mrun vs n (m0, []) acts1 in
  let st2 := mrun vs n (m0, []) (acts1 ++ Make x :: acts2) in
  own n x -> make_maker vs x (fst st1) = Ok (m', h) -> Forall (not_writing (length (snd st1))) acts2 ->
  snd (mact vs n st2 (Write (length (snd st1)) junk pjunk)) =
    Some (expected vs x (changed m0 acts1) (changed m0 (acts1 ++ Make x :: acts2)) junk pjunk).
Proof.
  intros n st1 st2 OW MK NW. pose proof (mrun_inv vs n acts1 _ (start_inv m0)) as I1. fold st1 in I1.
  pose proof (given_kept vs m0 acts1) as G1. fold n in G1. fold st1 in G1.
  pose proof (given_kept vs m0 (acts1 ++ Make x :: acts2)) as G2. fold n in G2. fold st2 in G2.
  rewrite <- G1, <- G2. clear G1 G2.
  assert (E2 : st2 = mrun vs n (m', snd st1 ++ [h]) acts2).
  { unfold st2. rewrite mrun_app. fold st1. cbn [mrun]. f_equal. unfold mact. destruct st1 as [m1 hs1]. cbn [fst snd] in *. rewrite MK. reflexivity. }
  assert (I2 : minv n (m', snd st1 ++ [h])).
  { pose proof (mact_inv vs n st1 (Make x) I1) as A. unfold mact in A. destruct st1 as [m1 hs1]. cbn [fst snd] in *. rewrite MK in A. exact A. }
  assert (NH : nth_error (snd (m', snd st1 ++ [h])) (length (snd st1)) = Some h) by (cbn [snd]; rewrite nth_error_app2, Nat.sub_diag by lia; reflexivity).
  destruct (mrun_keeps vs n (length (snd st1)) h acts2 _ I2 NH NW) as ((K1 & K2 & K3) & N2). rewrite <- E2 in K1, K2, K3, N2. cbn [fst] in K1, K2, K3.
  clearbody st2. clear E2 I2 NH NW. destruct I1 as (LN & _). destruct OW as (O1 & O2 & O3 & O4 & O5).
  destruct st2 as [m2 hs2]. cbn [fst snd] in *. cbn [mact]. rewrite N2. unfold write_maker.
  (* what was made *)
  unfold make_maker in MK. apply bind_ok in MK. destruct MK as (rows & R1 & MK). apply bind_ok in MK. destruct MK as (mi & R2 & MK).
  apply bind_ok in MK. destruct MK as (meta & R3 & MK). apply bind_ok in MK. destruct MK as (psf & R4 & MK). apply bind_ok in MK. destruct MK as (pin & R5 & MK).
  apply bind_ok in MK. destruct MK as (input & R6 & MK). apply bind_ok in MK. destruct MK as (mk & R7 & MK). injection MK as <- <-.
  cbn [hm_info hm_meta hm_obj hm_conf hm_psf hm_psf_info] in *.
  rewrite nth_error_app2, Nat.sub_diag in K1 by lia. rewrite nth_error_app2 in K2, K3 by lia.
  replace (S (length (fst st1)) - length (fst st1))%nat with 1%nat in K2 by lia. replace (S (S (length (fst st1))) - length (fst st1))%nat with 2%nat in K3 by lia.
  eassert (J1 : nth_error m2 (length (fst st1)) = Some _) by (rewrite K1; reflexivity).
  eassert (J2 : nth_error m2 (S (length (fst st1))) = Some _) by (rewrite K2; reflexivity).
  eassert (J3 : nth_error m2 (S (S (length (fst st1)))) = Some _) by (rewrite K3; reflexivity). clear K1 K2 K3.
  unfold get_info at 1, get_meta at 1, get_obj at 1. rewrite J1, J2, J3. cbn [bind].
  (* what is expected *)
  unfold expected.
  assert (E1 : get_info (firstn n (fst st1)) (ma_info x) = Ok rows) by (unfold get_info; rewrite nth_firstn by exact O2; exact R1).
  assert (E2 : opt (get_meta (firstn n (fst st1))) (ma_meta x) = Ok mi).
  { rewrite <- R2. apply opt_ext. intros b B. unfold get_meta. rewrite nth_firstn by exact (O3 b B). reflexivity. }
  assert (E4 : opt (get_psfs (firstn n (fst st1))) (ma_psf x) = Ok psf).
  { rewrite <- R4. apply opt_ext. intros b B. unfold get_psfs. rewrite nth_firstn by exact (O4 b B). reflexivity. }
  assert (E6 : get_obj (firstn n (fst st1)) (ma_obj x) = Ok input) by (unfold get_obj; rewrite nth_firstn by exact O1; exact R6).
  assert (E7 : opt (get_psfs (firstn n m2)) (ma_psf x) = opt (get_psfs m2) (ma_psf x)).
  { apply opt_ext. intros b B. unfold get_psfs. rewrite nth_firstn by exact (O4 b B). reflexivity. }
  assert (E8 : opt (get_psf_info (firstn n m2)) (ma_psf_info x) = opt (get_psf_info m2) (ma_psf_info x)).
  { apply opt_ext. intros b B. unfold get_psf_info. rewrite nth_firstn by exact (O5 b B). reflexivity. }
  rewrite E1. cbn [bind]. rewrite E2. cbn [bind]. rewrite R3. cbn [bind]. rewrite E4. cbn [bind]. rewrite E6. cbn [bind]. rewrite R7. cbn [bind].
  rewrite E7, E8. destruct (opt (get_psfs m2) (ma_psf x)) as [ps|e]; [|reflexivity]. cbn [bind].
  destruct (write _ junk pjunk) as [[mk' f]|e]; [|reflexivity]. cbn [bind fst snd].
  destruct (opt (get_psf_info m2) (ma_psf_info x)) as [pi|e]; reflexivity.
Qed.

Lemma changed_spares x : forall acts m a, Forall (spares x) acts -> ma_psf x = Some a \/ ma_psf_info x = Some a -> nth_error (changed m acts) a = nth_error m a.
Proof.
  intros acts. induction acts as [|c acts IH]; intros m a F H; [reflexivity|]. inversion F as [|? ? F1 F2]; subst.
  rewrite changed_cons, IH by assumption. destruct c as [y|i j p|b c]; cbn [change_of spares] in *; try reflexivity.
  apply upd_other. intros ->. destruct F1 as (F3 & F4). destruct H; contradiction.
Qed.

Lemma written_as_given vs m0 acts1 x acts2 m' h junk pjunk : let n := length m0 in let st1 := mrun vs n (m0, []) acts1 in
  let st2 := mrun vs n (m0, []) (acts1 ++ Make x :: acts2) in
  own n x -> make_maker vs x (fst st1) = Ok (m', h) -> Forall (not_writing (length (snd st1))) acts2 -> Forall (spares x) acts2 ->
  snd (mact vs n st2 (Write (length (snd st1)) junk pjunk)) = Some (file_of vs x (changed m0 acts1) junk pjunk).
Proof.
  intros n st1 st2 OW MK NW SP. etransitivity; [exact (written_late vs m0 acts1 x acts2 m' h junk pjunk OW MK NW)|]. f_equal.
  rewrite changed_app. cbn [changed]. generalize (changed m0 acts1). intros m.
  unfold expected, file_of.
  assert (A : opt (get_psfs (changed m acts2)) (ma_psf x) = opt (get_psfs m) (ma_psf x)).
  { apply opt_ext. intros b B. unfold get_psfs. rewrite (changed_spares x acts2 m b SP (or_introl B)). reflexivity. }
  assert (B : opt (get_psf_info (changed m acts2)) (ma_psf_info x) = opt (get_psf_info m) (ma_psf_info x)).
  { apply opt_ext. intros b E. unfold get_psf_info. rewrite (changed_spares x acts2 m b SP (or_intror E)). reflexivity. }
  rewrite A, B. destruct (get_info m (ma_info x)) as [rows|e]; [|reflexivity]. cbn [bind].
  destruct (opt (get_meta m) (ma_meta x)) as [mi|e]; [|reflexivity]. cbn [bind]. destruct (set_meta_data _ _ _) as [meta|e]; [|reflexivity]. cbn [bind].
  destruct (opt (get_psfs m) (ma_psf x)) as [psf|e]; [|reflexivity]. cbn [bind]. destruct (get_obj m (ma_obj x)) as [input|e]; [|reflexivity]. cbn [bind].
  unfold make_meds. destruct (new_maker (ma_conf x) (ma_types x) rows psf input) as [mk|e] eqn:K; [|reflexivity]. cbn [bind].
  assert (M : mkMaker (mk_conf mk) rows psf (mk_cat mk) = mk).
  { unfold new_maker in K. repeat (apply bind_ok in K; destruct K as (? & _ & K)). injection K as <-. reflexivity. }
  rewrite M. destruct (write mk junk pjunk) as [[mk' f]|e]; reflexivity.
Qed.

Lemma makers_refuted : exists vs m0 x acts m' h junk pjunk,
  own (length m0) x /\ make_maker vs x m0 = Ok (m', h) /\ Forall (not_writing 0) acts /\
  snd (mact vs (length m0) (mrun vs (length m0) (m0, []) (Make x :: acts)) (Write 0 junk pjunk)) <> Some (file_of vs x m0 junk pjunk).
Proof.
  destruct (make_maker kx_versions kx_args kx_mem) as [[m' h]|e] eqn:E.
  - exists kx_versions, kx_mem, kx_args, kx_new_psfs, m', h, ex_junk, kx_pjunk. split; [|split; [exact E|split; [repeat constructor|]]].
    + unfold own, kx_args; cbn. repeat split; try lia; intros a H; injection H as <-; lia.
    + intros H. apply (f_equal kx_psf) in H. vm_compute in H. discriminate H.
  - apply (f_equal (fun r => match r with Ok _ => true | Err _ => false end)) in E. vm_compute in E. discriminate E.
Qed.
