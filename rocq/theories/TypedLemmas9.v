(** The example sources are well formed. *)
From Coq Require Import Lia ZifyBool ZifyNat Lqa Qpower Qabs String.
From Verif Require Import Base BaseLemmas Img ImgLemmas Types MakerLayout MakerWrite MakerFile Typed SpecTyped TypedLemmas8 ExampleData ExampleTyped.
Open Scope Z_scope.

Definition num_okb (k : kind) (x : num) : bool :=
  match k, x with
  | KI s b, NI z => fits s b z
  | KF d, NF (Fin q) => (Zpos (Qden q) =? 1) && (-1000000 <? Qnum q) && (Qnum q <? 1000000)
  | KF d, NF _ => true
  | _, _ => false
  end.
Lemma num_okb_ok k x : num_okb k x = true -> num_ok k x.
Proof.
  destruct k as [s b|d], x as [z|[q| |]]; cbn [num_okb num_ok fl_ok]; try discriminate; try (intros; exact I).
  - apply fits_is.
  - intros H. destruct q as [n e]. apply andb_true_iff in H. destruct H as (H & H2). apply andb_true_iff in H. destruct H as (H0 & H1).
    apply Z.ltb_lt in H1, H2. apply Z.eqb_eq in H0. cbn [Qnum Qden] in *. assert (e = 1%positive) by congruence. subst e. exists n, 0.
    assert (E : (n # 1 == inject_Z n * Qpower (2#1) 0)%Q) by (change (Qpower (2#1) 0) with 1%Q; rewrite Qmult_1_r; reflexivity).
    assert (B : (Qabs (n # 1) < inject_Z 1000000)%Q) by (apply Qabs_Qlt_condition; unfold Qlt, inject_Z, Qopp; cbn [Qnum Qden]; lia).
    split; [exact E|]. destruct d.
    + split; [lia|]. split; [lia|]. eapply Qlt_le_trans; [exact B|]. vm_compute; discriminate.
    + split; [lia|]. split; [lia|]. eapply Qlt_le_trans; [exact B|]. vm_compute; discriminate.
Qed.
Definition img_okb {A} (im : img A) : bool := (0 <=? nr im) && (0 <=? nc im) && (zlen (dat im) =? nr im * nc im).
Lemma img_okb_ok {A} (im : img A) : img_okb im = true -> img_ok im.
Proof. unfold img_okb, img_ok. lia. Qed.
Definition arr_okb (a : arr) : bool :=
  img_okb (a_im a) && forallb (num_okb (a_kind a)) (dat (a_im a)) && match a_kind a with KI _ b => (1 <=? b) && (b <=? 64) | KF _ => true end.
Lemma arr_okb_ok a : arr_okb a = true -> arr_ok a.
Proof.
  unfold arr_okb, arr_ok. intros H. apply andb_true_iff in H. destruct H as (H & H3). apply andb_true_iff in H. destruct H as (H1 & H2).
  split; [apply img_okb_ok; exact H1|]. split.
  - apply Forall_forall. intros x Hx. rewrite forallb_forall in H2. apply num_okb_ok. apply H2. exact Hx.
  - destruct (a_kind a); [lia|exact I].
Qed.
Lemma ex_tenth_ok : is_float true ex_tenth.
Proof. exists 3602879701896397, (-55). split; [vm_compute; reflexivity|]. repeat split; try lia; vm_compute; reflexivity. Qed.
Lemma ex_trows_ok : Forall (fun r => tsource_ok (tr_src r)) ex_trows.
Proof.
  constructor; [|constructor; [|constructor]]; unfold tsource_ok; cbn [tr_src ts_image ts_bkg ts_weight ts_seg ts_bmask ts_ormask ts_noise ts_scale ex_tsrc1 ex_tsrc2 tpath_ok];
    repeat match goal with |- arr_ok _ /\ _ => split; [apply arr_okb_ok; vm_compute; reflexivity|] | |- True /\ _ => split; [exact I|] end; [apply ex_tenth_ok|exact I].
Qed.
Lemma ex_trows3_ok : Forall (fun r => tsource_ok (tr_src r)) ex_trows3.
Proof.
  constructor; [|constructor]; unfold tsource_ok; cbn [tr_src ts_image ts_bkg ts_weight ts_seg ts_bmask ts_ormask ts_noise ts_scale ex_tsrc3 tpath_ok];
    repeat match goal with |- arr_ok _ /\ _ => split; [apply arr_okb_ok; vm_compute; reflexivity|] | |- True /\ _ => split; [exact I|] end; exact I.
Qed.
Lemma ex_trows4_ok : Forall (fun r => tsource_ok (tr_src r)) ex_trows4.
Proof.
  constructor; [|constructor]; unfold tsource_ok; cbn [tr_src ts_image ts_bkg ts_weight ts_seg ts_bmask ts_ormask ts_noise ts_scale ex_tsrc4 tpath_ok];
    repeat match goal with |- arr_ok _ /\ _ => split; [apply arr_okb_ok; vm_compute; reflexivity|] | |- True /\ _ => split; [exact I|] end; exact I.
Qed.
