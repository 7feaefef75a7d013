(** Positions in double precision: what the properties say. *)
From Coq Require Import Lia ZifyBool ZifyNat Lqa Qround Qpower Qabs.
From Verif Require Import Base BaseLemmas Img Types BoundsM MakerLayout Single SingleLemmas CompositeLemmas Typed SpecTyped TypedLemmas FlMonoLemmas LayoutFl SpecLayoutFl LayoutFlLemmas.
Open Scope Z_scope.

Lemma sane_axes im : fi_sane im -> (1 <= fi_nrow im <= 2 ^ 30) /\ (1 <= fi_ncol im <= 2 ^ 30).
Proof. intros (A & B & _). auto. Qed.

Lemma accepted ub im half row col a b : fl_cutout ub im half row col = Some (a, b) ->
  axis_contains (axis_bounds (fi_nrow im) im) (fsub true row (fi_offset im)) = true /\
  axis_contains (axis_bounds (fi_ncol im) im) (fsub true col (fi_offset im)) = true /\
  a = cut_axis ub half (fsub true row (fi_offset im)) /\ b = cut_axis ub half (fsub true col (fi_offset im)).
Proof.
  unfold fl_cutout. destruct (axis_contains _ _) eqn:E1; [|discriminate]. destruct (axis_contains _ (fsub true col _)) eqn:E2; [|discriminate].
  cbn [andb]. intros H. injection H as <- <-. auto.
Qed.

Theorem on_the_image ub im half row col : fi_sane im -> is_float true row -> is_float true col ->
  (1 <= row <= inject_Z (fi_nrow im))%Q -> (1 <= col <= inject_Z (fi_ncol im))%Q ->
  exists a b, fl_cutout ub im half (Fin row) (Fin col) = Some (a, b).
Proof.
  intros S F1 F2 B1 B2. destruct (sane_axes im S) as (N1 & N2). unfold fl_cutout.
  rewrite (axis_accept _ im S N1 row F1 B1), (axis_accept _ im S N2 col F2 B2). cbn [andb]. eauto.
Qed.

Theorem inside ub im half row col a b : fi_sane im -> fl_cutout ub im half row col = Some (a, b) ->
  exists r c, row = Fin r /\ col = Fin c /\
    (1 - buffer_of im - (1 # 1048576) <= r <= inject_Z (fi_nrow im) + buffer_of im + (1 # 1048576))%Q /\
    (1 - buffer_of im - (1 # 1048576) <= c <= inject_Z (fi_ncol im) + buffer_of im + (1 # 1048576))%Q.
Proof.
  intros S H. destruct (sane_axes im S) as (N1 & N2). apply accepted in H. destruct H as (A & B & _ & _).
  apply (axis_accepted _ im S N1) in A. apply (axis_accepted _ im S N2) in B.
  destruct A as (r & z & A1 & _ & _ & A2 & _). destruct B as (c & y & B1 & _ & _ & B2 & _). exists r, c. auto.
Qed.

Lemma axis_positions ub n im half row : fi_sane im -> 1 <= n <= 2 ^ 30 -> half_sane half ->
  axis_contains (axis_bounds n im) (fsub true row (fi_offset im)) = true ->
  exists r, row = Fin r /\ axis_ok half (offset_of im) r (cut_axis ub half (fsub true row (fi_offset im))).
Proof.
  intros S N Hh A. apply (axis_accepted _ im S N) in A. destruct A as (r & z & A1 & A2 & A3 & A4 & A5 & A6).
  rewrite A2. exists r. split; [exact A1|]. destruct (cut_spec ub half z Hh A6) as (c & -> & _ & C2 & C3 & C4).
  exists z, c, (qtrunc z). cbn [ax_orig ax_start ax_cutout]. split; [reflexivity|]. split; [reflexivity|].
  split; [apply int_part_trunc|]. auto.
Qed.

Theorem positions ub im half row col a b : fi_sane im -> half_sane half -> fl_cutout ub im half row col = Some (a, b) ->
  exists r c, row = Fin r /\ col = Fin c /\ axis_ok half (offset_of im) r a /\ axis_ok half (offset_of im) c b.
Proof.
  intros S Hh H. destruct (sane_axes im S) as (N1 & N2). apply accepted in H. destruct H as (A & B & -> & ->).
  destruct (axis_positions ub _ im half row S N1 Hh A) as (r & R1 & R2). destruct (axis_positions ub _ im half col S N2 Hh B) as (c & C1 & C2).
  exists r, c. auto.
Qed.

(** * Exact cases *)
Lemma coarse_float x : coarse x -> (Qabs x <= 4294967296)%Q -> is_float true x.
Proof.
  intros (m & E) B. exists m, (-20). split; [rewrite E; change (two (-20)) with (/ inject_Z (2 ^ 20))%Q; reflexivity|].
  assert (Bm : Z.abs m <= 2 ^ 52).
  { rewrite Zle_Qle. change (inject_Z (Z.abs m)) with (Qabs (inject_Z m)). change (inject_Z (2 ^ 52)) with (4294967296 * inject_Z (2 ^ 20))%Q.
    assert (E2 : (inject_Z m == x * inject_Z (2 ^ 20))%Q) by (rewrite E; field; discriminate).
    rewrite E2, Qabs_Qmult. change (Qabs (inject_Z (2 ^ 20))) with (inject_Z (2 ^ 20)). apply Qmult_le_r; [reflexivity|exact B]. }
  change (2 ^ 52) with 4503599627370496 in Bm. change (2 ^ 53) with 9007199254740992.
  split; [lia|]. split; [lia|]. eapply Qle_lt_trans; [exact B|].
  assert (L : (two 33 <= two 1024)%Q) by (apply two_le; lia). assert ((4294967296 < two 33)%Q) by reflexivity. lra.
Qed.

Lemma coarse_sub x y : coarse x -> coarse y -> coarse (x - y).
Proof. intros (m & E) (n & F). exists (m - n). rewrite E, F. unfold Zminus. rewrite inject_Z_plus, inject_Z_opp. field. discriminate. Qed.
Lemma coarse_int k : coarse (inject_Z k).
Proof. exists (k * 2 ^ 20). rewrite inject_Z_mult. field. discriminate. Qed.
Lemma coarse_eq x y : (x == y)%Q -> coarse x -> coarse y.
Proof. intros E (m & F). exists m. rewrite <- E. exact F. Qed.

Lemma axis_coarse ub n im half r : fi_sane im -> 1 <= n <= 2 ^ 30 -> half_sane half -> coarse r -> coarse (offset_of im) ->
  axis_contains (axis_bounds n im) (fsub true (Fin r) (fi_offset im)) = true ->
  axis_exact (offset_of im) r (cut_axis ub half (fsub true (Fin r) (fi_offset im))).
Proof.
  intros S N Hh K K' A. apply (axis_accepted _ im S N) in A. destruct A as (r' & z & A1 & A2 & A3 & A4 & A5 & A6).
  injection A1 as <-. rewrite A2. destruct (cut_spec ub half z Hh A6) as (c & -> & C1 & C2 & C3 & C4).
  apply Qabs_Qle_condition in A5.
  destruct (fround_exact true (r - offset_of im)) as (v & Ev & Hv).
  { apply coarse_float; [apply coarse_sub; assumption|]. apply Qabs_Qle_condition. lra. }
  rewrite A3 in Ev. injection Ev as <-.
  exists z, c. cbn [ax_orig ax_start ax_cutout]. split; [reflexivity|]. split; [reflexivity|]. split; [exact Hv|].
  apply Qabs_Qle_condition in C2.
  assert (Bc : (-4 <= c <= 1048580)%Q).
  { unfold half_sane in Hh. assert (Bh : (0 <= inject_Z half <= 1048576)%Q).
    { split; [change 0%Q with (inject_Z 0)|change 1048576%Q with (inject_Z (2 ^ 20))]; rewrite <- Zle_Qle; lia. }
    destruct (Qlt_le_dec z 0) as [L|L]; [specialize (C4 L)|specialize (C3 L)]; lra. }
  destruct (fround_exact true (z - inject_Z (qtrunc z - half + 1))) as (w & Ew & Hw).
  { apply coarse_float.
    - apply coarse_sub; [|apply coarse_int]. apply (coarse_eq (r - offset_of im)); [symmetry; exact Hv|apply coarse_sub; assumption].
    - apply Qabs_Qle_condition. lra. }
  rewrite C1 in Ew. injection Ew as <-. rewrite Hw. ring.
Qed.

Theorem exact_coarse ub im half row col a b : fi_sane im -> half_sane half -> coarse row -> coarse col -> coarse (offset_of im) ->
  fl_cutout ub im half (Fin row) (Fin col) = Some (a, b) ->
  axis_exact (offset_of im) row a /\ axis_exact (offset_of im) col b.
Proof.
  intros S Hh K1 K2 K3 H. destruct (sane_axes im S) as (N1 & N2). apply accepted in H. destruct H as (A & B & -> & ->).
  split; [apply (axis_coarse ub (fi_nrow im))|apply (axis_coarse ub (fi_ncol im))]; assumption.
Qed.

(** * The usual offsets *)
Lemma usual_float r o : is_float true r -> (1 # 2 <= r <= 4294967296)%Q -> (o == 0 \/ o == 1)%Q -> is_float true (r - o).
Proof.
  intros (m & e & E & Bm & Be & Bx) Br Ho. destruct Ho as [Ho|Ho].
  { exists m, e. assert (E0 : (r - o == r)%Q) by (rewrite Ho; ring). rewrite E0. auto. }
  assert (M : 0 < m).
  { destruct (Z_lt_le_dec 0 m) as [C|C]; [exact C|exfalso]. pose proof (two_pos e) as P.
    assert (Q : (inject_Z m <= 0)%Q) by (change 0%Q with (inject_Z 0); rewrite <- Zle_Qle; exact C).
    assert (L : (inject_Z m * two e <= 0 * two e)%Q) by (apply Qmult_le_r; assumption). lra. }
  assert (He : -53 <= e).
  { destruct (Z_le_gt_dec (-53) e) as [C|C]; [exact C|exfalso].
    assert (Q : (inject_Z m <= two 53)%Q) by (rewrite <- two_Z by lia; rewrite <- Zle_Qle; lia).
    assert (Q' : (inject_Z m < two 53)%Q) by (rewrite <- two_Z by lia; rewrite <- Zlt_Qlt; lia).
    pose proof (two_pos e) as P. assert (L : (inject_Z m * two e < two 53 * two e)%Q) by (apply Qmult_lt_r; assumption).
    rewrite <- two_plus in L. assert (two (53 + e) <= two (-1))%Q by (apply two_le; lia). change (two (-1)) with (1 # 2)%Q in *. lra. }
  assert (BX : (Qabs (r - o) < two 1024)%Q).
  { apply Qle_lt_trans with 4294967296%Q; [apply Qabs_Qle_condition; lra|].
    assert (L : (two 33 <= two 1024)%Q) by (apply two_le; lia). assert ((4294967296 < two 33)%Q) by reflexivity. lra. }
  destruct (Z_le_gt_dec e 0) as [C|C].
  - exists (m - 2 ^ (- e)), e. split.
    + unfold Zminus. rewrite inject_Z_plus, inject_Z_opp, two_Z by lia. rewrite Ho, E.
      assert (I : (two (- e) * two e == 1)%Q) by (rewrite Qmult_comm; apply two_inv). rewrite <- I at 1. ring.
    + assert (1 <= 2 ^ (- e) <= 2 ^ 53). { split; [apply (Z.pow_le_mono_r 2 0)|apply Z.pow_le_mono_r]; lia. }
      split; [lia|]. auto.
  - exists (m * 2 ^ e - 1), 0. split.
    + unfold Zminus. rewrite inject_Z_plus, inject_Z_mult, two_Z by lia. rewrite Ho, E. change (two 0) with 1%Q. change (inject_Z (- (1))) with (- (1))%Q. ring.
    + assert (Q : m * 2 ^ e <= 4294967296).
      { rewrite Zle_Qle, inject_Z_mult, two_Z by lia. rewrite <- E. apply Br. }
      assert (1 <= 2 ^ e) by (apply (Z.pow_le_mono_r 2 0); lia). assert (0 < m * 2 ^ e) by nia. change (2 ^ 53) with 9007199254740992.
      split; [lia|]. split; [lia|exact BX].
Qed.

Lemma float_of_int k x : (x == inject_Z k)%Q -> Z.abs k <= 2 ^ 40 -> is_float true x.
Proof.
  intros E H. exists k, 0. split; [rewrite E; change (two 0) with 1%Q; ring|]. change (2 ^ 40) with 1099511627776 in H.
  change (2 ^ 53) with 9007199254740992. split; [lia|]. split; [lia|]. rewrite E.
  apply Qle_lt_trans with 1099511627776%Q.
  - change (Qabs (inject_Z k)) with (inject_Z (Z.abs k)). change 1099511627776%Q with (inject_Z 1099511627776). rewrite <- Zle_Qle. exact H.
  - assert (L : (two 41 <= two 1024)%Q) by (apply two_le; lia). assert ((1099511627776 < two 41)%Q) by reflexivity. lra.
Qed.

Lemma axis_usual n im row : fi_sane im -> 1 <= n <= 2 ^ 30 -> (offset_of im == 0 \/ offset_of im == 1)%Q -> fi_buffer im = None -> fl_ok true row ->
  (axis_contains (axis_bounds n im) (fsub true row (fi_offset im)) = true <-> exists r, row = Fin r /\ (1 <= r <= inject_Z n)%Q).
Proof.
  intros S N Ho NB Hf. split.
  - intros A. pose proof (axis_accepted _ im S N row A) as (r & z & A1 & A2 & A3 & A4 & _ & _). exists r. split; [exact A1|].
    assert (EB : buffer_of im = 0%Q) by (unfold buffer_of; rewrite NB; reflexivity). rewrite EB in A4.
    destruct (axis_bounds_spec n im S N) as (l0 & h0 & lo & hi & n' & Hn' & El & Eh & EA & _ & _ & Q & _). destruct (Q NB) as (-> & ->).
    rewrite EA, A2 in A. unfold axis_contains in A. cbn [fst snd fle] in A. apply andb_true_iff in A. destruct A as (G1 & G2).
    apply Qle_bool_iff in G1. apply Qle_bool_iff in G2. rewrite A1 in Hf. cbn [fl_ok] in Hf.
    pose proof (n_range n N) as BN.
    destruct (fround_exact true (r - offset_of im)) as (v & Ev & Hv). { apply usual_float; [exact Hf| |exact Ho]. lra. }
    rewrite A3 in Ev. injection Ev as <-.
    destruct (fround_exact true (1 - offset_of im)) as (l & Ev & Hl).
    { destruct Ho as [Ho|Ho]; [apply (float_of_int 1)|apply (float_of_int 0)]; try lia; rewrite Ho; reflexivity. }
    rewrite El in Ev. injection Ev as <-.
    destruct (fround_exact true (n' - offset_of im)) as (h & Ev & Hh).
    { destruct Ho as [Ho|Ho]; [apply (float_of_int n)|apply (float_of_int (n - 1))]; try lia; rewrite Ho, Hn'; unfold Zminus; rewrite ?inject_Z_plus; change (inject_Z (- (1))) with (- (1))%Q; ring. }
    rewrite Eh in Ev. injection Ev as <-. lra.
  - intros (r & -> & B). apply axis_accept; assumption.
Qed.

Theorem usual ub im half row col : fi_sane im -> (offset_of im == 0 \/ offset_of im == 1)%Q -> fi_buffer im = None -> fl_ok true row -> fl_ok true col ->
  ((exists a b, fl_cutout ub im half row col = Some (a, b)) <->
   exists r c, row = Fin r /\ col = Fin c /\ (1 <= r <= inject_Z (fi_nrow im))%Q /\ (1 <= c <= inject_Z (fi_ncol im))%Q).
Proof.
  intros S Ho NB F1 F2. destruct (sane_axes im S) as (N1 & N2).
  pose proof (axis_usual _ im row S N1 Ho NB F1) as (A1 & A2). pose proof (axis_usual _ im col S N2 Ho NB F2) as (B1 & B2). split.
  - intros (a & b & H). apply accepted in H. destruct H as (A & B & _). destruct (A1 A) as (r & R1 & R2). destruct (B1 B) as (c & C1 & C2). exists r, c. auto.
  - intros (r & c & R1 & C1 & R2 & C2). unfold fl_cutout. rewrite A2 by eauto. rewrite B2 by eauto. cbn [andb]. eauto.
Qed.

Theorem usual_orig ub im half r c a b : fi_sane im -> (offset_of im == 0 \/ offset_of im == 1)%Q -> fi_buffer im = None ->
  is_float true r -> is_float true c -> fl_cutout ub im half (Fin r) (Fin c) = Some (a, b) ->
  exists z y, ax_orig a = Fin z /\ ax_orig b = Fin y /\ (z == r - offset_of im)%Q /\ (y == c - offset_of im)%Q.
Proof.
  intros S Ho NB F1 F2 H. destruct (sane_axes im S) as (N1 & N2). apply accepted in H. destruct H as (A & B & -> & ->).
  assert (EB : buffer_of im = 0%Q) by (unfold buffer_of; rewrite NB; reflexivity).
  pose proof (n_range _ N1) as BN1. pose proof (n_range _ N2) as BN2.
  apply (axis_accepted _ im S N1) in A. destruct A as (r' & z & E1 & A2 & A3 & A4 & _). injection E1 as <-.
  apply (axis_accepted _ im S N2) in B. destruct B as (c' & y & E2 & B2 & B3 & B4 & _). injection E2 as <-.
  rewrite A2, B2. rewrite EB in A4, B4.
  destruct (fround_exact true (r - offset_of im)) as (v & Ev & Hv). { apply usual_float; [exact F1| |exact Ho]. lra. }
  rewrite A3 in Ev. injection Ev as <-.
  destruct (fround_exact true (c - offset_of im)) as (w & Ew & Hw). { apply usual_float; [exact F2| |exact Ho]. lra. }
  rewrite B3 in Ew. injection Ew as <-. exists z, y. auto.
Qed.

(** * Acceptance in units of 2^-20 *)
Lemma coarse_exact x v : coarse x -> (Qabs x <= 4294967296)%Q -> fround true x = Fin v -> (v == x)%Q.
Proof. intros C B E. destruct (fround_exact true x (coarse_float x C B)) as (w & E2 & H). rewrite E in E2. injection E2 as ->. exact H. Qed.

Lemma axis_coarse_iff n im r : fi_sane im -> 1 <= n <= 2 ^ 30 -> coarse r -> coarse (offset_of im) -> coarse (buffer_of im) ->
  (axis_contains (axis_bounds n im) (fsub true (Fin r) (fi_offset im)) = true <->
   (1 - buffer_of im <= r <= inject_Z n + buffer_of im)%Q).
Proof.
  intros S N K KO KB. pose proof (n_range n N) as BN.
  destruct (off_eq im S) as (EO & BO & _). pose proof (buf_range im S) as BB. apply Qabs_Qle_condition in BO.
  assert (C1 : coarse (1 - offset_of im)) by (apply coarse_sub; [apply (coarse_int 1)|exact KO]).
  destruct (fround_int n) as (n' & En & Hn). { change (2 ^ 50) with 1125899906842624. change (2 ^ 30) with 1073741824 in N. lia. }
  assert (C2 : coarse (n' - offset_of im)) by (apply coarse_sub; [apply (coarse_eq (inject_Z n)); [symmetry; exact Hn|apply coarse_int]|exact KO]).
  destruct (fin (1 - offset_of im)) as (l0 & El). { apply Qabs_Qle_condition. change (inject_Z (2 ^ 40)) with 1099511627776%Q. lra. }
  destruct (fin (n' - offset_of im)) as (h0 & Eh). { apply Qabs_Qle_condition. change (inject_Z (2 ^ 40)) with 1099511627776%Q. lra. }
  pose proof (coarse_exact _ _ C1 ltac:(apply Qabs_Qle_condition; lra) El) as Hl.
  pose proof (coarse_exact _ _ C2 ltac:(apply Qabs_Qle_condition; lra) Eh) as Hh.
  assert (AB : exists lo hi, axis_bounds n im = (Fin lo, Fin hi) /\ (lo == 1 - offset_of im - buffer_of im)%Q /\ (hi == inject_Z n - offset_of im + buffer_of im)%Q).
  { unfold axis_bounds. rewrite EO, En. cbn [fsub]. rewrite El, Eh. destruct S as (_ & _ & _ & B). unfold buffer_of in *. destruct (fi_buffer im) as [q|].
    - destruct B as (b & -> & _ & _). cbn [fadd fneg fsub]. unfold fadd. cbn [fneg fsub].
      destruct (fin (l0 - b)) as (lo & E1). { apply Qabs_Qle_condition. change (inject_Z (2 ^ 40)) with 1099511627776%Q. lra. }
      destruct (fin (h0 - - b)) as (hi & E2). { apply Qabs_Qle_condition. change (inject_Z (2 ^ 40)) with 1099511627776%Q. lra. }
      exists lo, hi. rewrite E1, E2. split; [reflexivity|]. split.
      + rewrite (coarse_exact (l0 - b) lo); [rewrite Hl; ring| |apply Qabs_Qle_condition; lra|exact E1].
        apply coarse_sub; [|exact KB]. apply (coarse_eq (1 - offset_of im)); [symmetry; exact Hl|exact C1].
      + rewrite (coarse_exact (h0 - - b) hi); [rewrite Hh, Hn; ring| |apply Qabs_Qle_condition; lra|exact E2].
        apply coarse_sub; [apply (coarse_eq (n' - offset_of im)); [symmetry; exact Hh|exact C2]|].
        destruct KB as (m & E). exists (- m). rewrite E, inject_Z_opp. field. discriminate.
    - exists l0, h0. split; [reflexivity|]. split; [rewrite Hl; ring|rewrite Hh, Hn; ring]. }
  assert (X : forall x y : Q, (x == y)%Q -> (x <= y)%Q) by (intros; lra).
  split.
  - intros A. pose proof (axis_accepted _ im S N _ A) as (r' & z & E1 & A2 & A3 & A4 & _). injection E1 as <-.
    destruct AB as (lo & hi & AB & Hlo & Hhi). rewrite AB, A2 in A. unfold axis_contains in A. cbn [fst snd fle] in A.
    apply andb_true_iff in A. destruct A as (G1 & G2). apply Qle_bool_iff in G1. apply Qle_bool_iff in G2.
    pose proof (coarse_exact _ _ (coarse_sub _ _ K KO) ltac:(apply Qabs_Qle_condition; lra) A3) as Hz. lra.
  - intros B. rewrite EO. cbn [fsub].
    destruct (fin (r - offset_of im)) as (z & Ez). { apply Qabs_Qle_condition. change (inject_Z (2 ^ 40)) with 1099511627776%Q. lra. }
    pose proof (coarse_exact _ _ (coarse_sub _ _ K KO) ltac:(apply Qabs_Qle_condition; lra) Ez) as Hz.
    destruct AB as (lo & hi & -> & Hlo & Hhi). rewrite Ez. unfold axis_contains. cbn [fst snd fle]. apply andb_true_iff.
    split; apply Qle_bool_iff; lra.
Qed.

Theorem accepted_coarse ub im half row col : fi_sane im -> coarse row -> coarse col -> coarse (offset_of im) -> coarse (buffer_of im) ->
  ((exists a b, fl_cutout ub im half (Fin row) (Fin col) = Some (a, b)) <->
   (1 - buffer_of im <= row <= inject_Z (fi_nrow im) + buffer_of im)%Q /\
   (1 - buffer_of im <= col <= inject_Z (fi_ncol im) + buffer_of im)%Q).
Proof.
  intros S K1 K2 K3 K4. destruct (sane_axes im S) as (N1 & N2).
  pose proof (axis_coarse_iff _ im row S N1 K1 K3 K4) as (A1 & A2). pose proof (axis_coarse_iff _ im col S N2 K2 K3 K4) as (B1 & B2). split.
  - intros (a & b & H). apply accepted in H. destruct H as (A & B & _). split; [apply A1; exact A|apply B1; exact B].
  - intros (H1 & H2). unfold fl_cutout. rewrite (A2 H1), (B2 H2). cbn [andb]. eauto.
Qed.
