(** Composite maps in double precision: errors of the positions. *)
From Coq Require Import Lia ZifyBool ZifyNat Lqa Qround Qabs.
From Verif Require Import Base BaseLemmas Img ImgLemmas Types Reader BoundsM MakerLayout Composite Single SingleLemmas Typed LayoutFl
  SpecComposite CompositeFl SpecCompositeFl CompositeLemmas FlMonoLemmas LayoutFlLemmas.
Open Scope Z_scope.

Local Notation e53 := (1 # 9007199254740992)%Q.
Local Notation e100 := (1 # 1267650600228229401496703205376)%Q.

(** [v] is a number within [E] of [x]. *)
Definition ap (v : fl) (x E : Q) : Prop := exists q, v = Fin q /\ (Qabs (q - x) <= E)%Q.

Lemma ap_le v x E E' : ap v x E -> (E <= E')%Q -> ap v x E'.
Proof. intros (q & A & B) H. exists q. split; [exact A|]. eapply Qle_trans; eassumption. Qed.
Lemma ap_eq v x y E : ap v x E -> (x == y)%Q -> ap v y E.
Proof. intros (q & A & B) H. exists q. split; [exact A|]. rewrite <- H. exact B. Qed.

Lemma ap_round t x E T : (Qabs (t - x) <= E)%Q -> (Qabs t <= T)%Q -> (T <= 1099511627776)%Q ->
  ap (fround true t) x (E + e53 * T + e100).
Proof.
  intros H1 H2 H3. destruct (fin t) as (q & F).
  { eapply Qle_trans; [exact H2|]. exact H3. }
  exists q. split; [exact F|]. pose proof (err t q F) as A.
  apply Qabs_Qle_condition in H1. apply Qabs_Qle_condition.
  assert (e53 * Qabs t <= e53 * T)%Q by (apply Qmult_le_l; [reflexivity|exact H2]). lra.
Qed.

Lemma mul_near a b x y E F X Y : (Qabs (a - x) <= E)%Q -> (Qabs (b - y) <= F)%Q -> (Qabs x <= X)%Q -> (Qabs y <= Y)%Q ->
  (Qabs (a * b - x * y) <= E * (Y + F) + X * F)%Q.
Proof.
  intros A B HX HY. assert (HB : (Qabs b <= Y + F)%Q).
  { setoid_replace b with (y + (b - y))%Q by ring. eapply Qle_trans; [apply Qabs_triangle|]. lra. }
  setoid_replace (a * b - x * y)%Q with ((a - x) * b + x * (b - y))%Q by ring.
  eapply Qle_trans; [apply Qabs_triangle|]. rewrite !Qabs_Qmult.
  apply Qplus_le_compat; apply Qmult_le_compat_nonneg; split; try apply Qabs_nonneg; assumption.
Qed.

Lemma ap_mul v w x y E F X Y Z T G : ap v x E -> ap w y F -> (Qabs x <= X)%Q -> (Qabs y <= Y)%Q ->
  (E * (Y + F) + X * F <= Z)%Q -> (X * Y + Z <= T)%Q -> (T <= 1099511627776)%Q -> (Z + e53 * T + e100 <= G)%Q ->
  ap (fmul true v w) (x * y) G.
Proof.
  intros (a & -> & A) (b & -> & B) HX HY HZ HT HT2 HG. cbn [fmul].
  pose proof (mul_near a b x y E F X Y A B HX HY) as D.
  eapply ap_le; [|exact HG]. apply ap_round; [lra| |exact HT2].
  setoid_replace (a * b)%Q with (x * y + (a * b - x * y))%Q by ring. eapply Qle_trans; [apply Qabs_triangle|].
  assert (Qabs (x * y) <= X * Y)%Q by (rewrite Qabs_Qmult; apply Qmult_le_compat_nonneg; split; try apply Qabs_nonneg; assumption). lra.
Qed.
Lemma ap_add v w x y E F X Y T G : ap v x E -> ap w y F -> (Qabs x <= X)%Q -> (Qabs y <= Y)%Q ->
  (X + Y + E + F <= T)%Q -> (T <= 1099511627776)%Q -> (E + F + e53 * T + e100 <= G)%Q ->
  ap (fadd true v w) (x + y) G.
Proof.
  intros (a & -> & A) (b & -> & B) HX HY HT HT2 HG. unfold fadd. cbn [fneg fsub].
  eapply ap_le; [|exact HG]. apply Qabs_Qle_condition in A, B, HX, HY.
  apply ap_round; [apply Qabs_Qle_condition; lra|apply Qabs_Qle_condition; lra|exact HT2].
Qed.

Lemma ap_rel r cen B : Z.abs r <= 2 ^ 50 -> (1 <= B)%Q -> (B <= 1099511627776)%Q -> (Qabs (inject_Z r - cen) <= B)%Q ->
  ap (fsub true (fround true (inject_Z r)) (Fin cen)) (inject_Z r - cen) (2 * e53 * B).
Proof.
  intros R H1 H2 H. destruct (fround_int r R) as (v & -> & E). cbn [fsub].
  eapply ap_le; [apply (ap_round (v - cen) (inject_Z r - cen) 0 B); [|rewrite E; exact H|exact H2]|].
  - apply Qabs_Qle_condition. rewrite E. lra.
  - lra.
Qed.

(** One sky coordinate. *)
Lemma ap_sky B M rr cc a b va vb : (1 <= B)%Q -> (1 <= M)%Q -> (B * M <= 1073741824)%Q ->
  ap va rr (2 * e53 * B) -> ap vb cc (2 * e53 * B) -> (Qabs rr <= B)%Q -> (Qabs cc <= B)%Q -> (Qabs a <= M)%Q -> (Qabs b <= M)%Q ->
  ap (fadd true (fmul true va (Fin a)) (fmul true vb (Fin b))) (rr * a + cc * b) (14 * e53 * (B * M)).
Proof.
  intros HB HM HP A1 A2 R1 R2 Ha Hb.
  assert (P1 : (1 <= B * M)%Q) by (setoid_replace 1%Q with (1 * 1)%Q by ring; apply Qmult_le_compat_nonneg; split; lra).
  assert (F : forall x, ap (Fin x) x 0) by (intros x; exists x; split; [reflexivity|]; apply Qabs_Qle_condition; lra).
  assert (M1 : forall v x y, ap v x (2 * e53 * B) -> (Qabs x <= B)%Q -> (Qabs y <= M)%Q -> ap (fmul true v (Fin y)) (x * y) (5 * e53 * (B * M))).
  { intros v x y V X Y. eapply (ap_mul v (Fin y) x y _ 0 B M (2 * e53 * (B * M)) (2 * (B * M))); [exact V|apply F|exact X|exact Y|lra|lra|lra|lra]. }
  assert (AB : forall x y, (Qabs x <= B)%Q -> (Qabs y <= M)%Q -> (Qabs (x * y) <= B * M)%Q).
  { intros x y X Y. rewrite Qabs_Qmult. apply Qmult_le_compat_nonneg; split; try apply Qabs_nonneg; assumption. }
  eapply (ap_add _ _ _ _ _ _ (B * M) (B * M) (3 * (B * M))); [apply M1; eassumption|apply M1; eassumption|apply AB; assumption|apply AB; assumption|lra|lra|lra].
Qed.

(** One coordinate in the coadd. *)
Lemma ap_coadd B M N d U V c a b vu vv ia ib : (1 <= B)%Q -> (1 <= M)%Q -> (1 <= N)%Q -> (0 <= d <= 1)%Q -> (B * M * N <= 1073741824)%Q ->
  ap vu U (14 * e53 * (B * M)) -> ap vv V (14 * e53 * (B * M)) -> (Qabs U <= 2 * (B * M))%Q -> (Qabs V <= 2 * (B * M))%Q ->
  near N d ia a -> near N d ib b -> (Qabs c <= B)%Q ->
  ap (fadd true (fadd true (Fin c) (fmul true vu ia)) (fmul true vv ib)) (c + U * a + V * b) (B * M * N * ((1 # 70368744177664) + 4 * d)).
Proof.
  intros HB HM HN Hd HP A1 A2 HU HV (Na & Ia) (Nb & Ib) Hc.
  assert (P1 : (1 <= B * M)%Q) by (setoid_replace 1%Q with (1 * 1)%Q by ring; apply Qmult_le_compat_nonneg; split; lra).
  assert (P2 : (B * M <= B * M * N)%Q) by (setoid_replace (B * M)%Q with (B * M * 1)%Q at 1 by ring; apply Qmult_le_compat_nonneg; split; lra).
  assert (P3 : (B <= B * M)%Q) by (setoid_replace B with (B * 1)%Q at 1 by ring; apply Qmult_le_compat_nonneg; split; lra).
  set (W := (B * M * N)%Q) in *.
  assert (D0 : (0 <= d * W)%Q) by (apply Qmult_le_0_compat; lra).
  assert (D1 : (d * W <= W)%Q) by (setoid_replace W with (1 * W)%Q at 2 by ring; apply Qmult_le_compat_r; lra).
  assert (MU : forall v x w y, ap v x (14 * e53 * (B * M)) -> ap w y (d * N) -> (Qabs x <= 2 * (B * M))%Q -> (Qabs y <= N)%Q ->
    ap (fmul true v w) (x * y) (35 * e53 * W + 2 * (d * W))).
  { intros v x w y Av Aw X Y. eapply (ap_mul v w x y _ _ (2 * (B * M)) N (28 * e53 * W + 2 * (d * W)) (6 * W)); [exact Av|exact Aw|exact X|exact Y| | | |].
    - assert (E : (14 * e53 * (B * M) * (N + d * N) + 2 * (B * M) * (d * N) == 14 * e53 * (W + d * W) + 2 * (d * W))%Q) by (unfold W; ring).
      rewrite E. lra.
    - assert (E : (2 * (B * M) * N == 2 * W)%Q) by (unfold W; ring). rewrite E. lra.
    - lra.
    - lra. }
  assert (AU : forall x y, (Qabs x <= 2 * (B * M))%Q -> (Qabs y <= N)%Q -> (Qabs (x * y) <= 2 * W)%Q).
  { intros x y X Y. rewrite Qabs_Qmult. assert (E : (2 * W == 2 * (B * M) * N)%Q) by (unfold W; ring). rewrite E.
    apply Qmult_le_compat_nonneg; split; try apply Qabs_nonneg; assumption. }
  assert (S1 : ap (fadd true (Fin c) (fmul true vu ia)) (c + U * a) (44 * e53 * W + 2 * (d * W))).
  { eapply (ap_add _ _ c (U * a) 0 _ B (2 * W) (7 * W)); [|apply MU; [exact A1|exact Ia|exact HU|exact Na]|exact Hc|apply AU; assumption|lra|lra|lra].
    exists c. split; [reflexivity|]. apply Qabs_Qle_condition. lra. }
  assert (X1 : (Qabs (c + U * a) <= 3 * W)%Q).
  { eapply Qle_trans; [apply Qabs_triangle|]. pose proof (AU U a HU Na). lra. }
  eapply ap_le; [eapply (ap_add _ _ _ _ _ _ (3 * W) (2 * W) (12 * W) (95 * e53 * W + 4 * (d * W))); [exact S1|apply MU; [exact A2|exact Ib|exact HV|exact Nb]|exact X1|apply AU; assumption|lra|lra|lra]|].
  assert (E : (W * ((1 # 70368744177664) + 4 * d) == (1 # 70368744177664) * W + 4 * (d * W))%Q) by ring. rewrite E. lra.
Qed.
