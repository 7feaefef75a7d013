(** Digits, exponents and the rounding to 16 digits. *)
From Coq Require Import Lia ZifyBool ZifyNat String Ascii Qpower Qabs Qround Lqa.
From Verif Require Import Base BaseLemmas Img Types BoundsM Single SingleLemmas CompositeLemmas Typed SpecTyped TypedLemmas FlMonoLemmas LayoutFlLemmas CText SpecCText.
Open Scope Z_scope.

Lemma number_snoc ds d : number (ds ++ [d]) = 10 * number ds + d.
Proof. unfold number. rewrite fold_left_app. reflexivity. Qed.
Lemma zlen_snoc {A} (l : list A) x : zlen (l ++ [x]) = zlen l + 1.
Proof. unfold zlen. rewrite app_length. cbn. lia. Qed.
Lemma number_app a b : number (a ++ b) = number a * 10 ^ zlen b + number b.
Proof.
  induction b as [|x b IH] using rev_ind.
  - rewrite app_nil_r. change (zlen []) with 0. change (number []) with 0. lia.
  - rewrite app_assoc, !number_snoc, IH, zlen_snoc. rewrite Z.pow_add_r by (pose proof (zlen_nonneg b); lia). lia.
Qed.
Lemma number_zeros n : number (repeat 0 n) = 0.
Proof.
  induction n as [|n IH]; [reflexivity|]. cbn [repeat]. change (0 :: repeat 0 n) with ([0] ++ repeat 0 n).
  rewrite number_app, IH. reflexivity.
Qed.

Definition is_dig (d : Z) : Prop := 0 <= d <= 9.

Lemma digs_spec fuel : forall n, 0 <= n < 2 ^ Z.of_nat fuel -> (0 < fuel)%nat ->
  number (digs fuel n) = n /\ Forall is_dig (digs fuel n) /\ digs fuel n <> [] /\
  n < 10 ^ zlen (digs fuel n) /\ (1 <= n -> 10 ^ (zlen (digs fuel n) - 1) <= n).
Proof.
  induction fuel as [|fuel IH]; intros n H F; [lia|]. cbn [digs]. destruct (n <? 10) eqn:E.
  - change (zlen [n]) with 1. change (number [n]) with n. change (10 ^ 1) with 10. change (10 ^ (1 - 1)) with 1.
    split; [lia|]. split; [repeat constructor; lia|]. split; [discriminate|]. lia.
  - assert (0 < fuel)%nat.
    { destruct fuel; [|lia]. cbn in H. lia. }
    rewrite Nat2Z.inj_succ, Z.pow_succ_r in H by lia.
    destruct (IH (n / 10)) as (A & B & C & D & G); [|assumption|].
    { split; [apply Z.div_pos; lia|]. apply Z.div_lt_upper_bound; lia. }
    pose proof (Z.div_mod n 10 ltac:(lia)) as DM. pose proof (Z.mod_pos_bound n 10 ltac:(lia)) as MB.
    rewrite number_snoc, A, zlen_snoc. pose proof (zlen_nonneg (digs fuel (n / 10))) as L.
    split; [lia|]. split; [apply Forall_app; split; [exact B|repeat constructor; lia]|].
    split; [intros X; apply (app_eq_nil (digs fuel (n/10))) in X; destruct X; discriminate|].
    split.
    + rewrite Z.pow_add_r by lia. change (10 ^ 1) with 10. lia.
    + intros _. assert (1 <= n / 10) by (apply Z.div_le_lower_bound; lia). specialize (G ltac:(assumption)).
      assert (L1 : 1 <= zlen (digs fuel (n / 10))). { destruct (digs fuel (n/10)); [congruence|]. unfold zlen. cbn. lia. }
      replace (zlen (digs fuel (n / 10)) + 1 - 1) with (zlen (digs fuel (n / 10)) - 1 + 1) by lia.
      rewrite Z.pow_add_r by lia. change (10 ^ 1) with 10. lia.
Qed.
Lemma dec_spec n : 0 <= n -> number (dec n) = n /\ Forall is_dig (dec n) /\ dec n <> [] /\
  n < 10 ^ zlen (dec n) /\ (1 <= n -> 10 ^ (zlen (dec n) - 1) <= n).
Proof.
  intros H. apply digs_spec; [|lia]. rewrite Nat2Z.inj_succ, Z2Nat.id by apply Z.log2_nonneg.
  destruct (Z.eq_dec n 0) as [->|N]; [vm_compute; split; congruence|]. pose proof (Z.log2_spec n ltac:(lia)). lia.
Qed.
Lemma dec_len n k : 0 < k -> 10 ^ (k - 1) <= n < 10 ^ k -> zlen (dec n) = k.
Proof.
  intros Hk H. assert (P : 0 < 10 ^ (k - 1)) by (apply Z.pow_pos_nonneg; lia).
  destruct (dec_spec n ltac:(lia)) as (_ & _ & N & A & B). specialize (B ltac:(lia)).
  assert (1 <= zlen (dec n)). { destruct (dec n); [congruence|]. unfold zlen. cbn. lia. }
  set (z := zlen (dec n)) in *. clearbody z.
  destruct (Z_lt_le_dec z k) as [C|C].
  - assert (10 ^ z <= 10 ^ (k - 1)) by (apply Z.pow_le_mono_r; lia). lia.
  - destruct (Z_lt_le_dec k z) as [D|D]; [|lia]. assert (10 ^ k <= 10 ^ (z - 1)) by (apply Z.pow_le_mono_r; lia). lia.
Qed.

(** Dropping zeros. *)
Lemma drop_zeros_spec ds : exists n, ds = drop_zeros ds ++ repeat 0 n.
Proof.
  induction ds as [|d ds (n & E)]; [exists O; reflexivity|]. cbn [drop_zeros]. destruct (drop_zeros ds) as [|x l] eqn:D.
  - destruct (d =? 0) eqn:Z.
    + exists (Datatypes.S n). cbn [app repeat] in *. rewrite <- E. f_equal. lia.
    + exists n. cbn [app] in *. rewrite E at 1. reflexivity.
  - exists n. rewrite E at 1. reflexivity.
Qed.
Lemma drop_zeros_digs ds : Forall is_dig ds -> Forall is_dig (drop_zeros ds).
Proof. intros H. destruct (drop_zeros_spec ds) as (n & E). rewrite E in H. apply Forall_app in H. apply H. Qed.

(** Powers of ten. *)
Lemma ten_pos k : (0 < ten k)%Q. Proof. apply Qpower_0_lt. reflexivity. Qed.
Lemma ten_plus a b : (ten (a + b) == ten a * ten b)%Q. Proof. apply Qpower_plus. discriminate. Qed.
Lemma ten_Z k : 0 <= k -> (inject_Z (10 ^ k) == ten k)%Q.
Proof. intros H. unfold ten. rewrite Zpower_Qpower by exact H. reflexivity. Qed.
Lemma ten_le a b : a <= b -> (ten a <= ten b)%Q. Proof. intros H. apply Qpower_le_compat_l; [exact H|discriminate]. Qed.
Lemma ten_lt_inv a b : (ten a < ten b)%Q -> a < b.
Proof. intros H. destruct (Z_lt_le_dec a b) as [C|C]; [exact C|]. pose proof (ten_le b a C). lra. Qed.
Lemma ten_inv k : (ten k * ten (- k) == 1)%Q.
Proof. rewrite <- ten_plus. replace (k + - k) with 0 by lia. reflexivity. Qed.

Lemma exponent_spec q : (0 < q)%Q -> (ten (exponent q) <= q < ten (exponent q + 1))%Q.
Proof.
  intros H. unfold exponent. cbv zeta. assert (N : 1 <= Qnum q) by (unfold Qlt in H; cbn in H; lia).
  destruct (dec_spec (Qnum q) ltac:(lia)) as (_ & _ & _ & A2 & A1). specialize (A1 N).
  destruct (dec_spec (Zpos (Qden q)) ltac:(lia)) as (_ & _ & NB & B2 & B1). specialize (B1 ltac:(lia)).
  assert (La : 1 <= zlen (dec (Qnum q))).
  { destruct (dec_spec (Qnum q) ltac:(lia)) as (_ & _ & C & _). destruct (dec (Qnum q)); [congruence|]. unfold zlen. cbn. lia. }
  assert (Lb : 1 <= zlen (dec (Zpos (Qden q)))). { destruct (dec (Zpos (Qden q))); [congruence|]. unfold zlen. cbn. lia. }
  set (a := zlen (dec (Qnum q))) in *. set (b := zlen (dec (Zpos (Qden q)))) in *. clearbody a b.
  assert (E : (q * inject_Z (Zpos (Qden q)) == inject_Z (Qnum q))%Q). { destruct q as [n d]. unfold Qeq. cbn. lia. }
  set (num := Qnum q) in *. set (den := Zpos (Qden q)) in *. clearbody num den.
  assert (D0 : (0 < inject_Z den)%Q) by (change 0%Q with (inject_Z 0); rewrite <- Zlt_Qlt; assert (0 < 10 ^ (b - 1)) by (apply Z.pow_pos_nonneg; lia); lia).
  assert (Hi : (q < ten (a - b + 1))%Q).
  { apply (Qmult_lt_r _ _ (inject_Z den) D0). rewrite E. apply Qlt_le_trans with (ten a); [rewrite <- ten_Z, <- Zlt_Qlt by lia; exact A2|].
    replace a with ((a - b + 1) + (b - 1)) at 1 by lia. rewrite ten_plus. apply Qmult_le_l; [apply ten_pos|]. rewrite <- ten_Z, <- Zle_Qle by lia. exact B1. }
  assert (Lo : (ten (a - b - 1) <= q)%Q).
  { apply (Qmult_le_r _ _ (inject_Z den) D0). rewrite E. apply Qle_trans with (ten (a - 1)); [|rewrite <- ten_Z, <- Zle_Qle by lia; exact A1].
    replace (a - 1) with ((a - b - 1) + b) at 1 by lia. rewrite ten_plus. apply Qmult_le_l; [apply ten_pos|]. rewrite <- ten_Z, <- Zle_Qle by lia. lia. }
  destruct (Qle_bool (ten (a - b)) q) eqn:C.
  - apply Qle_bool_iff in C. split; [exact C|exact Hi].
  - replace (a - b - 1 + 1) with (a - b) by lia. split; [exact Lo|].
    destruct (Qlt_le_dec q (ten (a - b))) as [L|L]; [exact L|]. apply Qle_bool_iff in L. congruence.
Qed.

(** Sixteen digits. *)
Definition half_unit : Q := (1 # 2) * ten (-15).
Lemma sig16_spec q m x : (0 < q)%Q -> sig16 q = (m, x) ->
  10 ^ 15 <= m < 10 ^ 16 /\ (Qabs (inject_Z m * ten (x - 15) - q) <= half_unit * q)%Q.
Proof.
  intros H. unfold sig16. cbv zeta. destruct (exponent_spec q H) as (A & B). set (e := exponent q) in *. clearbody e.
  set (t := (q * ten (15 - e))%Q). pose proof (ten_pos (15 - e)) as P.
  assert (T1 : (ten 15 <= t)%Q).
  { unfold t. replace 15 with (e + (15 - e)) at 1 by lia. rewrite ten_plus. apply Qmult_le_r; assumption. }
  assert (T2 : (t <= ten 16)%Q).
  { unfold t. replace 16 with ((e + 1) + (15 - e)) by lia. rewrite ten_plus. apply Qmult_le_r; [assumption|lra]. }
  rewrite <- ten_Z in T1, T2 by lia. pose proof (half_even_ge _ _ T1) as M1. pose proof (half_even_le _ _ T2) as M2.
  pose proof (half_even_err t) as (E1 & E2). set (h := half_even t) in *.
  assert (V : (Qabs (inject_Z h * ten (e - 15) - q) <= half_unit * q)%Q).
  { assert (Q0 : (q == t * ten (e - 15))%Q).
    { unfold t. rewrite <- Qmult_assoc, <- ten_plus. replace (15 - e + (e - 15)) with 0 by lia. change (ten 0) with 1%Q. ring. }
    assert (R : (inject_Z h * ten (e - 15) - q == (inject_Z h - t) * ten (e - 15))%Q) by (rewrite Q0 at 1; ring).
    rewrite R, Qabs_Qmult, (Qabs_pos (ten (e - 15))) by (pose proof (ten_pos (e - 15)); lra).
    apply Qle_trans with ((1 # 2) * ten (e - 15))%Q.
    - apply Qmult_le_r; [apply ten_pos|]. apply Qabs_Qle_condition. lra.
    - unfold half_unit. rewrite <- Qmult_assoc. apply Qmult_le_l; [reflexivity|].
      replace (e - 15) with (-15 + e) by lia. rewrite ten_plus. apply Qmult_le_l; [apply ten_pos|exact A]. }
  destruct (h =? 10 ^ 16) eqn:E; intros X; injection X as <- <-.
  - split; [lia|]. assert (E' : h = 10 ^ 16) by lia. rewrite E' in V.
    assert (R : (inject_Z (10 ^ 15) * ten (e + 1 - 15) == inject_Z (10 ^ 16) * ten (e - 15))%Q).
    { rewrite !ten_Z by lia. rewrite <- !ten_plus. replace (15 + (e + 1 - 15)) with (16 + (e - 15)) by lia. reflexivity. }
    rewrite R. exact V.
  - split; [lia|exact V].
Qed.
(** Numbers of sixteen digits are kept. *)
Lemma sig16_exact q m x n k : (0 < q)%Q -> sig16 q = (m, x) -> (q == inject_Z n * ten k)%Q -> n < 10 ^ 16 ->
  (inject_Z m * ten (x - 15) == q)%Q.
Proof.
  intros H S E Hn. unfold sig16 in S. cbv zeta in S. destruct (exponent_spec q H) as (A & _). set (e := exponent q) in *. clearbody e.
  assert (K : e < 16 + k).
  { apply ten_lt_inv. apply Qle_lt_trans with q; [exact A|]. rewrite E, ten_plus. apply Qmult_lt_r; [apply ten_pos|]. rewrite <- ten_Z, <- Zlt_Qlt by lia. exact Hn. }
  assert (T : (q * ten (15 - e) == inject_Z (n * 10 ^ (k + 15 - e)))%Q).
  { rewrite inject_Z_mult, ten_Z by lia. rewrite E, <- Qmult_assoc, <- ten_plus. replace (k + (15 - e)) with (k + 15 - e) by lia. reflexivity. }
  rewrite (half_even_int _ _ T) in S. set (h := n * 10 ^ (k + 15 - e)) in *.
  assert (Q0 : (inject_Z h * ten (e - 15) == q)%Q).
  { rewrite <- T, <- Qmult_assoc, <- ten_plus. replace (15 - e + (e - 15)) with 0 by lia. change (ten 0) with 1%Q. ring. }
  destruct (h =? 10 ^ 16) eqn:Eh; injection S as <- <-; [|exact Q0].
  assert (E' : h = 10 ^ 16) by lia. rewrite E' in Q0.
  assert (R : (inject_Z (10 ^ 15) * ten (e + 1 - 15) == inject_Z (10 ^ 16) * ten (e - 15))%Q).
  { rewrite !ten_Z by lia. rewrite <- !ten_plus. replace (15 + (e + 1 - 15)) with (16 + (e - 15)) by lia. reflexivity. }
  rewrite <- Q0. exact R.
Qed.
