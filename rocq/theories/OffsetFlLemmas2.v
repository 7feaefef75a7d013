(** Conversion of positions in floating point: one number. *)
From Coq Require Import Lia ZifyBool ZifyNat Lqa Qabs Qpower.
From Verif Require Import Base BaseLemmas Img Types BoundsM MakerLayout Single SingleLemmas CompositeLemmas Typed SpecTyped TypedLemmas TypedLemmas3 FlMonoLemmas
  LayoutFl SpecLayoutFl LayoutFlLemmas LayoutFlLemmas2 OffsetFl SpecOffsetFl OffsetFlLemmas.
Open Scope Z_scope.

Lemma sub_exact a b : is_float true (a - b) -> exists v, fsub true (Fin a) (Fin b) = Fin v /\ (v == a - b)%Q.
Proof. intros H. cbn [fsub]. apply fround_exact. exact H. Qed.
Lemma add_exact a b : is_float true (a + b) -> exists v, fadd true (Fin a) (Fin b) = Fin v /\ (v == a + b)%Q.
Proof.
  intros H. unfold fadd. cbn [fneg fsub]. destruct (fround_exact true (a - - b)) as (v & E & F).
  - apply (is_float_compat true (a + b)); [ring|exact H].
  - exists v. split; [exact E|]. rewrite F. ring.
Qed.

(** Doubles, offset 0 or 1. *)
Lemma usual_trip o q : (o == 0 \/ o == 1)%Q -> is_float true q -> (1 # 2 <= q <= 4294967296)%Q ->
  exists z w, conv true false (Fin o) (Fin q) = Fin z /\ (z == q - o)%Q /\ conv true true (Fin o) (Fin z) = Fin w /\ (w == q)%Q.
Proof.
  intros Ho Fq B. assert (Fo : exists o', fcast true (Fin o) = Fin o' /\ (o' == o)%Q).
  { cbn [fcast]. apply fround_exact. destruct Ho as [Ho|Ho]; [apply (float_of_int 0)|apply (float_of_int 1)]; auto; cbn; lia. }
  destruct Fo as (o' & Eo & Vo). unfold conv. rewrite Eo.
  assert (Ho' : (o' == 0 \/ o' == 1)%Q) by (rewrite Vo; exact Ho).
  destruct (sub_exact q o') as (z & Ez & Vz); [apply usual_float; assumption|]. exists z.
  destruct (add_exact z o') as (w & Ew & Vw).
  { apply (is_float_compat true q); [rewrite Vz; ring|exact Fq]. }
  exists w. split; [exact Ez|]. split; [rewrite Vz, Vo; reflexivity|]. split; [exact Ew|]. rewrite Vw, Vz. ring.
Qed.

(** Multiples of 2^-20. *)
Lemma coarse_add x y : coarse x -> coarse y -> coarse (x + y).
Proof. intros (m & E) (n & F). exists (m + n). rewrite E, F, inject_Z_plus. field. discriminate. Qed.
Lemma coarse_trip inv o q : coarse o -> coarse q -> (Qabs o <= 1073741824)%Q -> (Qabs q <= 1073741824)%Q ->
  exists z w, conv true inv (Fin o) (Fin q) = Fin z /\ (z == if inv then q + o else q - o)%Q /\ conv true (negb inv) (Fin o) (Fin z) = Fin w /\ (w == q)%Q.
Proof.
  intros Co Cq Bo Bq. apply Qabs_Qle_condition in Bo, Bq.
  assert (Fo : exists o', fcast true (Fin o) = Fin o' /\ (o' == o)%Q).
  { cbn [fcast]. apply fround_exact, coarse_float; [exact Co|apply Qabs_Qle_condition; lra]. }
  destruct Fo as (o' & Eo & Vo). assert (Co' : coarse o') by (apply (coarse_eq o); [symmetry; exact Vo|exact Co]). unfold conv. rewrite Eo.
  destruct inv; cbn [negb].
  - destruct (add_exact q o') as (z & Ez & Vz); [apply coarse_float; [apply coarse_add; assumption|apply Qabs_Qle_condition; lra]|]. exists z.
    destruct (sub_exact z o') as (w & Ew & Vw).
    { apply (is_float_compat true q); [rewrite Vz; ring|apply coarse_float; [exact Cq|apply Qabs_Qle_condition; lra]]. }
    exists w. rewrite Ew. repeat split; auto; [rewrite Vz, Vo; reflexivity|rewrite Vw, Vz; ring].
  - destruct (sub_exact q o') as (z & Ez & Vz); [apply coarse_float; [apply coarse_sub; assumption|apply Qabs_Qle_condition; lra]|]. exists z.
    destruct (add_exact z o') as (w & Ew & Vw).
    { apply (is_float_compat true q); [rewrite Vz; ring|apply coarse_float; [exact Cq|apply Qabs_Qle_condition; lra]]. }
    exists w. rewrite Ew. repeat split; auto; [rewrite Vz, Vo; reflexivity|rewrite Vw, Vz; ring].
Qed.

(** Error of one rounding in absolute terms. *)
Definition unit (d : bool) : Q := if d then 1 # 9007199254740992 else 1 # 16777216.
Lemma round_abs d x B : (Qabs x <= B)%Q -> (B <= two 100)%Q -> exists v, fround d x = Fin v /\ (x - unit d * B - two (-140) <= v <= x + unit d * B + two (-140))%Q.
Proof.
  intros H HB. destruct (fround_fin d x) as (v & E).
  { eapply Qle_trans; [exact H|]. eapply Qle_trans; [exact HB|]. apply two_le. lia. }
  exists v. split; [exact E|]. pose proof (fround_err d x v E) as A. apply Qabs_Qle_condition in A.
  assert (U : (two (- f_prec d) == unit d)%Q) by (destruct d; reflexivity).
  assert (T : (two (- f_low d - 1) <= two (-140))%Q) by (apply two_le; pose proof (f_low_ge d); lia).
  assert (M : (two (- f_prec d) * Qabs x <= unit d * B)%Q).
  { rewrite U. rewrite (Qmult_comm _ (Qabs x)), (Qmult_comm _ B). apply Qmult_le_r; [destruct d; reflexivity|exact H]. }
  lra.
Qed.
Lemma add_abs d x y B : (Qabs (x + y) <= B)%Q -> (B <= two 100)%Q -> exists v, fadd d (Fin x) (Fin y) = Fin v /\ (x + y - unit d * B - two (-140) <= v <= x + y + unit d * B + two (-140))%Q.
Proof.
  intros H HB. unfold fadd. cbn [fneg fsub]. assert (E : (x - - y == x + y)%Q) by ring.
  destruct (round_abs d (x - - y) B) as (v & F & G); [rewrite E; exact H|exact HB|]. exists v. split; [exact F|lra].
Qed.

Lemma error_trip d inv B o q : (0 <= B <= two 90)%Q -> (Qabs o <= B)%Q -> (Qabs q <= B)%Q ->
  exists z w, conv d inv (Fin o) (Fin q) = Fin z /\ (Qabs (z - if inv then q + o else q - o) <= 4 * unit d * B + two (-130))%Q /\
    conv true (negb inv) (Fin o) (Fin z) = Fin w /\ (Qabs (w - q) <= 8 * unit d * B + two (-130))%Q.
Proof.
  intros HB Ho Hq. pose proof Ho as Ho0. apply Qabs_Qle_condition in Ho, Hq.
  assert (BB : (8 * two 90 + 8 <= two 100)%Q) by (vm_compute; discriminate).
  assert (T : (two (-130) == 1024 * two (-140))%Q) by reflexivity. assert (TP : (0 < two (-140))%Q) by reflexivity. assert (TL : (1024 * two (-140) <= 1)%Q) by (vm_compute; discriminate).
  assert (UB : (0 <= unit d * B /\ unit d * B * 16777216 <= B)%Q) by (destruct d; unfold unit; lra).
  assert (UT : (0 <= unit d * two (-140) <= two (-140))%Q) by (destruct d; vm_compute; split; discriminate).
  assert (UU : (0 <= unit d * (unit d * B) /\ unit d * (unit d * B) * 16777216 <= unit d * B)%Q) by (destruct d; unfold unit; lra).
  assert (U1 : (unit true * B <= unit d * B)%Q) by (destruct d; unfold unit; lra).
  assert (U2 : (unit true * (unit d * B) <= unit d * (unit d * B))%Q) by (destruct d; unfold unit; lra).
  assert (U3 : (0 <= unit true * two (-140) <= two (-140))%Q) by (vm_compute; split; discriminate).
  assert (U0 : (0 <= unit true * B)%Q) by (unfold unit; lra).
  destruct (round_abs d o B Ho0) as (o1 & E1 & V1); [lra|].
  destruct (round_abs true o B Ho0) as (o2 & E2 & V2); [lra|].
  unfold conv. cbn [fcast]. rewrite E1, E2.
  set (C := (2 * B + unit d * B + two (-140))%Q).
  set (D := (3 * B + 8 * (unit d * B) + 8 * two (-140))%Q).
  assert (UC : (unit d * C == 2 * (unit d * B) + unit d * (unit d * B) + unit d * two (-140))%Q) by (unfold C; ring).
  assert (UD : (unit true * D == 3 * (unit true * B) + 8 * (unit true * (unit d * B)) + 8 * (unit true * two (-140)))%Q) by (unfold D; ring).
  assert (CC : (C <= two 100)%Q) by (unfold C; lra). assert (DD : (D <= two 100)%Q) by (unfold D; lra).
  destruct inv; cbn [negb].
  - destruct (add_abs d q o1 C) as (z & Ez & Vz); [apply Qabs_Qle_condition; unfold C; lra|exact CC|]. exists z. cbn [fsub].
    destruct (round_abs true (z - o2) D) as (w & Ew & Vw); [apply Qabs_Qle_condition; unfold D; lra|exact DD|]. exists w.
    split; [exact Ez|]. split; [apply Qabs_Qle_condition; lra|]. split; [exact Ew|]. apply Qabs_Qle_condition. lra.
  - cbn [fsub]. destruct (round_abs d (q - o1) C) as (z & Ez & Vz); [apply Qabs_Qle_condition; unfold C; lra|exact CC|]. exists z.
    destruct (add_abs true z o2 D) as (w & Ew & Vw); [apply Qabs_Qle_condition; unfold D; lra|exact DD|]. exists w.
    split; [exact Ez|]. split; [apply Qabs_Qle_condition; lra|]. split; [exact Ew|]. apply Qabs_Qle_condition. lra.
Qed.
