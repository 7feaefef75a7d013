(** Conversion of positions in floating point: arrays. *)
From Coq Require Import Lia ZifyBool ZifyNat Lqa Qabs Qpower.
From Verif Require Import Base BaseLemmas Img Types Typed SpecTyped LayoutFl SpecLayoutFl OffsetFl SpecOffsetFl OffsetFlLemmas OffsetFlLemmas2.
Open Scope Z_scope.

Lemma same_pos_of p q : same_fl (fw_row p) (fw_row q) -> same_fl (fw_col p) (fw_col q) -> same_fl (fz_row p) (fz_row q) -> same_fl (fz_col p) (fz_col q) -> same_pos p q.
Proof. unfold same_pos. auto. Qed.
Lemma within_pos_of e p q : within e (fw_row p) (fw_row q) -> within e (fw_col p) (fw_col q) -> within e (fz_row p) (fz_row q) -> within e (fz_col p) (fz_col q) -> within_pos e p q.
Proof. unfold within_pos. auto. Qed.
Lemma same_refl x : same_fl x x. Proof. destruct x; cbn; auto. reflexivity. Qed.

Theorem usual_round o row col : (o == 0 \/ o == 1)%Q -> zlen col = zlen row -> Forall usual_position row -> Forall usual_position col ->
  exists l l', positions_fl true row col (Fin o) false = Ok l /\ positions_fl true (map fz_row l) (map fz_col l) (Fin o) true = Ok l' /\ Forall2 same_pos l l'.
Proof.
  intros Ho H Pr Pc. apply (trip true false (Fin o) usual_position same_fl same_pos same_pos_of); auto.
  - intros x (q & -> & F & B). destruct (usual_trip o q Ho F B) as (z & w & Ez & Vz & Ew & Vw). cbn [negb]. rewrite Ez, Ew. cbn [same_fl]. symmetry. exact Vw.
  - intros x _. apply same_refl.
Qed.

Theorem coarse_round inv o row col : coarse_position o -> zlen col = zlen row -> Forall coarse_position row -> Forall coarse_position col ->
  exists l l', positions_fl true row col o inv = Ok l /\
    (if inv then positions_fl true (map fw_row l) (map fw_col l) o false else positions_fl true (map fz_row l) (map fz_col l) o true) = Ok l' /\ Forall2 same_pos l l'.
Proof.
  intros (o0 & mo & -> & Eo & Bo) H Pr Pc. apply (trip true inv (Fin o0) coarse_position same_fl same_pos same_pos_of); auto.
  - intros x (q & m & -> & F & B). destruct (coarse_trip inv o0 q) as (z & w & Ez & Vz & Ew & Vw); [exists mo; exact Eo|exists m; exact F|exact Bo|exact B|].
    rewrite Ez, Ew. cbn [same_fl]. symmetry. exact Vw.
  - intros x _. apply same_refl.
Qed.

Lemma unit_two d : (unit d == Qpower (2#1) (if d then -53 else -24))%Q. Proof. destruct d; reflexivity. Qed.
Theorem near_round d inv B o row col : (0 <= B <= Qpower (2#1) 90)%Q -> position_upto B o -> zlen col = zlen row ->
  Forall (position_upto B) row -> Forall (position_upto B) col ->
  exists l l', positions_fl d row col o inv = Ok l /\
    (if inv then positions_fl true (map fw_row l) (map fw_col l) o false else positions_fl true (map fz_row l) (map fz_col l) o true) = Ok l' /\
    Forall2 (within_pos (8 * Qpower (2#1) (if d then -53 else -24) * B + Qpower (2#1) (-130))) l l'.
Proof.
  intros HB (o0 & -> & _ & Bo) H Pr Pc.
  apply (trip d inv (Fin o0) (position_upto B) (within (8 * Qpower (2#1) (if d then -53 else -24) * B + Qpower (2#1) (-130)))
           (within_pos (8 * Qpower (2#1) (if d then -53 else -24) * B + Qpower (2#1) (-130))) (within_pos_of _)); auto.
  - intros x (q & -> & F & Bq). destruct (error_trip d inv B o0 q HB Bo Bq) as (z & w & Ez & Vz & Ew & Vw). rewrite Ez, Ew.
    exists q, w. split; [reflexivity|]. split; [reflexivity|]. rewrite <- unit_two, Qabs_Qminus. exact Vw.
  - intros x (q & -> & F & Bq). destruct (error_trip d inv B o0 q HB Bo Bq) as (z & w & Ez & Vz & Ew & Vw). rewrite Ez.
    exists z, z. split; [reflexivity|]. split; [reflexivity|]. setoid_replace (z - z)%Q with 0%Q by ring. rewrite <- unit_two. apply Qle_trans with (0 + 0)%Q; [discriminate|].
    apply Qplus_le_compat; [|discriminate]. destruct d; unfold unit; lra.
Qed.

(** The difference between the two positions of an element is the offset. *)
Lemma f2_zip (f g : fpos -> fl) l (R : fl -> fl -> Prop) : Forall2 R (map f l) (map g l) -> Forall (fun p => R (f p) (g p)) l.
Proof. induction l as [|p l IH]; cbn [map]; intros H; [constructor|]. inversion H; subst. constructor; auto. Qed.
Theorem differ_by d inv B o row col : (0 <= B <= Qpower (2#1) 90)%Q -> position_upto B (Fin o) -> zlen col = zlen row ->
  Forall (position_upto B) row -> Forall (position_upto B) col ->
  exists l, positions_fl d row col (Fin o) inv = Ok l /\
    Forall (fun p => apart (4 * Qpower (2#1) (if d then -53 else -24) * B + Qpower (2#1) (-130)) o (fw_row p) (fz_row p) /\
                     apart (4 * Qpower (2#1) (if d then -53 else -24) * B + Qpower (2#1) (-130)) o (fw_col p) (fz_col p)) l.
Proof.
  intros HB (o0 & E0 & _ & Bo) H Pr Pc. injection E0 as <-. destruct (fields d row col (Fin o) inv H) as (l & E & F). exists l. split; [exact E|].
  set (e := (4 * Qpower (2#1) (if d then -53 else -24) * B + Qpower (2#1) (-130))%Q).
  assert (K : forall x, Forall (position_upto B) x -> if inv then Forall2 (apart e o) (map (conv d inv (Fin o)) x) x else Forall2 (apart e o) x (map (conv d inv (Fin o)) x)).
  { intros x Hx. induction Hx as [|y x (q & -> & Fq & Bq) Hx IH]; [destruct inv; constructor|].
    destruct (error_trip d inv B o q HB Bo Bq) as (z & w & Ez & Vz & _ & _). rewrite unit_two in Vz. fold e in Vz. cbn [map]. rewrite Ez.
    destruct inv; (constructor; [|exact IH]).
    - exists z, q. split; [reflexivity|]. split; [reflexivity|]. setoid_replace (z - q - o)%Q with (z - (q + o))%Q by ring. exact Vz.
    - exists q, z. split; [reflexivity|]. split; [reflexivity|]. setoid_replace (q - z - o)%Q with (- (z - (q - o)))%Q by ring. rewrite Qabs_opp. exact Vz. }
  pose proof (K row Pr) as Kr. pose proof (K col Pc) as Kc.
  assert (A : Forall (fun p => apart e o (fw_row p) (fz_row p)) l /\ Forall (fun p => apart e o (fw_col p) (fz_col p)) l).
  { destruct inv; destruct F as (F1 & F2 & F3 & F4); split; apply f2_zip.
    - rewrite F3, F1. exact Kr.
    - rewrite F4, F2. exact Kc.
    - rewrite F1, F3. exact Kr.
    - rewrite F2, F4. exact Kc. }
  destruct A as (A1 & A2). rewrite Forall_forall in *. intros p Hp. auto.
Qed.

(** Not a number and infinities. *)
Theorem not_finite d inv o row col l p : zlen col = zlen row -> positions_fl d row col (Fin o) inv = Ok l -> (Qabs o <= 1073741824)%Q -> In p l ->
  (fw_row p = NaN <-> fz_row p = NaN) /\ (fw_col p = NaN <-> fz_col p = NaN).
Proof.
  intros H E Bo Hp. destruct (fields d row col (Fin o) inv H) as (l' & E' & F). rewrite E in E'. injection E' as <-.
  destruct (TypedLemmas.fround_spec d o) as (o' & Eo & _).
  { eapply Qle_trans; [exact Bo|]. vm_compute. discriminate. }
  assert (NF : forall x, fround d x <> NaN).
  { intros x. unfold fround. cbv zeta. repeat match goal with |- context [if ?c then _ else _] => destruct c end; discriminate. }
  assert (K : forall x, conv d inv (Fin o) x = NaN <-> x = NaN).
  { intros x. unfold conv. cbn [fcast]. rewrite Eo. destruct inv, x; unfold fadd; cbn [fneg fsub]; split; intros W; try discriminate; auto; exfalso; eapply NF; exact W. }
  assert (M : forall (f g : fpos -> fl) x y, map f l = map y x -> map g l = x -> (forall a, y a = NaN <-> a = NaN) -> (f p = NaN <-> g p = NaN)).
  { clear -Hp. intros f g x y A B C. revert x A B. induction l as [|q l IH]; [destruct Hp|]. intros [|a x]; [discriminate|]. cbn [map]. intros [= A1 A2] [= B1 B2].
    destruct Hp as [->|Hp]; [rewrite A1, B1; apply C|]. apply (IH Hp x); auto. }
  destruct inv; destruct F as (F1 & F2 & F3 & F4).
  - split; [apply (M _ _ row (conv d true (Fin o)))|apply (M _ _ col (conv d true (Fin o)))]; auto.
  - split; symmetry; [apply (M _ _ row (conv d false (Fin o)))|apply (M _ _ col (conv d false (Fin o)))]; auto.
Qed.

(** * Counterexamples *)
Definition tenth : Q := 3602879701896397 # 36028797018963968.
Theorem zero_based_lost : exists z o, is_float true z /\ (1 # 16 <= z <= 1)%Q /\ o = 1%Q /\
  exists l l', positions_fl true [Fin z] [Fin z] (Fin o) true = Ok l /\ positions_fl true (map fw_row l) (map fw_col l) (Fin o) false = Ok l' /\ ~ Forall2 same_pos l l'.
Proof.
  exists tenth, 1%Q. split.
  { exists 3602879701896397, (-55). split; [reflexivity|]. split; [lia|]. split; [lia|]. vm_compute. reflexivity. }
  split; [split; vm_compute; discriminate|]. split; [reflexivity|]. eexists. eexists.
  split; [vm_compute; reflexivity|]. split; [vm_compute; reflexivity|]. intros H. inversion H as [|p q l l' (_ & _ & A & _)]; subst. cbn in A. revert A. vm_compute. discriminate.
Qed.
Theorem wcs_lost : exists x o, is_float true x /\ (0 < x <= 1 # 2)%Q /\ o = 1%Q /\
  exists l l', positions_fl true [Fin x] [Fin x] (Fin o) false = Ok l /\ positions_fl true (map fz_row l) (map fz_col l) (Fin o) true = Ok l' /\ ~ Forall2 same_pos l l'.
Proof.
  exists tenth, 1%Q. split.
  { exists 3602879701896397, (-55). split; [reflexivity|]. split; [lia|]. split; [lia|]. vm_compute. reflexivity. }
  split; [split; vm_compute; [reflexivity|discriminate]|]. split; [reflexivity|]. eexists. eexists.
  split; [vm_compute; reflexivity|]. split; [vm_compute; reflexivity|]. intros H. inversion H as [|p q l l' (A & _ & _ & _)]; subst. cbn in A. revert A. vm_compute. discriminate.
Qed.
