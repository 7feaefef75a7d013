(** Property theorems on the box sizes of make-meds-input in doubles and ints: C132. *)
From Coq Require Import Qabs Qpower.
From Verif Require Import Base Img Types Typed SpecTyped CLib CProg SpecCLib SpecCProg BoxFl SpecBoxFl.
From Verif Require BoxFlLemmas.
Open Scope Z_scope.

(** * C132: box sizes of make-meds-input as computed *)

(** The box is the right one for a flux radius that differs in the last digits. *)
Theorem C132_box_partial : forall r0 r1 c0 c1 fr a b mn mx, pixel_ok r0 -> pixel_ok r1 -> pixel_ok c0 -> pixel_ok c1 ->
  (0 <= fr <= 100000000)%Q -> (0 < a)%Q -> (0 <= b <= a)%Q ->
  forall y x, exists n fr', input_box_fl r0 r1 c0 c1 (Fin fr) (Fin a) (Fin b) mn mx = Ok n /\ about fr fr' /\
    box_for (mkSecat y x r0 r1 c0 c1 fr' a b) mn mx n.
Proof. exact BoxFlLemmas.box_backward. Qed.
Print Assumptions C132_box_partial.

(** It is the right one when the radius needed is not next to an integer. *)
Theorem C132_same_partial : forall r0 r1 c0 c1 fr a b mn mx, pixel_ok r0 -> pixel_ok r1 -> pixel_ok c0 -> pixel_ok c1 ->
  (0 <= fr <= 100000000)%Q -> (0 < a)%Q -> (0 <= b <= a)%Q -> (forall n, ~ about (radius fr a b) (inject_Z n)) ->
  forall y x, exists n, input_box_fl r0 r1 c0 c1 (Fin fr) (Fin a) (Fin b) mn mx = Ok n /\
    box_for (mkSecat y x r0 r1 c0 c1 fr a b) mn mx n.
Proof. exact BoxFlLemmas.box_same. Qed.
Print Assumptions C132_same_partial.

Example C132_same_example : (forall n, ~ about (radius 3 2 1) (inject_Z n)) /\
  input_box_fl 100 139 10 30 (Fin 3) (Fin 2) (Fin 1) 32 256 = Ok 48 /\
  input_box_fl 100 139 10 30 (Fin 30) (Fin 2) (Fin 1) 32 256 = Ok 256.
Proof.
  split; [|split; vm_compute; reflexivity]. intros n. apply BoxFlLemmas.between with (lo := 19); [vm_compute; discriminate..|split; vm_compute; discriminate].
Qed.

(** It need not hold what it should: a radius of 24 pixels and a little more gets a
    box of 48 pixels. *)
Theorem C132_covers_refuted : exists r0 r1 c0 c1 fr a b mn mx n, is_float true fr /\ is_float true a /\ is_float true b /\
  pixel_ok r0 /\ pixel_ok r1 /\ pixel_ok c0 /\ pixel_ok c1 /\ (0 <= fr <= 100)%Q /\ (0 < a)%Q /\ (0 <= b <= a)%Q /\
  input_box_fl r0 r1 c0 c1 (Fin fr) (Fin a) (Fin b) mn mx = Ok n /\ (inject_Z n < 2 * radius fr a b)%Q /\
  forall y x, ~ box_for (mkSecat y x r0 r1 c0 c1 fr a b) mn mx n.
Proof.
  exists 1, 20, 1, 20, (6363100006395575 # 1125899906842624), 1%Q, 1%Q, 16, 100, 48.
  split; [exists 6363100006395575, (-50); split; [reflexivity|]; repeat split; vm_compute; congruence|].
  assert (I : is_float true 1) by (exists 1, 0; split; [reflexivity|]; repeat split; vm_compute; congruence).
  split; [exact I|]. split; [exact I|]. do 4 (split; [split; reflexivity|]). split; [split; discriminate|]. split; [reflexivity|]. split; [split; discriminate|].
  split; [vm_compute; reflexivity|]. split; [vm_compute; reflexivity|].
  intros y x. apply BoxFlLemmas.too_small; [reflexivity|discriminate|vm_compute; reflexivity].
Qed.
Print Assumptions C132_covers_refuted.

(** An object with A_WORLD 0 has no box: the conversion to int is not defined. *)
Theorem C132_no_axis_partial : forall r0 r1 c0 c1 fr a b mn mx, (a == 0)%Q ->
  exists e, input_box_fl r0 r1 c0 c1 fr (Fin a) b mn mx = Err e.
Proof. exact BoxFlLemmas.no_axis. Qed.
Print Assumptions C132_no_axis_partial.

Example C132_no_axis_example : input_box_fl 1 20 1 20 (Fin 3) (Fin 0) (Fin 1) 16 100 = Err OverflowError /\
  input_box_fl 1 20 1 20 NaN (Fin 1) (Fin 1) 16 100 = Err OverflowError /\
  input_box_fl 1 20 1 20 (Fin 10000000000) (Fin 1) (Fin 1) 16 100 = Err OverflowError.
Proof. repeat split; vm_compute; reflexivity. Qed.
