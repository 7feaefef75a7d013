(** C128: the checks of the comparator in floating point. *)
From Coq Require Import Qabs Qpower Lia.
From Verif Require Import Base Img Types Typed CompareFl SpecCompareFl CompareFlLemmas4 CompareFlLemmas5.
Open Scope Z_scope.

(** The image check is false of every pair of images that differ by more than the
    tolerance: refuted.  One pixel that is not a number hides all others. *)
Theorem C128_images_refuted : exists np im1 im2, adds_up 4 3 np /\ root_ok false (np_sqrt np) /\ shaped 2 2 im1 /\ shaped 2 2 im2 /\
  px im1 0 1 = Some (Fin 0) /\ px im2 0 1 = Some (Fin 1000) /\ compare_rms_fl np false (1#100) im1 im2 = Ok (true, NaN).
Proof. exact nan_passes. Qed.
Print Assumptions C128_images_refuted.

(** A file compared with itself passes the other two checks: refuted. *)
Theorem C128_self_refuted : exists im, shaped 2 2 im /\ compare_weights_fl false (1#10) im im = Ok 1 /\ compare_exact_fl im im = Err ValueError.
Proof. exact self_reported. Qed.
Print Assumptions C128_self_refuted.

(** Finite pixels: the outcome is that of the standard deviation of the exact differences,
    up to rounding, whatever the order of the additions. *)
Theorem C128_images_partial np d k tol B h w im1 im2 l :
  adds_up (h * w) k np -> root_ok d (np_sqrt np) -> 0 <= k -> (inject_Z (4 * k + 40) * eps d <= 1#4)%Q ->
  pair_of h w im1 im2 l -> h * w <= 2 ^ 40 ->
  (0 <= B <= Qpower (2#1) 38)%Q -> (forall x, In x (differences l) -> (Qabs x <= B)%Q) -> (0 <= tol <= Qpower (2#1) 100)%Q ->
  let e := (inject_Z (4 * k + 40) * eps d)%Q in
  exists ok s, compare_rms_fl np d tol im1 im2 = Ok (ok, Fin s) /\
    (ok = true -> (mean_square (differences l) <= (tol + e * (tol + B) + Qpower (2#1) (-60)) * (tol + e * (tol + B) + Qpower (2#1) (-60)))%Q) /\
    (ok = false -> forall sg, (0 <= sg)%Q -> (mean_square (differences l) <= sg * sg)%Q -> (tol <= sg + e * (sg + B) + Qpower (2#1) (-60))%Q).
Proof. exact (check_rms np d k tol B h w im1 im2 l). Qed.
Print Assumptions C128_images_partial.

(** A pixel that is NaN or infinite in either image makes the check pass. *)
Theorem C128_nan np d k tol h w im1 im2 r c x y : adds_up (h * w) k np -> np_sqrt np NaN = NaN ->
  shaped h w im1 -> shaped h w im2 -> px im1 r c = Some x -> px im2 r c = Some y -> number x && number y = false ->
  compare_rms_fl np d tol im1 im2 = Ok (true, NaN).
Proof. exact (check_nan np d k tol h w im1 im2 r c x y). Qed.
Print Assumptions C128_nan.

(** Equal finite images pass, with rms zero. *)
Theorem C128_equal np d k tol h w im1 im2 l : adds_up (h * w) k np -> root_ok d (np_sqrt np) -> pair_of h w im1 im2 l -> h * w <= 2 ^ 40 -> (0 <= tol <= Qpower (2#1) 100)%Q ->
  (forall a b, In (a, b) l -> (a == b)%Q) -> exists s, compare_rms_fl np d tol im1 im2 = Ok (true, Fin s) /\ (s == 0)%Q.
Proof. exact (check_equal np d k tol h w im1 im2 l). Qed.
Print Assumptions C128_equal.

(** Weights: every pixel that differs by the tolerance is counted, and only those up to
    rounding. *)
Theorem C128_weights_partial d tol h w im1 im2 l : pair_of h w im1 im2 l -> (forall x, In x (differences l) -> (Qabs x <= Qpower (2#1) 100)%Q) -> (0 <= tol <= Qpower (2#1) 100)%Q ->
  exists n, compare_weights_fl d tol im1 im2 = Ok n /\
    zlen (far tol (differences l)) <= n <= zlen (far (tol - 3 * eps d * tol - Qpower (2#1) (-140)) (differences l)).
Proof. exact (check_weights d tol h w im1 im2 l). Qed.
Print Assumptions C128_weights_partial.

(** Weights compared with themselves: the pixels that are not finite are reported. *)
Theorem C128_weights_self d tol h w im : shaped h w im -> (Qpower (2#1) (-140) <= tol <= Qpower (2#1) 100)%Q ->
  compare_weights_fl d tol im im = Ok (zlen (filter (fun x => negb (number x)) (dat im))).
Proof. exact (weights_self d tol h w im). Qed.
Print Assumptions C128_weights_self.

(** The exact comparison of float images. *)
Theorem C128_exact h w h' w' im1 im2 : shaped h w im1 -> shaped h' w' im2 ->
  compare_exact_fl im1 im2 = Ok tt <-> h = h' /\ w = w' /\ Forall2 same_value (dat im1) (dat im2).
Proof. exact (check_exact h w h' w' im1 im2). Qed.
Print Assumptions C128_exact.

(** Different shapes. *)
Theorem C128_shapes np d tol wtol h w h' w' im1 im2 : shaped h w im1 -> shaped h' w' im2 -> h <> h' \/ w <> w' ->
  compare_rms_fl np d tol im1 im2 = Err ValueError /\ compare_weights_fl d wtol im1 im2 = Err ValueError /\ compare_exact_fl im1 im2 = Err ValueError.
Proof. exact (check_shapes np d tol wtol h w h' w' im1 im2). Qed.
Print Assumptions C128_shapes.

(** * Examples *)

(** Four single precision pixels: the differences are 0, -1, 1/4 and 1. *)
Example C128_images_ex :
  let im1 := cx_image (map (fun p => Fin (fst p)) cx_pairs) in
  let im2 := cx_image (map (fun p => Fin (snd p)) cx_pairs) in
  adds_up (2 * 2) 3 cx_numpy /\ root_ok false (np_sqrt cx_numpy) /\ (inject_Z (4 * 3 + 40) * eps false <= 1#4)%Q /\
  pair_of 2 2 im1 im2 cx_pairs /\ (forall x, In x (differences cx_pairs) -> (Qabs x <= 1)%Q) /\
  (mean_square (differences cx_pairs) == 131#256)%Q /\
  (let* a := compare_rms_fl cx_numpy false (7#10) im1 im2 in
   let* b := compare_rms_fl cx_numpy false (3#4) im1 im2 in Ok (fst a, fst b)) = Ok (false, true).
Proof.
  split; [exact cx_adds|]. split; [apply cx_root_ok|]. split; [vm_compute; discriminate|]. split; [exact cx_pair|].
  split; [intros x Hx; repeat (destruct Hx as [<-|Hx]; [vm_compute; discriminate|]); destruct Hx|]. split; vm_compute; reflexivity.
Qed.
Example C128_nan_ex :
  let im1 := cx_image [Fin 1; Inf true; Fin 0; Fin 0] in let im2 := cx_image [Fin 7; Fin 3; Fin 0; Fin 0] in
  shaped 2 2 im1 /\ shaped 2 2 im2 /\ px im1 0 1 = Some (Inf true) /\ px im2 0 1 = Some (Fin 3) /\
  compare_rms_fl cx_numpy true (1#100) im1 im2 = Ok (true, NaN) /\
  compare_weights_fl true (1#10) im1 im2 = Ok 2 /\ compare_exact_fl im1 im2 = Err ValueError.
Proof. repeat split; vm_compute; reflexivity. Qed.
Example C128_equal_ex :
  let l := [(1#3, 2#6); (5%Q, 5%Q); (0%Q, 0%Q); (-1#7, -1#7)] in
  pair_of 2 2 (cx_image (map (fun p => Fin (fst p)) l)) (cx_image (map (fun p => Fin (snd p)) l)) l /\ (forall a b, In (a, b) l -> (a == b)%Q).
Proof.
  split; [repeat split; reflexivity|]. intros a b H. repeat (destruct H as [[= <- <-]|H]; [vm_compute; reflexivity|]). destruct H.
Qed.
Example C128_weights_ex :
  let im1 := cx_image (map (fun p => Fin (fst p)) cx_pairs) in
  let im2 := cx_image (map (fun p => Fin (snd p)) cx_pairs) in
  far 1 (differences cx_pairs) = [(2 - 3)%Q; (100 - 99)%Q] /\ compare_weights_fl false 1 im1 im2 = Ok 2.
Proof. split; vm_compute; reflexivity. Qed.
Example C128_weights_self_ex : let im := cx_image [NaN; Fin 2; Inf true; Fin 0] in
  shaped 2 2 im /\ compare_weights_fl true (1#1000) im im = Ok 2.
Proof. repeat split; vm_compute; reflexivity. Qed.
Example C128_exact_ex : let im := cx_image [Inf false; Fin (2#4); Inf true; Fin 0] in let im' := cx_image [Inf false; Fin (1#2); Inf true; Fin 0] in
  shaped 2 2 im /\ shaped 2 2 im' /\ compare_exact_fl im im' = Ok tt /\ compare_exact_fl im (cx_image [Inf true; Fin (2#4); Inf true; Fin 0]) = Err ValueError.
Proof. repeat split; vm_compute; reflexivity. Qed.
