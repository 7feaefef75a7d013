(** Property theorems: outlier rejection with floating point numbers. *)
From Coq Require Import Qabs Qpower Qreals.
From Verif Require Import Base Img Typed SpecFile SpecTyped SpecOutlier OutlierFl SpecOutlierFl OutlierFlLemmas4.
From Verif Require OutlierFlLemmas3.
Open Scope Z_scope.

(** C126, the expectation: pixels far from the median lose their weight, whatever they
    hold.  False if one of the images is NaN there: neither the NaN nor the outlier of
    1000 sigma in another image is rejected. *)
Theorem C126_nan_refuted : exists ims wts, given 1 1 ims wts /\ column ims 0 0 [Fin 0; Fin 0; Fin 1000; Fin 0; NaN] /\
  forall di dw sq, exists wts', reject_outliers_fl di dw sq 5 (3#10) ims wts = Ok (wts', 0) /\
    weights_at wts wts' 4 0 0 (Fin 1) (Fin 1) /\ weights_at wts wts' 2 0 0 (Fin 1) (Fin 1).
Proof. exact nan_refuted_fl. Qed.
Print Assumptions C126_nan_refuted.

(** C126, the expectation: other pixels keep theirs.  False for large single precision
    pixels: a deviation of 2^64 with sigma 2^63 is rejected at 5 sigma. *)
Theorem C126_overflow_refuted : exists sq x w ims wts wts', sqrt_ok sq /\ is_float false x /\ is_float false w /\
  given 1 1 ims wts /\ column ims 0 0 [Fin 0; Fin x; Fin 0] /\ reject_outliers_fl false false sq 5 (3#10) ims wts = Ok (wts', 1) /\
  weights_at wts wts' 1 0 0 (Fin w) (Fin 0) /\ ~ beyond 1 5 (3#10) 0 (Fin x) w.
Proof. exact overflow_refuted_fl. Qed.
Print Assumptions C126_overflow_refuted.

(** C126, what holds: without NaN and with finite middle values, pixels beyond the limit
    by one part in 10^4 are rejected, infinite ones too, and pixels below it by as much
    are kept. *)
Theorem C126_criterion_partial : forall di dw sq n A h w ims wts wts' k,
  given h w ims wts -> reject_outliers_fl di dw sq n A ims wts = Ok (wts', k) ->
  forall r c vs, sqrt_ok sq -> column ims r c vs -> ~ In NaN vs -> exists a b, middle vs a b /\
  forall qa qb, a = Fin qa -> b = Fin qb -> (Qabs qa <= Qpower (2#1) 59)%Q -> (Qabs qb <= Qpower (2#1) 59)%Q -> exists m, mean_of qa qb m /\
  forall i x wv v', nth_error vs i = Some x -> weights_at wts wts' i r c (Fin wv) v' -> moderate n A m x wv ->
    (beyond (10001#10000) n A m x wv -> v' = Fin 0) /\ (~ beyond (9999#10000) n A m x wv -> v' = Fin wv).
Proof. exact criterion_fl. Qed.
Print Assumptions C126_criterion_partial.

(** The middle values are finite if more than half of the images are. *)
Theorem C126_median_finite : forall l a b, ~ In NaN l -> middle l a b ->
  2 * zlen (filter (fun x => negb (finite x)) l) < zlen l -> finite a = true /\ finite b = true.
Proof. exact OutlierFlLemmas3.middle_finite. Qed.
Print Assumptions C126_median_finite.

(** Five images of one pixel, one with 100 and one infinite. *)
Example C126_example : sqrt_ok ox_root /\
  let wts := repeat (ox_one (Fin 1)) 5 in let vs := [Fin 10; Fin (21#2); Fin 100; Fin 11; Inf false] in
  given 1 1 ox_good wts /\ column ox_good 0 0 vs /\ ~ In NaN vs /\ middle vs (Fin 11) (Fin 11) /\
  (let* r := reject_outliers_fl false false ox_root 5 (3#10) ox_good wts in Ok r) = Ok (map ox_one [Fin 1; Fin 1; Fin 0; Fin 1; Fin 0], 2) /\
  moderate 5 (3#10) 11 (Fin 100) 1 /\ moderate 5 (3#10) 11 (Inf false) 1 /\ moderate 5 (3#10) 11 (Fin 10) 1 /\
  beyond (10001#10000) 5 (3#10) 11 (Fin 100) 1 /\ beyond (10001#10000) 5 (3#10) 11 (Inf false) 1 /\ ~ beyond (9999#10000) 5 (3#10) 11 (Fin 10) 1.
Proof. split; [exact ox_root_ok|exact ox_good_ok]. Qed.

(** C126, exactly what NaN does: at that pixel nothing is rejected in any image. *)
Theorem C126_nan_partial : forall di dw sq n A h w ims wts wts' k,
  given h w ims wts -> reject_outliers_fl di dw sq n A ims wts = Ok (wts', k) ->
  forall r c vs i v v', column ims r c vs -> In NaN vs -> weights_at wts wts' i r c v v' -> clipped v v'.
Proof. exact nan_fl. Qed.
Print Assumptions C126_nan_partial.

(** C126, for all numbers: the call returns, a weight is kept (0 if negative) or, if it
    was positive, cleared, and the number returned is that of the cleared ones. *)
Theorem C126_total : forall di dw sq n A h w ims wts, given h w ims wts ->
  exists wts' k, reject_outliers_fl di dw sq n A ims wts = Ok (wts', k) /\ length wts' = length wts /\ all_shape h w wts'.
Proof. exact reject_total_fl. Qed.
Print Assumptions C126_total.

Theorem C126_weights : forall di dw sq n A h w ims wts wts' k,
  given h w ims wts -> reject_outliers_fl di dw sq n A ims wts = Ok (wts', k) ->
  forall i r c v v', weights_at wts wts' i r c v v' -> clipped v v' \/ (positive v /\ v' = Fin 0).
Proof. exact weights_fl. Qed.
Print Assumptions C126_weights.

Theorem C126_count : forall di dw sq n A h w ims wts wts' k,
  given h w ims wts -> reject_outliers_fl di dw sq n A ims wts = Ok (wts', k) ->
  exists L, NoDup L /\ k = zlen L /\ forall i r c, In (i, r, c) L <-> exists v, weights_at wts wts' i r c v (Fin 0) /\ positive v.
Proof. exact count_fl. Qed.
Print Assumptions C126_count.

Theorem C126_few : forall di dw sq n A ims wts, zlen ims < 3 -> reject_outliers_fl di dw sq n A ims wts = Ok (wts, 0).
Proof. exact reject_few_fl. Qed.
Print Assumptions C126_few.

(** Weights that are negative, NaN or infinite, and an image with -inf. *)
Example C126_weights_example :
  reject_outliers_fl false true ox_root 5 (3#10) (map ox_one [Fin 1; Fin 1000; Fin 2; Inf true])
    (map ox_one [Fin (-3); Fin 1; NaN; Inf false]) = Ok (map ox_one [Fin 0; Fin 0; NaN; Inf false], 1).
Proof. vm_compute. reflexivity. Qed.
