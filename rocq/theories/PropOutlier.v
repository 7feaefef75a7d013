(** Property theorems on outlier rejection: C36 and C37. *)
From Coq Require Import Reals.
From Verif Require Import Base Img Outlier SpecFile SpecOutlier.
From Verif Require OutlierLemmas OutlierLemmas2 OutlierLemmas3 OutlierLemmas4.
Open Scope Z_scope.

(** * C36 *)
Theorem C36_outlier_criterion : forall imlist wtlist nsigma A st h w,
  (0 <= nsigma)%R -> (0 <= A)%R -> 3 <= zlen imlist ->
  length wtlist = length imlist -> NoDup wtlist -> (forall a, In a imlist -> ~ In a wtlist) ->
  (forall a, In a imlist -> array_at st h w a) -> (forall b, In b wtlist -> array_at st h w b) ->
  exists st' n med L, reject_outliers imlist wtlist nsigma A st = (st', Ok n) /\
    length st' = length st /\ (forall a, ~ In a wtlist -> nth_error st' a = nth_error st a) /\
    img_ok med /\ nr med = h /\ nc med = w /\
    (forall r c m, px med r c = Some m ->
       exists vals, Forall2 (fun a x => at_px st a r c x) imlist vals /\ median_of vals m) /\
    (forall i a b im wt, nth_error imlist i = Some a -> nth_error wtlist i = Some b ->
       nth_error st a = Some im -> nth_error st b = Some wt ->
       exists wt', nth_error st' b = Some wt' /\
         pixelwise (fun r c v v' => forall m x, px med r c = Some m -> px im r c = Some x ->
           (outlier nsigma A m x v -> v' = 0%R) /\ (~ outlier nsigma A m x v -> v' = Rmax 0 v)) wt wt') /\
    NoDup L /\ n = zlen L /\
    (forall i r c, In (i, r, c) L <-> exists a b m x v, nth_error imlist i = Some a /\ nth_error wtlist i = Some b /\
       px med r c = Some m /\ at_px st a r c x /\ at_px st b r c v /\ outlier nsigma A m x v).
Proof. exact OutlierLemmas3.reject_ok. Qed.
Print Assumptions C36_outlier_criterion.

Theorem C36_fewer_than_three_images : forall imlist wtlist nsigma A st,
  zlen imlist < 3 -> reject_outliers imlist wtlist nsigma A st = (st, Ok 0).
Proof. exact OutlierLemmas3.reject_few. Qed.
Print Assumptions C36_fewer_than_three_images.

(** The median of the specification is unique. *)
Theorem C36_median_unique : forall l m m', median_of l m -> median_of l m' -> m = m'.
Proof. exact OutlierLemmas4.median_unique. Qed.
Print Assumptions C36_median_unique.

(** Three images of one pixel, one of them bad. *)
Example C36_example : let one x := mkImg 1 1 [x] in
  let st := [one 0%R; one 100%R; one 1%R; one 1%R; one 1%R; one (-1)%R] in
  reject_outliers [0%nat; 1%nat; 2%nat] [3%nat; 4%nat; 5%nat] 5 (3/10) st
    = ([one 0%R; one 100%R; one 1%R; one 1%R; one 0%R; one 0%R], Ok 1) /\
  (forall a, In a [0%nat; 1%nat; 2%nat] -> array_at st 1 1 a) /\ (forall b, In b [3%nat; 4%nat; 5%nat] -> array_at st 1 1 b).
Proof. exact OutlierLemmas4.example_three. Qed.

(** * C37 *)
Theorem C37_idempotent : forall imlist wtlist nsigma A st st1 n,
  Forall img_ok st -> (forall a, In a imlist -> ~ In a wtlist) ->
  reject_outliers imlist wtlist nsigma A st = (st1, Ok n) ->
  reject_outliers imlist wtlist nsigma A st1 = (st1, Ok 0).
Proof. exact OutlierLemmas2.reject_idempotent. Qed.
Print Assumptions C37_idempotent.

Example C37_example : let one x := mkImg 1 1 [x] in
  let st := [one 0%R; one 100%R; one 1%R; one 1%R; one 1%R; one (-1)%R] in
  Forall img_ok st /\ (forall a, In a [0%nat; 1%nat; 2%nat] -> ~ In a [3%nat; 4%nat; 5%nat]).
Proof. split; [repeat constructor; vm_compute; discriminate|]. intros a [<-|[<-|[<-|[]]]] [E|[E|[E|[]]]]; discriminate E. Qed.
