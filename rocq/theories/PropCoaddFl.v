(** Property theorems: weights and mask checks of the coadder in floating point. *)
From Coq Require Import Qabs.
From Verif Require Import Base Img Types Coadd Typed LayoutFl SpecCoadd SpecOutlierFl OutlierFl CoaddFl SpecCoaddFl CoaddFlLemmas CoaddFlLemmas2.
Open Scope Z_scope.

(** C127, the expectation: every cutout that is coadded has positive weights only.  False
    if a weight outside the central region is NaN: it is kept, and so are the pixels
    without weight given NaN. *)
Theorem C127_positive_refuted : exists c limit wt bm wt', img_ok wt /\ img_ok bm /\ nr bm = nr wt /\ nc bm = nc wt /\
  (forall v, In v (dat wt) -> double v) /\ epoch_weights_fl c limit wt bm = Ok (Used wt') /\
  exists r k q, px wt r k = Some (Fin q) /\ px bm r k = Some 0 /\ px wt' r k = Some NaN.
Proof. exact positive_refuted_fl. Qed.
Print Assumptions C127_positive_refuted.

(** C127: without NaN the weights of a coadded cutout are positive; usable ones are kept
    and all others get one value between two of them. *)
Theorem C127_positive_partial : forall c limit wt bm wt', img_ok wt -> img_ok bm -> nr bm = nr wt -> nc bm = nc wt ->
  (forall v, In v (dat wt) -> double v /\ v <> NaN) -> epoch_weights_fl c limit wt bm = Ok (Used wt') ->
  exists wt1 bm1, decided_on_fl c wt bm wt1 bm1 /\ filled (total_mask (c_bmask_flags c)) wt1 bm1 wt' /\
    forall r k v, px wt' r k = Some v -> positive v.
Proof. exact positive_fl. Qed.
Print Assumptions C127_positive_partial.

(** The weight 0 at (0, 0) and the flagged pixel at (0, 3) get the median of the others, 2;
    the infinite weight at (3, 3) is kept. *)
Example C127_positive_example :
  (forall v, In v (dat (ex_wt (Inf false))) -> double v /\ v <> NaN) /\
  ex_used (ex_cfl false) (ex_wt (Inf false)) =
    Ok [Fin 2; Fin 1; Fin 2; Fin 2; Fin 1; Fin 1; Fin 2; Fin 2; Fin 1; Fin 4; Fin 4; Fin 2; Fin 1; Fin 4; Fin 4; Inf false].
Proof.
  split; [|vm_compute; reflexivity].
  cbn [dat ex_wt In]. intros v H. repeat (destruct H as [<-|H]; [split; [try exact I; cbn [double]; eexists; (split; [vm_compute; reflexivity|reflexivity])|discriminate]|]). destruct H.
Qed.

(** Symmetrising first: (3, 0) loses its weight because of (0, 0), and gets the median. *)
Example C127_symmetric_example :
  ex_used (ex_cfl true) (ex_wt (Fin 1)) =
    Ok [Fin 2; Fin 1; Fin 2; Fin 2; Fin 1; Fin 1; Fin 2; Fin 2; Fin 1; Fin 4; Fin 4; Fin 2; Fin 2; Fin 4; Fin 4; Fin 1].
Proof. vm_compute. reflexivity. Qed.

(** C127: one unflagged NaN and every pixel that is not usable gets NaN. *)
Theorem C127_nan : forall c limit wt bm wt', img_ok wt -> img_ok bm -> nr bm = nr wt -> nc bm = nc wt ->
  epoch_weights_fl c limit wt bm = Ok (Used wt') ->
  exists wt1 bm1, decided_on_fl c wt bm wt1 bm1 /\
    forall r k b, px wt1 r k = Some NaN -> px bm1 r k = Some b -> ~ flagged (total_mask (c_bmask_flags c)) b ->
      px wt' r k = Some NaN /\
      forall r2 k2 v, px wt1 r2 k2 = Some v -> v <> NaN -> ~ usable_fl (total_mask (c_bmask_flags c)) wt1 bm1 r2 k2 v ->
        px wt' r2 k2 = Some NaN.
Proof. exact nan_fl. Qed.
Print Assumptions C127_nan.

Example C127_nan_example :
  ex_used (ex_cfl false) (ex_wt NaN) =
    Ok [NaN; Fin 1; Fin 2; NaN; Fin 1; Fin 1; Fin 2; Fin 2; Fin 1; Fin 4; Fin 4; Fin 2; Fin 1; Fin 4; Fin 4; NaN].
Proof. vm_compute. reflexivity. Qed.

(** C127: in double precision, too, the masked fraction is above the limit exactly if
    more than p in q pixels are masked. *)
Theorem C127_fraction : forall c bm wt p q, img_ok wt -> img_ok bm -> nr bm = nr wt -> nc bm = nc wt -> 0 < nr wt -> 0 < nc wt ->
  0 <= p <= q -> 0 < q -> q * (nr wt * nc wt) <= 2 ^ 50 ->
  exists v, get_mask_frac_fl c bm wt = Ok v /\ (fl_ltb (fround true (inject_Z p / inject_Z q)) v = true <-> above c wt bm p q).
Proof. exact fraction_fl. Qed.
Print Assumptions C127_fraction.

(** 6 of 20 pixels are not more than 3 in 10, 7 are. *)
Example C127_fraction_example :
  (let* v := get_mask_frac_fl (ex_cfl false) (ex_masked 6) ex_ones in Ok (fl_ltb ex_limit v)) = Ok false /\
  (let* v := get_mask_frac_fl (ex_cfl false) (ex_masked 7) ex_ones in Ok (fl_ltb ex_limit v)) = Ok true.
Proof. split; vm_compute; reflexivity. Qed.

(** C127: a cutout is left out with the flag of the first reason and used if there is
    none. *)
Theorem C127_flags : forall c wt bm p q r, img_ok wt -> img_ok bm -> nr bm = nr wt -> nc bm = nc wt -> 0 < nr wt -> 0 < nc wt ->
  0 <= p <= q -> 0 < q -> q * (nr wt * nc wt) <= 2 ^ 50 ->
  epoch_weights_fl c (fround true (inject_Z p / inject_Z q)) wt bm = Ok r ->
  exists wt1 bm1, decided_on_fl c wt bm wt1 bm1 /\
    match r with
    | Left_out flag => flag <> 0 /\ reason_fl c (above c wt1 bm1 p q) wt1 bm1 flag
    | Used _ => reason_fl c (above c wt1 bm1 p q) wt1 bm1 0
    end.
Proof. exact epoch_flags. Qed.
Print Assumptions C127_flags.

(** An infinite weight is as good as a finite one, NaN in the central region is not. *)
Example C127_flags_example :
  epoch_weights_fl (ex_cfl false) ex_limit (imap (fun _ => NaN) (ex_wt NaN)) ex_bm = Ok (Left_out 8) /\
  epoch_weights_fl (ex_cfl false) ex_limit (imap (fun _ => Inf true) (ex_wt NaN)) ex_bm = Ok (Left_out 4) /\
  epoch_weights_fl (ex_cfl false) ex_limit (imap (fun _ => Inf false) (ex_wt NaN)) (imap (fun _ => 4) ex_bm) = Ok (Left_out 2) /\
  exists w, epoch_weights_fl (ex_cfl false) ex_limit (imap (fun _ => Inf false) (ex_wt NaN)) ex_bm = Ok (Used w).
Proof. split; [vm_compute; reflexivity|]. split; [vm_compute; reflexivity|]. split; [vm_compute; reflexivity|]. eexists. vm_compute. reflexivity. Qed.

(** C127: for finite weights the decision is that of exact arithmetic (C52). *)
Theorem C127_same : forall c bm wt p q, img_ok wt -> img_ok bm -> nr bm = nr wt -> nc bm = nc wt -> 0 < nr wt -> 0 < nc wt ->
  0 <= p <= q -> 0 < q -> q * (nr wt * nc wt) <= 2 ^ 50 -> (c_max_masked_frac c == inject_Z p / inject_Z q)%Q ->
  cutout_flag_fl c (fround true (inject_Z p / inject_Z q)) bm (imap Fin wt) = cutout_flag c bm wt.
Proof. exact same_fl. Qed.
Print Assumptions C127_same.

Example C127_same_example : (c_max_masked_frac (ex_cfl false) == inject_Z 3 / inject_Z 10)%Q /\
  cutout_flag (ex_cfl false) (ex_masked 7) (values 1 ex_ones) = Ok 4 /\
  cutout_flag_fl (ex_cfl false) ex_limit (ex_masked 7) ex_ones = Ok 4.
Proof. split; [reflexivity|]. split; vm_compute; reflexivity. Qed.
