(** Specification for the weights of the coadder in floating point (C127). *)
From Coq Require Import Qabs Qpower.
From Verif Require Import Base Img Types Coadd Typed SpecCoadd SpecOutlierFl CoaddFl.
Open Scope Z_scope.

(** A weight as a rational: [n] for NaN, 1 and -1 for the infinities. *)
Definition value (n : Q) (x : fl) : Q :=
  match x with Fin q => q | Inf false => 1 | Inf true => -1 | NaN => n end.
Definition values (n : Q) (wt : img fl) : img Q := mkImg (nr wt) (nc wt) (map (value n) (dat wt)).

(** The first reason to leave a cutout out.  A weight that is NaN counts as positive for
    the masked fraction and for the sides, as not positive for the central region and
    for the last test.  [frac]: the masked fraction is above the limit. *)
Definition reason_fl (c : cconf) (frac : Prop) (wt : img fl) (bm : img Z) (flag : Z) : Prop :=
  (flag = 2 /\ edge_test c bm) \/
  (~ edge_test c bm /\
   ((flag = 4 /\ frac) \/
    (~ frac /\
     ((flag = 8 /\ central_test c (values 0 wt) bm) \/
      (~ central_test c (values 0 wt) bm /\
       ((flag = 16 /\ sides_test c (values 1 wt) bm) \/
        (~ sides_test c (values 1 wt) bm /\
         ((flag = 32 /\ zero_test (values 0 wt)) \/ (flag = 0 /\ ~ zero_test (values 0 wt)))))))))).

(** More than [p] in [q] pixels are masked. *)
Definition above (c : cconf) (wt : img fl) (bm : img Z) (p q : Z) : Prop :=
  exists n, counted (unusable_px (total_mask (c_bmask_flags c)) (values 1 wt) bm) n /\ p * (nr wt * nc wt) < n * q.

(** A double. *)
Definition double (x : fl) : Prop :=
  match x with Fin q => exists v, fround true q = Fin v /\ (v == q)%Q | _ => True end.
(** Not NaN and not flagged, with a positive weight. *)
Definition usable_fl (bad : option Z) (wt : img fl) (bm : img Z) (r k : Z) (v : fl) : Prop :=
  px wt r k = Some v /\ positive v /\ exists b, px bm r k = Some b /\ ~ flagged bad b.

(** What symmetrising does to a weight (r, k): it looks at (k, n - 1 - r). *)
Definition is_zero (v : fl) : Prop := exists q, v = Fin q /\ (q == 0)%Q.
Definition sym_weight_fl (wt wt' : img fl) : Prop :=
  img_ok wt' /\ nr wt' = nr wt /\ nc wt' = nc wt /\
  forall r k w v, px wt r k = Some w -> px wt k (nc wt - 1 - r) = Some v ->
    (is_zero v -> px wt' r k = Some (Fin 0)) /\ (~ is_zero v -> px wt' r k = Some w).
(** The maps on which the decision about a cutout is taken. *)
Definition decided_on_fl (c : cconf) (w : img fl) (b : img Z) (w' : img fl) (b' : img Z) : Prop :=
  if c_symmetrize c
  then sym_weight_fl w w' /\ sym_bmask (total_mask (c_bmask_flags c)) b b'
  else w' = w /\ b' = b.

(** The weights used: usable ones are kept, all others get one value between two of
    them. *)
Definition filled (bad : option Z) (wt : img fl) (bm : img Z) (wt' : img fl) : Prop :=
  img_ok wt' /\ nr wt' = nr wt /\ nc wt' = nc wt /\
  (forall r k v, usable_fl bad wt bm r k v -> px wt' r k = Some v) /\
  ((forall r k v', px wt' r k = Some v' -> usable_fl bad wt bm r k v') \/
   exists m lo hi r1 k1 r2 k2, usable_fl bad wt bm r1 k1 lo /\ usable_fl bad wt bm r2 k2 hi /\
     positive m /\ fl_leq lo m /\ ((forall q, hi = Fin q -> (q <= Qpower (2#1) 1000)%Q) -> fl_leq m hi) /\
     forall r k v', px wt' r k = Some v' -> usable_fl bad wt bm r k v' \/ v' = m).

(** Example data: bad flag 1, edge flag 4, limit 3/10, central region of one pixel; 4x4
    stamps with a zero weight at (0, 0) and the weight [w] at (3, 3); bit 1 set in the
    mask at (0, 3). *)
Definition ex_cfl (sym : bool) : cconf := mkCconf (Some [1]) (Some [4]) false sym (3#10) true 1 true true.
Definition ex_wt (w : fl) : img fl :=
  mkImg 4 4 [Fin 0; Fin 1; Fin 2; Fin 8; Fin 1; Fin 1; Fin 2; Fin 2; Fin 1; Fin 4; Fin 4; Fin 2; Fin 1; Fin 4; Fin 4; w].
Definition ex_bm : img Z := mkImg 4 4 [0; 0; 0; 1; 0; 0; 0; 0; 0; 0; 2; 0; 0; 0; 0; 0].
(** The limit 3/10 and 20 pixels of which [n] are masked. *)
Definition ex_limit : fl := fround true (inject_Z 3 / inject_Z 10).
Definition ex_masked (n : Z) : img Z := mkImg 4 5 (map (fun i => if i <? n then 1 else 0) (zrange 20)).
Definition ex_ones : img fl := mkImg 4 5 (map (fun _ => Fin 1) (zrange 20)).
(** The weights used, fractions in lowest terms. *)
Definition ex_used (c : cconf) (wt : img fl) : res (list fl) :=
  let* r := epoch_weights_fl c ex_limit wt ex_bm in
  match r with Used w => Ok (map (fun x => match x with Fin q => Fin (Qred q) | _ => x end) (dat w)) | Left_out _ => Err ValueError end.
