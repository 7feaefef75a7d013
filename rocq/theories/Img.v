(** Two dimensional numpy arrays, row major.  Definitions only. *)
From Verif Require Import Base.

Record img (A : Type) : Type := mkImg { nr : Z; nc : Z; dat : list A }.
Arguments mkImg {A} nr nc dat.
Arguments nr {A} i.
Arguments nc {A} i.
Arguments dat {A} i.

(** The stored data fit the shape (always true of a numpy array). *)
Definition img_ok {A} (im : img A) : Prop :=
  0 <= nr im /\ 0 <= nc im /\ zlen (dat im) = nr im * nc im.

(** The pixel at a non-negative position, [None] off the image. *)
Definition px {A} (im : img A) (r c : Z) : option A :=
  if (0 <=? r) && (r <? nr im) && (0 <=? c) && (c <? nc im)
  then zget (dat im) (r * nc im + c) else None.

(** [a.reshape(h, w)]; the special value -1 of numpy is not modelled. *)
Definition reshape {A} (xs : list A) (h w : Z) : res (img A) :=
  if (0 <=? h) && (0 <=? w) && (zlen xs =? h * w) then Ok (mkImg h w xs) else Err ValueError.

(** An array computed pixel by pixel, the computation may raise. *)
Definition tab2M {A} (h w : Z) (f : Z -> Z -> res A) : res (img A) :=
  let* d := mapM (fun p => f (p / w) (p mod w)) (zrange (h * w)) in
  Ok (mkImg h w d).

Definition tab2 {A} (h w : Z) (f : Z -> Z -> A) : img A :=
  mkImg h w (map (fun p => f (p / w) (p mod w)) (zrange (h * w))).

(** Elementwise map. *)
Definition imap {A B} (f : A -> B) (im : img A) : img B := mkImg (nr im) (nc im) (map f (dat im)).

(** [zeros((h, w)) + v]; a negative dimension raises. *)
Definition full {A} (h w : Z) (v : A) : res (img A) :=
  if (0 <=? h) && (0 <=? w) then Ok (tab2 h w (fun _ _ => v)) else Err ValueError.

(** Normalisation of a slice bound of an axis of length [n]. *)
Definition np_bound (n a : Z) : Z := if a <? 0 then Z.max 0 (a + n) else Z.min a n.

Definition px_res {A} (im : img A) (r c : Z) : res A :=
  match px im r c with Some a => Ok a | None => Err IndexError end.

(** [im[r0:r1, c0:c1]] *)
Definition sub2d {A} (im : img A) (r0 r1 c0 c1 : Z) : res (img A) :=
  let a := np_bound (nr im) r0 in let b := np_bound (nr im) r1 in
  let c := np_bound (nc im) c0 in let d := np_bound (nc im) c1 in
  tab2M (Z.max 0 (b - a)) (Z.max 0 (d - c)) (fun i j => px_res im (a + i) (c + j)).

(** [dst[r0:r1, c0:c1] = src].  numpy's broadcasting of length one axes is not
    modelled: different shapes give ValueError. *)
Definition paste {A} (dst : img A) (r0 r1 c0 c1 : Z) (src : img A) : res (img A) :=
  let a := np_bound (nr dst) r0 in let b := np_bound (nr dst) r1 in
  let c := np_bound (nc dst) c0 in let d := np_bound (nc dst) c1 in
  if (Z.max 0 (b - a) =? nr src) && (Z.max 0 (d - c) =? nc src)
  then tab2M (nr dst) (nc dst) (fun i j =>
         if (a <=? i) && (i <? b) && (c <=? j) && (j <? d)
         then px_res src (i - a) (j - c)
         else px_res dst i j)
  else Err ValueError.
