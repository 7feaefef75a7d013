(** Words of the statements about the two C programs. *)
From Coq Require Import String Ascii.
From Verif Require Import Base Img Types CLib SpecCLib CProg.
Open Scope Z_scope.

(** Decimal digits, their text and their value. *)
Definition decimal (ds : list Z) : Prop := forall d, In d ds -> 0 <= d <= 9.
Fixpoint text_of (ds : list Z) (rest : string) : string :=
  match ds with [] => rest | d :: ds' => String (ascii_of_nat (Z.to_nat (48 + d))) (text_of ds' rest) end.
Definition value_of (ds : list Z) : Z := fold_left (fun a d => 10 * a + d) ds 0.
Definition no_digit_first (s : string) : Prop :=
  match s with EmptyString => True | String c _ => ~ (48 <= Z.of_nat (nat_of_ascii c) <= 57) end.

(** The smallest size 2^N or 3 2^N that is not smaller, at most 6144. *)
Definition rounded (n m : Z) : Prop :=
  (n <= 6144 /\ fft_size m /\ n <= m /\ forall m', fft_size m' -> n <= m' -> m <= m') \/ (6144 < n /\ m = 6144).

(** The box of an object for the two sizes of the command line. *)
Definition box_for (r : secat) (minarg maxarg b : Z) : Prop :=
  exists lo hi, rounded minarg lo /\ rounded maxarg hi /\ fft_size b /\ b <= hi /\ (lo <= hi -> lo <= b) /\
    let needs := box_needs (ymin r) (ymax r) (xmin r) (xmax r) (flux_rad r) (1 - b_world r / a_world r)%Q in
    (b = hi \/ needs b) /\ forall n, fft_size n -> n <> 3 -> lo <= n -> needs n -> b <= n.

(** One line per row of the catalog, in the same order: id, row, column, box size. *)
Definition lines_of (id : Z -> Z -> Prop) (rows : list secat) (minarg maxarg : Z) (ls : list line) : Prop :=
  zlen ls = zlen rows /\
  forall k r, zget rows k = Some r ->
    exists n b, zget ls k = Some (n, y_image r, x_image r, b) /\ id k n /\ box_for r minarg maxarg b.

(** The numbers before the first word that is not a number. *)
Fixpoint leading (w : list (option Z)) : list Z :=
  match w with Some z :: w' => z :: leading w' | _ => [] end.

Definition unchanged {A} (r : run A) (fs : files) : Prop := forall n, r_files r n = fs n.
Definition only_written {A} (r : run A) (fs : files) (name : string) (im : img Q) : Prop :=
  r_files r name = Some (CImage im) /\ forall n, n <> name -> r_files r n = fs n.
