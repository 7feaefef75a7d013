(** Model of reject_outliers, meds/meds.py 1098-1183, over the real numbers.
    Arrays are references into a store, since the weight maps are modified in
    place and nothing prevents the lists from sharing arrays.  NaN, integer
    arrays and numpy's broadcasting are not modelled: arrays of different
    shapes raise ValueError.  Definitions only. *)
From Coq Require Import Reals.
From Verif Require Import Base Img.
Open Scope Z_scope.

Definition rltb (a b : R) : bool := if Rlt_dec a b then true else false.

Fixpoint rinsert (x : R) (l : list R) : list R :=
  match l with
  | [] => [x]
  | y :: l' => if rltb y x then y :: rinsert x l' else x :: l
  end.
Definition rsort (l : list R) : list R := fold_right rinsert [] l.

(** [numpy.median]: the middle value, or the mean of the two middle values. *)
Definition median (l : list R) : res R :=
  let s := rsort l in
  let n := zlen s in
  if Z.even n
  then match zget s (n / 2 - 1), zget s (n / 2) with
       | Some a, Some b => Ok ((a + b) / 2)%R
       | _, _ => Err ValueError end
  else match zget s (n / 2) with Some a => Ok a | None => Err ValueError end.

Definition store : Type := list (img R).
Definition load (st : store) (a : nat) : res (img R) :=
  match nth_error st a with Some im => Ok im | None => Err ValueError end.

Definition shape_eqb {A B} (a : img A) (b : img B) : bool := (nr a =? nr b) && (nc a =? nc b).

(** meds/meds.py 1148-1154: the stack and its median along axis 0. *)
Definition stack_median (st : store) (imlist : list nat) : res (img R) :=
  let* ims := mapM (load st) imlist in
  match ims with
  | [] => Err IndexError
  | im0 :: _ =>
    if forallb (shape_eqb im0) ims
    then tab2M (nr im0) (nc im0) (fun r c =>
           let* vs := mapM (fun im => px_res im r c) ims in median vs)
    else Err ValueError
  end.

(** meds/meds.py 1164-1177 at one pixel: [wt] is the clipped weight. *)
Definition is_outlier (nsigma A med x wt : R) : bool :=
  let d := (x - med)%R in
  let chi2 := (d * d * wt)%R in
  let m := (Rabs med * A * sqrt wt + nsigma)%R in
  rltb (m * m) chi2.

(** meds/meds.py 1156-1181: the body of the loop, with the store after it. *)
Definition reject_step (med : img R) (nsigma A : R) (imlist wtlist : list nat) (st : store) (i : nat)
  : store * res Z :=
  match nth_error imlist i, nth_error wtlist i with
  | Some a, Some b =>
    match nth_error st b with
    | Some wt =>
      let wt1 := imap (Rmax 0) wt in
      let st1 := upd st b wt1 in
      match load st1 a with
      | Ok im =>
        if shape_eqb med im && shape_eqb med wt1 then
          match tab2M (nr med) (nc med) (fun r c =>
                  let* m := px_res med r c in
                  let* x := px_res im r c in
                  let* v := px_res wt1 r c in
                  Ok (v, is_outlier nsigma A m x v)) with
          | Ok out => (upd st1 b (imap (fun p : R * bool => if snd p then 0%R else fst p) out), Ok (zlen (filter snd (dat out))))
          | Err e => (st1, Err e)
          end
        else (st1, Err ValueError)
      | Err e => (st1, Err e)
      end
    | None => (st, Err ValueError)
    end
  | _, _ => (st, Err IndexError)
  end.

Fixpoint reject_loop (med : img R) (nsigma A : R) (imlist wtlist : list nat) (is : list nat) (st : store) (nreject : Z)
  : store * res Z :=
  match is with
  | [] => (st, Ok nreject)
  | i :: is' =>
    match reject_step med nsigma A imlist wtlist st i with
    | (st', Ok k) => reject_loop med nsigma A imlist wtlist is' st' (nreject + k)
    | (st', Err e) => (st', Err e)
    end
  end.

(** meds/meds.py 1098-1183 *)
Definition reject_outliers (imlist wtlist : list nat) (nsigma A : R) (st : store) : store * res Z :=
  if zlen imlist <? 3 then (st, Ok 0)
  else match stack_median st imlist with
       | Ok med => reject_loop med nsigma A imlist wtlist (seq 0 (length imlist)) st 0
       | Err e => (st, Err e)
       end.
