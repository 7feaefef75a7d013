(** Vocabulary for the statements on coadd writes that fail. *)
From Coq Require Import String.
From Verif Require Import Base Img Types MakerLayout MakerWrite MakerFile Composite Coadd CoaddRng MakerFail CoaddFail
  ExampleData ExampleCoadd ExampleCoaddRng.
Open Scope Z_scope.

(** A coadder some of whose calls raise although they would have an answer: the disk
    was gone, the call was interrupted. *)
Definition breaking (broken : Z -> Z -> option err) (cs : Z -> Z -> res (option cobs * Z * Z)) (p j : Z)
  : res (option cobs * Z * Z) :=
  match broken p j with Some e => Err e | None => cs p j end.

(** Whether there is a coadd of an object, and the number of its flags, do not depend
    on the position of the generator. *)
Definition steady (cs : Z -> Z -> res (option cobs * Z * Z)) : Prop :=
  forall p p' j x fl q x' fl' q', 0 <= j -> cs p j = Ok (x, fl, q) -> cs p' j = Ok (x', fl', q') ->
    match x, x' with
    | None, None => True
    | Some co, Some co' => length (co_imflags co) = length (co_imflags co')
    | _, _ => False
    end.

(** The names in a file of coadds once it is complete. *)
Definition complete_cofile (fd : cofile) (f : medsfile) (rows : list crow) : Prop :=
  fd_cat fd = Some rows /\ m_cat f = map cr_obj rows /\ m_info f = fd_info fd /\ m_ext f = fd_ext fd /\
  m_psf f = Some (fd_psf fd).

(** The example's coadder, of which the call for object 1 raises the first time. *)
Definition ex_broken (p j : Z) : option err := if j =? 1 then Some ValueError else None.
Definition ex_co_disk : codisk := fun _ => None.
Definition ex_write_on_disk (broken : Z -> Z -> option err) (f : medsfile) (mk : cmaker) (d : codisk) : run (cmaker * codisk) :=
  coadd_write_on_disk f [TImage; TWeight; TSeg; TBmask] 40 (breaking broken (ex_coadder f)) (fun p _ => p + 5)
    ex_junk (fun _ => 0%Q) mk None "coadd.fits" d.

(** Calls for the objects [a], ..., [b - 1] that all return take the generator from [p]
    to [q]. *)
Inductive moves (cs : Z -> Z -> res (option cobs * Z * Z)) : Z -> Z -> Z -> Z -> Prop :=
| moves_none : forall a p, moves cs a a p p
| moves_one : forall a b p q r x fl, moves cs (a + 1) b q r -> cs p a = Ok (x, fl, q) -> moves cs a b p r.
