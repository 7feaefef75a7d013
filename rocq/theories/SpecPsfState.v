(** Specification of PSF objects that change while they render. *)
From Verif Require Import Base Img Types Typed PsfTy PsfState.
Open Scope Z_scope.

Section Spec.
  Context {St : Type}.
  Implicit Types psfs : list (spsf St).

  (** The memory after some calls of get_rec. *)
  Inductive after psfs (st : St) : St -> Prop :=
  | after_none : after psfs st st
  | after_call st1 p r c col a st2 : after psfs st st1 -> In p psfs -> sp_rec p st1 r c col = Ok (a, st2) -> after psfs st st2.

  (** The arrays returned are not changed by later calls. *)
  Definition own_arrays psfs (st : St) : Prop :=
    forall st1 p r c col a st2 st3, after psfs st st1 -> In p psfs -> sp_rec p st1 r c col = Ok (a, st2) ->
    after psfs st2 st3 -> a st3 = a st2.

  (** What a call returns does not depend on the calls before it. *)
  Definition repeatable psfs (st : St) : Prop :=
    forall st1 st2 p r c col a1 st1', after psfs st st1 -> after psfs st st2 -> In p psfs ->
    sp_rec p st1 r c col = Ok (a1, st1') -> exists a2 st2', sp_rec p st2 r c col = Ok (a2, st2') /\ a2 st2' = a1 st1'.

  (** All jobs are in one group. *)
  Definition one_group (fresh : Z -> bool) : Prop := forall j, 0 < j -> fresh j = false.

  (** The object behaves like one without memory. *)
  Definition acts_as psfs (st : St) (p : spsf St) (q : tpsf) : Prop :=
    sp_rec_shape p = tp_rec_shape q /\ sp_center p = tp_center q /\
    forall st1 r c col, after psfs st st1 -> exists a st2, sp_rec p st1 r c col = Ok (a, st2) /\ a st2 = tp_rec q r c col.
End Spec.
