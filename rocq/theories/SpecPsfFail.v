(** Specification of what failing PSF writers leave. *)
From Verif Require Import Base Img Types BoundsM MakerLayout MakerWrite MakerFile SpecFile Typed SpecTyped PsfTy SpecPsfTy PsfState SpecPsfState.
Open Scope Z_scope.

(** The order of the cutouts in the catalog. *)
Definition before (iobj icut jobj jcut : Z) : Prop := iobj < jobj \/ iobj = jobj /\ icut < jcut.

Section Spec.
  Context {St : Type}.
  Implicit Types psfs : list (spsf St).

  (** The arrays that are returned are arrays of numbers of their type, and announced
      shapes are not negative. *)
  Definition arrays_ok psfs (st : St) : Prop :=
    (forall st1 p r c col a st2, after psfs st st1 -> In p psfs -> sp_rec p st1 r c col = Ok (a, st2) -> arr_ok (a st2)) /\
    (forall p g r c col, In p psfs -> sp_rec_shape p = Some g -> 0 <= fst (g r c col) /\ 0 <= snd (g r c col)).

  (** What some call of get_rec, after other calls, gives for a cutout: the PSF object
      of its image, with its original position and, where asked for, its colour. *)
  Definition call_for (k : mconf) psfs (st : St) (o : obj) (s : slot) (x : res arr) : Prop :=
    exists p st1, zget psfs (s_file s) = Some p /\ after psfs st st1 /\
      match sp_rec p st1 (s_orow s) (s_ocol s) (psf_color_arg (k_l k) (k_p k) (s_file s) o) with
      | Ok (a, st2) => x = Ok (a st2)
      | Err e => x = Err e
      end.

  (** get_rec raises. *)
  Definition raises (k : mconf) psfs (st : St) (o : obj) (s : slot) (e : err) : Prop := call_for k psfs st o s (Err e).

  (** It returns an array of another shape than in the catalog, or with a number too
      large for the extension. *)
  Definition unfit (k : mconf) psfs (st : St) (o : obj) (s : slot) (e : err) : Prop :=
    exists a, call_for k psfs st o s (Ok a) /\
      (~ (nr (a_im a) = s_psf_nr s /\ nc (a_im a) = s_psf_nc s) /\ e = ValueError \/
       (exists x, In x (dat (a_im a)) /\ too_large a x) /\ e = FitsError).

  (** The file returns for a cutout what get_rec returned, to single precision. *)
  Definition written (k : mconf) psfs (st : St) (f : pfile) (iobj icut : Z) (o : obj) (s : slot) : Prop :=
    exists a, call_for k psfs st o s (Ok a) /\ nr (a_im a) = s_psf_nr s /\ nc (a_im a) = s_psf_nc s /\
      (0 < nr (a_im a) * nc (a_im a) ->
       exists im, get_psf_typed f iobj icut = Ok im /\ nr im = nr (a_im a) /\ nc im = nc (a_im a) /\
         forall r c x, px (a_im a) r c = Some x -> exists v, px im r c = Some v /\ kept x v).
End Spec.

(** The file returns for a cutout what the disk held before. *)
Definition untouched (f : pfile) (pjunk : Z -> fl) (iobj icut : Z) (s : slot) : Prop :=
  0 < s_psf_nr s * s_psf_nc s ->
  get_psf_typed f iobj icut =
    Ok (mkImg (s_psf_nr s) (s_psf_nc s) (map (fun j => pjunk (s_psf_start s + j)) (zrange (s_psf_nr s * s_psf_nc s)))).

(** Up to one cutout everything is written, after it nothing.  (Of that cutout itself
    some numbers may be written when one of them is too large.) *)
Definition up_to {St} (k : mconf) (psfs : list (spsf St)) (st : St) (f : pfile) (pjunk : Z -> fl) (e : err) (bad : obj -> slot -> Prop) : Prop :=
  exists i0 c0 o0 s0, cutout_at (pf_meds f) i0 c0 o0 s0 /\ bad o0 s0 /\
    forall iobj icut o s, cutout_at (pf_meds f) iobj icut o s ->
      (before iobj icut i0 c0 -> written k psfs st f iobj icut o s) /\
      (before i0 c0 iobj icut -> untouched f pjunk iobj icut s) /\
      (iobj = i0 -> icut = c0 -> e <> FitsError -> untouched f pjunk iobj icut s).
