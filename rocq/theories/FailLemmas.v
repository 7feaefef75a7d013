(** Lemmas on writes that fail. *)
From Coq Require Import Lia ZifyBool ZifyNat String.
From Verif Require Import Base BaseLemmas Img Types MakerLayout MakerWrite MakerFile MakerFail SpecFail FileLemmas.
Open Scope Z_scope.

Definition agrees {S} (r : run S) (x : res S) : Prop :=
  match x with Ok s => r = (s, None) | Err e => snd r = Some e end.

Lemma step_agrees {S} (s : S) r : agrees (step s r) r.
Proof. destruct r; reflexivity. Qed.

Lemma loop_agrees {S X} (b : S -> X -> run S) f xs : (forall s x, agrees (b s x) (f s x)) ->
  forall s, agrees (loop b xs s) (foldM f xs s).
Proof.
  intros H. induction xs as [|x xs IH]; intros s; cbn [loop foldM]; [reflexivity|].
  specialize (H s x). destruct (f s x) as [s'|e]; cbn [bind agrees] in *.
  - rewrite H. apply IH.
  - destruct (b s x) as [s' [e'|]]; cbn [snd] in *; congruence.
Qed.

Lemma cutouts_agrees {A} (fill : res A) cat nfile read hdu :
  agrees (cutouts_on_disk fill cat nfile read hdu) (write_cutouts fill cat nfile read hdu).
Proof.
  apply loop_agrees. intros s x. destruct (read x) as [[im|]|e]; cbn [bind]; [|reflexivity|reflexivity].
  apply loop_agrees. intros s' o. apply loop_agrees. intros. apply step_agrees.
Qed.

Lemma types_agrees u cat srcs types ext : agrees (types_on_disk u cat srcs types ext) (write_types u cat srcs types ext).
Proof.
  apply loop_agrees. intros e t. destruct (ext_find e t) as [hdu|]; [|reflexivity].
  pose proof (cutouts_agrees (default_values t) cat (zlen srcs)
    (fun file_id => let* s := py_index srcs file_id in read_image u s t) hdu) as H.
  destruct (write_cutouts _ _ _ _ _) as [h|er]; cbn [bind agrees] in *.
  - rewrite H. reflexivity.
  - destruct (cutouts_on_disk _ _ _ _ _) as [h' [e'|]]; cbn [snd] in *; congruence.
Qed.

Lemma psf_serial_agrees c pc psfs cat hdu : agrees (psf_serial_on_disk c pc psfs cat hdu) (write_psf_serial c pc psfs cat hdu).
Proof. apply loop_agrees. intros. apply loop_agrees. intros. apply step_agrees. Qed.

Lemma psf_job_agrees objs out hdu : agrees (psf_job_on_disk objs out hdu) (psf_write_job objs out hdu).
Proof.
  unfold psf_job_on_disk, psf_write_job.
  match goal with |- agrees (let '(_, _) := ?l in _) (bind ?f _) => assert (H : agrees l f) end.
  { apply loop_agrees. intros. apply loop_agrees. intros. apply step_agrees. }
  match type of H with agrees _ ?f => destruct f as [[h loc]|e] end; cbn [agrees bind fst] in *.
  - rewrite H. reflexivity.
  - match type of H with snd ?l = _ => destruct l as [[h loc] x] end. exact H.
Qed.

Lemma psf_joblib_agrees n c pc psfs cat hdu : agrees (psf_joblib_on_disk n c pc psfs cat hdu) (write_psf_joblib n c pc psfs cat hdu).
Proof.
  unfold psf_joblib_on_disk, write_psf_joblib. cbv zeta.
  match goal with |- context [mapM ?f ?l] => destruct (mapM f l) as [o|e]; cbn [bind]; [|reflexivity] end.
  apply loop_agrees. intros. apply psf_job_agrees.
Qed.

(** * The whole write *)
Lemma write_agrees m pi junk pjunk path d :
  match write m junk pjunk with
  | Ok mf => write_on_disk m pi junk pjunk path d = (put d path (snd mf, pi), None)
  | Err e => snd (write_on_disk m pi junk pjunk path d) = Some e
  end.
Proof.
  unfold write, write_on_disk.
  destruct (full_layout _ _ _ _) as [[[cat total] tp]|e]; cbn [bind]; [|reflexivity].
  unfold write_data, write_data_on_disk. cbv zeta.
  pose proof (types_agrees (k_unusable (mk_conf m)) cat (map ir_src (mk_rows m)) (k_types (mk_conf m))
    (reserve (k_types (mk_conf m)) total junk)) as H.
  destruct (write_types _ _ _ _ _) as [ext|e]; cbn [agrees bind] in *.
  2:{ destruct (types_on_disk _ _ _ _ _) as [h [e'|]]; cbn [snd] in *; congruence. }
  rewrite H. destruct (mk_psf m) as [ps|]; cbn [bind snd]; [|reflexivity].
  destruct (k_joblib (mk_conf m)).
  - pose proof (psf_joblib_agrees (k_njob (mk_conf m)) (k_l (mk_conf m)) (k_p (mk_conf m)) ps cat (map pjunk (zrange tp))) as P.
    destruct (write_psf_joblib _ _ _ _ _ _) as [h|e]; cbn [agrees bind snd] in *.
    + rewrite P. reflexivity.
    + destruct (psf_joblib_on_disk _ _ _ _ _ _) as [h [e'|]]; cbn [snd] in *; congruence.
  - pose proof (psf_serial_agrees (k_l (mk_conf m)) (k_p (mk_conf m)) ps cat (map pjunk (zrange tp))) as P.
    destruct (write_psf_serial _ _ _ _ _) as [h|e]; cbn [agrees bind snd] in *.
    + rewrite P. reflexivity.
    + destruct (psf_serial_on_disk _ _ _ _ _) as [h [e'|]]; cbn [snd] in *; congruence.
Qed.

Theorem other_files m pi junk pjunk path d p : p <> path ->
  fst (write_on_disk m pi junk pjunk path d) p = d p.
Proof.
  intros N. assert (P : forall f, put d path f p = d p).
  { intros f. unfold put. destruct (String.eqb_spec p path); [contradiction|reflexivity]. }
  unfold write_on_disk. destruct (full_layout _ _ _ _) as [[[cat total] tp]|e]; [|reflexivity].
  unfold write_data_on_disk. cbv zeta.
  destruct (types_on_disk _ _ _ _ _) as [ext [e|]]; [apply P|].
  destruct (mk_psf m); [|apply P].
  destruct (if k_joblib _ then _ else _) as [h [e|]]; apply P.
Qed.

Theorem success m pi junk pjunk path d e : snd (write_on_disk m pi junk pjunk path d) = e ->
  match e with
  | None => exists m' f, write m junk pjunk = Ok (m', f) /\
      fst (write_on_disk m pi junk pjunk path d) path = Some (f, pi)
  | Some e => write m junk pjunk = Err e
  end.
Proof.
  intros H. pose proof (write_agrees m pi junk pjunk path d) as A.
  destruct (write m junk pjunk) as [[m' f]|e'].
  - rewrite A in *. cbn [snd fst] in *. subst e. exists m', f. split; [reflexivity|].
    unfold put. rewrite String.eqb_refl. reflexivity.
  - rewrite A in H. subst e. reflexivity.
Qed.

Theorem layout_first m pi junk pjunk path d e :
  full_layout (mk_conf m) (mk_rows m) (mk_psf m) (mk_cat m) = Err e ->
  write_on_disk m pi junk pjunk path d = (d, Some e).
Proof. unfold write_on_disk. intros ->. reflexivity. Qed.
