(** C139: parallel and serial PSF writing for PSF objects that change while they render. *)
From Coq Require Import String.
From Verif Require Import Base Img Types BoundsM Reader MakerLayout MakerWrite MakerFile ExampleData Typed PsfTy
  PsfState SpecPsfState ExamplePsfState PsfStateLemmas PsfStateLemmas2 PsfStateLemmas3.
Open Scope Z_scope.

(** Claim: joblib gives the file that the serial writer gives.  False when get_rec
    returns an array that a later call overwrites. *)
Theorem C139_buffer_refuted : exists (St : Type) k types rows (psfs : list (spsf St)) st input junk pjunk fresh f1 f2 iobj icut,
  repeatable psfs st /\ make_state k None types rows psfs st input junk pjunk = Ok f1 /\
  make_state k (Some (2000, fresh)) types rows psfs st input junk pjunk = Ok f2 /\
  get_psf_typed f1 iobj icut <> get_psf_typed f2 iobj icut.
Proof. exact ExamplePsfState.buffer_refuted. Qed.
Print Assumptions C139_buffer_refuted.

(** False when what it returns depends on earlier calls, as with random numbers. *)
Theorem C139_random_refuted : exists (St : Type) k types rows (psfs : list (spsf St)) st input junk pjunk n fresh f1 f2 iobj icut,
  1 <= n /\ own_arrays psfs st /\ make_state k None types rows psfs st input junk pjunk = Ok f1 /\
  make_state k (Some (n, fresh)) types rows psfs st input junk pjunk = Ok f2 /\
  get_psf_typed f1 iobj icut <> get_psf_typed f2 iobj icut.
Proof. exact ExamplePsfState.counter_refuted. Qed.
Print Assumptions C139_random_refuted.

(** True when neither is the case, however joblib groups the jobs. *)
Theorem C139_same_partial : forall (St : Type) k types rows (psfs : list (spsf St)) st input junk pjunk n fresh f, 1 <= n ->
  own_arrays psfs st -> repeatable psfs st ->
  (make_state k (Some (n, fresh)) types rows psfs st input junk pjunk = Ok f <->
   make_state k None types rows psfs st input junk pjunk = Ok f).
Proof. exact @PsfStateLemmas2.state_repeatable. Qed.
Print Assumptions C139_same_partial.

(** With random numbers, true when all jobs share one group or there is one job:
    no more objects in the file than a job takes. *)
Theorem C139_one_job_partial : forall (St : Type) k types rows (psfs : list (spsf St)) st input junk pjunk n fresh f, 1 <= n ->
  own_arrays psfs st -> one_group fresh \/ zlen (m_cat (pf_meds f)) <= n ->
  (make_state k (Some (n, fresh)) types rows psfs st input junk pjunk = Ok f <->
   make_state k None types rows psfs st input junk pjunk = Ok f).
Proof. exact @PsfStateLemmas2.state_one_group. Qed.
Print Assumptions C139_one_job_partial.

(** Objects whose memory does not show (a cache) give the file of objects without
    memory, so that all of C130 holds of it: serially always, *)
Theorem C139_memory_partial : forall (St : Type) k types rows (psfs : list (spsf St)) st qs input junk pjunk,
  Forall2 (acts_as psfs st) psfs qs ->
  make_state k None types rows psfs st input junk pjunk = make_psf_typed k types rows qs input junk pjunk.
Proof. exact @PsfStateLemmas3.state_pure. Qed.
Print Assumptions C139_memory_partial.

(** and with joblib when the arrays are not overwritten. *)
Theorem C139_cache_partial : forall (St : Type) k types rows (psfs : list (spsf St)) st qs input junk pjunk,
  Forall2 (acts_as psfs st) psfs qs -> forall n fresh f, 1 <= n -> own_arrays psfs st ->
  (make_state k (Some (n, fresh)) types rows psfs st input junk pjunk = Ok f <->
   make_psf_typed k types rows qs input junk pjunk = Ok f).
Proof. exact @PsfStateLemmas3.state_pure_joblib. Qed.
Print Assumptions C139_cache_partial.

(** Objects that keep what they rendered last, in jobs of one and two objects. *)
Example C139_example_hypotheses : own_arrays ex_caches None /\ Forall2 (acts_as ex_caches None) ex_caches ex_plains /\ repeatable ex_caches None.
Proof. split; [apply ex_caches_own|]. split; [apply ex_caches_act|]. eapply PsfStateLemmas3.acts_repeatable. apply ex_caches_act. Qed.
Example C139_example :
  (let* a := ex_pix (ex_sfile None ex_caches None) 2 1 in let* b := ex_pix (ex_sfile (Some (1, fun _ => true)) ex_caches None) 2 1 in
   let* c := ex_pix (ex_sfile (Some (2, fun j => j =? 1)) ex_caches None) 2 1 in Ok (a, b, c)) =
  (let* f := make_psf_typed ex_conf ex_types ex_rows ex_plains ex_objs ex_junk (fun _ => NaN) in
   let* im := get_psf_typed f 2 1 in let a := map (fcast true) (dat im) in Ok (a, a, a)).
Proof. vm_compute. reflexivity. Qed.
(** Shared buffer: every image of a job is the last one.  Random numbers: the second
    job repeats the numbers of the first. *)
Example C139_example_buffer :
  (let* a := ex_pix (ex_sfile (Some (2000, fun _ => true)) ex_buffers 0) 0 0 in
   let* b := ex_pix (ex_sfile (Some (2000, fun _ => true)) ex_buffers 0) 2 1 in
   let* c := ex_pix (ex_sfile None ex_buffers 0) 2 1 in Ok (a, b, c)) =
  (let* c := ex_pix (ex_sfile None ex_buffers 0) 2 1 in Ok (c, c, c)).
Proof. vm_compute. reflexivity. Qed.
Example C139_example_random :
  (let* a := ex_pix (ex_sfile (Some (1, fun _ => true)) ex_counters 0) 0 0 in
   let* b := ex_pix (ex_sfile (Some (1, fun _ => true)) ex_counters 0) 1 0 in
   let* c := ex_pix (ex_sfile (Some (1, fun _ => false)) ex_counters 0) 1 0 in
   let* d := ex_pix (ex_sfile None ex_counters 0) 1 0 in Ok (a, b, c, d)) =
  Ok ([fround true 6], [fround true 6], [fround true 9], [fround true 9]).
Proof. vm_compute. reflexivity. Qed.
