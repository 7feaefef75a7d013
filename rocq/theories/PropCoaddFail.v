(** Property theorems on coadd writes that fail: C121. *)
From Coq Require Import String.
From Verif Require Import Base Img Types MakerLayout MakerWrite MakerFile Reader Composite Coadd CoaddRng MakerFail CoaddFail Meta
  SpecMeta SpecCoadd SpecCoaddRng SpecCoaddFail ExampleData ExampleCoadd ExampleCoaddRng.
From Verif Require CoaddFailLemmas CoaddLemmas7 CoaddRngLemmas5.
Open Scope Z_scope.

(** * C121 *)

(** After an exception the file can neither be opened nor validated, whichever
    coadder, range and file. *)
Theorem C121_refused : forall f ct tp cs left junk pjunk mk rg path d mk' d' e cols,
  coadd_write_on_disk f ct tp cs left junk pjunk mk rg path d = ((mk', d'), Some e) ->
  exists fd, d' path = Some fd /\ open_meds (co_names cols fd) = Err FitsError /\ validate_meds (co_names cols fd) = Err FitsError.
Proof. exact CoaddFailLemmas.refused. Qed.
Print Assumptions C121_refused.

(** No exception exactly if the write succeeds, and then the file is the complete one. *)
Theorem C121_complete : forall f ct tp cs left junk pjunk mk rg path d mk' d' e,
  coadd_write_on_disk f ct tp cs left junk pjunk mk rg path d = ((mk', d'), e) ->
  match e with
  | None => exists g fd, coadd_write f ct tp cs junk pjunk mk rg = Ok (mk', g) /\ d' path = Some fd /\
      complete_cofile fd g (cm_rows mk')
  | Some e => coadd_write f ct tp cs junk pjunk mk rg = Err e
  end.
Proof. exact CoaddFailLemmas.complete. Qed.
Print Assumptions C121_complete.

Theorem C121_other_files : forall f ct tp cs left junk pjunk mk rg path d p, p <> path ->
  snd (fst (coadd_write_on_disk f ct tp cs left junk pjunk mk rg path d)) p = d p.
Proof. exact CoaddFailLemmas.other_files. Qed.
Print Assumptions C121_other_files.

(** Writing the same range again, whatever the first attempt left in the maker. *)
Theorem C121_again : forall cs, steady cs -> forall broken f ct tp left junk pjunk mk rg path d mk' d' e junk' pjunk' p,
  coadd_write_on_disk f ct tp (breaking broken cs) left junk pjunk mk rg path d = ((mk', d'), e) ->
  coadd_write f ct tp cs junk' pjunk' (mkCmaker (cm_rows mk') p) rg =
  coadd_write f ct tp cs junk' pjunk' (mkCmaker (cm_rows mk) p) rg.
Proof. exact CoaddFailLemmas.again. Qed.
Print Assumptions C121_again.

(** The generator stands where the calls made have left it: those for the objects before
    the failing one, and that one. *)
Theorem C121_generator : forall f ct tp cs left junk pjunk mk a b path d mk' d' e, a <= b ->
  coadd_write_on_disk f ct tp cs left junk pjunk mk (Some (a, b)) path d = ((mk', d'), e) ->
  match e with
  | None => moves cs a b (cm_pos mk) (cm_pos mk')
  | Some e => exists j p, a <= j < b /\ moves cs a j (cm_pos mk) p /\
      match cs p j with Err e' => e' = e /\ cm_pos mk' = left p j | Ok (_, _, q) => cm_pos mk' = q end
  end.
Proof. exact CoaddFailLemmas.generator. Qed.
Print Assumptions C121_generator.

Theorem C121_coadder : forall c o g err f jm, interp_total o -> reject_keeps_shapes o -> noise_apart o ->
  steady (get_coadd_obs_r c o g err f jm).
Proof. exact CoaddFailLemmas.coadder_steady. Qed.
Print Assumptions C121_coadder.

(** Object 0 is written, the call for object 1 raises; then the write is repeated with
    the generator where the first attempt left it. *)
Example C121_ex :
  (let* f := ex_cfile in
   let* mk := coadd_maker f in
   let '((mk1, d1), e1) := ex_write_on_disk ex_broken f mk ex_co_disk in
   let '((mk2, d2), e2) := ex_write_on_disk (fun _ _ => None) f mk1 d1 in
   let* fresh := ex_write f (mkCmaker (cm_rows mk) (cm_pos mk1)) None in
   Ok (e1, map (fun r => o_ncut (cr_obj r)) (cm_rows mk1), cm_pos mk1,
       option_map (fun fd => (match fd_cat fd with Some _ => true | None => false end,
                              open_meds (co_names documented_info_columns fd))) (d1 "coadd.fits"%string),
       e2, option_map (fun fd => (option_map (map cr_obj) (fd_cat fd), validate_meds (co_names documented_info_columns fd)))
             (d2 "coadd.fits"%string))) =
  (let* f := ex_cfile in
   let* mk := coadd_maker f in
   let* fresh := ex_write f (mkCmaker (cm_rows mk) 53) None in
   Ok (Some ValueError, [1; 0; 0; 0], 53, Some (false, Err FitsError), None, Some (Some (m_cat (snd fresh)), Ok []))).
Proof. vm_compute. reflexivity. Qed.

Example C121_ex_steady : forall f, steady (ex_coadder f).
Proof.
  intros f. apply C121_coadder; [apply CoaddLemmas7.ex_interp|apply CoaddLemmas7.ex_reject_ok|apply CoaddRngLemmas5.ex_apart].
Qed.
