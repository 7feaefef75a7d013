(** Property theorems on extraction from files of coadds: C137. *)
From Verif Require Import Base Img Types Reader Extract MakerWrite Composite Coadd SpecTiles SpecFile SpecExtract SpecCoadd ExampleData ExampleCoadd SpecCoaddExt.
From Verif Require CoaddLemmas6 CoaddLemmas7 CoaddExtLemmas2.
Open Scope Z_scope.

(** * C137 *)
(** The extraction by number of a coadd fails, though its range can be extracted. *)
Theorem C137_numbers_refuted : exists rows f o im, ex_coadds = Ok (rows, f) /\ zget (m_cat f) 3 = Some o /\ o_number o = 4 /\
  get_cutout f 3 0 TImage = Ok im /\ (exists g, extract_range false f 3 3 = Ok g) /\
  extract_numbers (fun l => l) f [4] = Err ValueError.
Proof. exact CoaddExtLemmas2.ex_numbers. Qed.
Print Assumptions C137_numbers_refuted.

(** The or-ed masks are lost. *)
Theorem C137_ormask_refuted : exists rows f g im, ex_coadds = Ok (rows, f) /\ extract_range false f 3 3 = Ok g /\
  get_cutout f 3 0 TOrmask = Ok im /\ get_cutout g 0 0 TOrmask = Err ValueError.
Proof. exact CoaddExtLemmas2.ex_ormask. Qed.
Print Assumptions C137_ormask_refuted.

(** What holds for a range: all but the or-ed masks; the result has no unused space. *)
Theorem C137_range_partial : forall f ct tp junk pjunk coadder rg rows f' a b, stamp_shapes f coadder -> range_from_zero rg -> 0 <= tp ->
  Forall (fun o => 0 < o_box o) (m_cat f) -> write_coadds f ct tp junk pjunk coadder rg = Ok (rows, f') ->
  incl [TImage; TWeight; TSeg] ct -> 0 <= a -> b < zlen (m_cat f) ->
  (exists j co fl, a <= j <= b /\ asked f rg j /\ coadder j = Ok (Some co, fl)) ->
  exists g, extract_range false f' a b = Ok g /\ zlen (m_cat g) = b - a + 1 /\ m_info g = m_info f' /\ file_wf g /\ psf_wf g /\
    (forall t, t <> TOrmask -> (has_ext g t <-> In t (add_types ct))) /\
    (forall i o, 0 <= i <= b - a -> zget (m_cat f') (a + i) = Some o ->
      (exists o', zget (m_cat g) i = Some o' /\ same_but_starts o o') /\
      (forall t, t <> TOrmask -> same_cutouts f' (a + i) g i t) /\ same_psfs f' (a + i) g i) /\
    forall i co fl, 0 <= i <= b - a -> asked f rg (a + i) -> coadder (a + i) = Ok (Some co, fl) ->
      (forall t, In t (add_types ct) -> t <> TOrmask -> get_cutout g i 0 t = Ok (coadd_plane co t)) /\ get_psf g i 0 = Ok (co_psf co).
Proof. exact CoaddExtLemmas2.range_of_coadds. Qed.
Print Assumptions C137_range_partial.

(** What the extraction by number gives: never a coadd. *)
Theorem C137_numbers_partial : forall f ct tp junk pjunk coadder rg rows f' order numbers g, stamp_shapes f coadder -> range_from_zero rg -> 0 <= tp ->
  Forall (fun o => 0 < o_box o) (m_cat f) -> write_coadds f ct tp junk pjunk coadder rg = Ok (rows, f') ->
  extract_numbers order f' numbers = Ok g -> forall o, In o (m_cat g) -> o_ncut o <= 0.
Proof. exact CoaddExtLemmas2.numbers_of_coadds. Qed.
Print Assumptions C137_numbers_partial.

Example C137_example : (forall f, stamp_shapes f (ex_coadder f)) /\ range_from_zero (Some (1, 4)) /\
  incl [TImage; TWeight; TSeg] [TImage; TWeight; TSeg; TBmask] /\
  (let* f := ex_cfile in Ok (forallb (fun o => 0 <? o_box o) (m_cat f), match ex_coadder f 3 with Ok (Some co, _) => nr (co_image co) | _ => 0 end)) = Ok (true, 4) /\
  (let* rf := ex_coadds in let* g := extract_range false (snd rf) 2 3 in let* h := extract_numbers (fun l => l) (snd rf) [1; 3] in
   Ok (map (fun e => zlen (snd e)) (m_ext (snd rf)), map (fun o => (o_number o, o_ncut o)) (m_cat g), map (fun e => zlen (snd e)) (m_ext g), option_map zlen (m_psf g), map o_ncut (m_cat h)))
   = Ok ([64; 64; 64; 64; 64; 64], [(3, 0); (4, 1)], [16; 16; 16; 16; 16], Some 9, [0; 0]).
Proof.
  split; [intros f; apply CoaddLemmas6.coadder_stamps; [apply CoaddLemmas7.ex_reject_ok|apply CoaddLemmas7.ex_stamps; reflexivity]|].
  split; [discriminate|]. split; [intros t [<-|[<-|[<-|[]]]]; cbn; tauto|]. split; vm_compute; reflexivity.
Qed.
