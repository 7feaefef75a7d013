(** Property theorems on the random numbers of the coadder and on coadd makers
    used again: C87 to C89. *)
From Verif Require Import Base Img Types Reader MakerLayout MakerWrite MakerFile Composite Coadd CoaddRng
  SpecTiles SpecFile SpecComposite SpecCoadd SpecCoaddRng ExampleData ExampleCoadd ExampleCoaddRng.
From Verif Require CoaddLemmas7 CoaddRngLemmas5.
Open Scope Z_scope.

(** * C87: each single-epoch cutout that is used has its own part of the stream. *)
Theorem C87_epochs : forall c o g err f jm p iobj ob r fl p', reject_keeps_shapes o -> zget (m_cat f) iobj = Some ob ->
  get_coadd_obs_r c o g err f jm p iobj = Ok (r, fl, p') ->
  (o_ncut ob = 1 /\ r = None /\ p' = p) \/ (1 < o_ncut ob /\ coadded_from c o g err f iobj p p' r).
Proof. exact CoaddRngLemmas5.object_numbers. Qed.
Print Assumptions C87_epochs.

(** The objects of a file take consecutive parts, beginning where the maker's
    previous file ended. *)
Theorem C87_objects : forall c o g err f jm ct tp junk pjunk mk rg mk' f', reject_keeps_shapes o -> range_inside f rg ->
  coadd_write f ct tp (get_coadd_obs_r c o g err f jm) junk pjunk mk rg = Ok (mk', f') ->
  exists rs, tiles (cm_pos mk) rs (cm_pos mk') /\
    (forall j, asked f rg j -> exists a b x fl, zget rs (j - first_asked rg) = Some (a, b) /\ get_coadd_obs_r c o g err f jm a j = Ok (x, fl, b)).
Proof. exact CoaddRngLemmas5.write_tile. Qed.
Print Assumptions C87_objects.

Example C87_example : reject_keeps_shapes (ex_oracle 3) /\
  exists f mk mk1 f1 mk2 f2 im, ex_cfile = Ok f /\ coadd_maker f = Ok mk /\ range_inside f (Some (1, 4)) /\
    ex_write f mk (Some (0, 1)) = Ok (mk1, f1) /\ cm_pos mk1 = 48 /\
    ex_write f mk1 (Some (1, 4)) = Ok (mk2, f2) /\ cm_pos mk2 = 112 /\
    get_cutout f2 3 0 TNoise = Ok im /\ px im 0 0 = Some 80%Q.
Proof.
  split; [apply CoaddLemmas7.ex_reject_ok|]. do 7 eexists. split; [vm_compute; reflexivity|]. split; [vm_compute; reflexivity|]. split; [vm_compute; split; discriminate|].
  split; [vm_compute; reflexivity|]. split; [vm_compute; reflexivity|]. split; [vm_compute; reflexivity|]. split; [vm_compute; reflexivity|].
  split; [vm_compute; reflexivity|]. reflexivity.
Qed.

(** * C88: the coadd of an object does not depend on the seed, on the range of the
    run, or on what the maker wrote before, except for the noise. *)
Theorem C88_planes_partial : forall c o f jm ct g err tp junk pjunk mk0 rgs mk files rg mk' f1 g' err' tp' junk' pjunk' rgs' mkb files' rg' mkb' f2 j,
  reject_keeps_shapes o -> coadds_stamps o -> interp_total o -> noise_apart o -> coadd_maker f = Ok mk0 ->
  Forall range_from_zero rgs -> range_from_zero rg -> 0 <= tp -> Forall range_from_zero rgs' -> range_from_zero rg' -> 0 <= tp' ->
  coadd_writes f ct tp (get_coadd_obs_r c o g err f jm) junk pjunk mk0 rgs = Ok (mk, files) ->
  coadd_write f ct tp (get_coadd_obs_r c o g err f jm) junk pjunk mk rg = Ok (mk', f1) ->
  coadd_writes f ct tp' (get_coadd_obs_r c o g' err' f jm) junk' pjunk' mk0 rgs' = Ok (mkb, files') ->
  coadd_write f ct tp' (get_coadd_obs_r c o g' err' f jm) junk' pjunk' mkb rg' = Ok (mkb', f2) ->
  asked f rg j -> asked f rg' j -> 0 <= j < zlen (m_cat f) ->
  (forall t, In t ct \/ t = TOrmask -> t <> TNoise -> get_cutout f1 j 0 t = get_cutout f2 j 0 t) /\ get_psf f1 j 0 = get_psf f2 j 0 /\
  exists r r', zget (cm_rows mk') j = Some r /\ zget (cm_rows mkb') j = Some r' /\ same_row r r'.
Proof. exact CoaddRngLemmas5.two_writes. Qed.
Print Assumptions C88_planes_partial.

Theorem C88_call_partial : forall c o g err g' err' f jm p p2 iobj ob r fl p', interp_total o -> reject_keeps_shapes o -> noise_apart o -> zget (m_cat f) iobj = Some ob ->
  get_coadd_obs_r c o g err f jm p iobj = Ok (r, fl, p') ->
  exists r', get_coadd_obs_r c o g' err' f jm p2 iobj = Ok (r', fl, p2 + (p' - p)) /\ but_noise r r'.
Proof. exact CoaddRngLemmas2.coadd_obs_r_two. Qed.
Print Assumptions C88_call_partial.

(** With the same seed and first object of the range, the noise as well. *)
Theorem C88_same_start_partial : forall c o f jm ct g err tp junk pjunk mk0 rg mk' f1 tp' junk' pjunk' rg' mkb' f2 j,
  reject_keeps_shapes o -> coadds_stamps o -> interp_total o -> noise_apart o -> coadd_maker f = Ok mk0 ->
  range_from_zero rg -> 0 <= tp -> range_from_zero rg' -> 0 <= tp' -> first_asked rg = first_asked rg' ->
  coadd_write f ct tp (get_coadd_obs_r c o g err f jm) junk pjunk mk0 rg = Ok (mk', f1) ->
  coadd_write f ct tp' (get_coadd_obs_r c o g err f jm) junk' pjunk' mk0 rg' = Ok (mkb', f2) ->
  asked f rg j -> asked f rg' j -> 0 <= j < zlen (m_cat f) -> get_cutout f1 j 0 TNoise = get_cutout f2 j 0 TNoise.
Proof. exact CoaddRngLemmas5.same_start. Qed.
Print Assumptions C88_same_start_partial.

(** The noise of an object depends on the objects coadded before it. *)
Theorem C88_noise_refuted : exists f mk mk1 f1 mk2 f2 im1 im2, ex_cfile = Ok f /\ coadd_maker f = Ok mk /\
  ex_write f mk None = Ok (mk1, f1) /\ ex_write f mk (Some (1, 2)) = Ok (mk2, f2) /\
  get_cutout f1 1 0 TNoise = Ok im1 /\ get_cutout f2 1 0 TNoise = Ok im2 /\ px im1 0 0 = Some 48%Q /\ px im2 0 0 = Some 0%Q.
Proof. exact CoaddRngLemmas5.noise_differs. Qed.
Print Assumptions C88_noise_refuted.

Example C88_example : reject_keeps_shapes (ex_oracle 3) /\ coadds_stamps (ex_oracle 3) /\ interp_total (ex_oracle 3) /\ noise_apart (ex_oracle 3) /\
  exists f mk mk1 f1 mk2 f2 im, ex_cfile = Ok f /\ coadd_maker f = Ok mk /\
    ex_write f mk None = Ok (mk1, f1) /\ ex_write f mk (Some (1, 2)) = Ok (mk2, f2) /\ asked f None 1 /\ asked f (Some (1, 2)) 1 /\
    get_cutout f1 1 0 TImage = Ok im /\ get_cutout f2 1 0 TImage = Ok im /\ px im 0 0 = Some 2127%Q.
Proof.
  split; [apply CoaddLemmas7.ex_reject_ok|]. split; [apply CoaddLemmas7.ex_stamps; reflexivity|]. split; [apply CoaddLemmas7.ex_interp|]. split; [apply CoaddRngLemmas5.ex_apart|].
  do 7 eexists. split; [vm_compute; reflexivity|]. split; [vm_compute; reflexivity|]. split; [vm_compute; reflexivity|]. split; [vm_compute; reflexivity|].
  split; [vm_compute; split; [discriminate|reflexivity]|]. split; [vm_compute; split; [discriminate|reflexivity]|].
  split; [vm_compute; reflexivity|]. split; [vm_compute; reflexivity|]. reflexivity.
Qed.

(** * C89: the objects asked for are written right whatever the maker wrote before. *)
Theorem C89_asked_partial : forall c o g err f jm ct tp junk pjunk mk0 rgs mk files rg mk' f' j ob,
  reject_keeps_shapes o -> coadds_stamps o -> interp_total o -> noise_apart o ->
  coadd_maker f = Ok mk0 -> Forall range_from_zero rgs -> range_from_zero rg -> 0 <= tp ->
  coadd_writes f ct tp (get_coadd_obs_r c o g err f jm) junk pjunk mk0 rgs = Ok (mk, files) ->
  coadd_write f ct tp (get_coadd_obs_r c o g err f jm) junk pjunk mk rg = Ok (mk', f') ->
  asked f rg j -> zget (m_cat f) j = Some ob ->
  exists l1 q q' x fl r, coadd_calls (get_coadd_obs_r c o g err f jm) (cm_pos mk) (zrange2 (first_asked rg) j) = Ok (l1, q) /\
    get_coadd_obs_r c o g err f jm q j = Ok (x, fl, q') /\ zget (cm_rows mk') j = Some r /\ zget (m_cat f') j = Some (cr_obj r) /\
    match x with
    | None => o_ncut (cr_obj r) = 0 /\ cr_coadd_flags r = fl
    | Some co => written_row co fl r /\ (forall t, In t ct \/ t = TOrmask \/ t = TNoise -> get_cutout f' j 0 t = Ok (coadd_plane co t)) /\ get_psf f' j 0 = Ok (co_psf co)
    end.
Proof. exact CoaddRngLemmas5.asked_written. Qed.
Print Assumptions C89_asked_partial.

(** The rows of other objects: one written earlier keeps its count and its place,
    and reads the pixels of another object. *)
Theorem C89_other_rows_refuted : exists f mk mk1 f1 mk2 f2 ob im1 im2 im, ex_cfile = Ok f /\ coadd_maker f = Ok mk /\
  ex_write f mk (Some (0, 1)) = Ok (mk1, f1) /\ ex_write f mk1 (Some (1, 2)) = Ok (mk2, f2) /\
  ~ asked f (Some (1, 2)) 0 /\ zget (m_cat f2) 0 = Some ob /\ o_ncut ob = 1 /\
  get_cutout f1 0 0 TImage = Ok im1 /\ get_cutout f2 0 0 TImage = Ok im2 /\ im2 <> im1 /\
  get_cutout f2 1 0 TImage = Ok im /\ im2 = im /\ ~ (exists e, tiles 0 (cut_ranges (m_cat f2)) e).
Proof. exact CoaddRngLemmas5.stale_rows. Qed.
Print Assumptions C89_other_rows_refuted.

Example C89_example : exists f mk mk1 files mk2 f2 im r, ex_cfile = Ok f /\ coadd_maker f = Ok mk /\
  coadd_writes f [TImage; TWeight; TSeg; TBmask] 40 (ex_coadder f) ex_junk (fun _ => 0%Q) mk [Some (0, 1); Some (2, 4)] = Ok (mk1, files) /\
  ex_write f mk1 None = Ok (mk2, f2) /\ get_cutout f2 3 0 TOrmask = Ok im /\ zget (cm_rows mk2) 2 = Some r /\ o_ncut (cr_obj r) = 0 /\ cr_coadd_flags r = 1 /\
  map (fun x => map s_start (o_slots x)) (m_cat f2) = [[0; -9999]; [16; -9999]; [-9999; -9999]; [32; -9999]].
Proof.
  do 8 eexists. split; [vm_compute; reflexivity|]. split; [vm_compute; reflexivity|]. split; [vm_compute; reflexivity|]. split; [vm_compute; reflexivity|].
  split; [vm_compute; reflexivity|]. split; [vm_compute; reflexivity|]. split; [reflexivity|]. split; [reflexivity|]. vm_compute. reflexivity.
Qed.
