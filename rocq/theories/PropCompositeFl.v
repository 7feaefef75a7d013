(** Property theorems: composite and interpolated maps in double precision. *)
From Coq Require Import Qabs.
From Verif Require Import Base Img Types Reader Composite Single Typed SpecTiles SpecFile SpecComposite CompositeFl SpecCompositeFl
  CompositeFlLemmas2.
Open Scope Z_scope.

(** C125, the expectation: rounding does not change the maps.  False even when the
    inverse is the best possible one: a position half way between two coadd pixels. *)
Theorem C125_refuted : exists f iobj k o s0 s z i, file_wf f /\ cutout_at f iobj k o s /\ zget (o_slots o) 0 = Some s0 /\
  slot_doubles s0 /\ slot_doubles s /\ sizes_ok z /\ (tolerance z < 1#1000000000)%Q /\ box_within z s0 s (o_box o) /\
  best_inverse (jac_of s0) = Ok i /\ near_inverse z s0 i /\
  forall ub, interpolate_coadd_seg_fl ub best_inverse f iobj k <> interpolate_coadd_seg f iobj k /\
    get_cweight_cutout_fl ub best_inverse f iobj k true <> get_cweight_cutout f iobj k true /\
    get_cseg_cutout_fl ub best_inverse f iobj k <> get_cseg_cutout f iobj k.
Proof. exact same_refuted. Qed.
Print Assumptions C125_refuted.

(** Half a pixel from the coadd at 0.168 arc seconds per pixel: the first row of the
    cutout is at 1/2, which goes to row 0, and is computed to be just above. *)
Example C125_refuted_example :
  let p := fl_position (fin_mat cx_jac) (match best_inverse cx_jac with Ok i => i | Err _ => fin_mat cx_jac end) (fin_pair (3#2, 3#2)%Q) (fin_pair (2, 2)%Q) 0 0 in
  fst p = Fin (4503599627370498 # 9007199254740992) /\
  (let* a := interpolate_coadd_seg cx_tie 0 1 in let* b := interpolate_coadd_seg_fl (fun _ => 0) best_inverse cx_tie 0 1 in
   Ok (px a 0 0, px b 0 0)) = Ok (Some 2%Q, Some 1%Q).
Proof. vm_compute. split; reflexivity. Qed.

(** C125, the expectation for a cutout in the frame of the coadd: the coadd's map
    itself.  False for a Jacobian that is invertible but nearly singular. *)
Theorem C125_frame_refuted : exists f iobj k o s0 s seg, file_wf f /\ cutout_at f iobj k o s /\ zget (o_slots o) 0 = Some s0 /\
  slot_doubles s0 /\ slot_doubles s /\ same_frame s0 s /\ ~ (jac_det s0 == 0)%Q /\ get_cutout f iobj 0 TSeg = Ok seg /\
  forall ub, interpolate_coadd_seg_fl ub best_inverse f iobj k <> Ok seg.
Proof. exact frame_refuted. Qed.
Print Assumptions C125_frame_refuted.

Example C125_frame_refuted_example :
  (let* a := get_cutout cx_narrow 0 0 TSeg in let* b := interpolate_coadd_seg_fl (fun _ => 0) best_inverse cx_narrow 0 1 in
   Ok (px a 1 1, px b 1 1)) = Ok (Some 4%Q, Some 3%Q).
Proof. vm_compute. reflexivity. Qed.

(** C125, what holds always: the coadd pixel used is within half a pixel and the error
    of the position with the same sky offset, or at the edge nearest to it. *)
Theorem C125_pixel_partial : forall ub z s0 s i h w r c x y,
  sizes_ok z -> near_inverse z s0 i -> within z s0 s r c -> same_sky s0 s r c x y -> 0 < h -> 0 < w ->
  let p := to_coadd_fl ub (fin_mat (jac_of s)) i (fin_pair (s_crow s, s_ccol s)) (fin_pair (s_crow s0, s_ccol s0)) h w r c in
  near_pixel (tolerance z) x h (fst p) /\ near_pixel (tolerance z) y w (snd p) /\ 0 <= fst p < h /\ 0 <= snd p < w.
Proof. exact pixel_near. Qed.
Print Assumptions C125_pixel_partial.

(** The error at 0.168 arc seconds per pixel and boxes of up to 512 pixels. *)
Example C125_pixel_example :
  sizes_ok (mkSizes 512 1 8 (1 # 9007199254740992)) /\ (tolerance (mkSizes 512 1 8 (1 # 9007199254740992)) < 1 # 10000000000)%Q /\
  sizes_ok cx_sizes /\ (exists i, best_inverse (jac_of cx_s0) = Ok i /\ near_inverse cx_sizes cx_s0 i) /\
  within cx_sizes cx_s0 cx_half 0 0 /\ same_sky cx_s0 cx_half 0 0 (1#2) (1#2).
Proof.
  split; [unfold sizes_ok; vm_compute; repeat split; discriminate|]. split; [vm_compute; reflexivity|]. split; [apply cx_sizes_ok|].
  split; [exact cx_inverse|]. split; [apply (cx_within cx_half); cbn; tauto || (split; [discriminate|reflexivity])|]. vm_compute. split; reflexivity.
Qed.

(** C125, what holds: away from such ties the maps are the exact ones of C26, C27 and
    C28. *)
Theorem C125_cweight_partial : forall ub inv f iobj k o s0 s z i,
  file_wf f -> cutout_at f iobj k o s -> zget (o_slots o) 0 = Some s0 -> sizes_ok z -> inv (jac_of s0) = Ok i -> near_inverse z s0 i ->
  box_within z s0 s (o_box o) -> no_ties z s0 s (o_box o) ->
  forall restrict, get_cweight_cutout_fl ub inv f iobj k restrict = get_cweight_cutout f iobj k restrict.
Proof. exact cweight_same. Qed.
Print Assumptions C125_cweight_partial.

Theorem C125_cseg_partial : forall ub inv f iobj k o s0 s z i,
  file_wf f -> cutout_at f iobj k o s -> zget (o_slots o) 0 = Some s0 -> sizes_ok z -> inv (jac_of s0) = Ok i -> near_inverse z s0 i ->
  box_within z s0 s (o_box o) -> no_ties z s0 s (o_box o) -> get_cseg_cutout_fl ub inv f iobj k = get_cseg_cutout f iobj k.
Proof. exact cseg_same. Qed.
Print Assumptions C125_cseg_partial.

Theorem C125_interpolate_partial : forall ub inv f iobj k o s0 s z i,
  file_wf f -> cutout_at f iobj k o s -> zget (o_slots o) 0 = Some s0 -> sizes_ok z -> inv (jac_of s0) = Ok i -> near_inverse z s0 i ->
  box_within z s0 s (o_box o) -> no_ties z s0 s (o_box o) -> interpolate_coadd_seg_fl ub inv f iobj k = interpolate_coadd_seg f iobj k.
Proof. exact interpolate_same. Qed.
Print Assumptions C125_interpolate_partial.

(** A cutout a quarter of a pixel from the coadd. *)
Example C125_same_example :
  file_wf cx_good /\ (exists o, cutout_at cx_good 0 1 o cx_quarter /\ zget (o_slots o) 0 = Some cx_s0 /\ o_box o = 4) /\
  sizes_ok cx_sizes /\ (exists i, best_inverse (jac_of cx_s0) = Ok i /\ near_inverse cx_sizes cx_s0 i) /\
  box_within cx_sizes cx_s0 cx_quarter 4 /\ no_ties cx_sizes cx_s0 cx_quarter 4 /\
  (let* b := interpolate_coadd_seg_fl (fun _ => 0) best_inverse cx_good 0 1 in Ok (px b 0 0, px b 1 0)) = Ok (Some 2%Q, Some 1%Q) /\
  (let* b := get_cweight_cutout_fl (fun _ => 0) best_inverse cx_good 0 1 true in Ok (px b 0 0, px b 1 0)) = Ok (Some 0%Q, Some 1%Q) /\
  (let* b := get_cseg_cutout_fl (fun _ => 0) best_inverse cx_good 0 1 in Ok (px b 0 0, px b 1 0)) = Ok (Some 0%Q, Some 1%Q).
Proof.
  split; [apply cx_wf; vm_compute; reflexivity|].
  split; [eexists; split; [split; [reflexivity|split; [split; [discriminate|reflexivity]|reflexivity]]|split; reflexivity]|].
  split; [apply cx_sizes_ok|]. split; [exact cx_inverse|]. split; [apply cx_within; cbn; tauto|]. split; [exact cx_no_ties|].
  split; [vm_compute; reflexivity|]. split; vm_compute; reflexivity.
Qed.

(** C125, in the frame of the coadd: its seg map itself, if the error is below half a
    pixel. *)
Theorem C125_frame_partial : forall ub inv f iobj k o s0 s z i seg,
  file_wf f -> cutout_at f iobj k o s -> zget (o_slots o) 0 = Some s0 -> sizes_ok z -> inv (jac_of s0) = Ok i -> near_inverse z s0 i ->
  box_within z s0 s (o_box o) -> (tolerance z < 1#2)%Q -> same_frame s0 s -> get_cutout f iobj 0 TSeg = Ok seg ->
  interpolate_coadd_seg_fl ub inv f iobj k = Ok seg.
Proof. exact frame_same. Qed.
Print Assumptions C125_frame_partial.


(** C125, without an inverse of the coadd's Jacobian: maps of zeros, no interpolation. *)
Theorem C125_no_inverse : forall ub inv f iobj k o s0 s e wt sek seg segid, file_wf f -> cutout_at f iobj k o s -> k <> 0 ->
  zget (o_slots o) 0 = Some s0 -> inv (jac_of s0) = Err e ->
  get_cutout f iobj k TWeight = Ok wt -> get_cutout f iobj k TSeg = Ok sek -> get_cutout f iobj 0 TSeg = Ok seg ->
  m_number_col f = true -> central_seg seg s0 segid -> (0 <= s_crow s0)%Q -> (0 <= s_ccol s0)%Q ->
  (forall restrict, exists cw, get_cweight_cutout_fl ub inv f iobj k restrict = Ok cw /\ pixelwise (fun _ _ _ y => y = 0%Q) wt cw) /\
  (exists cs, get_cseg_cutout_fl ub inv f iobj k = Ok cs /\ pixelwise (fun _ _ _ y => y = 0%Q) sek cs) /\
  interpolate_coadd_seg_fl ub inv f iobj k = Err e.
Proof. exact no_inverse. Qed.
Print Assumptions C125_no_inverse.

Example C125_no_inverse_example :
  let f := cx_file 4 (cx_slot 0 2 2 (1, 2, 2, 4)%Q) cx_half cx_seg in
  file_wf f /\ best_inverse (1, 2, 2, 4)%Q = Err LinAlgError /\ m_number_col f = true /\
  (let* seg := get_cutout f 0 0 TSeg in let* wt := get_cutout f 0 1 TWeight in let* sek := get_cutout f 0 1 TSeg in
   Ok (px seg 2 2, px wt 1 1)) = Ok (Some 1%Q, Some 1%Q).
Proof.
  split; [apply cx_wf; vm_compute; reflexivity|]. split; [vm_compute; reflexivity|]. split; [reflexivity|]. vm_compute. reflexivity.
Qed.

Example C125_frame_example :
  let f := cx_file 4 cx_s0 (cx_slot 16 2 2 cx_jac) cx_seg in
  file_wf f /\ same_frame cx_s0 (cx_slot 16 2 2 cx_jac) /\ (tolerance cx_sizes < 1#2)%Q /\
  interpolate_coadd_seg_fl (fun _ => 0) best_inverse f 0 1 = get_cutout f 0 0 TSeg.
Proof.
  split; [apply cx_wf; vm_compute; reflexivity|]. split; [repeat split; reflexivity|]. split; [vm_compute; reflexivity|]. vm_compute. reflexivity.
Qed.
