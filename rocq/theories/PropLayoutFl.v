(** Property theorems on positions in double precision: C117. *)
From Coq Require Import Qabs.
From Verif Require Import Base Img Types MakerLayout MakerWrite MakerFile Typed SpecTyped SpecTiles SpecLayout SpecFile LayoutFl SpecLayoutFl ExampleData.
From Verif Require LayoutFlLemmas2 LayoutFlLemmas3.
Open Scope Z_scope.

(** * C117 *)

(** The corner and the position in the cutout do not add up to the position: the
    addition of the half box drops bits. *)
Theorem C117_adds_up_refuted : exists im half row col z c, fi_sane im /\ half_sane half /\ is_float true row /\ is_float true col /\
  forall ub, exists a b, fl_cutout ub im half (Fin row) (Fin col) = Some (a, b) /\
    ax_orig a = Fin z /\ ax_cutout a = Fin c /\ ~ (inject_Z (ax_start a) + c == z)%Q.
Proof.
  exists ex_flim0, 16, (1 + Qpower (2#1) (-52))%Q, 50%Q. do 2 eexists. split; [|split; [|split; [|split]]].
  - repeat split; try (intros H; discriminate H). exists 0%Q. repeat split; try (intros H; discriminate H). exists 0, 0. repeat split; intros H; discriminate H.
  - split; intros H; discriminate H.
  - exists (2 ^ 52 + 1), (-52). repeat split; intros H; discriminate H.
  - exists 50, 0. repeat split; intros H; discriminate H.
  - intros ub. do 2 eexists. split; [vm_compute; reflexivity|]. split; [reflexivity|]. split; [reflexivity|].
    vm_compute. intros H; discriminate H.
Qed.
Print Assumptions C117_adds_up_refuted.

(** The position in the cutout is not always in the pixel the corner was computed
    for: just below a pixel edge it is rounded up to it. *)
Theorem C117_central_pixel_refuted : exists im half row col z c, fi_sane im /\ half_sane half /\ is_float true row /\ is_float true col /\
  forall ub, exists a b, fl_cutout ub im half (Fin row) (Fin col) = Some (a, b) /\
    ax_orig a = Fin z /\ ax_cutout a = Fin c /\ (0 <= z)%Q /\ ~ (c < inject_Z half)%Q.
Proof.
  exists ex_flim, 16, (2 - Qpower (2#1) (-52))%Q, 50%Q. do 2 eexists. split; [|split; [|split; [|split]]].
  - repeat split; try (intros H; discriminate H). exists 1%Q. repeat split; try (intros H; discriminate H). exists 1, 0. repeat split; intros H; discriminate H.
  - split; intros H; discriminate H.
  - exists (2 ^ 53 - 1), (-52). repeat split; intros H; discriminate H.
  - exists 50, 0. repeat split; intros H; discriminate H.
  - intros ub. do 2 eexists. split; [vm_compute; reflexivity|]. split; [reflexivity|]. split; [reflexivity|].
    split; vm_compute; intros H; discriminate H.
Qed.
Print Assumptions C117_central_pixel_refuted.

(** With an unusual offset a position off the image can be rounded onto its edge. *)
Theorem C117_off_the_image_refuted : exists im half row col, fi_sane im /\ half_sane half /\ is_float true row /\ is_float true col /\
  fi_buffer im = None /\ (row < 1)%Q /\ forall ub, exists a b, fl_cutout ub im half (Fin row) (Fin col) = Some (a, b).
Proof.
  exists (mkFimage 100 100 (Fin (-1)) None), 16, (1 - Qpower (2#1) (-53))%Q, 50%Q. split; [|split; [|split; [|split; [|split; [|split]]]]].
  - repeat split; try (intros H; discriminate H). exists (-1)%Q. repeat split; try (intros H; discriminate H). exists (-1), 0. repeat split; intros H; discriminate H.
  - split; intros H; discriminate H.
  - exists (2 ^ 53 - 1), (-53). repeat split; intros H; discriminate H.
  - exists 50, 0. repeat split; intros H; discriminate H.
  - reflexivity.
  - reflexivity.
  - intros ub. do 2 eexists. vm_compute. reflexivity.
Qed.
Print Assumptions C117_off_the_image_refuted.

(** With an unusual offset an object on the edge of the buffer zone can be lost:
    the offset is the double nearest to 0.1, the buffer one pixel. *)
Theorem C117_buffer_refuted : exists im half row col, fi_sane im /\ half_sane half /\ is_float true row /\ is_float true col /\
  (1 - buffer_of im <= row <= inject_Z (fi_nrow im) + buffer_of im)%Q /\
  (1 - buffer_of im <= col <= inject_Z (fi_ncol im) + buffer_of im)%Q /\
  forall ub, fl_cutout ub im half (Fin row) (Fin col) = None.
Proof.
  exists ex_flim_tenth, 16, 0%Q, 50%Q. split; [|split; [|split; [|split; [|split; [|split]]]]].
  - repeat split; try (intros H; discriminate H).
    + eexists. split; [reflexivity|]. split; [|intros H; discriminate H]. exists 3602879701896397, (-55). repeat split; intros H; discriminate H.
    + exists 1%Q. repeat split; try (intros H; discriminate H). exists 1, 0. repeat split; intros H; discriminate H.
  - split; intros H; discriminate H.
  - exists 0, 0. repeat split; intros H; discriminate H.
  - exists 50, 0. repeat split; intros H; discriminate H.
  - split; intros H; discriminate H.
  - split; intros H; discriminate H.
  - intros ub. vm_compute. reflexivity.
Qed.
Print Assumptions C117_buffer_refuted.

(** No object on the image is lost. *)
Theorem C117_none_lost : forall ub im half row col, fi_sane im -> is_float true row -> is_float true col ->
  (1 <= row <= inject_Z (fi_nrow im))%Q -> (1 <= col <= inject_Z (fi_ncol im))%Q ->
  exists a b, fl_cutout ub im half (Fin row) (Fin col) = Some (a, b).
Proof. exact LayoutFlLemmas2.on_the_image. Qed.
Print Assumptions C117_none_lost.

(** An object with a cutout is on the image with the buffer, up to 2^-20 of a
    pixel; in particular its position is neither infinite nor NaN. *)
Theorem C117_inside_partial : forall ub im half row col a b, fi_sane im -> fl_cutout ub im half row col = Some (a, b) ->
  exists r c, row = Fin r /\ col = Fin c /\
    (1 - buffer_of im - (1 # 1048576) <= r <= inject_Z (fi_nrow im) + buffer_of im + (1 # 1048576))%Q /\
    (1 - buffer_of im - (1 # 1048576) <= c <= inject_Z (fi_ncol im) + buffer_of im + (1 # 1048576))%Q.
Proof. exact LayoutFlLemmas2.inside. Qed.
Print Assumptions C117_inside_partial.

(** With offset 0 or 1 and no buffer exactly the objects on the image have
    cutouts, and their positions are stored exactly. *)
Theorem C117_usual_offsets : forall ub im half row col, fi_sane im -> (offset_of im == 0 \/ offset_of im == 1)%Q ->
  fi_buffer im = None -> fl_ok true row -> fl_ok true col ->
  ((exists a b, fl_cutout ub im half row col = Some (a, b)) <->
   exists r c, row = Fin r /\ col = Fin c /\ (1 <= r <= inject_Z (fi_nrow im))%Q /\ (1 <= c <= inject_Z (fi_ncol im))%Q).
Proof. exact LayoutFlLemmas2.usual. Qed.
Print Assumptions C117_usual_offsets.

Theorem C117_usual_positions : forall ub im half r c a b, fi_sane im -> (offset_of im == 0 \/ offset_of im == 1)%Q ->
  fi_buffer im = None -> is_float true r -> is_float true c -> fl_cutout ub im half (Fin r) (Fin c) = Some (a, b) ->
  exists z y, ax_orig a = Fin z /\ ax_orig b = Fin y /\ (z == r - offset_of im)%Q /\ (y == c - offset_of im)%Q.
Proof. exact LayoutFlLemmas2.usual_orig. Qed.
Print Assumptions C117_usual_positions.

(** In units of 2^-20 of a pixel exactly the objects on the image with the buffer
    have cutouts. *)
Theorem C117_coarse_partial : forall ub im half row col, fi_sane im -> coarse row -> coarse col -> coarse (offset_of im) -> coarse (buffer_of im) ->
  ((exists a b, fl_cutout ub im half (Fin row) (Fin col) = Some (a, b)) <->
   (1 - buffer_of im <= row <= inject_Z (fi_nrow im) + buffer_of im)%Q /\
   (1 - buffer_of im <= col <= inject_Z (fi_ncol im) + buffer_of im)%Q).
Proof. exact LayoutFlLemmas2.accepted_coarse. Qed.
Print Assumptions C117_coarse_partial.

(** What is stored, whatever the processor does with numbers out of range: the
    corner comes from the integer part, never from a number out of range, and the
    position in the cutout is off by at most 2^-30 and within its pixel or on its
    upper edge. *)
Theorem C117_positions_partial : forall ub im half row col a b, fi_sane im -> half_sane half ->
  fl_cutout ub im half row col = Some (a, b) ->
  exists r c, row = Fin r /\ col = Fin c /\ axis_ok half (offset_of im) r a /\ axis_ok half (offset_of im) c b.
Proof. exact LayoutFlLemmas2.positions. Qed.
Print Assumptions C117_positions_partial.

(** Positions and offsets in units of 2^-20 of a pixel: no rounding at all. *)
Theorem C117_exact_partial : forall ub im half row col a b, fi_sane im -> half_sane half ->
  coarse row -> coarse col -> coarse (offset_of im) -> fl_cutout ub im half (Fin row) (Fin col) = Some (a, b) ->
  axis_exact (offset_of im) row a /\ axis_exact (offset_of im) col b.
Proof. exact LayoutFlLemmas2.exact_coarse. Qed.
Print Assumptions C117_exact_partial.

Example C117_example : forall ub,
  match fl_cutout ub ex_flim 16 (Fin (2049 # 4)) (Fin 2048) with
  | Some (a, b) => match ax_orig a, ax_cutout a, ax_orig b, ax_cutout b with
      | Fin z, Fin c, Fin y, Fin d => Some (Qred z, ax_start a, Qred c, (Qred y, ax_start b, Qred d))
      | _, _, _, _ => None end
  | None => None end = Some ((2045 # 4)%Q, 496, (61 # 4)%Q, (2047%Q, 2032, 15%Q)) /\
  fl_cutout ub ex_flim 16 (Fin (2049 # 4)) NaN = None /\
  fl_cutout ub ex_flim_coadd 16 (Fin (-63)) (Fin 10064) <> None /\
  fl_cutout ub ex_flim_coadd 16 (Fin (-64)) (Fin 10064) = None.
Proof. intros ub. split; [vm_compute; reflexivity|]. split; [vm_compute; reflexivity|]. split; [vm_compute; intros H; discriminate H|vm_compute; reflexivity]. Qed.

(** The file of the exact-number model (C06, C07) is the file computed in doubles:
    when positions, offsets and buffer are in units of 2^-20 of a pixel, the
    cutouts of the file are exactly the ones computed in doubles and the positions
    and corners written are the doubles. *)
Theorem C117_written_partial : forall ub k types rows psf input junk pjunk f objs,
  make_meds k types rows psf input junk pjunk = Ok f -> selected (k_l k) (map ir_image rows) input objs ->
  forall i o o', zget objs i = Some o -> zget (m_cat f) i = Some o' -> half_sane (o_box o' / 2) ->
  (forall fid im, zget (map ir_image rows) fid = Some im -> image_coarse (k_l k) fid im o) ->
  (forall fid, In fid (map s_file (used_slots o')) <->
     exists im, zget (map ir_image rows) fid = Some im /\ w_cut (im_wcs im) (o_ra o) (o_dec o) = true /\
       double_cutout ub (k_l k) fid im o (o_box o' / 2) <> None) /\
  (forall icut s, cutout_at f i icut o' s -> exists im a b, zget (map ir_image rows) (s_file s) = Some im /\
     double_cutout ub (k_l k) (s_file s) im o (o_box o' / 2) = Some (a, b) /\
     axis_is (s_orow s) (s_osr s) (s_crow s) a /\ axis_is (s_ocol s) (s_osc s) (s_ccol s) b).
Proof. exact LayoutFlLemmas3.written_doubles. Qed.
Print Assumptions C117_written_partial.

(** Three objects on a coadd with buffer 1 and two images: positions and corners
    computed in doubles, in the images in which they have cutouts.  The file is
    the one of [C07_example]. *)
Example C117_written_example : forall ub,
  (let* f := ex_make None in
   Ok (map (fun oo => map (fun fid => match zget ex_rows fid with
         | Some im => match double_cutout ub (k_l ex_conf) fid (ir_image im) (fst oo) (o_box (snd oo) / 2) with
             | Some (a, b) => match ax_orig a, ax_orig b with
                 | Fin y, Fin x => Some (Qred y, Qred x, ax_start a, ax_start b)
                 | _, _ => None end
             | None => None end
         | None => None end) [0; 1; 2]) (combine ex_objs (m_cat f))))
  = Ok [[Some (7#2, 9#2, 2, 3); Some (3#2, 7#2, 0, 2); Some (1#2, 1#2, -1, -1)];
        [Some (1#4, 1#2, -1, -1); None; None];
        [Some (11#2, inject_Z 3, 5, 3); Some (7#2, inject_Z 2, 3, 2); None]].
Proof. intros ub. vm_compute. reflexivity. Qed.
Example C117_coarse_example : forall o fid im, In o ex_objs -> zget (map ir_image ex_rows) fid = Some im ->
  image_coarse (k_l ex_conf) fid im o.
Proof. exact LayoutFlLemmas3.ex_coarse. Qed.
