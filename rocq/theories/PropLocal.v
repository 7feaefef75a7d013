(** Properties on independence of the parts of a file: C80 to C83. *)
From Coq Require Import String.
From Verif Require Import Base Img Types Reader MakerLayout MakerWrite MakerFile Extract
  SpecFile SpecExtract SpecLocal ExampleData ExampleLocal.
From Verif Require LocalLemmas LocalLemmas2.
Open Scope Z_scope.

(** * C80 *)
Theorem C80_objects_independent :
  forall k types1 types2 rows psf input1 input2 j1 j2 p1 p2 f1 f2 objs1 objs2,
  make_meds k types1 rows psf input1 j1 p1 = Ok f1 -> make_meds k types2 rows psf input2 j2 p2 = Ok f2 ->
  selected (k_l k) (map ir_image rows) input1 objs1 -> selected (k_l k) (map ir_image rows) input2 objs2 ->
  Forall (fun o => 1 <= o_box o) input1 -> Forall (fun o => 1 <= o_box o) input2 ->
  Forall (fun r => source_ok (ir_src r)) rows -> 1 <= k_njob k -> psfs_fit psf ->
  forall i1 i2 o1 o2, zget objs1 i1 = Some o1 -> zget objs2 i2 = Some o2 -> same_input k o1 o2 ->
  exists o1' o2', zget (m_cat f1) i1 = Some o1' /\ zget (m_cat f2) i2 = Some o2' /\
    o_box o1' = o_box o2' /\ o_ncut o1' = o_ncut o2' /\
    forall icut, 0 <= icut < o_ncut o1' ->
      same_cutout rows f1 i1 f2 i2 icut /\ (psf <> None -> same_psf f1 i1 f2 i2 icut).
Proof. exact LocalLemmas.objects_independent. Qed.
Print Assumptions C80_objects_independent.

(** The third object of one catalog is the first of another, whose file has other
    types; there it starts at pixel 0 instead of 64. *)
Example C80_example : exists f1 f2,
  ex_make (Some ex_psfs) = Ok f1 /\
  make_meds ex_conf ["seg"]%string ex_rows (Some ex_psfs) [ex_obj 13 3 2 4 (13#2); ex_obj 20 9 6 3 3] ex_junk (fun _ => 0%Q) = Ok f2 /\
  get_cutout f1 2 1 TSeg = get_cutout f2 0 1 TSeg /\ get_psf f1 2 1 = get_psf f2 0 1 /\
  get_cutout f2 0 1 TSeg = Ok (mkImg 2 2 [67; 68; 87; 88]%Q) /\
  same_input ex_conf (ex_obj 13 3 2 4 (13#2)) (ex_obj 13 3 2 4 (13#2)) /\ psfs_fit (Some ex_psfs) /\
  (exists o1 o2 s1 s2, zget (m_cat f1) 2 = Some o1 /\ zget (m_cat f2) 0 = Some o2 /\
     zget (o_slots o1) 0 = Some s1 /\ zget (o_slots o2) 0 = Some s2 /\ s_start s1 = 64 /\ s_start s2 = 0).
Proof.
  do 2 eexists. split; [vm_compute; reflexivity|]. split; [vm_compute; reflexivity|].
  split; [vm_compute; reflexivity|]. split; [vm_compute; reflexivity|]. split; [vm_compute; reflexivity|].
  split; [apply LocalLemmas.same_input_refl|]. split; [exact ex_psfs_fit|].
  do 4 eexists. repeat (split; [vm_compute; reflexivity|]). vm_compute; reflexivity.
Qed.

(** * C81 *)
Theorem C81_later_images_only_append :
  forall k types1 types2 rows extra psf1 psf2 input1 input2 j1 j2 p1 p2 f1 f2 objs1 objs2,
  make_meds k types1 rows psf1 input1 j1 p1 = Ok f1 ->
  make_meds k types2 (rows ++ extra) psf2 input2 j2 p2 = Ok f2 ->
  selected (k_l k) (map ir_image rows) input1 objs1 ->
  selected (k_l k) (map ir_image (rows ++ extra)) input2 objs2 ->
  Forall (fun o => 1 <= o_box o) input1 -> Forall (fun o => 1 <= o_box o) input2 ->
  Forall (fun r => source_ok (ir_src r)) (rows ++ extra) -> 1 <= k_njob k ->
  psfs_fit psf1 -> psfs_fit psf2 -> psfs_agree (zlen rows) psf1 psf2 ->
  forall i1 i2 o1 o2, zget objs1 i1 = Some o1 -> zget objs2 i2 = Some o2 -> same_input k o1 o2 ->
  exists o1' o2', zget (m_cat f1) i1 = Some o1' /\ zget (m_cat f2) i2 = Some o2' /\
    o_box o1' = o_box o2' /\ 0 <= o_ncut o1' <= o_ncut o2' /\
    (forall icut s, o_ncut o1' <= icut < o_ncut o2' -> zget (o_slots o2') icut = Some s ->
       zlen rows <= s_file s < zlen rows + zlen extra) /\
    (forall icut, 0 <= icut < o_ncut o1' -> same_cutout rows f1 i1 f2 i2 icut /\
       (psf1 <> None -> same_psf f1 i1 f2 i2 icut)).
Proof. exact LocalLemmas.images_appended. Qed.
Print Assumptions C81_later_images_only_append.

(** The first two images alone, and all three. *)
Example C81_example : exists f1 f2,
  make_meds ex_conf ex_types (firstn 2 ex_rows) (Some (firstn 2 ex_psfs)) ex_objs ex_junk (fun _ => 0%Q) = Ok f1 /\
  ex_make (Some ex_psfs) = Ok f2 /\ firstn 2 ex_rows ++ skipn 2 ex_rows = ex_rows /\
  psfs_agree 2 (Some (firstn 2 ex_psfs)) (Some ex_psfs) /\
  map o_ncut (m_cat f1) = [2; 1; 2] /\ map o_ncut (m_cat f2) = [3; 1; 2] /\
  get_cutout f1 2 1 TImage = get_cutout f2 2 1 TImage /\ get_psf f1 2 1 = get_psf f2 2 1.
Proof.
  do 2 eexists. split; [vm_compute; reflexivity|]. split; [vm_compute; reflexivity|].
  split; [reflexivity|]. split; [exact ex_psfs_agree|]. repeat (split; [vm_compute; reflexivity|]). vm_compute; reflexivity.
Qed.

(** * C82 *)
Theorem C82_unused_colours : forall k types1 types2 rows psf input1 input2 j1 j2 p1 p2 f1 f2 objs1 objs2,
  coadd_astrom_color (k_l k) = false -> se_astrom_color (k_l k) = false ->
  psf_coadd_color (k_p k) = false -> psf_se_color (k_p k) = false ->
  make_meds k types1 rows psf input1 j1 p1 = Ok f1 -> make_meds k types2 rows psf input2 j2 p2 = Ok f2 ->
  selected (k_l k) (map ir_image rows) input1 objs1 -> selected (k_l k) (map ir_image rows) input2 objs2 ->
  Forall (fun o => 1 <= o_box o) input1 -> Forall (fun o => 1 <= o_box o) input2 ->
  Forall (fun r => source_ok (ir_src r)) rows -> 1 <= k_njob k -> psfs_fit psf ->
  forall i1 i2 o1 o2, zget objs1 i1 = Some o1 -> zget objs2 i2 = Some o2 ->
  o_ra o1 = o_ra o2 -> o_dec o1 = o_dec o2 -> o_box o1 = o_box o2 ->
  exists o1' o2', zget (m_cat f1) i1 = Some o1' /\ zget (m_cat f2) i2 = Some o2' /\
    o_box o1' = o_box o2' /\ o_ncut o1' = o_ncut o2' /\
    forall icut, 0 <= icut < o_ncut o1' ->
      same_cutout rows f1 i1 f2 i2 icut /\ (psf <> None -> same_psf f1 i1 f2 i2 icut).
Proof. exact LocalLemmas.unused_colours. Qed.
Print Assumptions C82_unused_colours.

(** With a 'color' column the 'wcs_color' column is never looked at for positions. *)
Theorem C82_color_before_wcs_color : forall k types1 types2 rows psf input1 input2 j1 j2 p1 p2 f1 f2 objs1 objs2,
  has_color (k_l k) = true ->
  make_meds k types1 rows psf input1 j1 p1 = Ok f1 -> make_meds k types2 rows psf input2 j2 p2 = Ok f2 ->
  selected (k_l k) (map ir_image rows) input1 objs1 -> selected (k_l k) (map ir_image rows) input2 objs2 ->
  Forall (fun o => 1 <= o_box o) input1 -> Forall (fun o => 1 <= o_box o) input2 ->
  Forall (fun r => source_ok (ir_src r)) rows -> 1 <= k_njob k -> psfs_fit psf ->
  forall i1 i2 o1 o2, zget objs1 i1 = Some o1 -> zget objs2 i2 = Some o2 ->
  o_ra o1 = o_ra o2 -> o_dec o1 = o_dec o2 -> o_box o1 = o_box o2 -> o_color o1 = o_color o2 -> o_psf_color o1 = o_psf_color o2 ->
  exists o1' o2', zget (m_cat f1) i1 = Some o1' /\ zget (m_cat f2) i2 = Some o2' /\
    o_box o1' = o_box o2' /\ o_ncut o1' = o_ncut o2' /\
    forall icut, 0 <= icut < o_ncut o1' ->
      same_cutout rows f1 i1 f2 i2 icut /\ (psf <> None -> same_psf f1 i1 f2 i2 icut).
Proof. exact LocalLemmas.color_first. Qed.
Print Assumptions C82_color_before_wcs_color.

(** Where the colours are used, they are those of the object: for an image that uses
    colours the position is what the wcs gives for the object's colour, for another
    image what it gives without one; likewise for the psf. *)
Theorem C82_used_colours : forall k types rows psf input junk pjunk f objs,
  make_meds k types rows psf input junk pjunk = Ok f ->
  selected (k_l k) (map ir_image rows) input objs ->
  forall i o o' icut s, zget objs i = Some o -> cutout_at f i icut o' s ->
  exists row colour, zget rows (s_file s) = Some row /\
    (let used := if (s_file s =? 0) && first_image_is_coadd (k_l k)
                 then coadd_astrom_color (k_l k) else se_astrom_color (k_l k) in
     (used = false -> colour = None) /\
     (used = true -> has_color (k_l k) = true -> colour = Some (o_color o)) /\
     (used = true -> has_color (k_l k) = false -> has_wcs_color (k_l k) = true -> colour = Some (o_wcs_color o)) /\
     (used = true -> has_color (k_l k) = false -> has_wcs_color (k_l k) = false -> colour = None)) /\
    let w := im_wcs (ir_image row) in
    let xy := w_pos w (o_ra o) (o_dec o) colour in
    s_orow s = (snd xy - im_offset (ir_image row))%Q /\ s_ocol s = (fst xy - im_offset (ir_image row))%Q /\
    w_jac w (fst xy) (snd xy) colour = (s_dudcol s, s_dudrow s, s_dvdcol s, s_dvdrow s).
Proof. exact LocalLemmas.used_colours. Qed.
Print Assumptions C82_used_colours.

Theorem C82_used_psf_colours : forall k types rows ps input junk pjunk f objs,
  make_meds k types rows (Some ps) input junk pjunk = Ok f ->
  selected (k_l k) (map ir_image rows) input objs -> 1 <= k_njob k -> psfs_fit (Some ps) ->
  forall i o o' icut s, zget objs i = Some o -> cutout_at f i icut o' s ->
  exists p colour, zget ps (s_file s) = Some p /\
    (let used := if (s_file s =? 0) && first_image_is_coadd (k_l k)
                 then psf_coadd_color (k_p k) else psf_se_color (k_p k) in
     (used = false -> colour = None) /\
     (used = true -> has_psf_color (k_p k) = true -> colour = Some (o_psf_color o)) /\
     (used = true -> has_psf_color (k_p k) = false -> colour = None)) /\
    get_psf f i icut = Ok (p_rec p (s_orow s) (s_ocol s) colour).
Proof. exact LocalLemmas.used_psf_colours. Qed.
Print Assumptions C82_used_psf_colours.

(** The wcs of the images after the coadd moves with the colour, the coadd's does not
    use it; the psf of the coadd holds the colour. *)
Example C82_example : exists f1 f2, ex_colour_make 1 5 = Ok f1 /\ ex_colour_make 2 5 = Ok f2 /\
  map (fun o => map (fun s => (s_orow s, s_ocol s)) (o_slots o)) (m_cat f1) = [[(7#2, 9#2); (5#2, 7#2)]]%Q /\
  map (fun o => map (fun s => (s_orow s, s_ocol s)) (o_slots o)) (m_cat f2) = [[(7#2, 9#2); (7#2, 7#2)]]%Q /\
  get_psf f1 0 0 = Ok (mkImg 1 1 [5]%Q) /\ get_psf f1 0 1 = Ok (mkImg 1 1 [0]%Q).
Proof. do 2 eexists. repeat (split; [vm_compute; reflexivity|]). vm_compute; reflexivity. Qed.

Example C82_example_unused : exists f1 f2,
  make_meds ex_conf ex_types ex_rows None ex_objs ex_junk (fun _ => 0%Q) = Ok f1 /\
  make_meds ex_conf ex_types ex_rows None (map (ex_recolour 3 4 5) ex_objs) ex_junk (fun _ => 0%Q) = Ok f2 /\
  coadd_astrom_color (k_l ex_conf) = false /\ se_astrom_color (k_l ex_conf) = false /\
  map o_slots (m_cat f1) = map o_slots (m_cat f2) /\ m_ext f1 = m_ext f2 /\ map o_color (m_cat f2) = [3; 3; 3]%Q.
Proof. do 2 eexists. repeat (split; [vm_compute; reflexivity|]). vm_compute; reflexivity. Qed.

(** * C83 *)
Theorem C83_extract_of_made : forall k types types2 rows psf input input2 j1 j2 p1 p2 f f2 ca a b,
  first_image_is_coadd (k_l k) && trim_to_coadd (k_l k) = false ->
  Forall (fun o => 1 <= o_box o) input -> Forall (fun r => source_ok (ir_src r)) rows ->
  1 <= k_njob k -> psfs_fit psf ->
  make_meds k types rows psf input j1 p1 = Ok f -> make_meds k types2 rows psf input2 j2 p2 = Ok f2 ->
  has_ext f TImage -> has_ext f TWeight -> has_ext f TSeg ->
  0 <= a -> b < zlen input -> zlen input2 = b - a + 1 ->
  (forall i, 0 <= i <= b - a -> zget input2 i = zget input (a + i)) ->
  (exists o, In o (m_cat f2) /\ 0 < o_ncut o) ->
  exists g, extract_range ca f a b = Ok g /\ zlen (m_cat g) = zlen (m_cat f2) /\ m_info g = m_info f2 /\
    forall i, 0 <= i <= b - a -> exists o o', zget (m_cat g) i = Some o /\ zget (m_cat f2) i = Some o' /\
      o_id o = o_id o' /\ o_number o = o_number o' /\ o_ra o = o_ra o' /\ o_dec o = o_dec o' /\
      o_box o = o_box o' /\ o_ncut o = o_ncut o' /\
      forall icut, 0 <= icut < o_ncut o ->
        same_cutout rows g i f2 i icut /\ (psf <> None -> same_psf g i f2 i icut).
Proof. exact LocalLemmas2.extract_make. Qed.
Print Assumptions C83_extract_of_made.

Example C83_example : match ex_make (Some ex_psfs),
    make_meds ex_conf ex_types ex_rows (Some ex_psfs) (skipn 1 ex_objs) ex_junk (fun _ => 0%Q) with
  | Ok f, Ok f2 => match extract_range false f 1 2 with
    | Ok g => get_cutout g 1 1 TSeg = get_cutout f2 1 1 TSeg /\ get_psf g 1 1 = get_psf f2 1 1 /\
        get_jacobian g 0 0 = get_jacobian f2 0 0 /\ map o_ncut (m_cat g) = [1; 2] /\ map o_ncut (m_cat f2) = [1; 2] /\
        map (fun o => zlen (o_slots o)) (m_cat g) = [3; 3] /\ map (fun o => zlen (o_slots o)) (m_cat f2) = [2; 2]
    | Err _ => False end
  | _, _ => False end.
Proof. vm_compute. repeat split. Qed.
