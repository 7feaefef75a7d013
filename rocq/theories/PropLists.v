(** Property theorems on the accessors that return lists, and on numbers: C136. *)
From Verif Require Import Base Img Types Reader Composite Uberseg SpecTiles SpecFile SpecExtract SpecLists ExampleData SpecListsEx.
From Verif Require ListsLemmas ExtractLemmas7.
Open Scope Z_scope.

(** * C136 *)

(** Without the column number, get_number counts from 1 and the composite seg maps can be had, but not the weights. *)
Theorem C136_no_column_refuted : exists f i k im, file_wf f /\ m_number_col f = false /\ 0 <= i < zlen (m_cat f) /\
  get_number f i = Ok (i + 1) /\ get_cseg_cutout f i k = Ok im /\
  (forall canonical, get_cseg_weight f i k canonical = Err ValueError) /\ forall fuel fast, get_uberseg fuel f i k fast = Err ValueError.
Proof.
  exists ex_no_number, 0, 0. eexists. split; [exact (ExtractLemmas7.small_wf PsfRCCut [TImage; TWeight; TSeg])|]. split; [reflexivity|]. split; [split; [discriminate|reflexivity]|].
  split; [reflexivity|]. split; [vm_compute; reflexivity|]. split; intros; vm_compute; reflexivity.
Qed.
Print Assumptions C136_no_column_refuted.

(** The other accessors that use numbers: with the column they use it, without it none succeeds
    except where the number does not matter. *)
Theorem C136_numbers_partial : forall f i o, zget (m_cat f) i = Some o ->
  (m_number_col f = true -> get_number f i = Ok (o_number o) /\ number_col f i = Ok (o_number o)) /\
  (m_number_col f = false -> get_number f i = Ok (i + 1) /\ number_col f i = Err ValueError).
Proof. exact ListsLemmas.numbers. Qed.
Print Assumptions C136_numbers_partial.
Theorem C136_no_column_partial : forall f i k, m_number_col f = false -> forall im,
  (forall canonical, get_cseg_weight f i k canonical <> Ok im) /\
  (forall fuel fast, get_uberseg fuel f i k fast = Ok im -> get_cweight_cutout f i k false = Ok im).
Proof. exact ListsLemmas.no_number. Qed.
Print Assumptions C136_no_column_partial.

(** Lists hold what the single accessors return, in order; an exception is that of the first one that fails. *)
Theorem C136_psfs_partial : forall f i o, zget (m_cat f) i = Some o -> 0 <= o_ncut o ->
  listed (o_ncut o) (get_psf f i) (get_psf_list f i) /\ listed (o_ncut o) (get_psf f i) (get_cutout_list_any f i RPsf).
Proof. exact ListsLemmas.psf_lists. Qed.
Print Assumptions C136_psfs_partial.
Theorem C136_jacobians_partial : forall f i o, zget (m_cat f) i = Some o -> 0 < o_ncut o ->
  listed (o_ncut o) (get_jacobian f i) (get_jacobian_list f i).
Proof. exact ListsLemmas.jacobian_lists. Qed.
Print Assumptions C136_jacobians_partial.
Theorem C136_ubersegs_partial : forall fuel f i o fast, zget (m_cat f) i = Some o -> 0 <= o_ncut o ->
  listed (o_ncut o) (fun k => get_uberseg fuel f i k fast) (get_uberseg_list fuel f i fast).
Proof. exact ListsLemmas.uberseg_lists. Qed.
Print Assumptions C136_ubersegs_partial.
Theorem C136_cutouts_partial : forall f i o t, file_wf f -> has_ext f t -> zget (m_cat f) i = Some o -> 0 < o_ncut o ->
  listed (o_ncut o) (fun k => get_cutout f i k t) (get_cutout_list_any f i (RCut t)).
Proof. exact ListsLemmas.cutout_lists. Qed.
Print Assumptions C136_cutouts_partial.

Example C136_ex : file_wf ex_lists /\ has_ext ex_lists TSeg /\ m_number_col ex_lists = true /\
  exists o p q, zget (m_cat ex_lists) 2 = Some o /\ o_ncut o = 2 /\ o_number o = 30 /\ get_number ex_lists 2 = Ok 30 /\
    get_psf ex_lists 2 0 = Ok p /\ get_psf ex_lists 2 1 = Ok q /\ get_psf_list ex_lists 2 = Ok [p; q] /\
    get_cutout_list_any ex_lists 2 (RCut TSeg) = Ok [mkImg 1 1 [104%Q]; mkImg 1 1 [105%Q]] /\
    exists l, get_jacobian_list ex_lists 2 = Ok l /\ zlen l = 2.
Proof.
  split; [apply ExtractLemmas7.small_wf|]. split; [eexists; reflexivity|]. split; [reflexivity|].
  do 3 eexists. do 7 (split; [vm_compute; reflexivity|]). split; [vm_compute; reflexivity|]. eexists. split; vm_compute; reflexivity.
Qed.
