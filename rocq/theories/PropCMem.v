(** Property theorems on the memory of the C library: C106 to C108. *)
From Coq Require Import String Permutation.
From Verif Require Import Base Img Types Reader CLib CMem SpecCMem ExampleCLib.
From Verif Require CMemLemmas5 CMemLemmas6 CMemLemmas7.
Open Scope Z_scope.

(** * C106 *)
(** The four name columns have the same width and no name is longer than its column. *)
Theorem C106_within_buffers_refuted : exists f h t nrow,
  clean h /\ sane f /\ readable f /\ cutouts_fit f /\ meta_fits f /\ mf_info f = Some (t, nrow) /\
  (forall name c i len, In name ["image_path"; "wcs_path"; "sky_path"; "seg_path"]%string ->
     tfind t name = Some c -> cc_text c i = Some len -> len <= cc_width c /\ cc_width c = 20) /\
  m_open 8 (Some f) h = Err IndexError.
Proof.
  exists (mf_x 20), heap_x, (info_x 20 20), 3.
  split; [exact CMemLemmas7.heap_x_clean|]. split; [apply CMemLemmas7.mf_x_sane; discriminate|].
  split; [exact (CMemLemmas7.mf_x_readable 20)|]. split; [exact (CMemLemmas7.mf_x_cutouts 20)|].
  split; [exact (CMemLemmas7.mf_x_meta 20)|]. split; [reflexivity|]. split; [|vm_compute; reflexivity].
  intros name c i len J TF TX. rewrite (CMemLemmas7.info_x_col _ _ _ _ J TF) in *. injection TX as <-. split; [discriminate|reflexivity].
Qed.
Print Assumptions C106_within_buffers_refuted.

Theorem C106_full_name_fails_partial : forall len f h, clean h -> 0 <= len -> sane f -> readable f ->
  forall t nrow name c i, mf_info f = Some (t, nrow) -> In name ["image_path"; "wcs_path"; "sky_path"; "seg_path"]%string ->
  (forall n, In n ["image_path"; "wcs_path"; "sky_path"; "seg_path"]%string -> col_size t n = cc_width c) ->
  tfind t name = Some c -> 0 <= i < nrow -> cc_text c i = Some (cc_width c) ->
  exists e, m_open len (Some f) h = Err e.
Proof. exact CMemLemmas7.full_name. Qed.
Print Assumptions C106_full_name_fails_partial.

Theorem C106_within_partial : forall len f h, clean h -> 0 <= len -> sane f -> cutouts_fit f -> names_fit f -> meta_fits f ->
  exists r h', m_open len (Some f) h = Ok (r, h').
Proof. exact CMemLemmas5.open_within. Qed.
Print Assumptions C106_within_partial.

Theorem C106_exactly_partial : forall len f h, clean h -> 0 <= len -> sane f -> readable f ->
  ((exists m h', m_open len (Some f) h = Ok (Some m, h')) <-> (cutouts_fit f /\ names_fit f /\ meta_fits f)).
Proof. exact CMemLemmas5.open_iff. Qed.
Print Assumptions C106_exactly_partial.

Theorem C106_shorter_names_partial : forall f, sane f -> names_shorter f -> names_fit f.
Proof. exact CMemLemmas5.names_shorter_fit. Qed.
Print Assumptions C106_shorter_names_partial.

Example C106_example : clean heap_x /\ sane (mf_x 19) /\ readable (mf_x 19) /\ cutouts_fit (mf_x 19) /\ names_fit (mf_x 19) /\ meta_fits (mf_x 19) /\
  (let* r := m_open 8 (Some (mf_x 19)) heap_x in Ok (zlen (h_live (snd r)))) = Ok (2 + 1 + (2 + 2 * 9) + (2 + 3 * 4) + 8 + 2).
Proof.
  split; [exact CMemLemmas7.heap_x_clean|]. split; [apply CMemLemmas7.mf_x_sane; discriminate|].
  split; [exact (CMemLemmas7.mf_x_readable 19)|]. split; [exact (CMemLemmas7.mf_x_cutouts 19)|].
  split; [apply CMemLemmas7.mf_x_names; reflexivity|]. split; [exact (CMemLemmas7.mf_x_meta 19)|]. vm_compute. reflexivity.
Qed.

(** * C107 *)
(** A file that is read without fault; 30 characters are never given back. *)
Theorem C107_everything_back_refuted : exists f h m h1 h2 p,
  clean h /\ sane f /\ readable f /\ cutouts_fit f /\ names_fit f /\ meta_fits f /\ h_live h = [] /\
  m_open 8 (Some f) h = Ok (Some m, h1) /\ m_free (Some m) h1 = Ok (tt, h2) /\ h_live h2 = [(p, 30)].
Proof.
  exists (mf_x 19), (mkHeap 0 []). do 4 eexists.
  split; [split; constructor|]. split; [apply CMemLemmas7.mf_x_sane; discriminate|].
  split; [exact (CMemLemmas7.mf_x_readable 19)|]. split; [exact (CMemLemmas7.mf_x_cutouts 19)|].
  split; [apply CMemLemmas7.mf_x_names; reflexivity|]. split; [exact (CMemLemmas7.mf_x_meta 19)|]. split; [reflexivity|].
  split; [vm_compute; reflexivity|]. split; vm_compute; reflexivity.
Qed.
Print Assumptions C107_everything_back_refuted.

(** A file that is not opened, after which four arrays stay allocated. *)
Theorem C107_failure_refuted : exists f h h1, clean h /\ h_live h = [] /\
  m_open 8 (Some f) h = Ok (None, h1) /\ zlen (h_live h1) = 4.
Proof.
  exists mf_bad_row, (mkHeap 0 []). eexists. split; [split; constructor|]. split; [reflexivity|]. split; vm_compute; reflexivity.
Qed.
Print Assumptions C107_failure_refuted.

Theorem C107_account_partial : forall len f h r h1, clean h -> 0 <= len -> sane f -> m_open len (Some f) h = Ok (r, h1) ->
  exists h2 lost, m_free r h1 = Ok (tt, h2) /\ left_over h h2 lost /\
  match r with
  | None => zlen lost = if rows_unreadable f then 4 else 0
  | Some _ => exists t, mf_meta f = Some t /\ Permutation (map snd lost) (lost_meta t)
  end.
Proof. exact CMemLemmas5.open_free. Qed.
Print Assumptions C107_account_partial.

Theorem C107_desdata_partial : forall t c, tfind t "desdata" = Some c -> In (cc_width c) (lost_meta t).
Proof. exact CMemLemmas7.desdata_lost. Qed.
Print Assumptions C107_desdata_partial.

Example C107_example : rows_unreadable mf_bad_row = true /\ rows_unreadable (mf_x 19) = false /\
  lost_meta (meta_x 30 12 "desdata") = [30; 30; 30; 30] /\ lost_meta (meta_x 30 12 "magzp_ref") = [30; 30; 30; 30; 30] /\
  (let* r := m_open 8 (Some mf_no_magzp) heap_x in
   let* r' := m_free (fst r) (snd r) in Ok (map snd (h_live (snd r')))) = Ok [30; 30; 30; 30; 30; 5; 1].
Proof. vm_compute. repeat split. Qed.

(** * C108 *)
Theorem C108_nothing_lost_refuted : exists cf m h q h' p,
  meds_open cf = Ok (Some m) /\ Forall (fun o => 0 < o_box o) (m_cat (cf_file cf)) /\ h_live h = [] /\
  requests m [q] h = Ok ([false], h') /\ h_live h' = [(p, 4)].
Proof.
  exists ex_cfile. eexists. exists (mkHeap 0 []), (mkReq TWeight 0 (Some 1)). do 2 eexists.
  split; [vm_compute; reflexivity|]. split; [cbn; repeat constructor; cbn; reflexivity|].
  split; [reflexivity|]. split; vm_compute; reflexivity.
Qed.
Print Assumptions C108_nothing_lost_refuted.

Theorem C108_account_partial : forall cf m qs, meds_open cf = Ok (Some m) -> Forall (fun o => 0 < o_box o) (m_cat (cf_file cf)) ->
  forall h, clean h -> exists h' lost, requests m qs h = Ok (map (gives m) qs, h') /\ left_over h h' lost /\
    Permutation (map snd lost) (flat_map (lost_request (cf_file cf)) qs).
Proof. exact CMemLemmas6.requests_ok. Qed.
Print Assumptions C108_account_partial.

Example C108_example : (let* m := meds_open ex_cfile in
  match m with
  | None => Err ValueError
  | Some m => let* r := requests m [mkReq TImage 0 (Some 0); mkReq TImage 0 None; mkReq TImage 5 (Some 0); mkReq TWeight 0 None;
                                    mkReq TSeg 1 (Some 0); mkReq TSeg 1 (Some 1); mkReq TWeight 1 (Some 0); mkReq TWeight 1 (Some 1)] heap_x in
              Ok (fst r, map snd (h_live (snd r)))
  end) = Ok ([true; true; false; false; true; false; false; false], [1; 8; 5; 1]).
Proof. vm_compute. reflexivity. Qed.
