From Coq Require Import String Lia ZifyBool ZifyNat.
From Verif Require Import Base Img Types BoundsM MakerLayout WcsSel SpecWcs ExampleData BaseLemmas WcsLemmas WcsLemmas2.
Open Scope Z_scope.

Lemma own_one W psf ht rows h : psf_ok psf rows h -> forall i im im',
  0 <= i < zlen rows -> own W psf ht rows h i im -> own W psf ht rows h i im' -> im = im'.
Proof. intros POK i im im' Hi A B. exact (own_fun W psf ht rows h POK i im im' Hi A B). Qed.

Lemma ex_psf_ok : psf_ok (Some ex_psfw) ex_irows ex_heap.
Proof.
  split; [reflexivity|]. intros i r H. apply zget_In in H. destruct H as [H|[H|[]]]; injection H as <-; cbn; lia.
Qed.

Definition ex_wcs_conf : lconf := ex_lconf false false false false 0.
Definition ex_wcs_images : list image := [picture (ex_sky 5) (40, 30) 1; picture (ex_sky 5) (20, 10) 0].
Definition ex_wcs_cat : list obj := init_cat ex_wcs_conf ex_wcs_images [ex_obj 11 1 4 5 9; ex_obj 12 2 2 20 9].

Lemma ex_wcs_run :
  (let* r := layout_with ex_world (Some ex_psfw) false ex_irows ex_wcs_conf ex_heap ex_wcs_cat in
   Ok (map o_ncut (fst (snd r)), map (fun w => (wo_naxis w, wo_offset w)) (fst r))) = Ok ([2; 1], [((20, 10), Some 0%Q)]).
Proof. vm_compute. reflexivity. Qed.

Lemma ex_wcs_facts :
  psf_ok (Some ex_psfw) ex_irows ex_heap /\
  own ex_world (Some ex_psfw) false ex_irows ex_heap 0 (picture (ex_sky 5) (40, 30) 1) /\
  own ex_world (Some ex_psfw) false ex_irows ex_heap 1 (picture (ex_sky 5) (20, 10) 0) /\
  (let* r := layout_with ex_world (Some ex_psfw) false ex_irows ex_wcs_conf ex_heap ex_wcs_cat in
   Ok (map o_ncut (fst (snd r)), map (fun w => (wo_naxis w, wo_offset w)) (fst r))) = Ok ([2; 1], [((20, 10), Some 0%Q)]).
Proof.
  split; [exact ex_psf_ok|]. split; [|split].
  - apply (O_psf ex_world (Some ex_psfw) false ex_irows ex_heap 0 (mkIrow "a" 0 1 "")%string (ex_sky 5)
             (mkHeader (Some (40, 30)) (Some (8, 4000)) (ex_sky 1)) (40, 30)); try reflexivity.
    + apply (P_same (Some ex_psfw) ex_heap 0 ex_psfw 0%nat (mkWobj (ex_sky 5) (1, 1) None)); reflexivity.
    + constructor.
  - apply (O_psf ex_world (Some ex_psfw) false ex_irows ex_heap 1 (mkIrow "b" 0 0 "")%string (ex_sky 5)
             (mkHeader None (Some (20, 10)) (ex_sky 2)) (20, 10)); try reflexivity.
    + apply (P_same (Some ex_psfw) ex_heap 1 ex_psfw 0%nat (mkWobj (ex_sky 5) (1, 1) None)); reflexivity.
    + constructor.
  - exact ex_wcs_run.
Qed.

Lemma changed_refuted : exists W psf rows h c cat g r,
  psf_ok psf rows h /\ layout_with W psf false rows c h cat = Ok (g, r) /\ ~ (forall k w, nth_error h k = Some w -> nth_error g k = Some w).
Proof.
  pose proof ex_wcs_run as R. apply bind_ok in R as ([g r] & E & R). cbn [fst snd] in R.
  exists ex_world, (Some ex_psfw), ex_irows, ex_heap, ex_wcs_conf, ex_wcs_cat, g, r.
  split; [exact ex_psf_ok|]. split; [exact E|]. intros H. specialize (H 0%nat _ eq_refl).
  destruct g as [|w g]; [discriminate H|]. cbn in H. injection H as ->. discriminate R.
Qed.
