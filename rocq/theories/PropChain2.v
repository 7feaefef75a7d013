(** Property theorems on every answer of the reader along extractions: C135. *)
From Coq Require Import Permutation.
From Verif Require Import Base Img Types Reader Composite Uberseg Extract SpecExtract SpecChain SpecChain2 ExampleData.
From Verif Require ChainLemmas2 ExtractLemmas7.
Open Scope Z_scope.

(** * C135 *)

(** Whatever is asked of an object, the first file and a file extracted from it say the same. *)
Theorem C135_answers : forall f g i o', extractable f -> derived f g -> zget (m_cat g) i = Some o' ->
  exists j o, zget (m_cat f) j = Some o /\ o_number o = o_number o' /\ same_answers g i f j.
Proof. exact ChainLemmas2.chain_answers. Qed.
Print Assumptions C135_answers.

(** So do two files extracted in different ways. *)
Theorem C135_agree : forall f g h i j o p, extractable f -> derived f g -> derived f h ->
  zget (m_cat g) i = Some o -> zget (m_cat h) j = Some p -> o_number o = o_number p -> same_answers g i h j.
Proof. exact ChainLemmas2.chain_answers_agree. Qed.
Print Assumptions C135_agree.

(** Number 30 of a file, and of what is left after two extractions. *)
Example C135_ex : let f := ex_small PsfRCCut [TImage; TWeight; TSeg; TBmask; TNoise] in
  extractable f /\ exists g h,
    extract_numbers (@rev Z) f [20; 30] = Ok g /\ extract_range false g 0 0 = Ok h /\ derived f h /\ map o_number (m_cat h) = [30] /\
    get_mosaic h 0 TSeg = get_mosaic f 2 TSeg /\ get_mosaic h 0 TSeg = Ok (mkImg 2 1 [104%Q; 105%Q]) /\
    get_cweight_mosaic h 0 false = get_cweight_mosaic f 2 false /\ get_cweight_mosaic h 0 false = Ok (mkImg 2 1 [104%Q; 105%Q]) /\
    get_cseg_cutout h 0 1 = get_cseg_cutout f 2 1 /\ get_cseg_cutout h 0 1 = Ok (mkImg 1 1 [30%Q]) /\
    get_uberseg 10 h 0 1 true = get_uberseg 10 f 2 1 true /\ get_uberseg 10 h 0 1 true = Ok (mkImg 1 1 [0%Q]).
Proof.
  intros f. split.
  { split; [apply ExtractLemmas7.small_wf|]. split; [apply ExtractLemmas7.small_psf_wf; tauto|]. split; [reflexivity|].
    do 4 (split; [eexists; reflexivity|]). split; [reflexivity|]. repeat constructor; cbn; intuition discriminate. }
  do 2 eexists. split; [vm_compute; reflexivity|]. split; [vm_compute; reflexivity|].
  split. { eapply derived_range with (a := 0) (b := 0); [eapply derived_numbers with (order := @rev Z) (numbers := [20; 30]); [apply derived_same| | |vm_compute; reflexivity]|vm_compute; reflexivity].
    - intros l. apply Permutation_sym, Permutation_rev.
    - repeat constructor; cbn; intuition discriminate. }
  repeat split; vm_compute; reflexivity.
Qed.
