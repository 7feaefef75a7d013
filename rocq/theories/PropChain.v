(** Property theorems on chains of extractions: C134. *)
From Coq Require Import Permutation.
From Verif Require Import Base Img Types Reader MakerLayout MakerWrite MakerFile Extract SpecTiles SpecFile SpecExtract SpecChain ExampleData.
From Verif Require ChainLemmas ExtractLemmas7.
Open Scope Z_scope.

(** * C134 *)

(** Each object of a file made by any number of extractions is one of the first file. *)
Theorem C134_chain : forall f g i o', extractable f -> derived f g -> zget (m_cat g) i = Some o' ->
  exists j o, zget (m_cat f) j = Some o /\ o_number o = o_number o' /\ same_object f j g i.
Proof. exact ChainLemmas.chain_object. Qed.
Print Assumptions C134_chain.

(** Two files made in different ways agree on the objects they share. *)
Theorem C134_agree : forall f g h i j o p, extractable f -> derived f g -> derived f h ->
  zget (m_cat g) i = Some o -> zget (m_cat h) j = Some p -> o_number o = o_number p ->
  (forall t k, t = TImage \/ t = TWeight \/ t = TSeg \/ t = TBmask -> 0 <= k -> get_cutout g i k t = get_cutout h j k t) /\
  (forall k, 0 <= k -> get_psf g i k = get_psf h j k /\ get_source_info g i k = get_source_info h j k /\ get_jacobian g i k = get_jacobian h j k).
Proof. exact ChainLemmas.chain_agree. Qed.
Print Assumptions C134_agree.

(** One can always go on. *)
Theorem C134_range_works : forall f g a b, extractable f -> derived f g -> 0 <= a <= b -> b < zlen (m_cat g) ->
  exists h, extract_range false g a b = Ok h.
Proof. exact ChainLemmas.chain_range. Qed.
Print Assumptions C134_range_works.

Theorem C134_numbers_work : forall f g order numbers, extractable f -> derived f g -> (forall l, Permutation (order l) l) ->
  (forall n, In n numbers -> In n (map o_number (m_cat g))) ->
  exists h, extract_numbers order g numbers = Ok h /\ Permutation (map o_number (m_cat h)) numbers.
Proof. exact ChainLemmas.chain_numbers. Qed.
Print Assumptions C134_numbers_work.

(** The files of the maker are of this kind. *)
Theorem C134_maker_files : forall k types rows psf input junk pjunk f,
  Forall (fun o => 1 <= o_box o) input -> 1 <= k_njob k -> psfs_fit psf ->
  make_meds k types rows psf input junk pjunk = Ok f -> k_number_col k = true ->
  has_ext f TImage -> has_ext f TWeight -> has_ext f TSeg -> has_ext f TBmask ->
  NoDup (map o_number (m_cat f)) -> extractable f.
Proof. exact ChainLemmas.maker_extractable. Qed.
Print Assumptions C134_maker_files.

(** Numbers 30 and 20, then the first row of that, against a range of the first file. *)
Example C134_ex : let f := ex_small PsfRCCut [TImage; TWeight; TSeg; TBmask; TNoise] in
  extractable f /\ exists g h h',
    extract_numbers (@rev Z) f [20; 30] = Ok g /\ extract_range false g 0 0 = Ok h /\ extract_range false f 1 2 = Ok h' /\
    derived f h /\ derived f h' /\ map o_number (m_cat h) = [30] /\ map o_number (m_cat h') = [20; 30] /\
    get_cutout h 0 1 TBmask = get_cutout h' 1 1 TBmask /\ get_cutout h 0 1 TBmask = Ok (mkImg 1 1 [105%Q]) /\
    get_psf h 0 1 = get_psf h' 1 1 /\ exists im, get_psf h 0 1 = Ok im.
Proof.
  intros f. split.
  { split; [apply ExtractLemmas7.small_wf|]. split; [apply ExtractLemmas7.small_psf_wf; tauto|]. split; [reflexivity|].
    do 4 (split; [eexists; reflexivity|]). split; [reflexivity|]. repeat constructor; cbn; intuition discriminate. }
  do 3 eexists. split; [vm_compute; reflexivity|]. split; [vm_compute; reflexivity|]. split; [vm_compute; reflexivity|].
  split. { eapply derived_range with (a := 0) (b := 0); [eapply derived_numbers with (order := @rev Z) (numbers := [20; 30]); [apply derived_same| | |vm_compute; reflexivity]|vm_compute; reflexivity].
    - intros l. apply Permutation_sym, Permutation_rev.
    - repeat constructor; cbn; intuition discriminate. }
  split. { eapply derived_range with (a := 1) (b := 2); [apply derived_same|vm_compute; reflexivity]. }
  repeat split; try (vm_compute; reflexivity). eexists. vm_compute. reflexivity.
Qed.
