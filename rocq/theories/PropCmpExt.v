(** Property theorems on the comparison of extracted files: C138. *)
From Coq Require Import String Permutation.
From Verif Require Import Base Img Types Reader SpecFile Extract SpecExtract SpecChain Compare SpecCompare Scripts SpecScripts ExampleData ExampleCompare.
From Verif Require CmpExtLemmas ExtractLemmas7.
Open Scope Z_scope.

(** * C138 *)
(** Nothing is reported of two files extracted from one, in whatever way; the first
    file itself is one of them. *)
Theorem C138_nothing_found : forall k mi sub f g h nrand, extractable f -> NoDup (map o_id (m_cat f)) -> derived f g -> derived f h ->
  matcher mi -> valid_subset sub -> k_png k = PngNone -> (forall l, k_clip k l = Ok tt) -> (0 <= k_rms_tol k)%Q -> (0 < k_weight_tol k)%Q ->
  mi (map o_id (m_cat g)) (map o_id (m_cat h)) <> [] -> go k mi sub g h nrand = Ok [].
Proof. exact CmpExtLemmas.derived_compare. Qed.
Print Assumptions C138_nothing_found.

(** The program says so. *)
Theorem C138_status : forall M (resolve : string -> Z) clip mi sub args (d : disk M) f g h m1 m2,
  (forall l, clip l = Ok tt) -> matcher mi -> valid_subset sub -> extractable f -> NoDup (map o_id (m_cat f)) -> derived f g -> derived f h ->
  d (resolve (a_file1 args)) = Present g m1 -> d (resolve (a_file2 args)) = Present h m2 -> (0 <= a_rms_tol args)%Q -> a_png args = false ->
  mi (map o_id (m_cat g)) (map o_id (m_cat h)) <> [] -> compare_main resolve clip mi sub args d = 0.
Proof. intros M. exact (@CmpExtLemmas.derived_status M). Qed.
Print Assumptions C138_status.

(** A file of objects 30 and 10 and one of objects 20 and 30: object 30 is compared. *)
Example C138_example : let f := ex_small PsfRCCut [TImage; TWeight; TSeg; TBmask; TNoise] in
  extractable f /\ NoDup (map o_id (m_cat f)) /\ matcher ex_match /\ valid_subset ex_subset /\ exists g h,
    extract_numbers (@rev Z) f [10; 30] = Ok g /\ extract_range false f 1 2 = Ok h /\ derived f g /\ derived f h /\
    ex_match (map o_id (m_cat g)) (map o_id (m_cat h)) = [(0, 1)] /\
    go (mkComp (8#10) (1#10000) true PngNone ex_clip) ex_match ex_subset g h None = Ok [].
Proof.
  intros f. split.
  { split; [apply ExtractLemmas7.small_wf|]. split; [apply ExtractLemmas7.small_psf_wf; tauto|]. split; [reflexivity|].
    do 4 (split; [eexists; reflexivity|]). split; [reflexivity|]. repeat constructor; cbn; intuition discriminate. }
  split; [repeat constructor; cbn; intuition discriminate|]. split; [exact ex_match_ok|]. split; [exact ex_subset_ok|].
  do 2 eexists. split; [vm_compute; reflexivity|]. split; [vm_compute; reflexivity|].
  split. { eapply derived_numbers with (order := @rev Z) (numbers := [10; 30]); [apply derived_same| | |vm_compute; reflexivity].
    - intros l. apply Permutation_sym, Permutation_rev.
    - repeat constructor; cbn; intuition discriminate. }
  split. { eapply derived_range with (a := 1) (b := 2); [apply derived_same|vm_compute; reflexivity]. }
  split; vm_compute; reflexivity.
Qed.
