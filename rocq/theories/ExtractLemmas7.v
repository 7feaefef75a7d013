(** The extractor theorems in their final form, and the witnesses. *)
From Coq Require Import Lia ZifyBool ZifyNat Permutation String.
From Verif Require Import Base BaseLemmas Img Types Reader Extract MakerLayout MakerWrite MakerFile
  SpecTiles SpecFile SpecExtract ExampleData ExtractLemmas ExtractLemmas2 ExtractLemmas5 ExtractLemmas6.
Open Scope Z_scope.

Lemma range_maker k types rows psf input junk pjunk f ca a b :
  Forall (fun o => 1 <= o_box o) input -> 1 <= k_njob k -> psfs_fit psf ->
  make_meds k types rows psf input junk pjunk = Ok f ->
  has_ext f TImage -> has_ext f TWeight -> has_ext f TSeg ->
  0 <= a -> b < zlen (m_cat f) ->
  (exists i o, a <= i <= b /\ zget (m_cat f) i = Some o /\ 0 < o_ncut o) ->
  exists g, extract_range ca f a b = Ok g /\ zlen (m_cat g) = b - a + 1 /\ m_info g = m_info f /\
    forall i o, 0 <= i <= b - a -> zget (m_cat f) (a + i) = Some o ->
      (exists o', zget (m_cat g) i = Some o' /\ same_but_starts o o') /\
      (forall t, t <> TOrmask -> same_cutouts f (a + i) g i t) /\ same_psfs f (a + i) g i /\
      forall n, 0 <= n -> get_source_info g i n = get_source_info f (a + i) n /\ get_jacobian g i n = get_jacobian f (a + i) n.
Proof.
  intros B J PF M X1 X2 X3 A Bd N. destruct (written_extractable _ _ _ _ _ _ _ _ B J PF M) as (WF & PW & PL & _).
  destruct (range_ok ca f a b WF PW) as (g & E1 & E2 & E3 & _ & _ & _ & _ & H); try assumption.
  { intros P. left. apply PL. exact P. }
  exists g. split; [exact E1|]. split; [exact E2|]. split; [exact E3|]. intros i o Hi Zi. destruct (H i o Hi Zi) as ((o' & Z' & S) & H2 & H3).
  split; [exists o'; split; assumption|]. split; [exact H2|]. split; [exact H3|]. intros n Hn.
  assert (F : fits o) by (destruct WF as (W & _); rewrite Forall_forall in W; apply W; eapply zget_In; exact Zi).
  destruct (other_accessors f g i (a + i) o o' Zi Z' S F E3 n Hn) as (U & V & _). split; assumption.
Qed.

Lemma range_types ca f a b : file_wf f -> psf_wf f -> (m_psf f <> None -> psf_extractable (m_psf_cols f)) ->
  has_ext f TImage -> has_ext f TWeight -> has_ext f TSeg ->
  0 <= a -> b < zlen (m_cat f) ->
  (exists i o, a <= i <= b /\ zget (m_cat f) i = Some o /\ 0 < o_ncut o) ->
  exists g, extract_range ca f a b = Ok g /\
    forall t, t <> TOrmask -> (has_ext g t <-> has_ext f t) /\
      forall i, 0 <= i <= b - a -> same_cutouts f (a + i) g i t.
Proof.
  intros WF PW PX X1 X2 X3 A B N. destruct (range_ok ca f a b WF PW PX X1 X2 X3 A B N) as (g & E1 & _ & _ & _ & _ & _ & E2 & H).
  exists g. split; [exact E1|]. intros t Ht. split; [apply E2; exact Ht|]. intros i Hi. destruct (zget_range_Some (m_cat f) (a + i)) as (o & Zo); [lia|].
  apply (H i o Hi Zo). exact Ht.
Qed.

Lemma numbers_maker k types rows psf input junk pjunk f order numbers :
  Forall (fun o => 1 <= o_box o) input -> 1 <= k_njob k -> psfs_fit psf ->
  make_meds k types rows psf input junk pjunk = Ok f -> k_number_col k = true ->
  has_ext f TImage -> has_ext f TWeight -> has_ext f TSeg -> has_ext f TBmask ->
  NoDup (map o_number (m_cat f)) -> (forall l, Permutation (order l) l) ->
  (forall n, In n numbers -> exists o, In o (m_cat f) /\ o_number o = n) ->
  exists g, extract_numbers order f numbers = Ok g /\ Permutation (map o_number (m_cat g)) numbers /\
    forall i o', zget (m_cat g) i = Some o' -> exists j o, zget (m_cat f) j = Some o /\ o_number o = o_number o' /\
      same_but_starts o o' /\
      same_cutouts f j g i TImage /\ same_cutouts f j g i TWeight /\ same_cutouts f j g i TSeg /\ same_cutouts f j g i TBmask /\
      same_psfs f j g i.
Proof.
  intros B J PF M NC X1 X2 X3 X4 ND OP EX. destruct (written_extractable _ _ _ _ _ _ _ _ B J PF M) as (WF & PW & PL & NK).
  destruct (numbers_ok order f numbers WF PW PL X1 X2 X3 X4) as (g & E1 & E2 & _ & _ & _ & _ & H); try assumption; [congruence|].
  exists g. split; [exact E1|]. split; [exact E2|exact H].
Qed.

Lemma numbers_layouts order f numbers : file_wf f -> psf_wf f -> (m_psf f <> None -> m_psf_cols f = PsfRCCut) ->
  has_ext f TImage -> has_ext f TWeight -> has_ext f TSeg -> has_ext f TBmask -> m_number_col f = true ->
  NoDup (map o_number (m_cat f)) -> (forall l, Permutation (order l) l) ->
  (forall n, In n numbers -> exists o, In o (m_cat f) /\ o_number o = n) ->
  exists g, extract_numbers order f numbers = Ok g.
Proof. intros. destruct (numbers_ok order f numbers) as (g & E & _); try assumption. exists g. exact E. Qed.

(** * Witnesses *)
Lemma image_only_fails : exists f, make_meds ex_conf ["image"%string] ex_rows None ex_objs ex_junk (fun _ => 0%Q) = Ok f /\
  (exists im, get_cutout f 0 0 TImage = Ok im) /\ extract_range false f 0 2 = Err FitsError.
Proof. vm_compute. eexists. split; [reflexivity|]. split; [eexists|]; reflexivity. Qed.

Lemma small_wf cols types : file_wf (ex_small cols types).
Proof.
  split.
  - unfold ex_small. cbn [m_cat]. unfold ex_small_cat. repeat (apply Forall_cons; [cbn; lia|]). constructor.
  - intros t m E. assert (zlen m = 6).
    { unfold ex_small in E. cbn [m_ext] in E. induction types as [|t' types IH]; [discriminate|]. cbn [map ext_find] in E. destruct (ctype_eqb t' t) eqn:Q; [|apply IH; exact E].
      injection E as <-. reflexivity. }
    rewrite H. vm_compute. repeat (constructor; [discriminate|]). constructor.
Qed.

Lemma small_psf_wf cols types : cols = PsfNone \/ cols = PsfRCCut \/ cols = PsfBoxCut -> psf_wf (ex_small cols types).
Proof.
  intros [-> | C] p E; [discriminate|]. assert (p = [7; 8; 9]%Q) by (destruct C as [-> | ->]; injection E as <-; reflexivity). subst p. cbn [ex_small m_psf_cols m_cat].
  split; [destruct C as [-> | ->]; discriminate|]. split.
  - destruct C as [-> | ->]; vm_compute; repeat (constructor; [discriminate|]); constructor.
  - intros o s I Is. cbn [ex_small_cat In] in I. destruct I as [<-|[<-|[<-|[]]]]; vm_compute in Is.
    + destruct Is as [<-|[]]. destruct C as [-> | ->]; reflexivity.
    + destruct Is.
    + destruct Is as [<-|[<-|[]]]; destruct C as [-> | ->]; reflexivity.
Qed.

Lemma ormask_lost : exists f, file_wf f /\ psf_wf f /\
  (exists g im, extract_range false f 2 2 = Ok g /\ get_cutout f 2 0 TOrmask = Ok im /\ get_cutout g 0 0 TOrmask = Err ValueError) /\
  (exists g im im', extract_range true f 2 2 = Ok g /\ get_cutout f 2 0 TOrmask = Ok im /\ get_cutout g 0 0 TOrmask = Ok im' /\ im <> im').
Proof.
  exists (ex_small PsfNone [TImage; TWeight; TSeg; TOrmask]). split; [apply small_wf|]. split; [apply small_psf_wf; tauto|]. split; vm_compute.
  - eexists. eexists. repeat split.
  - eexists. eexists. eexists. repeat split. discriminate.
Qed.

Lemma duplicate_found : exists f, occurrences (m_cat f) 1 = 2 /\ get_inds f [1] = Ok [0].
Proof. exists (mkMeds [ex_obj 1 1 1 0 0; ex_obj 2 1 1 0 0] true PsfNone [] [] None). vm_compute. split; reflexivity. Qed.

Lemma box_fails : exists f, file_wf f /\ psf_wf f /\ m_psf_cols f = PsfBoxCut /\
  (exists im, get_psf f 2 1 = Ok im) /\ (exists g, extract_range false f 0 2 = Ok g) /\
  extract_numbers (fun l => l) f [10; 30] = Err ValueError.
Proof.
  exists (ex_small PsfBoxCut [TImage; TWeight; TSeg; TBmask]). split; [apply small_wf|]. split; [apply small_psf_wf; tauto|]. vm_compute. split; [reflexivity|].
  split; [eexists; reflexivity|]. split; [eexists; reflexivity|reflexivity].
Qed.

Lemma no_bmask_fails : exists f, file_wf f /\ psf_wf f /\ (exists g, extract_range false f 0 2 = Ok g) /\
  extract_numbers (fun l => l) f [10; 30] = Err FitsError.
Proof.
  exists (ex_small PsfRCCut [TImage; TWeight; TSeg]). split; [apply small_wf|]. split; [apply small_psf_wf; tauto|]. vm_compute.
  split; [eexists; reflexivity|reflexivity].
Qed.

Lemma rcobj_fails : exists f, file_wf f /\ psf_wf f /\ m_psf_cols f = PsfRCObj /\ (exists im, get_psf f 2 1 = Ok im) /\
  extract_range false f 0 2 = Err IndexError /\ extract_numbers (fun l => l) f [10; 30] = Err IndexError.
Proof.
  set (h := ex_small PsfRCCut [TImage; TWeight; TSeg; TBmask]).
  exists (mkMeds (map (fun o => mkObj (o_id o) (o_number o) (o_box o) (o_ra o) (o_dec o) (o_color o) (o_wcs_color o) (o_psf_color o) 1 1 0 (o_ncut o) (o_slots o)) (m_cat h)) true PsfRCObj (m_info h) (m_ext h) (m_psf h)).
  split; [|split].
  - destruct (small_wf PsfRCCut [TImage; TWeight; TSeg; TBmask]) as (_ & T). split; [|exact T]. cbn [m_cat h ex_small ex_small_cat map]. repeat (apply Forall_cons; [cbn; lia|]). constructor.
  - destruct (small_psf_wf PsfRCCut [TImage; TWeight; TSeg; TBmask]) with (p := [7; 8; 9]%Q) as (_ & W & T); [tauto|reflexivity|].
    intros p E. assert (p = [7; 8; 9]%Q) by (injection E as <-; reflexivity). subst p. split; [discriminate|]. split; [exact W|].
    intros o s I _. cbn in I. destruct I as [<-|[<-|[<-|[]]]]; cbn; lia.
  - vm_compute. split; [reflexivity|]. split; [eexists; reflexivity|]. split; reflexivity.
Qed.

Lemma same_name_deleted : exists (d : disk unit) f, d 0 = Present f tt /\
  extractor_life (fun _ => 0) (fun l => l) (ByRange 0 0 false) "a" "a" true d = (fst (extractor_life (fun _ => 0) (fun l => l) (ByRange 0 0 false) "a" "a" true d), Err ValueError) /\
  fst (extractor_life (fun _ => 0) (fun l => l) (ByRange 0 0 false) "a" "a" true d) 0 = Absent.
Proof. exists (fun _ => Present (ex_small PsfNone []) tt). eexists. split; [reflexivity|]. vm_compute. split; reflexivity. Qed.

Lemma alias_overwritten : exists (d : disk unit) f, d 0 = Present f tt /\
  let r := extractor_life (fun _ => 0) (fun l => l) (ByRange 0 0 false) "a" "./a" false d in
  snd r = Ok tt /\ exists g, fst r 0 = Present g tt /\ g <> f.
Proof.
  exists (fun _ => Present (ex_small PsfNone [TImage; TWeight; TSeg]) tt). eexists. split; [reflexivity|]. vm_compute. split; [reflexivity|].
  eexists. split; [reflexivity|discriminate].
Qed.
