(** Extraction by numbers. *)
From Coq Require Import Lia ZifyBool ZifyNat Permutation.
From Verif Require Import Base BaseLemmas Img ImgLemmas Types Reader ReadLemmas StartLemmas Extract
  SpecTiles SpecFile SpecExtract ExtractLemmas ExtractLemmas2 ExtractLemmas3.
Open Scope Z_scope.

(** * New start rows *)
Definition ren_obj set (sz : obj -> slot -> Z) (o : obj) (loc : Z) : obj :=
  set_slots o (assign set (sz o) (Z.to_nat (o_ncut o)) loc (o_slots o)).
Fixpoint ren set (sz : obj -> slot -> Z) (objs : list obj) (loc : Z) : list obj :=
  match objs with
  | [] => []
  | o :: r => ren_obj set sz o loc :: ren set sz r (loc + total (sz o) (used_slots o))
  end.
Definition before (sz : obj -> slot -> Z) (objs : list obj) (i : nat) : Z :=
  fold_right Z.add 0 (map (fun o => total (sz o) (used_slots o)) (firstn i objs)).

Lemma ren_nth set sz objs : forall loc i o, nth_error objs i = Some o ->
  nth_error (ren set sz objs loc) i = Some (ren_obj set sz o (loc + before sz objs i)).
Proof.
  induction objs as [|a objs IH]; intros loc i o E; [destruct i; discriminate|]. destruct i as [|i].
  - injection E as <-. cbn. rewrite Z.add_0_r. reflexivity.
  - cbn [nth_error] in E. cbn [ren nth_error]. rewrite (IH _ i o E). unfold before. cbn [firstn map fold_right]. do 2 f_equal. ring.
Qed.
Lemma ren_len set sz objs : forall loc, length (ren set sz objs loc) = length objs.
Proof. induction objs as [|a objs IH]; intros loc; [reflexivity|]. cbn [ren length]. rewrite IH. reflexivity. Qed.

Lemma assign_len set sz n : forall loc sl, length (assign set sz n loc sl) = length sl.
Proof. induction n as [|n IH]; intros loc sl; [reflexivity|]. destruct sl as [|s sl]; [reflexivity|]. cbn. rewrite IH. reflexivity. Qed.

Lemma assign_map {B} (F : slot -> B) set sz : (forall s v, F (set s v) = F s) -> forall n loc sl, map F (assign set sz n loc sl) = map F sl.
Proof.
  intros H. induction n as [|n IH]; intros loc sl; [reflexivity|]. destruct sl as [|s sl]; [reflexivity|]. cbn. rewrite H, IH. reflexivity.
Qed.

Definition start_setter (set : slot -> Z -> slot) : Prop := set = set_start \/ set = set_psf_start.

Lemma ren_same set sz o loc : start_setter set -> same_but_starts o (ren_obj set sz o loc).
Proof.
  intros S. split; [reflexivity|]. unfold ren_obj. cbn [o_slots set_slots].
  assert (H : forall n loc sl, Forall2 (fun s s' => s' = set_psf_start (set_start s (s_start s')) (s_psf_start s')) sl (assign set (sz o) n loc sl)).
  { assert (R : forall sl, Forall2 (fun s s' => s' = set_psf_start (set_start s (s_start s')) (s_psf_start s')) sl sl).
    { induction sl as [|s sl IH]; constructor; [destruct s; reflexivity|exact IH]. }
    induction n as [|n IH]; intros l sl; [apply R|]. destruct sl as [|s sl]; [constructor|]. cbn [assign]. constructor; [|apply IH].
    destruct S as [-> | ->]; destruct s; reflexivity. }
  apply H.
Qed.

Lemma ren_used set sz o loc k : (k < Z.to_nat (o_ncut o))%nat ->
  nth_error (o_slots (ren_obj set sz o loc)) k =
  option_map (fun s => set s (loc + total (sz o) (firstn k (used_slots o)))) (nth_error (o_slots o) k).
Proof.
  intros K. unfold ren_obj. cbn [o_slots set_slots]. rewrite assign_nth. destruct (nth_error (o_slots o) k); [|reflexivity].
  replace (k <? Z.to_nat (o_ncut o))%nat with true by lia. cbn [option_map]. do 4 f_equal. unfold used_slots. rewrite firstn_firstn. f_equal. lia.
Qed.

Lemma used_map_ren {B} (F : slot -> B) set sz o loc : (forall s v, F (set s v) = F s) ->
  map F (used_slots (ren_obj set sz o loc)) = map F (used_slots o).
Proof.
  intros H. unfold used_slots, ren_obj. cbn [o_slots set_slots o_ncut]. rewrite <- !firstn_map, assign_map by exact H. reflexivity.
Qed.

Lemma fits_ren set sz o loc : fits o -> fits (ren_obj set sz o loc).
Proof. unfold fits, ren_obj. cbn [o_slots set_slots o_ncut]. unfold zlen. rewrite assign_len. tauto. Qed.

(** * The model's loops *)
Lemma zrange_seq n : zrange n = map Z.of_nat (seq 0 (Z.to_nat n)).
Proof. reflexivity. Qed.

Lemma modify_at {A} (pre : list A) s sl f : modify (pre ++ s :: sl) (length pre) f = Ok (pre ++ f s :: sl).
Proof.
  unfold modify. rewrite nth_error_app2 by lia. rewrite Nat.sub_diag. cbn [nth_error]. f_equal.
  induction pre as [|p pre IH]; [reflexivity|]. cbn. rewrite IH. reflexivity.
Qed.

Lemma py_index_at {A} (pre : list A) s sl : py_index (pre ++ s :: sl) (Z.of_nat (length pre)) = Ok s.
Proof.
  rewrite py_index_nonneg by lia. rewrite zget_nat, nth_error_app2, Nat.sub_diag by lia. reflexivity.
Qed.

Lemma renumber_obj_eq o loc : fits o ->
  renumber_obj o loc = Ok (ren_obj set_start cutsz o loc, loc + total (cutsz o) (used_slots o)).
Proof.
  intros F. unfold renumber_obj. rewrite zrange_seq.
  match goal with |- context [foldM ?F _ _] => assert (H := assign_fold F set_start (cutsz o)) end.
  lapply H; clear H.
  - intros H. specialize (H (Z.to_nat (o_ncut o)) [] (o_slots o) loc ltac:(unfold fits, zlen in F; lia)). cbn [length app] in H. rewrite H. reflexivity.
  - intros pre s sl l. rewrite Nat2Z.id, modify_at. cbn [bind]. unfold cutsz. rewrite Z.pow_2_r. reflexivity.
Qed.

Lemma renumber_eq objs : Forall fits objs -> forall loc, renumber objs loc = Ok (ren set_start cutsz objs loc).
Proof.
  induction 1 as [|o objs F _ IH]; intros loc; [reflexivity|]. cbn [renumber ren]. rewrite renumber_obj_eq by exact F. cbn [bind fst snd].
  rewrite IH. reflexivity.
Qed.

Lemma renumber_psf_obj_eq o loc : fits o ->
  renumber_psf_obj PsfRCCut o loc = Ok (ren_obj set_psf_start (psf_npix PsfRCCut) o loc, loc + total (psf_npix PsfRCCut o) (used_slots o)).
Proof.
  intros F. unfold renumber_psf_obj. rewrite zrange_seq.
  match goal with |- context [foldM ?F _ _] => assert (H := assign_fold F set_psf_start (psf_npix PsfRCCut o)) end.
  lapply H; clear H.
  - intros H. specialize (H (Z.to_nat (o_ncut o)) [] (o_slots o) loc ltac:(unfold fits, zlen in F; lia)). cbn [length app] in H. rewrite H. reflexivity.
  - intros pre s sl l. rewrite Nat2Z.id, modify_at. cbn [bind]. rewrite py_index_at. reflexivity.
Qed.

Lemma renumber_psf_eq objs : Forall fits objs -> forall loc, renumber_psf PsfRCCut objs loc = Ok (ren set_psf_start (psf_npix PsfRCCut) objs loc).
Proof.
  induction 1 as [|o objs F _ IH]; intros loc; [reflexivity|]. cbn [renumber_psf ren]. rewrite renumber_psf_obj_eq by exact F. cbn [bind fst snd].
  rewrite IH. reflexivity.
Qed.

(** * Objects of a well formed file are placed *)
Lemma placed_in st sz cat m o : tiles 0 (lranges st sz cat) (zlen m) -> In o cat -> fits o ->
  (forall s, In s (used_slots o) -> 0 < sz o s) -> placed st sz m o.
Proof.
  intros T I F P. split; [exact F|]. intros U. apply in_split in I. destruct I as (l1 & l2 & ->).
  destruct (sub_tiles st sz l1 [o] l2 (zlen m) T) as (x & y & A & B & C & D). exists x, y.
  assert (D' := D). unfold lranges in D'. cbn [flat_map] in D'. rewrite app_nil_r in D'. split; [exact A|]. split; [|split; assumption].
  destruct (used_slots o) as [|s l] eqn:Eu; [congruence|]. apply (tiles_pos st sz [o] x y o s D); [left; reflexivity|rewrite Eu; left; reflexivity|apply P; left; reflexivity].
Qed.

Lemma placed_ren sz m o loc : placed s_psf_start (psf_npix PsfRCCut) m o -> placed s_psf_start (psf_npix PsfRCCut) m (ren_obj set_start sz o loc).
Proof.
  intros (F & H). split; [apply fits_ren; exact F|]. intros U.
  rewrite (used_map_ren (fun s => (s_psf_start s, s_psf_start s + psf_npix PsfRCCut (ren_obj set_start sz o loc) s))) by reflexivity.
  apply H. intros E. apply U. assert (L : map (fun _ => tt) (used_slots (ren_obj set_start sz o loc)) = []).
  { rewrite used_map_ren by reflexivity. rewrite E. reflexivity. }
  destruct (used_slots (ren_obj set_start sz o loc)); [reflexivity|discriminate].
Qed.

(** * The extraction *)
Definition numbers_objs (objs : list obj) (with_psf : bool) : list obj :=
  let a := ren set_start cutsz objs 0 in
  if with_psf then ren set_psf_start (psf_npix PsfRCCut) a 0 else a.

Definition four (t : ctype) : Prop := t = TImage \/ t = TWeight \/ t = TSeg \/ t = TBmask.

Lemma numbers_core f objs : file_wf f -> psf_wf f -> (m_psf f <> None -> m_psf_cols f = PsfRCCut) ->
  (forall t, four t -> has_ext f t) -> Forall (fun o => In o (m_cat f)) objs -> (exists o, In o objs /\ 0 < o_ncut o) ->
  exists ranges, row_ranges objs = Ok ranges /\ first_is_minus_one ranges = Ok false /\
    (forall t m, four t -> ext_find (m_ext f) t = Some m -> data_from_ranges ranges m = Ok (blocks s_start cutsz m objs)).
Proof.
  intros (W & T) PW PL FX IN N.
  assert (FT : Forall fits objs).
  { rewrite Forall_forall in *. intros o I. apply W. apply IN; exact I. }
  assert (BX : Forall (fun o => 0 < o_box o) objs).
  { rewrite Forall_forall in *. intros o I. apply W. apply IN; exact I. }
  assert (PLC : forall t m, ext_find (m_ext f) t = Some m -> Forall (placed s_start cutsz m) objs).
  { intros t m E. rewrite Forall_forall in *. intros o I. apply (placed_in s_start cutsz (m_cat f)); [apply (T t); exact E|apply IN; exact I|apply FT; exact I|].
    intros s _. unfold cutsz. specialize (BX o I). nia. }
  destruct (FX TImage) as (m1 & E1); [unfold four; tauto|]. destruct (FX TWeight) as (m2 & E2); [unfold four; tauto|].
  destruct (FX TSeg) as (m3 & E3); [unfold four; tauto|]. destruct (FX TBmask) as (m4 & E4); [unfold four; tauto|].
  destruct (ranges_fold [m1; m2; m3; m4] (zlen m1)) with (objs := objs) (acc := @nil (Z * Z)) as (acc & A1 & A2 & A3).
  - intros m [<-|[<-|[<-|[<-|[]]]]]; [reflexivity|..]; eapply tiles_same_end; try (eapply T; eassumption).
  - rewrite Forall_forall. intros o I m [<-|[<-|[<-|[<-|[]]]]]; eapply (proj1 (Forall_forall _ _)); try exact I; eapply PLC; eassumption.
  - exact BX.
  - discriminate.
  - intros; constructor.
  - specialize (A3 (or_intror N)). unfold row_ranges. rewrite A1. cbn [bind]. destruct acc as [|r acc]; [congruence|]. exists (rev (r :: acc)). split; [reflexivity|]. split.
    + assert (R : Forall (rng_ok m1) (rev (r :: acc))) by (apply Forall_rev, A2; left; reflexivity).
      destruct (rev (r :: acc)) as [|[a b] l] eqn:Er.
      * apply (f_equal (@length _)) in Er. rewrite rev_length in Er. discriminate.
      * inversion R as [|? ? (X & _) _]; subst. cbn [fst] in X. cbn. f_equal. lia.
    + assert (G : forall m, In m [m1; m2; m3; m4] -> data_from_ranges (rev (r :: acc)) m = Ok (blocks s_start cutsz m objs)).
      { intros m I. destruct (A2 m I) as (B1 & B2). rewrite data_ranges by exact B1. rewrite B2. reflexivity. }
      intros t m [-> | [-> | [-> | ->]]] E; apply G; cbn; [rewrite E1 in E|rewrite E2 in E|rewrite E3 in E|rewrite E4 in E]; injection E as ->; tauto.
Qed.

Definition numbers_result (f : medsfile) (objs : list obj) : medsfile :=
  let cut t := match ext_find (m_ext f) t with Some m => blocks s_start cutsz m objs | None => [] end in
  mkMeds (numbers_objs objs (match m_psf f with Some _ => true | None => false end)) (m_number_col f) (m_psf_cols f) (m_info f)
    [(TImage, cut TImage); (TWeight, cut TWeight); (TSeg, cut TSeg); (TBmask, cut TBmask)]
    (option_map (fun p => blocks s_psf_start (psf_npix PsfRCCut) p (ren set_start cutsz objs 0)) (m_psf f)).

Lemma ren_has_cut set sz objs loc : (exists o, In o objs /\ 0 < o_ncut o) -> exists o, In o (ren set sz objs loc) /\ 0 < o_ncut o.
Proof.
  intros (o & I & N). apply In_nth_error in I. destruct I as (i & E). eexists. split; [eapply nth_error_In, ren_nth, E|exact N].
Qed.

Lemma numbers_eq order f numbers inds objs : file_wf f -> psf_wf f -> (m_psf f <> None -> m_psf_cols f = PsfRCCut) ->
  (forall t, four t -> has_ext f t) -> get_inds f numbers = Ok inds -> mapM (py_index (m_cat f)) (order inds) = Ok objs ->
  Forall (fun o => In o (m_cat f)) objs -> (exists o, In o objs /\ 0 < o_ncut o) ->
  extract_numbers order f numbers = Ok (numbers_result f objs) /\
  (forall p, m_psf f = Some p -> Forall (placed s_psf_start (psf_npix PsfRCCut) p) (ren set_start cutsz objs 0)).
Proof.
  intros WF PW PL FX GI MI IN N. unfold extract_numbers. rewrite GI. cbn [bind]. rewrite MI. cbn [bind].
  destruct (numbers_core f objs WF PW PL FX IN N) as (ranges & R1 & R2 & R3). rewrite R1. cbn [bind]. rewrite R2. cbn [bind].
  assert (FT : Forall fits objs).
  { destruct WF as (W & _). rewrite Forall_forall in *. intros o I. apply W. apply IN; exact I. }
  rewrite renumber_eq by exact FT. cbn [bind].
  assert (FT' : Forall fits (ren set_start cutsz objs 0)).
  { clear - FT. assert (forall l, Forall fits (ren set_start cutsz objs l)); [|auto]. induction FT as [|o objs F _ IH]; intros l; cbn [ren]; constructor; [apply fits_ren; exact F|apply IH]. }
  assert (PP : forall p, m_psf f = Some p -> Forall (placed s_psf_start (psf_npix PsfRCCut) p) (ren set_start cutsz objs 0)).
  { intros p Ep. specialize (PW p Ep). assert (C : m_psf_cols f = PsfRCCut) by (apply PL; congruence). rewrite C in PW. destruct PW as (_ & T & P).
    apply Forall_forall. intros o' I. apply In_nth_error in I. destruct I as (i & E).
    assert (exists o, nth_error objs i = Some o) as (o & Eo).
    { destruct (nth_error objs i) eqn:X; [eexists; reflexivity|]. apply nth_error_None in X. assert (L := proj1 (nth_error_Some (ren set_start cutsz objs 0) i) ltac:(congruence)). rewrite ren_len in L. lia. }
    rewrite (ren_nth set_start cutsz objs 0 i o Eo) in E. injection E as <-. apply placed_ren.
    assert (I : In o objs) by (eapply nth_error_In; exact Eo). rewrite Forall_forall in FT, IN.
    apply (placed_in s_psf_start (psf_npix PsfRCCut) (m_cat f)); [exact T|apply IN; exact I|apply FT; exact I|]. intros s Is. apply (P o s); [apply IN; exact I|exact Is]. }
  split; [|exact PP].
  assert (CR : forall t, four t -> cut_ranges_ext f ranges t = Ok (t, match ext_find (m_ext f) t with Some m => blocks s_start cutsz m objs | None => [] end)).
  { intros t Ft. unfold cut_ranges_ext, in_ext. destruct (FX t Ft) as (m & Em). rewrite Em. cbn [bind]. rewrite (R3 t m Ft Em). reflexivity. }
  unfold numbers_result. rewrite !CR by (unfold four; tauto). destruct (m_psf f) as [p|] eqn:Ep.
  - rewrite PL by discriminate. destruct (psf_ranges_all p _ (PP p eq_refl) (ren_has_cut _ _ _ _ N)) as (r & rs & G1 & G2 & G3).
    rewrite G1. cbn [bind]. unfold first_is_minus_one. destruct r as [a b]. cbn [fst] in G2. replace (a =? -1) with false by lia. cbn [bind].
    rewrite renumber_psf_eq by exact FT'. cbn [bind]. rewrite G3. reflexivity.
  - reflexivity.
Qed.

Lemma numbers_same f objs i o : file_wf f -> (m_psf f <> None -> m_psf_cols f = PsfRCCut) ->
  (forall p, m_psf f = Some p -> Forall (placed s_psf_start (psf_npix PsfRCCut) p) (ren set_start cutsz objs 0)) ->
  (forall p s, m_psf f = Some p -> In s (used_slots o) -> 0 < psf_npix PsfRCCut o s) ->
  (forall t, four t -> has_ext f t) -> Forall (fun o => In o (m_cat f)) objs ->
  zget objs i = Some o ->
  exists o', zget (m_cat (numbers_result f objs)) i = Some o' /\ same_but_starts o o' /\
  forall j, zget (m_cat f) j = Some o -> (forall t, four t -> same_cutouts f j (numbers_result f objs) i t) /\ same_psfs f j (numbers_result f objs) i.
Proof.
  intros WF PL PP PZ FX IN Zi. set (g := numbers_result f objs).
  assert (I0 := zget_Some_range _ _ _ Zi). rewrite <- (Z2Nat.id i) in Zi |- * by lia. set (n := Z.to_nat i) in *. rewrite zget_nat in Zi.
  assert (I : In o objs) by (eapply nth_error_In; exact Zi). assert (IC : In o (m_cat f)) by (rewrite Forall_forall in IN; apply IN; exact I).
  assert (FB : fits o /\ 0 < o_box o) by (destruct WF as (W & _); rewrite Forall_forall in W; apply W; exact IC). destruct FB as (F & B).
  set (o1 := ren_obj set_start cutsz o (0 + before cutsz objs n)).
  assert (Z1 : nth_error (ren set_start cutsz objs 0) n = Some o1) by (apply ren_nth; exact Zi).
  set (o2 := match m_psf f with Some _ => ren_obj set_psf_start (psf_npix PsfRCCut) o1 (0 + before (psf_npix PsfRCCut) (ren set_start cutsz objs 0) n) | None => o1 end).
  assert (Z2 : zget (m_cat g) (Z.of_nat n) = Some o2).
  { rewrite zget_nat. unfold g, numbers_result, numbers_objs, o2. cbn [m_cat]. destruct (m_psf f); [apply ren_nth; exact Z1|exact Z1]. }
  assert (S1 : same_but_starts o o1) by (apply ren_same; left; reflexivity).
  assert (S2 : same_but_starts o o2).
  { unfold o2. destruct (m_psf f); [|exact S1]. eapply same_trans; [exact S1|]. apply ren_same. right. reflexivity. }
  exists o2. split; [exact Z2|]. split; [exact S2|]. intros j Zj. split.
  - intros t Ft. apply (cutouts_transfer f g (Z.of_nat n) j o o2 t Zj Z2 S2 F).
    + destruct (FX t Ft) as (m & Em). rewrite Em. destruct Ft as [-> | [-> | [-> | ->]]]; cbn; split; discriminate.
    + intros m m' k s s' Em Em' K Zs Zs'.
      assert (M' : m' = blocks s_start cutsz m objs).
      { destruct Ft as [-> | [-> | [-> | ->]]]; cbn in Em'; rewrite Em in Em'; injection Em' as <-; reflexivity. }
      assert (PM : Forall (placed s_start cutsz m) objs).
      { destruct WF as (W & T). rewrite Forall_forall in *. intros x Ix. apply (placed_in s_start cutsz (m_cat f)); [apply (T t); exact Em|apply IN; exact Ix|apply W, IN; exact Ix|].
        intros ? _. unfold cutsz. destruct (W x (IN x Ix)) as (_ & Bx). nia. }
      assert (Kn := Z2Nat.id k (proj1 K)). rewrite <- Kn in Zs, Zs'. set (kn := Z.to_nat k) in *. rewrite zget_nat in Zs, Zs'.
      assert (KN : (kn < Z.to_nat (o_ncut o))%nat) by lia.
      assert (St : s_start s' = before cutsz objs n + total (cutsz o) (firstn kn (used_slots o))).
      { assert (X1 : nth_error (o_slots o1) kn = Some (set_start s (before cutsz objs n + total (cutsz o) (firstn kn (used_slots o))))).
        { unfold o1. rewrite ren_used by exact KN. rewrite Zs. reflexivity. }
        unfold o2 in Zs'. destruct (m_psf f).
        - rewrite ren_used in Zs' by exact KN. rewrite X1 in Zs'. injection Zs' as <-. reflexivity.
        - rewrite X1 in Zs'. injection Zs' as <-. reflexivity. }
      destruct (blocks_at s_start cutsz m objs PM n o Zi) as (p & q & E1 & E2). rewrite M', E1, St. fold (before cutsz objs n) in E2. rewrite <- E2.
      apply (block_slice s_start cutsz m o p q kn s).
      * rewrite Forall_forall in PM. apply PM; exact I.
      * unfold used_slots. rewrite nth_error_firstn. replace (kn <? Z.to_nat (o_ncut o))%nat with true by lia. exact Zs.
      * unfold cutsz. nia.
  - apply (psfs_transfer f g (Z.of_nat n) j o o2 Zj Z2 S2 F).
    + reflexivity.
    + unfold g, numbers_result. cbn [m_psf]. destruct (m_psf f); cbn; split; congruence.
    + intros p p' k s s' Ep Ep' K Zs Zs'. rewrite (PL ltac:(congruence)).
      unfold g, numbers_result in Ep'. cbn [m_psf] in Ep'. rewrite Ep in Ep'. cbn [option_map] in Ep'. injection Ep' as <-.
      unfold o2 in Zs'. rewrite Ep in Zs'. specialize (PP p Ep).
      assert (Kn := Z2Nat.id k (proj1 K)). rewrite <- Kn in Zs, Zs'. set (kn := Z.to_nat k) in *. rewrite zget_nat in Zs, Zs'.
      assert (KN : (kn < Z.to_nat (o_ncut o))%nat) by lia.
      assert (X1 : nth_error (o_slots o1) kn = Some (set_start s (0 + before cutsz objs n + total (cutsz o) (firstn kn (used_slots o))))).
      { unfold o1. rewrite ren_used by exact KN. rewrite Zs. reflexivity. }
      rewrite ren_used in Zs' by exact KN. rewrite X1 in Zs'. cbn [option_map] in Zs'. set (s1 := set_start s _) in *. injection Zs' as <-.
      destruct (blocks_at s_psf_start (psf_npix PsfRCCut) p _ PP n o1 Z1) as (a & b & E1 & E2). fold (before (psf_npix PsfRCCut) (ren set_start cutsz objs 0) n) in E2. rewrite E1. cbn [s_psf_start set_psf_start]. rewrite <- E2.
      change (psf_npix PsfRCCut o s) with (psf_npix PsfRCCut o1 s1). change (s_psf_start s) with (s_psf_start s1).
      apply (block_slice s_psf_start (psf_npix PsfRCCut) p o1 a b kn s1).
      * rewrite Forall_forall in PP. apply PP. eapply nth_error_In; exact Z1.
      * unfold used_slots. rewrite nth_error_firstn. change (o_ncut o1) with (o_ncut o). replace (kn <? Z.to_nat (o_ncut o))%nat with true by lia. exact X1.
      * apply (PZ p s Ep). unfold used_slots. eapply nth_error_In with (n := kn). rewrite nth_error_firstn. replace (kn <? Z.to_nat (o_ncut o))%nat with true by lia. exact Zs.
Qed.
