(** Extraction by numbers: relocation of the pixel blocks of the objects. *)
From Coq Require Import Lia ZifyBool ZifyNat Permutation.
From Verif Require Import Base BaseLemmas Img ImgLemmas Types Reader ReadLemmas StartLemmas Extract
  SpecTiles SpecFile SpecExtract ExtractLemmas ExtractLemmas2.
Open Scope Z_scope.

(** * Consecutive starts *)
Fixpoint assign (set : slot -> Z -> slot) (sz : slot -> Z) (n : nat) (loc : Z) (sl : list slot) : list slot :=
  match n, sl with
  | S n', s :: sl' => set s loc :: assign set sz n' (loc + sz s) sl'
  | _, _ => sl
  end.
Definition total (sz : slot -> Z) (sl : list slot) : Z := fold_right Z.add 0 (map sz sl).

Lemma assign_fold F set sz : (forall pre s sl loc, F (pre ++ s :: sl, loc) (Z.of_nat (length pre)) = Ok (pre ++ set s loc :: sl, loc + sz s)) ->
  forall n pre sl loc, (n <= length sl)%nat ->
  foldM F (map Z.of_nat (seq (length pre) n)) (pre ++ sl, loc)
  = Ok (pre ++ assign set sz n loc sl, loc + total sz (firstn n sl)).
Proof.
  intros HF. induction n as [|n IH]; intros pre sl loc L.
  - cbn. rewrite Z.add_0_r. destruct sl; reflexivity.
  - destruct sl as [|s sl]; [cbn in L; lia|]. cbn [seq map foldM]. rewrite HF. cbn [bind].
    specialize (IH (pre ++ [set s loc]) sl (loc + sz s)). rewrite app_length in IH. cbn [length] in IH. replace (length pre + 1)%nat with (S (length pre)) in IH by lia.
    rewrite <- app_assoc in IH. cbn [app] in IH. rewrite IH by (cbn in L; lia). cbn [assign firstn total map fold_right]. rewrite <- app_assoc. unfold total. f_equal. f_equal. ring.
Qed.

Lemma assign_nth set sz : forall n loc sl k,
  nth_error (assign set sz n loc sl) k =
  match nth_error sl k with
  | Some s => Some (if (k <? n)%nat then set s (loc + total sz (firstn k sl)) else s)
  | None => None end.
Proof.
  induction n as [|n IH]; intros loc sl k.
  - cbn [assign]. destruct (nth_error sl k); reflexivity.
  - destruct sl as [|s sl]; [destruct k; reflexivity|]. cbn [assign]. destruct k as [|k]; cbn [nth_error].
    + cbn [firstn]. unfold total. cbn. rewrite Z.add_0_r. reflexivity.
    + rewrite IH. destruct (nth_error sl k); [|reflexivity]. change (S k <? S n)%nat with (k <? n)%nat.
      destruct (k <? n)%nat; [|reflexivity]. do 2 f_equal. cbn [firstn]. unfold total. cbn [map fold_right]. ring.
Qed.

(** Starts of a tiled list of slots. *)
Lemma tiles_total st sz sl : forall x y, tiles x (map (fun s => (st s, st s + sz s)) sl) y ->
  y = x + total sz sl /\ forall k s, nth_error sl k = Some s -> st s = x + total sz (firstn k sl).
Proof.
  induction sl as [|s sl IH]; intros x y T.
  - inversion T. split; [unfold total; cbn; ring|]. intros [|k] s E; discriminate.
  - cbn [map] in T. inversion T as [|a m rs b L T' E1 E2]; subst. destruct (IH _ _ T') as (H1 & H2). split.
    + rewrite H1. unfold total. cbn. ring.
    + intros [|k] s' E.
      * injection E as <-. unfold total. cbn. ring.
      * cbn [nth_error] in E. rewrite (H2 k s' E). cbn [firstn]. unfold total. cbn [map fold_right]. ring.
Qed.

(** * Blocks of pixels *)
Definition block_bounds (st : slot -> Z) (sz : obj -> slot -> Z) (o : obj) : Z * Z :=
  match used_slots o with
  | [] => (0, 0)
  | s0 :: _ => (st s0, st s0 + total (sz o) (used_slots o))
  end.
Definition block (st : slot -> Z) (sz : obj -> slot -> Z) (m : list Q) (o : obj) : list Q :=
  match used_slots o with
  | [] => []
  | _ => sub m (fst (block_bounds st sz o)) (snd (block_bounds st sz o))
  end.

(** The object's pixels lie in the mosaic, one cutout after the other. *)
Definition placed (st : slot -> Z) (sz : obj -> slot -> Z) (m : list Q) (o : obj) : Prop :=
  fits o /\
  (used_slots o <> [] -> exists x y, 0 <= x /\ x < y /\ y <= zlen m /\
     tiles x (map (fun s => (st s, st s + sz o s)) (used_slots o)) y).

Lemma placed_bounds st sz (m : list Q) o x y : tiles x (map (fun s => (st s, st s + sz o s)) (used_slots o)) y ->
  used_slots o <> [] -> block_bounds st sz o = (x, y).
Proof.
  intros T H. unfold block_bounds. destruct (used_slots o) as [|s l] eqn:U; [congruence|].
  pose proof (tiles_first _ _ _ _ T) as E. cbn in E. destruct (tiles_total st (sz o) _ _ _ T) as (E2 & _). rewrite E, <- E2. reflexivity.
Qed.

Lemma block_len st sz m o : placed st sz m o -> zlen (block st sz m o) = total (sz o) (used_slots o).
Proof.
  intros (F & H). unfold block. destruct (used_slots o) as [|s l] eqn:U; [reflexivity|]. destruct H as (x & y & H1 & H2 & H3 & H4); [discriminate|].
  rewrite <- U in H4. rewrite (placed_bounds st sz m o x y H4) by congruence. cbn [fst snd]. rewrite sub_len by assumption.
  destruct (tiles_total st (sz o) _ _ _ H4) as (E & _). rewrite <- U. lia.
Qed.

Lemma slice_mid {A} (p m q : list A) a b : slice m a b <> Err FitsError ->
  slice (p ++ m ++ q) (zlen p + a) (zlen p + b) = slice m a b.
Proof.
  intros H. destruct (slice m a b) as [xs|e] eqn:E.
  - destruct (slice_ok _ _ _ _ E) as (B1 & B2 & B3 & B4). pose proof (zlen_nonneg p). pose proof (zlen_nonneg q). apply slice_spec; try lia.
    + rewrite !zlen_app. lia.
    + intros j Hj. rewrite zget_app. replace (zlen p + a + j <? zlen p) with false by lia.
      replace (zlen p + a + j - zlen p) with (a + j) by lia. rewrite zget_app. replace (a + j <? zlen m) with true by lia. rewrite B4 by lia. reflexivity.
  - unfold slice in E. destruct (_ && _); [discriminate|]. injection E as <-. congruence.
Qed.

(** Pixels of a cutout within the block put behind [p]. *)
Lemma block_slice st sz m o p q k s : placed st sz m o -> nth_error (used_slots o) k = Some s -> 0 < sz o s ->
  let loc := zlen p + total (sz o) (firstn k (used_slots o)) in
  slice (p ++ block st sz m o ++ q) loc (loc + sz o s) = slice m (st s) (st s + sz o s).
Proof.
  intros (F & H) Z N loc. assert (U : used_slots o <> []) by (intros U; rewrite U in Z; destruct k; discriminate).
  destruct (H U) as (x & y & H1 & H2 & H3 & H4). destruct (tiles_total st (sz o) _ _ _ H4) as (E1 & E2). specialize (E2 k s Z).
  assert (B : x <= st s /\ st s <= st s + sz o s /\ st s + sz o s <= y).
  { assert (HI : In (st s, st s + sz o s) (map (fun s => (st s, st s + sz o s)) (used_slots o))).
    { apply in_map_iff. exists s. split; [reflexivity|]. eapply nth_error_In; exact Z. }
    apply In_nth_error in HI. destruct HI as (j & Hj). apply (tiles_bound _ _ _ H4) in Hj. exact Hj. }
  assert (EB : block st sz m o = sub m x y).
  { unfold block. rewrite (placed_bounds st sz m o x y H4 U). destruct (used_slots o); [congruence|reflexivity]. }
  assert (SB : slice (sub m x y) (st s - x) (st s + sz o s - x) = slice m (st s) (st s + sz o s)).
  { apply (slice_slice m (sub m x y) x y); [apply slice_sub; assumption|lia|lia]. }
  assert (SN : slice m (st s) (st s + sz o s) <> Err FitsError).
  { destruct (slice_in_range m (st s) (st s + sz o s)) as (xs & E); [lia|lia|lia|]. rewrite E. discriminate. }
  rewrite EB. rewrite <- SB in SN |- *. rewrite <- (slice_mid p (sub m x y) q) by exact SN. unfold loc. f_equal; lia.
Qed.

(** * Lists of objects *)
Definition blocks (st : slot -> Z) (sz : obj -> slot -> Z) (m : list Q) (objs : list obj) : list Q := flat_map (block st sz m) objs.

Lemma blocks_at st sz m objs : Forall (placed st sz m) objs -> forall i o, nth_error objs i = Some o ->
  exists p q, blocks st sz m objs = p ++ block st sz m o ++ q /\
    zlen p = fold_right Z.add 0 (map (fun o => total (sz o) (used_slots o)) (firstn i objs)).
Proof.
  induction 1 as [|a objs H _ IH]; intros i o E; [destruct i; discriminate|]. destruct i as [|i].
  - injection E as <-. exists [], (blocks st sz m objs). split; reflexivity.
  - destruct (IH i o E) as (p & q & E1 & E2). exists (block st sz m a ++ p), q. split.
    + cbn [blocks flat_map]. unfold blocks in E1. rewrite E1, <- app_assoc. reflexivity.
    + rewrite zlen_app, E2, (block_len st sz m a H). reflexivity.
Qed.

(** * Ranges of the cutouts *)
Definition cutsz : obj -> slot -> Z := fun o _ => o_box o * o_box o.

Lemma total_const c (sl : list slot) : total (fun _ => c) sl = zlen sl * c.
Proof. unfold total. induction sl as [|s sl IH]; [reflexivity|]. cbn [map fold_right]. rewrite IH, zlen_cons. ring. Qed.

Definition rng_ok (m : list Q) (r : Z * Z) : Prop := 0 <= fst r /\ fst r < snd r /\ snd r <= zlen m.
Definition rdata (m : list Q) (acc : list (Z * Z)) : list Q := concat (map (fun r => sub m (fst r) (snd r)) (rev acc)).

Lemma sub_join {A} (m : list A) a b c : 0 <= a -> a < b -> b < c -> c <= zlen m -> sub m a b ++ sub m b c = sub m a c.
Proof.
  intros. apply list_zget_ext.
  - rewrite zlen_app, !sub_len by lia. lia.
  - intros i Hi. rewrite zlen_app, !sub_len in Hi by lia. rewrite zget_app, sub_len by lia.
    destruct (slice_ok m a b _ (slice_sub m a b ltac:(lia) ltac:(lia) ltac:(lia))) as (_ & _ & _ & E1).
    destruct (slice_ok m b c _ (slice_sub m b c ltac:(lia) ltac:(lia) ltac:(lia))) as (_ & _ & _ & E2).
    destruct (slice_ok m a c _ (slice_sub m a c ltac:(lia) ltac:(lia) ltac:(lia))) as (_ & _ & _ & E3).
    rewrite E3 by lia. destruct (i <? b - a) eqn:L; [apply E1; lia|]. rewrite E2 by lia. f_equal. lia.
Qed.

Lemma rdata_cons m r acc : rdata m (r :: acc) = rdata m acc ++ sub m (fst r) (snd r).
Proof. unfold rdata. cbn [rev]. rewrite map_app, concat_app. cbn. rewrite app_nil_r. reflexivity. Qed.

Lemma ranges_fold (ms : list (list Q)) n : (forall m, In m ms -> zlen m = n) -> forall objs acc,
  Forall (fun o => forall m, In m ms -> placed s_start cutsz m o) objs -> Forall (fun o => 0 < o_box o) objs ->
  ms <> [] -> (forall m, In m ms -> Forall (rng_ok m) acc) ->
  exists acc', foldM row_ranges_step objs acc = Ok acc' /\
    (forall m, In m ms -> Forall (rng_ok m) acc' /\ rdata m acc' = rdata m acc ++ blocks s_start cutsz m objs) /\
    (acc <> [] \/ (exists o, In o objs /\ 0 < o_ncut o) -> acc' <> []).
Proof.
  intros HL. induction objs as [|o objs IH]; intros acc P BX NE R.
  - exists acc. split; [reflexivity|]. split; [intros m I; split; [apply R; exact I|cbn; rewrite app_nil_r; reflexivity]|]. intros [H|(o & [] & _)]. exact H.
  - inversion P as [|? ? P1 P2]; subst. inversion BX as [|? ? B1 B2]; subst. cbn [foldM]. destruct ms as [|m0 ms']; [congruence|]. set (ms := m0 :: ms') in *.
    assert (F : fits o) by (apply (P1 m0); left; reflexivity).
    unfold row_ranges_step at 1. destruct (0 <? o_ncut o) eqn:N.
    + destruct (slot_exists o 0 F) as (s & Zs); [lia|]. rewrite (get_slot_zget o 0 s) by (assumption || lia). cbn [bind].
      set (e := s_start s + o_box o ^ 2 * o_ncut o). destruct (used_first o s F N Zs) as (l & U).
      assert (BB : block_bounds s_start cutsz o = (s_start s, e)).
      { unfold block_bounds. rewrite U. rewrite <- U. unfold cutsz. rewrite total_const, used_len by exact F. unfold e. f_equal. ring. }
      assert (RO : forall m, In m ms -> rng_ok m (s_start s, e) /\ block s_start cutsz m o = sub m (s_start s) e).
      { intros m I. destruct (P1 m I) as (_ & Q). destruct Q as (x & y & Q1 & Q2 & Q3 & Q4); [congruence|].
        pose proof (placed_bounds s_start cutsz m o x y Q4 ltac:(congruence)) as E. rewrite BB in E. injection E as Ex Ey. split.
        - unfold rng_ok. cbn [fst snd]. lia.
        - unfold block. rewrite BB, U. cbn [fst snd]. reflexivity. }
      destruct acc as [|[a b] acc].
      * destruct (IH [(s_start s, e)] P2 B2 NE) as (acc' & E1 & E2 & E3).
        { intros m I. constructor; [apply (RO m I)|constructor]. }
        exists acc'. split; [exact E1|]. split; [|intros _; apply E3; left; discriminate].
        intros m I. destruct (E2 m I) as (G1 & G2). split; [exact G1|]. rewrite G2, rdata_cons. cbn [fst snd]. cbn [blocks flat_map]. rewrite (proj2 (RO m I)). rewrite <- app_assoc. reflexivity.
      * destruct (s_start s =? b) eqn:EB.
        -- assert (b = s_start s) by lia. subst b. destruct (IH ((a, e) :: acc) P2 B2 NE) as (acc' & E1 & E2 & E3).
           { intros m I. pose proof (R m I) as Rm. inversion Rm as [|? ? (X1 & X2 & X3) X4]; subst. destruct (RO m I) as ((Y1 & Y2 & Y3) & _). cbn [fst snd] in *.
             constructor; [|exact X4]. split; [exact X1|]. cbn [fst snd]. lia. }
           exists acc'. split; [exact E1|]. split; [|intros _; apply E3; left; discriminate].
           intros m I. destruct (E2 m I) as (G1 & G2). split; [exact G1|]. rewrite G2, !rdata_cons. cbn [fst snd blocks flat_map]. rewrite (proj2 (RO m I)).
           pose proof (R m I) as Rm. inversion Rm as [|? ? (X1 & X2 & X3) X4]; subst. destruct (RO m I) as ((Y1 & Y2 & Y3) & _). cbn [fst snd] in *.
           rewrite <- (sub_join m a (s_start s) e) by lia. rewrite <- !app_assoc. reflexivity.
        -- destruct (IH ((s_start s, e) :: (a, b) :: acc) P2 B2 NE) as (acc' & E1 & E2 & E3).
           { intros m I. constructor; [apply (RO m I)|apply R; exact I]. }
           exists acc'. split; [exact E1|]. split; [|intros _; apply E3; left; discriminate].
           intros m I. destruct (E2 m I) as (G1 & G2). split; [exact G1|]. rewrite G2, (rdata_cons m (s_start s, e)). cbn [fst snd blocks flat_map]. rewrite (proj2 (RO m I)). rewrite <- !app_assoc. reflexivity.
    + cbn [bind]. destruct (IH acc P2 B2 NE R) as (acc' & E1 & E2 & E3). exists acc'. split; [exact E1|]. split.
      * intros m I. destruct (E2 m I) as (G1 & G2). split; [exact G1|]. rewrite G2. cbn [blocks flat_map]. unfold block at 1. rewrite used_nil by assumption. reflexivity.
      * intros [H|(o' & [<-|I] & N')]; [apply E3; left; exact H|lia|]. apply E3. right. exists o'. split; assumption.
Qed.

Lemma data_ranges m acc : Forall (rng_ok m) acc -> data_from_ranges (rev acc) m = Ok (rdata m acc).
Proof.
  intros R. unfold data_from_ranges, rdata. rewrite (mapM_map_ok _ (fun r => sub m (fst r) (snd r))); [reflexivity|].
  intros r I. rewrite <- in_rev in I. rewrite Forall_forall in R. destruct (R r I) as (A & B & C). apply slice_sub; assumption.
Qed.

(** * Ranges of the psfs *)
Lemma psf_range_one o m : placed s_psf_start (psf_npix PsfRCCut) m o -> (0 <? o_ncut o) = true ->
  psf_row_range PsfRCCut [o] = Ok (block_bounds s_psf_start (psf_npix PsfRCCut) o) /\ rng_ok m (block_bounds s_psf_start (psf_npix PsfRCCut) o) /\
  block s_psf_start (psf_npix PsfRCCut) m o = sub m (fst (block_bounds s_psf_start (psf_npix PsfRCCut) o)) (snd (block_bounds s_psf_start (psf_npix PsfRCCut) o)).
Proof.
  intros (F & Q) N. destruct (slot_exists o 0 F) as (s & Zs); [lia|]. destruct (used_first o s F N Zs) as (l & U).
  destruct Q as (x & y & Q1 & Q2 & Q3 & Q4); [congruence|].
  rewrite (placed_bounds s_psf_start (psf_npix PsfRCCut) m o x y Q4) by congruence. split.
  - apply psf_row_range_eq; [left; reflexivity|constructor; [exact F|constructor]| |exists o; split; [left; reflexivity|lia]].
    unfold psf_pixel_ranges. cbn [flat_map]. rewrite app_nil_r. exact Q4.
  - split; [repeat split; assumption|]. unfold block. rewrite (placed_bounds s_psf_start (psf_npix PsfRCCut) m o x y Q4) by congruence. rewrite U. reflexivity.
Qed.

Lemma psf_ranges_all m objs : Forall (placed s_psf_start (psf_npix PsfRCCut) m) objs -> (exists o, In o objs /\ 0 < o_ncut o) ->
  exists r rs, psf_row_ranges PsfRCCut objs = Ok (r :: rs) /\ fst r <> -1 /\
    data_from_ranges (r :: rs) m = Ok (blocks s_psf_start (psf_npix PsfRCCut) m objs).
Proof.
  intros P (o & I & N). unfold psf_row_ranges.
  assert (H : forall objs, Forall (placed s_psf_start (psf_npix PsfRCCut) m) objs ->
    let w := filter (fun o => 0 <? o_ncut o) objs in let b := block_bounds s_psf_start (psf_npix PsfRCCut) in
    mapM (fun o => psf_row_range PsfRCCut [o]) w = Ok (map b w) /\
    data_from_ranges (map b w) m = Ok (blocks s_psf_start (psf_npix PsfRCCut) m objs) /\ Forall (rng_ok m) (map b w)).
  { clear. induction objs as [|o objs IH]; intros P w b; [repeat split; constructor|]. inversion P as [|? ? P1 P2]; subst. destruct (IH P2) as (E1 & E2 & E3). unfold w, b. cbn [filter].
    destruct (0 <? o_ncut o) eqn:N.
    - destruct (psf_range_one o m P1 N) as (G1 & G2 & G3). cbn [mapM map]. rewrite G1, E1. cbn [bind]. split; [reflexivity|]. split; [|constructor; assumption].
      unfold data_from_ranges in *. cbn [mapM]. destruct G2 as (G2 & G4 & G5). rewrite slice_sub by assumption. cbn [bind].
      destruct (mapM _ (map _ (filter _ objs))) as [l|]; [|discriminate]. cbn [bind] in *. injection E2 as E2. cbn [concat]. rewrite E2. cbn [blocks flat_map]. rewrite <- G3. reflexivity.
    - split; [exact E1|]. split; [|exact E3]. rewrite E2. cbn [blocks flat_map]. replace (block s_psf_start (psf_npix PsfRCCut) m o) with (@nil Q); [reflexivity|]. unfold block. rewrite used_nil by (try apply P1; assumption). reflexivity. }
  destruct (H objs P) as (E1 & E2 & E3). destruct (filter (fun o => 0 <? o_ncut o) objs) as [|a w] eqn:EF.
  - assert (J : In o (filter (fun o => 0 <? o_ncut o) objs)) by (apply filter_In; split; [exact I|lia]). rewrite EF in J. destruct J.
  - cbn [map] in E1, E2, E3. eexists. eexists. split; [exact E1|]. split; [|exact E2]. inversion E3 as [|? ? (X & _) _]; subst. lia.
Qed.
