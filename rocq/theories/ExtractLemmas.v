(** Pixel ranges of sub-catalogs; reading the same pixels from another file. *)
From Coq Require Import Lia ZifyBool ZifyNat.
From Verif Require Import Base BaseLemmas Img ImgLemmas Types Reader ReadLemmas StartLemmas Extract
  SpecTiles SpecFile SpecExtract.
Open Scope Z_scope.

(** Ranges of a layout: starts [st], sizes [sz]. *)
Definition lranges (st : slot -> Z) (sz : obj -> slot -> Z) (cat : list obj) : list (Z * Z) :=
  flat_map (fun o => map (fun s => (st s, st s + sz o s)) (used_slots o)) cat.

Definition fits (o : obj) : Prop := 0 <= o_ncut o <= zlen (o_slots o).

Lemma used_nil o : fits o -> (0 <? o_ncut o) = false -> used_slots o = [].
Proof. unfold fits, used_slots. intros H E. replace (Z.to_nat (o_ncut o)) with 0%nat by lia. reflexivity. Qed.

Lemma used_zget o k : zget (used_slots o) k = if k <? o_ncut o then zget (o_slots o) k else None.
Proof. unfold used_slots. apply zget_firstn. Qed.

Lemma used_len o : fits o -> zlen (used_slots o) = o_ncut o.
Proof. unfold fits, used_slots, zlen. intros H. rewrite firstn_length. lia. Qed.

Lemma used_first o s0 : fits o -> (0 <? o_ncut o) = true -> zget (o_slots o) 0 = Some s0 ->
  exists l, used_slots o = s0 :: l.
Proof.
  intros F E Z0. assert (H : zget (used_slots o) 0 = Some s0) by (rewrite used_zget, E; exact Z0).
  destruct (used_slots o) as [|s l]; [discriminate|]. inversion H. exists l. reflexivity.
Qed.

Lemma used_last o s1 : fits o -> (0 <? o_ncut o) = true -> zget (o_slots o) (o_ncut o - 1) = Some s1 ->
  exists l, used_slots o = l ++ [s1].
Proof.
  intros F E Z0. assert (H : zget (used_slots o) (o_ncut o - 1) = Some s1).
  { rewrite used_zget. replace (o_ncut o - 1 <? o_ncut o) with true by lia. exact Z0. }
  pose proof (used_len o F) as L. destruct (used_slots o) as [|s l] eqn:U using rev_ind.
  - unfold zlen in L. cbn in L. lia.
  - clear IHl. rewrite zlen_app in L. change (zlen [s]) with 1 in L. rewrite zget_app in H.
    replace (o_ncut o - 1 <? zlen l) with false in H by lia. replace (o_ncut o - 1 - zlen l) with 0 in H by lia.
    inversion H. exists l. reflexivity.
Qed.

Lemma lranges_app st sz a b : lranges st sz (a ++ b) = lranges st sz a ++ lranges st sz b.
Proof. apply flat_map_app. Qed.

Lemma lranges_filter st sz cat : Forall fits cat ->
  lranges st sz (filter (fun o => 0 <? o_ncut o) cat) = lranges st sz cat.
Proof.
  induction 1 as [|o cat F _ IH]; [reflexivity|]. cbn [filter]. destruct (0 <? o_ncut o) eqn:E.
  - cbn [lranges flat_map]. unfold lranges in IH. rewrite IH. reflexivity.
  - cbn [lranges flat_map]. rewrite used_nil by assumption. exact IH.
Qed.

Lemma tiles_first a r rs b : tiles a (r :: rs) b -> fst r = a.
Proof. intros H. inversion H. reflexivity. Qed.

Lemma tiles_last a rs r b : tiles a (rs ++ [r]) b -> snd r = b.
Proof.
  intros H. destruct (tiles_split _ _ _ _ H) as (m & _ & H2). inversion H2 as [|? ? ? ? _ H3]; subst. inversion H3. reflexivity.
Qed.

Lemma filter_split {A} (p : A -> bool) l a w : filter p l = a :: w ->
  p a = true /\ p (last w a) = true /\ In a l /\ In (last w a) l /\ exists w', a :: w = w' ++ [last w a].
Proof.
  intros E. assert (H : forall z, In z (a :: w) -> p z = true /\ In z l).
  { intros z Hz. rewrite <- E in Hz. apply filter_In in Hz. tauto. }
  assert (E2 : a :: w = removelast (a :: w) ++ [last w a]).
  { rewrite (app_removelast_last a) at 1 by discriminate. f_equal. f_equal. destruct w as [|b w]; [reflexivity|]. reflexivity. }
  assert (In (last w a) (a :: w)) by (rewrite E2; apply in_or_app; right; left; reflexivity).
  destruct (H a (or_introl eq_refl)). destruct (H _ H0). repeat split; try assumption. exists (removelast (a :: w)). exact E2.
Qed.

Lemma range_ends st sz cat x y o w s0 s1 : Forall fits cat -> tiles x (lranges st sz cat) y ->
  filter (fun o => 0 <? o_ncut o) cat = o :: w ->
  zget (o_slots o) 0 = Some s0 -> zget (o_slots (last w o)) (o_ncut (last w o) - 1) = Some s1 ->
  st s0 = x /\ st s1 + sz (last w o) s1 = y.
Proof.
  intros F T E Z0 Z1. rewrite <- (lranges_filter st sz cat F), E in T. destruct (filter_split _ _ _ _ E) as (P1 & P2 & I1 & I2 & w' & E').
  rewrite Forall_forall in F. split.
  - destruct (used_first o s0 (F _ I1) P1 Z0) as (l & U). cbn [lranges flat_map] in T. rewrite U in T. apply tiles_first in T. exact T.
  - destruct (used_last _ s1 (F _ I2) P2 Z1) as (l & U). rewrite E', lranges_app in T. cbn [lranges flat_map] in T.
    rewrite U, app_nil_r, map_app, app_assoc in T. apply tiles_last in T. exact T.
Qed.

Lemma slot_exists o k : fits o -> 0 <= k < o_ncut o -> exists s, zget (o_slots o) k = Some s.
Proof. intros F K. apply zget_range_Some. unfold fits in F. lia. Qed.

Lemma get_slot_zget o k s : 0 <= k -> zget (o_slots o) k = Some s -> get_slot o k = Ok s.
Proof. intros K E. apply py_index_ok_nonneg; assumption. Qed.

Lemma row_range_eq cat x y : Forall fits cat -> tiles x (cut_ranges cat) y ->
  (exists o, In o cat /\ 0 < o_ncut o) -> row_range cat = Ok (x, y).
Proof.
  intros F T (o & I & N). unfold row_range. destruct (filter (fun o => 0 <? o_ncut o) cat) as [|a w] eqn:E.
  - assert (H : In o (filter (fun o => 0 <? o_ncut o) cat)) by (apply filter_In; split; [exact I|lia]). rewrite E in H. destruct H.
  - destruct (filter_split _ _ _ _ E) as (P1 & P2 & I1 & I2 & _). pose proof F as F'. rewrite Forall_forall in F'.
    destruct (slot_exists a 0 (F' _ I1)) as (s0 & Z0); [lia|].
    destruct (slot_exists (last w a) (o_ncut (last w a) - 1) (F' _ I2)) as (s1 & Z1); [lia|].
    destruct (range_ends s_start (fun o _ => o_box o * o_box o) cat x y a w s0 s1 F T E Z0 Z1) as (A & B).
    rewrite (get_slot_zget a 0 s0) by (assumption || lia). cbn [bind]. rewrite (get_slot_zget _ _ s1) by (assumption || lia). cbn [bind].
    replace (o_box (last w a) ^ 2) with (o_box (last w a) * o_box (last w a)) by ring. rewrite A, B. reflexivity.
Qed.

Lemma row_range_none cat : (forall o, In o cat -> o_ncut o <= 0) -> row_range cat = Ok (-1, -1).
Proof.
  intros H. unfold row_range. destruct (filter (fun o => 0 <? o_ncut o) cat) as [|a w] eqn:E; [reflexivity|].
  destruct (filter_split _ _ _ _ E) as (P1 & _ & I1 & _). specialize (H _ I1). lia.
Qed.

Lemma psf_row_range_none cols cat : (forall o, In o cat -> o_ncut o <= 0) -> psf_row_range cols cat = Ok (-1, -1).
Proof.
  intros H. unfold psf_row_range. destruct (filter (fun o => 0 <? o_ncut o) cat) as [|a w] eqn:E; [reflexivity|].
  destruct (filter_split _ _ _ _ E) as (P1 & _ & I1 & _). specialize (H _ I1). lia.
Qed.


Lemma psf_npix_last_eq cols o k s : psf_extractable cols -> 0 <= k -> zget (o_slots o) k = Some s ->
  psf_npix_last cols o k = Ok (psf_npix cols o s).
Proof.
  intros [->|[->| ->]] K Z; cbn [psf_npix_last psf_npix]; rewrite ?(get_slot_zget o k s) by assumption; cbn [bind]; f_equal; ring.
Qed.

Lemma psf_row_range_eq cols cat x y : psf_extractable cols -> Forall fits cat -> tiles x (psf_pixel_ranges cols cat) y ->
  (exists o, In o cat /\ 0 < o_ncut o) -> psf_row_range cols cat = Ok (x, y).
Proof.
  intros C F T (o & I & N). unfold psf_row_range. destruct (filter (fun o => 0 <? o_ncut o) cat) as [|a w] eqn:E.
  - assert (H : In o (filter (fun o => 0 <? o_ncut o) cat)) by (apply filter_In; split; [exact I|lia]). rewrite E in H. destruct H.
  - destruct (filter_split _ _ _ _ E) as (P1 & P2 & I1 & I2 & _). pose proof F as F'. rewrite Forall_forall in F'.
    destruct (slot_exists a 0 (F' _ I1)) as (s0 & Z0); [lia|].
    destruct (slot_exists (last w a) (o_ncut (last w a) - 1) (F' _ I2)) as (s1 & Z1); [lia|].
    destruct (range_ends s_psf_start (psf_npix cols) cat x y a w s0 s1 F T E Z0 Z1) as (A & B).
    rewrite (get_slot_zget a 0 s0) by (assumption || lia). cbn [bind]. rewrite (psf_npix_last_eq _ _ _ s1) by (assumption || lia). cbn [bind].
    rewrite (get_slot_zget _ _ s1) by (assumption || lia). cbn [bind]. rewrite A, B. reflexivity.
Qed.

(** * Slices of slices *)
Lemma slice_slice {A} (m m' : list A) x y a b : slice m x y = Ok m' -> x <= a -> b <= y ->
  slice m' (a - x) (b - x) = slice m a b.
Proof.
  intros H HA HB. destruct (slice_ok _ _ _ _ H) as (B1 & B2 & B3 & B4).
  destruct (Z_lt_le_dec a b) as [L|L].
  - destruct (slice_in_range m a b) as (xs & E); [lia|lia|lia|]. rewrite E. destruct (slice_ok _ _ _ _ E) as (C1 & C2 & C3 & C4).
    apply slice_spec; try lia. intros j Hj. replace (a - x + j) with (a + j - x) by lia. rewrite B4 by lia. rewrite C4 by lia. f_equal. lia.
  - unfold slice. replace (a <? b) with false by lia. replace (a - x <? b - x) with false by lia. rewrite !andb_false_r. reflexivity.
Qed.

Lemma slice_parts {A} (m xs : list A) a b : slice m a b = Ok xs ->
  exists pre post, m = pre ++ xs ++ post /\ zlen pre = a.
Proof.
  unfold slice. destruct ((0 <=? a) && (a <? b) && (b <=? zlen m)) eqn:E; [|discriminate]. intros H. injection H as <-.
  exists (firstn (Z.to_nat a) m), (skipn (Z.to_nat (b - a)) (skipn (Z.to_nat a) m)). split.
  - rewrite firstn_skipn, firstn_skipn. reflexivity.
  - unfold zlen in *. rewrite firstn_length. lia.
Qed.

Lemma sub_tiles st sz pre objs post N : tiles 0 (lranges st sz (pre ++ objs ++ post)) N ->
  exists x y, 0 <= x /\ x <= y /\ y <= N /\ tiles x (lranges st sz objs) y.
Proof.
  rewrite !lranges_app. intros T. destruct (tiles_split _ _ _ _ T) as (x & T1 & T2). destruct (tiles_split _ _ _ _ T2) as (y & T3 & T4).
  exists x, y. repeat split; [apply (tiles_le _ _ _ T1)|apply (tiles_le _ _ _ T3)|apply (tiles_le _ _ _ T4)|exact T3].
Qed.

Lemma in_tiles st sz cat o s x y : tiles x (lranges st sz cat) y -> In o cat -> In s (used_slots o) ->
  x <= st s /\ st s <= st s + sz o s /\ st s + sz o s <= y.
Proof.
  intros T I1 I2. assert (H : In (st s, st s + sz o s) (lranges st sz cat)).
  { apply in_flat_map. exists o. split; [exact I1|]. apply in_map_iff. exists s. split; [reflexivity|exact I2]. }
  apply In_nth_error in H. destruct H as (j & Hj). apply (tiles_bound _ _ _ T) in Hj. exact Hj.
Qed.

Lemma tiles_shift c rs a b rs' : tiles a rs b -> rs' = map (fun r => (fst r - c, snd r - c)) rs -> tiles (a - c) rs' (b - c).
Proof. intros T ->. induction T as [|a m rs b L T IH]; cbn [map fst snd]; constructor; [lia|exact IH]. Qed.

(** * The same pixels read from two files *)
Lemma same_fields o o' : same_but_starts o o' ->
  o_box o' = o_box o /\ o_ncut o' = o_ncut o /\ zlen (o_slots o') = zlen (o_slots o) /\
  o_psf_nr o' = o_psf_nr o /\ o_psf_nc o' = o_psf_nc o /\ o_psf_box o' = o_psf_box o /\
  o_number o' = o_number o /\ o_id o' = o_id o.
Proof.
  intros (E & F). assert (L : zlen (o_slots o') = zlen (o_slots o)) by (clear E; unfold zlen; induction F as [|? ? ? ? ? ? IH]; cbn [length]; lia).
  repeat split; try exact L; rewrite E; reflexivity.
Qed.

Lemma same_slot o o' k s : same_but_starts o o' -> zget (o_slots o) k = Some s ->
  exists s', zget (o_slots o') k = Some s' /\ s' = set_psf_start (set_start s (s_start s')) (s_psf_start s').
Proof.
  intros (_ & F). unfold zget. destruct (k <? 0); [discriminate|]. generalize (Z.to_nat k). clear k.
  induction F as [|a b l l' R F IH]; intros n E; destruct n; cbn in *; try discriminate.
  - injection E as <-. exists b. split; [reflexivity|exact R].
  - apply IH. exact E.
Qed.

Lemma same_slot_none o o' k : same_but_starts o o' -> zget (o_slots o) k = None -> zget (o_slots o') k = None.
Proof. intros S H. destruct (same_fields _ _ S) as (_ & _ & L & _). apply zget_None. rewrite L. apply zget_None. exact H. Qed.

Lemma psf_npix_same cols o o' s s' : same_but_starts o o' ->
  s' = set_psf_start (set_start s (s_start s')) (s_psf_start s') -> psf_npix cols o' s' = psf_npix cols o s.
Proof.
  intros S E. destruct (same_fields _ _ S) as (_ & _ & _ & A & B & C & _). unfold psf_npix. rewrite A, B, C, E. destruct cols; reflexivity.
Qed.

Lemma same_refl o : same_but_starts o o.
Proof.
  split; [symmetry; apply set_slots_id|]. induction (o_slots o) as [|s l IH]; constructor; [destruct s; reflexivity|exact IH].
Qed.

Lemma same_trans a b c : same_but_starts a b -> same_but_starts b c -> same_but_starts a c.
Proof.
  intros (E1 & F1) (E2 & F2). split.
  - rewrite E2 at 1. rewrite E1. reflexivity.
  - clear E1 E2. revert F2. generalize (o_slots c). induction F1 as [|x y l l' R F IH]; intros l2 F2; inversion F2 as [|y' z ? l2' R2 F2']; subst; constructor.
    + rewrite R2. rewrite R. destruct x, z; reflexivity.
    + apply IH. exact F2'.
Qed.

Lemma check_same f g i j o o' k : zget (m_cat f) j = Some o -> zget (m_cat g) i = Some o' -> 0 <= k ->
  o_ncut o' = o_ncut o -> fits o ->
  (o_ncut o <= k /\ check_indices g i (Some k) = Err ValueError /\ check_indices f j (Some k) = Err ValueError) \/
  (0 <= k < o_ncut o /\ check_indices g i (Some k) = Ok o' /\ check_indices f j (Some k) = Ok o).
Proof.
  intros Zf Zg K E F. unfold fits in F. destruct (Z_lt_le_dec k (o_ncut o)) as [L|L].
  - right. split; [lia|]. split; apply check_indices_ok; (assumption || lia).
  - left. split; [exact L|]. unfold check_indices.
    pose proof (zget_Some_range _ _ _ Zf). pose proof (zget_Some_range _ _ _ Zg).
    replace (zlen (m_cat g) <=? i) with false by lia. replace (zlen (m_cat f) <=? j) with false by lia.
    rewrite !py_index_nonneg by lia. rewrite Zf, Zg. cbn [bind]. rewrite E.
    destruct (o_ncut o =? 0); [split; reflexivity|]. replace (o_ncut o <=? k) with true by lia. split; reflexivity.
Qed.

Lemma cutouts_transfer f g i j o o' t : zget (m_cat f) j = Some o -> zget (m_cat g) i = Some o' ->
  same_but_starts o o' -> fits o ->
  (ext_find (m_ext f) t = None <-> ext_find (m_ext g) t = None) ->
  (forall m m' k s s', ext_find (m_ext f) t = Some m -> ext_find (m_ext g) t = Some m' -> 0 <= k < o_ncut o ->
     zget (o_slots o) k = Some s -> zget (o_slots o') k = Some s' ->
     slice m' (s_start s') (s_start s' + o_box o * o_box o) = slice m (s_start s) (s_start s + o_box o * o_box o)) ->
  same_cutouts f j g i t.
Proof.
  intros Zf Zg S F EX H k K. destruct (same_fields _ _ S) as (A & B & _). unfold get_cutout.
  destruct (check_same f g i j o o' k Zf Zg K B F) as [(_ & -> & ->)|(L & -> & ->)]; [reflexivity|]. cbn [bind]. rewrite A.
  destruct (slot_exists o k F L) as (s & Z). destruct (same_slot _ _ _ _ S Z) as (s' & Z' & R).
  rewrite (get_slot_zget o k s), (get_slot_zget o' k s') by assumption. cbn [bind]. unfold get_extension.
  destruct (ext_find (m_ext f) t) as [m|] eqn:E1.
  - destruct (ext_find (m_ext g) t) as [m'|] eqn:E2; [|apply proj2 in EX; specialize (EX eq_refl); discriminate]. cbn [bind].
    rewrite (H m m' k s s') by (assumption || reflexivity). reflexivity.
  - rewrite (proj1 EX eq_refl). reflexivity.
Qed.

Lemma psfs_transfer f g i j o o' : zget (m_cat f) j = Some o -> zget (m_cat g) i = Some o' ->
  same_but_starts o o' -> fits o -> m_psf_cols g = m_psf_cols f ->
  (m_psf f = None <-> m_psf g = None) ->
  (forall p p' k s s', m_psf f = Some p -> m_psf g = Some p' -> 0 <= k < o_ncut o ->
     zget (o_slots o) k = Some s -> zget (o_slots o') k = Some s' ->
     slice p' (s_psf_start s') (s_psf_start s' + psf_npix (m_psf_cols f) o s)
     = slice p (s_psf_start s) (s_psf_start s + psf_npix (m_psf_cols f) o s)) ->
  same_psfs f j g i.
Proof.
  intros Zf Zg S F C EX H k K. destruct (same_fields _ _ S) as (A & B & _ & A1 & A2 & A3 & _). unfold get_psf.
  destruct (m_psf f) as [p|] eqn:E1; [|rewrite (proj1 EX eq_refl); reflexivity].
  destruct (m_psf g) as [p'|] eqn:E2; [|apply proj2 in EX; specialize (EX eq_refl); discriminate].
  destruct (check_same f g i j o o' k Zf Zg K B F) as [(_ & -> & ->)|(L & -> & ->)]; [reflexivity|]. cbn [bind].
  destruct (slot_exists o k F L) as (s & Z). destruct (same_slot _ _ _ _ S Z) as (s' & Z' & R).
  pose proof (H p p' k s s' eq_refl eq_refl L Z Z') as HS. unfold get_psf_shape. rewrite C.
  assert (Q1 : s_psf_nr s' = s_psf_nr s) by (rewrite R; reflexivity). assert (Q2 : s_psf_nc s' = s_psf_nc s) by (rewrite R; reflexivity).
  assert (Q3 : s_psf_box s' = s_psf_box s) by (rewrite R; reflexivity).
  rewrite (get_slot_zget o k s), (get_slot_zget o' k s') by assumption.
  destruct (m_psf_cols f); cbn [bind psf_npix fst snd] in *; rewrite ?Q1, ?Q2, ?Q3, ?A1, ?A2, ?A3; cbn [bind fst snd]; try reflexivity; rewrite HS; reflexivity.
Qed.
