(** Splitting a node in memory. *)
From Coq Require Import Permutation QArith Lia ZifyBool ZifyNat.
From Verif Require Import Base BoundsM Fast3tree FtMem SpecUberseg SpecFtMem.
From Verif Require Import BaseLemmas FtLemmas FtMemLemmas.
Open Scope Z_scope.

(** The places from [a] on, [n] of them. *)
Definition places (a n : Z) : list Z := map (fun k => a + k) (zrange n).

Lemma In_places a n x : In x (places a n) <-> a <= x < a + n.
Proof.
  unfold places. rewrite in_map_iff. split.
  - intros (k & <- & Hk). apply In_zrange in Hk. lia.
  - intros H. exists (x - a). split; [lia|]. apply In_zrange. lia.
Qed.

Lemma places_app a n n' : 0 <= n -> 0 <= n' -> places a (n + n') = places a n ++ places (a + n) n'.
Proof.
  intros H1 H2. unfold places, zrange. replace (Z.to_nat (n + n')) with (Z.to_nat n + Z.to_nat n')%nat by lia.
  rewrite seq_app, !map_app. f_equal. rewrite !map_map. cbn [Nat.add].
  assert (HS : forall m s, map (fun x : nat => a + Z.of_nat x) (seq (Z.to_nat n + s) m) = map (fun x : nat => a + n + Z.of_nat x) (seq s m)).
  { induction m as [|m IH]; intros s; [reflexivity|]. cbn [seq map]. f_equal; [lia|]. rewrite <- IH. f_equal. f_equal. lia. }
  specialize (HS (Z.to_nat n') 0%nat). rewrite Nat.add_0_r in HS. exact HS.
Qed.

Lemma places_1 a : places a 1 = [a].
Proof. unfold places. change (zrange 1) with [0]. cbn [map]. rewrite Z.add_0_r. reflexivity. Qed.

(** One step of the realloc: enough room, the old nodes still there. *)
Lemma realloc_nodes_ok junk m n : mem_ok m -> t_alloc m <= n ->
  let m' := realloc_nodes junk m n in
  t_points m' = t_points m /\ t_num_nodes m' = t_num_nodes m /\ t_alloc m' = n /\ zlen (t_root m') = n /\
  (forall j, j < zlen (t_root m) -> zget (t_root m') j = zget (t_root m) j).
Proof.
  intros (M1 & M2 & _) Hn. cbn. pose proof (zlen_nonneg (t_root m)) as HP. repeat split.
  - rewrite firstn_all2 by (unfold zlen in *; lia). rewrite zlen_app. unfold zlen at 2. rewrite repeat_length. unfold zlen in *. lia.
  - intros j Hj. rewrite firstn_all2 by (unfold zlen in *; lia). rewrite zget_app. replace (j <? zlen (t_root m)) with true by lia. reflexivity.
Qed.

Definition split_post (m m' : mtree) (i : Z) (nd : mnode) (t : tree) : Prop :=
  mem_ok m' /\ t_num_nodes m <= t_num_nodes m' /\ zlen (t_points m') = zlen (t_points m) /\
  (forall k, ~ (n_points nd <= k < n_points nd + n_num nd) -> zget (t_points m') k = zget (t_points m) k) /\
  (forall j, j < t_num_nodes m -> j <> i -> zget (t_root m') j = zget (t_root m) j) /\
  (exists nd', zget (t_root m') i = Some nd' /\ n_parent nd' = n_parent nd) /\
  exists ix, held (t_root m') (t_points m') POff i (n_points nd) t (i :: ix) /\
    Permutation ix (places (t_num_nodes m) (t_num_nodes m' - t_num_nodes m)).

Lemma minmax_node_ok m i n pts : zget (t_root m) i = Some n -> get_range m (n_points n) (n_num n) = Ok pts -> pts <> [] ->
  exists b, find_minmax pts = Ok b /\ bounding b pts /\
  minmax_node m (PAt (t_gen m) i) = Ok (mkT (t_points m) (t_gen m) (upd (t_root m) (Z.to_nat i) (set_box n b)) (t_num_nodes m) (t_alloc m)).
Proof.
  intros H1 H2 H3. destruct pts as [|p ps]; [congruence|]. destruct (find_minmax_ok p ps) as (b & E & B). exists b. split; [exact E|]. split; [exact B|].
  unfold minmax_node. rewrite (deref_ok _ _ _ H1). cbn [bind]. rewrite H2. cbn [bind]. rewrite E. cbn [bind]. eapply store_ok. exact H1.
Qed.

Section Split.
Variable junk : mnode.

(** A child: a leaf already in memory is split if it is large. *)
Definition maybe_split (fuel : nat) (m : mtree) (i num : Z) : res mtree :=
  if points_per_leaf <? num then split_mem junk fuel m (PAt (t_gen m) i) else Ok m.

Lemma split_mem_ok fuel : forall m i nd pts, mem_ok m -> 0 <= i < t_num_nodes m ->
  zget (t_root m) i = Some nd -> get_range m (n_points nd) (n_num nd) = Ok pts -> pts <> [] -> (length pts <= fuel)%nat ->
  bounding (n_box nd) pts ->
  exists t m', split_node fuel (n_box nd) pts = Ok t /\ Permutation (tpts t) pts /\
    split_mem junk fuel m (PAt (t_gen m) i) = Ok m' /\ split_post m m' i nd t.
Proof.
  induction fuel as [|fuel IH]; intros m i nd pts M Hi Hnd Hrange Hne Hf Hb; [destruct pts; [congruence|cbn in Hf; lia]|].
  assert (MS : forall m i nd pts, mem_ok m -> 0 <= i < t_num_nodes m -> zget (t_root m) i = Some nd -> n_div nd = None ->
     get_range m (n_points nd) (n_num nd) = Ok pts -> pts <> [] -> (length pts <= fuel)%nat -> bounding (n_box nd) pts ->
     exists t m', (if points_per_leaf <? zlen pts then split_node fuel (n_box nd) pts else Ok (TLeaf (n_box nd) pts)) = Ok t /\ Permutation (tpts t) pts /\
       maybe_split fuel m i (n_num nd) = Ok m' /\ split_post m m' i nd t).
  { clear -IH. intros m i nd pts M Hi Hnd Hdiv Hrange Hne Hf Hb.
    destruct (get_range_inv _ _ _ _ Hrange) as (G1 & G2 & G3 & G4 & G5).
    unfold maybe_split. rewrite G4. destruct (points_per_leaf <? n_num nd); [apply IH; assumption|].
    exists (TLeaf (n_box nd) pts), m. split; [reflexivity|]. split; [reflexivity|]. split; [reflexivity|].
    split; [exact M|]. split; [lia|]. split; [reflexivity|]. split; [reflexivity|]. split; [reflexivity|].
    split; [exists nd; auto|]. exists []. rewrite Z.sub_diag. split; [|reflexivity].
    eapply H_leaf; eauto. intros k Hk. rewrite G5 by lia. reflexivity. }
  destruct (get_range_inv _ _ _ _ Hrange) as (G1 & G2 & G3 & G4 & G5).
  cbn [split_mem split_node]. rewrite (deref_ok _ _ _ Hnd). cbn [bind]. rewrite Hrange. cbn [bind].
  pose proof M as (M1 & M2 & M3).
  assert (HLp : forall p', Permutation p' pts -> zlen p' = n_num nd).
  { intros p' P. unfold zlen in *. rewrite (Permutation_length P). exact G4. }
  (* the state after sorting *)
  assert (HS : forall p' d, Permutation p' pts ->
     let m1 := put_range m (n_points nd) p' in
     exists m2, store m1 (PAt (t_gen m) i) (set_div nd d) = Ok m2 /\ t_gen m2 = t_gen m /\ t_num_nodes m2 = t_num_nodes m /\ t_alloc m2 = t_alloc m /\
       t_points m2 = t_points m1 /\ t_root m2 = upd (t_root m) (Z.to_nat i) (set_div nd d)).
  { intros p' d P m1. eexists. split; [apply (store_ok m1 i nd); exact Hnd|]. repeat split. }
  assert (HPG : forall p' k, Permutation p' pts -> zget (t_points (put_range m (n_points nd) p')) k =
     if (n_points nd <=? k) && (k <? n_points nd + n_num nd) then zget p' (k - n_points nd) else zget (t_points m) k).
  { intros p' k P. rewrite put_range_zget by (try rewrite (HLp _ P); lia). rewrite (HLp _ P). reflexivity. }
  assert (HPL : forall p', Permutation p' pts -> zlen (t_points (put_range m (n_points nd) p')) = zlen (t_points m)).
  { intros p' P. apply put_range_zlen; [lia|rewrite (HLp _ P); lia]. }
  destruct (sort_dim_pos_ok (n_box nd) pts Hne Hb) as [(p' & E & ->)|(p' & k & E & S2 & S3 & S4 & S5 & S6)].
  - (* all at one spot *)
    rewrite E. cbn [bind fst snd]. rewrite G4, Z.eqb_refl. cbn [orb].
    destruct (HS pts (Some (find_largest_dim (n_box nd))) (Permutation_refl _)) as (m2 & E2 & A1 & A2 & A3 & A4 & A5). rewrite E2. cbn [bind].
    assert (HN2 : zget (t_root m2) i = Some (set_div nd (Some (find_largest_dim (n_box nd))))) by (rewrite A5, zget_upd by lia; rewrite Z.eqb_refl; reflexivity).
    rewrite <- A1. rewrite (deref_ok _ _ _ HN2). cbn [bind]. rewrite (store_ok _ _ _ _ HN2).
    exists (TLeaf (n_box nd) pts). eexists. split; [reflexivity|]. split; [reflexivity|]. split; [reflexivity|].
    set (nd' := set_div (set_div nd (Some (find_largest_dim (n_box nd)))) None).
    assert (HR : forall j, zget (upd (t_root m2) (Z.to_nat i) nd') j = if j =? i then Some nd' else zget (t_root m) j).
    { intros j. rewrite zget_upd by (rewrite A5, zlen_upd; lia). rewrite A5, zget_upd by lia. destruct (j =? i); reflexivity. }
    unfold split_post, mem_ok. cbn [t_root t_points t_num_nodes t_alloc]. rewrite A2, A3, A4. repeat split.
    + rewrite zlen_upd, A5, zlen_upd. lia.
    + lia.
    + lia.
    + intros j n Hj Hn. rewrite HR in Hn. destruct (j =? i) eqn:Ej; [|eapply M3; eassumption]. injection Hn as <-. exact (M3 i nd (proj2 Hi) Hnd).
    + lia.
    + apply HPL. reflexivity.
    + intros k Hk. rewrite HPG by reflexivity. replace ((n_points nd <=? k) && (k <? n_points nd + n_num nd)) with false by lia. reflexivity.
    + intros j Hj Hji. rewrite HR. replace (j =? i) with false by lia. reflexivity.
    + exists nd'. rewrite HR, Z.eqb_refl. auto.
    + exists []. rewrite Z.sub_diag. split; [|reflexivity]. eapply H_leaf with (nd := nd'); try reflexivity.
      * rewrite HR, Z.eqb_refl. reflexivity.
      * cbn. lia.
      * exact G1.
      * intros k Hk. rewrite HPG by reflexivity. replace ((n_points nd <=? n_points nd + k) && (n_points nd + k <? n_points nd + n_num nd)) with true by lia. f_equal. lia.
  - (* two children *)
    rewrite E. cbn [bind fst snd]. assert (HL' := HLp _ S2). rewrite HL'.
    replace (k =? n_num nd) with false by lia. replace (k =? 0) with false by lia. cbn [orb].
    set (dm := find_largest_dim (n_box nd)) in *.
    destruct (HS p' (Some dm) S2) as (m2 & E2 & A1 & A2 & A3 & A4 & A5). rewrite E2. cbn [bind].
    set (nd1 := set_div nd (Some dm)) in *.
    unfold index_of. rewrite <- A1, Z.eqb_refl. cbn [bind].
    assert (M2ok : mem_ok m2).
    { split; [rewrite A5, zlen_upd; lia|]. split; [lia|]. intros j n Hj Hn. rewrite A5, zget_upd in Hn by lia.
      destruct (j =? i) eqn:Ej; [injection Hn as <-; exact (M3 i nd (proj2 Hi) Hnd)|]. rewrite A2 in Hj. eapply M3; eassumption. }
    (* room for two nodes *)
    assert (HR : exists m3 p3, (if t_alloc m2 <? t_num_nodes m2 + 2 then
          (realloc_nodes junk m2 (t_alloc m2 * 105 / 100 + 1000), PAt (t_gen (realloc_nodes junk m2 (t_alloc m2 * 105 / 100 + 1000))) i)
        else (m2, PAt (t_gen m2) i)) = (m3, p3) /\ p3 = PAt (t_gen m3) i /\ t_points m3 = t_points m2 /\ t_num_nodes m3 = t_num_nodes m2 /\
        zlen (t_root m3) = t_alloc m3 /\ t_num_nodes m3 + 2 <= t_alloc m3 /\ (forall j, j < zlen (t_root m2) -> zget (t_root m3) j = zget (t_root m2) j)).
    { destruct (t_alloc m2 <? t_num_nodes m2 + 2) eqn:EA.
      - assert (HG : t_alloc m2 + 2 <= t_alloc m2 * 105 / 100 + 1000) by (pose proof (Z.div_le_mono (t_alloc m2 * 100) (t_alloc m2 * 105) 100 ltac:(lia) ltac:(lia)) as H; rewrite Z.div_mul in H by lia; lia).
        destruct (realloc_nodes_ok junk m2 (t_alloc m2 * 105 / 100 + 1000) M2ok ltac:(lia)) as (B1 & B2 & B3 & B4 & B5).
        eexists _, _. split; [reflexivity|]. split; [reflexivity|]. split; [exact B1|]. split; [exact B2|]. split; [rewrite B4; symmetry; exact B3|].
        split; [rewrite B2, B3; lia|exact B5].
      - exists m2, (PAt (t_gen m2) i). split; [reflexivity|]. split; [reflexivity|]. split; [reflexivity|]. split; [reflexivity|]. split; [apply M2ok|]. split; [lia|reflexivity]. }
    destruct HR as (m3 & p3 & E3 & -> & B1 & B2 & B3 & B4 & B5).
    cbv zeta in E3 |- *. rewrite E3. clear E3.
    set (nn := t_num_nodes m3) in *.
    set (m4 := mkT (t_points m3) (t_gen m3) (t_root m3) (nn + 2) (t_alloc m3)).
    assert (N4 : zget (t_root m4) i = Some nd1).
    { cbn [m4 t_root]. rewrite B5 by (rewrite A5, zlen_upd; lia). rewrite A5, zget_upd by lia. rewrite Z.eqb_refl. reflexivity. }
    change (PAt (t_gen m3) i) with (PAt (t_gen m4) i). rewrite (deref_ok _ _ _ N4). cbn [bind].
    set (nd2 := set_kids nd1 (POff nn) (POff (nn + 1))).
    rewrite (store_ok _ _ _ _ N4). cbn [bind]. fold nd2.
    set (m5 := mkT (t_points m4) (t_gen m4) (upd (t_root m4) (Z.to_nat i) nd2) (t_num_nodes m4) (t_alloc m4)).
    assert (Z4 : zlen (t_root m4) = t_alloc m3) by exact B3.
    assert (HnnI : i < nn) by (rewrite B2, A2; lia).
    assert (R5 : forall j, zget (t_root m5) j = if j =? i then Some nd2 else zget (t_root m3) j) by (intros j; cbn [m5 t_root]; rewrite zget_upd by lia; reflexivity).
    assert (N5 : zget (t_root m5) i = Some nd2) by (rewrite R5, Z.eqb_refl; reflexivity).
    change (PAt (t_gen m4) i) with (PAt (t_gen m5) i). rewrite (deref_ok _ _ _ N5). cbn [bind].
    change (n_points nd2) with (n_points nd). change (n_num nd2) with (n_num nd).
    assert (Z5 : zlen (t_root m5) = t_alloc m3) by (cbn [m5 t_root]; rewrite zlen_upd; exact Z4).
    destruct (zget_range_Some (t_root m5) nn ltac:(lia)) as (oldl & EL5).
    set (ln := mkN (n_box zero_node) k None (n_left zero_node) (n_right zero_node) (POff i) (n_points nd)).
    set (rn := mkN (n_box zero_node) (n_num nd - k) None (n_left zero_node) (n_right zero_node) (POff i) (n_points nd + k)).
    rewrite (store_ok _ _ _ ln EL5). cbn [bind].
    set (m6 := mkT (t_points m5) (t_gen m5) (upd (t_root m5) (Z.to_nat nn) ln) (t_num_nodes m5) (t_alloc m5)).
    assert (R6 : forall j, zget (t_root m6) j = if j =? nn then Some ln else zget (t_root m5) j) by (intros j; cbn [m6 t_root]; rewrite zget_upd by lia; reflexivity).
    assert (Z6 : zlen (t_root m6) = t_alloc m3) by (cbn [m6 t_root]; rewrite zlen_upd; exact Z5).
    destruct (zget_range_Some (t_root m6) (nn + 1) ltac:(lia)) as (oldr & ER6).
    change (t_gen m5) with (t_gen m6). rewrite (store_ok _ _ _ rn ER6). cbn [bind].
    set (m7 := mkT (t_points m6) (t_gen m6) (upd (t_root m6) (Z.to_nat (nn + 1)) rn) (t_num_nodes m6) (t_alloc m6)).
    assert (R7 : forall j, zget (t_root m7) j = if j =? nn + 1 then Some rn else zget (t_root m6) j) by (intros j; cbn [m7 t_root]; rewrite zget_upd by lia; reflexivity).
    assert (Z7 : zlen (t_root m7) = t_alloc m3) by (cbn [m7 t_root]; rewrite zlen_upd; exact Z6).
    (* the points of the children *)
    set (left := firstn (Z.to_nat k) p') in *. set (right := skipn (Z.to_nat k) p') in *.
    assert (Ll : zlen left = k) by (apply zlen_firstn; lia). assert (Lr : zlen right = n_num nd - k) by (unfold right; rewrite zlen_skipn; lia).
    assert (HC : left ++ right = p') by apply firstn_skipn.
    assert (Nl : left <> []) by (intros C; rewrite C in Ll; cbn in Ll; lia).
    assert (Nr : right <> []) by (intros C; rewrite C in Lr; cbn in Lr; lia).
    assert (Fl : (length left <= fuel)%nat) by (unfold zlen in *; lia). assert (Fr : (length right <= fuel)%nat) by (unfold zlen in *; lia).
    assert (P3 : forall q, zget (t_points m3) q = if (n_points nd <=? q) && (q <? n_points nd + n_num nd) then zget p' (q - n_points nd) else zget (t_points m) q).
    { intros q. rewrite B1, A4. apply HPG. exact S2. }
    assert (PL3 : zlen (t_points m3) = zlen (t_points m)) by (rewrite B1, A4; apply HPL; exact S2).
    assert (GL : forall mm, t_points mm = t_points m3 -> get_range mm (n_points nd) k = Ok left).
    { intros mm Em. destruct (get_range_ok mm (n_points nd) k ltac:(lia) ltac:(lia) ltac:(rewrite Em; lia)) as (l & El & Ell & Elg). rewrite El. f_equal.
      apply range_eq; [lia|]. intros q Hq. rewrite Elg by lia. rewrite Em, P3. replace ((n_points nd <=? n_points nd + q) && (n_points nd + q <? n_points nd + n_num nd)) with true by lia.
      unfold left. rewrite zget_firstn by lia. replace (q <? k) with true by lia. f_equal. lia. }
    assert (GR : forall mm, zlen (t_points mm) = zlen (t_points m) -> (forall q, n_points nd + k <= q -> zget (t_points mm) q = zget (t_points m3) q) ->
       get_range mm (n_points nd + k) (n_num nd - k) = Ok right).
    { intros mm Ez Em. destruct (get_range_ok mm (n_points nd + k) (n_num nd - k) ltac:(lia) ltac:(lia) ltac:(rewrite Ez; lia)) as (l & El & Ell & Elg). rewrite El. f_equal.
      apply range_eq; [lia|]. intros q Hq. rewrite Elg by lia. rewrite Em by lia. rewrite P3. replace ((n_points nd <=? n_points nd + k + q) && (n_points nd + k + q <? n_points nd + n_num nd)) with true by lia.
      unfold right. rewrite zget_skipn by lia. f_equal. lia. }
    assert (N7l : zget (t_root m7) nn = Some ln) by (rewrite R7, R6; replace (nn =? nn + 1) with false by lia; rewrite Z.eqb_refl; reflexivity).
    change (t_gen m6) with (t_gen m7).
    destruct (minmax_node_ok m7 nn ln left N7l (GL m7 eq_refl) Nl) as (lb & Elb & Blb & EM7). rewrite EM7. cbn [bind]. rewrite Elb.
    set (ln' := set_box ln lb). set (m8 := mkT (t_points m7) (t_gen m7) (upd (t_root m7) (Z.to_nat nn) ln') (t_num_nodes m7) (t_alloc m7)).
    assert (R8 : forall j, zget (t_root m8) j = if j =? nn then Some ln' else zget (t_root m7) j) by (intros j; cbn [m8 t_root]; rewrite zget_upd by lia; reflexivity).
    assert (Z8 : zlen (t_root m8) = t_alloc m3) by (cbn [m8 t_root]; rewrite zlen_upd; exact Z7).
    assert (N8r : zget (t_root m8) (nn + 1) = Some rn) by (rewrite R8, R7; replace (nn + 1 =? nn) with false by lia; rewrite Z.eqb_refl; reflexivity).
    change (t_gen m7) with (t_gen m8).
    destruct (minmax_node_ok m8 (nn + 1) rn right N8r (GR m8 PL3 ltac:(reflexivity)) Nr) as (rb & Erb & Brb & EM8). rewrite EM8. cbn [bind]. rewrite Erb. cbn [bind].
    set (rn' := set_box rn rb). set (m9 := mkT (t_points m8) (t_gen m8) (upd (t_root m8) (Z.to_nat (nn + 1)) rn') (t_num_nodes m8) (t_alloc m8)).
    assert (R9 : forall j, zget (t_root m9) j = if j =? nn + 1 then Some rn' else if j =? nn then Some ln' else if j =? i then Some nd2 else zget (t_root m3) j).
    { intros j. cbn [m9 t_root]. rewrite zget_upd by lia. rewrite R8, R7, R6, R5. destruct (j =? nn + 1); [reflexivity|]. destruct (j =? nn); reflexivity. }
    assert (Z9 : zlen (t_root m9) = t_alloc m3) by (cbn [m9 t_root]; rewrite zlen_upd; exact Z8).
    assert (O9 : forall j, j < t_num_nodes m -> j <> i -> zget (t_root m9) j = zget (t_root m) j).
    { intros j Hj Hji. rewrite R9. replace (j =? nn + 1) with false by lia. replace (j =? nn) with false by lia. replace (j =? i) with false by lia.
      rewrite B5 by (rewrite A5, zlen_upd; lia). rewrite A5, zget_upd by lia. replace (j =? i) with false by lia. reflexivity. }
    assert (M9 : mem_ok m9).
    { split; [exact Z9|]. split; [cbn [m9 m8 m7 m6 m5 m4 t_num_nodes t_alloc]; lia|]. intros j n Hj Hn. rewrite R9 in Hn. cbn [m9 m8 m7 m6 m5 m4 t_num_nodes] in Hj.
      destruct (j =? nn + 1) eqn:J1; [injection Hn as <-; exists 0, 0, i; auto|]. destruct (j =? nn) eqn:J2; [injection Hn as <-; exists 0, 0, i; auto|].
      destruct (j =? i) eqn:J3.
      - injection Hn as <-. destruct (M3 i nd (proj2 Hi) Hnd) as (xa & xb & xc & X1 & X2 & X3). exists nn, (nn + 1), xc. auto.
      - assert (Hjm : j < t_num_nodes m) by lia. apply (M3 j n Hjm). rewrite <- O9 by lia. rewrite R9, J1, J2, J3. exact Hn. }
    (* left child *)
    assert (N9l : zget (t_root m9) nn = Some ln') by (rewrite R9; replace (nn =? nn + 1) with false by lia; rewrite Z.eqb_refl; reflexivity).
    assert (N9r : zget (t_root m9) (nn + 1) = Some rn') by (rewrite R9, Z.eqb_refl; reflexivity).
    change (t_gen m8) with (t_gen m9). rewrite (deref_ok _ _ _ N9l). cbn [bind].
    assert (NN9 : t_num_nodes m9 = nn + 2) by reflexivity.
    destruct (MS m9 nn ln' left M9 ltac:(lia) N9l eq_refl (GL m9 eq_refl) Nl Fl Blb) as (tl & m10 & ETl & PTl & ESl & W10).
    change (n_box ln') with lb in ETl. rewrite ETl. cbn [bind]. unfold maybe_split in ESl. change (n_num ln') with k in *. rewrite ESl. cbn [bind].
    destruct W10 as (M10 & V1 & V2 & V3 & V4 & (ln10 & V5 & V5') & ixl & V6 & V7). change (n_points ln') with (n_points nd) in *. change (n_num ln') with k in *.
    rewrite NN9 in *.
    assert (N10r : zget (t_root m10) (nn + 1) = Some rn') by (rewrite V4 by lia; exact N9r).
    rewrite (deref_ok _ _ _ N10r). cbn [bind].
    assert (GR10 : get_range m10 (n_points rn') (n_num rn') = Ok right).
    { apply GR; [rewrite V2; exact PL3|]. intros q Hq. rewrite V3 by lia. reflexivity. }
    destruct (MS m10 (nn + 1) rn' right M10 ltac:(lia) N10r eq_refl GR10 Nr Fr Brb) as (tr & m11 & ETr & PTr & ESr & W11).
    change (n_box rn') with rb in ETr. rewrite ETr. cbn [bind]. unfold maybe_split in ESr. rewrite ESr.
    destruct W11 as (M11 & U1 & U2 & U3 & U4 & (rn11 & U5 & U5') & ixr & U6 & U7). change (n_points rn') with (n_points nd + k) in *. change (n_num rn') with (n_num nd - k) in *.
    exists (TNode (n_box nd) dm tl tr), m11. split; [reflexivity|]. split; [cbn [tpts]; rewrite PTl, PTr, HC; exact S2|]. split; [reflexivity|].
    assert (Tl : zlen (tpts tl) = k) by (unfold zlen in *; rewrite (Permutation_length PTl); exact Ll).
    assert (Tr : zlen (tpts tr) = n_num nd - k) by (unfold zlen in *; rewrite (Permutation_length PTr); exact Lr).
    split; [exact M11|]. split; [lia|]. split; [rewrite U2, V2; exact PL3|]. split; [|split; [|split]].
    + intros q Hq. rewrite U3 by lia. rewrite V3 by lia. change (t_points m9) with (t_points m3). rewrite P3.
      replace ((n_points nd <=? q) && (q <? n_points nd + n_num nd)) with false by lia. reflexivity.
    + intros j Hj Hji. rewrite U4 by lia. rewrite V4 by lia. apply O9; assumption.
    + exists nd2. split; [rewrite U4 by lia; rewrite V4 by lia; rewrite R9; replace (i =? nn + 1) with false by lia; replace (i =? nn) with false by lia; rewrite Z.eqb_refl; reflexivity|reflexivity].
    + exists ((nn :: ixl) ++ (nn + 1 :: ixr)). split.
      * assert (HIL : forall j, In j ixl -> nn + 2 <= j < t_num_nodes m10) by (intros j Hj; apply (Permutation_in j V7) in Hj; apply In_places in Hj; lia).
        eapply H_node with (nd := nd2) (li := nn) (ri := nn + 1); try reflexivity.
        -- rewrite U4 by lia. rewrite V4 by lia. rewrite R9. replace (i =? nn + 1) with false by lia. replace (i =? nn) with false by lia. rewrite Z.eqb_refl. reflexivity.
        -- change (n_num nd2) with (n_num nd). lia.
        -- exists ln10. split; [rewrite U4 by lia; exact V5|rewrite V5'; reflexivity].
        -- exists rn11. split; [exact U5|rewrite U5'; reflexivity].
        -- eapply held_frame; [exact V6| |].
           ++ intros j [<-|Hj]; [apply U4; lia|]. specialize (HIL j Hj). apply U4; lia.
           ++ intros q Hq. apply U3. lia.
        -- rewrite Tl. exact U6.
      * assert (Q1 : t_num_nodes m11 - t_num_nodes m = 1 + (1 + ((t_num_nodes m10 - (nn + 2)) + (t_num_nodes m11 - t_num_nodes m10)))) by lia.
        rewrite Q1. replace (t_num_nodes m) with nn by lia. rewrite !places_app by lia. rewrite !places_1. cbn [app]. apply perm_skip.
        rewrite V7. replace (nn + 1 + 1) with (nn + 2) by lia. rewrite <- Permutation_middle. apply perm_skip. apply Permutation_app_head.
        rewrite U7. replace (nn + 2 + (t_num_nodes m10 - (nn + 2))) with (t_num_nodes m10) by lia. reflexivity.
Qed.
End Split.
