(** The tree built in memory, and searching it. *)
From Coq Require Import Permutation QArith Lia ZifyBool ZifyNat.
From Verif Require Import Base BoundsM Fast3tree FtMem SpecUberseg SpecFtMem.
From Verif Require Import BaseLemmas FtLemmas FtMemLemmas FtMemLemmas2.
Open Scope Z_scope.

Lemma foldM_zrange {S} (P : Z -> S -> Prop) (f : S -> Z -> res S) n s : 0 <= n -> P 0 s ->
  (forall k s, 0 <= k < n -> P k s -> exists s', f s k = Ok s' /\ P (k + 1) s') ->
  exists s', foldM f (zrange n) s = Ok s' /\ P n s'.
Proof.
  intros Hn H0 HS.
  assert (HG : forall j : nat, Z.of_nat j <= n -> exists s', foldM f (map Z.of_nat (seq 0 j)) s = Ok s' /\ P (Z.of_nat j) s').
  { induction j as [|j IH]; intros Hj; [exists s; auto|]. destruct IH as (s1 & E1 & P1); [lia|].
    rewrite seq_S, map_app, foldM_app, E1. cbn [bind map foldM Nat.add].
    destruct (HS (Z.of_nat j) s1) as (s2 & E2 & P2); [lia|exact P1|]. rewrite E2. cbn [bind]. exists s2. split; [reflexivity|].
    replace (Z.of_nat (Datatypes.S j)) with (Z.of_nat j + 1) by lia. exact P2. }
  destruct (HG (Z.to_nat n)) as (s' & E & P'); [lia|]. exists s'. split; [exact E|]. rewrite Z2Nat.id in P' by lia. exact P'.
Qed.

(** * Rebuilding the pointers *)
Definition conv (g : Z) (p : ptr) : ptr := match p with POff i => PAt g i | PAt g' i => PAt g' i end.
Definition reb (g : Z) (n : mnode) : mnode :=
  mkN (n_box n) (n_num n) (n_div n) (conv g (n_left n)) (conv g (n_right n)) (conv g (n_parent n)) (n_points n).

Lemma rebuild_ok m : mem_ok m -> exists m', rebuild_pointers m = Ok m' /\ t_points m' = t_points m /\ t_gen m' = t_gen m /\
  t_num_nodes m' = t_num_nodes m /\ t_alloc m' = t_alloc m /\ zlen (t_root m') = zlen (t_root m) /\
  forall j, 0 <= j < t_num_nodes m -> zget (t_root m') j = option_map (reb (t_gen m)) (zget (t_root m) j).
Proof.
  intros (M1 & M2 & M3).
  destruct (foldM_zrange (fun k m' => t_points m' = t_points m /\ t_gen m' = t_gen m /\
     t_num_nodes m' = t_num_nodes m /\ t_alloc m' = t_alloc m /\ zlen (t_root m') = zlen (t_root m) /\
     forall j, 0 <= j < t_num_nodes m -> zget (t_root m') j = if j <? k then option_map (reb (t_gen m)) (zget (t_root m) j) else zget (t_root m) j)
     rebuild_node (t_num_nodes m) m) as (m' & E & H).
  - lia.
  - repeat split. intros j Hj. replace (j <? 0) with false by lia. reflexivity.
  - intros k m1 Hk (A1 & A2 & A3 & A4 & A5 & A6).
    destruct (zget_range_Some (t_root m) k ltac:(lia)) as (n & En).
    assert (E1 : zget (t_root m1) k = Some n) by (rewrite A6 by lia; rewrite Z.ltb_irrefl; exact En).
    unfold rebuild_node. rewrite (deref_ok _ _ _ E1). cbn [bind].
    destruct (M3 k n ltac:(lia) En) as (a & b & c & Ea & Eb & Ec). rewrite Ea, Eb, Ec. cbn [rebuild_ptr bind]. rewrite (store_ok _ _ _ _ E1).
    eexists. split; [reflexivity|]. cbn [t_points t_gen t_num_nodes t_alloc t_root]. rewrite zlen_upd. repeat (split; [assumption|]).
    intros j Hj. rewrite zget_upd by lia. destruct (j =? k) eqn:Ej.
    + replace (j <? k + 1) with true by lia. replace j with k by lia. rewrite En. cbn [option_map]. unfold reb. rewrite Ea, Eb, Ec, A2. reflexivity.
    + rewrite A6 by lia. destruct (j <? k) eqn:Ejk; [replace (j <? k + 1) with true by lia|replace (j <? k + 1) with false by lia]; reflexivity.
  - exists m'. split; [exact E|]. destruct H as (A1 & A2 & A3 & A4 & A5 & A6). repeat (split; [assumption|]).
    intros j Hj. rewrite A6 by lia. replace (j <? t_num_nodes m) with true by lia. reflexivity.
Qed.

Lemma held_reb nodes nodes' points g i off t ix : held nodes points POff i off t ix ->
  (forall j, In j ix -> zget nodes' j = option_map (reb g) (zget nodes j)) -> held nodes' points (PAt g) i off t ix.
Proof.
  intros H. induction H as [i off nd b pts H1 H2 H3 H4 H5 H6 H7|i off nd b d l r li ri il ir H1 H2 H3 H4 H5 H6 H7 H8 H9 Hl IHl Hr IHr]; intros HN.
  - eapply H_leaf with (nd := reb g nd); eauto. rewrite HN by (left; reflexivity). rewrite H1. reflexivity.
  - destruct (held_head _ _ _ _ _ _ _ Hl) as (tl & El). destruct (held_head _ _ _ _ _ _ _ Hr) as (tr & Er).
    assert (Nl : forall j, In j il -> zget nodes' j = option_map (reb g) (zget nodes j)) by (intros; apply HN; right; apply in_app_iff; auto).
    assert (Nr : forall j, In j ir -> zget nodes' j = option_map (reb g) (zget nodes j)) by (intros; apply HN; right; apply in_app_iff; auto).
    eapply H_node with (nd := reb g nd) (li := li) (ri := ri); eauto.
    + rewrite HN by (left; reflexivity). rewrite H1. reflexivity.
    + cbn. rewrite H6. reflexivity.
    + cbn. rewrite H7. reflexivity.
    + destruct H8 as (nl & A & B). exists (reb g nl). rewrite Nl by (subst il; left; reflexivity). rewrite A. split; [reflexivity|]. cbn. rewrite B. reflexivity.
    + destruct H9 as (nr & A & B). exists (reb g nr). rewrite Nr by (subst ir; left; reflexivity). rewrite A. split; [reflexivity|]. cbn. rewrite B. reflexivity.
Qed.

Lemma held_points nodes points mk i off t ix : held nodes points mk i off t ix -> 0 <= off /\
  forall k, 0 <= k < zlen (tpts t) -> zget points (off + k) = zget (tpts t) k.
Proof.
  intros H. induction H as [i off nd b pts H1 H2 H3 H4 H5 H6 H7|i off nd b d l r li ri il ir H1 H2 H3 H4 H5 H6 H7 H8 H9 Hl [O1 IHl] Hr [O2 IHr]].
  - split; [exact H6|]. exact H7.
  - split; [exact O1|]. intros k Hk. cbn [tpts] in *. rewrite zlen_app in Hk. rewrite zget_app. destruct (k <? zlen (tpts l)) eqn:E.
    + apply IHl. lia.
    + rewrite <- IHr by lia. f_equal. lia.
Qed.

Lemma held_num nodes points mk i off t ix : held nodes points mk i off t ix ->
  exists nd, zget nodes i = Some nd /\ n_points nd = off /\ n_num nd = zlen (tpts t) /\ n_box nd = tbox t.
Proof.
  intros H. inversion H; subst; exists nd; repeat split; try assumption; try reflexivity. cbn [tpts]. rewrite zlen_app. assumption.
Qed.

(** The places of the nodes, an odd number; every leaf of the tree takes a point. *)
Lemma held_count nodes points mk i off t ix : held nodes points mk i off t ix ->
  (fix ne t := match t with TLeaf _ p => p <> [] | TNode _ _ l r => ne l /\ ne r end) t -> zlen ix <= 2 * zlen (tpts t) - 1.
Proof.
  intros H. induction H as [i off nd b pts H1 H2 H3 H4 H5 H6 H7|i off nd b d l r li ri il ir H1 H2 H3 H4 H5 H6 H7 H8 H9 Hl IHl Hr IHr]; intros NE.
  - cbn [tpts]. destruct pts as [|p pts]; [congruence|]. rewrite zlen_cons. pose proof (zlen_nonneg pts). unfold zlen at 1. cbn. lia.
  - destruct NE as (N1 & N2). cbn [tpts]. rewrite zlen_cons, !zlen_app. specialize (IHl N1). specialize (IHr N2). lia.
Qed.

Section Build.
Variable junk : mnode.

Theorem build_mem_ok m0 pts : exists t m ix, fast3tree_build pts = Ok t /\ build_mem junk m0 pts = Ok m /\
  t_points m = tpts t /\ zlen (t_root m) = t_num_nodes m /\ t_alloc m = t_num_nodes m /\
  held (t_root m) (t_points m) (PAt (t_gen m)) 0 0 t ix /\ Permutation ix (zrange (t_num_nodes m)).
Proof.
  unfold build_mem, fast3tree_build. set (n := zlen pts). pose proof (zlen_nonneg pts) as Hn. fold n in Hn.
  assert (HD : 0 <= n / (points_per_leaf / 2)) by (apply Z.div_pos; [exact Hn|reflexivity]).
  set (al := 3 + n / (points_per_leaf / 2)) in *. cbn [realloc_nodes t_points t_root t_num_nodes t_alloc t_gen].
  set (g := t_gen m0 + 1). set (root := firstn (Z.to_nat al) (t_root m0) ++ repeat junk (Z.to_nat al - length (t_root m0))).
  set (m1 := mkT pts g root 1 al).
  assert (ZR : zlen root = al).
  { unfold root, zlen. rewrite app_length, firstn_length, repeat_length. lia. }
  destruct (zget_range_Some root 0 ltac:(lia)) as (n0 & E0).
  set (rn := mkN (n_box zero_node) n None (n_left zero_node) (n_right zero_node) (n_parent zero_node) 0).
  change (PAt g 0) with (PAt (t_gen m1) 0). rewrite (store_ok m1 0 n0 rn E0). cbn [bind].
  set (m2 := mkT (t_points m1) (t_gen m1) (upd (t_root m1) (Z.to_nat 0) rn) (t_num_nodes m1) (t_alloc m1)).
  assert (R2 : forall j, zget (t_root m2) j = if j =? 0 then Some rn else zget root j) by (intros j; cbn [m2 m1 t_root]; rewrite zget_upd by lia; reflexivity).
  assert (Z2 : zlen (t_root m2) = al) by (cbn [m2 m1 t_root]; rewrite zlen_upd; exact ZR).
  assert (N2 : zget (t_root m2) 0 = Some rn) by (rewrite R2; reflexivity).
  assert (GR : forall mm, t_points mm = pts -> get_range mm 0 n = Ok pts).
  { intros mm Em. destruct (get_range_ok mm 0 n ltac:(lia) ltac:(lia) ltac:(rewrite Em; fold n; lia)) as (l & El & Ell & Elg). rewrite El. f_equal.
    apply range_eq; [fold n; lia|]. intros k Hk. rewrite Elg by lia. rewrite Em. reflexivity. }
  (* the root has its box *)
  assert (H3 : exists m3 b, (if n =? 0 then Ok m2 else minmax_node m2 (PAt (t_gen m1) 0)) = Ok m3 /\ 
     match pts with [] => Ok (mkBox 0 0 0 0) | _ :: _ => find_minmax pts end = Ok b /\ (pts <> [] -> bounding b pts) /\
     t_points m3 = pts /\ t_gen m3 = g /\ t_num_nodes m3 = 1 /\ t_alloc m3 = al /\ zlen (t_root m3) = al /\ zget (t_root m3) 0 = Some (set_box rn b)).
  { destruct pts as [|p ps] eqn:EP.
    - change (n =? 0) with true. cbv iota. exists m2, (mkBox 0 0 0 0). split; [reflexivity|]. split; [reflexivity|]. split; [congruence|].
      repeat (split; [reflexivity|]). split; [exact Z2|]. exact N2.
    - replace (n =? 0) with false by (unfold n; rewrite zlen_cons; pose proof (zlen_nonneg ps); lia).
      destruct (minmax_node_ok m2 0 rn (p :: ps) N2 (GR m2 eq_refl) ltac:(discriminate)) as (b & Eb & Bb & Em).
      change (t_gen m1) with (t_gen m2). rewrite Em. eexists _, b. split; [reflexivity|]. split; [exact Eb|]. split; [intros _; exact Bb|].
      repeat (split; [reflexivity|]). cbn [t_root]. rewrite zlen_upd. split; [exact Z2|]. rewrite zget_upd by lia. reflexivity. }
  destruct H3 as (m3 & b & E3 & Eb & Bb & A1 & A2 & A3 & A4 & A5 & A6). rewrite E3, Eb. cbn [bind]. clear E3.
  assert (M3 : mem_ok m3).
  { split; [lia|]. split; [lia|]. intros j nd Hj Hnd. pose proof (zget_Some_range _ _ _ Hnd). assert (j = 0) by lia. subst j. rewrite A6 in Hnd. injection Hnd as <-.
    exists 0, 0, 0. auto. }
  assert (H4 : exists t m4 ix, (if points_per_leaf <? n then split_node (length pts) b pts else Ok (TLeaf b pts)) = Ok t /\ Permutation (tpts t) pts /\
     (if points_per_leaf <? n then split_mem junk (length pts) m3 (PAt (t_gen m1) 0) else Ok m3) = Ok m4 /\ mem_ok m4 /\ zlen (t_points m4) = n /\
     held (t_root m4) (t_points m4) POff 0 0 t (0 :: ix) /\ Permutation ix (places 1 (t_num_nodes m4 - 1))).
  { destruct (points_per_leaf <? n) eqn:EL.
    - assert (NE : pts <> []) by (intros C; unfold n in EL; rewrite C in EL; discriminate EL).
      change (t_gen m1) with g. rewrite <- A2.
      destruct (split_mem_ok junk (length pts) m3 0 (set_box rn b) pts M3 ltac:(lia) A6 (GR m3 A1) NE (le_n _) (Bb NE)) as (t & m4 & E1 & E2 & E4 & (W1 & W2 & W3 & W4 & W5 & W6 & ix & W7 & W8)).
      exists t, m4, ix. rewrite A1, A3 in *. auto 10.
    - exists (TLeaf b pts), m3, []. split; [reflexivity|]. split; [reflexivity|]. split; [reflexivity|]. split; [exact M3|]. split; [rewrite A1; reflexivity|].
      rewrite A3. split; [|reflexivity]. eapply H_leaf with (nd := set_box rn b); try reflexivity; try assumption; try lia.
      intros k Hk. rewrite A1. reflexivity. }
  destruct H4 as (t & m4 & ix & Et & Pt & E4 & M4 & L4 & H4 & P4). rewrite Et, E4. cbn [bind]. clear E4 Et.
  (* the array is cut to its size *)
  set (m5 := realloc_nodes junk m4 (t_num_nodes m4)).
  destruct M4 as (B1 & B2 & B3).
  assert (R5 : forall j, 0 <= j < t_num_nodes m4 -> zget (t_root m5) j = zget (t_root m4) j).
  { intros j Hj. cbn [m5 realloc_nodes t_root]. rewrite zget_app, zlen_firstn by lia. replace (j <? t_num_nodes m4) with true by lia.
    rewrite zget_firstn by lia. replace (j <? t_num_nodes m4) with true by lia. reflexivity. }
  assert (Z5 : zlen (t_root m5) = t_num_nodes m4).
  { cbn [m5 realloc_nodes t_root]. rewrite zlen_app, zlen_firstn by lia. unfold zlen. rewrite repeat_length. unfold zlen in B1. lia. }
  assert (M5 : mem_ok m5).
  { split; [exact Z5|]. split; [cbn [m5 realloc_nodes t_num_nodes t_alloc]; lia|]. intros j nd Hj Hnd. pose proof (zget_Some_range _ _ _ Hnd).
    change (t_num_nodes m5) with (t_num_nodes m4) in Hj. rewrite R5 in Hnd by lia. exact (B3 j nd Hj Hnd). }
  destruct (rebuild_ok m5 M5) as (m6 & E6 & C1 & C2 & C3 & C4 & C5 & C6). rewrite E6.
  assert (HI : Permutation (0 :: ix) (zrange (t_num_nodes m4))).
  { rewrite P4. change (0 :: places 1 (t_num_nodes m4 - 1)) with (places 0 1 ++ places (0 + 1) (t_num_nodes m4 - 1)). rewrite <- places_app by lia.
    replace (1 + (t_num_nodes m4 - 1)) with (t_num_nodes m4) by lia. unfold places. rewrite (map_ext _ (fun k => k)) by (intros; lia). rewrite map_id. reflexivity. }
  exists t, m6, (0 :: ix). split; [reflexivity|]. split; [reflexivity|].
  assert (H6 : held (t_root m6) (t_points m6) (PAt (t_gen m6)) 0 0 t (0 :: ix)).
  { rewrite C1, C2. change (t_points m5) with (t_points m4). eapply held_reb; [exact H4|]. intros j Hj. apply (Permutation_in j HI) in Hj. apply In_zrange in Hj.
    rewrite C6 by exact Hj. rewrite R5 by exact Hj. reflexivity. }
  split; [|split; [rewrite C5, C3; exact Z5|split; [rewrite C3, C4; reflexivity|split; [exact H6|rewrite C3; exact HI]]]].
  assert (LT : zlen (tpts t) = n) by (unfold n, zlen; rewrite (Permutation_length Pt); reflexivity).
  apply range_eq; [rewrite C1; change (t_points m5) with (t_points m4); lia|]. intros k Hk. rewrite C1 in Hk. change (t_points m5) with (t_points m4) in Hk.
  destruct (held_points _ _ _ _ _ _ _ H6) as (_ & HP). rewrite <- HP by lia. reflexivity.
Qed.
End Build.
