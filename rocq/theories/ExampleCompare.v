(** Files to compare, for the examples beside the property theorems. *)
From Coq Require Import Lia Lqa.
From Verif Require Import Base BaseLemmas Img Types Reader BoundsM Composite Compare SpecTiles SpecFile SpecCompare ExampleData.
Open Scope Z_scope.

(** Three objects with 1, 0 and 2 cutouts; [d] scales the pixels of each type. *)
Definition ex_cmp (d : ctype -> Z) : medsfile :=
  mkMeds ex_small_cat true PsfNone [mkInfo 1 1 0 1]
    (map (fun t => (t, map (fun i => inject_Z (100 + d t * i)) (zrange 6))) [TImage; TWeight; TBmask; TSeg]) None.
Definition ex_ones (t : ctype) : Z := 1.
Definition ex_but (t0 : ctype) (t : ctype) : Z := if ctype_eqb t t0 then 3 else 1.

(** Matching by position in the first list. *)
Fixpoint ex_find (v : Z) (l : list Z) (i : Z) : list Z :=
  match l with [] => [] | x :: l' => if x =? v then [i] else ex_find v l' (i + 1) end.
Definition ex_match (l1 l2 : list Z) : list (Z * Z) :=
  flat_map (fun p => map (fun j => (snd p, j)) (ex_find (fst p) l2 0)) (combine l1 (zrange (zlen l1))).
Definition ex_pairs : list (Z * Z) := [(0, 0); (1, 1); (2, 2)].
Definition ex_subset (t : ctype) (n k : Z) : list Z := zrange (Z.min n k).
Definition ex_clip (l : list Q) : res unit := Ok tt.
Definition ex_comp (p : png_prefix) : comparator := mkComp (8#10) (1#10000) true p ex_clip.

Lemma ex_cmp_wf d : file_wf (ex_cmp d).
Proof.
  split.
  - cbn [ex_cmp m_cat]. unfold ex_small_cat. repeat (apply Forall_cons; [vm_compute; repeat split; discriminate|]). constructor.
  - intros t m. destruct t; cbn [ex_cmp m_ext map ext_find ctype_eqb]; try discriminate; intros E; injection E as <-; vm_compute; repeat match goal with |- _ /\ _ => split | |- _ => first [reflexivity|discriminate|constructor] end.
Qed.
Lemma ex_cmp_types d : has_types (ex_cmp d) [TImage; TWeight; TBmask; TSeg].
Proof. intros t H. cbn in H. destruct H as [<-|[<-|[<-|[<-|[]]]]]; eexists; reflexivity. Qed.
Lemma ex_cmp_type d t : In t [TImage; TWeight; TBmask; TSeg] -> has_types (ex_cmp d) [t].
Proof. intros H u [<-|[]]. exact (ex_cmp_types d t H). Qed.
Lemma ex_pairs_ok d e : pairs_of (ex_cmp d) (ex_cmp e) ex_pairs.
Proof. unfold pairs_of, ex_pairs. repeat constructor; do 2 eexists; (split; [reflexivity|]; split; reflexivity). Qed.
Lemma ex_find_ok v l : forall i j, In j (ex_find v l i) -> i <= j /\ zget l (j - i) = Some v.
Proof.
  induction l as [|x l IH]; intros i j H; [destruct H|]. cbn [ex_find] in H. destruct (x =? v) eqn:E.
  - destruct H as [<-|[]]. split; [lia|]. rewrite Z.sub_diag. cbn. f_equal. lia.
  - apply IH in H. destruct H as [H1 H2]. split; [lia|]. change (x :: l) with ([x] ++ l). rewrite zget_app. change (zlen [x]) with 1.
    replace (j - i <? 1) with false by lia. replace (j - i - 1) with (j - (i + 1)) by lia. exact H2.
Qed.
Lemma ex_match_ok : matcher ex_match.
Proof.
  intros l1 l2. unfold ex_match. apply Forall_forall. intros p H. apply in_flat_map in H. destruct H as ([v i] & H & Hp).
  cbn [fst snd] in Hp. apply in_map_iff in Hp. destruct Hp as (j & <- & Hj). apply ex_find_ok in Hj. destruct Hj as [_ Hj].
  exists v. cbn [fst snd]. split; [|rewrite Z.sub_0_r in Hj; exact Hj].
  apply In_nth_error in H. destruct H as [n Hn].
  assert (E : nth_error l1 n = Some v /\ nth_error (zrange (zlen l1)) n = Some i).
  { revert Hn. generalize l1 (zrange (zlen l1)). clear. intros l. revert n. induction l as [|u l IH]; intros n l' H; [destruct n; discriminate|].
    destruct l' as [|w l']; [destruct n; discriminate|]. destruct n as [|n]; cbn in *; [injection H as -> ->; auto|]. apply IH. exact H. }
  destruct E as [E1 E2]. assert (n < length l1)%nat by (apply nth_error_Some; congruence).
  rewrite zrange_nth in E2 by (unfold zlen; lia). injection E2 as <-. rewrite zget_nat. exact E1.
Qed.
Lemma ex_subset_ok : valid_subset ex_subset.
Proof. intros t n k. apply Forall_forall. intros i H. apply In_zrange in H. lia. Qed.
