(** The target jacobian is the median of the first epochs. *)
From Coq Require Import Permutation Sorting.Sorted Lqa Qfield Lia ZifyBool ZifyNat.
From Verif Require Import Base BaseLemmas Img Types Reader BoundsM Composite Coadd CoaddLemmas2 CoaddTarget SpecCoaddTarget.
Open Scope Z_scope.

Lemma zget_nth {A} (l : list A) i : 0 <= i -> zget l i = nth_error l (Z.to_nat i).
Proof. intros H. unfold zget. destruct (i <? 0) eqn:E; [lia|reflexivity]. Qed.

(** * Counting *)
Definition cle (v : Q) (l : list Q) : nat := length (filter (fun x => Qle_bool x v) l).
Definition ceq (v : Q) (l : list Q) : nat := length (filter (fun x => Qeq_bool x v) l).

Lemma filter_perm {A} (p : A -> bool) l l' : Permutation l l' -> length (filter p l) = length (filter p l').
Proof.
  induction 1 as [|x l l' P IH|x y l|l l1 l2 P1 IH1 P2 IH2]; cbn [filter]; [reflexivity| | |congruence].
  - destruct (p x); cbn [length]; congruence.
  - destruct (p x), (p y); reflexivity.
Qed.
Lemma filter_imp {A} (p q : A -> bool) l : (forall x, p x = true -> q x = true) -> (length (filter p l) <= length (filter q l))%nat.
Proof.
  intros H. induction l as [|x l IH]; cbn [filter]; [lia|]. destruct (p x) eqn:P; [rewrite (H x P); cbn [length]; lia|].
  destruct (q x); cbn [length]; lia.
Qed.

Definition srt (s : list Q) : Prop := forall i j a b, (i <= j)%nat -> nth_error s i = Some a -> nth_error s j = Some b -> (a <= b)%Q.

Lemma srt_tail x s : srt (x :: s) -> srt s.
Proof. intros H i j a b L A B. apply (H (S i) (S j)); [lia|exact A|exact B]. Qed.

Lemma cle_ge s : forall i x, srt s -> nth_error s i = Some x -> (i < cle x s)%nat.
Proof.
  induction s as [|y s IH]; intros i x H N; [destruct i; discriminate|]. destruct i as [|i].
  - cbn in N. injection N as ->. unfold cle. cbn [filter]. rewrite (proj2 (Qle_bool_iff x x) (Qle_refl x)). cbn [length]. lia.
  - pose proof (IH i x (srt_tail _ _ H) N) as I. assert (L : (y <= x)%Q) by (apply (H 0%nat (S i)); [lia|reflexivity|exact N]).
    unfold cle in *. cbn [filter]. rewrite (proj2 (Qle_bool_iff y x) L). cbn [length]. lia.
Qed.
Lemma cle_le s : forall i y v, srt s -> nth_error s i = Some y -> (v < y)%Q -> (cle v s <= i)%nat.
Proof.
  induction s as [|z s IH]; intros i y v H N L; [destruct i; discriminate|]. destruct i as [|i].
  - cbn in N. injection N as ->. unfold cle.
    enough (E : filter (fun x => Qle_bool x v) (y :: s) = []) by (rewrite E; cbn; lia).
    assert (G : forall w, In w (y :: s) -> Qle_bool w v = false).
    { intros w W. apply In_nth_error in W. destruct W as (n & W). pose proof (H 0%nat n y w ltac:(lia) eq_refl W) as X.
      destruct (Qle_bool w v) eqn:E; [|reflexivity]. apply Qle_bool_iff in E. exfalso. lra. }
    revert G. generalize (y :: s). intros l G. induction l as [|w l IHl]; [reflexivity|]. cbn [filter].
    rewrite (G w (or_introl eq_refl)). apply IHl. intros u U. apply G. right. exact U.
  - pose proof (IH i y v (srt_tail _ _ H) N L) as I. unfold cle in *. cbn [filter]. destruct (Qle_bool z v); cbn [length]; lia.
Qed.

Lemma srt_same s s' i x y : srt s -> srt s' -> Permutation s s' -> nth_error s i = Some x -> nth_error s' i = Some y -> (x == y)%Q.
Proof.
  intros S1 S2 P X Y. destruct (Q_dec x y) as [[L|L]|E]; [| |exact E]; exfalso.
  - pose proof (cle_ge s i x S1 X). pose proof (cle_le s' i y x S2 Y L). unfold cle in *. rewrite (filter_perm _ _ _ P) in H. lia.
  - pose proof (cle_ge s' i y S2 Y). pose proof (cle_le s i x y S1 X L). unfold cle in *. rewrite <- (filter_perm _ _ _ P) in H. lia.
Qed.

(** * The sort *)
Lemma qinsert_perm x l : Permutation (qinsert x l) (x :: l).
Proof.
  induction l as [|y l IH]; cbn [qinsert]; [reflexivity|]. destruct (qltb y x); [|reflexivity].
  rewrite IH. apply perm_swap.
Qed.
Lemma qsort_perm l : Permutation (qsort l) l.
Proof. induction l as [|x l IH]; [reflexivity|]. unfold qsort. cbn [fold_right]. rewrite qinsert_perm. constructor. exact IH. Qed.

Lemma qltb_iff x y : qltb x y = true <-> (x < y)%Q.
Proof. unfold qltb. rewrite negb_true_iff. split.
  - intros H. apply Qnot_le_lt. intros L. apply Qle_bool_iff in L. congruence.
  - intros H. destruct (Qle_bool y x) eqn:E; [|reflexivity]. apply Qle_bool_iff in E. lra.
Qed.
Lemma qinsert_sorted x l : StronglySorted Qle l -> StronglySorted Qle (qinsert x l).
Proof.
  induction 1 as [|y l S1 IH F]; cbn [qinsert]; [repeat constructor|]. destruct (qltb y x) eqn:E.
  - apply qltb_iff in E. constructor; [exact IH|]. rewrite Forall_forall in *. intros z Z. apply qinsert_In in Z. destruct Z as [->|Z]; [lra|apply F; exact Z].
  - assert (L : (x <= y)%Q). { apply Qnot_lt_le. intros G. apply qltb_iff in G. congruence. }
    constructor; [constructor; assumption|]. constructor; [exact L|]. rewrite Forall_forall in *. intros z Z. specialize (F z Z). lra.
Qed.
Lemma qsort_sorted l : StronglySorted Qle (qsort l).
Proof. induction l as [|x l IH]; [constructor|]. unfold qsort. cbn [fold_right]. apply qinsert_sorted. exact IH. Qed.
Lemma sorted_srt s : StronglySorted Qle s -> srt s.
Proof.
  induction 1 as [|x s S1 IH F]; intros i j a b L A B; [destruct i; discriminate|]. destruct i as [|i].
  - cbn in A. injection A as <-. destruct j as [|j]; cbn in B; [injection B as <-; apply Qle_refl|].
    rewrite Forall_forall in F. apply F. eapply nth_error_In. exact B.
  - destruct j as [|j]; [lia|]. apply (IH i j); [lia|exact A|exact B].
Qed.
Lemma srt_z s : srt s <-> (forall i j a b, 0 <= i <= j -> zget s i = Some a -> zget s j = Some b -> (a <= b)%Q).
Proof.
  split; intros H i j a b L A B.
  - rewrite zget_nth in A, B by lia. apply (H (Z.to_nat i) (Z.to_nat j)); [lia|exact A|exact B].
  - apply (H (Z.of_nat i) (Z.of_nat j)); [lia| |]; rewrite zget_nth, Nat2Z.id by lia; assumption.
Qed.

Lemma qmedian_spec l m : qmedian l = Ok m -> is_median l m.
Proof.
  intros H. unfold qmedian in H. assert (SR := proj1 (srt_z _) (sorted_srt _ (qsort_sorted l))). set (s := qsort l) in *.
  destruct (Z.even (zlen s)) eqn:EV.
  - destruct (zget s (zlen s / 2 - 1)) as [x|] eqn:X; [|discriminate]. destruct (zget s (zlen s / 2)) as [y|] eqn:Y; [|discriminate].
    injection H as <-. exists s, x, y. split; [apply qsort_perm|]. split; [exact SR|]. split; [|split; [exact Y|reflexivity]].
    replace ((zlen s - 1) / 2) with (zlen s / 2 - 1); [exact X|]. apply Z.even_spec in EV. destruct EV as (k & ->). lia.
  - destruct (zget s (zlen s / 2)) as [y|] eqn:Y; [|discriminate]. injection H as <-. exists s, y, y.
    split; [apply qsort_perm|]. split; [exact SR|]. split; [|split; [exact Y|field]].
    replace ((zlen s - 1) / 2) with (zlen s / 2); [exact Y|]. rewrite <- Z.negb_odd in EV. apply negb_false_iff, Z.odd_spec in EV. destruct EV as (k & ->). lia.
Qed.

(** * Medians *)
Lemma median_unique l l' m m' : Permutation l l' -> is_median l m -> is_median l' m' -> (m == m')%Q.
Proof.
  intros P (s & x & y & PS & SS & X & Y & M) (s' & x' & y' & PS' & SS' & X' & Y' & M').
  assert (Q1 : Permutation s s') by (rewrite PS, P, <- PS'; reflexivity).
  assert (LE : zlen s = zlen s') by (unfold zlen; rewrite (Permutation_length Q1); reflexivity). rewrite <- LE in X', Y'.
  assert (N : 0 < zlen s). { destruct s as [|q s]; [|unfold zlen; cbn [length]; lia]. exfalso. unfold zget in X. vm_compute in X. discriminate. }
  apply srt_z in SS, SS'. rewrite zget_nth in X, Y, X', Y' by lia.
  rewrite M, M', (srt_same _ _ _ _ _ SS SS' Q1 X X'), (srt_same _ _ _ _ _ SS SS' Q1 Y Y'). reflexivity.
Qed.
Lemma median_between l m lo hi : is_median l m -> (forall x, In x l -> (lo <= x <= hi)%Q) -> (lo <= m <= hi)%Q.
Proof.
  intros (s & x & y & PS & _ & X & Y & M) H. assert (IX : In x l) by (eapply Permutation_in; [exact PS|eapply zget_In; exact X]).
  assert (IY : In y l) by (eapply Permutation_in; [exact PS|eapply zget_In; exact Y]).
  pose proof (H x IX) as HX. pose proof (H y IY) as HY. assert (E : (m == (1#2) * x + (1#2) * y)%Q) by (rewrite M; field). lra.
Qed.

Lemma middle_common s g r v i x : srt s -> Permutation s (g ++ r) -> Forall (fun z => z == v)%Q g -> (length r < length g)%nat ->
  (length s <= 2 * i + 2)%nat -> (2 * i <= length s)%nat -> nth_error s i = Some x -> (x == v)%Q.
Proof.
  intros SS P F L I1 I2 X. assert (LS : length s = (length g + length r)%nat) by (rewrite (Permutation_length P), app_length; reflexivity).
  destruct (Q_dec x v) as [[C|C]|E]; [| |exact E]; exfalso.
  - pose proof (cle_ge s i x SS X) as G. unfold cle in G. rewrite (filter_perm _ _ _ P), filter_app, app_length in G.
    assert (Z : filter (fun z => Qle_bool z x) g = []).
    { clear - F C. induction F as [|z g E F IH]; [reflexivity|]. cbn [filter]. destruct (Qle_bool z x) eqn:B; [|exact IH]. apply Qle_bool_iff in B. exfalso. lra. }
    rewrite Z in G. cbn [length] in G. pose proof (filter_imp (fun z => Qle_bool z x) (fun _ => true) r (fun _ _ => eq_refl)) as T.
    assert (TR : filter (fun _ : Q => true) r = r) by (clear; induction r; cbn; congruence). rewrite TR in T. lia.
  - pose proof (cle_le s i x v SS X C) as G. unfold cle in G. rewrite (filter_perm _ _ _ P), filter_app, app_length in G.
    assert (Z : filter (fun z => Qle_bool z v) g = g).
    { clear - F. induction F as [|z g E F IH]; [reflexivity|]. cbn [filter]. rewrite (proj2 (Qle_bool_iff z v)); [|lra]. rewrite IH. reflexivity. }
    rewrite Z in G. lia.
Qed.
Lemma median_common l m g r v : is_median l m -> Permutation l (g ++ r) -> Forall (fun z => z == v)%Q g -> (length r < length g)%nat -> (m == v)%Q.
Proof.
  intros (s & x & y & PS & SS & X & Y & M) P F L. apply srt_z in SS. assert (PG : Permutation s (g ++ r)) by (rewrite PS; exact P).
  assert (N : 0 < zlen s). { destruct s as [|q s]; [|unfold zlen; cbn [length]; lia]. exfalso. unfold zget in X. vm_compute in X. discriminate. }
  rewrite zget_nth in X, Y by lia. unfold zlen in *.
  assert (EX : (x == v)%Q) by (refine (middle_common s g r v _ x SS PG F L _ _ X); lia).
  assert (EY : (y == v)%Q) by (refine (middle_common s g r v _ y SS PG F L _ _ Y); lia).
  rewrite M, EX, EY. field.
Qed.

(** * The target *)
Lemma epochs_list l ss : mapM (fun o => get_slot o 1) (filter (fun o => 1 <? o_ncut o) l) = Ok ss <-> first_epochs l ss.
Proof.
  revert ss. induction l as [|o l IH]; intros ss.
  - cbn. split; [intros H; injection H as <-; constructor|intros H; inversion H; reflexivity].
  - cbn [filter]. destruct (1 <? o_ncut o) eqn:N.
    + cbn [mapM]. unfold get_slot at 1, py_index. cbn [Z.ltb Z.compare]. split.
      * intros H. destruct (zget (o_slots o) 1) as [s|] eqn:S1; [|discriminate]. cbn [bind] in H. apply bind_ok in H. destruct H as (ss' & H & E).
        injection E as <-. apply fe_take; [lia|exact S1|apply IH; exact H].
      * intros H. inversion H as [|? ? ? A B|? ? ss' s A B C]; subst; [lia|]. rewrite B. cbn [bind]. apply IH in C. rewrite C. reflexivity.
    + rewrite IH. split; [intros H; apply fe_skip; [lia|exact H]|intros H; inversion H; subst; [assumption|lia]].
Qed.

Lemma target_spec f : (exists ss, first_epochs (m_cat f) ss) -> exists ss t, first_epochs (m_cat f) ss /\ target_of f = Ok t /\
  match t with
  | None => ss = []
  | Some (a, b, d, e) => ss <> [] /\ is_median (map s_dudrow ss) a /\ is_median (map s_dudcol ss) b /\
      is_median (map s_dvdrow ss) d /\ is_median (map s_dvdcol ss) e
  end.
Proof.
  intros (ss & H). exists ss. apply epochs_list in H. unfold target_of. rewrite H. cbn [bind]. apply epochs_list in H.
  destruct ss as [|s ss]; [exists None; tauto|].
  assert (T : forall g : slot -> Q, exists m, qmedian (map g (s :: ss)) = Ok m) by (intros g; apply qmedian_total; discriminate).
  destruct (T s_dudrow) as (a & A), (T s_dudcol) as (b & B), (T s_dvdrow) as (d & D), (T s_dvdcol) as (e & E).
  rewrite A, B, D, E. cbn [bind]. exists (Some (a, b, d, e)). split; [exact H|]. split; [reflexivity|]. split; [discriminate|].
  repeat split; apply qmedian_spec; assumption.
Qed.

Lemma target_Some f a b d e : target_of f = Ok (Some (a, b, d, e)) -> exists ss, first_epochs (m_cat f) ss /\ ss <> [] /\
  is_median (map s_dudrow ss) a /\ is_median (map s_dudcol ss) b /\ is_median (map s_dvdrow ss) d /\ is_median (map s_dvdcol ss) e.
Proof.
  intros H. assert (X : exists ss, first_epochs (m_cat f) ss).
  { unfold target_of in H. apply bind_ok in H. destruct H as (ss & H & _). exists ss. apply epochs_list. exact H. }
  destruct (target_spec f X) as (ss & t & F & T & S1). rewrite H in T. injection T as <-. exists ss. tauto.
Qed.
Lemma first_epochs_fun l ss ss' : first_epochs l ss -> first_epochs l ss' -> ss = ss'.
Proof. intros A B. apply epochs_list in A, B. congruence. Qed.

Lemma target_common f j ss g r : target_of f = Ok (Some j) -> first_epochs (m_cat f) ss -> Permutation ss (g ++ r) ->
  (length r < length g)%nat -> forall k, Forall (fun s => jeq (of_slot s) k) g -> jeq j k.
Proof.
  intros T F P L [[[a' b'] d'] e'] G. destruct j as [[[a b] d] e]. apply target_Some in T. destruct T as (ss' & F' & _ & A & B & D & E).
  rewrite <- (first_epochs_fun _ _ _ F F') in *. rewrite Forall_forall in G.
  assert (C : forall (h : slot -> Q) m v, is_median (map h ss) m -> (forall s, In s g -> (h s == v)%Q) -> (m == v)%Q).
  { intros h m v M H. apply (median_common _ _ (map h g) (map h r) v M).
    - rewrite <- map_app. apply Permutation_map. exact P.
    - apply Forall_forall. intros z Z. apply in_map_iff in Z. destruct Z as (s & <- & Z). apply H. exact Z.
    - rewrite !map_length. exact L. }
  cbn [jeq]. split; [apply (C s_dudrow)|split; [apply (C s_dudcol)|split; [apply (C s_dvdrow)|apply (C s_dvdcol)]]]; try assumption;
    intros s S1; specialize (G s S1); cbn in G; tauto.
Qed.

Lemma target_between f j ss lo hi : target_of f = Ok (Some j) -> first_epochs (m_cat f) ss ->
  (forall s, In s ss -> jbetween lo (of_slot s) hi) -> jbetween lo j hi.
Proof.
  intros T F H. destruct j as [[[a b] d] e], lo as [[[la lb] ld] le], hi as [[[ha hb] hd] he]. apply target_Some in T. destruct T as (ss' & F' & _ & A & B & D & E).
  rewrite <- (first_epochs_fun _ _ _ F F') in *.
  assert (C : forall (h : slot -> Q) m u v, is_median (map h ss) m -> (forall s, In s ss -> (u <= h s <= v)%Q) -> (u <= m <= v)%Q).
  { intros h m u v M K. apply (median_between _ _ _ _ M). intros z Z. apply in_map_iff in Z. destruct Z as (s & <- & Z). apply K. exact Z. }
  cbn [jbetween]. split; [apply (C s_dudrow)|split; [apply (C s_dudcol)|split; [apply (C s_dvdrow)|apply (C s_dvdcol)]]]; try assumption;
    intros s S1; specialize (H s S1); cbn in H; tauto.
Qed.

Lemma target_order f g ss ss' j k : first_epochs (m_cat f) ss -> first_epochs (m_cat g) ss' -> Permutation (map of_slot ss) (map of_slot ss') ->
  target_of f = Ok (Some j) -> target_of g = Ok (Some k) -> jeq j k.
Proof.
  intros F G P T U. destruct j as [[[a b] d] e], k as [[[a' b'] d'] e']. apply target_Some in T, U.
  destruct T as (s1 & F1 & _ & A & B & D & E). destruct U as (s2 & F2 & _ & A' & B' & D' & E').
  rewrite <- (first_epochs_fun _ _ _ F F1) in *. rewrite <- (first_epochs_fun _ _ _ G F2) in *.
  assert (C : forall (h : slot -> Q) (p : jmat -> Q) m m', (forall s, p (of_slot s) = h s) -> is_median (map h ss) m -> is_median (map h ss') m' -> (m == m')%Q).
  { intros h p m m' HP M M'. refine (median_unique _ _ _ _ _ M M'). pose proof (Permutation_map p P) as X. rewrite !map_map in X.
    rewrite (map_ext (fun s => p (of_slot s)) h HP), (map_ext (fun s => p (of_slot s)) h HP) in X. exact X. }
  cbn [jeq]. split; [apply (C s_dudrow (fun j => fst (fst (fst j))))|split; [apply (C s_dudcol (fun j => snd (fst (fst j))))|split; [apply (C s_dvdrow (fun j => snd (fst j)))|apply (C s_dvdcol (fun j => snd j))]]]; try assumption; reflexivity.
Qed.
