(** Lemmas about the shared vocabulary. *)
From Coq Require Import Lia FinFun.
From Coq Require Import ZifyBool ZifyNat.
From Verif Require Import Base.
Ltac Zify.zify_post_hook ::= Z.div_mod_to_equations.

(** Case split on the condition of an [if]. *)
Ltac dif E := match goal with |- context[if ?b then _ else _] => destruct b eqn:E end.
Ltac dif_in H E := match type of H with context[if ?b then _ else _] => destruct b eqn:E end.

Lemma bind_ok {A B} (x : res A) (f : A -> res B) b :
  bind x f = Ok b <-> exists a, x = Ok a /\ f a = Ok b.
Proof.
  destruct x as [a|e]; simpl; split.
  - intros H; exists a; auto.
  - intros (a' & Ha & H). inversion Ha; subst; exact H.
  - discriminate.
  - intros (a' & Ha & _). discriminate.
Qed.

Lemma bind_assoc {A B C} (x : res A) (f : A -> res B) (g : B -> res C) :
  bind (bind x f) g = bind x (fun a => bind (f a) g).
Proof. destruct x; reflexivity. Qed.

Lemma bind_ext {A B} (x : res A) (f g : A -> res B) :
  (forall a, x = Ok a -> f a = g a) -> bind x f = bind x g.
Proof. destruct x; simpl; auto. Qed.

Lemma foldM_app {S X} (f : S -> X -> res S) xs ys s :
  foldM f (xs ++ ys) s = bind (foldM f xs s) (foldM f ys).
Proof.
  revert s; induction xs as [|x xs IH]; intros s; simpl; [reflexivity|].
  rewrite bind_assoc. apply bind_ext. intros a _. apply IH.
Qed.

Lemma foldM_ext_in {S X} (f g : S -> X -> res S) xs s :
  (forall s x, In x xs -> f s x = g s x) -> foldM f xs s = foldM g xs s.
Proof.
  revert s; induction xs as [|x xs IH]; intros s H; simpl; [reflexivity|].
  rewrite H by (left; reflexivity). apply bind_ext. intros a _.
  apply IH. intros s' x' Hx'. apply H. right; exact Hx'.
Qed.

Lemma foldM_ext {S X} (f g : S -> X -> res S) xs s :
  (forall s x, f s x = g s x) -> foldM f xs s = foldM g xs s.
Proof. intros H; apply foldM_ext_in; auto. Qed.

Lemma foldM_map {S X Y} (f : S -> Y -> res S) (g : X -> Y) xs s :
  foldM f (map g xs) s = foldM (fun s x => f s (g x)) xs s.
Proof.
  revert s; induction xs as [|x xs IH]; intros s; simpl; [reflexivity|].
  apply bind_ext; intros; apply IH.
Qed.

(** Nested loops are one loop over the pairs. *)
Lemma foldM_flat_map {S X Y} (f : S -> Y -> res S) (ys : X -> list Y) xs s :
  foldM (fun s x => foldM f (ys x) s) xs s = foldM f (flat_map ys xs) s.
Proof.
  revert s; induction xs as [|x xs IH]; intros s; simpl; [reflexivity|].
  rewrite foldM_app. apply bind_ext; intros; apply IH.
Qed.

Lemma foldM_inv {S X} (P : S -> Prop) (f : S -> X -> res S) xs s s' :
  P s -> (forall s x s', In x xs -> P s -> f s x = Ok s' -> P s') ->
  foldM f xs s = Ok s' -> P s'.
Proof.
  revert s; induction xs as [|x xs IH]; intros s Hs Hf; simpl.
  - intros H; inversion H; subst; exact Hs.
  - intros H. apply bind_ok in H. destruct H as (s1 & H1 & H2).
    apply (IH s1); auto.
    + apply (Hf s x); auto. left; reflexivity.
    + intros s2 x2 s3 Hin. apply Hf. right; exact Hin.
Qed.

Lemma foldM_ok {S X} (P : S -> Prop) (f : S -> X -> res S) xs s :
  P s -> (forall s x, In x xs -> P s -> exists s', f s x = Ok s' /\ P s') ->
  exists s', foldM f xs s = Ok s' /\ P s'.
Proof.
  revert s; induction xs as [|x xs IH]; intros s Hs Hf; simpl.
  - exists s; auto.
  - destruct (Hf s x) as (s1 & H1 & H2); [left; reflexivity|exact Hs|].
    rewrite H1; simpl. apply IH; auto.
    intros s2 x2 Hin. apply Hf. right; exact Hin.
Qed.

Lemma mapM_ok_length {X Y} (f : X -> res Y) xs ys :
  mapM f xs = Ok ys -> length ys = length xs.
Proof.
  revert ys; induction xs as [|x xs IH]; intros ys H; simpl in H.
  - inversion H; reflexivity.
  - apply bind_ok in H. destruct H as (y & _ & H).
    apply bind_ok in H. destruct H as (ys' & H & E). inversion E; subst.
    simpl. rewrite (IH _ H). reflexivity.
Qed.

Lemma mapM_ok_nth {X Y} (f : X -> res Y) xs ys i x :
  mapM f xs = Ok ys -> nth_error xs i = Some x ->
  exists y, f x = Ok y /\ nth_error ys i = Some y.
Proof.
  revert ys i; induction xs as [|x0 xs IH]; intros ys i H Hi; simpl in H.
  - destruct i; discriminate.
  - apply bind_ok in H. destruct H as (y & Hy & H).
    apply bind_ok in H. destruct H as (ys' & H & E). inversion E; subst.
    destruct i as [|i]; simpl in *.
    + inversion Hi; subst. exists y; auto.
    + apply (IH ys' i); auto.
Qed.

Lemma mapM_ok_Forall2 {X Y} (f : X -> res Y) xs ys :
  mapM f xs = Ok ys <-> Forall2 (fun x y => f x = Ok y) xs ys.
Proof.
  revert ys; induction xs as [|x xs IH]; intros ys; simpl; split.
  - intros H; inversion H; constructor.
  - intros H; inversion H; reflexivity.
  - intros H. apply bind_ok in H. destruct H as (y & Hy & H).
    apply bind_ok in H. destruct H as (ys' & H & E). inversion E; subst.
    constructor; [exact Hy|]. apply IH; exact H.
  - intros H; inversion H as [|x0 y xs0 ys' Hy Hr]; subst.
    rewrite Hy; simpl. apply IH in Hr. rewrite Hr. reflexivity.
Qed.

Lemma mapM_map_ok {X Y} (f : X -> res Y) (g : X -> Y) xs :
  (forall x, In x xs -> f x = Ok (g x)) -> mapM f xs = Ok (map g xs).
Proof.
  induction xs as [|x xs IH]; intros H; simpl; [reflexivity|].
  rewrite H by (left; reflexivity). simpl. rewrite IH; [reflexivity|].
  intros x' Hx'. apply H. right; exact Hx'.
Qed.

Lemma mapM_ext_in {X Y} (f g : X -> res Y) xs :
  (forall x, In x xs -> f x = g x) -> mapM f xs = mapM g xs.
Proof.
  induction xs as [|x xs IH]; intros H; simpl; [reflexivity|].
  rewrite H by (left; reflexivity). rewrite IH; [reflexivity|].
  intros x' Hx'. apply H. right; exact Hx'.
Qed.

Lemma mapM_app {X Y} (f : X -> res Y) xs xs' :
  mapM f (xs ++ xs') =
  let* ys := mapM f xs in let* ys' := mapM f xs' in Ok (ys ++ ys').
Proof.
  induction xs as [|x xs IH]; simpl.
  - destruct (mapM f xs'); reflexivity.
  - rewrite bind_assoc. apply bind_ext; intros y _. rewrite IH.
    destruct (mapM f xs); simpl; [|reflexivity].
    destruct (mapM f xs'); reflexivity.
Qed.

(** * Lists *)

Lemma zlen_app {A} (l l' : list A) : zlen (l ++ l') = zlen l + zlen l'.
Proof. unfold zlen. rewrite app_length. lia. Qed.

Lemma zlen_nonneg {A} (l : list A) : 0 <= zlen l.
Proof. unfold zlen; lia. Qed.

Lemma zlen_cons {A} (a : A) l : zlen (a :: l) = 1 + zlen l.
Proof. unfold zlen; simpl length; lia. Qed.

Lemma zrange_length n : length (zrange n) = Z.to_nat n.
Proof. unfold zrange. rewrite map_length, seq_length. reflexivity. Qed.

Lemma zrange_nth n i : (i < Z.to_nat n)%nat -> nth_error (zrange n) i = Some (Z.of_nat i).
Proof.
  intros H. unfold zrange. rewrite (map_nth_error Z.of_nat i _ (d := i)); [reflexivity|].
  rewrite nth_error_nth' with (d := 0%nat) by (rewrite seq_length; exact H).
  rewrite seq_nth by exact H. reflexivity.
Qed.

Lemma In_zrange n i : In i (zrange n) <-> 0 <= i < n.
Proof.
  unfold zrange. rewrite in_map_iff. split.
  - intros (k & Hk & Hin). apply in_seq in Hin. lia.
  - intros H. exists (Z.to_nat i). split; [lia|]. apply in_seq. lia.
Qed.

Lemma zrange_NoDup n : NoDup (zrange n).
Proof.
  unfold zrange. apply FinFun.Injective_map_NoDup; [|apply seq_NoDup].
  intros x y H. lia.
Qed.

Lemma zget_Some_range {A} (l : list A) i a : zget l i = Some a -> 0 <= i < zlen l.
Proof.
  unfold zget, zlen. destruct (i <? 0) eqn:E; [discriminate|].
  intros H. assert (Hn : nth_error l (Z.to_nat i) <> None) by congruence.
  apply nth_error_Some in Hn. lia.
Qed.

Lemma zget_range_Some {A} (l : list A) i : 0 <= i < zlen l -> exists a, zget l i = Some a.
Proof.
  unfold zget, zlen. intros H. destruct (i <? 0) eqn:E; [lia|].
  destruct (nth_error l (Z.to_nat i)) as [a|] eqn:N; [exists a; reflexivity|].
  apply nth_error_None in N. lia.
Qed.

Lemma zget_None {A} (l : list A) i : zget l i = None <-> ~ (0 <= i < zlen l).
Proof.
  split.
  - intros H Hr. apply zget_range_Some in Hr. destruct Hr as (a & Ha). congruence.
  - intros H. destruct (zget l i) eqn:E; [|reflexivity].
    apply zget_Some_range in E. tauto.
Qed.

Lemma zget_nat {A} (l : list A) (i : nat) : zget l (Z.of_nat i) = nth_error l i.
Proof.
  unfold zget. destruct (Z.of_nat i <? 0) eqn:E; [lia|]. rewrite Nat2Z.id. reflexivity.
Qed.

Lemma zget_In {A} (l : list A) i a : zget l i = Some a -> In a l.
Proof.
  unfold zget. destruct (i <? 0); [discriminate|]. apply nth_error_In.
Qed.

Lemma In_zget {A} (l : list A) a : In a l -> exists i, zget l i = Some a.
Proof.
  intros H. apply In_nth_error in H. destruct H as (n & Hn).
  exists (Z.of_nat n). rewrite zget_nat. exact Hn.
Qed.

Lemma zget_app {A} (l l' : list A) i :
  zget (l ++ l') i = if i <? zlen l then zget l i else zget l' (i - zlen l).
Proof.
  unfold zget, zlen. destruct (i <? 0) eqn:E0.
  - destruct (i <? Z.of_nat (length l)) eqn:E1; [reflexivity|lia].
  - destruct (i <? Z.of_nat (length l)) eqn:E1.
    + apply nth_error_app1. lia.
    + destruct (i - Z.of_nat (length l) <? 0) eqn:E2; [lia|].
      rewrite nth_error_app2 by lia. f_equal. lia.
Qed.

Lemma zget_map {A B} (f : A -> B) l i : zget (map f l) i = option_map f (zget l i).
Proof.
  unfold zget. destruct (i <? 0); [reflexivity|].
  generalize (Z.to_nat i). intros n; revert n.
  induction l as [|a l IH]; intros [|n]; simpl; auto.
Qed.

Lemma zget_zrange n i : 0 <= i < n -> zget (zrange n) i = Some i.
Proof.
  intros H. unfold zget. destruct (i <? 0) eqn:E; [lia|].
  rewrite zrange_nth by lia. f_equal. lia.
Qed.

Lemma zlen_zrange n : 0 <= n -> zlen (zrange n) = n.
Proof. intros H. unfold zlen. rewrite zrange_length. lia. Qed.

Lemma zlen_map {A B} (f : A -> B) l : zlen (map f l) = zlen l.
Proof. unfold zlen. rewrite map_length. reflexivity. Qed.

Lemma nth_error_skipn {A} (l : list A) k i : nth_error (skipn k l) i = nth_error l (k + i).
Proof.
  revert l; induction k as [|k IH]; intros l; [reflexivity|].
  destruct l as [|a l]; simpl; [destruct i; reflexivity|]. apply IH.
Qed.

Lemma nth_error_firstn {A} (l : list A) k i :
  nth_error (firstn k l) i = if (i <? k)%nat then nth_error l i else None.
Proof.
  revert l i; induction k as [|k IH]; intros l i.
  - simpl. destruct i; reflexivity.
  - destruct l as [|a l]; simpl.
    + destruct i; destruct (_ <? _)%nat; reflexivity.
    + destruct i as [|i]; simpl; [reflexivity|]. rewrite IH. reflexivity.
Qed.

Lemma zget_skipn {A} (l : list A) k i : 0 <= k -> 0 <= i ->
  zget (skipn (Z.to_nat k) l) i = zget l (k + i).
Proof.
  intros Hk Hi. unfold zget.
  destruct (i <? 0) eqn:E; [lia|]. destruct (k + i <? 0) eqn:E'; [lia|].
  rewrite nth_error_skipn. f_equal. lia.
Qed.

Lemma zget_firstn {A} (l : list A) k i :
  zget (firstn (Z.to_nat k) l) i = if i <? k then zget l i else None.
Proof.
  unfold zget. destruct (i <? 0) eqn:E.
  - destruct (i <? k); reflexivity.
  - rewrite nth_error_firstn.
    destruct (Z.to_nat i <? Z.to_nat k)%nat eqn:E1; destruct (i <? k) eqn:E2; try reflexivity; lia.
Qed.

Lemma list_zget_ext {A} (l l' : list A) :
  zlen l = zlen l' -> (forall i, 0 <= i < zlen l -> zget l i = zget l' i) -> l = l'.
Proof.
  intros HL H.
  assert (Hn : forall n, nth_error l n = nth_error l' n).
  { intros n. destruct (Nat.ltb_spec n (length l)) as [Hlt|Hge].
    - specialize (H (Z.of_nat n)). unfold zlen in *.
      rewrite !zget_nat in H. apply H. lia.
    - unfold zlen in HL. rewrite (proj2 (nth_error_None l n)) by lia.
      rewrite (proj2 (nth_error_None l' n)) by lia. reflexivity. }
  clear H HL. revert l' Hn. induction l as [|a l IH]; intros [|a' l'] Hn.
  - reflexivity.
  - specialize (Hn 0%nat). discriminate.
  - specialize (Hn 0%nat). discriminate.
  - f_equal.
    + specialize (Hn 0%nat). simpl in Hn. congruence.
    + apply IH. intros n. exact (Hn (S n)).
Qed.

Lemma upd_length {A} (l : list A) i a : length (upd l i a) = length l.
Proof. revert i; induction l as [|x l IH]; intros [|i]; simpl; auto. Qed.

Lemma nth_error_upd {A} (l : list A) i j a :
  nth_error (upd l i a) j =
  if (i =? j)%nat then (if (j <? length l)%nat then Some a else None) else nth_error l j.
Proof.
  revert i j; induction l as [|x l IH]; intros [|i] [|j]; simpl; auto.
  - destruct (i =? j)%nat; reflexivity.
  - rewrite IH. reflexivity.
Qed.

Lemma upd_same {A} (l : list A) i a : nth_error l i = Some a -> upd l i a = l.
Proof.
  revert i; induction l as [|x l IH]; intros [|i]; simpl; intros H; try discriminate.
  - inversion H; reflexivity.
  - rewrite IH by exact H. reflexivity.
Qed.

Lemma py_index_nonneg {A} (l : list A) i : 0 <= i ->
  py_index l i = match zget l i with Some a => Ok a | None => Err IndexError end.
Proof. intros H. unfold py_index. destruct (i <? 0) eqn:E; [lia|reflexivity]. Qed.

Lemma py_index_ok_nonneg {A} (l : list A) i a : 0 <= i ->
  (py_index l i = Ok a <-> zget l i = Some a).
Proof.
  intros H. rewrite py_index_nonneg by exact H.
  destruct (zget l i); split; intros E; inversion E; reflexivity.
Qed.

(** * Slices and writes *)

Lemma slice_ok {A} (m : list A) a b xs :
  slice m a b = Ok xs ->
  0 <= a < b /\ b <= zlen m /\ zlen xs = b - a /\
  forall j, 0 <= j < b - a -> zget xs j = zget m (a + j).
Proof.
  unfold slice. destruct (_ && _) eqn:E; [|discriminate]. intros H; inversion H; subst; clear H.
  repeat split; try lia.
  - unfold zlen in *. rewrite firstn_length, skipn_length. lia.
  - intros j Hj. rewrite zget_firstn. destruct (j <? b - a) eqn:E1; [|lia].
    apply zget_skipn; lia.
Qed.

Lemma slice_in_range {A} (m : list A) a b :
  0 <= a -> a < b -> b <= zlen m -> exists xs, slice m a b = Ok xs.
Proof.
  intros H1 H2 H3. unfold slice. destruct (_ && _) eqn:E; [eexists; reflexivity|lia].
Qed.

Lemma slice_ext {A} (m m' : list A) a b :
  zlen m = zlen m' -> (forall p, a <= p < b -> zget m p = zget m' p) ->
  slice m a b = slice m' a b.
Proof.
  intros HL H.
  destruct (slice m a b) as [xs|e] eqn:E1.
  - apply slice_ok in E1. destruct E1 as (R1 & R2 & L & G).
    destruct (slice_in_range m' a b) as (ys & E2); [lia|lia|lia|].
    rewrite E2. f_equal. apply slice_ok in E2. destruct E2 as (_ & _ & L' & G').
    apply list_zget_ext; [lia|]. intros i Hi. rewrite G, G' by lia. apply H. lia.
  - unfold slice in *. rewrite <- HL. destruct (_ && _); [discriminate|exact (eq_sym E1)].
Qed.

Lemma slice_spec {A} (m xs : list A) a b :
  0 <= a -> a < b -> b <= zlen m -> zlen xs = b - a ->
  (forall j, 0 <= j < b - a -> zget m (a + j) = zget xs j) ->
  slice m a b = Ok xs.
Proof.
  intros H1 H2 H3 HL H. destruct (slice_in_range m a b H1 H2 H3) as (ys & E).
  rewrite E. f_equal. apply slice_ok in E. destruct E as (_ & _ & L & G).
  apply list_zget_ext; [lia|]. intros i Hi. rewrite G by lia. apply H; lia.
Qed.

Lemma write_at_ok {A} (m : list A) k xs m' :
  write_at m k xs = Ok m' ->
  0 <= k /\ k + zlen xs <= zlen m /\ zlen m' = zlen m /\
  forall p, zget m' p = if (k <=? p) && (p <? k + zlen xs) then zget xs (p - k) else zget m p.
Proof.
  unfold write_at. destruct (_ && _) eqn:E; [|discriminate]. intros H; inversion H; subst; clear H.
  assert (HL : zlen (firstn (Z.to_nat k) m) = k).
  { unfold zlen in *. rewrite firstn_length. lia. }
  repeat split; try lia.
  - rewrite !zlen_app, HL. unfold zlen in *. rewrite skipn_length. lia.
  - intros p. rewrite zget_app, HL. destruct (p <? k) eqn:E1.
    + destruct ((k <=? p) && _) eqn:E2; [lia|].
      rewrite zget_firstn. rewrite E1. reflexivity.
    + rewrite zget_app. destruct (p - k <? zlen xs) eqn:E2.
      * destruct ((k <=? p) && (p <? k + zlen xs)) eqn:E3; [reflexivity|lia].
      * destruct ((k <=? p) && (p <? k + zlen xs)) eqn:E3; [lia|].
        replace (Z.to_nat k + length xs)%nat with (Z.to_nat (k + zlen xs)) by (unfold zlen; lia).
        rewrite zget_skipn by (unfold zlen in *; lia). f_equal. lia.
Qed.

Lemma write_at_in_range {A} (m : list A) k xs :
  0 <= k -> k + zlen xs <= zlen m -> exists m', write_at m k xs = Ok m'.
Proof.
  intros H1 H2. unfold write_at. destruct (_ && _) eqn:E; [eexists; reflexivity|lia].
Qed.
