(** The next closest distance of the tree. *)
From Coq Require Import QArith Lia Lqa Permutation.
From Verif Require Import Base BaseLemmas BoundsM Fast3tree SpecUberseg CompositeLemmas FtLemmas FtLemmas2 CompareLemmas2.
Open Scope Z_scope.

Lemma addr_eqb_eq a b : addr_eqb a b = true <-> a = b.
Proof.
  revert b. induction a as [|x a IH]; intros [|y b]; cbn; try (split; congruence).
  rewrite andb_true_iff, IH, Bool.eqb_true_iff. split; [intros (-> & ->); reflexivity|intros E; inversion E; auto].
Qed.

Inductive node_at (root : tree) : addr -> tree -> Prop :=
| at_root : node_at root [] root
| at_left : forall a b d l r, node_at root a (TNode b d l r) -> node_at root (false :: a) l
| at_right : forall a b d l r, node_at root a (TNode b d l r) -> node_at root (true :: a) r.

Lemma node_at_fun root a n : node_at root a n -> forall n', node_at root a n' -> n' = n.
Proof.
  induction 1 as [|a b d l r H IH|a b d l r H IH]; intros n' H'; inversion H'; subst; [reflexivity|..];
  match goal with K : node_at _ _ (TNode _ _ _ _) |- _ => specialize (IH _ K); inversion IH; reflexivity end.
Qed.

Lemma node_at_wf root a n : tree_wf root -> node_at root a n -> tree_wf n.
Proof. intros W. induction 1 as [|a b d l r H IH|a b d l r H IH]; [exact W|..]; cbn in IH; tauto. Qed.

(** The points of [t], at [a], not below the node at [o]. *)
Fixpoint off (t : tree) (a o : addr) : list pt :=
  if addr_eqb o a then []
  else match t with TLeaf _ pts => pts | TNode _ _ l r => off l (false :: a) o ++ off r (true :: a) o end.

Lemma off_sub t : forall a o p, In p (off t a o) -> In p (tpts t).
Proof.
  induction t as [b pts|b d l IHl r IHr]; intros a o p; cbn [off tpts]; destruct (addr_eqb o a); try (intros []).
  - auto.
  - rewrite !in_app_iff. intros [H|H]; [left; eapply IHl; exact H|right; eapply IHr; exact H].
Qed.

Lemma off_cover root o nd : node_at root o nd -> forall t a p, node_at root a t -> In p (tpts t) ->
  In p (off t a o) \/ In p (tpts nd).
Proof.
  intros N. induction t as [b pts|b d l IHl r IHr]; intros a p T P; cbn [off tpts] in *; destruct (addr_eqb o a) eqn:E.
  - apply addr_eqb_eq in E. subst a. right. rewrite <- (node_at_fun _ _ _ N _ T). exact P.
  - left; exact P.
  - apply addr_eqb_eq in E. subst a. right. rewrite <- (node_at_fun _ _ _ N _ T). exact P.
  - rewrite in_app_iff in *. destruct P as [P|P].
    + destruct (IHl (false :: a) p) as [H|H]; [econstructor; exact T|exact P|left; left; exact H|right; exact H].
    + destruct (IHr (true :: a) p) as [H|H]; [econstructor; exact T|exact P|left; right; exact H|right; exact H].
Qed.

Lemma cons_neq_self {A} (x : A) l : l <> x :: l.
Proof. intros H. apply (f_equal (@length A)) in H. cbn in H. lia. Qed.

(** One turn further down. *)
Lemma off_turn root o b d l r x : node_at root o (TNode b d l r) -> forall t a p, node_at root a t ->
  In p (off t a (x :: o)) -> In p (off t a o) \/ In p (tpts (if x then l else r)).
Proof.
  intros N. induction t as [b' pts|b' d' l' IHl r' IHr]; intros a p T P; cbn [off] in *;
  destruct (addr_eqb (x :: o) a) eqn:E1; try destruct P; destruct (addr_eqb o a) eqn:E2.
  - apply addr_eqb_eq in E2. subst a. pose proof (node_at_fun _ _ _ N _ T). discriminate.
  - left; exact P.
  - apply addr_eqb_eq in E2. subst a. pose proof (node_at_fun _ _ _ N _ T) as F. inversion F; subst. clear IHl IHr.
    right. rewrite in_app_iff in P.
    assert (SK : forall t b0, x = b0 -> off t (b0 :: o) (x :: o) = []).
    { intros t b0 ->. destruct t; cbn [off]; replace (addr_eqb (b0 :: o) (b0 :: o)) with true by (symmetry; apply addr_eqb_eq; reflexivity); reflexivity. }
    destruct x.
    + destruct P as [P|P]; [eapply off_sub; exact P|]. rewrite SK in P by reflexivity. destruct P.
    + destruct P as [P|P]; [rewrite SK in P by reflexivity; destruct P|eapply off_sub; exact P].
  - rewrite in_app_iff in *. destruct P as [P|P].
    + destruct (IHl (false :: a) p) as [H|H]; [econstructor; exact T|exact P|left; left; exact H|right; exact H].
    + destruct (IHr (true :: a) p) as [H|H]; [econstructor; exact T|exact P|left; right; exact H|right; exact H].
Qed.

(** * The search *)

Lemma closest_fold_spec c pts : forall r2, let v := fold_left (fun r2 p => if qltb (pdist c p) r2 then pdist c p else r2) pts r2 in
  (v <= r2)%Q /\ (forall p, In p pts -> (v <= pdist c p)%Q) /\ (v = r2 \/ exists p, In p pts /\ v = pdist c p).
Proof.
  induction pts as [|p pts IH]; intros r2; cbn [fold_left]; cbv zeta.
  - split; [lra|]. split; [intros p []|left; reflexivity].
  - destruct (qltb (pdist c p) r2) eqn:E.
    + destruct (IH (pdist c p)) as (A & B & C). apply qltb_iff in E. split; [lra|]. split.
      * intros q [<-|Q]; [exact A|auto].
      * right. destruct C as [C|(q & Q1 & Q2)]; [exists p; split; [left; reflexivity|exact C]|exists q; split; [right; exact Q1|exact Q2]].
    + destruct (IH r2) as (A & B & C). assert (L : (r2 <= pdist c p)%Q).
      { destruct (Qlt_le_dec (pdist c p) r2) as [K|K]; [apply qltb_iff in K; congruence|exact K]. }
      split; [exact A|]. split; [intros q [<-|Q]; [lra|auto]|].
      destruct C as [C|(q & Q1 & Q2)]; [left; exact C|right; exists q; split; [right; exact Q1|exact Q2]].
Qed.

Lemma search_spec root o nd c : node_at root o nd -> forall t a r2, node_at root a t -> tree_wf t ->
  let v := find_next_closest_dist t a c r2 o in
  (v <= r2)%Q /\ (forall p, In p (tpts t) -> (v <= pdist c p)%Q \/ In p (tpts nd)) /\
  (v = r2 \/ exists p, In p (off t a o) /\ v = pdist c p).
Proof.
  intros N. induction t as [b pts|b d l IHl r IHr]; intros a r2 T W; cbn [find_next_closest_dist off]; cbv zeta.
  - destruct (box_not_intersect_sphere (tbox (TLeaf b pts)) c r2) eqn:E1; cbn [orb].
    { split; [lra|]. split; [|left; reflexivity]. intros p P. left. eapply not_intersect_far; [exact W|exact P|exact E1]. }
    destruct (addr_eqb o a) eqn:E2.
    { apply addr_eqb_eq in E2. subst a. rewrite (node_at_fun _ _ _ N _ T). split; [lra|]. split; [intros p P; right; exact P|left; reflexivity]. }
    destruct (closest_fold_spec c pts r2) as (A & B & C). split; [exact A|]. split; [intros p P; left; apply B; exact P|exact C].
  - destruct (box_not_intersect_sphere (tbox (TNode b d l r)) c r2) eqn:E1; cbn [orb].
    { split; [lra|]. split; [|left; reflexivity]. intros p P. left. eapply not_intersect_far; [exact (proj1 W)|exact P|exact E1]. }
    destruct (addr_eqb o a) eqn:E2.
    { apply addr_eqb_eq in E2. subst a. rewrite (node_at_fun _ _ _ N _ T). split; [lra|]. split; [intros p P; right; exact P|left; reflexivity]. }
    cbn [tree_wf] in W. destruct W as (_ & _ & _ & _ & Wl & Wr).
    assert (TL : node_at root (false :: a) l) by (econstructor; exact T).
    assert (TR : node_at root (true :: a) r) by (econstructor; exact T).
    destruct (qltb _ (if d then snd c else fst c)).
    + destruct (IHr (true :: a) r2 TR Wr) as (A1 & B1 & C1). set (v1 := find_next_closest_dist r (true :: a) c r2 o) in *.
      destruct (IHl (false :: a) v1 TL Wl) as (A2 & B2 & C2). set (v2 := find_next_closest_dist l (false :: a) c v1 o) in *.
      split; [lra|]. split.
      * cbn [tpts]. intros p P. apply in_app_iff in P. destruct P as [P|P]; [apply B2; exact P|]. destruct (B1 p P); [left; lra|right; assumption].
      * destruct C2 as [->|(p & P1 & P2)]; [|right; exists p; rewrite in_app_iff; auto].
        destruct C1 as [C1|(p & P1 & P2)]; [left; exact C1|right; exists p; rewrite in_app_iff; auto].
    + destruct (IHl (false :: a) r2 TL Wl) as (A1 & B1 & C1). set (v1 := find_next_closest_dist l (false :: a) c r2 o) in *.
      destruct (IHr (true :: a) v1 TR Wr) as (A2 & B2 & C2). set (v2 := find_next_closest_dist r (true :: a) c v1 o) in *.
      split; [lra|]. split.
      * cbn [tpts]. intros p P. apply in_app_iff in P. destruct P as [P|P]; [|apply B2; exact P]. destruct (B1 p P); [left; lra|right; assumption].
      * destruct C2 as [->|(p & P1 & P2)]; [|right; exists p; rewrite in_app_iff; auto].
        destruct C1 as [C1|(p & P1 & P2)]; [left; exact C1|right; exists p; rewrite in_app_iff; auto].
Qed.

(** * The way down *)

Definition toward (c : Q * Q) (d : bool) (l : tree) : bool := Qle_bool (if d then snd c else fst c) (hi d (tbox l)).
Inductive dpath (root : tree) (c : Q * Q) : addr -> tree -> Prop :=
| dp_root : dpath root c [] root
| dp_left : forall a b d l r, dpath root c a (TNode b d l r) -> toward c d l = true -> dpath root c (false :: a) l
| dp_right : forall a b d l r, dpath root c a (TNode b d l r) -> toward c d l = false -> dpath root c (true :: a) r.

Lemma dpath_at root c a n : dpath root c a n -> node_at root a n.
Proof. induction 1; [constructor|econstructor; eassumption|econstructor; eassumption]. Qed.

Lemma pdist_pos_coord (c : Q * Q) p (d : bool) : ~ ((if d then snd c else fst c) == coord d p)%Q -> (0 < pdist c p)%Q.
Proof.
  intros H. unfold pdist. pose proof (sq_nonneg (fst c - p_0 p)). pose proof (sq_nonneg (snd c - p_1 p)).
  destruct d; cbn [coord] in H.
  - assert (0 < (snd c - p_1 p) * (snd c - p_1 p))%Q by (apply sq_pos; intros K; apply H; lra). lra.
  - assert (0 < (fst c - p_0 p) * (fst c - p_0 p))%Q by (apply sq_pos; intros K; apply H; lra). lra.
Qed.

Lemma tree_bounding t : tree_wf t -> bounding (tbox t) (tpts t).
Proof. destruct t; cbn; tauto. Qed.

Lemma off_path_pos root (c : Q * Q) : tree_wf root -> forall o nd, dpath root c o nd ->
  forall p, In p (off root [] o) -> (0 < pdist c p)%Q.
Proof.
  intros W. induction 1 as [|a b d l r H IH T|a b d l r H IH T]; intros p P.
  - destruct root; cbn in P; destruct P.
  - pose proof (node_at_wf _ _ _ W (dpath_at _ _ _ _ H)) as WN. cbn in WN. destruct WN as (_ & _ & HL & HR & WL & WR).
    destruct (off_turn root a b d l r false (dpath_at _ _ _ _ H) root [] p (at_root _) P) as [K|K]; [auto|].
    apply (pdist_pos_coord c p d). unfold toward in T. apply Qle_bool_iff in T.
    destruct (tree_bounding _ WL d) as (_ & _ & (q & Q1 & Q2)). specialize (HL q Q1). specialize (HR p K). intros E. lra.
  - pose proof (node_at_wf _ _ _ W (dpath_at _ _ _ _ H)) as WN. cbn in WN. destruct WN as (_ & _ & HL & HR & WL & WR).
    destruct (off_turn root a b d l r true (dpath_at _ _ _ _ H) root [] p (at_root _) P) as [K|K]; [auto|].
    apply (pdist_pos_coord c p d). unfold toward in T.
    destruct (tree_bounding _ WL d) as (B & _). specialize (B p K). intros E.
    assert (X : Qle_bool (if d then snd c else fst c) (hi d (tbox l)) = true) by (apply Qle_bool_iff; lra). congruence.
Qed.

Lemma descend_dpath root c n : forall a st, dpath root c a n -> Forall (fun x => dpath root c (fst x) (snd x)) st ->
  Forall (fun x => dpath root c (fst x) (snd x)) (descend n a st c).
Proof.
  induction n as [b pts|b d l IHl r IHr]; intros a st H S; cbn [descend]; [constructor; assumption|]. cbv zeta.
  destruct (Qle_bool (if d then snd c else fst c) (hi d (tbox l))) eqn:E.
  - apply IHl; [econstructor; eassumption|constructor; assumption].
  - apply IHr; [econstructor; eassumption|constructor; assumption].
Qed.

Lemma climb_In st a nd : climb st = Some (a, nd) -> In (a, nd) st.
Proof.
  induction st as [|[a0 n0] st IH]; cbn [climb]; [discriminate|]. intros H.
  assert (D : Some (a0, n0) = Some (a, nd) -> In (a, nd) ((a0, n0) :: st)) by (intros E; inversion E; left; reflexivity).
  destruct st as [|[pa [b pts|b d l r]] st']; [auto|auto|].
  destruct (Qeq_bool _ _); [right; apply IH; exact H|auto].
Qed.

(** * The first estimate *)

Lemma estimate_spec c pts : forall m, let v := fold_left (fun m p =>
      let dist := pdist c p in if negb (Qeq_bool dist 0) && qltb dist m then dist else m) pts m in
  (v <= m)%Q /\ (forall p, In p pts -> (pdist c p == 0)%Q \/ (v <= pdist c p)%Q) /\
  (v = m \/ exists p, In p pts /\ (0 < pdist c p)%Q /\ v = pdist c p).
Proof.
  induction pts as [|p pts IH]; intros m; cbn [fold_left]; cbv zeta in *.
  - split; [lra|]. split; [intros p []|left; reflexivity].
  - pose proof (pdist_nonneg c p) as PN.
    destruct (Qeq_bool (pdist c p) 0) eqn:E0; cbn [negb andb].
    + apply Qeq_bool_iff in E0. destruct (IH m) as (A & B & C). split; [exact A|]. split; [intros q [<-|Q]; auto|].
      destruct C as [C|(q & Q1 & Q2)]; [left; exact C|right; exists q; split; [right; exact Q1|exact Q2]].
    + apply Qeq_bool_false in E0. assert (PP : (0 < pdist c p)%Q) by (destruct (Qlt_le_dec 0 (pdist c p)); [assumption|exfalso; apply E0; lra]).
      destruct (qltb (pdist c p) m) eqn:E.
      * apply qltb_iff in E. destruct (IH (pdist c p)) as (A & B & C). split; [lra|]. split; [intros q [<-|Q]; auto|].
        right. destruct C as [C|(q & Q1 & Q2)]; [exists p; split; [left; reflexivity|auto]|exists q; split; [right; exact Q1|exact Q2]].
      * destruct (IH m) as (A & B & C). assert (L : (m <= pdist c p)%Q).
        { destruct (Qlt_le_dec (pdist c p) m) as [K|K]; [apply qltb_iff in K; congruence|exact K]. }
        split; [exact A|]. split; [intros q [<-|Q]; [right; lra|auto]|].
        destruct C as [C|(q & Q1 & Q2)]; [left; exact C|right; exists q; split; [right; exact Q1|exact Q2]].
Qed.

(** * Results *)

Lemma next_spec t c : tree_wf t -> exists a nd r2, dpath t c a nd /\ tree_wf nd /\
  (nd = t \/ exists d, ~ (lo d (tbox nd) == hi d (tbox nd))%Q) /\
  find_next_closest_distance t c = Ok r2 /\
  (forall p, In p (tpts t) -> (pdist c p == 0)%Q \/ (r2 <= pdist c p)%Q) /\
  let b := tbox nd in
  let diag := ((hi_0 b - lo_0 b) * (hi_0 b - lo_0 b) + (hi_1 b - lo_1 b) * (hi_1 b - lo_1 b))%Q in
  (r2 <= diag)%Q /\ (r2 = diag \/ exists p, In p (tpts t) /\ (0 < pdist c p)%Q /\ r2 = pdist c p).
Proof.
  intros W. destruct (climb_ok t (descend t [] [] c) W (descend_chain t c t [] [] (chain_root t []))) as (a & nd & E & Wn & Hnd).
  pose proof (descend_dpath t c t [] [] (dp_root _ _) (Forall_nil _)) as FD. rewrite Forall_forall in FD.
  pose proof (FD _ (climb_In _ _ _ E)) as D. cbn [fst snd] in D. pose proof (dpath_at _ _ _ _ D) as NA.
  unfold find_next_closest_distance. rewrite E. cbv zeta.
  set (diag := ((hi_0 (tbox nd) - lo_0 (tbox nd)) * (hi_0 (tbox nd) - lo_0 (tbox nd)) + (hi_1 (tbox nd) - lo_1 (tbox nd)) * (hi_1 (tbox nd) - lo_1 (tbox nd)))%Q).
  pose proof (estimate_spec c (tpts nd) diag) as M. cbv zeta in M. destruct M as (M1 & M2 & M3). set (m := fold_left _ (tpts nd) diag) in *.
  destruct (search_spec t a nd c NA t [] m (at_root _) W) as (V1 & V2 & V3). set (v := find_next_closest_dist t [] c m a) in *.
  assert (SUB : forall p, In p (tpts nd) -> In p (tpts t)).
  { clear - NA. induction NA as [|a b d l r H IH|a b d l r H IH]; intros p P; [exact P|apply IH; cbn; apply in_app_iff; auto..]. }
  exists a, nd, v. split; [exact D|]. split; [exact Wn|]. split; [exact Hnd|]. split; [reflexivity|]. split.
  - intros p P. destruct (V2 p P) as [H|H]; [right; exact H|]. destruct (M2 p H); [left; assumption|right; lra].
  - fold diag. split; [exact (Qle_trans _ _ _ V1 M1)|]. destruct V3 as [V3|(p & P1 & P2)].
    + rewrite V3. destruct M3 as [M3|(p & P1 & P2 & P3)]; [left; exact M3|right; exists p; auto].
    + right. exists p. split; [eapply off_sub; exact P1|]. split; [exact (off_path_pos t c W a nd D p P1)|exact P2].
Qed.

Lemma next_lower pts c : pts <> [] -> exists t r2, fast3tree_build pts = Ok t /\ find_next_closest_distance t c = Ok r2 /\
  forall p, In p pts -> (pdist c p == 0)%Q \/ (r2 <= pdist c p)%Q.
Proof.
  intros N. destruct (build_ok pts) as (t & T & P & W). specialize (W N).
  destruct (next_spec t c W) as (a & nd & r2 & _ & _ & _ & F & L & _). exists t, r2. split; [exact T|]. split; [exact F|].
  intros p H. apply L. eapply Permutation_in; [symmetry; exact P|exact H].
Qed.

Lemma next_exact pts p0 q0 : In p0 pts -> In q0 pts -> let c := (p_0 p0, p_1 p0) in (0 < pdist c q0)%Q ->
  exists t r2, fast3tree_build pts = Ok t /\ find_next_closest_distance t c = Ok r2 /\ (0 < r2)%Q /\
  (exists q, In q pts /\ (r2 == pdist c q)%Q) /\
  forall p, In p pts -> (pdist c p == 0)%Q \/ (r2 <= pdist c p)%Q.
Proof.
  intros P0 Q0 c HQ. assert (N : pts <> []) by (intros ->; destruct P0).
  destruct (build_ok pts) as (t & T & P & W). specialize (W N).
  destruct (next_spec t c W) as (a & nd & r2 & D & Wn & Hnd & F & L & LD & R). exists t, r2. split; [exact T|]. split; [exact F|].
  assert (IN : forall p, In p pts <-> In p (tpts t)) by (intros p; split; apply Permutation_in; [symmetry|]; exact P).
  assert (Z0 : (pdist c p0 == 0)%Q) by (unfold pdist, c; cbn [fst snd]; ring).
  assert (PN : In p0 (tpts nd)).
  { apply IN in P0. destruct (off_cover t a nd (dpath_at _ _ _ _ D) t [] p0 (at_root _) P0) as [H|H]; [|exact H].
    pose proof (off_path_pos t c W a nd D p0 H). lra. }
  pose proof (tree_bounding _ Wn) as BD.
  assert (EX : exists q, In q (tpts nd) /\ (0 < pdist c q)%Q).
  { destruct Hnd as [->|(d & ND)]; [exists q0; split; [apply IN; exact Q0|exact HQ]|].
    destruct (BD d) as (_ & (x & X1 & X2) & (y & Y1 & Y2)).
    destruct (Qeq_dec (coord d x) (if d then snd c else fst c)) as [E|E].
    - exists y. split; [exact Y1|]. apply (pdist_pos_coord c y d). intros K. apply ND. lra.
    - exists x. split; [exact X1|]. apply (pdist_pos_coord c x d). intros K. apply E. lra. }
  destruct EX as (q & Q1 & Q2).
  assert (DG : (pdist c q <= (hi_0 (tbox nd) - lo_0 (tbox nd)) * (hi_0 (tbox nd) - lo_0 (tbox nd)) + (hi_1 (tbox nd) - lo_1 (tbox nd)) * (hi_1 (tbox nd) - lo_1 (tbox nd)))%Q).
  { destruct (BD false) as (B0 & _). destruct (BD true) as (B1 & _).
    pose proof (B0 p0 PN). pose proof (B0 q Q1). pose proof (B1 p0 PN). pose proof (B1 q Q1). cbn [lo hi coord] in *.
    unfold pdist, c. cbn [fst snd].
    assert (SQ : forall x y l h, (l <= x <= h -> l <= y <= h -> (x - y) * (x - y) <= (h - l) * (h - l))%Q).
    { intros x y l h ? ?. assert (0 <= (h - l) - (x - y))%Q by lra. assert (0 <= (h - l) + (x - y))%Q by lra. nra. }
    pose proof (SQ (p_0 p0) (p_0 q) (lo_0 (tbox nd)) (hi_0 (tbox nd))). pose proof (SQ (p_1 p0) (p_1 q) (lo_1 (tbox nd)) (hi_1 (tbox nd))).
    intuition lra. }
  assert (QP : In q (tpts t)).
  { pose proof (dpath_at _ _ _ _ D) as NA. clear - NA Q1. revert q Q1.
    induction NA as [|a b d l r H IH|a b d l r H IH]; intros p P; [exact P|apply IH; cbn; apply in_app_iff; auto..]. }
  assert (LQ : (r2 <= pdist c q)%Q) by (destruct (L q QP); [lra|assumption]).
  destruct R as [R|(p & P1 & P2 & P3)].
  - split; [subst r2; lra|]. split; [exists q; split; [apply IN; exact QP|subst r2; lra]|]. intros p H. apply L. apply IN. exact H.
  - split; [subst r2; lra|]. split; [exists p; split; [apply IN; exact P1|subst r2; lra]|]. intros p' H. apply L. apply IN. exact H.
Qed.
