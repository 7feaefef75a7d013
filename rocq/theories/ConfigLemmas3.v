From Coq Require Import String Permutation.
From Verif Require Import Base Img Types BoundsM MakerLayout MakerWrite MakerFile Config SpecConfig ConfigLemmas ConfigLemmas2.
Open Scope Z_scope.
Open Scope string_scope.

Lemma truth_falsy v : truth v = true <-> ~ falsy v.
Proof.
  destruct v; cbn.
  - split; [discriminate|]. intros H. destruct H. constructor.
  - destruct b; split; try discriminate; try reflexivity.
    + intros _ H. inversion H.
    + intros H. destruct H. constructor.
  - destruct (Z.eqb_spec z 0) as [->|Hn]; cbn; split; try discriminate; try reflexivity.
    + intros H. destruct H. constructor.
    + intros _ H. inversion H. congruence.
  - destruct (Qeq_bool q 0) eqn:E; cbn; split; try discriminate; try reflexivity.
    + intros H. destruct H. constructor. apply Qeq_bool_iff, E.
    + intros _ H. inversion H as [| | |q' Hq E'| | |]. apply Qeq_bool_iff in Hq. congruence.
  - destruct (String.eqb_spec s "") as [->|Hn]; cbn; split; try discriminate; try reflexivity.
    + intros H. destruct H. constructor.
    + intros _ H. inversion H. congruence.
  - destruct l; split; try discriminate; try reflexivity.
    + intros H. destruct H. constructor.
    + intros _ H. inversion H.
  - destruct d; split; try discriminate; try reflexivity.
    + intros H. destruct H. constructor.
    + intros _ H. inversion H.
Qed.

Lemma entry_in_force d k dv v : NoDup (map fst d) -> lookup default_config k = Some dv ->
  (entry d k = Some v <-> in_force d k dv v).
Proof.
  intros N Hd. unfold entry, in_force. destruct (lookup d k) as [w|] eqn:E.
  - split.
    + intros H. injection H as ->. left. apply lookup_In, E.
    + intros [H|[H _]].
      * apply (In_lookup d N) in H. congruence.
      * apply lookup_None in H. congruence.
  - rewrite Hd. pose proof (proj1 (lookup_None d k) E) as G. split.
    + intros H. injection H as ->. right. auto.
    + intros [H|[_ ->]]; [destruct G; exists v; exact H|reflexivity].
Qed.
Lemma entry_given d k : NoDup (map fst d) -> lookup default_config k = None -> forall v,
  (entry d k = Some v <-> In (k, v) d).
Proof.
  intros N Hd v. unfold entry. rewrite <- (lookup_iff d k v N). rewrite Hd. destruct (lookup d k); reflexivity.
Qed.
Lemma entry_absent d k : NoDup (map fst d) -> lookup default_config k = None ->
  (entry d k = None <-> ~ given d k).
Proof. intros N Hd. rewrite <- lookup_None. unfold entry. rewrite Hd. destruct (lookup d k); reflexivity. Qed.

Lemma on_default d k b v : NoDup (map fst d) -> lookup default_config k = Some (VBool b) ->
  entry d k = Some v -> (truth v = true <-> on d k b).
Proof.
  intros N Hd E. pose proof (proj1 (entry_in_force d k _ v N Hd) E) as F. rewrite truth_falsy. unfold on. split.
  - intros H. exists v. auto.
  - intros (w & W & H). apply (entry_in_force d k _ w N Hd) in W. congruence.
Qed.
Lemma on_flag d k : NoDup (map fst d) -> lookup default_config k = None ->
  (fl (entry d) k = true <-> on d k false).
Proof.
  intros N Hd. unfold fl, on, in_force. destruct (entry d k) as [v|] eqn:E.
  - apply (entry_given d k N Hd) in E. rewrite truth_falsy. split.
    + intros H. exists v. auto.
    + intros (w & [W|[W _]] & H).
      * apply (lookup_iff d k w N) in W. apply (lookup_iff d k v N) in E. congruence.
      * destruct W. exists v. exact E.
  - apply (entry_absent d k N Hd) in E. split; [discriminate|].
    intros (w & [W|[_ ->]] & H); [destruct E; exists w; exact W|destruct H; constructor].
Qed.
Lemma hs_given d k : NoDup (map fst d) -> lookup default_config k = None ->
  (hs (entry d) k = true <-> given d k).
Proof.
  intros N Hd. unfold hs. destruct (entry d k) as [v|] eqn:E.
  - apply (entry_given d k N Hd) in E. split; [intros _; exists v; exact E|reflexivity].
  - apply (entry_absent d k N Hd) in E. split; [discriminate|contradiction].
Qed.

Lemma as_num_number v q : as_num v = Ok q <-> number v q.
Proof.
  destruct v; cbn; split; intros H; try discriminate H; try (injection H as <-); try (inversion H; subst; reflexivity); try constructor.
  destruct b; constructor.
Qed.
Lemma as_exact_integer v z : as_exact_int v = Ok z <-> integer v z.
Proof.
  destruct v; cbn; split; intros H; try discriminate H; try (injection H as <-); try (inversion H; subst; reflexivity); try constructor.
  destruct b; constructor.
Qed.
Lemma as_str_eq v s : as_str v = Ok s <-> v = VStr s.
Proof. destruct v; cbn; split; intros H; try discriminate H; congruence. Qed.
Lemma as_strs_eq v l : as_strs v = Ok l <-> v = VStrs l.
Proof. destruct v; cbn; split; intros H; try discriminate H; congruence. Qed.

Lemma mb_integer d k o : NoDup (map fst d) -> lookup default_config k = None ->
  mb as_exact_int (entry d) k = Ok o ->
  forall z, o = Some z <-> exists v, In (k, v) d /\ integer v z.
Proof.
  intros N Hd H z. unfold mb in H. destruct (entry d k) as [v|] eqn:E.
  - apply (entry_given d k N Hd) in E. destruct (as_exact_int v) as [z'|] eqn:Ez; cbn [bind] in H; [|discriminate].
    injection H as <-. split.
    + intros Hz. injection Hz as <-. exists v. split; [exact E|]. apply as_exact_integer, Ez.
    + intros (w & W & I). apply (lookup_iff d k w N) in W. apply (lookup_iff d k v N) in E.
      assert (w = v) as -> by congruence. apply as_exact_integer in I. congruence.
  - injection H as <-. apply (entry_absent d k N Hd) in E. split; [discriminate|].
    intros (w & W & _). destruct E. exists w. exact W.
Qed.

Lemma flag_on e k : NoDup (map fst e) -> (flag e k = true <-> exists v, In (k, v) e /\ ~ falsy v).
Proof.
  intros N. unfold flag. destruct (lookup e k) as [v|] eqn:E.
  - rewrite truth_falsy. apply lookup_In in E. split; [intros H; exists v; auto|].
    intros (w & W & H). apply (lookup_iff e k w N) in W. apply (lookup_iff e k v N) in E. congruence.
  - apply lookup_None in E. split; [discriminate|]. intros (w & W & _). destruct E. exists w. exact W.
Qed.

Lemma sb_on1 d k e u : unique d -> lookup default_config k = None -> sb (entry d) k = Ok e ->
  (flag e u = true <-> on1 d k u).
Proof.
  intros [N U] Hd H. unfold sb in H. unfold on1. destruct (entry d k) as [v|] eqn:E.
  - apply (entry_given d k N Hd) in E. destruct v; try discriminate H. injection H as ->.
    destruct (U k e E) as [Ne _]. rewrite (flag_on e u Ne). split.
    + intros (v & H1 & H2). exists e, v. auto.
    + intros (e' & v & H1 & H2). apply (lookup_iff d k _ N) in H1. apply (lookup_iff d k _ N) in E.
      assert (e' = e) as -> by congruence. exists v. exact H2.
  - injection H as <-. apply (entry_absent d k N Hd) in E. split; [discriminate|].
    intros (e' & v & H1 & _). destruct E. exists (VDict e'). exact H1.
Qed.

Lemma sub_on e k f : NoDup (map fst e) -> (forall k' f', In (k', VDict f') e -> NoDup (map fst f')) ->
  sub e k = Ok f -> forall u, flag f u = true <-> exists f' v, In (k, VDict f') e /\ In (u, v) f' /\ ~ falsy v.
Proof.
  intros N U H u. unfold sub in H. destruct (lookup e k) as [v|] eqn:E.
  - apply lookup_In in E. destruct v; try discriminate H. injection H as ->.
    rewrite (flag_on f u (U k f E)). split.
    + intros (v & H1 & H2). exists f, v. auto.
    + intros (e' & v & H1 & H2). apply (lookup_iff e k _ N) in H1. apply (lookup_iff e k _ N) in E.
      assert (e' = f) as -> by congruence. exists v. exact H2.
  - injection H as <-. apply lookup_None in E. split; [discriminate|].
    intros (e' & v & H1 & _). destruct E. exists (VDict e'). exact H1.
Qed.

Lemma psf_on2 d p k f u : unique d ->
  (match entry d "psf_type" with Some t => Ok [("type", t)] | None => sb (entry d) "psf" end) = Ok p ->
  sub p k = Ok f -> k <> "type" ->
  (flag f u = true <-> ~ given d "psf_type" /\ on2 d "psf" k u).
Proof.
  intros [N U] Hp Hs Hk. destruct (entry d "psf_type") as [t|] eqn:Et.
  - injection Hp as <-. apply (entry_given d "psf_type" N eq_refl) in Et.
    unfold sub in Hs. cbn [lookup] in Hs. destruct (String.eqb_spec "type" k); [congruence|].
    injection Hs as <-. split; [discriminate|]. intros [G _]. destruct G. exists t. exact Et.
  - apply (entry_absent d "psf_type" N eq_refl) in Et. unfold sb in Hp.
    destruct (entry d "psf") as [v|] eqn:E.
    + apply (entry_given d "psf" N eq_refl) in E. destruct v; try discriminate Hp. injection Hp as ->.
      destruct (U _ _ E) as [Np Up]. rewrite (sub_on p k f Np Up Hs u). unfold on2. split.
      * intros (f' & v & H1 & H2 & H3). split; [exact Et|]. exists p, f', v. auto.
      * intros [_ (p' & f' & v & H0 & H1 & H2 & H3)]. apply (lookup_iff d _ _ N) in H0. apply (lookup_iff d _ _ N) in E.
        assert (p' = p) as -> by congruence. exists f', v. auto.
    + injection Hp as <-. cbn in Hs. injection Hs as <-. apply (entry_absent d "psf" N eq_refl) in E.
      split; [discriminate|]. intros [_ (p' & f' & v & H0 & _)]. destruct E. exists (VDict p'). exact H0.
Qed.

Lemma py_remove_order l : In "image" l -> exists a b, l = (a ++ "image" :: b)%list /\ ~ In "image" a /\ py_remove l "image" = (a ++ b)%list.
Proof.
  induction l as [|x l IH]; intros H; [destruct H|]. cbn [py_remove].
  destruct (String.eqb_spec x "image") as [->|Hn].
  - exists [], l. auto.
  - destruct H as [E|H]; [congruence|]. destruct (IH H) as (a & b & -> & Ha & E).
    exists (x :: a), b. repeat split; [|cbn; f_equal; exact E].
    intros [F|F]; [congruence|contradiction].
Qed.
Lemma set_types_order l l' : set_cutout_types l = Ok l' -> types_in_order l l'.
Proof.
  unfold set_cutout_types. destruct (existsb (String.eqb "image") l) eqn:E.
  - match goal with |- context [if existsb ?f ?x then Err _ else _] => destruct (existsb f x) end; intros H; [discriminate H|]. injection H as <-.
    apply existsb_exists in E as (x & Hx & Ex). apply String.eqb_eq in Ex. subst.
    destruct (py_remove_order l Hx) as (a & b & -> & Ha & ->). apply TO_given, Ha.
  - match goal with |- context [if existsb ?f ?x then Err _ else _] => destruct (existsb f x) end; intros H; [discriminate H|]. injection H as <-. apply TO_absent.
    intros Hx. assert (existsb (String.eqb "image") l = true); [|congruence].
    apply existsb_exists. exists "image". split; [exact Hx|reflexivity].
Qed.
