From Coq Require Import String Permutation.
From Verif Require Import Base Img Types BoundsM MakerLayout MakerWrite MakerFile Config SpecConfig ConfigLemmas ConfigLemmas2 ConfigLemmas3 BaseLemmas ConfigLemmas4.
Open Scope Z_scope.
Open Scope string_scope.

Definition names : list string := ["image"; "weight"; "seg"; "bmask"; "ormask"; "noise"].

Lemma ctype_of_In s : (exists t, ctype_of s = Some t) <-> In s names.
Proof.
  unfold ctype_of, names, SUPPORTED. cbn [find ctype_name]. split.
  - intros (t & H).
    repeat match type of H with (if String.eqb ?a s then _ else _) = _ => destruct (String.eqb_spec a s) as [<-|]; [cbn; tauto|] end.
    discriminate H.
  - intros H. cbn in H. repeat destruct H as [<-|H]; try destruct H; eexists; reflexivity.
Qed.

Lemma In_py_remove l x : forall y, In y l -> y = x \/ In y (py_remove l x).
Proof.
  induction l as [|a l IH]; intros y H; [destruct H|]. cbn [py_remove].
  destruct (String.eqb_spec a x) as [->|Hn]; destruct H as [->|H]; auto.
  - right. left. reflexivity.
  - destruct (IH y H); [auto|right; right; assumption].
Qed.
Lemma py_remove_In l x : forall y, In y (py_remove l x) -> In y l.
Proof.
  induction l as [|a l IH]; intros y H; [destruct H|]. cbn [py_remove] in H.
  destruct (String.eqb_spec a x); [right; exact H|]. destruct H as [->|H]; [left; reflexivity|right; auto].
Qed.

Lemma set_types_iff l : (exists l', set_cutout_types l = Ok l') <-> forall t, In t l -> In t names.
Proof.
  unfold set_cutout_types.
  set (m := if existsb (String.eqb "image") l then py_remove l "image" else l).
  assert (M : forall t, In t l -> t = "image" \/ In t m).
  { intros t Ht. unfold m. destruct (existsb _ _); [apply In_py_remove; exact Ht|auto]. }
  assert (M' : forall t, In t m -> In t l).
  { intros t Ht. unfold m in Ht. destruct (existsb _ _); [apply (py_remove_In _ "image"); exact Ht|auto]. }
  clearbody m.
  match goal with |- context [existsb ?f ?x] => destruct (existsb f x) eqn:E end.
  - split; [intros (l' & H); discriminate H|]. intros H. exfalso.
    apply existsb_exists in E as (x & Hx & Ex). destruct (ctype_of x) eqn:Ec; [discriminate Ex|].
    assert (In x names) as Hi.
    { destruct Hx as [<-|Hx]; [left; reflexivity|auto]. }
    apply ctype_of_In in Hi as (t & Ht). congruence.
  - split; [|intros _; eexists; reflexivity]. intros _ t Ht.
    destruct (M t Ht) as [->|Hm]; [left; reflexivity|].
    apply ctype_of_In. destruct (ctype_of t) eqn:Ec; [eexists; reflexivity|].
    assert (H : existsb (fun s => match ctype_of s with Some _ => false | None => true end) ("image" :: m) = true); [|congruence].
    apply existsb_exists. exists t. split; [right; exact Hm|]. rewrite Ec. reflexivity.
Qed.

Lemma as_int_number v : (exists z, as_int v = Ok z) <-> exists q, number v q.
Proof.
  destruct v; cbn; (split; intros (x & H); [try discriminate H|try (inversion H; fail)]); try (eexists; reflexivity); try (eexists; constructor).
  destruct b; eexists; constructor.
Qed.
Lemma as_num_some v : (exists z, as_num v = Ok z) <-> exists q, number v q.
Proof. split; intros (q & H); exists q; apply as_num_number; exact H. Qed.

(** Options with a default: some condition on the value in force. *)
Lemma with_default d k v0 (P : cval -> Prop) : NoDup (map fst d) -> lookup default_config k = Some v0 -> P v0 ->
  ((exists v, entry d k = Some v /\ P v) <-> forall v, In (k, v) d -> P v).
Proof.
  intros N Hd P0. split.
  - intros (v & E & Hp) w Hw. apply (entry_in_force d k v0 v N Hd) in E.
    assert (entry d k = Some w) by (apply (entry_in_force d k v0 w N Hd); left; exact Hw).
    assert (entry d k = Some v) by (apply (entry_in_force d k v0 v N Hd); exact E). congruence.
  - intros H. unfold entry. destruct (lookup d k) as [v|] eqn:E.
    + exists v. split; [reflexivity|]. apply H. apply lookup_In, E.
    + exists v0. auto.
Qed.
Lemma mb_ok d k : NoDup (map fst d) -> lookup default_config k = None ->
  ((exists o, mb as_exact_int (entry d) k = Ok o) <-> forall v, In (k, v) d -> exists z, integer v z).
Proof.
  intros N Hd. unfold mb. destruct (entry d k) as [v|] eqn:E.
  - apply (entry_given d k N Hd) in E. split.
    + intros (o & H) w Hw. apply (lookup_iff d k w N) in Hw. apply (lookup_iff d k v N) in E.
      assert (w = v) as -> by congruence. destruct (as_exact_int v) as [z|] eqn:Ez; [|discriminate H].
      exists z. apply as_exact_integer, Ez.
    + intros H. destruct (H v E) as (z & Hz). apply as_exact_integer in Hz. rewrite Hz. eexists; reflexivity.
  - apply (entry_absent d k N Hd) in E. split; [|intros _; eexists; reflexivity].
    intros _ v Hv. destruct E. exists v. exact Hv.
Qed.
Lemma sb_ok d k : NoDup (map fst d) -> lookup default_config k = None ->
  ((exists o, sb (entry d) k = Ok o) <-> dict_or_absent d k).
Proof.
  intros N Hd. unfold sb, dict_or_absent. destruct (entry d k) as [v|] eqn:E.
  - apply (entry_given d k N Hd) in E. split.
    + intros (o & H) w Hw. apply (lookup_iff d k w N) in Hw. apply (lookup_iff d k v N) in E.
      assert (w = v) as -> by congruence. destruct v; try discriminate H. eexists; reflexivity.
    + intros H. destruct (H v E) as (z & ->). eexists; reflexivity.
  - apply (entry_absent d k N Hd) in E. split; [|intros _; eexists; reflexivity].
    intros _ v Hv. destruct E. exists v. exact Hv.
Qed.
Lemma sub_ok e k : NoDup (map fst e) -> ((exists o, sub e k = Ok o) <-> dict_or_absent e k).
Proof.
  intros N. unfold sub, dict_or_absent. destruct (lookup e k) as [v|] eqn:E.
  - apply lookup_In in E. split.
    + intros (o & H) w Hw. apply (lookup_iff e k w N) in Hw. apply (lookup_iff e k v N) in E.
      assert (w = v) as -> by congruence. destruct v; try discriminate H. eexists; reflexivity.
    + intros H. destruct (H v E) as (z & ->). eexists; reflexivity.
  - apply lookup_None in E. split; [|intros _; eexists; reflexivity].
    intros _ v Hv. destruct E. exists v. exact Hv.
Qed.

Lemma accepts d njob c : unique d ->
  ((exists s, configure (Config d) njob c = Ok s) <-> well_typed d).
Proof.
  intros U. pose proof (proj1 U) as N. split.
  - intros (s & H).
    destruct (configure_inv d njob c s N H) as (vt & lt & lt' & vb & ab & dj & vf & vc & vo & vr & buffer & nmax & ca & sa & psf & pc & ps & un & vu & uv & dt & E1 & E2 & E3 & E4 & E5 & E6 & E7 & E8 & E9 & E10 & E11 & E12 & E13 & E14 & E15 & E16 & E17 & E18 & E19 & E20 & E21 & _).
    destruct (output_values d njob c s U H) as (_ & _ & _ & _ & _ & _ & _ & _ & D & _).
    unfold well_typed. split.
    { apply (with_default d "cutout_types" _ (fun v => exists l, v = VStrs l /\ forall t, In t l -> In t names) N eq_refl).
      - exists []. split; [reflexivity|intros t []].
      - exists vt. split; [exact E1|]. apply as_strs_eq in E2. exists lt. split; [exact E2|].
        apply set_types_iff. exists lt'. exact E3. }
    split.
    { apply (with_default d "bitmask_allowed" _ (fun v => exists q, number v q) N eq_refl).
      - eexists; constructor.
      - exists vb. split; [exact E4|]. apply as_int_number. exists ab; exact E5. }
    split.
    { intros k v Hk. revert v. cbn in Hk. destruct Hk as [<-|[<-|[]]].
      - apply (with_default d "bounds_buffer_uv" _ (fun v => exists q, number v q) N eq_refl); [eexists; constructor|].
        exists vu. split; [exact E19|]. exists uv. apply as_num_number, E20.
      - apply (with_default d "coadd_bounds_buffer_rowcol" _ (fun v => exists q, number v q) N eq_refl); [eexists; constructor|].
        exists vr. split; [exact E10|]. exists buffer. apply as_num_number, E11. }
    split.
    { intros k v Hk. revert v. cbn in Hk. destruct Hk as [<-|[<-|[]]].
      - apply (mb_ok d "ncutout_max" N eq_refl). eexists; exact E12.
      - apply (mb_ok d "unusable_bmask" N eq_refl). eexists; exact E18. }
    split.
    { assert (G : forall k dv s', in_force d k (VStr dv) (VStr s') -> forall v, In (k, v) d -> exists s, v = VStr s).
      { intros k dv s' [I|[I _]] v Hv; [|destruct I; exists v; exact Hv].
        apply (lookup_iff d k _ N) in I. apply (lookup_iff d k _ N) in Hv. exists s'. congruence. }
      intros k v Hk. unfold dtype_defaults in D. clear - G D Hk.
      inversion D as [|x1 y1 t1 u1 G1 D1]; subst. inversion D1 as [|x2 y2 t2 u2 G2 D2]; subst.
      inversion D2 as [|x3 y3 t3 u3 G3 D3]; subst. inversion D3 as [|x4 y4 t4 u4 G4 D4]; subst.
      inversion D4 as [|x5 y5 t5 u5 G5 D5]; subst. inversion D5 as [|x6 y6 t6 u6 G6 D6]; subst.
      cbn [fst snd] in *. cbn in Hk.
      repeat destruct Hk as [<-|Hk]; try destruct Hk; eapply G; eassumption. }
    split.
    { intros k Hk. cbn in Hk. destruct Hk as [<-|[<-|[<-|[]]]]; (apply sb_ok; [exact N|reflexivity|eexists; eassumption]). }
    intros G v Hv. apply (entry_absent d "psf_type" N eq_refl) in G. rewrite G in E15.
    assert (Hp : exists o, sb (entry d) "psf" = Ok o) by (eexists; exact E15).
    apply (sb_ok d "psf" N eq_refl) in Hp. destruct (Hp v Hv) as (e & ->).
    assert (Hp' : entry d "psf" = Some (VDict e)) by (apply (entry_given d "psf" N eq_refl); exact Hv).
    unfold sb in E15. rewrite Hp' in E15. injection E15 as ->. exists psf. split; [reflexivity|].
    destruct U as [_ U]. destruct (U _ _ Hv) as [Ne _].
    split; apply (sub_ok psf _ Ne); eexists; eassumption.
  - intros (W1 & W2 & W3 & W4 & W5 & W6 & W7). rewrite configure_eq by exact N. unfold conf_of, rest_of.
    apply (with_default d "cutout_types" _ (fun v => exists l, v = VStrs l /\ forall t, In t l -> In t names) N eq_refl
      (ex_intro _ [] (conj eq_refl (fun t (H : In t []) => False_ind _ H)))) in W1.
    destruct W1 as (vt & E1 & l & -> & Hl). apply set_types_iff in Hl as (l' & E2).
    unfold it at 1. rewrite E1. cbn [bind as_strs]. rewrite E2. cbn [bind].
    apply (with_default d "bitmask_allowed" _ (fun v => exists q, number v q) N eq_refl (ex_intro _ _ (N_int 0))) in W2.
    destruct W2 as (vb & E3 & Hb). apply as_int_number in Hb as (ab & E4).
    unfold it at 1. rewrite E3. cbn [bind]. rewrite E4. cbn [bind].
    pose proof (W6 "joblib" (or_intror (or_intror (or_introl eq_refl)))) as J. apply (sb_ok d "joblib" N eq_refl) in J as (dj & ->).
    cbn [bind].
    assert (I : forall k v0, lookup default_config k = Some v0 -> exists v, it (entry d) k = Ok v).
    { intros k v0 Hd. unfold it, entry. rewrite Hd. destruct (lookup d k); eexists; reflexivity. }
    destruct (I "first_image_is_coadd" _ eq_refl) as (v1 & ->). cbn [bind].
    destruct (I "check_in_coadd" _ eq_refl) as (v2 & ->). cbn [bind].
    destruct (I "force_into_coadd_bounds" _ eq_refl) as (v3 & ->). cbn [bind].
    pose proof (fun v => W3 "coadd_bounds_buffer_rowcol" v (or_intror (or_introl eq_refl))) as B.
    apply (with_default d "coadd_bounds_buffer_rowcol" _ (fun v => exists q, number v q) N eq_refl (ex_intro _ _ (N_num _))) in B.
    destruct B as (vr & E5 & q & Hq). apply as_num_number in Hq. unfold it at 1. rewrite E5. cbn [bind]. rewrite Hq. cbn [bind].
    pose proof (fun v => W4 "ncutout_max" v (or_introl eq_refl)) as M. apply (mb_ok d "ncutout_max" N eq_refl) in M as (nm & ->). cbn [bind].
    pose proof (W6 "coadd_astrom" (or_introl eq_refl)) as A1. apply (sb_ok d "coadd_astrom" N eq_refl) in A1 as (ca & ->). cbn [bind].
    pose proof (W6 "se_astrom" (or_intror (or_introl eq_refl))) as A2. apply (sb_ok d "se_astrom" N eq_refl) in A2 as (sa & ->). cbn [bind].
    assert (P : exists p pc ps, (match entry d "psf_type" with Some t => @Ok dict [("type", t)] | None => sb (entry d) "psf" end) = Ok p
       /\ sub p "coadd" = Ok pc /\ sub p "se" = Ok ps).
    { destruct (entry d "psf_type") as [t|] eqn:Et.
      - exists [("type", t)], [], []. repeat split.
      - apply (entry_absent d "psf_type" N eq_refl) in Et. specialize (W7 Et). unfold sb.
        destruct (entry d "psf") as [v|] eqn:Ep.
        + apply (entry_given d "psf" N eq_refl) in Ep. destruct (W7 v Ep) as (e & -> & C1 & C2).
          destruct U as [_ U]. destruct (U _ _ Ep) as [Ne _].
          apply (sub_ok e _ Ne) in C1 as (pc & C1). apply (sub_ok e _ Ne) in C2 as (ps & C2).
          exists e, pc, ps. auto.
        + exists [], [], []. repeat split. }
    destruct P as (p & pc & ps & Ep & Epc & Eps).
    match goal with |- context [bind (match entry d "psf_type" with _ => _ end) ?k] =>
      match goal with |- context [bind ?x k] => replace x with (@Ok dict p) by (symmetry; exact Ep) end end.
    cbn [bind]. rewrite Epc. cbn [bind]. rewrite Eps. cbn [bind].
    pose proof (fun v => W4 "unusable_bmask" v (or_intror (or_introl eq_refl))) as M2. apply (mb_ok d "unusable_bmask" N eq_refl) in M2 as (un & ->). cbn [bind].
    pose proof (fun v => W3 "bounds_buffer_uv" v (or_introl eq_refl)) as B2.
    apply (with_default d "bounds_buffer_uv" _ (fun v => exists q, number v q) N eq_refl (ex_intro _ _ (N_num _))) in B2.
    destruct B2 as (vu & E6 & q2 & Hq2). apply as_num_number in Hq2. unfold it at 1. rewrite E6. cbn [bind]. rewrite Hq2. cbn [bind].
    assert (Dt : forall k s0, lookup default_config k = Some (VStr s0) ->
       existsb (String.eqb k) ["image_dtype"; "weight_dtype"; "seg_dtype"; "bmask_dtype"; "ormask_dtype"; "noise_dtype"] = true ->
       exists s, (let* v := it (entry d) k in as_str v) = Ok s).
    { intros k s0 Hd Hk. apply existsb_exists in Hk as (x & Hx & Ex). apply String.eqb_eq in Ex. subst x.
      pose proof (fun v => W5 k v Hx) as W. apply (with_default d k _ (fun v => exists s, v = VStr s) N Hd (ex_intro _ _ eq_refl)) in W.
      destruct W as (v & Ev & s & ->). exists s. unfold it. rewrite Ev. reflexivity. }
    cbn [map SUPPORTED ctype_name mapM append].
    destruct (Dt "image_dtype" _ eq_refl eq_refl) as (s1 & ->). cbn [bind].
    destruct (Dt "weight_dtype" _ eq_refl eq_refl) as (s2 & ->). cbn [bind].
    destruct (Dt "seg_dtype" _ eq_refl eq_refl) as (s3 & ->). cbn [bind].
    destruct (Dt "bmask_dtype" _ eq_refl eq_refl) as (s4 & ->). cbn [bind].
    destruct (Dt "ormask_dtype" _ eq_refl eq_refl) as (s5 & ->). cbn [bind].
    destruct (Dt "noise_dtype" _ eq_refl eq_refl) as (s6 & ->). cbn [bind].
    eexists; reflexivity.
Qed.

(** From the configuration to the file. *)
Lemma make_iff d njob c rows psf input junk pjunk f : unique d ->
  (make_from_config (Config d) njob c rows psf input junk pjunk = Ok f <->
   exists s, configure (Config d) njob c = Ok s /\
     make_meds (st_conf s) (st_types s) rows psf input junk pjunk = Ok f /\
     (psf <> None -> given d "psf" \/ given d "psf_type") /\
     ~ (given d "min_weight" /\ In "weight" (st_types s) /\ rows <> [])).
Proof.
  intros U. unfold make_from_config, make_meds.
  destruct (configure (Config d) njob c) as [s|e] eqn:E; cbn [bind].
  2:{ split; [intros H; discriminate H|intros (s & H & _); discriminate H]. }
  destruct (output_values d njob c s U E) as (_ & _ & _ & _ & _ & _ & _ & _ & _ & HP & HM).
  assert (HW : existsb (fun t => String.eqb "weight" t) (st_types s) = true <-> In "weight" (st_types s)).
  { rewrite existsb_exists. split.
    - intros (x & Hx & Ex). apply String.eqb_eq in Ex. subst. exact Hx.
    - intros H. exists "weight". split; [exact H|reflexivity]. }
  split.
  - intros H. apply bind_ok in H as (m & E1 & H). apply bind_ok in H as (u & E2 & H).
    apply bind_ok in H as (mf & E3 & H). exists s. split; [reflexivity|]. rewrite E1. cbn [bind]. rewrite E3. cbn [bind].
    destruct (st_min_weight s && existsb _ _ && _)%bool eqn:B; [discriminate H|].
    split; [exact H|]. split.
    + intros Hp. destruct psf; [|congruence]. destruct (st_psf s); [apply HP; reflexivity|discriminate E2].
    + intros (G1 & G2 & G3). apply HM in G1. apply HW in G2. rewrite G1, G2 in B. destruct rows; [congruence|discriminate B].
  - intros (s' & Es & H & Hp & Hm). injection Es as <-. apply bind_ok in H as (m & E1 & H). apply bind_ok in H as (mf & E3 & H).
    rewrite E1. cbn [bind].
    assert ((match psf with Some _ => if st_psf s then Ok tt else Err AssertionError | None => Ok tt end) = Ok tt) as ->.
    { destruct psf; [|reflexivity]. assert (st_psf s = true) as ->; [|reflexivity]. apply HP, Hp. discriminate. }
    cbn [bind]. rewrite E3. cbn [bind].
    destruct (st_min_weight s && existsb _ _ && _)%bool eqn:B; [|exact H].
    exfalso. apply Hm. apply andb_prop in B as [B B3]. apply andb_prop in B as [B1 B2].
    split; [apply HM, B1|]. split; [apply HW, B2|]. intros ->. discriminate B3.
Qed.
