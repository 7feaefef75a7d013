(** Nearest-object weights of typed arrays. *)
From Coq Require Import Lia ZifyBool ZifyNat Lqa Permutation Qabs.
From Verif Require AgainLemmas3.
From Verif Require Import Base BaseLemmas Img ImgLemmas Types Reader BoundsM MakerLayout Composite Fast3tree Uberseg Single UbersegFl
  SpecFile SpecComposite SpecUberseg ReadLemmas CompositeLemmas CompositeLemmas2 UbersegLemmas UbersegLemmas2 UbersegFlLemmas UbersegFlLemmas2
  Typed SpecTyped TypedLemmas TypedLemmas8 UbersegTy SpecUbersegTy.
Open Scope Z_scope.

Lemma two_pixels seg r0 c0 v0 : img_ok seg -> ~ two_values seg -> nonsky seg r0 c0 v0 ->
  (forall r c v, px seg r c = Some v -> ~ (v == 0)%Q) \/
  (exists r1 c1 v1 r2 c2 v2, nonsky seg r1 c1 v1 /\ nonsky seg r2 c2 v2 /\ (r1, c1) <> (r2, c2)).
Proof.
  intros S1 H H0.
  destruct (obj_inds seg) as [|p0 [|p1 l]] eqn:E.
  - exfalso. assert (I : In (r0, c0) (obj_inds seg)) by (apply obj_inds_In; [exact S1|exists v0; exact H0]). rewrite E in I. destruct I.
  - destruct p0 as [r1 c1]. assert (HO : forall r c v, nonsky seg r c v -> (r, c) = (r1, c1)).
    { intros r c v Hv. assert (I : In (r, c) (obj_inds seg)) by (apply obj_inds_In; [exact S1|exists v; exact Hv]).
      rewrite E in I. destruct I as [I|[]]. symmetry; exact I. }
    left. intros r c v Hv C. apply H. exists 0%Q, v0. destruct H0 as (H0 & H0').
    split; [intros D; apply H0'; symmetry; exact D|]. split; [exists r, c, v; split; assumption|].
    split; [exists r0, c0, v0; split; [exact H0|reflexivity]|]. intros r2 c2 v2 Hv2.
    destruct (Qeq_dec v2 0) as [D|D]; [left; exact D|]. right.
    pose proof (HO r2 c2 v2 (conj Hv2 D)) as E2. pose proof (HO r0 c0 v0 (conj H0 H0')) as E3.
    inversion E2; subst. inversion E3; subst. rewrite Hv2 in H0. inversion H0. reflexivity.
  - right. destruct p0 as [r1 c1], p1 as [r2 c2].
    assert (I1 : In (r1, c1) (obj_inds seg)) by (rewrite E; left; reflexivity).
    assert (I2 : In (r2, c2) (obj_inds seg)) by (rewrite E; right; left; reflexivity).
    apply obj_inds_In in I1; [|exact S1]. apply obj_inds_In in I2; [|exact S1]. destruct I1 as (v1 & I1), I2 as (v2 & I2).
    exists r1, c1, v1, r2, c2, v2. split; [exact I1|]. split; [exact I2|].
    pose proof (obj_inds_sorted seg [] (r1, c1) ((r2, c2) :: l) S1 E (r2, c2) (or_introl eq_refl)) as B.
    unfold before in B; cbn in B. intros C; inversion C; lia.
Qed.

(** * The seg map as numbers *)
Lemma num_eqb_value x y p q : value x p -> value y q -> num_eqb x y = Qeq_bool p q.
Proof.
  intros Hx Hy. apply eq_true_iff_eq. rewrite Qeq_bool_iff.
  destruct x as [a|[a| |]], y as [b|[b| |]]; cbn in Hx, Hy; try contradiction; cbn [num_eqb]; rewrite ?Qeq_bool_iff, Hx, Hy.
  - unfold Qeq; cbn. lia.
  - reflexivity.
  - split; intros H; symmetry; exact H.
  - reflexivity.
Qed.

Lemma nuniq_value l l' : Forall2 value l l' -> zlen (nuniq l) = zlen (quniq l').
Proof.
  intros F. assert (X : forall x q, value x q -> forall m m', Forall2 value m m' -> existsb (num_eqb x) m = existsb (Qeq_bool q) m').
  { intros x q V m m' G. induction G as [|y p m m' W G IH]; cbn [existsb]; [reflexivity|]. rewrite IH, (num_eqb_value x y q p V W). reflexivity. }
  induction F as [|x q l l' V F IH]; cbn [nuniq quniq]; [reflexivity|]. rewrite (X x q V l l' F).
  destruct (existsb (Qeq_bool q) l'); [exact IH|]. rewrite !zlen_cons, IH. reflexivity.
Qed.

Section Values.
  Context (a : img num) (seg : img Q) (HV : seg_values a seg).

  Lemma sv_ok : img_ok a.
  Proof using HV.
    destruct HV as ((S1 & S2 & S3) & E1 & E2 & F). assert (L : length (dat a) = length (dat seg)) by (clear -F; induction F; cbn; congruence).
    unfold img_ok, zlen in *. rewrite <- E1, <- E2, L. auto.
  Qed.
  Lemma sv_px r c x : px a r c = Some x -> exists q, px seg r c = Some q /\ value x q.
  Proof using HV.
    destruct HV as (_ & E1 & E2 & F). unfold px. rewrite E1, E2. destruct (_ && _); [|discriminate].
    intros H. eapply AgainLemmas3.Forall2_zget_l in F; [|exact H]. exact F.
  Qed.
  Lemma sv_px_inv r c q : px seg r c = Some q -> exists x, px a r c = Some x /\ value x q.
  Proof using HV.
    intros H. destruct (px_Some_range _ _ _ _ H) as (R & C). pose proof HV as (_ & E1 & E2 & _).
    destruct (px_in a r c sv_ok) as (x & Hx); [lia|lia|]. destruct (sv_px r c x Hx) as (q' & Hq & V). exists x. split; [exact Hx|].
    rewrite H in Hq. inversion Hq; subst. exact V.
  Qed.
  Lemma sv_inds : obj_inds_t a = obj_inds seg.
  Proof using HV.
    unfold obj_inds_t, obj_inds. pose proof HV as (_ & E1 & E2 & _). rewrite E1, E2. apply filter_ext_in. intros (r, c) _. cbn [fst snd].
    destruct (px seg r c) as [q|] eqn:E.
    - destruct (sv_px_inv r c q E) as (x & -> & V). rewrite (num_eqb_value x (NI 0) q 0 V); [reflexivity|]. reflexivity.
    - destruct (px a r c) as [x|] eqn:E'; [|reflexivity]. destruct (sv_px r c x E') as (q & H & _). congruence.
  Qed.
  Lemma sv_uniq : zlen (nuniq (dat a)) =? 2 = (zlen (quniq (dat seg)) =? 2).
  Proof using HV. destruct HV as (_ & _ & _ & F). rewrite (nuniq_value _ _ F). reflexivity. Qed.
  Lemma sv_ints ub : c_ints seg -> imap (to_int ub true 32) a = imap qtrunc seg.
  Proof using HV.
    intros HI. pose proof sv_ok as OA. pose proof HV as (S & E1 & E2 & _). apply img_ext; [apply imap_ok; exact OA|apply imap_ok; exact S|cbn; lia|cbn; lia|].
    intros r c R C. cbn [nr nc imap] in R, C. rewrite !px_imap. destruct (px_in a r c OA) as (x & Hx); [lia|lia|]. destruct (sv_px r c x Hx) as (q & Hq & V).
    rewrite Hx, Hq. cbn [option_map]. f_equal. destruct (HI r c q Hq) as (z & Ez & Bz).
    rewrite (qtrunc_int q z Ez). destruct x as [b|[b| |]]; cbn in V; try contradiction; cbn [to_int].
    - rewrite V in Ez. assert (b = z) by (unfold Qeq in Ez; cbn in Ez; lia). subst b. apply wrap_exact; [lia|]. unfold is_int. lia.
    - rewrite V in Ez. rewrite (qtrunc_int b z Ez). replace (fits true 32 z) with true; [reflexivity|]. unfold fits. lia.
  Qed.
End Values.

(** * The C code on any weights *)
Definition unit_img (h w : Z) : img Q := tab2 h w (fun _ _ => 1%Q).

Lemma tree_t_mask fuel seg weight n inds m : img_ok weight -> 0 <= nr seg -> 0 <= nc seg -> nr weight = nr seg -> nc weight = nc seg ->
  uberseg_tree_f fuel seg (unit_img (nr seg) (nc seg)) n inds = Ok m ->
  exists r, uberseg_tree_t fuel seg weight n inds = Ok r /\ img_ok r /\ nr r = nr seg /\ nc r = nc seg /\
    forall i j x, px weight i j = Some x -> exists q, px m i j = Some q /\ px r i j = Some (if Qeq_bool q 1 then x else Fin 0).
Proof.
  intros HW H1 H2 E1 E2 H. unfold uberseg_tree_f in H. unfold uberseg_tree_t.
  destruct (tree_points_f seg inds) as [pts|e]; cbn [bind] in *; [|discriminate].
  destruct (fast3tree_build_f pts) as [t|e]; cbn [bind] in *; [|discriminate]. cbv zeta in *.
  match type of H with tab2M _ _ ?f = _ => set (F := f) in * end.
  match goal with |- context [tab2M _ _ ?g] => set (G := g) end.
  assert (B : forall i j x q, 0 <= i < nr seg -> 0 <= j < nc seg -> px weight i j = Some x -> F i j = Ok q ->
    G i j = Ok (if Qeq_bool q 1 then x else Fin 0)).
  { intros i j x q Hi Hj Hx. unfold F, G. unfold px_res at 2 4. rewrite Hx. unfold unit_img. rewrite px_tab2.
    replace ((0 <=? i) && (i <? nr seg) && (0 <=? j) && (j <? nc seg)) with true by lia.
    destruct (px_res seg i j) as [s|e]; cbn [bind]; [|discriminate].
    destruct (s =? n); [intros K; inversion K; subst; reflexivity|]. cbn [negb]. rewrite andb_true_r.
    destruct (0 <? s); [intros K; inversion K; subst; reflexivity|].
    destruct (nearest_seg_f fuel t (maxr_f (nr seg) (nc seg)) i j) as [v|e]; cbn [bind]; [|discriminate].
    destruct (v =? -1); [intros K; inversion K; subst; reflexivity|]. destruct (v =? n); cbn [negb]; intros K; inversion K; subst; reflexivity. }
  apply tab2M_ok in H; [|assumption..]. destruct H as (M1 & M2 & M3 & M4).
  destruct (tab2M_exists (nr seg) (nc seg) G H1 H2) as (r & Er).
  { intros i j Hi Hj. destruct (M4 i j Hi Hj) as (q & Fq & _). destruct (px_in weight i j HW) as (x & Hx); [lia|lia|].
    eexists. eapply B; eassumption. }
  exists r. split; [exact Er|]. apply tab2M_ok in Er; [|assumption..]. destruct Er as (R1 & R2 & R3 & R4).
  split; [exact R1|]. split; [exact R2|]. split; [exact R3|]. intros i j x Hx. destruct (px_Some_range _ _ _ _ Hx) as (Ri & Rj).
  destruct (M4 i j ltac:(lia) ltac:(lia)) as (q & Fq & Mq). exists q. split; [exact Mq|].
  destruct (R4 i j ltac:(lia) ltac:(lia)) as (y & Gy & Ry). rewrite (B i j x q ltac:(lia) ltac:(lia) Hx Fq) in Gy. inversion Gy; subst y. exact Ry.
Qed.

(** * Both implementations *)
Section Both.
  Context (ub : fl -> Z) (wt seg : arr) (sq : img Q) (n : Z)
    (HW : img_ok (a_im wt)) (HV : seg_values (a_im seg) sq) (H1 : nr (a_im wt) = nr sq) (H2 : nc (a_im wt) = nc sq)
    (SM : small (nr sq) (nc sq)) (HI : c_ints sq) (Hn : is_int true 32 n) (N0 : n <> 0).

  Lemma typed_two fuel num fast : two_values sq -> uberseg_typed ub fuel wt seg num fast = Ok wt.
  Proof using HV.
    intros T. unfold uberseg_typed. rewrite (sv_uniq _ _ HV). apply two_values_count in T; [|apply HV]. rewrite T. reflexivity.
  Qed.

  Lemma typed_slow r0 c0 v0 : ~ two_values sq -> nonsky sq r0 c0 v0 -> exists rs,
    (forall fuel, uberseg_typed ub fuel wt seg (NI n) false = Ok rs) /\ a_kind rs = a_kind wt /\
    img_ok (a_im rs) /\ nr (a_im rs) = nr (a_im wt) /\ nc (a_im rs) = nc (a_im wt) /\
    forall r c x, px (a_im wt) r c = Some x -> exists r' c' v, first_nearest sq r c r' c' v /\
      px (a_im rs) r c = Some (if Qeq_bool v (inject_Z n) then x else zero_of (a_kind wt)).
  Proof using HW HV H1 H2.
    intros T NS. pose proof HV as (Hs & E1 & E2 & _). destruct (nonsky_inds _ _ _ _ Hs NS) as (p0 & ps & EI).
    assert (HB : forall r c x, px (a_im wt) r c = Some x -> exists r' c' v, first_nearest sq r c r' c' v /\
      (let* p := argmin (idist2 r c) (obj_inds sq) in
       let* segval := px_res (a_im seg) (fst p) (snd p) in
       let* w := px_res (a_im wt) r c in
       Ok (if negb (num_eqb segval (NI n)) then zero_of (a_kind wt) else w)) = Ok (if Qeq_bool v (inject_Z n) then x else zero_of (a_kind wt))).
    { intros r c x Hx. destruct (argmin_nearest sq r c p0 ps Hs EI) as (v & Hv).
      exists (fst (argmin_from (idist2 r c) p0 ps)), (snd (argmin_from (idist2 r c) p0 ps)), v. split; [exact Hv|].
      rewrite EI. cbn [argmin bind]. destruct Hv as (((Hv & _) & _) & _). destruct (sv_px_inv _ _ HV _ _ _ Hv) as (y & Hy & V).
      unfold px_res. rewrite Hy, Hx. cbn [bind]. rewrite (num_eqb_value y (NI n) v (inject_Z n) V); [|reflexivity].
      destruct (Qeq_bool v (inject_Z n)); reflexivity. }
    destruct Hs as (S1 & S2 & S3). 
    assert (X : exists im, uberseg_slow_t (a_im seg) wt (NI n) (obj_inds sq) = Ok im).
    { unfold uberseg_slow_t. apply tab2M_exists; [lia|lia|]. intros r c R C. destruct (px_in (a_im wt) r c HW) as (x & Hx); [lia|lia|].
      destruct (HB r c x Hx) as (r' & c' & v & _ & E). rewrite E. eexists; reflexivity. }
    destruct X as (im & E). exists (mkArr (a_kind wt) im). split; [|split; [reflexivity|]].
    { intros fuel. unfold uberseg_typed. rewrite (sv_uniq _ _ HV).
      destruct (zlen (quniq (dat sq)) =? 2) eqn:EQ; [exfalso; apply T; apply two_values_count; [apply HV|exact EQ]|].
      cbv zeta. rewrite (sv_inds _ _ HV), E. reflexivity. }
    unfold uberseg_slow_t in E. apply tab2M_ok in E; [|lia|lia]. destruct E as (O1 & O2 & O3 & O4). cbn [a_im].
    split; [exact O1|]. split; [lia|]. split; [lia|]. intros r c x Hx. destruct (px_Some_range _ _ _ _ Hx) as (R & C).
    destruct (HB r c x Hx) as (r' & c' & v & F & E). exists r', c', v. split; [exact F|].
    destruct (O4 r c ltac:(lia) ltac:(lia)) as (y & Gy & Py). rewrite E in Gy. inversion Gy; subst y. exact Py.
  Qed.

  Lemma typed_fast r0 c0 v0 : ~ two_values sq -> nonsky sq r0 c0 v0 -> exists N rf,
    (forall fuel, (N <= fuel)%nat -> uberseg_typed ub fuel wt seg (NI n) true = Ok rf) /\ a_kind rf = KF false /\
    img_ok (a_im rf) /\ nr (a_im rf) = nr (a_im wt) /\ nc (a_im rf) = nc (a_im wt) /\
    forall r c x, px (a_im wt) r c = Some x -> exists r' c' v, nearest sq r c r' c' v /\
      px (a_im rf) r c = Some (NF (if Qeq_bool v (inject_Z n) then to_fl false x else Fin 0)).
  Proof using HW HV H1 H2 SM HI Hn N0.
    intros T NS. pose proof HV as (Hs & E1 & E2 & _). pose proof Hs as (S1 & S2 & S3).
    destruct (tree_f_ok sq (unit_img (nr sq) (nc sq)) n) as (N & m & HM & PM).
    { exact SM. } { exact Hs. } { apply tab2_ok; assumption. } { split; reflexivity. }
    { intros r c v Hv. destruct (HI r c v Hv) as (z & Ez & _). exists z. exact Ez. }
    { intros r c v Hv. destruct (HI r c v Hv) as (z & Ez & Bz). rewrite Ez. change 0%Q with (inject_Z 0). rewrite <- Zle_Qle. lia. }
    { exact N0. } { eapply two_pixels; eassumption. }
    assert (HR : forall fuel, (N <= fuel)%nat -> exists r, uberseg_tree_t fuel (imap qtrunc sq) (imap (to_fl false) (a_im wt)) n (obj_inds sq) = Ok r /\
      img_ok r /\ nr r = nr sq /\ nc r = nc sq /\
      forall i j x, px (a_im wt) i j = Some x -> exists q, px m i j = Some q /\ px r i j = Some (if Qeq_bool q 1 then to_fl false x else Fin 0)).
    { intros fuel Hf. destruct (tree_t_mask fuel (imap qtrunc sq) (imap (to_fl false) (a_im wt)) n (obj_inds sq) m) as (r & Er & O1 & O2 & O3 & O4).
      { apply imap_ok; exact HW. } { exact S1. } { exact S2. } { exact H1. } { exact H2. } { apply HM. exact Hf. }
      exists r. split; [exact Er|]. split; [exact O1|]. split; [exact O2|]. split; [exact O3|]. intros i j x Hx. apply O4. rewrite px_imap, Hx. reflexivity. }
    destruct (HR N (Nat.le_refl _)) as (r & Er & O1 & O2 & O3 & O4). exists N, (mkArr (KF false) (imap NF r)).
    split; [|split; [reflexivity|]].
    { intros fuel Hf. destruct (HR fuel Hf) as (r' & Er' & P1 & P2 & P3 & P4).
      unfold uberseg_typed. rewrite (sv_uniq _ _ HV).
      destruct (zlen (quniq (dat sq)) =? 2) eqn:EQ; [exfalso; apply T; apply two_values_count; [apply HV|exact EQ]|].
      cbv zeta. rewrite (sv_inds _ _ HV), (sv_ints _ _ HV ub HI). unfold c_int. rewrite (proj2 (fits_is true 32 n) Hn). cbn [bind].
      rewrite Er'. cbn [bind]. do 3 f_equal. apply img_ext; [exact P1|exact O1|lia|lia|]. intros i j Ri Rj.
      destruct (px_in (a_im wt) i j HW) as (x & Hx); [lia|lia|].
      destruct (O4 i j x Hx) as (q & Q1 & ->). destruct (P4 i j x Hx) as (q' & Q2 & ->). rewrite Q1 in Q2. inversion Q2. reflexivity. }
    cbn [a_im]. split; [apply imap_ok; exact O1|]. split; [cbn; lia|]. split; [cbn; lia|]. intros i j x Hx.
    destruct (px_Some_range _ _ _ _ Hx) as (Ri & Rj). destruct (O4 i j x Hx) as (q & Q1 & Q2).
    destruct PM as (PM1 & PM2 & PM3 & PM4). 
    assert (HU : px (unit_img (nr sq) (nc sq)) i j = Some 1%Q).
    { unfold unit_img. rewrite px_tab2. replace ((0 <=? i) && (i <? nr sq) && (0 <=? j) && (j <? nc sq)) with true by lia. reflexivity. }
    destruct (PM4 i j 1%Q q HU Q1) as (r' & c' & v & NE & K1 & K2). exists r', c', v. split; [exact NE|].
    rewrite px_imap, Q2. cbn [option_map]. do 2 f_equal. destruct (Qeq_bool v (inject_Z n)) eqn:EV.
    - apply Qeq_bool_iff in EV. rewrite (K1 EV). reflexivity.
    - apply Qeq_bool_false in EV. rewrite (K2 EV). reflexivity.
  Qed.

  (** Without ties the pixel of the fast code is that of the Python code, made a f4. *)
  Lemma typed_rounded r0 c0 v0 : ~ two_values sq -> nonsky sq r0 c0 v0 -> exists N rf rs,
    (forall fuel, (N <= fuel)%nat -> uberseg_typed ub fuel wt seg (NI n) true = Ok rf) /\
    (forall fuel, uberseg_typed ub fuel wt seg (NI n) false = Ok rs) /\
    a_kind rf = KF false /\ a_kind rs = a_kind wt /\
    nr (a_im rf) = nr (a_im wt) /\ nc (a_im rf) = nc (a_im wt) /\ nr (a_im rs) = nr (a_im wt) /\ nc (a_im rs) = nc (a_im wt) /\
    forall r c, 0 <= r < nr (a_im wt) -> 0 <= c < nc (a_im wt) -> no_tie sq r c -> exists x, px (a_im rs) r c = Some x /\ px (a_im rf) r c = Some (NF (to_fl false x)) /\
      (px (a_im wt) r c = Some x \/ x = zero_of (a_kind wt)).
  Proof using HW HV H1 H2 SM HI Hn N0.
    intros T NS. destruct (typed_slow r0 c0 v0 T NS) as (rs & A1 & A2 & A3 & A4 & A5 & A6).
    destruct (typed_fast r0 c0 v0 T NS) as (N & rf & B1 & B2 & B3 & B4 & B5 & B6).
    exists N, rf, rs. repeat (split; [assumption|]). intros r c R C NT. destruct (px_in (a_im wt) r c HW R C) as (x & Hx).
    destruct (A6 r c x Hx) as (r1 & c1 & v1 & (F1 & _) & P1). destruct (B6 r c x Hx) as (r2 & c2 & v2 & F2 & P2).
    pose proof (NT _ _ _ _ _ _ F1 F2) as EV. rewrite P1, P2.
    assert (EB : Qeq_bool v2 (inject_Z n) = Qeq_bool v1 (inject_Z n)) by (apply eq_true_iff_eq; rewrite !Qeq_bool_iff, EV; reflexivity). rewrite EB.
    eexists. split; [reflexivity|]. destruct (Qeq_bool v1 (inject_Z n)).
    - split; [reflexivity|]. left; exact Hx.
    - split; [|right; reflexivity]. destruct (a_kind wt); reflexivity.
  Qed.

  Lemma same_f4 x : f4_num x -> same_num x (NF (to_fl false x)).
  Proof using.
    destruct x as [z|[q| |]]; cbn [f4_num to_fl fcast].
    - intros F. destruct (fround_exact false _ F) as (v & -> & E). exists v. split; cbn; [exact E|reflexivity].
    - intros F. destruct (fround_exact false _ F) as (v & -> & E). exists v. split; cbn; [exact E|reflexivity].
    - reflexivity.
    - intros; exact I.
  Qed.
  Lemma zero_f4 k : f4_num (zero_of k).
  Proof using. destruct k; cbn; exists 0, 0; split; try reflexivity; cbn; repeat split; lia || reflexivity. Qed.
  Lemma same_refl x : same_num x x.
  Proof using. destruct x as [z|[q| |]]; cbn; try reflexivity; try exact I; [exists (inject_Z z)|exists q]; split; reflexivity. Qed.

  Lemma typed_same r0 c0 v0 : nonsky sq r0 c0 v0 -> (forall r c x, px (a_im wt) r c = Some x -> f4_num x) -> exists N rf rs,
    (forall fuel, (N <= fuel)%nat -> uberseg_typed ub fuel wt seg (NI n) true = Ok rf) /\
    (forall fuel, uberseg_typed ub fuel wt seg (NI n) false = Ok rs) /\
    forall r c, 0 <= r < nr (a_im wt) -> 0 <= c < nc (a_im wt) -> no_tie sq r c ->
      exists x y, px (a_im rs) r c = Some x /\ px (a_im rf) r c = Some y /\ same_num x y.
  Proof using HW HV H1 H2 SM HI Hn N0.
    intros NS HF. destruct (zlen (quniq (dat sq)) =? 2) eqn:EQ.
    - apply two_values_count in EQ; [|apply HV]. exists O, wt, wt. split; [intros; apply typed_two; exact EQ|]. split; [intros; apply typed_two; exact EQ|].
      intros r c R C _. destruct (px_in (a_im wt) r c HW R C) as (x & Hx). exists x, x. split; [exact Hx|]. split; [exact Hx|apply same_refl].
    - assert (T : ~ two_values sq) by (intros T; apply two_values_count in T; [congruence|apply HV]).
      destruct (typed_rounded r0 c0 v0 T NS) as (N & rf & rs & A1 & A2 & _ & _ & _ & _ & _ & _ & A3). exists N, rf, rs. split; [exact A1|]. split; [exact A2|].
      intros r c R C NT. destruct (A3 r c R C NT) as (x & X1 & X2 & X3). exists x, (NF (to_fl false x)). split; [exact X1|]. split; [exact X2|].
      apply same_f4. destruct X3 as [X3|X3]; [eapply HF; exact X3|subst; apply zero_f4].
  Qed.
End Both.

Lemma typed_two_values ub wt seg sq : seg_values (a_im seg) sq -> two_values sq ->
  forall fuel num fast, uberseg_typed ub fuel wt seg num fast = Ok wt.
Proof. intros. eapply typed_two; eassumption. Qed.
