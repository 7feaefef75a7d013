(** What reading PSFs of type f4 returns. *)
From Coq Require Import Lia ZifyBool ZifyNat String Qpower Qabs.
From Verif Require Import Base BaseLemmas Img ImgLemmas Types BoundsM Reader ReadLemmas MakerLayout MakerWrite MakerFile SpecTiles SpecLayout SpecFile StartLemmas StampLemmas LayoutLemmas BuildLemmas
  WriteLemmas FileLemmas PsfLemmas MakerLemmas2 MakerLemmas3 Single SingleLemmas CompositeLemmas Typed SpecTyped TypedLemmas FlMonoLemmas CoaddFlLemmas2 CoaddLemmas8 PsfTy SpecPsfTy PsfTyLemmas PsfTyLemmas2.
From Coq Require Import Lqa.
Open Scope Z_scope.

Lemma storable_kept a x : arr_ok a -> storable a -> In x (dat (a_im a)) -> kept x (to_fl false x).
Proof.
  intros (_ & N & K) S Hx. destruct (S x Hx) as (v & E). rewrite <- (store_value _ _ _ E).
  eapply store_kept; [|rewrite Forall_forall in N; apply N; exact Hx|exact E]. exact K.
Qed.

Lemma rendered_ok k psfs o s a : psfs_ok psfs -> rendered_for k psfs o s a -> arr_ok a.
Proof. intros H (p & Hp & ->). apply H. eapply zget_In; exact Hp. Qed.
Lemma rendered_det k psfs o s a b : rendered_for k psfs o s a -> rendered_for k psfs o s b -> a = b.
Proof. intros (p & Hp & ->) (p' & Hp' & ->). congruence. Qed.

Theorem typed_nearest k types rows psfs input junk pjunk f : psfs_ok psfs ->
  make_psf_typed k types rows psfs input junk pjunk = Ok f ->
  forall iobj icut o s, cutout_at (pf_meds f) iobj icut o s ->
  exists a, rendered_for k psfs o s a /\ s_psf_nr s = nr (a_im a) /\ s_psf_nc s = nc (a_im a) /\
    (0 < nr (a_im a) * nc (a_im a) ->
     exists im, get_psf_typed f iobj icut = Ok im /\ nr im = nr (a_im a) /\ nc im = nc (a_im a) /\
       forall r c x, px (a_im a) r c = Some x -> exists v, px im r c = Some v /\ kept x v).
Proof.
  intros Hok H iobj icut o s Hc. destruct (typed_cutout _ _ _ _ _ _ _ _ Hok H) as (_ & C).
  destruct (C _ _ _ _ Hc) as (a & Ra & R & Cc & S & G). exists a. split; [exact Ra|]. split; [exact R|]. split; [exact Cc|].
  intros P. eexists. split; [apply G; exact P|]. split; [reflexivity|]. split; [reflexivity|]. intros r c x Hx.
  rewrite px_imap, Hx. eexists. split; [reflexivity|]. apply (storable_kept a); [eapply rendered_ok; eassumption|exact S|eapply px_In_dat; exact Hx].
Qed.

Lemma kept_value x v q : kept x v -> value x q -> exists y, v = Fin y /\ is_float false y /\
  (forall z, is_float false z -> (Qabs (y - q) <= Qabs (z - q))%Q) /\ (Qabs (y - q) <= two (-24) * Qabs q + two (-150))%Q.
Proof.
  intros K V. assert (G : exists q y, value x q /\ v = Fin y /\ is_float false y /\
      (forall z, is_float false z -> (Qabs (y - q) <= Qabs (z - q))%Q) /\ (Qabs (y - q) <= two (-24) * Qabs q + two (-150))%Q).
  { destruct x as [z|[r|g|]]; [exact K|exact K|contradiction V|contradiction V]. }
  destruct G as (q' & y & V' & -> & F & Nn & E). assert (Q : (q' == q)%Q).
  { destruct x as [z|[r|g|]]; cbn in V, V'; [| |contradiction|contradiction]; rewrite V, V'; reflexivity. }
  exists y. split; [reflexivity|]. split; [exact F|]. split.
  - intros z Z. pose proof (Nn z Z) as B. rewrite Q in B. exact B.
  - rewrite Q in E. exact E.
Qed.

Theorem typed_exact_pixels x v q : kept x v -> value x q -> is_float false q -> exists y, v = Fin y /\ (y == q)%Q.
Proof.
  intros K V F. destruct (kept_value _ _ _ K V) as (y & -> & _ & Nn & _). exists y. split; [reflexivity|].
  pose proof (Nn q F) as B. setoid_replace (q - q)%Q with 0%Q in B by ring. change (Qabs 0) with 0%Q in B.
  destruct (LayoutFlLemmas.Qabs_cases (y - q)) as [(C & E)|(C & E)]; rewrite E in B; lra.
Qed.

Lemma sum_err xs : forall qs, Forall2 value xs qs -> (forall x, In x xs -> kept x (to_fl false x)) ->
  exists ys, map (to_fl false) xs = map Fin ys /\
    (Qabs (qsum ys - qsum qs) <= two (-24) * qasum qs + inject_Z (zlen xs) * two (-150))%Q.
Proof.
  induction xs as [|x xs IH]; intros qs V K; inversion V; subst.
  - exists []. split; [reflexivity|]. vm_compute. discriminate.
  - rename y into q. rename l' into qs. destruct (IH qs) as (ys & E & B); [assumption|intros; apply K; right; assumption|].
    destruct (kept_value _ _ _ (K x (or_introl eq_refl)) H1) as (y & Ey & _ & _ & By). exists (y :: ys). split.
    + cbn [map]. rewrite Ey, E. reflexivity.
    + cbn [qsum qasum fold_right]. fold (qsum ys) (qsum qs) (qasum qs).
      setoid_replace (y + qsum ys - (q + qsum qs))%Q with ((y - q) + (qsum ys - qsum qs))%Q by ring.
      eapply Qle_trans; [apply Qabs_triangle|].
      assert (Zl : (inject_Z (zlen (x :: xs)) == 1 + inject_Z (zlen xs))%Q).
      { unfold zlen. cbn [length]. rewrite Nat2Z.inj_succ, <- Z.add_1_l, inject_Z_plus. reflexivity. }
      rewrite Zl. set (t24 := two (-24)) in *. set (t150 := two (-150)) in *. clearbody t24 t150.
      set (A := Qabs q) in *. set (B' := qasum qs) in *. clearbody A B'. set (Z := inject_Z (zlen xs)) in *. clearbody Z.
      set (U := Qabs (y - q)) in *. set (W := Qabs (qsum ys - qsum qs)) in *. clearbody U W. lra.
Qed.

Theorem typed_sum k types rows psfs input junk pjunk f : psfs_ok psfs ->
  make_psf_typed k types rows psfs input junk pjunk = Ok f ->
  forall iobj icut o s a qs, cutout_at (pf_meds f) iobj icut o s -> rendered_for k psfs o s a ->
  0 < nr (a_im a) * nc (a_im a) -> Forall2 value (dat (a_im a)) qs ->
  exists im ys, get_psf_typed f iobj icut = Ok im /\ dat im = map Fin ys /\
    (Qabs (qsum ys - qsum qs) <= Qpower (2#1) (-24) * qasum qs + inject_Z (nr (a_im a) * nc (a_im a)) * Qpower (2#1) (-150))%Q.
Proof.
  intros Hok H iobj icut o s a qs Hc Ra P V. destruct (typed_cutout _ _ _ _ _ _ _ _ Hok H) as (_ & C).
  destruct (C _ _ _ _ Hc) as (a' & Ra' & _ & _ & S & G). pose proof (rendered_det _ _ _ _ _ _ Ra Ra') as <-.
  pose proof (rendered_ok _ _ _ _ _ Hok Ra) as Oa. destruct (sum_err (dat (a_im a)) qs V) as (ys & E & B).
  { intros x Hx. apply (storable_kept a); assumption. }
  exists (imap (to_fl false) (a_im a)), ys. split; [apply G; exact P|]. split; [exact E|].
  destruct Oa as ((_ & _ & L) & _). rewrite L in B. exact B.
Qed.

Theorem typed_order k types rows psfs input junk pjunk f : psfs_ok psfs ->
  make_psf_typed k types rows psfs input junk pjunk = Ok f ->
  forall iobj icut o s a im r1 c1 r2 c2 x1 x2 q1 q2, cutout_at (pf_meds f) iobj icut o s -> rendered_for k psfs o s a ->
  get_psf_typed f iobj icut = Ok im ->
  px (a_im a) r1 c1 = Some x1 -> px (a_im a) r2 c2 = Some x2 -> value x1 q1 -> value x2 q2 -> (q1 <= q2)%Q ->
  exists y1 y2, px im r1 c1 = Some (Fin y1) /\ px im r2 c2 = Some (Fin y2) /\ (y1 <= y2)%Q.
Proof.
  intros Hok H iobj icut o s a im r1 c1 r2 c2 x1 x2 q1 q2 Hc Ra E P1 P2 V1 V2 L.
  destruct (typed_cutout _ _ _ _ _ _ _ _ Hok H) as (_ & C).
  destruct (C _ _ _ _ Hc) as (a' & Ra' & _ & _ & S & G). pose proof (rendered_det _ _ _ _ _ _ Ra Ra') as <-.
  pose proof (rendered_ok _ _ _ _ _ Hok Ra) as Oa.
  assert (Pos : 0 < nr (a_im a) * nc (a_im a)).
  { unfold px in P1. destruct (_ && _) eqn:B in P1; [|discriminate]. nia. }
  rewrite (G Pos) in E. injection E as <-. rewrite !px_imap, P1, P2. cbn [option_map].
  pose proof (storable_kept a x1 Oa S (px_In_dat _ _ _ _ P1)) as K1. pose proof (storable_kept a x2 Oa S (px_In_dat _ _ _ _ P2)) as K2.
  destruct (kept_value _ _ _ K1 V1) as (y1 & E1 & _). destruct (kept_value _ _ _ K2 V2) as (y2 & E2 & _). rewrite E1, E2.
  exists y1, y2. split; [reflexivity|]. split; [reflexivity|].
  assert (W : forall x q y, value x q -> to_fl false x = Fin y -> exists q', (q' == q)%Q /\ fround false q' = Fin y).
  { intros x q y V T. destruct x as [z|[w|g|]]; cbn in V, T; try contradiction; [exists (inject_Z z)|exists w]; (split; [symmetry; exact V|exact T]). }
  destruct (W _ _ _ V1 E1) as (w1 & W1 & F1). destruct (W _ _ _ V2 E2) as (w2 & W2 & F2).
  eapply (fround_mono false w1 w2); [exact F1|exact F2|]. lra.
Qed.

Theorem typed_fails k types rows psfs input junk pjunk qjunk f' :
  make_meds (with_joblib k false 1) types rows (Some (map shape_of psfs)) input junk qjunk = Ok f' ->
  ((forall iobj icut o s a x, cutout_at f' iobj icut o s -> rendered_for k psfs o s a -> In x (dat (a_im a)) -> ~ too_large a x) ->
   exists f, make_psf_typed k types rows psfs input junk pjunk = Ok f /\ m_cat (pf_meds f) = m_cat f') /\
  (forall iobj icut o s a x, cutout_at f' iobj icut o s -> rendered_for k psfs o s a -> In x (dat (a_im a)) -> too_large a x ->
   make_psf_typed k types rows psfs input junk pjunk = Err FitsError).
Proof.
  intros M. destruct (typed_split k types rows psfs input junk pjunk qjunk) as [(e & _ & E)|(cat & tp & ext & N & V & E1 & E2)]; [congruence|].
  rewrite M in E2. symmetry in E2. apply bind_ok in E2. destruct E2 as (g & G & E2). injection E2 as <-. cbn [m_cat exact_of].
  assert (ZL : zlen (map pjunk (zrange tp)) = zlen (map qjunk (zrange tp))) by (rewrite !zlen_map; reflexivity).
  destruct (q_to_tput _ _ _ _ _ _ _ ZL G) as (P & F).
  assert (TR : forall o s a, rendered_for k psfs o s a -> tren (k_l k) (k_p k) psfs o s = a).
  { intros o s a (p & Hp & ->). unfold tren. rewrite Hp. reflexivity. }
  split.
  - intros NL. destruct P as (h & Hh).
    + intros kk Hkk. destruct (key_cutout (exact_of k rows cat ext g) kk N Hkk) as (iobj & Hc).
      pose proof (keys_valid _ cat kk N V Hkk) as Vk. unfold file_valid in Vk. rewrite zlen_map in Vk.
      destruct (zget_range_Some psfs _ Vk) as (p & Hp).
      assert (RF : rendered_for k psfs (k_obj kk) (k_slot kk) (tren (k_l k) (k_p k) psfs (k_obj kk) (k_slot kk))).
      { exists p. split; [exact Hp|]. unfold tren. rewrite Hp. reflexivity. }
      intros x Hx. destruct (store_fails (a_kind (tren (k_l k) (k_p k) psfs (k_obj kk) (k_slot kk))) x) as [E|E]; [exact E|].
      apply store_err in E. exfalso. exact (NL _ _ _ _ _ _ Hc RF Hx E).
    + rewrite Hh in E1. eexists. split; [exact E1|reflexivity].
  - intros iobj icut o s a x Hc Ra Hx TL. pose proof (cutout_key (exact_of k rows cat ext g) _ _ _ _ N Hc) as Hk.
    rewrite (F _ Hk) in E1; [exact E1|]. cbn [k_obj k_slot fst snd]. rewrite (TR _ _ _ Ra). intros S. destruct (S x Hx) as (v & E).
    apply store_err in TL. congruence.
Qed.

Theorem typed_list k types rows psfs input junk pjunk f : psfs_ok psfs ->
  make_psf_typed k types rows psfs input junk pjunk = Ok f ->
  forall iobj o, zget (m_cat (pf_meds f)) iobj = Some o ->
  (forall icut s a, cutout_at (pf_meds f) iobj icut o s -> rendered_for k psfs o s a -> 0 < nr (a_im a) * nc (a_im a)) ->
  exists ims, get_psf_list_typed f iobj = Ok ims /\ zlen ims = o_ncut o /\
    forall icut im, zget ims icut = Some im -> get_psf_typed f iobj icut = Ok im.
Proof.
  intros Hok H iobj o Ho NE. destruct (typed_cutout _ _ _ _ _ _ _ _ Hok H) as (_ & C).
  destruct (typed_exact _ _ _ _ _ _ _ (fun _ => 0%Q) _ H) as (f' & h' & _ & _ & _ & EM & N & _).
  pose proof (zget_Some_range _ _ _ Ho) as Hr. unfold get_psf_list_typed. rewrite (py_index_nonneg _ _ (proj1 Hr)), Ho. cbn [bind].
  assert (Nc : 0 <= o_ncut o <= zlen (o_slots o)).
  { rewrite EM in Ho. cbn [m_cat] in Ho. rewrite Forall_forall in N. apply N. eapply zget_In; exact Ho. }
  destruct (mapM_total (fun icut => get_psf_typed f iobj icut) (zrange (o_ncut o))) as (ims & E).
  { intros icut Hi. apply In_zrange in Hi. destruct (zget_range_Some (o_slots o) icut ltac:(lia)) as (s & Hs).
    assert (Hc : cutout_at (pf_meds f) iobj icut o s) by (split; [exact Ho|split; [lia|exact Hs]]).
    destruct (C _ _ _ _ Hc) as (a & Ra & _ & _ & _ & G). eexists. apply G. eapply NE; eassumption. }
  exists ims. split; [exact E|]. pose proof (mapM_ok_length _ _ _ E) as L.
  assert (ZL : zlen ims = o_ncut o). { pose proof (zlen_zrange (o_ncut o) (proj1 Nc)) as Z. unfold zlen in *. lia. }
  split; [exact ZL|]. intros icut im Hi. pose proof (zget_Some_range _ _ _ Hi) as Ri.
  unfold zget in Hi. destruct (icut <? 0) eqn:E0; [lia|].
  assert (Hz : nth_error (zrange (o_ncut o)) (Z.to_nat icut) = Some icut).
  { pose proof (zget_zrange (o_ncut o) icut) as Z. unfold zget in Z. rewrite E0 in Z. apply Z. lia. }
  destruct (mapM_ok_nth _ _ _ _ _ E Hz) as (y & Y1 & Y2). congruence.
Qed.
