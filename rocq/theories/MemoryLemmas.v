(** Lemmas on accessors and memory. *)
From Coq Require Import Lia ZifyBool ZifyNat.
From Verif Require Import Base BaseLemmas Img ImgLemmas Types Reader ReadLemmas BoundsM MakerLayout Composite
  CompositeLemmas2 CoaddLemmas CoaddLemmas4 Fast3tree Uberseg Memory SpecMemory.
Open Scope Z_scope.

Ltac dif E := match goal with |- context [if ?b then _ else _] => destruct b eqn:E end.

(** ** Cells *)
Lemma upd_app_r {A} (l t : list A) i a : (length l <= i)%nat -> upd (l ++ t) i a = l ++ upd t (i - length l) a.
Proof.
  revert i. induction l as [|x l IH]; intros i H; simpl; [rewrite Nat.sub_0_r; reflexivity|].
  simpl in H. destruct i as [|i]; [lia|]. simpl. rewrite IH by lia. reflexivity.
Qed.
Lemma upd_length {A} (l : list A) i a : length (upd l i a) = length l.
Proof. revert i. induction l as [|x l IH]; intros [|i]; simpl; auto. Qed.
Lemma upd_same {A} (l : list A) i a : (i < length l)%nat -> nth_error (upd l i a) i = Some a.
Proof. revert i. induction l as [|x l IH]; intros [|i] H; simpl in *; try lia; auto. apply IH. lia. Qed.
Lemma upd_other {A} (l : list A) i j a : i <> j -> nth_error (upd l i a) j = nth_error l j.
Proof. revert i j. induction l as [|x l IH]; intros [|i] [|j] H; simpl; auto; try congruence. Qed.

Definition addr (v : view) : nat := match v with VAll a => a | VPart a _ => a end.
Definition grows (m m' : mem) : Prop := exists t, m' = m ++ t.
Lemma grows_refl m : grows m m.
Proof. exists []. rewrite app_nil_r. reflexivity. Qed.
Lemma grows_trans a b c : grows a b -> grows b c -> grows a c.
Proof. intros (t & ->) (u & ->). exists (t ++ u). rewrite app_assoc. reflexivity. Qed.
Lemma grows_cell m m' a c : grows m m' -> nth_error m a = Some c -> nth_error m' a = Some c.
Proof. intros (t & ->) H. rewrite nth_error_app1; [exact H|]. apply nth_error_Some. congruence. Qed.
Lemma grows_len m m' : grows m m' -> (length m <= length m')%nat.
Proof. intros (t & ->). rewrite app_length. lia. Qed.
Lemma grows_upd m m' a c : grows m m' -> (length m <= a)%nat -> grows m (upd m' a c).
Proof. intros (t & ->) H. rewrite upd_app_r by exact H. eexists. reflexivity. Qed.
Lemma grows_alloc m c : grows m (m ++ [c]).
Proof. exists [c]. reflexivity. Qed.
#[local] Hint Resolve grows_refl grows_alloc : core.

(** The tables in memory. *)
Definition holds (r : reader) (f : medsfile) (m : mem) : Prop :=
  nth_error m (rd_cat r) = Some (CCat (m_cat f)) /\ nth_error m (rd_info r) = Some (CInfo (m_info f)) /\
  f = with_tables (rd_fits r) (m_cat f) (m_info f).
Lemma holds_grows r f m m' : holds r f m -> grows m m' -> holds r f m'.
Proof. intros (A & B & C) G. split; [exact (grows_cell _ _ _ _ G A)|]. split; [exact (grows_cell _ _ _ _ G B)|exact C]. Qed.
Lemma holds_upd r f m a im c : holds r f m -> nth_error m a = Some (CPix im) -> holds r f (upd m a c).
Proof.
  intros (A & B & C) H. split; [|split; [|exact C]].
  - rewrite upd_other; [exact A|]. intros ->. rewrite A in H. discriminate H.
  - rewrite upd_other; [exact B|]. intros ->. rewrite B in H. discriminate H.
Qed.
Lemma seen_holds r f m : holds r f m -> seen r m = (m, Ok f).
Proof. intros (A & B & C). unfold seen. rewrite A, B, <- C. reflexivity. Qed.

(** ** What a piece of code does: nothing to the old memory, a new array. *)
Definition gives (m : mem) (o : mem * res nat) (p : res (img Q)) : Prop :=
  grows m (fst o) /\
  match snd o, p with
  | Ok a, Ok im => (length m <= a)%nat /\ nth_error (fst o) a = Some (CPix im) /\ img_ok im
  | Err e, Err e' => e = e'
  | _, _ => False
  end.
Lemma gives_bind m (c : M nat) p (k : nat -> M nat) (q : img Q -> res (img Q)) :
  gives m (c m) p ->
  (forall m1 a im, grows m m1 -> (length m <= a)%nat -> nth_error m1 a = Some (CPix im) -> img_ok im -> p = Ok im ->
     gives m (k a m1) (q im)) ->
  gives m (mbind c k m) (let* im := p in q im).
Proof.
  intros (G & H) K. unfold mbind. destruct (c m) as [m1 [a|e]]; simpl in *; destruct p as [im|e']; try contradiction.
  - destruct H as (L & N & O). exact (K m1 a im G L N O eq_refl).
  - subst e'. split; [exact G|reflexivity].
Qed.
Lemma gives_weaken m m1 o p : grows m m1 -> gives m1 o p -> gives m o p.
Proof.
  intros G (G1 & H). split; [exact (grows_trans _ _ _ G G1)|].
  pose proof (grows_len _ _ G). destruct (snd o), p; auto. destruct H as (L & N & O). split; [lia|auto].
Qed.
Lemma gives_lift {A} m m1 (x : res A) (k : A -> M nat) (q : A -> res (img Q)) : grows m m1 ->
  (forall y, x = Ok y -> gives m (k y m1) (q y)) -> gives m (mbind (mlift x) k m1) (let* y := x in q y).
Proof.
  intros G K. unfold mbind, mlift. destruct x as [y|e]; [exact (K y eq_refl)|]. split; [exact G|reflexivity].
Qed.
Lemma gives_last m m1 (x : res (img Q)) (k : img Q -> M nat) : grows m m1 ->
  (forall y, x = Ok y -> gives m (k y m1) (Ok y)) -> gives m (mbind (mlift x) k m1) x.
Proof.
  intros G K. unfold mbind, mlift. destruct x as [y|e]; [exact (K y eq_refl)|]. split; [exact G|reflexivity].
Qed.
Lemma gives_pix m m1 a im (k : img Q -> M nat) q : nth_error m1 a = Some (CPix im) -> gives m (k im m1) q ->
  gives m (mbind (pix a) k m1) q.
Proof. intros N K. unfold mbind, pix. rewrite N. exact K. Qed.
Lemma gives_seen m m1 r f (k : medsfile -> M nat) q : holds r f m1 -> gives m (k f m1) q -> gives m (mbind (seen r) k m1) q.
Proof. intros N K. unfold mbind. rewrite (seen_holds _ _ _ N). exact K. Qed.
Lemma gives_ret m m1 a im : grows m m1 -> (length m <= a)%nat -> nth_error m1 a = Some (CPix im) -> img_ok im ->
  gives m (mret a m1) (Ok im).
Proof. intros G L N O. split; [exact G|]. simpl. auto. Qed.
Lemma gives_alloc m m1 im : grows m m1 -> img_ok im -> gives m (alloc (CPix im) m1) (Ok im).
Proof.
  intros G O. split; [exact (grows_trans _ _ _ G (grows_alloc _ _))|]. simpl.
  split; [exact (grows_len _ _ G)|]. split; [|exact O]. rewrite nth_error_app2, Nat.sub_diag by lia. reflexivity.
Qed.
Lemma gives_new m m1 c (k : nat -> M nat) q :
  (forall a, a = length m1 -> nth_error (m1 ++ [c]) a = Some c -> gives m (k a (m1 ++ [c])) q) -> gives m (mbind (alloc c) k m1) q.
Proof. intros K. unfold mbind, alloc. apply K; [reflexivity|]. rewrite nth_error_app2, Nat.sub_diag by lia. reflexivity. Qed.

(** Assignment to a whole array. *)
Lemma assign_all m a old new : nth_error m a = Some (CPix old) -> nr old = nr new -> nc old = nc new ->
  assign (VAll a) new m = (upd m a (CPix new), Ok tt).
Proof.
  intros N R C. unfold assign, mbind, pix. rewrite N. dif E; [reflexivity|].
  rewrite R, C in E. rewrite !Z.eqb_refl in E. discriminate E.
Qed.
Lemma gives_assign m m1 a old new (k : unit -> M nat) q : grows m m1 -> (length m <= a)%nat ->
  nth_error m1 a = Some (CPix old) -> nr old = nr new -> nc old = nc new ->
  (grows m (upd m1 a (CPix new)) -> nth_error (upd m1 a (CPix new)) a = Some (CPix new) -> gives m (k tt (upd m1 a (CPix new))) q) ->
  gives m (mbind (assign (VAll a) new) k m1) q.
Proof.
  intros G L N R C K. unfold mbind. rewrite (assign_all _ _ _ _ N R C). apply K.
  - exact (grows_upd _ _ _ _ G L).
  - apply upd_same. apply nth_error_Some. congruence.
Qed.

(** ** Shapes *)
Lemma reshape_ok {A} (xs : list A) h w im : reshape xs h w = Ok im -> img_ok im /\ nr im = h /\ nc im = w.
Proof.
  unfold reshape. dif E; [|discriminate]. intros H. injection H as <-. unfold img_ok. simpl. repeat split; lia.
Qed.
Lemma cutout_shape f i k t im : get_cutout f i k t = Ok im ->
  img_ok im /\ exists o, py_index (m_cat f) i = Ok o /\ nr im = o_box o /\ nc im = o_box o.
Proof.
  unfold get_cutout. intros H. apply bind_ok in H. destruct H as (o & C & H). apply bind_ok in H. destruct H as (s & S & H).
  apply bind_ok in H. destruct H as (e & X & H). apply bind_ok in H. destruct H as (fl & F & H).
  apply reshape_ok in H. destruct H as (H1 & H2 & H3). split; [exact H1|]. exists o. split; [|auto].
  unfold check_indices in C. revert C. dif E; [discriminate|]. intros C. apply bind_ok in C. destruct C as (o' & P & C).
  revert C. dif E1; [discriminate|]. dif E2; [discriminate|]. intros C. injection C as <-. exact P.
Qed.
Lemma cutout_any_ok f i k t im : get_cutout_any f i k t = Ok im -> img_ok im.
Proof.
  destruct t as [|t]; simpl.
  - unfold get_psf. destruct (m_psf f); [|discriminate]. intros H. apply bind_ok in H. destruct H as (o & C & H).
    apply bind_ok in H. destruct H as (s & S & H). apply bind_ok in H. destruct H as (e & X & H).
    apply bind_ok in H. destruct H as (fl & F & H). apply reshape_ok in H. tauto.
  - intros H. apply cutout_shape in H. tauto.
Qed.
Lemma mosaic_any_ok f i t im : get_mosaic_any f i t = Ok im -> img_ok im.
Proof.
  destruct t as [|t]; simpl; unfold get_mosaic; intros H; apply bind_ok in H; destruct H as (o & C & H);
    apply bind_ok in H; destruct H as (s & S & H); [discriminate H|].
  apply bind_ok in H. destruct H as (e & X & H). apply bind_ok in H. destruct H as (fl & F & H). apply reshape_ok in H. tauto.
Qed.

(** ** Plain images *)
Lemma gives_cutout r f m m1 i k t : holds r f m1 -> grows m m1 -> gives m (mget_cutout r i k t m1) (get_cutout_any f i k t).
Proof.
  intros H G. unfold mget_cutout. apply gives_seen with (1 := H).
  unfold mbind, mlift. destruct (get_cutout_any f i k t) as [im|e] eqn:E; [|split; [exact G|reflexivity]].
  apply gives_alloc; [exact G|]. exact (cutout_any_ok _ _ _ _ _ E).
Qed.
Lemma gives_mosaic r f m m1 i t : holds r f m1 -> grows m m1 -> gives m (mget_mosaic r i t m1) (get_mosaic_any f i t).
Proof.
  intros H G. unfold mget_mosaic. apply gives_seen with (1 := H).
  unfold mbind, mlift. destruct (get_mosaic_any f i t) as [im|e] eqn:E; [|split; [exact G|reflexivity]].
  apply gives_alloc; [exact G|]. exact (mosaic_any_ok _ _ _ _ E).
Qed.
Lemma gives_jacobian_matrix r f m i k : holds r f m ->
  gives m (mget_jacobian_matrix r i k m) (let* j := get_jacobian_matrix f i k in let '(a, b, c, d) := j in Ok (mkImg 2 2 [a; b; c; d])).
Proof.
  intros H. unfold mget_jacobian_matrix. apply gives_seen with (1 := H). apply gives_lift; [auto|].
  intros [[[a b] c] d] _. apply gives_alloc; [auto|]. repeat split; simpl; lia.
Qed.

(** ** Composites *)
Lemma gives_composite r f m m1 i k v x cs s restrict : holds r f m1 -> grows m m1 -> values v m1 = (m1, Ok x) -> img_ok x ->
  nth_error m1 cs = Some (CPix s) ->
  gives m (mcomposite r i k v cs restrict m1) (make_composite_image f i k x s restrict).
Proof.
  intros H G V O N. unfold mcomposite. unfold mbind at 1. rewrite V.
  apply gives_new. intros a -> A.
  assert (G2 : grows m (m1 ++ [CPix x])) by exact (grows_trans _ _ _ G (grows_alloc _ _)).
  apply gives_seen with (f := f); [exact (holds_grows _ _ _ _ H (grows_alloc _ _))|].
  apply gives_pix with (im := s); [exact (grows_cell _ _ _ _ (grows_alloc _ _) N)|].
  apply gives_last; [exact G2|]. intros y Y.
  destruct (composite_shape _ _ _ _ _ _ _ O Y) as (S1 & S2 & S3).
  apply gives_assign with (old := x); [exact G2|exact (grows_len _ _ G)|exact A|congruence|congruence|].
  intros G3 N3. apply gives_ret; [exact G3|exact (grows_len _ _ G)|exact N3|exact S1].
Qed.

Lemma any_cut f i k t : get_cutout_any f i k (RCut t) = get_cutout f i k t.
Proof. reflexivity. Qed.

Lemma gives_cweight r f m m1 i k restrict : holds r f m1 -> grows m m1 ->
  gives m (mget_cweight_cutout r i k restrict m1) (get_cweight_cutout f i k restrict).
Proof.
  intros H G. apply gives_weaken with (1 := G). unfold mget_cweight_cutout, get_cweight_cutout.
  apply gives_bind; [apply (gives_cutout r f m1 m1 i k (RCut TWeight) H); auto|].
  intros m2 wt w G2 L2 N2 O2 _. 
  apply gives_weaken with (1 := G2).
  apply gives_bind; [apply (gives_cutout r f m2 m2 i 0 (RCut TSeg)); [exact (holds_grows _ _ _ _ H G2)|auto]|].
  intros m3 cs s G3 L3 N3 O3 _.
  apply gives_composite with (1 := holds_grows _ _ _ _ (holds_grows _ _ _ _ H G2) G3); [exact G3| |exact O2|exact N3].
  unfold values, pix. rewrite (grows_cell _ _ _ _ G3 N2). reflexivity.
Qed.

Lemma fill_number_ok r f m a x : holds r f m -> nth_error m a = Some (CPix x) -> forall i,
  fill_number r i a m = match get_number f i with
                        | Ok n => (upd m a (CPix (fill_with x (inject_Z n))), Ok tt)
                        | Err e => (m, Err e) end.
Proof.
  intros H N i. unfold fill_number, mbind. rewrite (seen_holds _ _ _ H). unfold mlift.
  destruct (get_number f i) as [n|e]; [|reflexivity]. unfold pix. rewrite N.
  apply assign_all with (old := x); [exact N|reflexivity|reflexivity].
Qed.

Lemma gives_cseg r f m i k : holds r f m -> gives m (mget_cseg_cutout r i k m) (get_cseg_cutout f i k).
Proof.
  intros H. unfold mget_cseg_cutout, get_cseg_cutout.
  apply gives_bind; [apply (gives_cutout r f m m i k (RCut TSeg) H); auto|].
  intros m2 wt w G2 L2 N2 O2 _. pose proof (holds_grows _ _ _ _ H G2) as H2.
  unfold mbind at 1. rewrite (fill_number_ok r f m2 wt w H2 N2 i).
  destruct (get_number f i) as [n|e]; [|split; [exact G2|reflexivity]]. cbn [bind].
  set (m3 := upd m2 wt _). assert (G3 : grows m m3) by exact (grows_upd _ _ _ _ G2 L2).
  assert (H3 : holds r f m3) by exact (holds_upd _ _ _ _ _ _ H2 N2).
  assert (N3 : nth_error m3 wt = Some (CPix (fill_with w (inject_Z n)))) by (apply upd_same, nth_error_Some; congruence).
  clearbody m3. apply gives_weaken with (1 := G3).
  apply gives_bind; [apply (gives_cutout r f m3 m3 i 0 (RCut TSeg) H3); auto|].
  intros m4 cs s G4 L4 N4 O4 _.
  apply gives_composite with (1 := holds_grows _ _ _ _ H3 G4); [exact G4| |apply imap_ok; exact O2|exact N4].
  unfold values, pix. rewrite (grows_cell _ _ _ _ G4 N3). reflexivity.
Qed.

(** ** Interpolated maps *)
Lemma gives_interp_image r f m m1 i jm cen : holds r f m1 -> grows m m1 ->
  gives m (minterpolate_image r i jm cen m1) (interpolate_coadd_seg_image f i jm (Some cen)).
Proof.
  intros H G. apply gives_weaken with (1 := G). unfold minterpolate_image, interpolate_coadd_seg_image.
  apply gives_bind; [apply (gives_cutout r f m1 m1 i 0 (RCut TSeg) H); auto|].
  intros m2 a s G2 L2 N2 O2 _. apply gives_pix with (1 := N2). apply gives_new. intros b -> B.
  assert (G3 : grows m1 (m2 ++ [CPix (imap (fun _ => 0%Q) s)])) by exact (grows_trans _ _ _ G2 (grows_alloc _ _)).
  apply gives_seen with (f := f); [exact (holds_grows _ _ _ _ H G3)|].
  apply gives_lift; [exact G3|]. intros cj _. apply gives_lift; [exact G3|]. intros cc _. apply gives_lift; [exact G3|]. intros ci _.
  match goal with |- context [mlift (tab2M ?h ?w ?g)] => set (T := tab2M h w g) end.
  assert (TS : forall y, T = Ok y -> img_ok y /\ nr y = nr s /\ nc y = nc s).
  { intros y Y. apply tab2M_ok in Y; [|apply O2|apply O2]. tauto. }
  change (gives m1 (mbind (mlift T) (fun new => let! _ := assign (VAll (length m2)) new in mret (length m2)) (m2 ++ [CPix (imap (fun _ => 0%Q) s)])) T).
  apply gives_last; [exact G3|]. intros y Y. destruct (TS y Y) as (T1 & T2 & T3).
  apply gives_assign with (old := imap (fun _ => 0%Q) s); [exact G3|exact (grows_len _ _ G2)|exact B|simpl; congruence|simpl; congruence|].
  intros G4 N4. apply gives_ret; [exact G4|exact (grows_len _ _ G2)|exact N4|exact T1].
Qed.
Lemma gives_interp r f m m1 i k : holds r f m1 -> grows m m1 ->
  gives m (minterpolate_coadd_seg r i k m1) (interpolate_coadd_seg f i k).
Proof.
  intros H G. apply gives_weaken with (1 := G). unfold minterpolate_coadd_seg, interpolate_coadd_seg.
  apply gives_bind; [apply (gives_cutout r f m1 m1 i 0 (RCut TSeg) H); auto|].
  intros m2 a s G2 L2 N2 O2 _. dif E; [apply gives_ret; auto|].
  pose proof (holds_grows _ _ _ _ H G2) as H2.
  apply gives_seen with (1 := H2). apply gives_lift; [exact G2|]. intros j _. apply gives_lift; [exact G2|]. intros c _.
  apply gives_interp_image; [exact H2|exact G2].
Qed.

(** ** Circular weight maps *)
Lemma gives_cseg_weight r f m i k b : holds r f m -> gives m (mget_cseg_weight r i k b m) (get_cseg_weight f i k b).
Proof.
  intros H. unfold mget_cseg_weight, get_cseg_weight.
  apply gives_bind; [apply (gives_cutout r f m m i k (RCut TSeg) H); auto|].
  intros m2 a s G2 L2 N2 O2 _. pose proof (holds_grows _ _ _ _ H G2) as H2.
  apply gives_weaken with (1 := G2).
  apply gives_bind; [apply (gives_cutout r f m2 m2 i k (RCut TWeight) H2); auto|].
  intros m3 w wi G3 L3 N3 O3 _. pose proof (holds_grows _ _ _ _ H2 G3) as H3.
  apply gives_seen with (1 := H3). apply gives_lift; [exact G3|]. intros n _.
  apply gives_pix with (1 := grows_cell _ _ _ _ G3 N2). apply gives_pix with (1 := N3).
  destruct (filter _ _) as [|p l].
  - apply gives_ret; assumption.
  - apply gives_lift; [exact G3|]. intros cen _. apply gives_lift; [exact G3|]. intros mr _.
    match goal with |- context [mlift (tab2M ?h ?w ?g)] => set (T := tab2M h w g) end.
    assert (TS : forall y, T = Ok y -> img_ok y /\ nr y = nr wi /\ nc y = nc wi).
    { intros y Y. apply tab2M_ok in Y; [|apply O3|apply O3]. tauto. }
    change (gives m2 (mbind (mlift T) (fun new => alloc (CPix new)) m3) T).
    apply gives_last; [exact G3|]. intros y Y. destruct (TS y Y) as (T1 & T2 & T3).
    apply gives_alloc; assumption.
Qed.
