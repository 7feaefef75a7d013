(** Lemmas on accessors and memory: mosaics changed through their parts, uberseg. *)
From Coq Require Import Lia ZifyBool ZifyNat.
From Verif Require Import Base BaseLemmas Img ImgLemmas Types Reader ReadLemmas BoundsM MakerLayout Composite
  CompositeLemmas2 CoaddLemmas CoaddLemmas4 CompositeLemmas Fast3tree Uberseg Memory SpecMemory MemoryLemmas.
Open Scope Z_scope.

Lemma paste_shape {A} (m x y : img A) a b c d : img_ok m -> paste m a b c d x = Ok y -> img_ok y /\ nr y = nr m /\ nc y = nc m.
Proof.
  intros (O1 & O2 & O3) H. unfold paste in H. revert H. dif E; [|discriminate]. intros H. apply tab2M_ok in H; tauto.
Qed.
Lemma paste_self {A} (m w : img A) a b c d : img_ok m -> sub2d m a b c d = Ok w -> paste m a b c d w = Ok m.
Proof.
  intros O S. destruct (sub2d_ok _ _ _ _ _ _ O S) as (W1 & W2 & W3 & W4).
  pose proof (np_bound_nonneg (nr m) a (proj1 O)). pose proof (np_bound_nonneg (nc m) c (proj1 (proj2 O))).
  unfold paste. rewrite W2, W3, !Z.eqb_refl. cbn [andb].
  match goal with |- tab2M ?h ?k ?g = _ => destruct (tab2M_exists h k g (proj1 O) (proj1 (proj2 O))) as (y & Y) end.
  { intros r k R K. dif E.
    - destruct (W4 (r - np_bound (nr m) a) (k - np_bound (nc m) c)) as (x & X & _); [lia|lia|]. exists x. apply px_res_ok. exact X.
    - destruct (px_in m r k O R K) as (x & X). exists x. apply px_res_ok. exact X. }
  rewrite Y. f_equal. apply tab2M_ok in Y; [|apply O|apply O]. destruct Y as (Y1 & Y2 & Y3 & Y4).
  apply img_ext; [exact Y1|exact O|exact Y2|exact Y3|]. intros r k R K. rewrite Y2 in R. rewrite Y3 in K.
  destruct (Y4 r k R K) as (x & X & P). rewrite P. revert X. dif E; intros X; apply px_res_ok in X.
  - destruct (W4 (r - np_bound (nr m) a) (k - np_bound (nc m) c)) as (z & Z1 & Z2); [lia|lia|].
    rewrite Z1 in X. injection X as <-. rewrite <- Z2. f_equal; lia.
  - symmetry. exact X.
Qed.

Definition pstep (g : Z -> img Q -> res (img Q)) (b : Z) (mos : img Q) (k : Z) : res (img Q) :=
  let* wt := sub2d mos (k * b) ((k + 1) * b) 0 b in
  let* c := g k wt in
  paste mos (k * b) ((k + 1) * b) 0 b c.
Lemma pstep_shape g b mos k mos' : img_ok mos -> pstep g b mos k = Ok mos' -> img_ok mos' /\ nr mos' = nr mos /\ nc mos' = nc mos.
Proof.
  intros O H. unfold pstep in H. apply bind_ok in H. destruct H as (w & W & H). apply bind_ok in H. destruct H as (c & C & H).
  exact (paste_shape _ _ _ _ _ _ _ O H).
Qed.

(** Everything but the array [a] stays as it is. *)
Definition keeps (a : nat) (m m' : mem) : Prop := forall j c, j <> a -> nth_error m j = Some c -> nth_error m' j = Some c.
Lemma keeps_trans a m1 m2 m3 : keeps a m1 m2 -> keeps a m2 m3 -> keeps a m1 m3.
Proof. intros H K j c J N. exact (K j c J (H j c J N)). Qed.
Lemma keeps_grows a m m' : grows m m' -> keeps a m m'.
Proof. intros G j c _ N. exact (grows_cell _ _ _ _ G N). Qed.
Lemma keeps_upd a m x : keeps a m (upd m a x).
Proof. intros j c J N. rewrite upd_other by congruence. exact N. Qed.

Lemma holds_keeps r f a im m m' : holds r f m -> nth_error m a = Some (CPix im) -> keeps a m m' -> holds r f m'.
Proof.
  intros (A & B & C) N K. split; [|split; [|exact C]].
  - apply K; [|exact A]. intros E. rewrite <- E in N. rewrite A in N. discriminate N.
  - apply K; [|exact B]. intros E. rewrite <- E in N. rewrite B in N. discriminate N.
Qed.

(** One turn of the loop over the parts of the mosaic [a], from the memory [m1]. *)
Definition turn (m m1 : mem) (a : nat) (o : mem * res unit) (p : res (img Q)) : Prop :=
  grows m (fst o) /\
  match snd o, p with
  | Ok _, Ok mos => nth_error (fst o) a = Some (CPix mos) /\ img_ok mos /\ keeps a m1 (fst o)
  | Err e, Err e' => e = e'
  | _, _ => False
  end.

Lemma turn_gives m m1 a (c : M nat) mos k g : grows m m1 -> (length m <= a)%nat -> nth_error m1 a = Some (CPix mos) -> img_ok mos ->
  (forall wt, sub2d mos (k * nc mos) ((k + 1) * nc mos) 0 (nc mos) = Ok wt -> values (VPart a k) m1 = (m1, Ok wt) -> img_ok wt ->
     gives m1 (c m1) (g k wt)) ->
  turn m m1 a (mbind c (fun x => copy_into (VPart a k) x) m1) (pstep g (nc mos) mos k).
Proof.
  intros G L N O K. destruct (sub2d_exists mos (k * nc mos) ((k + 1) * nc mos) 0 (nc mos) O) as (wt & W).
  unfold pstep. rewrite W. cbn [bind].
  assert (V : values (VPart a k) m1 = (m1, Ok wt)).
  { unfold values, mbind, pix, mlift, block. rewrite N, W. reflexivity. }
  destruct (K wt W V (proj1 (sub2d_ok _ _ _ _ _ _ O W))) as (G2 & R). unfold mbind.
  destruct (c m1) as [m2 [x|e]]; simpl in G2, R; destruct (g k wt) as [y|e']; try contradiction; cbn [bind].
  2: { subst e'. split; [exact (grows_trans _ _ _ G G2)|reflexivity]. }
  destruct R as (L2 & N2 & O2). unfold copy_into, assign, mbind, pix, mlift. rewrite N2.
  pose proof (grows_cell _ _ _ _ G2 N) as NA. rewrite NA.
  destruct (paste mos (k * nc mos) ((k + 1) * nc mos) 0 (nc mos) y) as [new|e] eqn:P.
  - split; [exact (grows_upd _ _ _ _ (grows_trans _ _ _ G G2) L)|]. simpl.
    split; [apply upd_same, nth_error_Some; congruence|]. split; [exact (proj1 (paste_shape _ _ _ _ _ _ _ O P))|].
    exact (keeps_trans _ _ _ _ (keeps_grows _ _ _ G2) (keeps_upd _ _ _)).
  - split; [exact (grows_trans _ _ _ G G2)|reflexivity].
Qed.

Lemma turns m a (body : Z -> view -> M unit) g (P : mem -> Prop) b :
  (forall m1 m2 mos, P m1 -> nth_error m1 a = Some (CPix mos) -> keeps a m1 m2 -> P m2) ->
  (forall m1 mos k, grows m m1 -> P m1 -> nth_error m1 a = Some (CPix mos) -> img_ok mos -> nc mos = b ->
     turn m m1 a (body k (VPart a k) m1) (pstep g b mos k)) ->
  forall ks m1 mos, grows m m1 -> P m1 -> nth_error m1 a = Some (CPix mos) -> img_ok mos -> nc mos = b ->
    turn m m1 a (mfor (fun kv => body (fst kv) (snd kv)) (map (fun k => (k, VPart a k)) ks) m1) (foldM (pstep g b) ks mos).
Proof.
  intros HP HB ks. induction ks as [|k ks IH]; intros m1 mos G PM N O B; simpl.
  - split; [exact G|]. simpl. split; [exact N|]. split; [exact O|]. intros j c _ H. exact H.
  - unfold mbind. destruct (HB m1 mos k G PM N O B) as (G2 & R). destruct (body k (VPart a k) m1) as [m2 [x|e]]; simpl in G2, R;
      destruct (pstep g b mos k) as [mos2|e'] eqn:S; try contradiction; cbn [bind]; [|subst e'; split; [exact G2|reflexivity]].
    destruct R as (N2 & O2 & K2). destruct (pstep_shape _ _ _ _ _ O S) as (_ & _ & SC).
    destruct (IH m2 mos2 G2 (HP _ _ _ PM N K2) N2 O2 (eq_trans SC B)) as (G3 & R3).
    split; [exact G3|]. destruct (snd (mfor _ _ m2)), (foldM (pstep g b) ks mos2); auto. destruct R3 as (N3 & O3 & K3).
    split; [exact N3|]. split; [exact O3|]. exact (keeps_trans _ _ _ _ K2 K3).
Qed.

Lemma combine_map_self {A B} (g : A -> B) l : combine l (map g l) = map (fun k => (k, g k)) l.
Proof. induction l as [|k l IH]; [reflexivity|]. simpl. rewrite IH. reflexivity. Qed.
Lemma enumerated (a : nat) n : combine (zrange (zlen (map (VPart a) (zrange n)))) (map (VPart a) (zrange n)) = map (fun k => (k, VPart a k)) (zrange n).
Proof.
  rewrite zlen_map. assert (E : zlen (zrange n) = Z.max 0 n) by (unfold zlen; rewrite zrange_length; lia).
  assert (F : zrange (Z.max 0 n) = zrange n) by (unfold zrange; replace (Z.to_nat (Z.max 0 n)) with (Z.to_nat n) by lia; reflexivity).
  rewrite E, F. apply combine_map_self.
Qed.

Lemma turn_enumerate m m1 a mos (body : Z -> view -> M unit) g (P : mem -> Prop) :
  (forall m1 m2 mos, P m1 -> nth_error m1 a = Some (CPix mos) -> keeps a m1 m2 -> P m2) ->
  (forall m1 mos k, grows m m1 -> P m1 -> nth_error m1 a = Some (CPix mos) -> img_ok mos ->
     turn m m1 a (body k (VPart a k) m1) (pstep g (nc mos) mos k)) ->
  grows m m1 -> P m1 -> nth_error m1 a = Some (CPix mos) -> img_ok mos ->
  turn m m1 a (menumerate a body m1) (inplace_blocks g mos).
Proof.
  intros HP HB G PM N O. unfold menumerate, inplace_blocks, msplit_mosaic.
  assert (E1 : mbind (pix a) (fun mosaic => if nc mosaic =? 0 then mlift (Err ZeroDivisionError)
     else mret (map (VPart a) (zrange (nr mosaic / nc mosaic)))) m1 =
     (m1, if nc mos =? 0 then Err ZeroDivisionError else Ok (map (VPart a) (zrange (nr mos / nc mos))))).
  { unfold mbind, pix. rewrite N. dif E; reflexivity. }
  unfold mbind at 1. cbv zeta. rewrite E1. dif E; [split; [exact G|reflexivity]|].
  rewrite enumerated. apply (turns m a body g P (nc mos) HP); auto.
  intros m2 mos2 k G2 P2 N2 O2 B. rewrite <- B. apply HB; assumption.
Qed.

(** ** Mosaics *)
Lemma gives_turn m m1 m0 a (c : M unit) p : (length m <= a)%nat -> turn m m0 a (c m1) p -> gives m (mbind c (fun _ => mret a) m1) p.
Proof.
  intros L (G & R). unfold mbind. destruct (c m1) as [m2 [x|e]]; simpl in *; destruct p as [y|e']; try contradiction.
  - destruct R as (N & O & _). apply gives_ret; assumption.
  - subst e'. split; [exact G|reflexivity].
Qed.

Definition both (r : reader) (f : medsfile) (cs : nat) (s : img Q) (m : mem) : Prop := holds r f m /\ nth_error m cs = Some (CPix s).
Lemma both_keeps r f cs s a m1 m2 mos : cs <> a -> both r f cs s m1 -> nth_error m1 a = Some (CPix mos) -> keeps a m1 m2 -> both r f cs s m2.
Proof. intros D (H & N) A K. split; [exact (holds_keeps _ _ _ _ _ _ H A K)|exact (K _ _ D N)]. Qed.

Lemma composite_loop r f m m1 a mos cs s i restrict : holds r f m1 -> nth_error m1 cs = Some (CPix s) -> cs <> a ->
  grows m m1 -> (length m <= a)%nat -> nth_error m1 a = Some (CPix mos) -> img_ok mos ->
  gives m (mbind (menumerate a (fun icut wt => let! cwt := mcomposite r i icut wt cs restrict in copy_into wt cwt)) (fun _ => mret a) m1)
    (inplace_blocks (fun k wt => make_composite_image f i k wt s restrict) mos).
Proof.
  intros H N D G L A O. apply gives_turn with (m0 := m1); [exact L|].
  apply turn_enumerate with (P := both r f cs s); [intros m2 m3 x; apply both_keeps; exact D| |exact G|split; assumption|exact A|exact O].
  intros m2 mos2 k G2 (H2 & N2) A2 O2.
  apply (turn_gives m m2 a (mcomposite r i k (VPart a k) cs restrict) mos2 k (fun k wt => make_composite_image f i k wt s restrict));
    [exact G2|exact L|exact A2|exact O2|].
  intros wt W V OW. apply gives_composite with (1 := H2); [apply grows_refl|exact V|exact OW|exact N2].
Qed.

Lemma gives_cweight_mosaic r f m i restrict : holds r f m -> gives m (mget_cweight_mosaic r i restrict m) (get_cweight_mosaic f i restrict).
Proof.
  intros H. unfold mget_cweight_mosaic, get_cweight_mosaic.
  apply gives_bind; [apply (gives_mosaic r f m m i (RCut TWeight) H); apply grows_refl|].
  intros m2 a mos G2 L2 N2 O2 _. pose proof (holds_grows _ _ _ _ H G2) as H2.
  pose proof (gives_cutout r f m2 m2 i 0 (RCut TSeg) H2 (grows_refl _)) as (GC & RC).
  unfold mbind at 1. destruct (mget_cutout r i 0 (RCut TSeg) m2) as [m3 [cs|e]]; simpl in GC, RC;
    destruct (get_cutout f i 0 TSeg) as [s|e']; try contradiction; cbn [bind].
  2: { subst e'. split; [exact (grows_trans _ _ _ G2 GC)|reflexivity]. }
  destruct RC as (L3 & N3 & O3).
  assert (a < length m2)%nat by (apply nth_error_Some; congruence).
  apply (composite_loop r f m m3 a mos cs s i restrict); [exact (holds_grows _ _ _ _ H2 GC)|exact N3|lia|
    exact (grows_trans _ _ _ G2 GC)|exact L2|exact (grows_cell _ _ _ _ GC N2)|exact O2].
Qed.

Lemma gives_cseg_mosaic r f m i : holds r f m -> gives m (mget_cseg_mosaic r i m) (get_cseg_mosaic f i).
Proof.
  intros H. unfold mget_cseg_mosaic, get_cseg_mosaic.
  apply gives_bind; [apply (gives_mosaic r f m m i (RCut TSeg) H); apply grows_refl|].
  intros m2 a mos G2 L2 N2 O2 _. pose proof (holds_grows _ _ _ _ H G2) as H2.
  unfold mbind at 1. rewrite (fill_number_ok r f m2 a mos H2 N2 i).
  destruct (get_number f i) as [n|e]; [|split; [exact G2|reflexivity]]. cbn [bind].
  set (m3 := upd m2 a _). assert (G3 : grows m m3) by exact (grows_upd _ _ _ _ G2 L2).
  assert (H3 : holds r f m3) by exact (holds_upd _ _ _ _ _ _ H2 N2).
  assert (N3 : nth_error m3 a = Some (CPix (fill_with mos (inject_Z n)))) by (apply upd_same, nth_error_Some; congruence).
  clearbody m3.
  pose proof (gives_cutout r f m3 m3 i 0 (RCut TSeg) H3 (grows_refl _)) as (GC & RC).
  unfold mbind at 1. destruct (mget_cutout r i 0 (RCut TSeg) m3) as [m4 [cs|e]]; simpl in GC, RC;
    destruct (get_cutout f i 0 TSeg) as [s|e']; try contradiction; cbn [bind].
  2: { subst e'. split; [exact (grows_trans _ _ _ G3 GC)|reflexivity]. }
  destruct RC as (L4 & N4 & O4).
  assert (a < length m3)%nat by (apply nth_error_Some; congruence).
  apply (composite_loop r f m m4 a (fill_with mos (inject_Z n)) cs s i false); [exact (holds_grows _ _ _ _ H3 GC)|exact N4|lia|
    exact (grows_trans _ _ _ G3 GC)|exact L2|exact (grows_cell _ _ _ _ GC N3)|apply imap_ok; exact O2].
Qed.

Lemma gives_interp_mosaic r f m i : holds r f m -> gives m (minterpolate_mosaic r i m) (interpolate_coadd_seg_mosaic f i).
Proof.
  intros H. unfold minterpolate_mosaic, interpolate_coadd_seg_mosaic.
  apply gives_bind; [apply (gives_mosaic r f m m i (RCut TSeg) H); apply grows_refl|].
  intros m2 a mos G2 L2 N2 O2 _. pose proof (holds_grows _ _ _ _ H G2) as H2.
  apply gives_turn with (m0 := m2); [exact L2|].
  apply turn_enumerate with (P := holds r f); [intros m3 m4 x HH A K; exact (holds_keeps _ _ _ _ _ _ HH A K)| |exact G2|exact H2|exact N2|exact O2].
  intros m3 mos3 k G3 H3 A3 O3. destruct (k =? 0) eqn:E.
  - destruct (sub2d_exists mos3 (k * nc mos3) ((k + 1) * nc mos3) 0 (nc mos3) O3) as (wt & W).
    unfold pstep. rewrite W. cbn [bind]. rewrite E. cbn [bind]. rewrite (paste_self _ _ _ _ _ _ O3 W).
    split; [exact G3|]. simpl. split; [exact A3|]. split; [exact O3|]. intros j c _ X. exact X.
  - apply (turn_gives m m3 a (minterpolate_coadd_seg r i k) mos3 k
      (fun k seg => if k =? 0 then Ok seg else interpolate_coadd_seg f i k)); [exact G3|exact L2|exact A3|exact O3|].
    intros wt _ _ _. rewrite E. apply gives_interp; [exact H3|apply grows_refl].
Qed.

(** ** Uberseg *)
Lemma cweight_shape f i k b w : get_cweight_cutout f i k b = Ok w ->
  img_ok w /\ exists o, py_index (m_cat f) i = Ok o /\ nr w = o_box o /\ nc w = o_box o.
Proof.
  unfold get_cweight_cutout. intros H. apply bind_ok in H. destruct H as (x & X & H). apply bind_ok in H. destruct H as (s & _ & H).
  apply cutout_shape in X. destruct X as (X1 & o & X2 & X3 & X4). apply composite_shape in H; [|exact X1]. destruct H as (H1 & H2 & H3).
  split; [exact H1|]. exists o. rewrite H2, H3. auto.
Qed.
Lemma interp_shape f i k s : interpolate_coadd_seg f i k = Ok s ->
  img_ok s /\ exists o, py_index (m_cat f) i = Ok o /\ nr s = o_box o /\ nc s = o_box o.
Proof.
  unfold interpolate_coadd_seg. intros H. apply bind_ok in H. destruct H as (x & X & H). pose proof (cutout_shape _ _ _ _ _ X) as XS.
  revert H. dif E; intros H.
  - injection H as <-. exact XS.
  - apply bind_ok in H. destruct H as (jm & _ & H). apply bind_ok in H. destruct H as (cen & _ & H).
    unfold interpolate_coadd_seg_image in H. rewrite X in H. cbn [bind] in H.
    apply bind_ok in H. destruct H as (cj & _ & H). apply bind_ok in H. destruct H as (cc & _ & H). apply bind_ok in H. destruct H as (ci & _ & H).
    destruct XS as ((O1 & O2 & O3) & o & P & A & B).
    apply tab2M_ok in H; [|exact O1|exact O2]. destruct H as (H1 & H2 & H3 & _).
    split; [exact H1|]. exists o. split; [exact P|]. split; [rewrite H2; exact A|rewrite H3; exact B].
Qed.
Lemma uber_shape (fuel : nat) (fast : bool) s w n inds y : 0 <= nr s -> 0 <= nc s ->
  (if fast then uberseg_tree fuel (imap qtrunc s) w n inds else uberseg_slow s w n inds) = Ok y -> img_ok y /\ nr y = nr s /\ nc y = nc s.
Proof.
  intros R C H. destruct fast.
  - unfold uberseg_tree in H. apply bind_ok in H. destruct H as (ps & _ & H). apply bind_ok in H. destruct H as (t & _ & H).
    apply tab2M_ok in H; [|exact R|exact C]. simpl in H. tauto.
  - unfold uberseg_slow in H. apply tab2M_ok in H; tauto.
Qed.
Lemma gives_uberseg fuel r f m i k fast : holds r f m -> gives m (mget_uberseg fuel r i k fast m) (get_uberseg fuel f i k fast).
Proof.
  intros H. unfold mget_uberseg, get_uberseg.
  apply gives_bind; [apply gives_cweight; [exact H|apply grows_refl]|].
  intros m2 wa w G2 L2 N2 O2 E2. pose proof (holds_grows _ _ _ _ H G2) as H2.
  pose proof (gives_interp r f m2 m2 i k H2 (grows_refl _)) as (GC & RC).
  unfold mbind at 1. destruct (minterpolate_coadd_seg r i k m2) as [m3 [sa|e]]; simpl in GC, RC;
    destruct (interpolate_coadd_seg f i k) as [s|e'] eqn:ES; try contradiction; cbn [bind].
  2: { subst e'. split; [exact (grows_trans _ _ _ G2 GC)|reflexivity]. }
  destruct RC as (L3 & N3 & O3). pose proof (grows_trans _ _ _ G2 GC) as G3.
  pose proof (grows_cell _ _ _ _ GC N2) as NW. pose proof (holds_grows _ _ _ _ H2 GC) as H3.
  apply gives_pix with (1 := N3). dif U; [apply gives_ret; assumption|].
  apply gives_seen with (1 := H3). apply gives_lift; [exact G3|]. intros n _. apply gives_pix with (1 := NW).
  match goal with |- gives _ _ ?q => set (T := q) end.
  change (gives m (mbind (mlift T) (fun new => let! _ := assign (VAll wa) new in mret wa) m3) T).
  apply gives_last; [exact G3|]. intros y Y. apply uber_shape in Y; [|apply O3|apply O3]. destruct Y as (Y1 & Y2 & Y3).
  destruct (cweight_shape _ _ _ _ _ E2) as (_ & o & P1 & P2 & P3). destruct (interp_shape _ _ _ _ ES) as (_ & o' & Q1 & Q2 & Q3).
  rewrite P1 in Q1. injection Q1 as <-.
  apply gives_assign with (old := w); [exact G3|exact L2|exact NW|congruence|congruence|].
  intros G4 N4. apply gives_ret; [exact G4|exact L2|exact N4|exact Y1].
Qed.
