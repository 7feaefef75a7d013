(** Lemmas on accessors and memory: lists, and programs that use what they are handed. *)
From Coq Require Import Lia ZifyBool ZifyNat.
From Verif Require Import Base BaseLemmas Img ImgLemmas Types Reader ReadLemmas BoundsM MakerLayout Composite
  CompositeLemmas CompositeLemmas2 CoaddLemmas CoaddLemmas4 Fast3tree Uberseg Memory SpecMemory MemoryLemmas MemoryLemmas2.
Open Scope Z_scope.

Definition valid (m : mem) (v : view) : Prop :=
  exists im, nth_error m (addr v) = Some (CPix im) /\ 0 <= nr im /\ 0 <= nc im /\ match v with VAll _ => True | VPart _ k => 0 <= k end.
Definition apart (v w : view) : Prop := addr v <> addr w \/ exists a j k, v = VPart a j /\ w = VPart a k /\ j <> k.
Definition separate (l : list view) : Prop := forall i j v w, i <> j -> nth_error l i = Some v -> nth_error l j = Some w -> apart v w.

Lemma valid_grows m m' v : grows m m' -> valid m v -> valid m' v.
Proof. intros G (im & N & X). exists im. split; [exact (grows_cell _ _ _ _ G N)|exact X]. Qed.
Lemma values_mem v m : fst (values v m) = m.
Proof. destruct v as [a|a k]; unfold values, mbind, pix, mlift; simpl; destruct (nth_error m a) as [[| |]|]; reflexivity. Qed.
Lemma values_cell v m m' : nth_error m (addr v) = nth_error m' (addr v) -> snd (values v m) = snd (values v m').
Proof.
  destruct v as [a|a k]; simpl; intros H; unfold mbind, pix, mlift; rewrite H; [reflexivity|].
  destruct (nth_error m' a) as [[| |]|]; reflexivity.
Qed.
Lemma values_grows v m m' : valid m v -> grows m m' -> snd (values v m') = snd (values v m).
Proof. intros (im & N & _) G. apply values_cell. rewrite N. exact (grows_cell _ _ _ _ G N). Qed.
Lemma values_eq v m x : snd (values v m) = x -> values v m = (m, x).
Proof. intros H. pose proof (values_mem v m) as V. destruct (values v m) as [a b]. simpl in *. congruence. Qed.

Definition fresh_view (m m' : mem) (v : view) (im : img Q) : Prop :=
  (length m <= addr v)%nat /\ valid m' v /\ snd (values v m') = Ok im.
Definition gives_views (m : mem) (o : mem * res (list view)) (p : res (list (img Q))) : Prop :=
  grows m (fst o) /\
  match snd o, p with
  | Ok l, Ok ims => Forall2 (fresh_view m (fst o)) l ims /\ separate l
  | Err e, Err e' => e = e'
  | _, _ => False
  end.

Lemma separate_nil : separate [].
Proof. intros [|i] [|j] v w _ H; discriminate H. Qed.
Lemma separate_parts a ks : NoDup ks -> separate (map (VPart a) ks).
Proof.
  intros D i j v w IJ V W. right. rewrite nth_error_map in V, W.
  destruct (nth_error ks i) as [x|] eqn:X; [|discriminate V]. destruct (nth_error ks j) as [y|] eqn:Y; [|discriminate W].
  injection V as <-. injection W as <-. exists a, x, y. split; [reflexivity|]. split; [reflexivity|]. intros E. subst y. apply IJ.
  apply (proj1 (NoDup_nth_error ks) D); [apply nth_error_Some; congruence|congruence].
Qed.
Lemma zrange_NoDup n : NoDup (zrange n).
Proof. unfold zrange. apply FinFun.Injective_map_NoDup; [intros x y H; lia|apply seq_NoDup]. Qed.

Lemma gives_split m m1 a mos : grows m m1 -> (length m <= a)%nat -> nth_error m1 a = Some (CPix mos) -> img_ok mos ->
  gives_views m (msplit_mosaic a m1) (split_mosaic mos).
Proof.
  intros G L N O. unfold msplit_mosaic, split_mosaic, mbind, pix. rewrite N. dif E; [split; [exact G|reflexivity]|].
  split; [exact G|]. cbn [fst snd mret].
  assert (X : forall ks, (forall k, In k ks -> 0 <= k) ->
    exists ims, mapM (fun i => sub2d mos (i * nc mos) ((i + 1) * nc mos) 0 (nc mos)) ks = Ok ims /\ Forall2 (fresh_view m m1) (map (VPart a) ks) ims).
  { intros ks. induction ks as [|k ks IH]; intros K; simpl; [exists []; split; [reflexivity|constructor]|].
    destruct (sub2d_exists mos (k * nc mos) ((k + 1) * nc mos) 0 (nc mos) O) as (w & W). rewrite W. cbn [bind].
    destruct IH as (ims & I1 & I2); [intros x X; apply K; right; exact X|]. rewrite I1. exists (w :: ims). split; [reflexivity|].
    constructor; [|exact I2]. split; [exact L|]. split.
    - exists mos. simpl. split; [exact N|]. split; [apply O|]. split; [apply O|]. apply K. left. reflexivity.
    - unfold values, mbind, pix, mlift, block. rewrite N. exact W. }
  destruct (X (zrange (nr mos / nc mos))) as (ims & I1 & I2); [intros k K; apply In_zrange in K; lia|]. rewrite I1.
  split; [exact I2|]. apply separate_parts, zrange_NoDup.
Qed.

Lemma views_bind m (c : M nat) p (k : nat -> M (list view)) (q : img Q -> res (list (img Q))) :
  gives m (c m) p ->
  (forall m1 a im, grows m m1 -> (length m <= a)%nat -> nth_error m1 a = Some (CPix im) -> img_ok im ->
     gives_views m (k a m1) (q im)) ->
  gives_views m (mbind c k m) (let* im := p in q im).
Proof.
  intros (G & H) K. unfold mbind. destruct (c m) as [m1 [a|e]]; simpl in *; destruct p as [im|e']; try contradiction.
  - destruct H as (L & N & O). exact (K m1 a im G L N O).
  - subst e'. split; [exact G|reflexivity].
Qed.

Lemma gives_each r f (c : Z -> M nat) (p : Z -> res (img Q)) : (forall m k, holds r f m -> gives m (c k m) (p k)) ->
  forall ks m, holds r f m -> gives_views m (mmap (fun k => let! a := c k in mret (VAll a)) ks m) (mapM p ks).
Proof.
  intros C ks. induction ks as [|k ks IH]; intros m H; simpl.
  - split; [apply grows_refl|]. split; [constructor|apply separate_nil].
  - unfold mbind at 1. unfold mbind at 1. destruct (C m k H) as (G & R).
    destruct (c k m) as [m1 [a|e]]; simpl in G, R; destruct (p k) as [im|e']; try contradiction; cbn [bind].
    2: { subst e'. split; [exact G|reflexivity]. }
    destruct R as (L & N & O). cbn [mret]. unfold mbind at 1.
    destruct (IH m1 (holds_grows _ _ _ _ H G)) as (G2 & R2).
    destruct (mmap _ ks m1) as [m2 [l|e]]; simpl in G2, R2; destruct (mapM p ks) as [ims|e']; try contradiction; cbn [bind].
    2: { subst e'. split; [exact (grows_trans _ _ _ G G2)|reflexivity]. }
    destruct R2 as (F & S). split; [exact (grows_trans _ _ _ G G2)|]. cbn [fst snd mret].
    assert (LA : (a < length m1)%nat) by (apply nth_error_Some; congruence). pose proof (grows_len _ _ G) as LM.
    assert (NA : nth_error m2 a = Some (CPix im)) by exact (grows_cell _ _ _ _ G2 N).
    assert (FR : Forall (fun v => (length m1 <= addr v)%nat) l).
    { clear -F. induction F as [|v i l' ims' (FA & _) F' IHF]; constructor; assumption. }
    split.
    + constructor.
      * split; [exact L|]. split; [exists im; simpl; split; [exact NA|split; [apply O|split; [apply O|exact I]]]|].
        simpl. unfold pix. rewrite NA. reflexivity.
      * clear -F LM. induction F as [|v i l' ims' (FA & FB) F' IHF]; constructor; [split; [lia|exact FB]|exact IHF].
    + intros [|i] [|j] v w IJ V W; [congruence| | |].
      * simpl in V, W. injection V as <-. left. simpl. rewrite Forall_forall in FR. pose proof (FR w (nth_error_In _ _ W)). lia.
      * simpl in V, W. injection W as <-. left. simpl. rewrite Forall_forall in FR. pose proof (FR v (nth_error_In _ _ V)). lia.
      * exact (S i j v w (fun E => IJ (f_equal Datatypes.S E)) V W).
Qed.

Lemma views_seen {A} m r f (x : medsfile -> res A) (k : A -> M (list view)) q : holds r f m ->
  (forall y, x f = Ok y -> gives_views m (k y m) (q y)) ->
  gives_views m (mbind (seen r) (fun f => mbind (mlift (x f)) k) m) (let* y := x f in q y).
Proof.
  intros H K. unfold mbind. rewrite (seen_holds _ _ _ H). unfold mlift. destruct (x f) as [y|e]; [exact (K y eq_refl)|].
  split; [apply grows_refl|reflexivity].
Qed.

Lemma gives_psf_list r f m i : holds r f m -> gives_views m (mget_psf_list r i m) (get_psf_list f i).
Proof.
  intros H. unfold mget_psf_list, get_psf_list. apply (views_seen m r f (fun f => py_index (m_cat f) i)); [exact H|].
  intros o _. apply (gives_each r f (fun k => mget_cutout r i k RPsf) (fun k => get_psf f i k)); [|exact H].
  intros m1 k H1. exact (gives_cutout r f m1 m1 i k RPsf H1 (grows_refl _)).
Qed.
Lemma gives_uberseg_list fuel r f m i fast : holds r f m -> gives_views m (mget_uberseg_list fuel r i fast m) (get_uberseg_list fuel f i fast).
Proof.
  intros H. unfold mget_uberseg_list, get_uberseg_list. apply (views_seen m r f (fun f => py_index (m_cat f) i)); [exact H|].
  intros o _. apply (gives_each r f (fun k => mget_uberseg fuel r i k fast) (fun k => get_uberseg fuel f i k fast)); [|exact H].
  intros m1 k H1. exact (gives_uberseg fuel r f m1 i k fast H1).
Qed.
Lemma gives_cutout_list r f m i t : holds r f m -> gives_views m (mget_cutout_list r i t m) (get_cutout_list_any f i t).
Proof.
  intros H. destruct t as [|t]; [exact (gives_psf_list r f m i H)|].
  unfold mget_cutout_list, get_cutout_list_any, get_cutout_list. apply views_bind; [exact (gives_mosaic r f m m i (RCut t) H (grows_refl _))|].
  intros m1 a im. apply gives_split.
Qed.
Lemma gives_cweight_list r f m i b : holds r f m -> gives_views m (mget_cweight_cutout_list r i b m) (get_cweight_cutout_list f i b).
Proof.
  intros H. apply views_bind; [exact (gives_cweight_mosaic r f m i b H)|]. intros m1 a im. apply gives_split.
Qed.
Lemma gives_cseg_list r f m i : holds r f m -> gives_views m (mget_cseg_cutout_list r i m) (get_cseg_cutout_list f i).
Proof.
  intros H. apply views_bind; [exact (gives_cseg_mosaic r f m i H)|]. intros m1 a im. apply gives_split.
Qed.

(** ** Calls *)
Definition gives_answer (m : mem) (o : mem * res handed) (p : res answer) : Prop :=
  grows m (fst o) /\
  match snd o, p with
  | Ok x, Ok ans => snd (read_handed x (fst o)) = Ok ans /\ separate (views_of x) /\
                    Forall (fun v => (length m <= addr v)%nat /\ valid (fst o) v) (views_of x)
  | Err e, Err e' => e = e'
  | _, _ => False
  end.

Lemma mmap_values m0 m l ims : Forall2 (fresh_view m0 m) l ims -> mmap values l m = (m, Ok ims).
Proof.
  intros F. induction F as [|v im l ims (_ & _ & V) F IH]; [reflexivity|]. simpl. unfold mbind at 1.
  rewrite (values_eq _ _ _ V). unfold mbind. rewrite IH. reflexivity.
Qed.
Lemma answer_many m (c : M (list view)) p : gives_views m (c m) p -> gives_answer m (many c m) (list_answer p).
Proof.
  intros (G & R). unfold many, list_answer, mbind. destruct (c m) as [m1 [l|e]]; simpl in *; destruct p as [ims|e']; try contradiction; cbn [bind].
  - destruct R as (F & S). split; [exact G|]. cbn [fst snd mret views_of read_handed].
    unfold mbind. rewrite (mmap_values _ _ _ _ F). split; [reflexivity|]. split; [exact S|].
    clear -F. induction F as [|v i l' ims' (FA & FB & _) F' IHF]; constructor; auto.
  - split; [exact G|exact R].
Qed.
Lemma answer_one m (c : M nat) p : gives m (c m) p -> gives_answer m (one c m) (image_answer p).
Proof.
  intros (G & R). unfold one, image_answer, mbind. destruct (c m) as [m1 [a|e]]; simpl in *; destruct p as [im|e']; try contradiction; cbn [bind].
  - destruct R as (L & N & O). split; [exact G|]. cbn [fst snd mret views_of read_handed].
    assert (F : Forall2 (fresh_view m m1) [VAll a] [im]).
    { constructor; [|constructor]. split; [exact L|]. split; [exists im; simpl; split; [exact N|split; [apply O|split; [apply O|exact I]]]|].
      simpl. unfold pix. rewrite N. reflexivity. }
    unfold mbind. rewrite (mmap_values _ _ _ _ F). split; [reflexivity|]. split.
    + intros [|i] [|j] v w IJ V W; [congruence|destruct j; discriminate W|destruct i; discriminate V|destruct i; discriminate V].
    + inversion F as [|v i l' ims' (FA & FB & _) F']; subst. constructor; auto.
  - split; [exact G|exact R].
Qed.
Lemma answer_facts {A} m r f (g : medsfile -> res A) h q : holds r f m ->
  (forall x, views_of (h x) = [] /\ forall m1, snd (read_handed (h x) m1) = Ok (q x)) ->
  gives_answer m (facts r g h m) (let* x := g f in Ok (q x)).
Proof.
  intros H K. unfold facts, mbind, mlift. rewrite (seen_holds _ _ _ H). destruct (g f) as [x|e]; cbn [bind].
  - split; [apply grows_refl|]. cbn [fst snd mret]. destruct (K x) as (K1 & K2). rewrite K1. split; [apply K2|].
    split; [apply separate_nil|constructor].
  - split; [apply grows_refl|reflexivity].
Qed.

Lemma call_answer fuel r f m q : holds r f m -> gives_answer m (mcall fuel r q m) (file_answer fuel f q).
Proof.
  intros H. pose proof (grows_refl m) as G. destruct q; cbn [mcall file_answer].
  - apply answer_one, gives_cutout; assumption.
  - apply answer_one, gives_mosaic; assumption.
  - apply answer_many, gives_cutout_list; assumption.
  - apply answer_one, gives_cweight; assumption.
  - apply answer_one, gives_cweight_mosaic; assumption.
  - apply answer_many, gives_cweight_list; assumption.
  - apply answer_one, gives_uberseg; assumption.
  - apply answer_many, gives_uberseg_list; assumption.
  - apply answer_one, gives_cseg; assumption.
  - apply answer_one, gives_cseg_mosaic; assumption.
  - apply answer_many, gives_cseg_list; assumption.
  - apply answer_one, gives_cseg_weight; assumption.
  - apply answer_one, gives_interp; assumption.
  - apply answer_one, gives_interp_mosaic; assumption.
  - apply answer_one, gives_jacobian_matrix; assumption.
  - apply (answer_facts m r f (fun f => get_source_path f iobj icut)); [exact H|]. split; reflexivity.
  - apply (answer_facts m r f (fun f => get_jacobian f iobj icut)); [exact H|]. split; reflexivity.
  - apply (answer_facts m r f (fun f => get_number f iobj)); [exact H|]. split; reflexivity.
Qed.

(** ** Assignments by the program *)
Lemma tab2M_dims {A} h w (g : Z -> Z -> res A) y : tab2M h w g = Ok y -> nr y = h /\ nc y = w.
Proof. unfold tab2M. intros H. apply bind_ok in H. destruct H as (d & _ & H). injection H as <-. split; reflexivity. Qed.
Lemma assign_effect v im m : fst (assign v im m) = m \/
  exists old new, nth_error m (addr v) = Some (CPix old) /\ fst (assign v im m) = upd m (addr v) (CPix new) /\ nr new = nr old /\ nc new = nc old /\
    match v with VAll _ => True | VPart _ k => paste old (k * nc old) ((k + 1) * nc old) 0 (nc old) im = Ok new end.
Proof.
  destruct v as [a|a k]; unfold assign, mbind, pix, mlift; simpl; destruct (nth_error m a) as [[l|l|old]|] eqn:N; auto.
  - dif E; [|left; reflexivity]. right. exists old, im. repeat split; lia.
  - destruct (paste old (k * nc old) ((k + 1) * nc old) 0 (nc old) im) as [new|e] eqn:P; [|left; reflexivity].
    right. exists old, new. split; [reflexivity|]. split; [reflexivity|].
    assert (D : nr new = nr old /\ nc new = nc old).
    { clear -P. unfold paste in P. revert P. dif E; [|discriminate]. intros P. exact (tab2M_dims _ _ _ _ P). }
    split; [apply D|]. split; [apply D|exact P].
Qed.
Lemma tab2M_same {A} h w (f g : Z -> Z -> res A) : 0 <= h -> 0 <= w -> (forall r c, 0 <= r < h -> 0 <= c < w -> f r c = g r c) -> tab2M h w f = tab2M h w g.
Proof.
  intros Hh Hw E. unfold tab2M. f_equal.
  assert (X : forall p, In p (zrange (h * w)) -> f (p / w) (p mod w) = g (p / w) (p mod w)).
  { intros p Hp. apply In_zrange in Hp. destruct (unflat h w p Hp Hh Hw) as (U1 & U2 & _). apply E; assumption. }
  revert X. generalize (zrange (h * w)). intros l. induction l as [|p l IH]; intros X; [reflexivity|]. simpl.
  rewrite (X p (or_introl eq_refl)), IH; [reflexivity|]. intros q Hq. apply X. right. exact Hq.
Qed.
Lemma block_apart old new im j k : 0 <= nr old -> 0 <= nc old -> 0 <= j -> 0 <= k -> j <> k ->
  paste old (j * nc old) ((j + 1) * nc old) 0 (nc old) im = Ok new -> block new k = block old k.
Proof.
  intros R C J K D P. unfold paste in P. revert P. dif E; [|discriminate]. intros P.
  apply tab2M_ok in P; [|exact R|exact C]. destruct P as (_ & P2 & P3 & P4). unfold block. rewrite P3. unfold sub2d. rewrite P2, P3.
  apply tab2M_same; [lia|lia|]. intros r c Hr Hc.
  assert (B1 : 0 <= k * nc old) by nia. assert (B2 : 0 <= (k + 1) * nc old) by nia.
  assert (B3 : 0 <= j * nc old) by nia. assert (B4 : 0 <= (j + 1) * nc old) by nia.
  unfold np_bound in *. destruct (k * nc old <? 0) eqn:X1; [lia|]. destruct ((k + 1) * nc old <? 0) eqn:X2; [lia|].
  destruct (j * nc old <? 0) eqn:X3; [lia|]. destruct ((j + 1) * nc old <? 0) eqn:X4; [lia|].
  destruct (0 <? 0) eqn:X5; [lia|]. destruct (nc old <? 0) eqn:X6; [lia|].
  destruct (P4 (Z.min (k * nc old) (nr old) + r) (Z.min 0 (nc old) + c)) as (x & X & PX); [lia|lia|].
  unfold px_res at 1. rewrite PX. revert X. dif IN; [|intros X; symmetry; exact X].
  exfalso. assert (j < k \/ k < j) as [LT|LT] by lia.
  - assert ((j + 1) * nc old <= k * nc old) by nia. lia.
  - assert ((k + 1) * nc old <= j * nc old) by nia. lia.
Qed.

(** ** Programs *)
Definition inv (m0 : mem) (r : reader) (f : medsfile) (st : state) : Prop :=
  holds r f (fst st) /\ grows m0 (fst st) /\ (length m0 <= rd_cat r)%nat /\ (length m0 <= rd_info r)%nat /\
  separate (snd st) /\ Forall (fun v => (length m0 <= addr v)%nat /\ valid (fst st) v) (snd st).

Lemma separate_app l1 l2 n : separate l1 -> separate l2 -> Forall (fun v => (addr v < n)%nat) l1 -> Forall (fun v => (n <= addr v)%nat) l2 ->
  separate (l1 ++ l2).
Proof.
  intros S1 S2 F1 F2 i j v w IJ V W. rewrite Forall_forall in F1, F2.
  destruct (Nat.lt_ge_cases i (length l1)) as [LI|LI]; [rewrite nth_error_app1 in V by exact LI|rewrite nth_error_app2 in V by exact LI];
  (destruct (Nat.lt_ge_cases j (length l1)) as [LJ|LJ]; [rewrite nth_error_app1 in W by exact LJ|rewrite nth_error_app2 in W by exact LJ]).
  - exact (S1 i j v w IJ V W).
  - left. pose proof (F1 v (nth_error_In _ _ V)). pose proof (F2 w (nth_error_In _ _ W)). lia.
  - left. pose proof (F2 v (nth_error_In _ _ V)). pose proof (F1 w (nth_error_In _ _ W)). lia.
  - apply (S2 (i - length l1)%nat (j - length l1)%nat v w); [lia|exact V|exact W].
Qed.
Lemma valid_len m v : valid m v -> (addr v < length m)%nat.
Proof. intros (im & N & _). apply nth_error_Some. congruence. Qed.

Definition new_tables (f : medsfile) (a : action) : medsfile :=
  match a with AssignCat l => with_tables f l (m_info f) | AssignInfo l => with_tables f (m_cat f) l | _ => f end.

Lemma valid_upd m a old new v : nth_error m a = Some (CPix old) -> nr new = nr old -> nc new = nc old -> valid m v -> valid (upd m a (CPix new)) v.
Proof.
  intros N R C (im & X & Y). destruct (Nat.eq_dec a (addr v)) as [E|E].
  - rewrite <- E in X. rewrite X in N. injection N as <-. exists new. rewrite E.
    split; [apply upd_same, nth_error_Some; congruence|]. rewrite R, C. exact Y.
  - exists im. rewrite upd_other by exact E. split; [exact X|exact Y].
Qed.
Lemma valid_other m a c v : (forall im, nth_error m a <> Some (CPix im)) -> valid m v -> valid (upd m a c) v.
Proof.
  intros N (im & X & Y). exists im. rewrite upd_other; [split; assumption|]. intros ->. exact (N im X).
Qed.

Lemma act_inv fuel m0 r f st a : inv m0 r f st -> inv m0 r (new_tables f a) (fst (act fuel r st a)).
Proof.
  destruct st as [m held]. intros (H & G & RC & RI & S & F). cbn [fst snd] in *.
  destruct a as [q|h im|l|l]; cbn [act new_tables].
  - destruct (call_answer fuel r f m q H) as (G2 & R2). destruct (mcall fuel r q m) as [m2 [x|e]]; cbn [fst snd] in *.
    + destruct (file_answer fuel f q) as [ans|e]; [|contradiction]. destruct R2 as (_ & S2 & F2).
      split; [exact (holds_grows _ _ _ _ H G2)|]. split; [exact (grows_trans _ _ _ G G2)|]. split; [exact RC|]. split; [exact RI|]. cbn [fst snd].
      split; [|apply Forall_app; split].
      * apply separate_app with (n := length m); [exact S|exact S2| |].
        -- eapply Forall_impl; [|exact F]. intros v (_ & V). exact (valid_len _ _ V).
        -- eapply Forall_impl; [|exact F2]. intros v (V & _). exact V.
      * eapply Forall_impl; [|exact F]. intros v (A & V). split; [exact A|exact (valid_grows _ _ _ G2 V)].
      * pose proof (grows_len _ _ G). eapply Forall_impl; [|exact F2]. intros v (A & V). cbn beta. split; [lia|exact V].
    + split; [exact (holds_grows _ _ _ _ H G2)|]. split; [exact (grows_trans _ _ _ G G2)|]. split; [exact RC|]. split; [exact RI|].
      split; [exact S|]. cbn [fst snd]. eapply Forall_impl; [|exact F]. intros v (A & V). split; [exact A|exact (valid_grows _ _ _ G2 V)].
  - destruct (nth_error held h) as [v|] eqn:V; [|repeat (split; [assumption|]); assumption]. cbn [fst snd].
    assert (FV : (length m0 <= addr v)%nat /\ valid m v) by (rewrite Forall_forall in F; exact (F v (nth_error_In _ _ V))).
    destruct (assign_effect v im m) as [E|(old & new & N & E & RR & CC & _)]; rewrite E; [repeat (split; [assumption|]); assumption|].
    split; [exact (holds_upd _ _ _ _ _ _ H N)|]. split; [exact (grows_upd _ _ _ _ G (proj1 FV))|]. split; [exact RC|]. split; [exact RI|].
    split; [exact S|]. cbn [fst snd]. eapply Forall_impl; [|exact F]. intros w (A & W). split; [exact A|exact (valid_upd _ _ _ _ _ N RR CC W)].
  - destruct H as (H1 & H2 & H3). cbn [fst snd].
    assert (NE : rd_cat r <> rd_info r) by (intros E; rewrite E in H1; rewrite H1 in H2; discriminate H2).
    split; [|split; [exact (grows_upd _ _ _ _ G RC)|split; [exact RC|split; [exact RI|split; [exact S|]]]]].
    + split; [apply upd_same, nth_error_Some; congruence|]. split; [cbn [fst snd]; rewrite upd_other by exact NE; exact H2|].
      rewrite H3. reflexivity.
    + cbn [fst snd]. eapply Forall_impl; [|exact F]. intros w (A & W). split; [exact A|]. apply valid_other; [|exact W]. intros im. rewrite H1. discriminate.
  - destruct H as (H1 & H2 & H3). cbn [fst snd].
    assert (NE : rd_info r <> rd_cat r) by (intros E; rewrite E in H2; rewrite H1 in H2; discriminate H2).
    split; [|split; [exact (grows_upd _ _ _ _ G RI)|split; [exact RC|split; [exact RI|split; [exact S|]]]]].
    + split; [cbn [fst snd]; rewrite upd_other by exact NE; exact H1|]. split; [apply upd_same, nth_error_Some; congruence|].
      rewrite H3. reflexivity.
    + cbn [fst snd]. eapply Forall_impl; [|exact F]. intros w (A & W). split; [exact A|]. apply valid_other; [|exact W]. intros im. rewrite H2. discriminate.
Qed.

Lemma session_inv fuel m0 r : forall acts f st, inv m0 r f st -> exists f', inv m0 r f' (fst (session fuel r st acts)).
Proof.
  intros acts. induction acts as [|a acts IH]; intros f st H; simpl; [exists f; exact H|].
  pose proof (act_inv fuel m0 r f st a H) as H2. destruct (act fuel r st a) as [st' out]. cbn [fst] in H2.
  destruct (IH _ _ H2) as (f' & H3). destruct (session fuel r st' acts) as [st'' outs]. exists f'. exact H3.
Qed.

Lemma opened f m0 m r : open_reader f m0 = (m, Ok r) -> inv m0 r f (m, []).
Proof.
  unfold open_reader, mbind, alloc, mret. intros H. injection H as <- <-. rewrite <- app_assoc. cbn [fst snd app].
  split; [|split; [eexists; reflexivity|split; [reflexivity|split; [cbn [rd_info]; rewrite app_length; lia|split; [apply separate_nil|constructor]]]]].
  split; [cbn [fst rd_cat]; rewrite nth_error_app2, Nat.sub_diag by lia; reflexivity|].
  split; [|cbn [rd_fits]; destruct f; reflexivity]. cbn [fst rd_info]. rewrite app_length.
  rewrite nth_error_app2 by lia. replace (length m0 + length [CCat (m_cat f)] - length m0)%nat with 1%nat by (cbn; lia). reflexivity.
Qed.

(** The answers are those of the file. *)
Lemma answers_of_file fuel m0 r f : forall acts st, inv m0 r f st -> Forall leaves_tables acts ->
  snd (session fuel r st acts) = map (file_answer fuel f) (calls acts).
Proof.
  intros acts. induction acts as [|a acts IH]; intros st H L; [reflexivity|]. inversion L as [|? ? L1 L2]; subst.
  assert (E : new_tables f a = f) by (destruct a; [reflexivity|reflexivity|contradiction|contradiction]).
  pose proof (act_inv fuel m0 r f st a H) as H2. rewrite E in H2. cbn [session].
  destruct (act fuel r st a) as [st' out] eqn:A. cbn [fst] in H2. specialize (IH st' H2 L2).
  destruct (session fuel r st' acts) as [st'' outs]. cbn [snd] in *. subst outs.
  destruct a as [q|h im|l|l]; [| |contradiction|contradiction].
  - destruct st as [m held]. cbn [act] in A. destruct (call_answer fuel r f m q (proj1 H)) as (_ & R).
    destruct (mcall fuel r q m) as [m2 [x|e]]; cbn [fst snd] in R.
    + injection A as <- <-. cbn [calls map]. destruct (file_answer fuel f q) as [ans|e]; [|contradiction]. destruct R as (R & _). rewrite R. reflexivity.
    + injection A as <- <-. cbn [calls map]. destruct (file_answer fuel f q) as [ans|e']; [contradiction|]. subst e'. reflexivity.
  - destruct st as [m held]. cbn [act] in A. cbn [calls].
    destruct (nth_error held h); injection A as <- <-; reflexivity.
Qed.

(** An array handed out changes only when it is assigned to. *)
Lemma act_keeps fuel m0 r f st a h x : inv m0 r f st -> held_value st h = Some x -> (forall im, a <> Assign h im) ->
  held_value (fst (act fuel r st a)) h = Some x.
Proof.
  destruct st as [m held]. intros (H & G & RC & RI & S & F) X NA. unfold held_value in *. cbn [fst snd] in *.
  destruct (nth_error held h) as [v|] eqn:V; [|discriminate X]. injection X as <-.
  assert (FV : (length m0 <= addr v)%nat /\ valid m v) by (rewrite Forall_forall in F; exact (F v (nth_error_In _ _ V))). destruct FV as (FA & FV).
  destruct a as [q|h' im|l|l]; cbn [act].
  - destruct (call_answer fuel r f m q H) as (G2 & _). destruct (mcall fuel r q m) as [m2 [y|e]]; cbn [fst snd] in *.
    + rewrite nth_error_app1 by (apply nth_error_Some; congruence). rewrite V. rewrite (values_grows _ _ _ FV G2). reflexivity.
    + rewrite V. rewrite (values_grows _ _ _ FV G2). reflexivity.
  - destruct (nth_error held h') as [w|] eqn:W; cbn [fst snd]; rewrite V; [|reflexivity].
    assert (HH : h' <> h) by (intros ->; exact (NA im eq_refl)).
    destruct (assign_effect w im m) as [E|(old & new & N & E & RR & CC & PP)]; rewrite E; [reflexivity|].
    destruct (S h' h w v HH W V) as [D|(a & j & k & -> & -> & JK)].
    + f_equal. apply values_cell. apply upd_other. exact D.
    + cbn [addr] in *. destruct FV as (o2 & N2 & R2 & C2 & K2). cbn [addr] in N2. rewrite N in N2. injection N2 as <-.
      assert (FW : valid m (VPart a j)) by (rewrite Forall_forall in F; exact (proj2 (F _ (nth_error_In _ _ W)))).
      destruct FW as (o3 & _ & _ & _ & J2).
      unfold values, mbind, pix, mlift. rewrite upd_same by (apply nth_error_Some; congruence). rewrite N. cbn [snd].
      rewrite (block_apart old new im j k R2 C2 J2 K2 JK PP). reflexivity.
  - cbn [fst snd]. rewrite V. f_equal. apply values_cell. apply upd_other. intros E. destruct FV as (im & N & _). destruct H as (H1 & _).
    rewrite <- E, H1 in N. discriminate N.
  - cbn [fst snd]. rewrite V. f_equal. apply values_cell. apply upd_other. intros E. destruct FV as (im & N & _). destruct H as (_ & H1 & _).
    rewrite <- E, H1 in N. discriminate N.
Qed.

Lemma memory_answers fuel f m0 m r acts : open_reader f m0 = (m, Ok r) -> Forall leaves_tables acts ->
  snd (session fuel r (m, []) acts) = map (file_answer fuel f) (calls acts).
Proof. intros O L. exact (answers_of_file fuel m0 r f acts _ (opened _ _ _ _ O) L). Qed.
Lemma memory_kept fuel f m0 m r acts a h x : open_reader f m0 = (m, Ok r) ->
  held_value (fst (session fuel r (m, []) acts)) h = Some x -> (forall im, a <> Assign h im) ->
  held_value (fst (session fuel r (m, []) (acts ++ [a]))) h = Some x.
Proof.
  intros O X NA. destruct (session_inv fuel m0 r acts f _ (opened _ _ _ _ O)) as (f' & I).
  pose proof (act_keeps fuel m0 r f' _ a h x I X NA) as K. revert K. clear. generalize (m, @nil view). revert a h x.
  induction acts as [|b acts IH]; intros a h x st; cbn [session app].
  - cbn [fst]. destruct (act fuel r st a) as [st' out]. cbn [fst]. auto.
  - destruct (act fuel r st b) as [st' out]. intros K. specialize (IH a h x st').
    destruct (session fuel r st' acts) as [s1 o1]. destruct (session fuel r st' (acts ++ [a])) as [s2 o2]. cbn [fst] in *. auto.
Qed.
Lemma memory_others fuel f m0 m r acts i : open_reader f m0 = (m, Ok r) -> (i < length m0)%nat ->
  nth_error (fst (fst (session fuel r (m, []) acts))) i = nth_error m0 i.
Proof.
  intros O L. destruct (session_inv fuel m0 r acts f _ (opened _ _ _ _ O)) as (f' & I). destruct I as (_ & (t & G) & _).
  rewrite G. apply nth_error_app1. exact L.
Qed.

Lemma answers_of_tables fuel m0 r : forall acts f st, inv m0 r f st -> snd (session fuel r st acts) = table_answers fuel f acts.
Proof.
  intros acts. induction acts as [|a acts IH]; intros f st H; [reflexivity|].
  pose proof (act_inv fuel m0 r f st a H) as H2. cbn [session].
  destruct (act fuel r st a) as [st' out] eqn:A. cbn [fst] in H2. specialize (IH _ st' H2).
  destruct (session fuel r st' acts) as [st'' outs]. cbn [snd] in *. subst outs. destruct st as [m held].
  destruct a as [q|h im|l|l]; cbn [act new_tables table_answers] in *.
  - destruct (call_answer fuel r f m q (proj1 H)) as (_ & R).
    destruct (mcall fuel r q m) as [m2 [x|e]]; cbn [fst snd] in R.
    + injection A as <- <-. destruct (file_answer fuel f q) as [ans|e]; [|contradiction]. destruct R as (R & _). rewrite R. reflexivity.
    + injection A as <- <-. destruct (file_answer fuel f q) as [ans|e']; [contradiction|]. subst e'. reflexivity.
  - destruct (nth_error held h); injection A as <- <-; reflexivity.
  - injection A as <- <-. reflexivity.
  - injection A as <- <-. reflexivity.
Qed.
Lemma memory_tables fuel f m0 m r acts : open_reader f m0 = (m, Ok r) ->
  snd (session fuel r (m, []) acts) = table_answers fuel f acts.
Proof. intros O. exact (answers_of_tables fuel m0 r acts f _ (opened _ _ _ _ O)). Qed.

Lemma memory_refuted : exists fuel f m0 m r acts, open_reader f m0 = (m, Ok r) /\
  snd (session fuel r (m, []) acts) <> map (file_answer fuel f) (calls acts).
Proof.
  exists 9%nat, mx_file, [CPix mx_zero], mx_mem, mx_reader,
    [AssignCat [mx_obj 1 2 4; mx_obj 2 1 8]; Call (QCutout 0 0 (RCut TImage))].
  split; [reflexivity|]. vm_compute. intros H. discriminate H.
Qed.
