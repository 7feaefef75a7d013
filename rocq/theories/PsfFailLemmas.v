(** Loops that stop at an exception, and the PSF layout. *)
From Coq Require Import Lia ZifyBool ZifyNat String Sorted.
From Verif Require Import Base BaseLemmas Img ImgLemmas Types BoundsM Reader MakerLayout MakerWrite MakerFile MakerFail SpecTiles SpecFile
  StartLemmas ReadLemmas WriteLemmas FileLemmas PsfLemmas MakerLemmas2 MakerLemmas3 Typed SpecTyped PsfTy SpecPsfTy PsfTyLemmas PsfTyLemmas2 PsfTyLemmas3
  PsfState SpecPsfState PsfStateLemmas PsfStateLemmas2 PsfFail SpecPsfFail FailLemmas FailLemmas2.
Open Scope Z_scope.

(** * Loops *)

Lemma loop_app {T X} (b : T -> X -> run T) xs ys : forall s,
  loop b (xs ++ ys) s = match loop b xs s with (s', None) => loop b ys s' | r => r end.
Proof.
  induction xs as [|x xs IH]; intros s; [reflexivity|]. cbn [app loop]. destruct (b s x) as [s' [e|]]; [reflexivity|apply IH].
Qed.

Lemma loop_ext {T X} (b b' : T -> X -> run T) xs : (forall s x, In x xs -> b s x = b' s x) -> forall s, loop b xs s = loop b' xs s.
Proof.
  induction xs as [|x xs IH]; intros H s; [reflexivity|]. cbn [loop]. rewrite H by (left; reflexivity).
  destruct (b' s x) as [s' [e|]]; [reflexivity|]. apply IH. intros s1 y Hy. apply H. right; exact Hy.
Qed.

Lemma loop_map {T X Y} (b : T -> Y -> run T) (g : X -> Y) xs : forall s, loop b (map g xs) s = loop (fun s x => b s (g x)) xs s.
Proof. induction xs as [|x xs IH]; intros s; [reflexivity|]. cbn [map loop]. destruct (b s (g x)) as [s' [e|]]; [reflexivity|apply IH]. Qed.

Lemma loop_flat_map {T X Y} (b : T -> Y -> run T) (g : X -> list Y) xs : forall s,
  loop b (flat_map g xs) s = loop (fun s x => loop b (g x) s) xs s.
Proof.
  induction xs as [|x xs IH]; intros s; [reflexivity|]. cbn [flat_map loop]. rewrite loop_app.
  destruct (loop b (g x) s) as [s' [e|]]; [reflexivity|apply IH].
Qed.

Lemma slots_pairs o : ncut_ok o -> forall p, In p (combine (zrange (o_ncut o)) (used_slots o)) -> get_slot o (fst p) = Ok (snd p).
Proof.
  intros N [i s] H. cbn [fst snd]. assert (K : In (o, i, s) (cat_keys [o])).
  { unfold cat_keys. cbn [flat_map]. rewrite app_nil_r. apply in_map_iff. exists (i, s). split; [reflexivity|exact H]. }
  apply in_cat_keys' in K; [|constructor; [exact N|constructor]]. destruct K as (_ & R & Z). apply get_slot_ok. exact Z.
Qed.

Lemma slots_fst o : ncut_ok o -> map fst (combine (zrange (o_ncut o)) (used_slots o)) = zrange (o_ncut o).
Proof.
  intros N. assert (L : length (zrange (o_ncut o)) = length (used_slots o)).
  { rewrite zrange_length. unfold used_slots. rewrite firstn_length. unfold ncut_ok, zlen in N. lia. }
  revert L. generalize (zrange (o_ncut o)) (used_slots o). induction l as [|x l IH]; intros [|y l'] L; try discriminate; [reflexivity|].
  cbn [combine map]. f_equal. apply IH. injection L as L. exact L.
Qed.

Lemma loop_cat_keys {T} (g : T -> obj -> slot -> res T) cat : Forall ncut_ok cat -> forall x,
  loop (fun x o => loop (fun x icut => step x (let* s := get_slot o icut in g x o s)) (zrange (o_ncut o)) x) cat x =
  loop (fun x k => step x (g x (k_obj k) (k_slot k))) (cat_keys cat) x.
Proof.
  intros N x. unfold cat_keys. rewrite loop_flat_map. apply loop_ext. intros s o Ho.
  rewrite Forall_forall in N. specialize (N o Ho). rewrite loop_map.
  rewrite <- (slots_fst o N) at 1. rewrite loop_map. apply loop_ext. intros s1 p Hp. rewrite (slots_pairs o N p Hp). reflexivity.
Qed.

(** Where a loop stopped. *)
Lemma loop_stop {T X} (f : T -> X -> res T) xs : forall s r, loop (fun s x => step s (f s x)) xs s = r ->
  (exists s', r = (s', None) /\ foldM f xs s = Ok s') \/
  (exists pre x post s' e, xs = pre ++ x :: post /\ r = (s', Some e) /\ foldM f pre s = Ok s' /\ f s' x = Err e).
Proof.
  induction xs as [|x xs IH]; intros s r H; cbn [loop] in H.
  - left. exists s. split; [symmetry; exact H|reflexivity].
  - unfold step at 1 in H. destruct (f s x) as [s1|e] eqn:F.
    + destruct (IH s1 r H) as [(s' & -> & G)|(pre & y & post & s' & e & -> & -> & G & F')].
      * left. exists s'. split; [reflexivity|]. cbn [foldM]. rewrite F. exact G.
      * right. exists (x :: pre), y, post, s', e. split; [reflexivity|]. split; [reflexivity|]. cbn [foldM]. rewrite F. split; [exact G|exact F'].
    + right. exists [], x, xs, s, e. split; [reflexivity|]. split; [symmetry; exact H|]. split; [reflexivity|exact F].
Qed.

(** * The layout: the ranges of the PSF images are consecutive *)

Definition srange (s : slot) : Z * Z := (s_psf_start s, s_psf_start s + s_psf_nr s * s_psf_nc s).

Definition sh_ok (s : slot) : Prop := 0 <= s_psf_nr s /\ 0 <= s_psf_nc s.

Lemma upd_first {A} (l : list A) n a : (n < length l)%nat -> firstn (S n) (upd l n a) = firstn n l ++ [a].
Proof.
  revert n. induction l as [|x l IH]; intros [|n] H; cbn in *; try lia; [reflexivity|]. f_equal. apply IH. lia.
Qed.

Section Layout.
  Context {St : Type}.
  Variables (c : lconf) (pc : pconf) (psfs : list (spsf St)) (st0 : St).
  Hypothesis OKA : arrays_ok psfs st0.

  Lemma shape_nonneg p st r cc col sh st' : In p psfs -> after psfs st0 st -> shape_state p st r cc col = Ok (sh, st') ->
    0 <= fst sh /\ 0 <= snd sh /\ after psfs st0 st'.
  Proof.
    intros Hp A H. destruct OKA as (A1 & A2). unfold shape_state in H. destruct (sp_rec_shape p) as [g|] eqn:G.
    - injection H as <- <-. destruct (A2 p g r cc col Hp G). auto.
    - apply bind_ok in H. destruct H as ([a s2] & Hr & H). cbn [fst snd] in H. injection H as <- <-. cbn [fst snd].
      destruct (A1 _ _ _ _ _ _ _ A Hp Hr) as ((B1 & B2 & _) & _). split; [exact B1|]. split; [exact B2|].
      exact (after_call _ _ _ _ _ _ _ _ _ A Hp Hr).
  Qed.

  Lemma layout_cuts_tiles o n : forall sl start total st sl' start' total' st', after psfs st0 st -> (n <= length sl)%nat ->
    foldM (layout_cut_state c pc psfs o) (zrange (Z.of_nat n)) (sl, start, total, st) = Ok (sl', start', total', st') ->
    tiles start (map srange (firstn n sl')) start' /\ total' - total = start' - start /\
    Forall2 same_cut sl sl' /\ after psfs st0 st' /\ Forall sh_ok (firstn n sl').
  Proof.
    induction n as [|n IH]; intros sl start total st sl' start' total' st' A L H.
    - cbn in H. injection H as <- <- <- <-. cbn [firstn map]. split; [constructor|]. split; [lia|]. split; [apply same_slots_refl|]. split; [exact A|constructor].
    - replace (Z.of_nat (S n)) with (Z.of_nat n + 1) in H by lia. rewrite zrange_succ in H by lia. rewrite foldM_app in H.
      apply bind_ok in H. destruct H as ([[[sl1 start1] total1] st1] & H1 & H).
      destruct (IH _ _ _ _ _ _ _ _ A (Nat.le_trans _ _ _ (Nat.le_succ_diag_r n) L) H1) as (T & Q & SS & A1 & SO). clear IH H1.
      assert (L1 : length sl1 = length sl) by (clear -SS; induction SS; cbn; congruence).
      cbn [foldM] in H. apply bind_ok in H. destruct H as ([[[sl2 start2] total2] st2] & H & E). injection E as <- <- <- <-.
      unfold layout_cut_state in H. apply bind_ok in H. destruct H as (s & Hs & H). apply bind_ok in H. destruct H as (p & Hp & H).
      apply py_index_In in Hp. apply bind_ok in H. destruct H as ([sh st3] & Hsh & H). apply bind_ok in H. destruct H as (sl3 & Hm & H).
      injection H as <- <- <- <-.
      destruct (shape_nonneg _ _ _ _ _ _ _ Hp A1 Hsh) as (S1 & S2 & A3).
      unfold modify in Hm. rewrite Nat2Z.id in Hm. destruct (nth_error sl1 n) as [s1|] eqn:Es; [|discriminate]. injection Hm as <-.
      rewrite upd_first by lia. rewrite map_app. split; [|split; [lia|split; [|split; [exact A3|]]]].
      + eapply tiles_app; [exact T|]. cbn [map]. unfold srange. cbn [set_psf s_psf_start s_psf_nr s_psf_nc].
        constructor; [nia|constructor].
      + eapply same_slots_trans; [exact SS|]. eapply FailLemmas2.upd_same; [exact Es|]. repeat split.
      + apply Forall_app. split; [exact SO|]. constructor; [|constructor]. split; assumption.
  Qed.

  Lemma layout_tiles cat : forall start total st cat' start' total' st', Forall ncut_ok cat -> after psfs st0 st ->
    layout_state c pc psfs cat start total st = Ok (cat', start', total', st') ->
    tiles start (psf_ranges cat') start' /\ total' - total = start' - start /\ Forall2 same_obj cat cat' /\ after psfs st0 st' /\
    Forall (fun o => Forall sh_ok (used_slots o)) cat'.
  Proof.
    induction cat as [|o cat IH]; intros start total st cat' start' total' st' N A H; cbn [layout_state] in H.
    - injection H as <- <- <- <-. split; [constructor|]. split; [lia|]. split; [constructor|]. split; [exact A|constructor].
    - inversion N as [|? ? N1 N2]; subst. apply bind_ok in H. destruct H as ([[[sl s1] t1] st1] & H1 & H).
      apply bind_ok in H. destruct H as ([[[cat1 s2] t2] st2] & H2 & H). injection H as <- <- <- <-.
      unfold ncut_ok, zlen in N1. replace (o_ncut o) with (Z.of_nat (Z.to_nat (o_ncut o))) in H1 by lia.
      assert (LN : (Z.to_nat (o_ncut o) <= length (o_slots o))%nat) by lia.
      destruct (layout_cuts_tiles _ _ _ _ _ _ _ _ _ _ A LN H1) as (T & Q & SS & A1 & SO).
      destruct (IH _ _ _ _ _ _ _ N2 A1 H2) as (T2 & Q2 & SS2 & A2 & SO2).
      split; [|split; [lia|split; [|split; [exact A2|]]]].
      + unfold psf_ranges. cbn [flat_map]. eapply tiles_app; [|exact T2]. unfold used_slots. cbn [set_slots o_ncut o_slots]. exact T.
      + constructor; [|exact SS2]. split; [reflexivity|]. split; [reflexivity|exact SS].
      + constructor; [exact SO|exact SO2].
  Qed.
End Layout.

(** * Writing images into consecutive ranges *)

Definition wdat (ka : (obj * Z * slot) * arr) : list fl := map (to_fl false) (dat (a_im (snd ka))).

Lemma put_err s a h e m : arr_ok a -> 0 <= s_psf_start s -> s_psf_start s + s_psf_nr s * s_psf_nc s <= m -> zlen h = m ->
  put_typed s a h = Err e ->
  ~ (nr (a_im a) = s_psf_nr s /\ nc (a_im a) = s_psf_nc s) /\ e = ValueError \/
  (exists x, In x (dat (a_im a)) /\ too_large a x) /\ e = FitsError.
Proof.
  intros (IO & _) P Q L H. unfold put_typed in H. destruct (_ && _) eqn:E.
  - right. destruct (mapM _ _) as [d|e'] eqn:M; cbn [bind] in H.
    + exfalso. apply store_all in M. destruct M as (-> & _).
      destruct (write_at_in_range h (s_psf_start s) (map (to_fl false) (dat (a_im a)))) as (h' & W); [lia| |congruence].
      rewrite zlen_map. destruct IO as (_ & _ & IO). rewrite IO. nia.
    + injection H as ->. split.
      * revert M. generalize (dat (a_im a)). induction l as [|x l IH]; cbn [mapM]; [discriminate|].
        destruct (store_fails (a_kind a) x) as [(v & V)|V]; rewrite V; cbn [bind].
        -- intros M. destruct (mapM _ l); [discriminate|]. cbn [bind] in M. destruct (IH M) as (y & Y1 & Y2). exists y. split; [right; exact Y1|exact Y2].
        -- intros _. exists x. split; [left; reflexivity|]. apply store_err. exact V.
      * destruct (storable_dec a) as [S|S]; [rewrite (store_ok _ S) in M; discriminate|]. rewrite (store_not_ok _ S) in M. injection M as <-. reflexivity.
  - left. split; [|congruence]. lia.
Qed.

Lemma puts ws : forall a m h h', tiles a (map (fun ka => p_range (fst ka)) ws) m -> 0 <= a -> m <= zlen h ->
  Forall (fun ka => arr_ok (snd ka)) ws -> foldM putk ws h = Ok h' ->
  zlen h' = zlen h /\ (forall p, p < a \/ m <= p -> zget h' p = zget h p) /\
  forall ka, In ka ws -> storable (snd ka) /\ nr (a_im (snd ka)) = s_psf_nr (k_slot (fst ka)) /\ nc (a_im (snd ka)) = s_psf_nc (k_slot (fst ka)) /\
    forall j, 0 <= j < zlen (wdat ka) -> zget h' (s_psf_start (k_slot (fst ka)) + j) = zget (wdat ka) j.
Proof.
  induction ws as [|ka ws IH]; intros a m h h' T P L O H; cbn [foldM map] in *.
  - injection H as <-. split; [reflexivity|]. split; [reflexivity|]. intros ka [].
  - inversion T as [|? m1 ? ? M1 T2 E1 E2]; subst. inversion O as [|? ? O1 O2]; subst.
    apply bind_ok in H. destruct H as (h1 & H1 & H). unfold putk, put_typed in H1. destruct (_ && _) eqn:ES; [|discriminate].
    apply bind_ok in H1. destruct H1 as (d & Hd & H1). apply store_all in Hd. destruct Hd as (-> & ST).
    apply write_at_ok in H1. destruct H1 as (W1 & W2 & W3 & W4). pose proof O1 as ((I1 & I2 & I3) & _).
    rewrite zlen_map in W2, W4. pose proof (tiles_le _ _ _ T2) as LE.
    assert (P1 : 0 <= s_psf_start (k_slot (fst ka)) + s_psf_nr (k_slot (fst ka)) * s_psf_nc (k_slot (fst ka))) by lia. assert (L1 : m <= zlen h1) by lia.
    destruct (IH _ _ _ _ T2 P1 L1 O2 H) as (G1 & G2 & G3).
    assert (SZ : zlen (dat (a_im (snd ka))) = s_psf_nr (k_slot (fst ka)) * s_psf_nc (k_slot (fst ka))) by (rewrite I3; nia).
    split; [lia|]. split.
    + intros p Hp. rewrite G2 by lia. rewrite W4. dif E; [|reflexivity]. exfalso. lia.
    + intros kb [<-|Hb]; [|apply G3; exact Hb]. split; [exact ST|]. split; [lia|]. split; [lia|].
      intros j Hj. unfold wdat in *. rewrite zlen_map in Hj. rewrite G2 by lia. rewrite W4. dif E; [|exfalso; lia]. f_equal. lia.
Qed.
