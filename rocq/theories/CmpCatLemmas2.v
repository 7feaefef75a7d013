(** Columns and catalogs. *)
From Coq Require Import String Qabs Qpower Lia Lqa ZifyBool ZifyNat.
From Verif Require Import Base BaseLemmas Img Types BoundsM Typed SpecTyped LayoutFl OutlierFl CompareFl SpecCompareFl CompareFlLemmas2 CmpCat SpecCmpCat CmpCatLemmas.
Open Scope Z_scope.

Lemma take_rows (r : list (list num)) (g : Z * Z -> Z) pairs : Forall (fun p => 0 <= g p < zlen r) pairs ->
  exists s, mapM (fun p => py_index r (g p)) pairs = Ok s /\ Forall2 (fun p row => zget r (g p) = Some row) pairs s.
Proof.
  induction 1 as [|p pairs H _ (s & E & F)]; [exists []; split; [reflexivity|constructor]|].
  destruct (zget_range_Some r (g p) H) as (row & Hr). exists (row :: s). split; [|constructor; assumption].
  cbn [mapM]. rewrite py_index_nonneg by lia. rewrite Hr. cbn [bind]. rewrite E. reflexivity.
Qed.

Lemma row_all (f : num * num -> bool) a : forall b, zlen a = zlen b ->
  (forallb f (combine a b) = true <-> forall j x y, zget a j = Some x -> zget b j = Some y -> f (x, y) = true).
Proof.
  induction a as [|u a IH]; intros [|v b] L; try (unfold zlen in L; cbn [length] in L; lia).
  - split; [|reflexivity]. intros _ j x y H. unfold zget in H. destruct (j <? 0); [discriminate|]. destruct (Z.to_nat j); discriminate.
  - cbn [combine forallb]. rewrite andb_true_iff, IH by (unfold zlen in *; cbn in L; lia). split.
    + intros (H0 & H) j x y Hx Hy. unfold zget in *. destruct (j <? 0) eqn:J; [discriminate|]. destruct (Z.to_nat j) as [|m] eqn:M; cbn in Hx, Hy.
      * congruence.
      * apply (H (Z.of_nat m)); replace (Z.of_nat m <? 0) with false by lia; rewrite Nat2Z.id; assumption.
    + intros H. split; [apply (H 0); reflexivity|]. intros j x y Hx Hy. unfold zget in *. destruct (j <? 0) eqn:J; [discriminate|].
      apply (H (j + 1)); replace (j + 1 <? 0) with false by lia; replace (Z.to_nat (j + 1)) with (S (Z.to_nat j)) by lia; assumption.
Qed.

Lemma rows_all (f : num * num -> bool) r1 r2 w : Forall (fun r => zlen r = w) r1 -> Forall (fun r => zlen r = w) r2 ->
  forall pairs s1 s2, Forall2 (fun p r => zget r1 (fst p) = Some r) pairs s1 -> Forall2 (fun p r => zget r2 (snd p) = Some r) pairs s2 ->
  (forallb f (combine (concat s1) (concat s2)) = true <->
   forall p j x y, In p pairs -> (exists r, zget r1 (fst p) = Some r /\ zget r j = Some x) -> (exists r, zget r2 (snd p) = Some r /\ zget r j = Some y) -> f (x, y) = true).
Proof.
  intros W1 W2 pairs. rewrite Forall_forall in W1, W2. induction pairs as [|p pairs IH]; intros s1 s2 F1 F2; inversion F1 as [|? a ? t1 A1 G1]; inversion F2 as [|? b ? t2 A2 G2]; subst.
  - split; [intros _ p j x y []|reflexivity].
  - assert (LE : zlen a = zlen b) by (rewrite (W1 a), (W2 b); [reflexivity|eapply zget_In; exact A2|eapply zget_In; exact A1]).
    cbn [concat]. assert (CA : combine (a ++ concat t1) (b ++ concat t2) = combine a b ++ combine (concat t1) (concat t2)).
    { clear -LE. assert (L : length a = length b) by (unfold zlen in LE; lia). clear LE. revert b L. induction a as [|u a IH]; intros [|v b] L; try discriminate; [reflexivity|].
      cbn. f_equal. apply IH. injection L as L. exact L. }
    rewrite CA, forallb_app, andb_true_iff, (row_all f a b LE), (IH t1 t2 G1 G2). split.
    + intros (H1 & H2) q j x y [<-|I] X Y; [|exact (H2 q j x y I X Y)]. destruct X as (r & R1 & X), Y as (r' & R2 & Y). rewrite A1 in R1. rewrite A2 in R2.
      injection R1 as <-. injection R2 as <-. exact (H1 j x y X Y).
    + intros H. split.
      * intros j x y X Y. apply (H p j x y (or_introl eq_refl)); eexists; split; eassumption.
      * intros q j x y I. apply H. right. exact I.
Qed.

Lemma spread_same w n s : spread (dims w n) (fst (dims w n)) (snd (dims w n)) (matrix w s) = concat s.
Proof.
  unfold spread, stretch. rewrite !Z.eqb_refl. rewrite map_id. destruct w; cbn [matrix]; [reflexivity|]. cbn [concat]. apply app_nil_r.
Qed.

Lemma allclose_same pairs x y : numeric x -> numeric y -> width_of x = width_of y -> rows_in pairs x y ->
  exists b, allclose pairs x y = Ok b /\
    ((forall p j u v, In p pairs -> cell x (fst p) j u -> cell y (snd p) j v -> alike (unit_of x y) u v) -> b = true) /\
    ((exists p j u v, In p pairs /\ cell x (fst p) j u /\ cell y (snd p) j v /\ apart (unit_of x y) u v) -> b = false).
Proof.
  destruct x as [k1 w r1|]; [|intros []]. destruct y as [k2 w' r2|]; [|intros _ []]. cbn [width_of numeric cell]. intros (K1 & R1) (K2 & R2) <- RI.
  assert (I1 : Forall (fun p => 0 <= fst p < zlen r1) pairs) by (eapply Forall_impl; [|exact RI]; intros p (H & _); exact H).
  assert (I2 : Forall (fun p => 0 <= snd p < zlen r2) pairs) by (eapply Forall_impl; [|exact RI]; intros p (_ & H); exact H).
  destruct (take_rows r1 fst pairs I1) as (s1 & E1 & F1). destruct (take_rows r2 snd pairs I2) as (s2 & E2 & F2).
  eexists. split.
  - cbn [allclose]. rewrite E1, E2. cbn [bind]. unfold match_dim. rewrite !Z.eqb_refl. cbn [bind]. rewrite !spread_same. reflexivity.
  - assert (W1 : Forall (fun r => zlen r = match w with Some n => n | None => 1 end) r1) by (eapply Forall_impl; [|exact R1]; intros r (H & _); exact H).
    assert (W2 : Forall (fun r => zlen r = match w with Some n => n | None => 1 end) r2) by (eapply Forall_impl; [|exact R2]; intros r (H & _); exact H).
    assert (C : forall i1 i2 j u v, (exists r, zget r1 i1 = Some r /\ zget r j = Some u) -> (exists r, zget r2 i2 = Some r /\ zget r j = Some v) ->
       (alike (unit_of (Nums k1 w r1) (Nums k2 w r2)) u v -> isclose k1 k2 u v = true) /\ (apart (unit_of (Nums k1 w r1) (Nums k2 w r2)) u v -> isclose k1 k2 u v = false)).
    { intros i1 i2 j u v (a & A1 & A2) (b & B1 & B2). apply zget_In in A1, A2, B1, B2. rewrite Forall_forall in R1, R2.
      destruct (R1 a A1) as (_ & Q1). destruct (R2 b B1) as (_ & Q2). rewrite Forall_forall in Q1, Q2. destruct (Q1 u A2) as (N1 & S1). destruct (Q2 v B2) as (N2 & S2).
      pose proof (close_iff k1 k2 u v K1 K2 N1 N2 S1 S2) as CI. cbv zeta in CI. rewrite <- eps_ulp in CI.
      replace (unit_of (Nums k1 w r1) (Nums k2 w r2)) with (eps (float_of k1 && float_of k2)); [exact CI|]. unfold unit_of, is_double, float_of. destruct k1, k2; reflexivity. }
    pose proof (rows_all (fun p => isclose k1 k2 (fst p) (snd p)) r1 r2 _ W1 W2 pairs s1 s2 F1 F2) as RA. cbn [fst snd] in RA. split.
    + intros H. apply RA. intros p j u v I X Y. apply (C _ _ j u v X Y). apply (H p j u v I X Y).
    + intros (p & j & u & v & I & X & Y & AP). apply not_true_is_false. intros T. pose proof (proj1 RA T p j u v I X Y) as T'. rewrite (proj2 (C _ _ j u v X Y) AP) in T'. discriminate.
Qed.

Lemma allclose_widths pairs x y w1 w2 : numeric x -> numeric y -> width_of x = Some w1 -> width_of y = Some w2 -> w1 <> w2 -> w1 <> 1 -> w2 <> 1 ->
  rows_in pairs x y -> allclose pairs x y = Err ValueError.
Proof.
  destruct x as [k1 w r1|]; [|intros []]. destruct y as [k2 w' r2|]; [|intros _ []]. cbn [width_of]. intros _ _ -> -> N N1 N2 RI.
  assert (I1 : Forall (fun p => 0 <= fst p < zlen r1) pairs) by (eapply Forall_impl; [|exact RI]; intros p (H & _); exact H).
  assert (I2 : Forall (fun p => 0 <= snd p < zlen r2) pairs) by (eapply Forall_impl; [|exact RI]; intros p (_ & H); exact H).
  destruct (take_rows r1 fst pairs I1) as (s1 & E1 & F1). destruct (take_rows r2 snd pairs I2) as (s2 & E2 & F2).
  cbn [allclose]. rewrite E1, E2. cbn [bind dims fst snd]. unfold match_dim. rewrite Z.eqb_refl. cbn [bind].
  replace (w1 =? w2) with false by lia. replace (w1 =? 1) with false by lia. replace (w2 =? 1) with false by lia. reflexivity.
Qed.

Lemma allclose_any pairs x y : numeric x -> numeric y -> rows_in pairs x y -> (exists b, allclose pairs x y = Ok b) \/ allclose pairs x y = Err ValueError.
Proof.
  destruct x as [k1 w r1|]; [|intros []]. destruct y as [k2 w' r2|]; [|intros _ []]. intros _ _ RI.
  assert (I1 : Forall (fun p => 0 <= fst p < zlen r1) pairs) by (eapply Forall_impl; [|exact RI]; intros p (H & _); exact H).
  assert (I2 : Forall (fun p => 0 <= snd p < zlen r2) pairs) by (eapply Forall_impl; [|exact RI]; intros p (_ & H); exact H).
  destruct (take_rows r1 fst pairs I1) as (s1 & E1 & F1). destruct (take_rows r2 snd pairs I2) as (s2 & E2 & F2).
  cbn [allclose]. rewrite E1, E2. cbn [bind].
  assert (MD : forall a b, (exists c, match_dim a b = Ok c) \/ match_dim a b = Err ValueError)
    by (intros a b; unfold match_dim; destruct (a =? b); [eauto|]; destruct (a =? 1); [eauto|]; destruct (b =? 1); eauto).
  destruct (MD (fst (dims w (zlen pairs))) (fst (dims w' (zlen pairs)))) as [(h & ->)| ->]; cbn [bind]; [|auto].
  destruct (MD (snd (dims w (zlen pairs))) (snd (dims w' (zlen pairs)))) as [(h' & ->)| ->]; cbn [bind]; eauto.
Qed.

(** * Catalogs *)

Lemma same_names_iff a : forall b, same_names a b = true <-> a = b.
Proof.
  induction a as [|x a IH]; intros [|y b]; cbn [same_names]; try (split; [discriminate|discriminate]); [split; reflexivity|].
  rewrite andb_true_iff, IH. split; [intros (E & ->); apply String.eqb_eq in E; congruence|intros E; injection E as -> ->; split; [apply String.eqb_refl|reflexivity]].
Qed.

Section Cat.
  Variables (clip : string -> res unit) (pairs : list (Z * Z)).
  Hypothesis CL : forall n, clip n = Ok tt.

  Lemma column_name n x y l : compare_column clip pairs n x y = Ok l -> forall r, In r l -> report_name r = n.
  Proof.
    unfold compare_column. destruct (allclose pairs x y) as [[|]|e]; cbn [bind]; rewrite ?CL; cbn [bind].
    - intros E. injection E as <-. intros r [].
    - intros E. injection E as <-. intros r [<-|[]]. reflexivity.
    - destruct e; intros E; try discriminate. injection E as <-. intros r [<-|[]]. reflexivity.
  Qed.

  Lemma catalogs_run c1 : forall c2, map fst c1 = map fst c2 ->
    Forall2 (fun a b => numeric (snd a) /\ numeric (snd b) /\ rows_in pairs (snd a) (snd b)) c1 c2 ->
    exists reps, compare_catalogs clip pairs c1 c2 = Ok reps /\
      (NoDup (map fst c1) -> forall n x y, In (n, x) c1 -> In (n, y) c2 ->
        exists l, compare_column clip pairs n x y = Ok l /\ forall r, report_name r = n -> (In r reps <-> In r l)) /\
      (forall r, In r reps -> In (report_name r) (map fst c1)).
  Proof.
    intros c2 N F. unfold compare_catalogs. rewrite (proj2 (same_names_iff _ _) N). revert N.
    induction F as [|[n x] [m y] c1 c2 (NX & NY & RI) F IH]; intros N.
    - exists []. split; [reflexivity|]. split; [intros _ n x y []|intros r []].
    - cbn [map fst] in N. injection N as <- N. destruct (IH N) as (reps & E & A & B). cbn [combine mapM fst snd].
      assert (C : exists l, compare_column clip pairs n x y = Ok l).
      { unfold compare_column. destruct (allclose_any pairs x y NX NY RI) as [([|] & ->)| ->]; cbn [bind]; rewrite ?CL; cbn [bind]; eauto. }
      destruct C as (l & C). rewrite C. cbn [bind].
      destruct (mapM _ (combine c1 c2)) as [ls|e]; cbn [bind] in *; [|discriminate]. injection E as <-. exists (l ++ concat ls). split; [reflexivity|]. split.
      + cbn [map fst]. intros ND. inversion ND as [|? ? N1 N2]; subst. intros n' x' y' [E1|I1] [E2|I2].
        * injection E1 as <- <-. injection E2 as <-. exists l. split; [exact C|]. intros r Hr. rewrite in_app_iff. split; [|auto]. intros [I|I]; [exact I|].
          apply B in I. rewrite Hr in I. contradiction.
        * injection E1 as <- <-. exfalso. apply N1. rewrite N. apply in_map_iff. exists (n, y'). split; [reflexivity|exact I2].
        * injection E2 as <- <-. exfalso. apply N1. apply in_map_iff. exists (n, x'). split; [reflexivity|exact I1].
        * destruct (A N2 n' x' y' I1 I2) as (l' & C' & H). exists l'. split; [exact C'|]. intros r Hr. rewrite in_app_iff, <- (H r Hr). split; [|auto]. intros [I|I]; [|exact I].
          apply (column_name _ _ _ _ C) in I. exfalso. apply N1. apply in_map_iff. exists (n', x'). split; [cbn; congruence|exact I1].
      + intros r I. apply in_app_iff in I. cbn [map fst]. destruct I as [I|I]; [left; symmetry; eapply column_name; eassumption|right; apply B; exact I].
  Qed.

  Lemma F2_named c1 c2 n x y : comparable pairs c1 c2 -> In (n, x) c1 -> In (n, y) c2 -> numeric x /\ numeric y /\ rows_in pairs x y.
  Proof.
    intros (N & ND & F) I1 I2. induction F as [|[m x'] [m' y'] c1 c2 H F IH]; [destruct I1|]. cbn [map fst] in *. injection N as <- N. inversion ND as [|? ? N1 N2]; subst.
    destruct I1 as [E1|I1], I2 as [E2|I2].
    - injection E1 as <- <-. injection E2 as <-. exact H.
    - injection E1 as <- <-. exfalso. apply N1. rewrite N. apply in_map_iff. exists (m, y). split; [reflexivity|exact I2].
    - injection E2 as <- <-. exfalso. apply N1. apply in_map_iff. exists (m, x). split; [reflexivity|exact I1].
    - apply IH; assumption.
  Qed.

  Lemma catalogs_fields c1 c2 : comparable pairs c1 c2 -> exists reps, compare_catalogs clip pairs c1 c2 = Ok reps /\ (forall r, In r reps -> In (report_name r) (map fst c1)) /\
    forall n x y, In (n, x) c1 -> In (n, y) c2 ->
      (width_of x = width_of y ->
        ((forall p j u v, In p pairs -> cell x (fst p) j u -> cell y (snd p) j v -> alike (unit_of x y) u v) -> ~ In (Differs n) reps /\ ~ In (Message n) reps) /\
        ((exists p j u v, In p pairs /\ cell x (fst p) j u /\ cell y (snd p) j v /\ apart (unit_of x y) u v) -> In (Differs n) reps)) /\
      (forall w1 w2, width_of x = Some w1 -> width_of y = Some w2 -> w1 <> w2 -> w1 <> 1 -> w2 <> 1 -> In (Message n) reps).
  Proof.
    intros K. destruct K as (N & ND & F). destruct (catalogs_run c1 c2 N F) as (reps & E & A & B). exists reps. split; [exact E|]. split; [exact B|].
    intros n x y I1 I2. destruct (F2_named c1 c2 n x y (conj N (conj ND F)) I1 I2) as (NX & NY & RI). destruct (A ND n x y I1 I2) as (l & C & H).
    rewrite (H (Differs n) eq_refl), (H (Message n) eq_refl). unfold compare_column in C. split.
    - intros W. destruct (allclose_same pairs x y NX NY W RI) as (b & Eb & T1 & T2). rewrite Eb in C. cbn [bind] in C. split.
      + intros AL. rewrite (T1 AL) in C. injection C as <-. split; [intros X; destruct X|intros X; destruct X].
      + intros AP. rewrite (T2 AP) in C. rewrite CL in C. cbn [bind] in C. injection C as <-. left. reflexivity.
    - intros w1 w2 W1 W2 D D1 D2. rewrite (allclose_widths pairs x y w1 w2 NX NY W1 W2 D D1 D2 RI) in C. cbn [bind] in C. injection C as <-. apply (H (Message n) eq_refl). left. reflexivity.
  Qed.
End Cat.

Lemma catalogs_names clip pairs c1 c2 : map fst c1 <> map fst c2 -> compare_catalogs clip pairs c1 c2 = Err ValueError.
Proof.
  intros H. unfold compare_catalogs. destruct (same_names _ _) eqn:E; [apply same_names_iff in E; contradiction|reflexivity].
Qed.

(** A text column ends the comparison. *)
Lemma catalogs_text clip pairs c1 c2 n : (forall m, clip m = Ok tt) -> map fst c1 = map fst c2 -> In (n, Texts) c1 ->
  Forall2 (fun a b => (numeric (snd a) \/ snd a = Texts) /\ (numeric (snd b) \/ snd b = Texts) /\ rows_in pairs (snd a) (snd b)) c1 c2 ->
  compare_catalogs clip pairs c1 c2 = Err TypeError.
Proof.
  intros CL N I F. unfold compare_catalogs. rewrite (proj2 (same_names_iff _ _) N). clear N.
  assert (M : mapM (fun xy => compare_column clip pairs (fst (fst xy)) (snd (fst xy)) (snd (snd xy))) (combine c1 c2) = Err TypeError); [|rewrite M; reflexivity].
  induction F as [|[m x] [m' y] c1 c2 (HX & HY & RI) F IH]; [destruct I|]. cbn [combine mapM fst snd] in *.
  assert (T : x = Texts \/ y = Texts -> compare_column clip pairs m x y = Err TypeError).
  { unfold compare_column. intros [->| ->]; [reflexivity|]. destruct x; reflexivity. }
  destruct HX as [HX| ->]; [|rewrite T by auto; reflexivity]. destruct HY as [HY| ->]; [|rewrite T by auto; reflexivity].
  assert (C : exists l, compare_column clip pairs m x y = Ok l).
  { unfold compare_column. destruct (allclose_any pairs x y HX HY RI) as [([|] & ->)| ->]; cbn [bind]; rewrite ?CL; cbn [bind]; eauto. }
  destruct C as (l & ->). cbn [bind]. destruct I as [E|I]; [injection E as _ ->; destruct HX|]. rewrite (IH I). reflexivity.
Qed.

(** A catalog without NaN compared with itself. *)
Lemma alike_self e x : (0 <= 10 * e <= 1)%Q -> exactly x <> NaN -> alike e x x.
Proof.
  intros E H. unfold alike. destruct (exactly x) as [q|s|]; [|reflexivity|congruence].
  assert (Z : (q - q == 0)%Q) by ring. rewrite Z. cbn [Qabs]. unfold tolerance. pose proof (Qabs_nonneg q). change (Qabs 0) with 0%Q.
  apply Qmult_le_0_compat; lra.
Qed.

Lemma catalogs_self clip pairs c : (forall m, clip m = Ok tt) -> comparable pairs c c -> Forall (fun p => fst p = snd p) pairs ->
  (forall n x i j u, In (n, x) c -> cell x i j u -> exactly u <> NaN) -> compare_catalogs clip pairs c c = Ok [].
Proof.
  intros CL K D NN. destruct K as (N & ND & F). destruct (catalogs_run clip pairs CL c c N F) as (reps & E & A & B). rewrite E. f_equal.
  destruct reps as [|r reps]; [reflexivity|]. exfalso. pose proof (B r (or_introl eq_refl)) as I. apply in_map_iff in I. destruct I as ([n x] & Hn & I). cbn [fst] in Hn.
  destruct (catalogs_fields clip pairs CL c c (conj N (conj ND F))) as (reps' & E' & _ & G). rewrite E in E'. injection E' as <-.
  destruct (G n x x I I) as (G1 & _). destruct (G1 eq_refl) as (G2 & _). destruct G2 as (G3 & G4).
  - intros p j u v Ip X Y. rewrite Forall_forall in D. rewrite (D p Ip) in X.
    assert (u = v).
    { destruct x as [k w rows|]; [|destruct X]. cbn [cell] in X, Y. destruct X as (a & A1 & A2), Y as (b & B1 & B2). congruence. }
    subst v. apply alike_self; [|eapply NN; eassumption]. unfold unit_of, eps. destruct (_ && _)%bool; vm_compute; split; discriminate.
  - destruct r as [m|m]; cbn [report_name] in Hn; subst m; [apply G3|apply G4]; left; reflexivity.
Qed.
