(** Words, lines and doubles of the printed text. *)
From Coq Require Import Lia ZifyBool ZifyNat String Ascii Qpower Qabs Qround Lqa.
From Verif Require Import Base BaseLemmas Img Types BoundsM Single SingleLemmas CompositeLemmas Typed SpecTyped TypedLemmas FlMonoLemmas LayoutFlLemmas PsfTyLemmas CLib CProg SpecCProg CProgLemmas CText SpecCText CTextLemmas CTextLemmas2.
Open Scope Z_scope.

Definition plain (c : ascii) : Prop := c <> sp /\ c <> nl.
Lemma plain_chr d : is_dig d -> plain (chr d).
Proof. intros H. apply dig_cases in H. repeat destruct H as [->|H]; try (split; discriminate). subst. split; discriminate. Qed.
Lemma plain_map ds : Forall is_dig ds -> Forall plain (map chr ds).
Proof. intros F. induction F; cbn; constructor; [apply plain_chr; assumption|assumption]. Qed.
Lemma plain_c (c : ascii) : (if ascii_dec c sp then true else if ascii_dec c nl then true else false) = false -> plain c.
Proof. destruct (ascii_dec c sp), (ascii_dec c nl); intros; try discriminate. split; assumption. Qed.
Lemma plain_int n : Forall plain (print_int n).
Proof.
  unfold print_int. destruct (n <? 0) eqn:E.
  - constructor; [apply plain_c; reflexivity|]. apply plain_map, dec_spec. lia.
  - apply plain_map, dec_spec. lia.
Qed.
Lemma plain_fraction ds : Forall is_dig ds -> Forall plain (fraction ds).
Proof. intros F. destruct ds; [constructor|]. unfold fraction. constructor; [apply plain_c; reflexivity|apply plain_map, F]. Qed.
Lemma plain_exp x : Forall plain (print_exp x).
Proof.
  unfold print_exp. cbv zeta. constructor; [apply plain_c; reflexivity|]. constructor; [destruct (x <? 0); apply plain_c; reflexivity|].
  destruct (dec_spec (Z.abs x) ltac:(lia)) as (_ & B & _). apply plain_map. destruct (_ <? _)%nat; [constructor; [unfold is_dig; lia|exact B]|exact B].
Qed.
Lemma plain_pos q : (0 < q)%Q -> Forall plain (print_pos q).
Proof.
  intros H. unfold print_pos. destruct (sig16 q) as [m x] eqn:S. destruct (sig16_spec q m x H S) as (M & _).
  destruct (dec_spec m ltac:(lia)) as (_ & F & _). set (ds := dec m) in *. destruct (_ || _).
  - apply Forall_app; split; [apply plain_map, Forall_firstn, F|]. apply Forall_app. split; [apply plain_fraction, drop_zeros_digs, Forall_skipn, F|apply plain_exp].
  - destruct (0 <=? x).
    + apply Forall_app. split; [apply plain_map, Forall_firstn, F|apply plain_fraction, drop_zeros_digs, Forall_skipn, F].
    + constructor; [apply plain_chr; unfold is_dig; lia|]. apply plain_fraction. apply Forall_app. split; [|apply drop_zeros_digs, F].
      clear. induction (Z.to_nat (- x - 1)); cbn; constructor; [unfold is_dig; lia|assumption].
Qed.
Lemma plain_fl v : Forall plain (print_fl v).
Proof.
  destruct v as [q|[|]|]; try (repeat (constructor; [apply plain_c; reflexivity|]); constructor).
  unfold print_fl. cbv zeta. destruct (qltb 0 _) eqn:E1; [apply qltb_true in E1; apply plain_pos, E1|].
  destruct (qltb _ 0) eqn:E2; [apply qltb_true in E2|].
  - constructor; [apply plain_c; reflexivity|]. apply plain_pos. lra.
  - constructor; [apply plain_c; reflexivity|constructor].
Qed.

Lemma split_all c w : Forall (fun x => x <> c) w -> split_at c w = [w].
Proof. intros F. induction F as [|x w Hx F IH]; [reflexivity|]. cbn [split_at]. destruct (ascii_dec x c); [contradiction|]. rewrite IH. reflexivity. Qed.
Lemma split_app c w rest : Forall (fun x => x <> c) w -> split_at c (w ++ c :: rest) = w :: split_at c rest.
Proof.
  intros F. induction F as [|x w Hx F IH]; cbn [app split_at].
  - destruct (ascii_dec c c); [reflexivity|congruence].
  - destruct (ascii_dec x c); [contradiction|]. rewrite IH. reflexivity.
Qed.
Lemma plain_sp w : Forall plain w -> Forall (fun x => x <> ascii_of_nat 32) w.
Proof. intros F. eapply Forall_impl; [|exact F]. intros a (H & _). exact H. Qed.
Lemma plain_nl w : Forall plain w -> Forall (fun x => x <> ascii_of_nat 10) w.
Proof. intros F. eapply Forall_impl; [|exact F]. intros a (_ & H). exact H. Qed.

Definition body (l : Z * fl * fl * Z) : text :=
  let '(id, row, col, box) := l in print_int id ++ sp :: print_fl row ++ sp :: print_fl col ++ sp :: print_int box.
Lemma line_body l : print_line l = body l ++ [nl].
Proof. destruct l as [[[id row] col] box]. unfold print_line, body. cbn [app]. repeat (rewrite <- app_assoc; cbn [app]). reflexivity. Qed.
Lemma body_nl l : Forall (fun x => x <> ascii_of_nat 10) (body l).
Proof.
  destruct l as [[[id row] col] box]. unfold body.
  pose proof (plain_nl _ (plain_int id)). pose proof (plain_nl _ (plain_int box)). pose proof (plain_nl _ (plain_fl row)). pose proof (plain_nl _ (plain_fl col)).
  assert (S : sp <> ascii_of_nat 10) by discriminate.
  repeat (apply Forall_app; split; [assumption|]; constructor; [exact S|]). assumption.
Qed.
Lemma body_words id row col box : words_of (body (id, row, col, box)) = [print_int id; print_fl row; print_fl col; print_int box].
Proof.
  unfold words_of, body. change sp with (ascii_of_nat 32).
  rewrite split_app by apply plain_sp, plain_int. rewrite split_app by apply plain_sp, plain_fl. rewrite split_app by apply plain_sp, plain_fl.
  rewrite split_all by apply plain_sp, plain_int. reflexivity.
Qed.
Lemma lines_body ls : text_lines (print_lines ls) = map body ls.
Proof.
  unfold text_lines. enough (E : split_at (ascii_of_nat 10) (print_lines ls) = map body ls ++ [[]]) by (rewrite E; apply removelast_last).
  induction ls as [|l ls IH]; [reflexivity|]. unfold print_lines in *. cbn [flat_map map app]. rewrite line_body, <- app_assoc. cbn [app]. change nl with (ascii_of_nat 10).
  rewrite split_app by apply body_nl. rewrite IH. reflexivity.
Qed.

(** Doubles. *)
Lemma read_fin_double q : exists d, read_decimal (print_fl (Fin q)) = Some d /\ read_double (print_fl (Fin q)) = Some (fround true d) /\
  (Qabs (d - q) <= half_unit * Qabs q)%Q /\ (forall n k, (q == inject_Z n * ten k)%Q -> Z.abs n < 10 ^ 16 -> (d == q)%Q).
Proof.
  destruct (print_fin_read q) as (d & R & B & X & c & s & E & n & Hn & C). exists d. split; [exact R|]. split; [|auto].
  unfold read_double. rewrite R.
  assert (D : chr n <> "n"%char /\ chr n <> "i"%char /\ chr n <> "-"%char).
  { apply dig_cases in Hn. clear C. repeat destruct Hn as [->|Hn]; try (repeat split; discriminate). subst. repeat split; discriminate. }
  destruct D as (D1 & D2 & D3). rewrite E. destruct C as [->|(-> & s' & ->)].
  - destruct (list_eq_dec _ _ _) as [Y|_]; [congruence|]. destruct (list_eq_dec _ _ _) as [Y|_]; [congruence|]. destruct (list_eq_dec _ _ _) as [Y|_]; [congruence|]. reflexivity.
  - destruct (list_eq_dec _ _ _) as [Y|_]; [congruence|]. destruct (list_eq_dec _ _ _) as [Y|_]; [congruence|]. destruct (list_eq_dec _ _ _) as [Y|_]; [congruence|]. reflexivity.
Qed.

Theorem double_close v : plain_double v -> exists w, read_double (print_fl v) = Some w /\ close_double v w.
Proof.
  destruct v as [q|[|]|]; [|eexists; split; [reflexivity|reflexivity]..|eexists; split; [reflexivity|exact I]].
  intros (F & L). destruct (read_fin_double q) as (d & _ & R & B & _). rewrite R.
  assert (P : (Qabs q <= two 125)%Q) by (eapply Qle_trans; [exact L|]; vm_compute; discriminate).
  assert (H : (Qabs d <= two 126)%Q).
  { setoid_replace d with ((d - q) + q)%Q by ring. eapply Qle_trans; [apply Qabs_triangle|].
    assert (T : (two 126 == two 125 + two 125)%Q) by (vm_compute; reflexivity). rewrite T. pose proof (Qabs_nonneg q) as N.
    assert (U : (half_unit <= 1)%Q) by (vm_compute; discriminate).
    assert (M : (half_unit * Qabs q <= 1 * Qabs q)%Q) by (apply Qmult_le_compat_r; assumption). lra. }
  destruct (fround_fin true d H) as (y & Y). exists (Fin y). rewrite Y. split; [reflexivity|]. cbn [close_double].
  pose proof (fround_nearest true d y q Y F) as N. setoid_replace (y - q)%Q with ((y - d) + (d - q))%Q by ring. eapply Qle_trans; [apply Qabs_triangle|].
  assert (S : (Qabs (q - d) == Qabs (d - q))%Q) by (setoid_replace (q - d)%Q with (- (d - q))%Q by ring; apply Qabs_opp). rewrite S in N.
  assert (T : (Qpower (10#1) (-15) * Qabs q == half_unit * Qabs q + half_unit * Qabs q)%Q) by (unfold half_unit, ten; ring). rewrite T. lra.
Qed.

(** A position of single precision comes back when converted. *)
Lemma single_apart q v : is_float false q -> is_float false v -> (Qabs (v - q) <= (1#100000000) * Qabs q)%Q -> (v == q)%Q.
Proof.
  intros (m2 & e2 & E2 & (M2 & _)) (m1 & e1 & E1 & (M1 & _)) B. destruct (Qeq_dec v q) as [G|G]; [exact G|exfalso].
  change (Qpower (2#1) e2) with (two e2) in E2. change (Qpower (2#1) e1) with (two e1) in E1.
  pose proof (two_pos e1) as P1. pose proof (two_pos e2) as P2.
  assert (ABS : forall z e, (Qabs (inject_Z z * two e) == inject_Z (Z.abs z) * two e)%Q).
  { intros z e. rewrite Qabs_Qmult, (Qabs_pos (two e)) by (pose proof (two_pos e); lra). reflexivity. }
  assert (SC : forall z e, Z.abs z < 2 ^ 24 -> (inject_Z (Z.abs z) * two e <= inject_Z (2 ^ 24) * two e)%Q).
  { intros z e Hz. apply Qmult_le_compat_r; [rewrite <- Zle_Qle; lia|pose proof (two_pos e); lra]. }
  assert (ONE : forall z e, z <> 0 -> (two e <= inject_Z (Z.abs z) * two e)%Q).
  { intros z e Hz. rewrite <- (Qmult_1_l (two e)) at 1. apply Qmult_le_compat_r; [change 1%Q with (inject_Z 1); rewrite <- Zle_Qle; lia|pose proof (two_pos e); lra]. }
  pose proof (ABS m1 e1) as A1. pose proof (ABS m2 e2) as A2. rewrite <- E1 in A1. rewrite <- E2 in A2.
  pose proof (SC m1 e1 ltac:(lia)) as S1. pose proof (SC m2 e2 ltac:(lia)) as S2. change (inject_Z (2 ^ 24)) with (16777216#1) in *.
  destruct (Z.le_ge_cases e2 e1) as [L|L].
  - set (z := m1 * 2 ^ (e1 - e2) - m2).
    assert (D : (v - q == inject_Z z * two e2)%Q).
    { rewrite E1, E2. unfold z, Z.sub at 1. rewrite inject_Z_plus, inject_Z_mult, inject_Z_opp, two_Z by lia.
      setoid_replace ((inject_Z m1 * two (e1 - e2) + - inject_Z m2) * two e2)%Q with (inject_Z m1 * (two (e1 - e2) * two e2) - inject_Z m2 * two e2)%Q by ring.
      rewrite <- two_plus. replace (e1 - e2 + e2) with e1 by lia. reflexivity. }
    assert (NZ : z <> 0) by (intros Hz; rewrite Hz in D; apply G; change (inject_Z 0) with 0%Q in D; lra).
    pose proof (ABS z e2) as AZ. rewrite <- D in AZ. pose proof (ONE z e2 NZ). lra.
  - set (z := m1 - m2 * 2 ^ (e2 - e1)).
    assert (D : (v - q == inject_Z z * two e1)%Q).
    { rewrite E1, E2. unfold z, Z.sub at 1. rewrite inject_Z_plus, inject_Z_opp, inject_Z_mult, two_Z by lia.
      setoid_replace ((inject_Z m1 + - (inject_Z m2 * two (e2 - e1))) * two e1)%Q with (inject_Z m1 * two e1 - inject_Z m2 * (two (e2 - e1) * two e1))%Q by ring.
      rewrite <- two_plus. replace (e2 - e1 + e1) with e2 by lia. reflexivity. }
    assert (NZ : z <> 0) by (intros Hz; rewrite Hz in D; apply G; change (inject_Z 0) with 0%Q in D; lra).
    pose proof (ABS z e1) as AZ. rewrite <- D in AZ. pose proof (ONE z e1 NZ).
    assert (V : (Qabs q <= Qabs v + Qabs (v - q))%Q).
    { setoid_replace q with (v + - (v - q))%Q at 1 by ring. eapply Qle_trans; [apply Qabs_triangle|]. rewrite Qabs_opp. lra. }
    lra.
Qed.
Theorem single_back q : is_float false q -> (Qabs q <= inject_Z (10 ^ 30))%Q ->
  exists y v, read_double (print_fl (Fin q)) = Some (Fin y) /\ fround false y = Fin v /\ (v == q)%Q.
Proof.
  intros F L. assert (F2 : is_float true q).
  { destruct F as (m & e & E & (M & X & B)). exists m, e. split; [exact E|]. split; [lia|]. split; [lia|].
    eapply Qlt_trans; [exact B|]. vm_compute. reflexivity. }
  destruct (double_close (Fin q) (conj F2 L)) as ([y| |] & R & C); try contradiction. exists y. cbn [close_double] in C.
  assert (H : (Qabs y <= two 126)%Q).
  { setoid_replace y with ((y - q) + q)%Q by ring. eapply Qle_trans; [apply Qabs_triangle|].
    assert (P : (Qabs q <= two 125)%Q) by (eapply Qle_trans; [exact L|]; vm_compute; discriminate).
    assert (T : (two 126 == two 125 + two 125)%Q) by (vm_compute; reflexivity). rewrite T. pose proof (Qabs_nonneg q) as N.
    assert (U : (Qpower (10#1) (-15) <= 1)%Q) by (vm_compute; discriminate).
    assert (M : (Qpower (10#1) (-15) * Qabs q <= 1 * Qabs q)%Q) by (apply Qmult_le_compat_r; assumption). lra. }
  destruct (fround_fin false y H) as (v & V). exists v. split; [exact R|]. split; [exact V|].
  apply single_apart; [exact F|eapply fround_is_float; exact V|].
  pose proof (fround_nearest false y v q V F) as N. setoid_replace (v - q)%Q with ((v - y) + (y - q))%Q by ring. eapply Qle_trans; [apply Qabs_triangle|].
  assert (S : (Qabs (q - y) == Qabs (y - q))%Q) by (setoid_replace (q - y)%Q with (- (y - q))%Q by ring; apply Qabs_opp). rewrite S in N.
  assert (U : (Qpower (10#1) (-15) <= 1#1000000000)%Q) by (vm_compute; discriminate).
  assert (M : (Qpower (10#1) (-15) * Qabs q <= (1#1000000000) * Qabs q)%Q) by (apply Qmult_le_compat_r; [exact U|apply Qabs_nonneg]).
  pose proof (Qabs_nonneg q). lra.
Qed.

(** Lines. *)
Lemma body_says id row col box : plain_double row -> plain_double col -> says (body (id, row, col, box)) id row col box.
Proof.
  intros R C. destruct (double_close row R) as (row' & R1 & R2). destruct (double_close col C) as (col' & C1 & C2).
  exists row', col'. split; [|auto]. exists (print_int id), (print_fl row), (print_fl col), (print_int box).
  split; [apply body_words|]. rewrite !read_print_int. auto.
Qed.
Lemma print_lines_says ls : Forall (fun '(_, row, col, _) => plain_double row /\ plain_double col) ls ->
  Forall2 (fun '(id, row, col, box) t => says t id row col box) ls (text_lines (print_lines ls)).
Proof.
  rewrite lines_body. intros F. induction F as [|[[[id row] col] box] ls (R & C) F IH]; cbn [map]; constructor; [apply body_says; assumption|exact IH].
Qed.

Lemma zget_map' {A B} (f : A -> B) l k : zget (map f l) k = option_map f (zget l k).
Proof. unfold zget. destruct (k <? 0); [reflexivity|]. apply nth_error_map. Qed.

Lemma stdout_says rows idp mn mx r :
  (forall x, In x rows -> plain_double (Fin (y_image x)) /\ plain_double (Fin (x_image x))) ->
  SpecCProg.lines_of idp rows mn mx (r_out r) ->
  zlen (text_lines (stdout_text r)) = zlen rows /\
  forall k x, zget rows k = Some x -> exists t n b, zget (text_lines (stdout_text r)) k = Some t /\
    says t n (Fin (y_image x)) (Fin (x_image x)) b /\ idp k n /\ box_for x mn mx b.
Proof.
  intros P (L & H). unfold stdout_text. rewrite lines_body, map_map. split; [unfold zlen in *; rewrite map_length; exact L|].
  intros k x K. destruct (H k x K) as (n & b & G & I1 & B1). rewrite zget_map', G. cbn [option_map fl_line].
  eexists. exists n, b. split; [reflexivity|]. split; [|auto]. destruct (P x) as (P1 & P2).
  { unfold zget in K. destruct (k <? 0); [discriminate|]. eapply nth_error_In, K. }
  apply body_says; assumption.
Qed.

Theorem input_text fs infile mn mx rows : fs infile = Some (CCat rows) ->
  (forall x, In x rows -> ~ (a_world x == 0)%Q) ->
  (forall x, In x rows -> plain_double (Fin (y_image x)) /\ plain_double (Fin (x_image x))) ->
  exists r, make_meds_input [infile; mn; mx] fs = Ok r /\
    zlen (text_lines (stdout_text r)) = zlen rows /\
    forall k x, zget rows k = Some x -> exists t n b, zget (text_lines (stdout_text r)) k = Some t /\
      says t n (Fin (y_image x)) (Fin (x_image x)) b /\ n = k /\ box_for x (atoi mn) (atoi mx) b.
Proof.
  intros F A P. destruct (input_plain fs infile mn mx rows F A) as (r & M & _ & _ & L). exists r. split; [exact M|].
  apply (stdout_says rows (fun k n => n = k) (atoi mn) (atoi mx) r P L).
Qed.
Theorem input_text_ids fs infile mn mx rows idf more words : fs infile = Some (CCat rows) ->
  (forall x, In x rows -> ~ (a_world x == 0)%Q) ->
  (forall x, In x rows -> plain_double (Fin (y_image x)) /\ plain_double (Fin (x_image x))) ->
  fs idf = Some (CWords words) -> zlen (leading words) = zlen rows ->
  exists r, make_meds_input (infile :: mn :: mx :: idf :: more) fs = Ok r /\
    zlen (text_lines (stdout_text r)) = zlen rows /\
    forall k x, zget rows k = Some x -> exists t n b, zget (text_lines (stdout_text r)) k = Some t /\
      says t n (Fin (y_image x)) (Fin (x_image x)) b /\ zget (leading words) k = Some n /\ box_for x (atoi mn) (atoi mx) b.
Proof.
  intros F A P W L0. destruct (input_ids fs infile mn mx rows F A idf more words W L0) as (r & M & _ & _ & L). exists r. split; [exact M|].
  apply (stdout_says rows (fun k n => zget (leading words) k = Some n) (atoi mn) (atoi mx) r P L).
Qed.

Theorem decimal_text q : exists d, read_decimal (print_fl (Fin q)) = Some d /\ (Qabs (d - q) <= (5#10000000000000000) * Qabs q)%Q /\
  (forall n k, (q == inject_Z n * Qpower (10#1) k)%Q -> Z.abs n < 10 ^ 16 -> (d == q)%Q).
Proof.
  destruct (read_fin_double q) as (d & R & _ & B & X). exists d. split; [exact R|]. split; [|exact X].
  assert (E : (half_unit == 5#10000000000000000)%Q) by (vm_compute; reflexivity). rewrite <- E. exact B.
Qed.
