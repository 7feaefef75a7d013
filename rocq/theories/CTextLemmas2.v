(** Reading what was printed. *)
From Coq Require Import Lia ZifyBool ZifyNat String Ascii Qpower Qabs Qround Lqa.
From Verif Require Import Base BaseLemmas Img Types BoundsM Single SingleLemmas CompositeLemmas Typed SpecTyped TypedLemmas FlMonoLemmas LayoutFlLemmas CText SpecCText CTextLemmas.
Open Scope Z_scope.

Lemma dig_cases d : is_dig d -> d = 0 \/ d = 1 \/ d = 2 \/ d = 3 \/ d = 4 \/ d = 5 \/ d = 6 \/ d = 7 \/ d = 8 \/ d = 9.
Proof. unfold is_dig. lia. Qed.
Lemma digit_of_chr d : is_dig d -> digit_of (chr d) = Some d.
Proof. intros H. apply dig_cases in H. repeat destruct H as [->|H]; try reflexivity. subst. reflexivity. Qed.
Lemma span_map ds rest : Forall is_dig ds -> (match rest with c :: _ => digit_of c = None | [] => True end) ->
  span (map chr ds ++ rest) = (ds, rest).
Proof.
  intros F R. induction F as [|d ds Hd F IH]; cbn [map app].
  - destruct rest as [|c r]; [reflexivity|]. cbn [span]. rewrite R. reflexivity.
  - cbn [span]. rewrite (digit_of_chr d Hd), IH. reflexivity.
Qed.
Lemma read_nat_map ds : Forall is_dig ds -> ds <> [] -> read_nat (map chr ds) = Some (number ds).
Proof.
  intros F N. unfold read_nat. pose proof (span_map ds [] F I) as S. rewrite app_nil_r in S. rewrite S.
  destruct ds; [congruence|reflexivity].
Qed.
Lemma chr_minus d : is_dig d -> chr d <> "-"%char.
Proof. intros H. apply dig_cases in H. repeat destruct H as [->|H]; try discriminate. subst. discriminate. Qed.

(** The sign. *)
Lemma read_int_pos c s : c <> "-"%char -> read_int (c :: s) = read_nat (c :: s).
Proof. intros H. destruct c as [[] [] [] [] [] [] [] []]; try reflexivity. exfalso. apply H. reflexivity. Qed.
Lemma read_decimal_pos c s : c <> "-"%char -> read_decimal (c :: s) = read_unsigned (c :: s).
Proof. intros H. destruct c as [[] [] [] [] [] [] [] []]; try reflexivity. exfalso. apply H. reflexivity. Qed.

Theorem read_print_int n : read_int (print_int n) = Some n.
Proof.
  unfold print_int. destruct (n <? 0) eqn:E.
  - destruct (dec_spec (- n) ltac:(lia)) as (A & B & C & _). cbn [read_int]. rewrite (read_nat_map _ B C), A. cbn. f_equal. lia.
  - destruct (dec_spec n ltac:(lia)) as (A & B & C & _). destruct (dec n) as [|d ds] eqn:D; [congruence|].
    cbn [map]. rewrite read_int_pos by (apply chr_minus; inversion B; assumption).
    change (chr d :: map chr ds) with (map chr (d :: ds)). rewrite (read_nat_map _ B C), A. reflexivity.
Qed.

Lemma read_print_exp x : read_exponent (print_exp x) = Some x.
Proof.
  unfold print_exp. cbv zeta. destruct (dec_spec (Z.abs x) ltac:(lia)) as (A & B & C & _). set (ds := dec (Z.abs x)) in *.
  set (ds' := if (length ds <? 2)%nat then 0 :: ds else ds).
  assert (N : number ds' = Z.abs x /\ Forall is_dig ds' /\ ds' <> []).
  { unfold ds'. destruct (length ds <? 2)%nat; [|auto]. change (0 :: ds) with ([0] ++ ds). rewrite number_app. change (number [0]) with 0.
    split; [lia|]. split; [constructor; [unfold is_dig; lia|exact B]|discriminate]. }
  destruct N as (N1 & N2 & N3). destruct (x <? 0) eqn:E; cbn [read_exponent]; rewrite (read_nat_map _ N2 N3), N1; cbn; f_equal; lia.
Qed.

Definition exp_start (s : text) : Prop := match s with [] => True | c :: _ => c = "e"%char end.
Lemma read_unsigned_form ip fp s2 e : Forall is_dig ip -> ip <> [] -> Forall is_dig fp -> exp_start s2 -> read_exponent s2 = Some e ->
  read_unsigned (map chr ip ++ fraction fp ++ s2) = Some (inject_Z (number (ip ++ fp)) * ten (e - zlen fp))%Q.
Proof.
  intros F1 N1 F2 S E. unfold read_unsigned. rewrite span_map; [|exact F1|].
  2:{ destruct fp; cbn; [|reflexivity]. destruct s2 as [|c s2]; [exact I|]. cbn in S. subst c. reflexivity. }
  destruct fp as [|d fp].
  - cbn [fraction app].
    destruct s2 as [|c s2]; [|cbn in S; subst c]; cbn iota beta; (destruct ip; [congruence|]); rewrite E; reflexivity.
  - unfold fraction. rewrite <- app_comm_cons. rewrite span_map; [|exact F2|].
    2:{ destruct s2 as [|c s2]; [exact I|]. cbn in S. subst c. reflexivity. }
    destruct ip; [congruence|]. rewrite E. reflexivity.
Qed.

Lemma Forall_firstn {A} (P : A -> Prop) n l : Forall P l -> Forall P (firstn n l).
Proof. intros H. rewrite <- (firstn_skipn n l) in H. apply Forall_app in H. apply H. Qed.
Lemma Forall_skipn {A} (P : A -> Prop) n l : Forall P l -> Forall P (skipn n l).
Proof. intros H. rewrite <- (firstn_skipn n l) in H. apply Forall_app in H. apply H. Qed.
Lemma zlen_repeat {A} (x : A) n : zlen (repeat x n) = Z.of_nat n.
Proof. unfold zlen. rewrite repeat_length. reflexivity. Qed.
Lemma zlen_app' {A} (a b : list A) : zlen (a ++ b) = zlen a + zlen b.
Proof. unfold zlen. rewrite app_length. lia. Qed.

(** The same number with zeros added at the end. *)
Lemma add_zeros ds n k : (inject_Z (number (ds ++ repeat 0%Z n)) * ten (k - Z.of_nat n) == inject_Z (number ds) * ten k)%Q.
Proof.
  rewrite number_app, number_zeros, zlen_repeat, Z.add_0_r, inject_Z_mult, ten_Z by lia.
  rewrite <- Qmult_assoc, <- ten_plus. replace (Z.of_nat n + (k - Z.of_nat n)) with k by lia. reflexivity.
Qed.

(** The sixteen digits after [i] of them, without the zeros. *)
Lemma tail_zeros ds i k : (i <= length ds)%nat ->
  (inject_Z (number (firstn i ds ++ drop_zeros (skipn i ds))) * ten (k - zlen (drop_zeros (skipn i ds))) ==
   inject_Z (number ds) * ten (k - (zlen ds - Z.of_nat i)))%Q.
Proof.
  intros Hi. destruct (drop_zeros_spec (skipn i ds)) as (n & E). set (z := drop_zeros (skipn i ds)) in *.
  assert (L : zlen ds - Z.of_nat i = zlen z + Z.of_nat n).
  { pose proof (f_equal (@zlen Z) E) as L. rewrite zlen_app', zlen_repeat in L. unfold zlen in *. rewrite skipn_length in L. lia. }
  rewrite L. pose proof (add_zeros (firstn i ds ++ z) n (k - zlen z)) as G.
  rewrite <- app_assoc, <- E, firstn_skipn in G. rewrite <- G. replace (k - zlen z - Z.of_nat n) with (k - (zlen z + Z.of_nat n)) by lia. reflexivity.
Qed.

Lemma print_pos_read q m x : (0 < q)%Q -> sig16 q = (m, x) ->
  exists d c s, print_pos q = c :: s /\ (exists n, c = chr n /\ is_dig n) /\ read_unsigned (print_pos q) = Some d /\ (d == inject_Z m * ten (x - 15))%Q.
Proof.
  intros H S. destruct (sig16_spec q m x H S) as (M & _). unfold print_pos. rewrite S.
  destruct (dec_spec m ltac:(lia)) as (N & F & NE & _). pose proof (dec_len m 16 ltac:(lia) M) as L16. set (ds := dec m) in *.
  assert (L : length ds = 16%nat) by (unfold zlen in L16; lia).
  assert (FI : forall i, (0 < i)%nat -> exists d0 r, firstn i ds = d0 :: r /\ is_dig d0).
  { intros i Hi. destruct ds as [|d0 r]; [discriminate|]. destruct i; [lia|]. exists d0, (firstn i r). split; [reflexivity|]. inversion F; assumption. }
  destruct ((x <? -4) || (16 <=? x)) eqn:E1.
  - destruct (FI 1%nat ltac:(lia)) as (d0 & r & Ef & D0).
    eexists. exists (chr d0), (map chr r ++ fraction (drop_zeros (skipn 1 ds)) ++ print_exp x). split; [rewrite Ef; reflexivity|].
    split; [exists d0; auto|]. split.
    + apply read_unsigned_form with (e := x); [apply Forall_firstn, F|rewrite Ef; discriminate|apply drop_zeros_digs, Forall_skipn, F|reflexivity|apply read_print_exp].
    + rewrite tail_zeros by lia. rewrite N. rewrite L16. replace (x - (16 - Z.of_nat 1)) with (x - 15) by lia. reflexivity.
  - destruct (0 <=? x) eqn:E2.
    + set (i := Z.to_nat (x + 1)). destruct (FI i ltac:(lia)) as (d0 & r & Ef & D0).
      eexists. exists (chr d0), (map chr r ++ fraction (drop_zeros (skipn i ds))). split; [rewrite Ef; reflexivity|].
      split; [exists d0; auto|]. split.
      * rewrite <- (app_nil_r (fraction _)). apply read_unsigned_form with (e := 0); [apply Forall_firstn, F|rewrite Ef; discriminate|apply drop_zeros_digs, Forall_skipn, F|exact I|reflexivity].
      * rewrite tail_zeros by lia. rewrite N, L16. replace (0 - (16 - Z.of_nat i)) with (x - 15) by lia. reflexivity.
    + set (zs := repeat 0 (Z.to_nat (- x - 1))). eexists. exists (chr 0), (fraction (zs ++ drop_zeros ds)). split; [reflexivity|].
      split; [exists 0; split; [reflexivity|unfold is_dig; lia]|]. split.
      * change (chr 0 :: fraction (zs ++ drop_zeros ds)) with (map chr [0] ++ fraction (zs ++ drop_zeros ds)).
        rewrite <- (app_nil_r (fraction _)). apply read_unsigned_form with (e := 0); [repeat constructor; unfold is_dig; lia|discriminate| |exact I|reflexivity].
        apply Forall_app. split; [|apply drop_zeros_digs, F]. unfold zs. clear. induction (Z.to_nat (- x - 1)); cbn; constructor; [unfold is_dig; lia|assumption].
      * rewrite app_assoc, number_app.
        assert (Z0 : number ([0] ++ zs) = 0) by (rewrite number_app; unfold zs; rewrite number_zeros; reflexivity).
        rewrite Z0, Z.mul_0_l, Z.add_0_l, zlen_app'. unfold zs. rewrite zlen_repeat.
        pose proof (tail_zeros ds 0%nat (x + 1) ltac:(lia)) as G. cbn [firstn skipn app] in G. rewrite N, L16 in G.
        replace (x + 1 - (16 - Z.of_nat 0)) with (x - 15) in G by lia. rewrite <- G.
        replace (0 - (Z.of_nat (Z.to_nat (- x - 1)) + zlen (drop_zeros ds))) with (x + 1 - zlen (drop_zeros ds)) by lia. reflexivity.
Qed.

(** A finite number. *)
Lemma print_fin_read q : exists d, read_decimal (print_fl (Fin q)) = Some d /\ (Qabs (d - q) <= half_unit * Qabs q)%Q /\
  (forall n k, (q == inject_Z n * ten k)%Q -> Z.abs n < 10 ^ 16 -> (d == q)%Q) /\
  exists c s, print_fl (Fin q) = c :: s /\ (exists n, is_dig n /\ (c = chr n \/ (c = "-"%char /\ exists s', s = chr n :: s'))).
Proof.
  pose proof (Qred_correct q) as R. unfold print_fl. set (r := Qred q) in *. cbv zeta. setoid_rewrite <- R. clearbody r. clear R q. rename r into q.
  destruct (qltb 0 q) eqn:E1; [apply qltb_true in E1|apply qltb_false in E1].
  - destruct (sig16 q) as [m x] eqn:S. destruct (print_pos_read q m x E1 S) as (d & c & s & Ep & (n & -> & Hn) & Er & Ed).
    destruct (sig16_spec q m x E1 S) as (_ & B). exists d. split.
    { rewrite Ep in *. rewrite read_decimal_pos by (apply chr_minus; exact Hn). exact Er. }
    split; [rewrite Ed, (Qabs_pos q) by lra; exact B|]. split.
    + intros n' k E Hn'. rewrite Ed. eapply sig16_exact; [exact E1|exact S|exact E|lia].
    + exists (chr n), s. split; [exact Ep|]. exists n. auto.
  - destruct (qltb q 0) eqn:E2; [apply qltb_true in E2|apply qltb_false in E2].
    + assert (P : (0 < - q)%Q) by lra. destruct (sig16 (- q)) as [m x] eqn:S.
      destruct (print_pos_read (- q) m x P S) as (d & c & s & Ep & (n & -> & Hn) & Er & Ed). destruct (sig16_spec (- q) m x P S) as (_ & B).
      exists (- d)%Q. split; [cbn [read_decimal]; rewrite Er; reflexivity|]. split.
      { rewrite (Qabs_neg q) by lra. setoid_replace (- d - q)%Q with (- (d - - q))%Q by ring. rewrite Qabs_opp, Ed. exact B. }
      split.
      * intros n' k E Hn'. assert (G : (d == - q)%Q); [|rewrite G; ring]. rewrite Ed.
        apply (sig16_exact (- q) m x (- n') k P S); [rewrite E, inject_Z_opp; ring|lia].
      * exists "-"%char, (print_pos (- q)). split; [reflexivity|]. exists n. split; [exact Hn|]. right. split; [reflexivity|]. exists s. exact Ep.
    + assert (Z0 : (q == 0)%Q) by lra. exists 0%Q. split; [reflexivity|]. split.
      { assert (G : (0 - q == 0)%Q) by lra. rewrite G. change (Qabs 0) with 0%Q. apply Qmult_le_0_compat; [discriminate|apply Qabs_nonneg]. }
      split; [intros; lra|]. exists (chr 0), []. split; [reflexivity|]. exists 0. split; [unfold is_dig; lia|auto].
Qed.
