(** Property theorems on the text that make-meds-input prints: C131. *)
From Coq Require Import String Ascii Qpower Qabs.
From Verif Require Import Base Img Types Typed SpecTyped CLib CProg SpecCLib SpecCProg CText SpecCText ExampleCLib ExampleCProg ExampleCText.
From Verif Require CTextLemmas3.
Open Scope Z_scope.

(** * C131: the text of make-meds-input *)

(** The standard output has one line per row of the catalog, and each gives the row
    number, the position and the box. *)
Theorem C131_output_partial : forall fs infile mn mx rows, fs infile = Some (CCat rows) ->
  (forall x, In x rows -> ~ (a_world x == 0)%Q) ->
  (forall x, In x rows -> plain_double (Fin (y_image x)) /\ plain_double (Fin (x_image x))) ->
  exists r, make_meds_input [infile; mn; mx] fs = Ok r /\
    zlen (text_lines (stdout_text r)) = zlen rows /\
    forall k x, zget rows k = Some x -> exists t n b, zget (text_lines (stdout_text r)) k = Some t /\
      says t n (Fin (y_image x)) (Fin (x_image x)) b /\ n = k /\ box_for x (atoi mn) (atoi mx) b.
Proof. exact CTextLemmas3.input_text. Qed.
Print Assumptions C131_output_partial.

Theorem C131_output_with_ids_partial : forall fs infile mn mx rows idf more words, fs infile = Some (CCat rows) ->
  (forall x, In x rows -> ~ (a_world x == 0)%Q) ->
  (forall x, In x rows -> plain_double (Fin (y_image x)) /\ plain_double (Fin (x_image x))) ->
  fs idf = Some (CWords words) -> zlen (leading words) = zlen rows ->
  exists r, make_meds_input (infile :: mn :: mx :: idf :: more) fs = Ok r /\
    zlen (text_lines (stdout_text r)) = zlen rows /\
    forall k x, zget rows k = Some x -> exists t n b, zget (text_lines (stdout_text r)) k = Some t /\
      says t n (Fin (y_image x)) (Fin (x_image x)) b /\ zget (leading words) k = Some n /\ box_for x (atoi mn) (atoi mx) b.
Proof. exact CTextLemmas3.input_text_ids. Qed.
Print Assumptions C131_output_with_ids_partial.

Example C131_output_example : exists r, make_meds_input ["cat"; "16"; "100"; "ids"]%string ex_files = Ok r /\
  stdout_text r = chars ("501 3.5 2.5 24" ++ newline ++ "-502 20 31 128" ++ newline).
Proof. eexists. split; [vm_compute; reflexivity|]. vm_compute. reflexivity. Qed.

Example C131_output_hypotheses : forall x, In x ex_secat ->
  ~ (a_world x == 0)%Q /\ plain_double (Fin (y_image x)) /\ plain_double (Fin (x_image x)).
Proof.
  intros x [<-|[<-|[]]]; (split; [discriminate|]); split; (split; [|discriminate]).
  - exists 7, (-1). repeat split; vm_compute; congruence.
  - exists 5, (-1). repeat split; vm_compute; congruence.
  - exists 20, 0. repeat split; vm_compute; congruence.
  - exists 31, 0. repeat split; vm_compute; congruence.
Qed.

(** Lines for any numbers: infinities and NaN are printed as such. *)
Theorem C131_lines_partial : forall ls, Forall (fun '(_, row, col, _) => plain_double row /\ plain_double col) ls ->
  Forall2 (fun '(id, row, col, box) t => says t id row col box) ls (text_lines (print_lines ls)).
Proof. exact CTextLemmas3.print_lines_says. Qed.
Print Assumptions C131_lines_partial.

Example C131_lines_example : print_lines ex_lines =
  chars ("12 1234.5 -0.125 48" ++ newline ++ "-7 9.5367431640625e-07 nan 32" ++ newline ++ "0 -inf 0 2" ++ newline).
Proof. vm_compute. reflexivity. Qed.

(** The decimal number printed: within 5 parts in 10^16, and the position itself when
    it has sixteen digits or fewer. *)
Theorem C131_decimal_partial : forall q, exists d, read_decimal (print_fl (Fin q)) = Some d /\
  (Qabs (d - q) <= (5#10000000000000000) * Qabs q)%Q /\
  (forall n k, (q == inject_Z n * Qpower (10#1) k)%Q -> Z.abs n < 10 ^ 16 -> (d == q)%Q).
Proof. exact CTextLemmas3.decimal_text. Qed.
Print Assumptions C131_decimal_partial.

Example C131_decimal_example : print_fl (Fin (12345678#10000)) = chars "1234.5678" /\
  read_decimal (chars "1234.5678") = Some (inject_Z 12345678 * Qpower (10#1) (-4))%Q /\
  print_fl (Fin (6004799503160661 # 9007199254740992)) = chars "0.6666666666666666" /\
  print_fl (Fin (200#3)) = chars "66.66666666666667".
Proof. repeat split; vm_compute; reflexivity. Qed.

(** Positions of single precision come back exactly. *)
Theorem C131_single_partial : forall q, is_float false q -> (Qabs q <= inject_Z (10 ^ 30))%Q ->
  exists y v, read_double (print_fl (Fin q)) = Some (Fin y) /\ fround false y = Fin v /\ (v == q)%Q.
Proof. exact CTextLemmas3.single_back. Qed.
Print Assumptions C131_single_partial.

Example C131_single_example : is_float false (13421773 # 134217728) /\
  print_fl (Fin (13421773 # 134217728)) = chars "0.1000000014901161".
Proof. split; [exists 13421773, (-27); split; [reflexivity|]; repeat split; vm_compute; congruence|vm_compute; reflexivity]. Qed.

(** Positions of double precision do not: sixteen digits are one too few. *)
Theorem C131_exact_refuted : exists q w, is_float true q /\ (Qabs q <= 10000)%Q /\
  read_double (print_fl (Fin q)) = Some (Fin w) /\ ~ (w == q)%Q.
Proof.
  exists ex_fine. eexists. split; [exists (1000 * 2 ^ 43 + 1), (-43); split; [reflexivity|]; repeat split; vm_compute; congruence|].
  split; [discriminate|]. split; [vm_compute; reflexivity|]. vm_compute. discriminate.
Qed.
Print Assumptions C131_exact_refuted.

(** Nor does the largest double: its text reads as infinity. *)
Theorem C131_finite_refuted : exists q, is_float true q /\ read_double (print_fl (Fin q)) = Some (Inf false).
Proof.
  exists ex_largest. split; [exists (2 ^ 53 - 1), 971; split; [reflexivity|]; repeat split; vm_compute; congruence|].
  vm_compute. reflexivity.
Qed.
Print Assumptions C131_finite_refuted.
