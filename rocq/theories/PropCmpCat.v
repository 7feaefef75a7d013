(** C141: comparison of the catalogs of two files. *)
From Coq Require Import String Qabs.
From Verif Require Import Base Img Types Typed SpecTyped SpecCompareFl CmpCat SpecCmpCat ExampleCmpCat.
From Verif Require CmpCatLemmas2.
Open Scope Z_scope.
Open Scope string_scope.

(** False: every difference is reported ("requiring exact match").  Start rows that
    differ by 50 pixels pass. *)
Theorem C141_exact_refuted : exists c1 c2, comparable ex_both c1 c2 /\
  (exists x y u v, In ("start_row", x) c1 /\ In ("start_row", y) c2 /\ cell x 1 0 (NI u) /\ cell y 1 0 (NI v) /\ v = u + 50) /\
  forall clip, compare_catalogs clip ex_both c1 c2 = Ok [].
Proof. exact ExampleCmpCat.exact_refuted. Qed.
Print Assumptions C141_exact_refuted.

(** False: the outcome does not depend on which file is given first. *)
Theorem C141_order_refuted : exists c1 c2, comparable ex_both c1 c2 /\ forall clip, (forall n, clip n = Ok tt) ->
  compare_catalogs clip ex_both c1 c2 = Ok [] /\ compare_catalogs clip ex_both c2 c1 = Ok [Differs "start_row"].
Proof. exact ExampleCmpCat.order_refuted. Qed.
Print Assumptions C141_order_refuted.

(** False: all catalogs can be compared.  A text column raises TypeError, *)
Theorem C141_text_refuted : exists c, NoDup (map fst c) /\ (forall n x, In (n, x) c -> numeric x \/ x = Texts) /\
  forall clip, compare_catalogs clip ex_both c c = Err TypeError.
Proof. exact ExampleCmpCat.text_refuted. Qed.
Print Assumptions C141_text_refuted.

(** always. *)
Theorem C141_text_partial : forall clip pairs c1 c2 n, (forall m, clip m = Ok tt) -> map fst c1 = map fst c2 -> In (n, Texts) c1 ->
  Forall2 (fun a b => (numeric (snd a) \/ snd a = Texts) /\ (numeric (snd b) \/ snd b = Texts) /\ rows_in pairs (snd a) (snd b)) c1 c2 ->
  compare_catalogs clip pairs c1 c2 = Err TypeError.
Proof. exact CmpCatLemmas2.catalogs_text. Qed.
Print Assumptions C141_text_partial.

(** True for catalogs of numbers up to a tolerance of 10^-8 and 10^-5 of the number in
    the second file: a field of matched objects is reported when an element differs by
    more, and not when all differ by less, up to rounding.  NaN differs from all.  A
    field with other numbers of elements gives a message. *)
Theorem C141_fields_partial : forall clip pairs, (forall n, clip n = Ok tt) -> forall c1 c2, comparable pairs c1 c2 ->
  exists reps, compare_catalogs clip pairs c1 c2 = Ok reps /\ (forall r, In r reps -> In (report_name r) (map fst c1)) /\
    forall n x y, In (n, x) c1 -> In (n, y) c2 ->
      (width_of x = width_of y ->
        ((forall p j u v, In p pairs -> cell x (fst p) j u -> cell y (snd p) j v -> alike (unit_of x y) u v) -> ~ In (Differs n) reps /\ ~ In (Message n) reps) /\
        ((exists p j u v, In p pairs /\ cell x (fst p) j u /\ cell y (snd p) j v /\ apart (unit_of x y) u v) -> In (Differs n) reps)) /\
      (forall w1 w2, width_of x = Some w1 -> width_of y = Some w2 -> w1 <> w2 -> w1 <> 1 -> w2 <> 1 -> In (Message n) reps).
Proof. exact CmpCatLemmas2.catalogs_fields. Qed.
Print Assumptions C141_fields_partial.

(** A catalog of numbers agrees with itself. *)
Theorem C141_self_partial : forall clip pairs c, (forall m, clip m = Ok tt) -> comparable pairs c c -> Forall (fun p => fst p = snd p) pairs ->
  (forall n x i j u, In (n, x) c -> cell x i j u -> exactly u <> NaN) -> compare_catalogs clip pairs c c = Ok [].
Proof. exact CmpCatLemmas2.catalogs_self. Qed.
Print Assumptions C141_self_partial.

(** Catalogs with other columns are refused. *)
Theorem C141_names : forall clip pairs c1 c2, map fst c1 <> map fst c2 -> compare_catalogs clip pairs c1 c2 = Err ValueError.
Proof. exact CmpCatLemmas2.catalogs_names. Qed.
Print Assumptions C141_names.

(** Two objects: a start row that is clearly other, dec NaN in both files; fields that
    agree; and an unmatched object. *)
Example C141_example_hypotheses : comparable ex_both (ex_catalog 400 800 NaN) (ex_catalog 400 801 NaN) /\
  comparable ex_both (ex_catalog 400 800 (Inf false)) (ex_catalog 400 800 (Inf false)).
Proof. split; apply ex_catalog_comparable; (split; [discriminate|reflexivity]) || auto. Qed.
Example C141_example :
  compare_catalogs ex_noclip ex_both (ex_catalog 400 800 NaN) (ex_catalog 400 801 NaN) = Ok [Differs "start_row"; Differs "dec"] /\
  compare_catalogs ex_noclip ex_both (ex_catalog 400 800 (Inf false)) (ex_catalog 400 800 (Inf false)) = Ok [] /\
  compare_catalogs ex_noclip [(0, 0)] (ex_catalog 400 800 NaN) (ex_catalog 400 801 NaN) = Ok [].
Proof. vm_compute. repeat split; reflexivity. Qed.
Example C141_example_width :
  compare_catalogs ex_noclip ex_both [("file_id", Nums ex_i8 (Some 2) (ex_rows2 1 2))] [("file_id", Nums ex_i8 (Some 3) [[NI 0; NI 1; NI 0]; [NI 2; NI 402; NI 0]])] = Ok [Message "file_id"].
Proof. vm_compute. reflexivity. Qed.
