(** Example catalogs to compare. *)
From Coq Require Import String Qabs Lia.
From Verif Require Import Base Img Types Typed SpecTyped SpecCompareFl CmpCat SpecCmpCat.
Open Scope Z_scope.
Open Scope string_scope.

Definition ex_i8 : kind := KI true 64.
(** Two objects, two cutouts each: start_row, and dec in degrees. *)
Definition ex_rows2 (a b : Z) : list (list num) := [[NI 0; NI a]; [NI b; NI (b + 400)]].
Definition ex_catalog (a b : Z) (dec : fl) : catalog :=
  [("id", Nums ex_i8 None [[NI 1]; [NI 2]]); ("start_row", Nums ex_i8 (Some 2) (ex_rows2 a b)); ("dec", Nums (KF true) None [[NF (Fin (1#2))]; [NF dec]])].
Definition ex_noclip (_ : string) : res unit := Ok tt.
Definition ex_both : list (Z * Z) := [(0, 0); (1, 1)].

Lemma ex_half : is_float true (1#2).
Proof. exists 1, (-1). split; [reflexivity|]. split; [lia|]. split; [lia|]. vm_compute. reflexivity. Qed.
Lemma ex_catalog_numeric a b dec : 0 <= a < 2 ^ 40 -> 0 <= b < 2 ^ 40 -> (dec = Fin (1#2) \/ dec = NaN \/ dec = Inf false) ->
  Forall (fun x => numeric (snd x) /\ in_rows (snd x) 0 /\ in_rows (snd x) 1) (ex_catalog a b dec).
Proof.
  intros A B D. pose proof ex_half as H.
  assert (S : (Qabs (1#2) <= Qpower (2#1) 120)%Q) by (vm_compute; discriminate).
  assert (ND : num_ok (KF true) (NF dec) /\ small (NF dec)) by (destruct D as [->|[->| ->]]; split; cbn [num_ok fl_ok small]; assumption || exact I).
  assert (NH : num_ok (KF true) (NF (Fin (1#2))) /\ small (NF (Fin (1#2)))) by (split; cbn [num_ok fl_ok small]; assumption).
  assert (NI_ok : forall z, 0 <= z < 2 ^ 41 -> num_ok ex_i8 (NI z) /\ small (NI z)) by (intros z Hz; cbn [num_ok ex_i8 is_int small]; lia).
  repeat apply Forall_cons; try apply Forall_nil; unfold ex_rows2; cbn [snd numeric in_rows]; (split; [split; [first [exact I|unfold ex_i8; cbn; lia]|]|unfold zlen; cbn [length]; lia]).
  - repeat constructor; apply NI_ok; lia.
  - repeat constructor; apply NI_ok; lia.
  - constructor; [|constructor; [|constructor]]; (split; [reflexivity|]); constructor; [exact NH|constructor|exact ND|constructor].
Qed.
Lemma ex_catalog_comparable a b dec a' b' dec' : 0 <= a < 2 ^ 40 -> 0 <= b < 2 ^ 40 -> (dec = Fin (1#2) \/ dec = NaN \/ dec = Inf false) ->
  0 <= a' < 2 ^ 40 -> 0 <= b' < 2 ^ 40 -> (dec' = Fin (1#2) \/ dec' = NaN \/ dec' = Inf false) ->
  comparable ex_both (ex_catalog a b dec) (ex_catalog a' b' dec').
Proof.
  intros A B D A' B' D'. pose proof (ex_catalog_numeric a b dec A B D) as F. pose proof (ex_catalog_numeric a' b' dec' A' B' D') as F'.
  split; [reflexivity|]. split; [cbn; repeat (constructor; [cbn; intuition discriminate|]); constructor|].
  unfold ex_catalog in *. inversion F as [|? ? (X1 & X2 & X3) G]; subst. inversion G as [|? ? (X4 & X5 & X6) G2]; subst. inversion G2 as [|? ? (X7 & X8 & X9) _]; subst.
  inversion F' as [|? ? (Y1 & Y2 & Y3) G']; subst. inversion G' as [|? ? (Y4 & Y5 & Y6) G2']; subst. inversion G2' as [|? ? (Y7 & Y8 & Y9) _]; subst.
  constructor; [|constructor; [|constructor; [|constructor]]]; (split; [assumption|]); (split; [assumption|]); constructor; [split; assumption|constructor; [split; assumption|constructor]|split; assumption|constructor; [split; assumption|constructor]|split; assumption|constructor; [split; assumption|constructor]].
Qed.

(** Start rows that differ by 50 pass for equal. *)
Lemma exact_refuted : exists c1 c2, comparable ex_both c1 c2 /\ (exists x y u v, In ("start_row", x) c1 /\ In ("start_row", y) c2 /\ cell x 1 0 (NI u) /\ cell y 1 0 (NI v) /\ v = u + 50) /\
  forall clip, compare_catalogs clip ex_both c1 c2 = Ok [].
Proof.
  exists (ex_catalog 400 10000000 (Fin (1#2))), (ex_catalog 400 10000050 (Fin (1#2))). split; [apply ex_catalog_comparable; try lia; auto|]. split.
  - do 4 eexists. split; [right; left; reflexivity|]. split; [right; left; reflexivity|]. split; [eexists; split; reflexivity|]. split; [eexists; split; reflexivity|reflexivity].
  - intros clip. vm_compute. reflexivity.
Qed.

(** The order of the files matters. *)
Lemma order_refuted : exists c1 c2, comparable ex_both c1 c2 /\ forall clip, (forall n, clip n = Ok tt) ->
  compare_catalogs clip ex_both c1 c2 = Ok [] /\ compare_catalogs clip ex_both c2 c1 = Ok [Differs "start_row"].
Proof.
  exists (ex_catalog 400 10000000000 (Fin (1#2))), (ex_catalog 400 10000100001 (Fin (1#2))). split; [apply ex_catalog_comparable; try lia; auto|]. intros clip CL. split; [vm_compute; reflexivity|].
  cbv [compare_catalogs]. assert (A : allclose ex_both (Nums ex_i8 (Some 2) (ex_rows2 400 10000100001)) (Nums ex_i8 (Some 2) (ex_rows2 400 10000000000)) = Ok false) by (vm_compute; reflexivity).
  assert (A1 : allclose ex_both (Nums ex_i8 None [[NI 1]; [NI 2]]) (Nums ex_i8 None [[NI 1]; [NI 2]]) = Ok true) by (vm_compute; reflexivity).
  assert (A2 : allclose ex_both (Nums (KF true) None [[NF (Fin (1#2))]; [NF (Fin (1#2))]]) (Nums (KF true) None [[NF (Fin (1#2))]; [NF (Fin (1#2))]]) = Ok true) by (vm_compute; reflexivity).
  change (same_names _ _) with true. cbn [ex_catalog combine mapM fst snd]. unfold compare_column. rewrite A, A1, A2. cbn [bind]. rewrite CL. reflexivity.
Qed.

(** A catalog with a text column cannot even be compared with itself. *)
Lemma text_refuted : exists c, NoDup (map fst c) /\ (forall n x, In (n, x) c -> numeric x \/ x = Texts) /\ forall clip, compare_catalogs clip ex_both c c = Err TypeError.
Proof.
  exists (ex_catalog 400 500 (Fin (1#2)) ++ [("band", Texts)])%list. split; [cbn; repeat (constructor; [cbn; intuition discriminate|]); constructor|]. split.
  - intros n x H. apply in_app_iff in H. destruct H as [H|[H|[]]]; [|injection H as _ <-; right; reflexivity]. left.
    pose proof (ex_catalog_numeric 400 500 (Fin (1#2)) ltac:(lia) ltac:(lia) ltac:(auto)) as F. rewrite Forall_forall in F. exact (proj1 (F (n, x) H)).
  - intros clip. vm_compute. reflexivity.
Qed.
