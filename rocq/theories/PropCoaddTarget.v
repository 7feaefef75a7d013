(** Property theorems on the pixel grid of the coadds: C142. *)
From Coq Require Import Permutation.
From Verif Require Import Base Img Types Reader Composite Coadd CoaddTarget Extract SpecFile SpecExtract SpecChain SpecCoaddTarget
  ExampleData ExampleCoadd ExampleCoaddTarget.
From Verif Require CoaddTargetLemmas CoaddTargetLemmas2.
Open Scope Z_scope.

(** * C142 *)

(** False: a file whose epochs all have invertible jacobians and whose target is
    singular; the seg map of its coadd is one pixel of the original one everywhere. *)
Theorem C142_singular_refuted : exists f j ss, extractable f /\ first_epochs (m_cat f) ss /\
  (forall s, In s ss -> ~ (det (of_slot s) == 0)%Q) /\ target_of f = Ok (Some j) /\ (det j == 0)%Q /\
  ex_facts (coadd_of ex_tconf (fun _ => ex_oracle 3) f 0) = Ok (Some (map (fun _ => 1%Q) (zrange 36)), 0).
Proof. exact CoaddTargetLemmas2.singular_target. Qed.
Print Assumptions C142_singular_refuted.

(** False: the coadd of an object is another one after extracting it. *)
Theorem C142_others_refuted : exists f g c o j i p q a b, extractable f /\ derived f g /\
  zget (m_cat f) j = Some p /\ zget (m_cat g) i = Some q /\ o_number p = o_number q /\
  coadd_of c o f j = Ok (Some a, 0) /\ coadd_of c o g i = Ok (Some b, 0) /\ co_seg a <> co_seg b.
Proof. exact CoaddTargetLemmas2.others_matter. Qed.
Print Assumptions C142_others_refuted.

(** Each element of the target is the median of that element over the first epochs. *)
Theorem C142_median_partial : forall f a b d e, target_of f = Ok (Some (a, b, d, e)) ->
  exists ss, first_epochs (m_cat f) ss /\ ss <> [] /\
    is_median (map s_dudrow ss) a /\ is_median (map s_dudcol ss) b /\
    is_median (map s_dvdrow ss) d /\ is_median (map s_dvdcol ss) e.
Proof. exact CoaddTargetLemmas.target_Some. Qed.
Print Assumptions C142_median_partial.

(** A jacobian that more than half of the objects have is the target. *)
Theorem C142_common_partial : forall f j ss good rest, target_of f = Ok (Some j) -> first_epochs (m_cat f) ss ->
  Permutation ss (good ++ rest) -> (length rest < length good)%nat ->
  forall k, Forall (fun s => jeq (of_slot s) k) good -> jeq j k.
Proof. exact CoaddTargetLemmas.target_common. Qed.
Print Assumptions C142_common_partial.

(** The target lies between any bounds that hold for all epochs. *)
Theorem C142_between_partial : forall f j ss lo hi, target_of f = Ok (Some j) -> first_epochs (m_cat f) ss ->
  (forall s, In s ss -> jbetween lo (of_slot s) hi) -> jbetween lo j hi.
Proof. exact CoaddTargetLemmas.target_between. Qed.
Print Assumptions C142_between_partial.

(** The order of the objects, and objects without epochs, do not matter. *)
Theorem C142_order : forall f g ss ss' j k, first_epochs (m_cat f) ss -> first_epochs (m_cat g) ss' ->
  Permutation (map of_slot ss) (map of_slot ss') ->
  target_of f = Ok (Some j) -> target_of g = Ok (Some k) -> jeq j k.
Proof. exact CoaddTargetLemmas.target_order. Qed.
Print Assumptions C142_order.

(** A coadder can be made for every file. *)
Theorem C142_exists : forall f, file_wf f -> exists t, target_of f = Ok t.
Proof. exact CoaddTargetLemmas2.target_exists. Qed.
Print Assumptions C142_exists.

(** Without any epoch there is no target, and none is used. *)
Theorem C142_no_epochs : forall c o f iobj ob, file_wf f -> has_ext f TImage -> target_of f = Ok None ->
  zget (m_cat f) iobj = Some ob -> 1 <= o_ncut ob -> coadd_of c o f iobj = Ok (None, 1).
Proof. exact CoaddTargetLemmas2.no_epochs. Qed.
Print Assumptions C142_no_epochs.
Theorem C142_no_target_iff : forall f, target_of f = Ok None <-> (forall o, In o (m_cat f) -> o_ncut o <= 1).
Proof. exact CoaddTargetLemmas2.target_None. Qed.
Print Assumptions C142_no_target_iff.

(** With the same target, extracting and coadding gives the coadds of the whole file. *)
Theorem C142_extracted_partial : forall c o f g i o', extractable f -> derived f g -> zget (m_cat g) i = Some o' ->
  target_of g = target_of f ->
  exists j p, zget (m_cat f) j = Some p /\ o_number p = o_number o' /\ coadd_of c o g i = coadd_of c o f j.
Proof. exact CoaddTargetLemmas2.coadd_extracted. Qed.
Print Assumptions C142_extracted_partial.

(** Two objects of three on one epoch: its jacobian is the target, and stays so for the first object alone. *)
Example C142_ex : (let* f := ex_tfile (1#4, 0, 0, 1#4)%Q (1#2, 0, 0, 1#2)%Q ex_tobjs3 in
   let* g := extract_range false f 0 0 in
   let* t := target_of f in let* u := target_of g in
   let* x := ex_facts (coadd_of ex_tconf (fun _ => ex_oracle 3) f 0) in
   let* y := ex_facts (coadd_of ex_tconf (fun _ => ex_oracle 3) g 0) in
   Ok (map o_ncut (m_cat f), t, u, x, match fst y with Some d => zlen d | None => 0 end)) =
  (let x := (Some ([1;1;1;1;1;1; 1;1;1;1;1;1; 1;1;1;1;1;1; 1;1;1;1;1;1; 0;0;0;0;2;2; 0;0;0;0;2;2]%Q), 0) in
   Ok ([2; 2; 2], Some (0, 1#4, 1#4, 0)%Q, Some (0, 1#4, 1#4, 0)%Q, x, 36)).
Proof. vm_compute. reflexivity. Qed.

(** An object on the coadd only. *)
Example C142_ex_none : (let* f := ex_tfile (1#4, 0, 0, 1#4)%Q (1#2, 0, 0, 1#2)%Q ex_tobjs1 in
   let* t := target_of f in let* x := ex_facts (coadd_of ex_tconf (fun _ => ex_oracle 3) f 0) in Ok (map o_ncut (m_cat f), t, x)) =
  Ok ([1], None, (None, 1)).
Proof. vm_compute. reflexivity. Qed.
