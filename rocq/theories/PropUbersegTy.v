(** Property theorems on the nearest-object weights of arrays with number types: C109. *)
From Verif Require Import Base Img Types SpecFile SpecUberseg Typed SpecTyped UbersegTy SpecUbersegTy.
From Verif Require UbersegTyLemmas TypedLemmas9.
Open Scope Z_scope.

(** * C109: the types of the weights, the seg map and the numbers *)
(** Numbers that differ by 2^32: the C code keeps the pixel of another object. *)
Theorem C109_wrapped_refuted : exists wt seg rf rs, arr_ok wt /\ arr_ok seg /\ a_kind wt = KF false /\ a_kind seg = KI true 64 /\
  (forall ub, uberseg_typed ub 40 wt seg (NI 5) true = Ok rf) /\ (forall ub fuel, uberseg_typed ub fuel wt seg (NI 5) false = Ok rs) /\
  px (a_im seg) 0 1 = Some (NI (2 ^ 32 + 5)) /\ px (a_im rs) 0 1 = Some (NF (Fin 0)) /\ exists q, px (a_im rf) 0 1 = Some (NF (Fin q)) /\ (q == 1)%Q.
Proof.
  exists ty_wt, (ty_seg (2 ^ 32 + 5)). do 2 eexists. split; [apply TypedLemmas9.arr_okb_ok; vm_compute; reflexivity|].
  split; [apply TypedLemmas9.arr_okb_ok; vm_compute; reflexivity|]. split; [reflexivity|]. split; [reflexivity|].
  split; [intros ub; vm_compute; reflexivity|]. split; [intros ub fuel; vm_compute; reflexivity|].
  split; [vm_compute; reflexivity|]. split; [vm_compute; reflexivity|]. eexists. split; vm_compute; reflexivity.
Qed.
Print Assumptions C109_wrapped_refuted.

(** An object whose number does not fit a C int, or is of a floating point type. *)
Theorem C109_number_refuted : exists wt seg rs, arr_ok wt /\ arr_ok seg /\ px (a_im seg) 0 1 = Some (NI (2 ^ 31)) /\
  (forall ub fuel, uberseg_typed ub fuel wt seg (NI (2 ^ 31)) true = Err OverflowError) /\
  (forall ub fuel, uberseg_typed ub fuel wt seg (NI (2 ^ 31)) false = Ok rs) /\ px (a_im rs) 0 1 = Some (NF (Fin 1)) /\
  forall ub fuel q, uberseg_typed ub fuel wt seg (NF (Fin q)) true = Err TypeError.
Proof.
  exists ty_wt, (ty_seg (2 ^ 31)). eexists. split; [apply TypedLemmas9.arr_okb_ok; vm_compute; reflexivity|].
  split; [apply TypedLemmas9.arr_okb_ok; vm_compute; reflexivity|]. split; [vm_compute; reflexivity|].
  split; [intros; vm_compute; reflexivity|]. split; [intros; vm_compute; reflexivity|]. split; [vm_compute; reflexivity|].
  intros; vm_compute; reflexivity.
Qed.
Print Assumptions C109_number_refuted.

(** Weights in double precision are rounded by the fast code only. *)
Theorem C109_double_refuted : exists wt seg rf rs x y, arr_ok seg /\ a_kind wt = KF true /\
  (forall ub, uberseg_typed ub 40 wt seg (NI 5) true = Ok rf) /\ (forall ub fuel, uberseg_typed ub fuel wt seg (NI 5) false = Ok rs) /\
  a_kind rf = KF false /\ a_kind rs = KF true /\ px (a_im wt) 0 0 = Some (NF (Fin x)) /\
  px (a_im rs) 0 0 = Some (NF (Fin x)) /\ px (a_im rf) 0 0 = Some (NF (Fin y)) /\ ~ (x == y)%Q.
Proof.
  exists ty_wt8, (ty_seg 6). do 4 eexists. split; [apply TypedLemmas9.arr_okb_ok; vm_compute; reflexivity|]. split; [reflexivity|].
  split; [intros; vm_compute; reflexivity|]. split; [intros; vm_compute; reflexivity|]. split; [reflexivity|]. split; [reflexivity|].
  split; [vm_compute; reflexivity|]. split; [vm_compute; reflexivity|]. split; [vm_compute; reflexivity|]. vm_compute; discriminate.
Qed.
Print Assumptions C109_double_refuted.

(** Numbers that fit a C int and weights that are numbers of type f4: the same
    weights where there is no tie. *)
Theorem C109_same_partial : forall ub wt seg sq n,
  img_ok (a_im wt) -> seg_values (a_im seg) sq -> nr (a_im wt) = nr sq -> nc (a_im wt) = nc sq ->
  0 < nr sq /\ 0 < nc sq /\ nr sq * nr sq + nc sq * nc sq <= 2 ^ 24 ->
  c_ints sq -> is_int true 32 n -> n <> 0 ->
  forall r0 c0 v0, nonsky sq r0 c0 v0 -> (forall r c x, px (a_im wt) r c = Some x -> f4_num x) -> exists N rf rs,
    (forall fuel, (N <= fuel)%nat -> uberseg_typed ub fuel wt seg (NI n) true = Ok rf) /\
    (forall fuel, uberseg_typed ub fuel wt seg (NI n) false = Ok rs) /\
    forall r c, 0 <= r < nr (a_im wt) -> 0 <= c < nc (a_im wt) -> no_tie sq r c ->
      exists x y, px (a_im rs) r c = Some x /\ px (a_im rf) r c = Some y /\ same_num x y.
Proof. exact UbersegTyLemmas.typed_same. Qed.
Print Assumptions C109_same_partial.

(** Weights of any type: those of the Python code converted to f4. *)
Theorem C109_rounded_partial : forall ub wt seg sq n,
  img_ok (a_im wt) -> seg_values (a_im seg) sq -> nr (a_im wt) = nr sq -> nc (a_im wt) = nc sq ->
  0 < nr sq /\ 0 < nc sq /\ nr sq * nr sq + nc sq * nc sq <= 2 ^ 24 ->
  c_ints sq -> is_int true 32 n -> n <> 0 ->
  forall r0 c0 v0, ~ two_values sq -> nonsky sq r0 c0 v0 -> exists N rf rs,
    (forall fuel, (N <= fuel)%nat -> uberseg_typed ub fuel wt seg (NI n) true = Ok rf) /\
    (forall fuel, uberseg_typed ub fuel wt seg (NI n) false = Ok rs) /\
    a_kind rf = KF false /\ a_kind rs = a_kind wt /\
    nr (a_im rf) = nr (a_im wt) /\ nc (a_im rf) = nc (a_im wt) /\ nr (a_im rs) = nr (a_im wt) /\ nc (a_im rs) = nc (a_im wt) /\
    forall r c, 0 <= r < nr (a_im wt) -> 0 <= c < nc (a_im wt) -> no_tie sq r c ->
      exists x, px (a_im rs) r c = Some x /\ px (a_im rf) r c = Some (NF (to_fl false x)) /\
        (px (a_im wt) r c = Some x \/ x = zero_of (a_kind wt)).
Proof. exact UbersegTyLemmas.typed_rounded. Qed.
Print Assumptions C109_rounded_partial.

(** With two values the weights are returned as they are, whatever the types. *)
Theorem C109_two_values_partial : forall ub wt seg sq, seg_values (a_im seg) sq -> two_values sq ->
  forall fuel num fast, uberseg_typed ub fuel wt seg num fast = Ok wt.
Proof. exact UbersegTyLemmas.typed_two_values. Qed.
Print Assumptions C109_two_values_partial.

Example C109_example : let sq := tab2 1 4 (fun _ c => inject_Z (if c =? 0 then 5 else if c =? 1 then 2 ^ 31 - 1 else if c =? 2 then 0 else 7)) in
  seg_values (a_im (ty_seg (2 ^ 31 - 1))) sq /\ nonsky sq 0 0 5 /\
  (let* rf := uberseg_typed (fun _ => 0) 40 ty_wt (ty_seg (2 ^ 31 - 1)) (NI (2 ^ 31 - 1)) true in
   let* rs := uberseg_typed (fun _ => 0) 40 ty_wt (ty_seg (2 ^ 31 - 1)) (NI (2 ^ 31 - 1)) false in
   Ok (map (fun x => num_eqb x (NI 1)) (dat (a_im rf)), dat (a_im rs)))
  = Ok ([false; true; true; false], [NF (Fin 0); NF (Fin 1); NF (Fin 1); NF (Fin 0)]).
Proof.
  split; [|split; [split; [reflexivity|discriminate]|vm_compute; reflexivity]].
  split; [repeat split; vm_compute; discriminate|]. split; [reflexivity|]. split; [reflexivity|].
  vm_compute. repeat constructor.
Qed.
