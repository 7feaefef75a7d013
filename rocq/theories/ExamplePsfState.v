(** Example PSF objects with a memory. *)
From Coq Require Import String Lia.
From Verif Require Import Base Img Types BoundsM Reader MakerLayout MakerWrite MakerFile ExampleData Typed PsfTy PsfState SpecPsfState.
Open Scope Z_scope.

Definition ex_one (z : Z) : arr := mkArr (KI true 32) (mkImg 1 1 [NI z]).
Definition ex_pos (n : Z) (r c : Q) : Z := 100 * n + 10 * Qfloor r + Qfloor c.
Definition ex_center (_ _ : Q) : Q * Q := (1#2, 1#2)%Q.

(** Renders into a buffer that all objects share, and returns the buffer. *)
Definition ex_buffer (n : Z) : spsf Z :=
  mkSpsf (fun _ r c _ => Ok ((fun buf => ex_one buf), ex_pos n r c)) None ex_center.
Definition ex_buffers : list (spsf Z) := [ex_buffer 1; ex_buffer 2; ex_buffer 3].

(** Numbers its calls, as one that draws random numbers does. *)
Definition ex_counter : spsf Z :=
  mkSpsf (fun calls _ _ _ => Ok ((fun _ => ex_one calls), calls + 1)) None ex_center.
Definition ex_counters : list (spsf Z) := [ex_counter; ex_counter; ex_counter].

(** Keeps what it rendered last. *)
Definition ex_cache (n : Z) : spsf (option (Z * Q * Q * arr)) :=
  mkSpsf (fun m r c _ =>
    match m with
    | Some (n', r', c', a) => if (n =? n') && Qeq_bool (r' - r) 0 && Qeq_bool (c' - c) 0 && (Qden r =? Qden r')%positive && (Qden c =? Qden c')%positive
                              then Ok ((fun _ => a), m) else Ok ((fun _ => ex_one (ex_pos n r c)), Some (n, r, c, ex_one (ex_pos n r c)))
    | None => Ok ((fun _ => ex_one (ex_pos n r c)), Some (n, r, c, ex_one (ex_pos n r c)))
    end) None ex_center.
Definition ex_caches : list (spsf (option (Z * Q * Q * arr))) := [ex_cache 1; ex_cache 2; ex_cache 3].
Definition ex_plain (n : Z) : tpsf := mkTpsf (fun r c _ => ex_one (ex_pos n r c)) None ex_center.
Definition ex_plains : list tpsf := [ex_plain 1; ex_plain 2; ex_plain 3].

Definition ex_sfile {St} (jl : option (Z * (Z -> bool))) (psfs : list (spsf St)) (st : St) : res pfile :=
  make_state ex_conf jl ex_types ex_rows psfs st ex_objs ex_junk (fun _ => NaN).
Definition ex_pix (x : res pfile) (iobj icut : Z) : res (list fl) :=
  let* f := x in let* im := get_psf_typed f iobj icut in Ok (map (fcast true) (dat im)).

Lemma ex_buffers_repeatable st : repeatable ex_buffers st.
Proof.
  intros st1 st2 p r c col a1 st1' _ _ Hp H. destruct Hp as [<-|[<-|[<-|[]]]]; cbn in *; injection H as <- <-; eexists _, _; split; reflexivity.
Qed.
Lemma ex_counters_own st : own_arrays ex_counters st.
Proof. intros st1 p r c col a st2 st3 _ Hp H _. destruct Hp as [<-|[<-|[<-|[]]]]; cbn in H; injection H as <- <-; reflexivity. Qed.
Lemma ex_caches_own st : own_arrays ex_caches st.
Proof.
  intros st1 p r c col a st2 st3 _ Hp H _. destruct Hp as [<-|[<-|[<-|[]]]]; cbn in H;
    destruct st1 as [[[[n' r'] c'] x]|]; try (destruct (_ && _)%bool); injection H as <- <-; reflexivity.
Qed.

Definition coherent (m : option (Z * Q * Q * arr)) : Prop :=
  match m with Some (n, r, c, a) => a = ex_one (ex_pos n r c) | None => True end.

Lemma floor_same (x y : Q) : Qeq_bool (x - y) 0 = true -> Qfloor x = Qfloor y.
Proof.
  intros H. apply Qeq_bool_iff in H. apply Qfloor_comp.
  setoid_replace x with (x - y + y)%Q by ring. rewrite H. ring.
Qed.

Lemma ex_cache_call n m r c col : coherent m ->
  exists a m', sp_rec (ex_cache n) m r c col = Ok (a, m') /\ a m' = ex_one (ex_pos n r c) /\ coherent m'.
Proof.
  intros C. cbn. destruct m as [[[[n' r'] c'] x]|]; [|eexists _, _; repeat split].
  destruct ((n =? n') && Qeq_bool (r' - r) 0 && Qeq_bool (c' - c) 0 && (Qden r =? Qden r')%positive && (Qden c =? Qden c')%positive)%bool eqn:E;
    [|eexists _, _; repeat split].
  apply andb_prop in E. destruct E as (E & _). apply andb_prop in E. destruct E as (E & _).
  apply andb_prop in E. destruct E as (E & E3). apply andb_prop in E. destruct E as (E1 & E2).
  eexists _, _. split; [reflexivity|]. split; [|exact C]. cbn in C. subst x. apply Z.eqb_eq in E1. subst n'.
  unfold ex_pos. rewrite (floor_same _ _ E2), (floor_same _ _ E3). reflexivity.
Qed.

Lemma ex_after m : after ex_caches None m -> coherent m.
Proof.
  induction 1 as [|st1 p r c col a st2 A IH Hp H]; [exact I|].
  destruct Hp as [<-|[<-|[<-|[]]]];
    match type of H with sp_rec (ex_cache ?n) _ _ _ _ = _ => destruct (ex_cache_call n st1 r c col IH) as (a' & m' & E & _ & C) end;
    rewrite E in H; injection H as <- <-; exact C.
Qed.

Lemma ex_caches_act : Forall2 (acts_as ex_caches None) ex_caches ex_plains.
Proof.
  assert (G : forall n, acts_as ex_caches None (ex_cache n) (ex_plain n)).
  { intros n. split; [reflexivity|]. split; [reflexivity|]. intros st1 r c col A. apply ex_after in A.
    destruct (ex_cache_call n st1 r c col A) as (a' & m' & E & V & _). exists a', m'. split; [exact E|exact V]. }
  constructor; [apply G|]. constructor; [apply G|]. constructor; [apply G|]. constructor.
Qed.

Lemma buffer_differs : exists f1 f2, make_state ex_conf None ex_types ex_rows ex_buffers 0 ex_objs ex_junk (fun _ => NaN) = Ok f1 /\ make_state ex_conf (Some (2000, fun _ => true)) ex_types ex_rows ex_buffers 0 ex_objs ex_junk (fun _ => NaN) = Ok f2 /\
  get_psf_typed f1 0 0 <> get_psf_typed f2 0 0.
Proof.
  destruct (make_state ex_conf None ex_types ex_rows ex_buffers 0 ex_objs ex_junk (fun _ => NaN)) as [f1|] eqn:E1; [|exfalso; vm_compute in E1; discriminate].
  destruct (make_state ex_conf (Some (2000, fun _ => true)) ex_types ex_rows ex_buffers 0 ex_objs ex_junk (fun _ => NaN)) as [f2|] eqn:E2; [|exfalso; vm_compute in E2; discriminate].
  exists f1, f2. split; [reflexivity|]. split; [reflexivity|]. intros H.
  assert (X : ex_pix (Ok f1) 0 0 = ex_pix (Ok f2) 0 0) by (unfold ex_pix; cbn [bind]; rewrite H; reflexivity).
  rewrite <- E1, <- E2 in X. vm_compute in X. discriminate.
Qed.

Lemma counter_differs : exists f1 f2, make_state ex_conf None ex_types ex_rows ex_counters 0 ex_objs ex_junk (fun _ => NaN) = Ok f1 /\ make_state ex_conf (Some (1, fun _ => true)) ex_types ex_rows ex_counters 0 ex_objs ex_junk (fun _ => NaN) = Ok f2 /\
  get_psf_typed f1 1 0 <> get_psf_typed f2 1 0.
Proof.
  destruct (make_state ex_conf None ex_types ex_rows ex_counters 0 ex_objs ex_junk (fun _ => NaN)) as [f1|] eqn:E1; [|exfalso; vm_compute in E1; discriminate].
  destruct (make_state ex_conf (Some (1, fun _ => true)) ex_types ex_rows ex_counters 0 ex_objs ex_junk (fun _ => NaN)) as [f2|] eqn:E2; [|exfalso; vm_compute in E2; discriminate].
  exists f1, f2. split; [reflexivity|]. split; [reflexivity|]. intros H.
  assert (X : ex_pix (Ok f1) 1 0 = ex_pix (Ok f2) 1 0) by (unfold ex_pix; cbn [bind]; rewrite H; reflexivity).
  rewrite <- E1, <- E2 in X. vm_compute in X. discriminate.
Qed.


Theorem buffer_refuted : exists (St : Type) k types rows (psfs : list (spsf St)) st input junk pjunk fresh f1 f2 iobj icut,
  repeatable psfs st /\ make_state k None types rows psfs st input junk pjunk = Ok f1 /\
  make_state k (Some (2000, fresh)) types rows psfs st input junk pjunk = Ok f2 /\
  get_psf_typed f1 iobj icut <> get_psf_typed f2 iobj icut.
Proof.
  destruct buffer_differs as (f1 & f2 & H1 & H2 & H3).
  exists Z, ex_conf, ex_types, ex_rows, ex_buffers, 0, ex_objs, ex_junk, (fun _ => NaN), (fun _ => true), f1, f2, 0, 0.
  split; [apply ex_buffers_repeatable|]. split; [exact H1|]. split; [exact H2|exact H3].
Qed.
Theorem counter_refuted : exists (St : Type) k types rows (psfs : list (spsf St)) st input junk pjunk n fresh f1 f2 iobj icut,
  1 <= n /\ own_arrays psfs st /\ make_state k None types rows psfs st input junk pjunk = Ok f1 /\
  make_state k (Some (n, fresh)) types rows psfs st input junk pjunk = Ok f2 /\
  get_psf_typed f1 iobj icut <> get_psf_typed f2 iobj icut.
Proof.
  destruct counter_differs as (f1 & f2 & H1 & H2 & H3).
  exists Z, ex_conf, ex_types, ex_rows, ex_counters, 0, ex_objs, ex_junk, (fun _ => NaN), 1, (fun _ => true), f1, f2, 1, 0.
  split; [lia|]. split; [apply ex_counters_own|]. split; [exact H1|]. split; [exact H2|exact H3].
Qed.
