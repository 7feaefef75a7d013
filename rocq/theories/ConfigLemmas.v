From Coq Require Import String Permutation.
From Verif Require Import Base Img Types BoundsM MakerLayout MakerWrite MakerFile Config SpecConfig.
Open Scope Z_scope.
Open Scope string_scope.

Lemma eqb_refl' k : String.eqb k k = true. Proof. apply String.eqb_refl. Qed.

Lemma lookup_app a : forall b k, lookup (a ++ b)%list k = match lookup a k with Some v => Some v | None => lookup b k end.
Proof. induction a as [|[k' v] a IH]; intros b k; cbn; [reflexivity|]. destruct (String.eqb k' k); auto. Qed.

Lemma lookup_map d : forall k v k', lookup (map (fun e => if String.eqb (fst e) k then (k, v) else e) d) k'
  = if String.eqb k k' then (if has d k then Some v else None) else lookup d k'.
Proof.
  unfold has. induction d as [|[k1 v1] d IH]; intros k v k'; cbn [map lookup fst].
  - destruct (String.eqb k k'); reflexivity.
  - destruct (String.eqb_spec k1 k) as [->|N].
    + cbn [lookup]. destruct (String.eqb_spec k k') as [->|N']; [reflexivity|].
      rewrite IH. destruct (String.eqb_spec k k'); [congruence|reflexivity].
    + cbn [lookup]. rewrite IH. destruct (String.eqb_spec k k') as [->|N'].
      * destruct (String.eqb_spec k1 k'); [congruence|reflexivity].
      * reflexivity.
Qed.

Lemma lookup_put d k v k' : lookup (put d k v) k' = if String.eqb k k' then Some v else lookup d k'.
Proof.
  unfold put. destruct (has d k) eqn:E.
  - rewrite lookup_map, E. reflexivity.
  - rewrite lookup_app. cbn [lookup]. unfold has in E.
    destruct (String.eqb_spec k k') as [->|N].
    + destruct (lookup d k'); [discriminate|reflexivity].
    + destruct (lookup d k'); reflexivity.
Qed.

Lemma lookup_In d : forall k v, lookup d k = Some v -> In (k, v) d.
Proof.
  induction d as [|[k1 v1] d IH]; intros k v H; cbn in H; [discriminate|].
  destruct (String.eqb_spec k1 k) as [->|N]; [injection H as <-; left; reflexivity|right; auto].
Qed.
Lemma lookup_None d : forall k, lookup d k = None <-> ~ given d k.
Proof.
  unfold given. induction d as [|[k1 v1] d IH]; intros k; cbn.
  - split; [intros _ (v & [])|reflexivity].
  - destruct (String.eqb_spec k1 k) as [->|N].
    + split; [discriminate|]. intros H. destruct H. exists v1. left; reflexivity.
    + rewrite IH. split; intros H (v & Hv); apply H.
      * destruct Hv as [E|Hv]; [congruence|exists v; exact Hv].
      * exists v. right; exact Hv.
Qed.
Lemma In_lookup d : NoDup (map fst d) -> forall k v, In (k, v) d -> lookup d k = Some v.
Proof.
  induction d as [|[k1 v1] d IH]; intros N k v H; [destruct H|].
  cbn in N. inversion N as [|? ? N1 N2]; subst. cbn.
  destruct H as [E|H].
  - injection E as -> ->. rewrite String.eqb_refl. reflexivity.
  - destruct (String.eqb_spec k1 k) as [->|Hn]; [|auto].
    destruct N1. apply in_map_iff. exists (k, v). auto.
Qed.
Lemma lookup_iff d k v : NoDup (map fst d) -> (lookup d k = Some v <-> In (k, v) d).
Proof. intros N. split; [apply lookup_In|apply In_lookup, N]. Qed.

Lemma lookup_update e : NoDup (map fst e) -> forall d k,
  lookup (update d e) k = match lookup e k with Some v => Some v | None => lookup d k end.
Proof.
  unfold update. induction e as [|[k1 v1] e IH]; intros N d k; cbn [fold_left lookup fst snd]; [reflexivity|].
  cbn in N. inversion N as [|? ? N1 N2]; subst.
  rewrite IH by exact N2. rewrite lookup_put.
  destruct (String.eqb_spec k1 k) as [->|Hn]; [|reflexivity].
  assert (lookup e k = None) as ->; [|reflexivity].
  apply lookup_None. intros (v & Hv). apply N1. apply in_map_iff. exists (k, v). auto.
Qed.

Lemma nodup_default : NoDup (map fst default_config).
Proof. cbn. repeat constructor; cbn; intuition discriminate. Qed.
Lemma nodup_extra : NoDup (map fst extra_config).
Proof. cbn. repeat constructor; cbn; intuition discriminate. Qed.

(** The maker as a dict, entry by entry. *)
Definition entry (d : dict) (k : string) : option cval :=
  match lookup d k with Some v => Some v | None => lookup default_config k end.

Lemma merged_lookup d : NoDup (map fst d) -> exists self, merged (Config d) = Ok self /\
  forall k, lookup self k = entry d k.
Proof.
  intros N. unfold merged. eexists. split; [reflexivity|]. intros k.
  rewrite lookup_update by exact N. unfold entry. destruct (lookup d k); [reflexivity|].
  rewrite lookup_update by exact nodup_default. cbn [lookup].
  destruct (lookup default_config k); reflexivity.
Qed.
Lemma merged_none : merged NoConfig = merged (Config []).
Proof. reflexivity. Qed.

(** [item] only looks up. *)
Lemma item_ext a b k : lookup a k = lookup b k -> item a k = item b k.
Proof. unfold item. intros ->. reflexivity. Qed.
Lemma sub_ext a b k : lookup a k = lookup b k -> sub a k = sub b k.
Proof. unfold sub. intros ->. reflexivity. Qed.
Lemma maybe_ext {A} (f : cval -> res A) a b k : lookup a k = lookup b k -> maybe f a k = maybe f b k.
Proof. unfold maybe. intros ->. reflexivity. Qed.
Lemma flag_ext a b k : lookup a k = lookup b k -> flag a k = flag b k.
Proof. unfold flag. intros ->. reflexivity. Qed.
Lemma has_ext a b k : lookup a k = lookup b k -> has a k = has b k.
Proof. unfold has. intros ->. reflexivity. Qed.

(** The maker's dict after load_config. *)
Definition final (d : dict) (types : list string) (allowed : Z) (k : string) : option cval :=
  match lookup extra_config k with
  | Some v => Some v
  | None =>
    if String.eqb "psf" k then match entry d "psf_type" with Some t => Some (VDict [("type", t)]) | None => entry d "psf" end
    else if String.eqb "bitmask_allowed_inv" k then Some (VInt (bitmask_allowed_inv allowed))
    else if String.eqb "bitmask_allowed" k then Some (VInt (u4 allowed))
    else if String.eqb "cutout_types" k then Some (VStrs types)
    else entry d k
  end.

Lemma load_config_eq d : NoDup (map fst d) ->
  forall r, load_config (Config d) = r ->
  match r with
  | Ok (self, use) => exists l l' a v w,
      entry d "cutout_types" = Some v /\ as_strs v = Ok l /\ set_cutout_types l = Ok l' /\
      entry d "bitmask_allowed" = Some w /\ as_int w = Ok a /\
      (forall k, lookup self k = final d l' a k) /\
      use = (if match entry d "joblib" with Some _ => true | None => false end then true else
             match entry d "use_joblib" with None => false | Some v => truth v end) /\
      match entry d "joblib" with None | Some (VDict _) => True | Some _ => False end
  | Err _ => True
  end.
Proof.
  intros N r <-. unfold load_config. destruct (merged_lookup d N) as (self & -> & L). cbn [bind].
  unfold item at 1. rewrite (L "cutout_types").
  destruct (entry d "cutout_types") as [v|] eqn:Ev; cbn [bind]; [|exact I].
  destruct (as_strs v) as [l|e] eqn:El; cbn [bind]; [|exact I].
  destruct (set_cutout_types l) as [l'|e] eqn:El'; cbn [bind]; [|exact I].
  unfold item at 1. rewrite lookup_put. change (String.eqb "cutout_types" "bitmask_allowed") with false. cbv iota.
  rewrite L. destruct (entry d "bitmask_allowed") as [w|] eqn:Ew; cbn [bind]; [|exact I].
  destruct (as_int w) as [a|e] eqn:Ea; cbn [bind]; [|exact I].
  set (s1 := put (put (put self "cutout_types" (VStrs l')) "bitmask_allowed" (VInt (u4 a)))
                 "bitmask_allowed_inv" (VInt (bitmask_allowed_inv a))).
  assert (L1 : forall k, lookup s1 k =
     if String.eqb "bitmask_allowed_inv" k then Some (VInt (bitmask_allowed_inv a))
     else if String.eqb "bitmask_allowed" k then Some (VInt (u4 a))
     else if String.eqb "cutout_types" k then Some (VStrs l') else entry d k).
  { intros k. unfold s1. rewrite !lookup_put, L. reflexivity. }
  set (s2 := match lookup s1 "psf_type" with Some t => put s1 "psf" (VDict [("type", t)]) | None => s1 end).
  assert (L2 : forall k, lookup s2 k =
     if String.eqb "psf" k then match entry d "psf_type" with Some t => Some (VDict [("type", t)]) | None => entry d "psf" end
     else lookup s1 k).
  { intros k. unfold s2. assert (Lp : lookup s1 "psf_type" = entry d "psf_type") by (rewrite L1; reflexivity). rewrite Lp.
    destruct (entry d "psf_type").
    - rewrite lookup_put. reflexivity.
    - destruct (String.eqb_spec "psf" k) as [<-|]; [rewrite L1; reflexivity|reflexivity]. }
  clearbody s2.
  assert (Hj : lookup s2 "joblib" = entry d "joblib") by (rewrite L2, L1; reflexivity).
  unfold sub. rewrite Hj.
  destruct (entry d "joblib") as [j|] eqn:Ej.
  - destruct j; cbn [bind]; try exact I.
    exists l, l', a, v, w. repeat split; auto.
    + intros k. rewrite lookup_update by exact nodup_extra. unfold final.
      destruct (lookup extra_config k); [reflexivity|]. rewrite L2, L1. reflexivity.
    + unfold has. rewrite Hj. reflexivity.
  - cbn [bind]. exists l, l', a, v, w. repeat split; auto.
    + intros k. rewrite lookup_update by exact nodup_extra. unfold final.
      destruct (lookup extra_config k); [reflexivity|]. rewrite L2, L1. reflexivity.
    + unfold has. rewrite Hj. unfold flag. rewrite L2, L1. reflexivity.
Qed.
