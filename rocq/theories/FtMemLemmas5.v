(** Building and searching in memory, summary. *)
From Coq Require Import Permutation QArith Lia ZifyBool ZifyNat.
From Verif Require Import Base BoundsM Fast3tree FtMem SpecUberseg SpecFtMem.
From Verif Require Import BaseLemmas FtLemmas FtMemLemmas FtMemLemmas2 FtMemLemmas3 FtMemLemmas4.
Open Scope Z_scope.

Lemma wf_ne t : tree_wf t -> (fix ne t := match t with TLeaf _ p => p <> [] | TNode _ _ l r => ne l /\ ne r end) t.
Proof.
  induction t as [b p|b d l IHl r IHr]; cbn [tree_wf].
  - intros B C. subst p. specialize (B false). destruct B as (_ & (x & [] & _) & _).
  - intros (_ & _ & _ & _ & W1 & W2). split; [apply IHl|apply IHr]; assumption.
Qed.

Theorem build_mem_all junk m0 pts : exists t m ix, fast3tree_build pts = Ok t /\ build_mem junk m0 pts = Ok m /\
  t_points m = tpts t /\ zlen (t_root m) = t_num_nodes m /\ t_alloc m = t_num_nodes m /\ t_num_nodes m <= Z.max 1 (2 * zlen pts - 1) /\
  held (t_root m) (t_points m) (PAt (t_gen m)) 0 0 t ix /\ Permutation ix (zrange (t_num_nodes m)).
Proof.
  destruct (build_mem_ok junk m0 pts) as (t & m & ix & E1 & E2 & A1 & A2 & A3 & A4 & A5). exists t, m, ix. repeat (split; [assumption|]). split; [|auto].
  destruct (build_ok pts) as (t' & E1' & P & W). assert (t' = t) by congruence. subst t'.
  assert (LI : zlen ix = t_num_nodes m) by (unfold zlen; rewrite (Permutation_length A5), zrange_length; pose proof (zlen_nonneg (t_root m)); lia).
  destruct pts as [|p ps].
  - cbn in E1. injection E1 as <-. inversion A4; subst. rewrite <- LI. cbn. lia.
  - pose proof (held_count _ _ _ _ _ _ _ A4 (wf_ne t (W ltac:(discriminate)))) as HC. unfold zlen in HC at 2. rewrite (Permutation_length P) in HC. unfold zlen in LI |- *. unfold zlen in HC. lia.
Qed.

Theorem searches_ok nj rj m0 pts qs r : zlen (r_buf r) = r_alloc r -> exists t m rs, fast3tree_build pts = Ok t /\ build_mem nj m0 pts = Ok m /\ searches rj m r qs = Ok rs /\
  Forall2 (fun (q : (Q * Q) * Q) r => fits r /\ NoDup (found r) /\
    Forall2 (fun o p => zget (t_points m) o = Some p) (found r) (find_sphere t (fst q) (snd q))) qs rs.
Proof.
  destruct (build_mem_ok nj m0 pts) as (t & m & ix & E1 & E2 & A1 & A2 & A3 & A4 & A5). intros HR.
  cut (exists rs, searches rj m r qs = Ok rs /\
    Forall2 (fun (q : (Q * Q) * Q) r => fits r /\ NoDup (found r) /\
    Forall2 (fun o p => zget (t_points m) o = Some p) (found r) (find_sphere t (fst q) (snd q))) qs rs).
  { intros (rs & H1 & H2). exists t, m, rs. auto. }
  revert r HR. induction qs as [|(c & r2) qs IH]; intros r HR; cbn [searches]; [exists []; split; [reflexivity|constructor]|].
  destruct (find_sphere_mem_ok rj m t ix r c r2 A4 A5 HR) as (r' & E & B & N & F). rewrite E. cbn [bind].
  destruct (IH r' (proj1 B)) as (rs & Es & Fs). rewrite Es. cbn [bind]. exists (r' :: rs). split; [reflexivity|]. constructor; auto.
Qed.
