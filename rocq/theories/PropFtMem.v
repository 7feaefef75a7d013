(** Property theorems on the memory of the tree: C104 and C105. *)
From Coq Require Import Permutation QArith.
From Verif Require Import Base BoundsM Fast3tree FtMem SpecUberseg SpecFtMem.
From Verif Require FtMemLemmas5.
Open Scope Z_scope.

(** C104: building uses no pointer into memory given back and no place beyond the
    arrays; the nodes hold the tree, each place once, in an array of their number. *)
Theorem C104_build_memory : forall junk m0 pts, exists t m ix, fast3tree_build pts = Ok t /\ build_mem junk m0 pts = Ok m /\
  t_points m = tpts t /\ zlen (t_root m) = t_num_nodes m /\ t_alloc m = t_num_nodes m /\ t_num_nodes m <= Z.max 1 (2 * zlen pts - 1) /\
  held (t_root m) (t_points m) (PAt (t_gen m)) 0 0 t ix /\ Permutation ix (zrange (t_num_nodes m)).
Proof. exact FtMemLemmas5.build_mem_all. Qed.
Print Assumptions C104_build_memory.

(** The array is moved while the tree is built: 6 nodes are foreseen, 41 needed. *)
Example C104_example :
  (let* m := build_mem node_x used_tree pts_deep in
   Ok (t_gen m, t_num_nodes m, zlen (t_root m),
       match zget (t_root m) 39 with Some n => Some (n_num n, n_parent n) | None => None end)) =
  Ok (7, 41, 41, Some (40, PAt 7 37)).
Proof. vm_compute. reflexivity. Qed.

(** C105: searches write within the buffer of the results; afterwards it holds the
    points of the search, none twice, whatever it held before. *)
Theorem C105_search_memory : forall nj rj m0 pts qs r, zlen (r_buf r) = r_alloc r ->
  exists t m rs, fast3tree_build pts = Ok t /\ build_mem nj m0 pts = Ok m /\ searches rj m r qs = Ok rs /\
  Forall2 (fun (q : (Q * Q) * Q) r => fits r /\ NoDup (found r) /\
    Forall2 (fun o p => zget (t_points m) o = Some p) (found r) (find_sphere t (fst q) (snd q))) qs rs.
Proof. exact FtMemLemmas5.searches_ok. Qed.
Print Assumptions C105_search_memory.

(** Three searches; the first takes the buffer, the others use it. *)
Example C105_example :
  (let* m := build_mem node_x used_tree pts_deep in
   let* rs := searches 5 m results_empty [((3, 0)%Q, 40%Q); ((100, 0)%Q, 10000000%Q); ((1, 0)%Q, 1%Q)] in
   Ok (map (fun r => (found r, r_alloc r)) rs)) =
  Ok [([0; 1; 2; 3], 1040); ([0; 1; 2; 3; 4; 5; 6; 7; 8; 9; 10; 11], 1040); ([0], 1040)].
Proof. vm_compute. reflexivity. Qed.
