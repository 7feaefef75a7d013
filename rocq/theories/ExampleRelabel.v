(** Inputs for the examples of PropRelabel. *)
From Coq Require Import Lia.
From Verif Require Import Base Img Types SpecRelabel.
Open Scope Z_scope.

Definition ex_phi (z : Z) : Z := 3 * z.
Definition ex_rename_obj (phi : Z -> Z) (o : obj) : obj :=
  mkObj (o_id o) (phi (o_number o)) (o_box o) (o_ra o) (o_dec o) (o_color o) (o_wcs_color o)
        (o_psf_color o) (o_psf_nr o) (o_psf_nc o) (o_psf_box o) (o_ncut o) (o_slots o).
Definition ex_rename (phi : Z -> Z) (f : medsfile) : medsfile :=
  mkMeds (map (ex_rename_obj phi) (m_cat f)) (m_number_col f) (m_psf_cols f) (m_info f)
    (map (fun e => if ctype_eqb (fst e) TSeg then (fst e, map (fun s => inject_Z (phi (Qfloor s))) (snd e)) else e) (m_ext f))
    (m_psf f).

Lemma ex_phi_ok : renaming ex_phi.
Proof. unfold renaming, ex_phi. repeat split; intros; lia. Qed.

(** Decides the conditions on numbers and seg values. *)
Definition ex_numbered (f : medsfile) : bool :=
  forallb (fun o => 0 <=? o_number o) (m_cat f) &&
  match ext_find (m_ext f) TSeg with
  | Some m => forallb (fun s => (0 <=? Qfloor s) && Qeq_bool s (inject_Z (Qfloor s))) m
  | None => true
  end.

Lemma ex_rename_find g e t : ext_find (map (fun x : ctype * list Q => if ctype_eqb (fst x) TSeg then (fst x, g (snd x)) else x) e) t
  = if ctype_eqb t TSeg then option_map g (ext_find e t) else ext_find e t.
Proof.
  induction e as [|[t' m] e IH]; cbn; [now destruct (ctype_eqb t TSeg)|].
  destruct t', t; cbn in *; try reflexivity; exact IH.
Qed.

Lemma ex_rename_ok phi f : ex_numbered f = true -> renamed_file phi f (ex_rename phi f).
Proof.
  unfold ex_numbered. rewrite andb_true_iff. intros [H K]. split.
  - cbn. clear K. induction (m_cat f) as [|o l IH]; cbn in *; constructor; [|apply IH; now apply andb_true_iff in H].
    apply andb_true_iff in H as [H _]. apply Z.leb_le in H. split; [exact H|reflexivity].
  - reflexivity.
  - intros t N. unfold ex_rename; cbn [m_ext]. rewrite ex_rename_find. now destruct t.
  - unfold ex_rename; cbn [m_ext]. rewrite ex_rename_find. cbn [ctype_eqb].
    destruct (ext_find (m_ext f) TSeg) as [m|]; cbn; [|exact I].
    induction m as [|s m IH]; cbn in *; constructor.
    + apply andb_true_iff in K as [K _]. apply andb_true_iff in K as [K L]. apply Z.leb_le in K. apply Qeq_bool_iff in L.
      exists (Qfloor s). split; [exact K|split; [exact L|reflexivity]].
    + apply IH. now apply andb_true_iff in K.
Qed.
