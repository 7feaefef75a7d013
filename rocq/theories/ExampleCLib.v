(** A file opened by the C library, for the examples beside the property theorems. *)
From Coq Require Import String.
From Verif Require Import Base Img Types Reader CLib Meta SpecTiles SpecFile ExampleData.
Open Scope Z_scope.

(** Two objects, with two cutouts of size 2 and one of size 1; the derivatives of
    the cutouts differ. *)
Definition ex_cslot (file start : Z) (d : Q) : slot :=
  mkSlot file start 5 6 3 4 (1#2) (3#2) d 0 0 d 0 0 0 0 0 0.
Definition ex_ccat : list obj :=
  [ mkObj 1 1 2 0 0 0 0 0 0 0 0 2 [ex_cslot 0 0 (1#4); ex_cslot 1 4 (1#3); def_slot];
    mkObj 2 2 1 0 0 0 0 0 0 0 0 1 [ex_cslot 2 8 (1#4); def_slot; def_slot] ].
Definition ex_cmeds : medsfile :=
  mkMeds ex_ccat true PsfNone [mkInfo 70 7 0 1; mkInfo 71 8 0 1; mkInfo 72 9 1 1]
    [(TImage, map (fun i => inject_Z (10 + i)) (zrange 9)); (TSeg, map (fun i => inject_Z (i mod 2)) (zrange 9))] None.
Definition ex_ccols : list string :=
  ["image_id"; "image_flags"; "image_path"; "wcs_path"; "sky_path"; "seg_path"; "magzp"; "scale"; "position_offset"]%string.
Definition ex_cfile : cfile := mkCfile ex_cmeds ex_ccols (Some [("magzp_ref"%string, 30)]).

Lemma ex_cmeds_wf : file_wf ex_cmeds.
Proof.
  split.
  - cbn [ex_cmeds m_cat]. unfold ex_ccat. repeat (apply Forall_cons; [vm_compute; repeat split; discriminate|]). constructor.
  - intros t m. destruct t; cbn [ex_cmeds m_ext ext_find ctype_eqb]; try discriminate; intros E; injection E as <-; vm_compute;
    repeat match goal with |- _ /\ _ => split | |- _ => first [reflexivity|discriminate|constructor] end.
Qed.

(** A metadata table with two columns. *)
Definition ex_versions : versions := mkVersions "1.26" "0.6.13" "1.2.1" "0.9.20" "0.9.1".
Definition ex_table : table := [("magzp_ref", ["30.0"; "31.0"]); ("config", ["a.yaml"; "b.yaml"])]%string.

(** The same file with the image of the last cutout missing in image_info. *)
Definition ex_cfile_short : cfile :=
  mkCfile (mkMeds ex_ccat true PsfNone [mkInfo 70 7 0 1; mkInfo 71 8 0 1] (m_ext ex_cmeds) None) ex_ccols (Some []).
