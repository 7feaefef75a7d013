(** Data for the examples on meds-view. *)
From Verif Require Import Base Img Types Reader SpecFile BoundsM Composite Uberseg ExampleData Compare SpecCompare ExampleCompare View SpecView.
Open Scope Z_scope.

Definition ex_im (a b : Z) : img fv := mkImg 2 1 [Fin (inject_Z a); Fin (inject_Z b)].
Definition ex_sd (w : Q) : Q := 1.
Definition ex_lg (x : Q) : Q := (x - 1)%Q.
Definition ex_types : list vtype := [VType (RCut TImage); VType (RCut TSeg)].
Definition ex_go (comb show : bool) (start end_ : option Z) (html : bool) (answer : Z -> bool) : out bool :=
  go ex_sd ex_lg 5 true (ex_cmp ex_ones) comb false ex_types false show start end_ None html answer.
Definition shape_of (d : drawing) : Z * Z * Z :=
  match d with Plot _ s => (0, nr s, nc s) | Table r c cells => (zlen cells, r, c) end.
Definition brief (e : event) : Z * (Z * Z * Z) :=
  match e with
  | WriteFile i _ d => (i, shape_of d)
  | HtmlItem i _ => (i, (-1, -1, -1)) | HtmlHead => (-2, (0, 0, 0)) | HtmlFoot => (-3, (0, 0, 0))
  | HtmlRow => (-4, (0, 0, 0)) | HtmlRowEnd => (-5, (0, 0, 0)) | ShowWindow _ => (-6, (0, 0, 0))
  end.
Definition ex_q (l : list Z) : img Q := mkImg 2 2 (map inject_Z l).
Definition ex_red (r : res (img fv)) : list fv := match r with Ok p => map (fun v => match v with Fin q => Fin (Qred q) | _ => v end) (dat p) | Err _ => [] end.
