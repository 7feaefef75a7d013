(** Words of the statements about the programs in scripts. *)
From Coq Require Import String Ascii.
From Verif Require Import Base Img Types Extract SpecFile Reader Compare SpecCompare CProg SpecCProg ExampleData ExampleCompare.
Open Scope Z_scope.
Open Scope string_scope.

(** Integers as Python reads them: blanks, a sign, digits with single underscores
    between them, blanks. *)
Inductive blank : string -> Prop :=
| blank_nil : blank ""
| blank_cons c s : In (nat_of_ascii c) [9; 10; 11; 12; 13; 32]%nat -> blank s -> blank (String c s).
Inductive digits_text : list Z -> string -> Prop :=
| dt_last d : 0 <= d <= 9 -> digits_text [d] (text_of [d] "")
| dt_next d ds s : 0 <= d <= 9 -> digits_text ds s -> digits_text (d :: ds) (text_of [d] s)
| dt_under d ds s : 0 <= d <= 9 -> digits_text ds s -> digits_text (d :: ds) (text_of [d] ("_" ++ s)).
Definition reads_as (s : string) (z : Z) : Prop :=
  exists b1 sign ds t b2, s = b1 ++ sign ++ t ++ b2 /\ blank b1 /\ blank b2 /\ digits_text ds t /\
    ((sign = "" \/ sign = "+") /\ z = value_of ds \/ sign = "-" /\ z = - value_of ds).

(** A word that is an argument: empty, a single dash, or without a dash in front. *)
Definition plain (w : string) : Prop := forall c s, w <> String "-" (String c s).
Definition asks_help (w : string) : Prop :=
  (exists s, w = "-h" ++ s) \/ In w ["--h"; "--he"; "--hel"; "--help"].
(** The arguments of a command line without options; after "--" every word counts. *)
Inductive command : list string -> list string -> Prop :=
| cmd_nil : command [] []
| cmd_end l : command ("--" :: l) l
| cmd_word w l l' : plain w -> command l l' -> command (w :: l) (w :: l').

(** The files after: [p] holds [s], the others are as before. *)
Definition only_changed {M} (d d' : disk M) (p : Z) (s : fstate M) : Prop :=
  d' p = s /\ forall q, q <> p -> d' q = d q.
Definition same_disk {M} (d d' : disk M) : Prop := forall q, d' q = d q.

(** The positions that are looked at for a type: all, or the random subset. *)
Definition looked (nrand : option Z) (sub : ctype -> Z -> Z -> list Z) (t : ctype) (n : Z) : list Z :=
  match nrand with Some k => sub t n (Z.min k n) | None => zrange n end.

(** Example: two files. *)
Definition ex_resolve (s : string) : Z := if String.eqb s "a.fits" then 0 else if String.eqb s "b.fits" then 1 else 2.
Definition ex_order (l : list Z) : list Z := l.
Definition ex_disk : disk unit := fun p =>
  if (p =? 0)%Z then Present (ex_cmp ex_ones) tt else if (p =? 1)%Z then Present (ex_cmp (ex_but TImage)) tt else Absent.
(** The same with the mosaic of seg missing in the first file. *)
Definition ex_noseg : medsfile :=
  mkMeds ex_small_cat true PsfNone [mkInfo 1 1 0 1] (firstn 3 (m_ext (ex_cmp ex_ones))) None.
Definition ex_disk_noseg : disk unit := fun p => if (p =? 0)%Z then Present ex_noseg tt else ex_disk p.
(** The same with only the first object in the second file. *)
Definition ex_first : medsfile :=
  mkMeds (firstn 1 ex_small_cat) true PsfNone [mkInfo 1 1 0 1]
    (map (fun e => (fst e, firstn 4 (snd e))) (m_ext (ex_cmp ex_ones))) None.
Definition ex_disk_one : disk unit := fun p => if (p =? 1)%Z then Present ex_first tt else ex_disk p.
Lemma ex_first_wf : file_wf ex_first.
Proof.
  split.
  - repeat (apply Forall_cons; [vm_compute; repeat split; discriminate|]). constructor.
  - intros t m. destruct t; cbn [ex_first ex_cmp m_ext map ext_find ctype_eqb fst snd]; try discriminate; intros E; injection E as <-; vm_compute; repeat match goal with |- _ /\ _ => split | |- _ => first [reflexivity|discriminate|constructor] end.
Qed.
