(** C123: what the accessors hand out belongs to the program that asked. *)
From Verif Require Import Base Img Types Reader Memory SpecMemory MemoryLemmas3.
Open Scope Z_scope.

(** Assigning to the tables handed out by get_cat, get_image_info, get_source_info
    or m[name] changes later answers. *)
Theorem C123_answers_refuted : exists fuel f m0 m r acts, open_reader f m0 = (m, Ok r) /\
  snd (session fuel r (m, []) acts) <> map (file_answer fuel f) (calls acts).
Proof. exact memory_refuted. Qed.
Print Assumptions C123_answers_refuted.

(** Whatever a program does to the arrays it was handed, every call answers as on a
    newly opened file. *)
Theorem C123_answers_partial fuel f m0 m r acts : open_reader f m0 = (m, Ok r) -> Forall leaves_tables acts ->
  snd (session fuel r (m, []) acts) = map (file_answer fuel f) (calls acts).
Proof. exact (memory_answers fuel f m0 m r acts). Qed.
Print Assumptions C123_answers_partial.

(** Assignments to the tables have exactly the effect of opening a file with those tables. *)
Theorem C123_tables_partial fuel f m0 m r acts : open_reader f m0 = (m, Ok r) ->
  snd (session fuel r (m, []) acts) = table_answers fuel f acts.
Proof. exact (memory_tables fuel f m0 m r acts). Qed.
Print Assumptions C123_tables_partial.

(** An array that was handed out keeps its values until the program assigns to that
    array; the parts of one list are separate. *)
Theorem C123_kept fuel f m0 m r acts a h x : open_reader f m0 = (m, Ok r) ->
  held_value (fst (session fuel r (m, []) acts)) h = Some x -> (forall im, a <> Assign h im) ->
  held_value (fst (session fuel r (m, []) (acts ++ [a]))) h = Some x.
Proof. exact (memory_kept fuel f m0 m r acts a h x). Qed.
Print Assumptions C123_kept.

(** Arrays that were there before are not touched. *)
Theorem C123_others fuel f m0 m r acts i : open_reader f m0 = (m, Ok r) -> (i < length m0)%nat ->
  nth_error (fst (fst (session fuel r (m, []) acts))) i = nth_error m0 i.
Proof. exact (memory_others fuel f m0 m r acts i). Qed.
Print Assumptions C123_others.

(** A program that blanks a part of a list and of the composite weights: the list
    shares the mosaic (the blanked part is blank), the other part and all later answers
    are those of the file. *)
Example C123_ex_opened : open_reader mx_file [CPix mx_zero] = (mx_mem, Ok mx_reader).
Proof. reflexivity. Qed.
Example C123_ex_leaves : Forall leaves_tables mx_acts.
Proof. repeat constructor. Qed.
Example C123_ex : let st := fst (session 9 mx_reader (mx_mem, []) mx_acts) in
  held_value st 0 = Some (Ok mx_zero) /\ held_value st 1 = Some (Ok (mkImg 2 2 [4; 5; 6; 7]%Q)) /\
  held_value st 2 = Some (Ok (mkImg 2 2 [0; 1; 2; 3]%Q)) /\
  nth_error (snd (session 9 mx_reader (mx_mem, []) mx_acts)) 1 = Some (Ok (AImages [mkImg 2 2 [0; 1; 2; 3]%Q])) /\
  nth_error (snd (session 9 mx_reader (mx_mem, []) mx_acts)) 5 = Some (Err ValueError) /\
  nth_error (snd (session 9 mx_reader (mx_mem, []) mx_acts)) 6 = Some (Ok (APath 7)).
Proof. vm_compute. repeat split. Qed.
