(** Facts on the example with two objects in its seg map. *)
From Coq Require Import String Lia.
From Verif Require Import Base Img Types Reader MakerLayout MakerWrite MakerFile Composite Uberseg SpecFile SpecComposite SpecUberseg ExampleData.
From Verif Require BaseLemmas MakerLemmas.
Open Scope Z_scope.

Definition all_in (l : list Q) (seg : img Q) : bool := forallb (fun v => existsb (Qeq_bool v) l) (dat seg).
Lemma all_in_ok l seg r c v : all_in l seg = true -> px seg r c = Some v -> exists a, In a l /\ (v == a)%Q.
Proof.
  intros A E. unfold px in E. destruct (_ && _) in E; [|discriminate]. apply BaseLemmas.zget_In in E.
  unfold all_in in A. rewrite forallb_forall in A. specialize (A v E). rewrite existsb_exists in A. destruct A as (a & I & Q).
  exists a. split; [exact I|]. apply Qeq_bool_iff, Q.
Qed.

Lemma ex_seg_wf seg f : ex_seg_make_of seg = Ok f -> file_wf f.
Proof. apply MakerLemmas.written_file_wf. repeat constructor; discriminate. Qed.

Lemma ex_two_ok seg : all_in [0; 1; 2]%Q seg = true -> integral seg /\ nonnegative seg.
Proof.
  intros A. split; intros r c v E; destruct (all_in_ok _ _ _ _ _ A E) as (a & I & Q).
  - destruct I as [<-|[<-|[<-|[]]]]; [exists 0|exists 1|exists 2]; exact Q.
  - rewrite Q. destruct I as [<-|[<-|[<-|[]]]]; discriminate.
Qed.
