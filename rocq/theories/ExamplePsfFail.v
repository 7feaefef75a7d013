(** Example PSF objects that fail for the last cutout. *)
From Coq Require Import String Lia.
From Verif Require Import Base Img Types BoundsM Reader MakerLayout MakerWrite MakerFile MakerFail ExampleData Typed SpecTyped PsfTy SpecPsfTy PsfState SpecPsfState
  ExamplePsfState PsfFail SpecPsfFail.
Open Scope Z_scope.

(** An object that announces its shape and, of row 3 on in the second image, gives [bad]. *)
Definition ex_frail (bad : res arr) (n : Z) : spsf unit :=
  mkSpsf (fun _ r c _ => if (n =? 2) && (3 <=? Qfloor r) then (let* a := bad in Ok ((fun _ => a), tt)) else Ok ((fun _ => ex_one (ex_pos n r c mod 1000)), tt))
    (Some (fun _ _ _ => (1, 1))) ex_center.
Definition ex_frails (bad : res arr) : list (spsf unit) := [ex_frail bad 1; ex_frail bad 2; ex_frail bad 3].
Definition ex_raise : res arr := Err RuntimeError.
Definition ex_wrong : res arr := Ok (mkArr (KI true 32) (mkImg 2 2 [NI 1; NI 2; NI 3; NI 4])).

Definition ex_disk (bad : res arr) (jl : option (Z * (Z -> bool))) (pjunk : Z -> fl) : run (option pfile) :=
  make_disk ex_conf jl ex_types ex_rows (ex_frails bad) tt ex_objs ex_junk pjunk None.
Definition ex_left (x : run (option pfile)) (l : list (Z * Z)) : option (list (res (list fl))) * option err :=
  (match fst x with
   | Some f => Some (map (fun ic => let* im := get_psf_typed f (fst ic) (snd ic) in Ok (map (fcast true) (dat im))) l)
   | None => None end, snd x).

Lemma ex_frails_ok bad : (forall a, bad = Ok a -> arr_ok a) -> arrays_ok (ex_frails bad) tt.
Proof.
  intros B. split.
  - intros st1 p r c col a st2 _ Hp H. destruct Hp as [<-|[<-|[<-|[]]]]; cbn [ex_frail sp_rec] in H;
      (destruct (_ && _)%bool; [destruct bad as [a0|e]; cbn [bind] in H; [|discriminate]; injection H as <- _; apply B; reflexivity|]);
      injection H as <- _; (split; [repeat split; cbn; lia|]); (split; [|cbn; lia]); (constructor; [|constructor]);
      cbn; match goal with |- _ <= ?x mod 1000 < _ => pose proof (Z.mod_pos_bound x 1000) end; lia.
  - intros p g r c col Hp H. destruct Hp as [<-|[<-|[<-|[]]]]; cbn in H; injection H as <-; cbn; lia.
Qed.
Lemma ex_frails_own bad : own_arrays (ex_frails bad) tt.
Proof.
  intros st1 p r c col a st2 st3 _ Hp H _. destruct Hp as [<-|[<-|[<-|[]]]]; cbn [ex_frail sp_rec] in H;
    (destruct (_ && _)%bool; [destruct bad as [a0|e]; cbn [bind] in H; [|discriminate]; injection H as <- _; reflexivity|]); injection H as <- _; reflexivity.
Qed.


Definition ex_read (x : run (option pfile)) : option (res (img fl)) * option err :=
  (match fst x with Some f => Some (get_psf_typed f 0 0) | None => None end, snd x).
Lemma ex_read_some x r e : ex_read x = (Some r, e) -> exists f, x = (Some f, e) /\ get_psf_typed f 0 0 = r.
Proof. destruct x as [[f|] e']; intros H; [|discriminate]. injection H as H1 H2. cbn in H1, H2. exists f. split; [rewrite H2; reflexivity|exact H1]. Qed.

Lemma ex_read_joblib pjunk : ex_read (make_disk ex_conf (Some (1, fun _ => true)) ex_types ex_rows (ex_frails ex_raise) tt ex_objs ex_junk pjunk None) = (Some (Ok (mkImg 1 1 [pjunk 0])), Some RuntimeError).
Proof. vm_compute. reflexivity. Qed.
Lemma ex_read_serial pjunk : ex_read (make_disk ex_conf None ex_types ex_rows (ex_frails ex_raise) tt ex_objs ex_junk pjunk None) = (Some (Ok (mkImg 1 1 [Fin (8781824#65536)])), Some RuntimeError).
Proof. vm_compute. reflexivity. Qed.

(** Five cutouts are rendered before the one that raises.  With joblib the first is
    not in the file, even in jobs of one object; serially it is. *)
Lemma lost_refuted : exists k types rows (psfs : list (spsf unit)) input junk, arrays_ok psfs tt /\ own_arrays psfs tt /\ forall pjunk, exists f g v,
  make_disk k (Some (1, fun _ => true)) types rows psfs tt input junk pjunk None = (Some f, Some RuntimeError) /\
  make_disk k None types rows psfs tt input junk pjunk None = (Some g, Some RuntimeError) /\
  get_psf_typed f 0 0 = Ok (mkImg 1 1 [pjunk 0]) /\ get_psf_typed g 0 0 = Ok (mkImg 1 1 [Fin v]) /\ (v == 134)%Q.
Proof.
  exists ex_conf, ex_types, ex_rows, (ex_frails ex_raise), ex_objs, ex_junk. split; [apply ex_frails_ok; discriminate|]. split; [apply ex_frails_own|].
  intros pjunk. destruct (ex_read_some _ _ _ (ex_read_joblib pjunk)) as (f & F & R). destruct (ex_read_some _ _ _ (ex_read_serial pjunk)) as (g & G & S).
  exists f, g, (8781824#65536)%Q. split; [exact F|]. split; [exact G|]. split; [exact R|]. split; [exact S|reflexivity].
Qed.
