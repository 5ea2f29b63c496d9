(** A world where a hill next to the first row of the grid is relaxed. *)
From Coq Require Import ZArith List Bool Lia.
From Verif Require Import Outcome Num State Base Spec Spec2 ModelRelax ModelIntersect
  ModelBodySoil ModelBodyPos ModelUtils ModelStep InitProofs StatusProofs AvalancheProofs
  RestProofs Demo.
Import ListNotations.
Open Scope Z_scope.

(** A body of one cell. *)
Definition post_geom : geom N :=
  @mkGeom N bool
    (fun old new => (negb (Bool.eqb old new), false))
    (fun _ i j z => (i, j, z))
    (fun _ => Ok (mkArea 2 7 2 7, [[(4, 4, 8)]]))
    (fun _ _ x => let '(i, j, z) := x in Ok (@mkReloc N true true true 4 4 z)).

Definition post_params : params N := @mkParams N 10 100 3 1.

Definition post_terrain (i j : Z) : Z := if (i =? 3) && (j =? 7) then 400 else 0.

Definition post_start : world post_geom :=
  (with_terrain post_terrain (new_sim (A := N) demo_grid demo_rng []), false).

Definition everywhere (x : Z * Z * Z) : Prop := True.
Definition any_pose (b : bool) : Prop := True.

Lemma post_params_ok : params_ok demo_grid post_params.
Proof. unfold params_ok, aligned. cbn. do 3 (split; [lia|]). split; [exists 1; lia|]. lia. Qed.

Lemma post_geom_ok : geom_ok demo_grid post_geom any_pose everywhere.
Proof.
  split.
  - intros p _. eexists _, _. split; [reflexivity|]. split; [|intros; exact I].
    split; [unfold within_grid; cbn; lia|]. split.
    + intros w [<-|[]]. discriminate.
    + intros w i j k [<-|[]] [E|[]]. injection E as <- <- <-. unfold in_area. cbn. lia.
  - intros p p' [[i j] z] _ _ _. eexists. split; [reflexivity|]. cbn. lia.
Qed.

Lemma post_roomy : roomy post_geom demo_grid any_pose.
Proof.
  intros p a walls _ E w i j k i' j' Hw Hc _ Hd. injection E as <- <-.
  destruct Hw as [<-|[]]. destruct Hc as [E|[]]. injection E as <- <- <-.
  unfold in_area. cbn. lia.
Qed.

Lemma post_start_ok : state_ok demo_grid post_geom any_pose everywhere post_start.
Proof.
  apply (with_terrain_ok (upm := zunits 100) demo_grid post_geom any_pose everywhere post_terrain
    demo_rng [] false demo_grid_ok).
  intros i j. unfold post_terrain. destruct (_ && _); [exists 40|exists 0]; reflexivity.
Qed.

Lemma post_covers i j : interior demo_grid i j -> in_area (relax_area (fst post_start)) i j.
Proof. unfold interior, in_area. cbn. lia. Qed.

Lemma post_run : exists w',
  step (A := N) post_geom demo_grid post_params 300 true post_start = Ok (w', true) /\
  equilibrium (fst w') = true /\ (terrain (fst w') 3 7 : Z) = 20 /\
  (terrain (fst w') 1 7 : Z) = 30 /\ (terrain (fst w') 0 7 : Z) = 0 /\
  nx (fst w') = 9 /\ ny (fst w') = 9 /\
  forall k, layer k -> ~ body_at (fst w') k 0 7.
Proof.
  assert (T : match step (A := N) post_geom demo_grid post_params 300 true post_start with
    | Ok ((s, _), b) => b && equilibrium s && (terrain s 3 7 =? 20) && (terrain s 1 7 =? 30) &&
        (terrain s 0 7 =? 0) && (nx s =? 9) && (ny s =? 9) &&
        forallb (fun k => body s k 0 7 =? 0) [0; 1; 2; 3]
    | _ => false end = true) by (vm_compute; reflexivity).
  destruct (step _ _ _ _ _ _) as [[[s p] b]| |]; [|discriminate|discriminate].
  repeat (apply andb_prop in T as [T ?]). subst b.
  exists (s, p). cbn [fst]. split; [reflexivity|]. split; [auto|].
  repeat match goal with H : (_ =? _) = true |- _ => apply Z.eqb_eq in H end.
  do 5 (split; [assumption|]).
  match goal with H : forallb _ _ = true |- _ => cbn [forallb] in H end.
  repeat match goal with H : (_ && _) = true |- _ => apply andb_prop in H as [? H] end.
  repeat match goal with H : (_ =? _) = true |- _ => apply Z.eqb_eq in H end.
  intros k [-> | ->] [H'|H']; apply H'; assumption.
Qed.

Lemma first_row : exists w',
  step (A := N) post_geom demo_grid post_params 300 true post_start = Ok (w', true) /\
  equilibrium (fst w') = true /\ inside (fst w') 1 7 /\ ~ rests post_params (fst w') 1 7.
Proof.
  destruct post_run as (w' & E & Q & _ & T1 & T0 & Nx & Ny & B). exists w'.
  split; [exact E|]. split; [exact Q|].
  split; [unfold inside; rewrite Nx, Ny; lia|].
  intros R. apply (R (-1, 0) eq_refl). cbn [fst snd].
  change (1 + -1) with 0. change (7 + 0) with 7.
  unfold terrain_falls. rewrite T1, T0. split; [reflexivity|].
  exists 0. split.
  - left. split; [reflexivity|]. intros k Hk Hb. exfalso. apply (B k Hk Hb).
  - unfold surface. cbn [Z.eqb]. rewrite T0. reflexivity.
Qed.
