(** A body that is moved before the relaxation is over leaves soil that is not looked at again. *)
From Coq Require Import ZArith List Bool Lia.
From Verif Require Import Outcome Num State Base Spec Spec2 ModelRelax ModelIntersect
  ModelBodySoil ModelBodyPos ModelUtils ModelStep InitProofs StatusProofs AvalancheProofs
  RestProofs RestFacts RestLater Demo.
Import ListNotations.
Open Scope Z_scope.

Definition jump_grid : grid_t N := @mkGrid N 10 4 6 10 (fun k => 10 * (k - 5)).

(** A body of one cell that moves along X and Z. *)
Definition jump_geom : geom N :=
  @mkGeom N (Z * Z)
    (fun old new => (negb ((fst old =? fst new) && (snd old =? snd new)), false))
    (fun _ i j z => (i, j, z))
    (fun p => Ok (mkArea (fst p - 3) (fst p + 4) 1 8, [[(fst p, 4, snd p)]]))
    (fun _ new _ => Ok (@mkReloc N true true true (fst new) 4 (10 * (snd new - 5)))).

Definition jump_legal (p : Z * Z) : Prop := 4 <= fst p <= 16 /\ 1 <= snd p <= 12.

Definition jump_params (n : nat) : params N := @mkParams N 10 n 3 1.

(** A slope with a hole. *)
Definition jump_terrain (i j : Z) : Z :=
  if (i =? 5) && (j =? 4) then 0 else 10 * Z.max 0 (Z.min 6 (13 - i)).

Definition jump_start : world jump_geom :=
  (with_terrain jump_terrain (new_sim (A := N) jump_grid demo_rng []), (0, 0)).

Notation jump_run n ps := (run (A := N) jump_geom jump_grid (jump_params n) 300 ps jump_start).

Lemma jump_grid_ok : grid_ok jump_grid.
Proof. unfold grid_ok. cbn. split; [lia|]. split; [lia|]. split; [lia|]. intros k _. lia. Qed.

Lemma jump_params_ok n : params_ok jump_grid (jump_params n).
Proof. unfold params_ok, aligned. cbn. do 3 (split; [lia|]). split; [exists 1; lia|]. lia. Qed.

Lemma jump_geom_ok : geom_ok jump_grid jump_geom jump_legal everywhere.
Proof.
  split.
  - intros p [Hx Hz]. eexists _, _. split; [reflexivity|]. split; [|intros; exact I].
    split; [unfold within_grid; cbn; lia|]. split.
    + intros w [<-|[]]. discriminate.
    + intros w i j k [<-|[]] [E|[]]. injection E as <- <- <-. unfold in_area; cbn; lia.
  - intros p p' [[i j] z] _ [Hx Hz] _. eexists. split; [reflexivity|]. cbn. lia.
Qed.

Lemma jump_wide : wide jump_geom jump_grid jump_legal.
Proof.
  intros p a walls _ E w i j k i' j' Hw Hc Hi Hd Hd'. injection E as <- <-.
  unfold interior in Hi. cbn in Hi.
  destruct Hw as [<-|[]]. destruct Hc as [E|[]]; injection E as <- <- <-;
    unfold in_area; cbn; lia.
Qed.

Lemma jump_start_ok : state_ok jump_grid jump_geom jump_legal everywhere jump_start.
Proof.
  apply (with_terrain_ok (upm := zunits 100) jump_grid jump_geom jump_legal everywhere jump_terrain
    demo_rng [] (0, 0) jump_grid_ok).
  intros i j. unfold jump_terrain. destruct (_ && _); [exists 0; reflexivity|].
  eexists. apply Z.mul_comm.
Qed.

Lemma jump_covers i j : interior jump_grid i j -> in_area (relax_area (fst jump_start)) i j.
Proof. unfold interior, in_area. cbn. lia. Qed.

(** Two relaxations of one round each; the second body is left at once. *)
Definition jump_poses : list (Z * Z) := [(5, 6); (15, 9); (4, 12); (5, 12)].

Lemma jump_legal_poses : Forall jump_legal jump_poses.
Proof. repeat constructor; cbn; lia. Qed.

Lemma jump_leaves : exists w', jump_run 1%nat jump_poses = Ok w' /\
  equilibrium (fst w') = true /\ wlog (fst w') = [] /\ interior jump_grid 15 5 /\
  ~ rests (jump_params 1) (fst w') 15 5.
Proof.
  assert (T : match jump_run 1%nat jump_poses with
    | Ok (s, _) => equilibrium s && match wlog s with [] => true | _ => false end &&
        (terrain s 15 5 =? 30) && (terrain s 16 5 =? 0) &&
        forallb (fun k => body s k 16 5 =? 0) [0; 1; 2; 3]
    | _ => false end = true) by (vm_compute; reflexivity).
  destruct (jump_run 1%nat jump_poses) as [[s p]| |]; [|discriminate|discriminate].
  repeat (apply andb_prop in T as [T ?]).
  exists (s, p). cbn [fst]. split; [reflexivity|]. split; [exact T|].
  split; [destruct (wlog s); [reflexivity|discriminate]|].
  split; [unfold interior; cbn; lia|].
  repeat match goal with H : (_ =? _) = true |- _ => apply Z.eqb_eq in H end.
  match goal with H : forallb _ _ = true |- _ => cbn [forallb] in H end.
  repeat match goal with H : (_ && _) = true |- _ => apply andb_prop in H as [? H] end.
  repeat match goal with H : (_ =? _) = true |- _ => apply Z.eqb_eq in H end.
  intros R. apply (R (1, 0) eq_refl). cbn [fst snd].
  change (15 + 1) with 16. change (5 + 0) with 5.
  assert (B : forall k, layer k -> ~ body_at s k 16 5).
  { intros k [-> | ->] [H'|H']; apply H'; assumption. }
  assert (T1 : (terrain s 15 5 : Z) = 30) by assumption.
  assert (T0 : (terrain s 16 5 : Z) = 0) by assumption.
  unfold terrain_falls. rewrite T1, T0. split; [reflexivity|].
  exists 0. split.
  - left. split; [reflexivity|]. intros k Hk Hb. exfalso. apply (B k Hk Hb).
  - unfold surface. cbn [Z.eqb]. rewrite T0. reflexivity.
Qed.

(** With more rounds every call reaches an equilibrium. *)
Definition calm_poses : list (Z * Z) := [(5, 6); (6, 6); (15, 9)].

Lemma calm_legal_poses : Forall jump_legal calm_poses.
Proof. repeat constructor; cbn; lia. Qed.

Lemma jump_bare p : overlaps (upm := zunits 100) jump_geom jump_grid (fst jump_start) p.
Proof.
  intros a walls _ k i j i' j' _ [-> | ->] [H|H]; exfalso; apply H; reflexivity.
Qed.

Lemma calm_watched : watched (upm := zunits 100) jump_geom jump_grid (jump_params 100) 300 calm_poses jump_start.
Proof.
  intros ps1 p ps2 w1 E R. unfold calm_poses in E.
  assert (T : forall ps, In ps [[(5, 6)]; [(5, 6); (6, 6)]] -> jump_run 100%nat ps = Ok w1 ->
    equilibrium (fst w1) = true).
  { intros ps Hin Rn.
    assert (Q : match jump_run 100%nat ps with Ok (s, _) => equilibrium s | _ => false end = true).
    { destruct Hin as [<-|[<-|[]]]; vm_compute; reflexivity. }
    rewrite Rn in Q. destruct w1 as [s q]. exact Q. }
  destruct ps1 as [|p1 ps1].
  { right. cbn [run] in R. injection R as <-. apply jump_bare. }
  left. destruct ps1 as [|p2 ps1].
  { injection E as <- _ _. apply (T [(5, 6)]); [left; reflexivity|exact R]. }
  destruct ps1 as [|p3 ps1].
  { injection E as <- <- _ _. apply (T [(5, 6); (6, 6)]); [right; left; reflexivity|exact R]. }
  exfalso. destruct ps1; discriminate.
Qed.

Lemma calm_run : exists w', jump_run 100%nat calm_poses = Ok w' /\
  equilibrium (fst w') = true /\ wlog (fst w') = [] /\
  (terrain (fst jump_start) 5 4 : Z) = 0 /\ (terrain (fst w') 5 4 : Z) = 40 /\
  (terrain (fst w') 15 4 : Z) = 10.
Proof.
  assert (T : match jump_run 100%nat calm_poses with
    | Ok (s, _) => equilibrium s && match wlog s with [] => true | _ => false end &&
        (terrain s 5 4 =? 40) && (terrain s 15 4 =? 10)
    | _ => false end = true) by (vm_compute; reflexivity).
  destruct (jump_run 100%nat calm_poses) as [[s p]| |]; [|discriminate|discriminate].
  repeat (apply andb_prop in T as [T ?]).
  exists (s, p). cbn [fst]. split; [reflexivity|]. split; [exact T|].
  split; [destruct (wlog s); [reflexivity|discriminate]|].
  repeat match goal with H : (_ =? _) = true |- _ => apply Z.eqb_eq in H end.
  split; [reflexivity|]. split; assumption.
Qed.
