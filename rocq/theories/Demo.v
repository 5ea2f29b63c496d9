(** A small concrete world that meets the hypotheses of the theorems about Step: a
    9 x 9 grid, a body made of a floor, a back wall and a roof, moving along X. *)
From Coq Require Import ZArith List Bool Lia Permutation.
From Verif Require Import Outcome Num State Base Spec ModelRelax ModelIntersect
  ModelBodySoil ModelBodyPos ModelUtils ModelStep Spec2 StepFuel StepProofs RunProofs CheckProofs InitProofs.
Import ListNotations.
Open Scope Z_scope.

Notation N := (ZNum (zunits 100)).

Definition demo_grid : grid_t N :=
  @mkGrid N 4 4 6 10 (fun k => 10 * (k - 5)).

Definition demo_params : params N := @mkParams N 10 20 2 1.

(** Cells of the walls in the frame of the body. *)
Definition demo_walls : list (list cell3) :=
  [ (* floor *)
    [(3, 3, 6); (4, 3, 6); (5, 3, 6); (3, 4, 6); (4, 4, 6); (5, 4, 6);
     (3, 5, 6); (4, 5, 6); (5, 5, 6)];
    (* back *)
    [(3, 3, 6); (3, 3, 7); (3, 4, 6); (3, 4, 7); (3, 4, 8); (3, 5, 7)];
    (* roof *)
    [(4, 3, 9); (4, 4, 9); (4, 5, 9)] ].

(** The pose is the displacement along X. *)
Definition demo_geom : geom N :=
  @mkGeom N Z
    (fun old new => (negb (old =? new), 2 <? Z.abs (new - old)))
    (fun p i j z => (i - p, j, z))
    (fun p => Ok (mkArea (2 + p) (7 + p) 2 7,
                  map (map (fun c => let '(i, j, k) := c in (i + p, j, k))) demo_walls))
    (fun _ p x => let '(i, j, z) := x in Ok (@mkReloc N true true true (i + p) j z)).

Definition demo_legal (p : Z) : Prop := 0 <= p <= 1.
Definition demo_near (x : Z * Z * Z) : Prop :=
  let '(i, j, _) := x in 3 <= i <= 5 /\ 3 <= j <= 5.

Lemma demo_grid_ok : grid_ok demo_grid.
Proof. unfold grid_ok. cbn. split; [lia|]. split; [lia|]. split; [lia|]. intros k _. lia. Qed.

Lemma demo_params_ok : params_ok demo_grid demo_params.
Proof. unfold params_ok, aligned. cbn. do 3 (split; [lia|]). split; [exists 1; lia|]. lia. Qed.

Lemma demo_geom_ok : geom_ok demo_grid demo_geom demo_legal demo_near.
Proof.
  split.
  - intros p Hp. unfold demo_legal in Hp. eexists _, _. split; [reflexivity|]. split.
    + split; [unfold within_grid; cbn; lia|]. split.
      * intros w Hw. apply in_map_iff in Hw as (w0 & <- & Hw). cbn in Hw.
        destruct Hw as [<-|[<-|[<-|[]]]]; discriminate.
      * intros w i j k Hw Hc. apply in_map_iff in Hw as (w0 & <- & Hw).
        apply in_map_iff in Hc as ([[i0 j0] k0] & Ec & Hc). inversion Ec; subst.
        unfold in_area. cbn in Hw.
        destruct Hw as [<-|[<-|[<-|[]]]]; cbn in Hc; cbn;
          repeat (destruct Hc as [Hc|Hc]; [inversion Hc; subst; lia|]); destruct Hc.
    + intros w i j k Hw Hc. apply in_map_iff in Hw as (w0 & <- & Hw).
      apply in_map_iff in Hc as ([[i0 j0] k0] & Ec & Hc). inversion Ec; subst.
      unfold demo_near. cbn in Hw |- *.
      destruct Hw as [<-|[<-|[<-|[]]]]; cbn in Hc;
        repeat (destruct Hc as [Hc|Hc]; [inversion Hc; subst; lia|]); destruct Hc.
  - intros p p' [[i j] z] Hp Hp' [Hi Hj]. eexists. split; [reflexivity|].
    unfold demo_legal in Hp'. cbn. lia.
Qed.

(** A terrain with a hill. *)
Definition demo_terrain (i j : Z) : Z :=
  if (i =? 1) then -20
  else if (i =? 6) && (j =? 4) then 100 else 10.

Definition demo_rng : rng_t := fun n aa => (3 * n + n * n + aa)%nat.

Definition demo_start : world demo_geom :=
  (with_terrain demo_terrain (new_sim (A := N) demo_grid demo_rng []), -1).

Lemma demo_terrain_aligned i j : aligned 10 (demo_terrain i j).
Proof.
  unfold demo_terrain. destruct (_ =? _); [exists (-2); reflexivity|].
  destruct (_ && _); [exists 10; reflexivity|exists 1; reflexivity].
Qed.

Lemma demo_start_ok : state_ok demo_grid demo_geom demo_legal demo_near demo_start.
Proof.
  exact (with_terrain_ok (upm := zunits 100) demo_grid demo_geom demo_legal demo_near demo_terrain
    demo_rng [] (-1) demo_grid_ok demo_terrain_aligned).
Qed.

Definition demo_fuel : nat := 300.

Notation demo_run ps := (run (A := N) demo_geom demo_grid demo_params demo_fuel ps demo_start).

(** A boolean test of the result of a run. *)
Definition ends (o : outcome (world demo_geom)) (test : sim N -> Z -> bool) : bool :=
  match o with Ok (s, p) => test s p | _ => false end.

Lemma ends_spec o test : ends o test = true -> exists w, o = Ok w /\ test (fst w) (snd w) = true.
Proof. destruct o as [[s p]| |]; [|discriminate|discriminate]. exists (s, p). auto. Qed.

(** After two calls of Step: soil is on the body, which has moved, and the soil that
    was there came along. *)
Lemma demo_two :
  ends (demo_run [0; 1]) (fun s p =>
    (p =? 1) && equilibrium s && (total_soil s =? total_soil (fst demo_start)) &&
    (length (wlog s) =? 0)%nat && (length (records s) =? 2)%nat &&
    (body_soil s 1 6 4 =? 20) && (body s 1 6 4 =? 10) && (body s 0 6 4 =? 0) &&
    (body s 2 5 4 =? 30) && (terrain s 6 4 =? 0) && (terrain s 7 4 =? 30)) = true.
Proof. vm_compute. reflexivity. Qed.

(** The state reached, on which Step has soil to carry and to relax. *)
Definition result (w : world demo_geom) (o : outcome (world demo_geom)) : world demo_geom :=
  match o with Ok w' => w' | _ => w end.
Lemma result_ok w o : ends o (fun _ _ => true) = true -> o = Ok (result w o).
Proof. destruct o as [[s p]| |]; [reflexivity|discriminate|discriminate]. Qed.

Definition demo_mid : world demo_geom := result demo_start (demo_run [0]).

Lemma demo_mid_ends : ends (demo_run [0]) (fun s _ =>
  (length (records s) =? 2)%nat && (body_soil s 1 5 4 =? 20) && equilibrium s) = true.
Proof. vm_compute. reflexivity. Qed.

Lemma demo_mid_run : demo_run [0] = Ok demo_mid.
Proof. apply result_ok. vm_compute. reflexivity. Qed.

Lemma demo_mid_ok : state_ok demo_grid demo_geom demo_legal demo_near demo_mid.
Proof.
  refine (proj1 (run_ok demo_grid demo_geom demo_legal demo_near demo_grid_ok demo_geom_ok
    demo_params demo_fuel [0] demo_start demo_mid demo_params_ok demo_start_ok _ demo_mid_run)).
  constructor; [unfold demo_legal; lia|constructor].
Qed.

(** The call of Step on that state with the next pose. *)
Definition step_test (o : outcome (world demo_geom * bool)) (test : sim N -> Z -> bool -> bool)
  : bool := match o with Ok (s, p, b) => test s p b | _ => false end.

Notation demo_step := (step (A := N) demo_geom demo_grid demo_params demo_fuel 1 demo_mid).

(** It moves the soil on the body and relaxes, and no warning is issued. *)
Lemma demo_step_runs : step_test demo_step (fun s p b =>
  b && (p =? 1) && (body_soil s 1 6 4 =? 20) && (body_soil s 1 5 4 =? 0) &&
  negb (terrain s 6 4 =? terrain (fst demo_mid) 6 4) && (length (wlog s) =? 0)%nat) = true.
Proof. vm_compute. reflexivity. Qed.

Definition stepped_or (r : world demo_geom * bool) (o : outcome (world demo_geom * bool))
  : world demo_geom * bool := match o with Ok r' => r' | _ => r end.
Lemma stepped_or_ok r o : step_test o (fun _ _ _ => true) = true -> o = Ok (stepped_or r o).
Proof. destruct o as [[[s p] b]| |]; [reflexivity|discriminate|discriminate]. Qed.

Definition demo_stepped : world demo_geom * bool := stepped_or (demo_mid, false) demo_step.

Lemma demo_step_ok : demo_step = Ok demo_stepped.
Proof. apply stepped_or_ok. vm_compute. reflexivity. Qed.
