(** A concrete run of the program in binary32: a bucket digs in a noisy terrain. *)
From Coq Require Import ZArith List Bool.
From Coq Require Import Floats.SpecFloat.
From Verif Require Import Outcome Num State ModelBodySoil ModelBodyPos ModelUtils ModelStep
  Flt FltB ModelTypes ModelGeometry ModelRaster ModelNoise ModelProgram SpecSafe ProgramProofs.
Import ListNotations.
Open Scope Z_scope.

Definition zero : sf FltB := slit 0 0.
Definition upright : quat (sf FltB) := mkQuat (slit 1 0) zero zero zero.
Definition demoB_poses : list (ppose (K := FltB)) :=
  [ (mkVec zero zero (slit 5 1), upright);
    (mkVec zero zero (slit 1 1), upright);
    (mkVec (slit 1 1) zero (slit 1 1), upright) ].

(** The exact value of a finite number, in units of 2^-149. *)
Definition exact (x : spec_float) : Z :=
  match x with
  | S754_finite s m e => cond_Zopp s (Zpos m) * 2 ^ (e + 149)
  | _ => 0
  end.

(** The exact amount of soil. *)
Definition exact_total (s : sim (NumOf FltB)) : Z :=
  fold_right Z.add 0
    (map (fun c => let i := fst c in let j := snd c in
       exact (terrain s i j)
       + (exact (body_soil s 1 i j) - exact (body_soil s 0 i j))
       + (exact (body_soil s 3 i j) - exact (body_soil s 2 i j))) (all_cells s)).

(** Number of records, warnings and amount of soil at the end, in units of 2^-27. *)
Definition summary (x : built (outcome (sim (NumOf FltB) * ppose (K := FltB))))
  : option (nat * list warning * Z) :=
  match x with
  | Built (Ok (s, _)) => Some (length (records s), wlog s, exact_total s / 2 ^ 122)
  | _ => None
  end.

(** A grid of 13 x 13 x 21 cells of 0.1; a repose angle of 0.785 and three iterations; a
    bucket 0.4 wide, 0.3 high and 0.3 long; noise of amplitude 20; tolerance 1e-5. *)
Definition with_poses (ps : list (ppose (K := FltB))) : arguments (K := FltB) :=
  mkArguments (K := FltB)
    (slit 6 1) (slit 6 1) (slit 1 0) (slit 1 1) (slit 1 1)
    (slit 785 3) 3 2
    ABucket [zero; zero; zero] [zero; zero; zero] [zero; zero; slit (-3) 1]
    [slit 3 1; zero; slit (-3) 1] (slit 4 1)
    (slit 20 0) (slit 1 5) ps.
Definition demoB : arguments (K := FltB) := with_poses demoB_poses.

Definition demoB_pi : df FltB := dlit 3141592653589793 15.
(** std::tan; 0.999 at 0.785 *)
Definition demoB_tan : sf FltB -> sf FltB := fun _ => slit 999 3.
Definition demoB_rng : rng_t := fun n a => (n * 7 + a * 3)%nat.

Definition demoB_run (ps : list (ppose (K := FltB)))
  : built (outcome (sim (NumOf FltB) * ppose)) :=
  simulate demoB_pi demoB_tan 1000 1000 demoB_rng (with_poses ps).

Lemma demoB_summary : summary (demoB_run demoB_poses) = Some (20%nat, [WLargeMove], 93952445).
Proof.
  vm_cast_no_check (@eq_refl (option (nat * list warning * Z)) (Some (20%nat, [WLargeMove], 93952445))).
Qed.
(** After Init alone. *)
Lemma demoB_start : summary (demoB_run []) = Some (0%nat, [], 93952411).
Proof.
  vm_cast_no_check (@eq_refl (option (nat * list warning * Z)) (Some (0%nat, [], 93952411))).
Qed.

Definition demoB_grid : ggrid FltB :=
  match new_grid (slit 6 1) (slit 6 1) (slit 1 0) (slit 1 1) (slit 1 1) with
  | Built g => g
  | _ => mkGGrid 0 0 0 zero zero zero zero [] [] []
  end.
Definition demoB_param : gparam FltB := mkGParam (slit 785 3) 3 2.
Definition demoB_body : gbody FltB :=
  match new_body [zero; zero; zero] [zero; zero; zero] [zero; zero; slit (-3) 1]
    [slit 3 1; zero; slit (-3) 1] (slit 4 1) with
  | Built b => b
  | _ => mkGBody (mkVec zero zero zero) (mkVec zero zero zero) (mkVec zero zero zero) zero
           (mkVec zero zero zero) upright
  end.
Definition demoB_geom : geom (NumOf FltB) :=
  program ABucket demoB_grid demoB_body (slit 1 5) (cell_buffer demoB_param) 1000.

Lemma demoB_poses_ok :
  poses_ok (soil_grid demoB_grid) demoB_geom (fun p => In p demoB_poses)
    (fun x => In x (positions demoB_grid demoB_geom demoB_poses)).
Proof.
  apply (poses_in_ok demoB_grid demoB_geom). vm_cast_no_check (@eq_refl bool true).
Qed.

Lemma demoB_size_ok :
  size_ok (soil_grid demoB_grid) (soil_params demoB_tan demoB_grid demoB_param (slit 1 5)).
Proof. vm_compute. repeat split; discriminate. Qed.

Lemma summary_inv x n l t : summary x = Some (n, l, t) ->
  exists s p, x = Built (Ok (s, p)) /\ length (records s) = n /\ wlog s = l /\
    exact_total s / 2 ^ 122 = t.
Proof.
  destruct x as [[[s p]| |]| |]; cbn; try discriminate. intros [= <- <- <-]. eauto 6.
Qed.

Lemma demoB_drift : exists ps s p s' p',
  demoB_run [] = Built (Ok (s, p)) /\ demoB_run ps = Built (Ok (s', p')) /\
  ~ In WRemoved (wlog s') /\ exact_total s' <> exact_total s.
Proof.
  destruct (summary_inv _ _ _ _ demoB_start) as (s & p & E & _ & _ & T).
  destruct (summary_inv _ _ _ _ demoB_summary) as (s' & p' & E' & _ & L & T').
  exists demoB_poses, s, p, s', p'. split; [exact E|]. split; [exact E'|]. split.
  - rewrite L. intros [|[]]; discriminate.
  - intros Q. rewrite Q, T in T'. discriminate.
Qed.
