(** Properties of binary32 numbers that are not finite. Statements only; the proofs are
    in FloatProofs.v. *)
From Coq Require Import ZArith List Bool.
From Coq Require Import Floats.SpecFloat.
From Verif Require Import Outcome Flt FltB State ModelTypes ModelGeometry ModelBodyPos ModelRaster
  FloatProofs.
Import ListNotations.
Open Scope Z_scope.

(** ** C29: constructors *)
(** No grid is ever built from a number that is not finite: either the constructor
    throws, or its behaviour is undefined. *)
Theorem C29_grid_undefined :
  forall sx sy sz cxy cz,
  not_finite sx \/ not_finite sy \/ not_finite sz \/ not_finite cxy \/ not_finite cz ->
  (forall n, bnew_grid sx sy sz cxy cz <> Throws n) ->
  exists r, bnew_grid sx sy sz cxy cz = BuildUB r.
Proof. exact grid_not_finite. Qed.
Print Assumptions C29_grid_undefined.

(** In an accepted set of sizes, NaN in place of any of them, or infinity in place of a
    size of the grid, passes all the checks. *)
Theorem C29_grid_passes :
  forall sx sy sz cxy cz g, bnew_grid sx sy sz cxy cz = Built g ->
  Forall (fun b => exists r, b = BuildUB r)
    [ bnew_grid nan sy sz cxy cz; bnew_grid sx nan sz cxy cz; bnew_grid sx sy nan cxy cz;
      bnew_grid sx sy sz nan cz; bnew_grid sx sy sz cxy nan;
      bnew_grid (S754_infinity false) sy sz cxy cz; bnew_grid sx (S754_infinity false) sz cxy cz;
      bnew_grid sx sy (S754_infinity false) cxy cz ].
Proof. exact grid_replaced. Qed.
Print Assumptions C29_grid_passes.

Example C29_grid_example :
  exists g, bnew_grid (slit 4 0) (slit 4 0) (slit 4 0) (slit 1 1) (slit 1 1) = Built g /\
    g_half_x g = 40.
Proof. exact float_grid. Qed.

(** Points with a coordinate that is not a number are always distinct, and any width
    that is not a number is accepted. *)
Theorem C29_body :
  forall o j b t : list bf,
  length o = 3%nat -> length j = 3%nat -> length b = 3%nat -> length t = 3%nat ->
  In nan j -> In nan b -> exists x, bnew_body o j b t nan = Built x.
Proof. exact body_nan. Qed.
Print Assumptions C29_body.
Example C29_body_example : exists x,
  bnew_body [nan; nan; nan] [nan; nan; nan] [nan; nan; nan] [nan; nan; nan] nan = Built x.
Proof. apply C29_body; try reflexivity; left; reflexivity. Qed.

(** A repose angle that is not a number is accepted; the allowed height difference is
    then not a number either. *)
Theorem C29_param :
  forall pi iterations buffer, 0 <= iterations -> 2 <= buffer ->
  bnew_param pi nan iterations buffer = Built (@mkGParam FltB nan iterations buffer).
Proof. exact param_nan. Qed.
Print Assumptions C29_param.
Theorem C29_slope :
  forall (tan : bf -> bf) (g : ggrid FltB) n b, tan nan = nan ->
  dh_max (K := FltB) tan g (@mkGParam FltB nan n b) = nan.
Proof. exact slope_nan. Qed.
Print Assumptions C29_slope.
Example C29_slope_example : (fun x : bf => SFopp x) nan = nan.
Proof. reflexivity. Qed.

(** The pose given to Step is not checked: a null quaternion, a quaternion or a position
    with a coordinate that is not a number reach the conversions of UpdateBody to int. *)
Theorem C29_quaternion :
  forall g tol fuel buf (b : gbody FltB) pos ori, bad_quat ori ->
  check_body_movement (K := FltB) pos ori g b = (true, false) /\
  raster_bucket (K := FltB) g tol fuel buf b pos ori = UB BadCast /\
  raster_blade (K := FltB) g tol fuel buf b pos ori = UB BadCast.
Proof.
  exact (fun g tol fuel buf b pos ori H =>
    conj (movement_bad pos ori g b (or_introl H)) (raster_bad g tol fuel buf b pos ori H)).
Qed.
Print Assumptions C29_quaternion.
Example C29_quaternion_example : bad_quat zero_quat.
Proof. left; reflexivity. Qed.
Theorem C29_position :
  forall g tol fuel buf (b : gbody FltB) pos ori, vx pos = nan \/ vy pos = nan ->
  (exists r, raster_bucket (K := FltB) g tol fuel buf b pos ori = UB r) /\
  (exists r, raster_blade (K := FltB) g tol fuel buf b pos ori = UB r).
Proof. exact raster_nan_pos. Qed.
Print Assumptions C29_position.

(** A body with three points on a line is accepted, and its first update is undefined. *)
Theorem C29_line :
  exists o j b t w body pos ori, bnew_body o j b t w = Built body /\
  forall g tol fuel buf, raster_bucket (K := FltB) g tol fuel buf body pos ori = UB BadCast.
Proof.
  exact (ex_intro _ _ (ex_intro _ _ (ex_intro _ _ (ex_intro _ _ (ex_intro _ _ (ex_intro _ _
    (ex_intro _ _ (ex_intro _ _ (conj line_body_built line_body_raster))))))))).
Qed.
Print Assumptions C29_line.

(** ** C38: the first Step *)
Theorem C38_first_step :
  forall o j b t w body pos ori g, bnew_body o j b t w = Built body ->
  check_body_movement (K := FltB) pos ori g body = (true, false).
Proof. exact first_step. Qed.
Print Assumptions C38_first_step.
(** See [C29_body_example] and [line_body_built] for accepted bodies, and
    [float_body] for an ordinary one. *)
Example C38_first_step_example : exists body,
  bnew_body [fl 0; fl 0; fl 0] [fl 0; fl 0; fl 0] [fl 0; fl 0; slit (-5) 1]
            [slit 7 1; fl 0; slit (-5) 1] (slit 5 1) = Built body.
Proof. exact float_body. Qed.
