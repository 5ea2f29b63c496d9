(** The whole simulator: the soil half of ModelStep, on exact heights, driven by the
    geometry of ModelGeometry and ModelRaster, over the real numbers. *)
From Coq Require Import ZArith List Reals.
From Verif Require Import Outcome Num State ModelBodySoil ModelBodyPos ModelStep
  Flt FltR ModelTypes ModelGeometry ModelRaster.
Import ListNotations.

Section Whole.
  (** Heights are integer numbers of ticks; there are [t] ticks in one metre. The
      three members x_b, y_b and z_b of a record are real numbers. *)
  Variable t : Z.
  Definition wunits : units := plain t (vec R).
  Definition metres (z : Z) : R := (IZR z / IZR t)%R.

  (** Height of a point in ticks. body_soil.cpp:138 and 164 only compare the height
      of the moved soil with heights of the body; see [exact_ticks] below. *)
  Variable to_ticks : R -> Z.

  Variable g : ggrid FltR.
  Variable b : gbody FltR.
  (** body_pos.cpp:22-120 or 128-268: [raster_bucket] or [raster_blade]. *)
  Variable raster : vec R -> quat R -> outcome (area * list (list cell3)).

  (** The cells as the soil half sees them; [cz] is the height of a cell in ticks.
      The levels are those of types.cpp:68-73 (see [whole_levels]). *)
  Definition wgrid (cz : Z) : grid_t (ZNum wunits) :=
    mkGrid (A := ZNum wunits) (g_half_x g) (g_half_y g) (g_half_z g) cz
      (fun k => cz * (k + 1 - g_half_z g))%Z.

  (** The pose stored in the body; [None] is the pose of a body that was just
      constructed (types.cpp:124-125: the orientation is the null quaternion, and
      every comparison of CheckBodyMovement is then made with a number that is not
      one: the body counts as moved, without warning; C38_first_step). *)
  Definition wpose : Type := option (vec R * quat R).
  Definition at_pose (p : wpose) : gbody FltR :=
    match p with
    | Some (x, q) => @mkGBody FltR (j_init b) (b_init b) (t_init b) (width b) x q
    | None => b
    end.

  Definition wmoved (old new : wpose) : bool * bool :=
    match old, new with
    | Some _, Some (x, q) => check_body_movement (K := FltR) x q g (at_pose old)
    | _, _ => (true, false)
    end.

  Definition wframe (p : wpose) (i j : Z) (z : Z) : vec R :=
    calc_body_frame_pos (K := FltR) i j (metres z) g (at_pose p).

  Definition wraster (p : wpose) : outcome (area * list (list cell3)) :=
    match p with
    | Some (x, q) => raster x q
    | None => UB BadCast
    end.

  Definition wreloc (old new : wpose) (x : vec R) : outcome (reloc (ZNum wunits)) :=
    match new with
    | Some (p, q) =>
        m <- move_cell (K := FltR) p q g (at_pose old) x ;;
        Ok (mkReloc (A := ZNum wunits) (0 <? m_sx m)%Z (0 <? m_sy m)%Z (m_xmain m) (m_i m) (m_j m)
              (to_ticks (vz (m_pos m))))
    | None => UB BadCast
    end.

  Definition whole : geom (ZNum wunits) :=
    mkGeom (ZNum wunits) wpose wmoved wframe wraster wreloc.
End Whole.

(** A height in ticks that compares like the height itself with the multiples of
    four ticks: n, between n and n + 1/2, n + 1/2, between n + 1/2 and n + 1. *)
Definition exact_ticks (t : Z) (z : R) : Z :=
  let x := (z * IZR t / 2)%R in
  let n := Int_part x in
  (2 * n + (if Rltb (IZR n) x then 1 else 0))%Z.

(** The two kinds of body. *)
Inductive kind : Type := Bucket | Blade.
Definition raster_of (k : kind) (g : ggrid FltR) (tol : R) (fuel : nat) (buffer : Z)
  (b : gbody FltR) : vec R -> quat R -> outcome (area * list (list cell3)) :=
  match k with
  | Bucket => raster_bucket (K := FltR) g tol fuel buffer b
  | Blade => raster_blade (K := FltR) g tol fuel buffer b
  end.

(** A sequence of calls of Step on a body that was just constructed; [ps] are the
    arguments pos and ori of the calls, [lines] and [fuel] bound the iterations of the
    loops of the geometry and of the soil half. *)
Section Calls.
  Variable k : kind.
  Variable t : Z.
  Variable to_ticks : R -> Z.
  Variable g : ggrid FltR.
  Variable cz : Z.
  Variable b : gbody FltR.
  Variable P : params (ZNum (wunits t)).

  Definition wgeom (lines : nat) : geom (ZNum (wunits t)) :=
    whole t to_ticks g b
      (raster_of k g (metres t (p_tol P)) lines (p_cell_buffer P) b).
  Definition wrun (lines fuel : nat) (ps : list (vec R * quat R)) (s : sim (ZNum (wunits t)))
    : outcome (sim (ZNum (wunits t)) * wpose) :=
    run (wgeom lines) (wgrid t g cz) P fuel (map Some ps) (s, None).
End Calls.
