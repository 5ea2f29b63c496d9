(** The whole simulator in one floating point arithmetic: the soil half of ModelStep
    and the geometry of ModelGeometry and ModelRaster computed with the same numbers.
    With [FltB] this is the program in binary32 and binary64. *)
From Coq Require Import ZArith List Bool.
From Verif Require Import Outcome Num State ModelBodySoil ModelBodyPos ModelUtils ModelStep
  Flt ModelTypes ModelGeometry ModelRaster ModelNoise.
Import ListNotations.
Open Scope Z_scope.
Open Scope flt_scope.

(** The operations on heights as the code writes them: heights, tol and cell_size_z
    are [float]; the literals 0.5 and 0.9, round() and vect_z_ are [double]. *)
Definition NumOf (K : flt) : Num := {|
  F := sf K;
  D := df K;
  Pos := vec (sf K);
  Hgt := sf K;
  f0 := s0;
  fadd := sadd;
  fsub := ssub;
  fabs := sabs;
  f_dist := fun z b => sabs (z -! b);
  fltb := sltb;
  feqb := seqb;
  (* h = 0.5 * (dh_max + a + b); h = cell_size_z * std::floor((h + tol) / cell_size_z) *)
  f_mid := fun dh a b tol cz =>
    let h := nar (d_half *!! wid (dh +! a +! b)) in
    cz *! sfloor ((h +! tol) /! cz);
  (* cell_size_z * round(h / cell_size_z) *)
  f_snap := fun h cz => nar (wid cz *!! dround (wid (h /! cz)));
  f_count := fun h cz => d_trunc (dround (wid (h /! cz)));
  (* h < 0.9 * cell_size_z *)
  f_below := fun h cz => wid h <!! (d_of_Z 9 /!! d_of_Z 10) *!! wid cz;
  f_of_Z := s_of_Z;
  d_to_f := nar;
  d_sub_f := fun d cz => nar (d -!! wid cz)
|}.

(** The two kinds of body. *)
Inductive body_kind : Type := ABucket | ABlade.

Section Program.
  Context {K : flt}.
  Notation sf := (sf K).

  (** The members of Grid that the soil half uses. *)
  Definition soil_grid (g : ggrid K) : grid_t (NumOf K) :=
    mkGrid (A := NumOf K) (g_half_x g) (g_half_y g) (g_half_z g) (g_cell_z g)
      (fun k => nth (Z.to_nat k) (g_vect_z g) d0).

  (** The members of SimParam, and the height difference of relax.cpp:48-52. *)
  Definition soil_params (tan : sf -> sf) (g : ggrid K) (prm : gparam K) (tol : sf)
    : params (NumOf K) :=
    mkParams (NumOf K) (dh_max tan g prm) (Z.to_nat (max_iterations prm))
      (cell_buffer prm) tol.

  Section Geom.
    Variable k : body_kind.
    Variable g : ggrid K.
    Variable b : gbody K.
    Variable tol : sf.
    Variable buffer : Z.
    (** A bound on the iterations of the loop of CalcLinePos. *)
    Variable lines : nat.

    Definition ppose : Type := (vec sf * quat sf)%type.

    (** The body with the given members pos_ and ori_. *)
    Definition placed (p : ppose) : gbody K :=
      mkGBody (j_init b) (b_init b) (t_init b) (width b) (fst p) (snd p).

    Definition praster (p : ppose) : outcome (area * list (list cell3)) :=
      match k with
      | ABucket => raster_bucket g tol lines buffer b (fst p) (snd p)
      | ABlade => raster_blade g tol lines buffer b (fst p) (snd p)
      end.

    Definition preloc (old new : ppose) (x : vec sf) : outcome (reloc (NumOf K)) :=
      m <- move_cell (fst new) (snd new) g (placed old) x ;;
      Ok (mkReloc (A := NumOf K) (0 <? m_sx m) (0 <? m_sy m) (m_xmain m) (m_i m) (m_j m)
            (vz (m_pos m))).

    Definition program : geom (NumOf K) :=
      mkGeom (NumOf K) ppose
        (fun old new => check_body_movement (fst new) (snd new) g (placed old))
        (fun p i j z => calc_body_frame_pos i j z g (placed p))
        praster preloc.
  End Geom.

  (** soil_dynamics.cpp:18-59 Init. *)
  Definition program_init (g : ggrid K) (amp : sf) (s : sim (NumOf K))
    : outcome (sim (NumOf K)) :=
    let '(table, r) := perm_table (rng s) in
    for_each (all_cells s)
      (fun c (s : sim (NumOf K)) =>
         v <- cell_noise g amp (map Z.of_nat table) (fst c) (snd c) ;;
         Ok (set_t (A := NumOf K) s (fst c) (snd c) v)) (set_rng s r).

  (** A caller: the constructors of Grid, SimParam, the body and SimOut, Init, then
      calls of Step with the given poses. *)
  Record arguments : Type := mkArguments {
    a_size_x : sf; a_size_y : sf; a_size_z : sf; a_cell_xy : sf; a_cell_z : sf;
    a_angle : sf; a_iterations : Z; a_buffer : Z;
    a_kind : body_kind;
    a_origin : list sf; a_joint : list sf; a_base : list sf; a_tip : list sf; a_width : sf;
    a_amp : sf; a_tol : sf;
    a_poses : list ppose
  }.

  Definition build {T} (x : built T) (k : T -> built (outcome (sim (NumOf K) * ppose)))
    : built (outcome (sim (NumOf K) * ppose)) :=
    match x with
    | Built v => k v
    | Throws n => Throws n
    | BuildUB r => BuildUB r
    end.

  Definition simulate (pi : df K) (tan : sf -> sf) (lines fuel : nat) (r : rng_t)
    (a : arguments) : built (outcome (sim (NumOf K) * ppose)) :=
    build (new_grid (a_size_x a) (a_size_y a) (a_size_z a) (a_cell_xy a) (a_cell_z a)) (fun g =>
    build (new_param pi (a_angle a) (a_iterations a) (a_buffer a)) (fun prm =>
    build (new_body (a_origin a) (a_joint a) (a_base a) (a_tip a) (a_width a)) (fun b =>
    Built (
      s <- program_init g (a_amp a) (new_sim (soil_grid g) r []) ;;
      run (program (a_kind a) g b (a_tol a) (a_buffer a) lines) (soil_grid g)
        (soil_params tan g prm (a_tol a)) fuel (a_poses a) (s, (pos_ b, ori_ b)))))).
End Program.
