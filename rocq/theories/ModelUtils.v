(** Self-checks of the simulator: utils.cpp:236-488. *)
From Coq Require Import ZArith List Bool.
From Verif Require Import Outcome Num State ModelRelax.
Import ListNotations.
Open Scope Z_scope.
Open Scope num_scope.

Section Checks.
  Context {A : Num}.
  Notation sim := (sim A).

  (** [for ii < terrain_.size() for jj < terrain_[0].size()] *)
  Definition all_cells (s : sim) : list (Z * Z) :=
    area_cells (mkArea 0 (nx s) 0 (ny s)).

  (** utils.cpp:246-254: body_soil_ without the soil of the records. *)
  Definition subtract_records (s : sim) : outcome (Z -> Z -> Z -> F A) :=
    for_each (records s)
      (fun e f =>
         let k := e_ind e + 1 in
         guard (layer_ok (e_ind e) && inb s (e_i e) (e_j e))
         (Ok (upd3 f k (e_i e) (e_j e) (f k (e_i e) (e_j e) -. e_h e))))
      (body_soil s).

  (** utils.cpp:260-264: the test at one cell. *)
  Definition records_mismatch (tol : F A) (f : Z -> Z -> Z -> F A) (i j : Z)
    : bool :=
    (fabs (f 0 i j -. f 1 i j) >. tol) || (fabs (f 2 i j -. f 3 i j) >. tol).

  (** [v += round(h / cell_size_z)] for [int v]. *)
  Definition add_count (h cz : F A) (v : Z) : outcome Z :=
    match f_count h cz with
    | None => UB BadCast
    | Some n => if int_ok (v + n) then Ok (v + n) else UB BadCast
    end.

  (** utils.cpp:275-279 *)
  Definition terrain_volume (cz : F A) (s : sim) : outcome Z :=
    for_each (all_cells s)
      (fun c v => add_count (terrain s (fst c) (snd c)) cz v) 0.

  (** utils.cpp:282-301 *)
  Definition body_soil_volume (cz : F A) (s : sim) : outcome Z :=
    for_each (all_cells s)
      (fun c v =>
         let '(i, j) := c in
         let layer k v :=
           if soil_present s k i j
           then add_count (body_soil s (k + 1) i j -. body_soil s k i j) cz v
           else Ok v in
         v <- layer 0 v ;; layer 2 v) 0.

  (** utils.cpp:239-312 CheckVolume. *)
  Definition check_volume (tol : F A) (cz : F A) (init_volume : Z) (s : sim)
    : outcome (sim * bool) :=
    f <- subtract_records s ;;
    if existsb (fun c => records_mismatch tol f (fst c) (snd c)) (all_cells s)
    then Ok (warn s WRecords, false)
    else
      tv <- terrain_volume cz s ;;
      bv <- body_soil_volume cz s ;;
      total <- chk_int (tv + bv) ;;
      if negb (total =? init_volume) then Ok (warn s WVolume, false)
      else Ok (s, true).

  (** utils.cpp:336-484: the body of the loop of CheckSoil; true when all tests
      pass. *)
  Definition cell_ok (tol : F A) (s : sim) (i j : Z) : bool :=
    let t := terrain s i j in
    let b k := body s k i j in
    let bs k := body_soil s k i j in
    let bp0 := body_present s 0 i j in
    let bp2 := body_present s 2 i j in
    let sp0 := soil_present s 0 i j in
    let sp2 := soil_present s 2 i j in
    negb (
      (bp0 && (t >. b 0 +. tol)) ||
      (bp2 && (t >. b 2 +. tol)) ||
      (bp0 && (b 0 >. b 1 -. tol)) ||
      (bp2 && (b 2 >. b 3 -. tol)) ||
      (bp0 && bp2 && (b 1 +. tol >. b 2) && (b 3 +. tol >. b 0)) ||
      (bp0 && sp2 && (b 1 -. tol >. bs 2) && (bs 3 -. tol >. b 0)) ||
      (bp2 && sp0 && (bs 1 -. tol >. b 2) && (b 3 -. tol >. bs 0)) ||
      (sp0 && (bs 0 >. bs 1 +. tol)) ||
      (sp2 && (bs 2 >. bs 3 +. tol)) ||
      (sp0 && (b 1 >. bs 0 +. tol)) ||
      (sp2 && (b 3 >. bs 2 +. tol)) ||
      (sp0 && negb bp0) ||
      (sp2 && negb bp2) ||
      (sp0 && (bs 0 !=. b 1)) ||
      (sp2 && (bs 2 !=. b 3))).

  Fixpoint check_soil_loop (tol : F A) (l : list (Z * Z)) (s : sim)
    : outcome (sim * bool) :=
    match l with
    | [] => Ok (s, true)
    | (i, j) :: l' =>
        guard (inb s i j)
        (if cell_ok tol s i j then check_soil_loop tol l' s
         else Ok (warn s WSoil, false))
    end.

  (** utils.cpp:325-488 CheckSoil. *)
  Definition check_soil (tol : F A) (s : sim) : outcome (sim * bool) :=
    check_soil_loop tol (area_cells (body_area s)) s.
End Checks.
