(** Moving the soil that intersects the body: intersecting_cells.cpp. *)
From Coq Require Import ZArith List Bool.
From Verif Require Import Outcome Num State ModelRelax.
Import ListNotations.
Open Scope Z_scope.
Open Scope num_scope.

Section Intersect.
  Context {A : Num}.
  (** [CalcBodyFramePos] for the current pose, as in ModelRelax. *)
  Variable frame : Z -> Z -> F A -> Pos A.
  Variable tol : F A.

  Notation sim := (sim A).

  (** intersecting_cells.cpp:52-54, 189-191 *)
  Definition directions8 : list (Z * Z) :=
    [(1, 0); (-1, 0); (0, 1); (0, -1); (1, 1); (1, -1); (-1, 1); (-1, -1)].

  (** The variables of one exploration, intersecting_cells.cpp:117-122. *)
  Record walk : Type := mkWalk {
    w_ind : Z;          (* ind_p *)
    w_i : Z;            (* ii_p *)
    w_j : Z;            (* jj_p *)
    w_h : F A;          (* h_soil *)
    w_wall : bool       (* wall_presence *)
  }.

  (** intersecting_cells.cpp:313-354 ([k] = 2) and 355-396 ([k] = 0): only body
      layer [k] is present at the new position. *)
  Definition move_single
    (s : sim) (w : walk) (max_h : F A) (k i j : Z) : sim * walk :=
    let h := w_h w in
    if body s k i j -. tol >. body s (w_ind w + 1) (w_i w) (w_j w) then
      (set_t s i j (terrain s i j +. h),
       mkWalk (w_ind w) (w_i w) (w_j w) f0 (w_wall w))
    else if body s (k + 1) i j +. tol >. max_h then
      (s, mkWalk (w_ind w) (w_i w) (w_j w) h true)
    else
      let s :=
        if soil_present s k i j
        then set_bs s (k + 1) i j (body_soil s (k + 1) i j +. h)
        else set_bs (set_bs s k i j (body s (k + 1) i j))
                    (k + 1) i j (body s (k + 1) i j +. h) in
      (push_record s (mkRec k i j (frame i j (body s (k + 1) i j)) h),
       mkWalk (w_ind w) (w_i w) (w_j w) f0 (w_wall w)).

  (** intersecting_cells.cpp:397-505: both body layers are present. *)
  Definition move_between (s : sim) (w : walk) (i j : Z) : sim * walk :=
    let h := w_h w in
    let '(kb, kt) := if body s 0 i j <. body s 2 i j then (0, 2) else (2, 0) in
    let present := soil_present s kb i j in
    if present && (body_soil s (kb + 1) i j +. tol >. body s kt i j) then
      (s, mkWalk kb i j h (w_wall w))
    else
      let pos := frame i j (body s (kb + 1) i j) in
      if present then
        let delta_h := body s kt i j -. body_soil s (kb + 1) i j in
        if delta_h <. h then
          (push_record
             (set_bs s (kb + 1) i j (body_soil s (kb + 1) i j +. delta_h))
             (mkRec kb i j pos delta_h),
           mkWalk kb i j (h -. delta_h) (w_wall w))
        else
          (push_record
             (set_bs s (kb + 1) i j (body_soil s (kb + 1) i j +. h))
             (mkRec kb i j pos h),
           mkWalk (w_ind w) (w_i w) (w_j w) f0 (w_wall w))
      else
        let delta_h := body s kt i j -. body s (kb + 1) i j in
        if delta_h <. h then
          (push_record
             (set_bs (set_bs s kb i j (body s (kb + 1) i j))
                     (kb + 1) i j (body s (kb + 1) i j +. delta_h))
             (mkRec kb i j pos delta_h),
           mkWalk kb i j (h -. delta_h) (w_wall w))
        else
          (push_record
             (set_bs (set_bs s kb i j (body s (kb + 1) i j))
                     (kb + 1) i j (body s (kb + 1) i j +. h))
             (mkRec kb i j pos h),
           mkWalk (w_ind w) (w_i w) (w_j w) f0 (w_wall w)).

  (** intersecting_cells.cpp:296-508 MoveBodySoil. *)
  Definition move_body_soil
    (s : sim) (w : walk) (max_h : F A) (i j : Z) : outcome (sim * walk) :=
    guard (inb s i j && inb s (w_i w) (w_j w))
    (let absent1 := body_absent s 0 i j in
     let absent3 := body_absent s 2 i j in
     if absent1 && absent3 then
       Ok (set_t s i j (terrain s i j +. w_h w),
           mkWalk (w_ind w) (w_i w) (w_j w) f0 (w_wall w))
     else if absent1 then Ok (move_single s w max_h 2 i j)
     else if absent3 then Ok (move_single s w max_h 0 i j)
     else Ok (move_between s w i j)).

  (** intersecting_cells.cpp:126-144: exploration of one direction. *)
  Fixpoint explore
    (fuel : nat) (s : sim) (w : walk) (max_h : F A) (i j : Z) (d : Z * Z) (pp : Z)
    : outcome (sim * walk) :=
    if negb (w_wall w) && (w_h w >. tol) then
      match fuel with
      | O => OutOfFuel
      | S fuel =>
          let pp := pp + 1 in
          '(s, w) <- move_body_soil s w max_h (i + pp * fst d) (j + pp * snd d) ;;
          guard (inb s (w_i w) (w_j w))
          (explore fuel s w
             (fmax (body s 0 (w_i w) (w_j w)) (body s 2 (w_i w) (w_j w)))
             i j d pp)
      end
    else Ok (s, w).

  (** intersecting_cells.cpp:115-149: the eight directions, with the [break]. *)
  Fixpoint explore_all
    (fuel : nat) (dirs : list (Z * Z)) (s : sim) (ind ind_t i j : Z) (h : F A)
    : outcome (sim * F A) :=
    match dirs with
    | [] => Ok (s, h)
    | d :: dirs' =>
        '(s, w) <- explore fuel s (mkWalk ind i j h false) (body s ind_t i j)
                     i j d 0 ;;
        if w_h w <. tol then Ok (s, w_h w)
        else explore_all fuel dirs' s ind ind_t i j (w_h w)
    end.

  (** intersecting_cells.cpp:57-160: one record. *)
  Definition move_record
    (fuel : nat) (nn : nat) (e : rec_t A) (s : sim) (dirs : list (Z * Z))
    : outcome (sim * list (Z * Z)) :=
    let ind := e_ind e in
    let i := e_i e in
    let j := e_j e in
    let ind_t := if ind =? 0 then 2 else 0 in
    guard (layer_ok ind && inb s i j)
    (if body_absent s ind_t i j then Ok (s, dirs)
     else if (body s ind_t i j >. body s ind i j) &&
             (body_soil s (ind + 1) i j -. tol >. body s ind_t i j)
     then
       let h := body_soil s (ind + 1) i j -. body s ind_t i j in
       let '(h, s) :=
         if h >. e_h e then (e_h e, set_record_h s nn e f0)
         else (h, set_record_h s nn e (e_h e -. h)) in
       let s := set_bs s (ind + 1) i j (body_soil s (ind + 1) i j -. h) in
       let '(dirs, r) := shuffle dirs (rng s) in
       '(s, h) <- explore_all fuel dirs (set_rng s r) ind ind_t i j h ;;
       Ok (if h >. tol then warn s WRemoved else s, dirs)
     else Ok (s, dirs)).

  (** intersecting_cells.cpp:57: the loop; records are appended while it runs. *)
  Fixpoint move_records
    (fuel walk_fuel : nat) (nn : nat) (s : sim) (dirs : list (Z * Z))
    : outcome sim :=
    match nth_error (records s) nn with
    | None => Ok s
    | Some e =>
        match fuel with
        | O => OutOfFuel
        | S fuel =>
            '(s, dirs) <- move_record walk_fuel nn e s dirs ;;
            move_records fuel walk_fuel (S nn) s dirs
        end
    end.

  (** intersecting_cells.cpp:48-161 MoveIntersectingBodySoil. *)
  Definition move_intersecting_body_soil (fuel : nat) (s : sim) : outcome sim :=
    move_records fuel fuel 0 s directions8.

  (** intersecting_cells.cpp:510-540 LocateIntersectingCells: [(ind, ii, jj)]. *)
  Definition locate_intersecting_cells (s : sim) : outcome (list (Z * Z * Z)) :=
    for_each (area_cells (body_area s))
      (fun c acc =>
         let '(i, j) := c in
         guard (inb s i j)
         (let hit k := body_present s k i j && (terrain s i j -. tol >. body s k i j)
          in
          let acc := if hit 0 then acc ++ [(0, i, j)] else acc in
          Ok (if hit 2 then acc ++ [(2, i, j)] else acc))) [].

  (** intersecting_cells.cpp:221-270: the eight cells at distance [pp]; the
      boolean tells whether [break] was taken. *)
  Fixpoint spread_ring
    (dirs : list (Z * Z)) (s : sim) (i j pp : Z) (h : F A)
    : outcome (sim * F A) :=
    match dirs with
    | [] => Ok (s, h)
    | d :: dirs' =>
        let ip := i + fst d * pp in
        let jp := j + snd d * pp in
        guard (inb s ip jp)
        (let absent1 := body_absent s 0 ip jp in
         let absent3 := body_absent s 2 ip jp in
         let t := terrain s ip jp in
         if absent1 && absent3 then Ok (set_t s ip jp (t +. h), f0)
         else
           let body_bot :=
             if absent1 then body s 2 ip jp
             else if absent3 then body s 0 ip jp
             else fmin (body s 0 ip jp) (body s 2 ip jp) in
           if t +. tol <. body_bot then
             let delta_h := body_bot -. t in
             if delta_h <. h then
               spread_ring dirs' (set_t s ip jp body_bot) i j pp (h -. delta_h)
             else Ok (set_t s ip jp (t +. h), f0)
           else spread_ring dirs' s i j pp h)
    end.

  (** intersecting_cells.cpp:218-271: farther and farther. *)
  Fixpoint spread
    (fuel : nat) (dirs : list (Z * Z)) (s : sim) (i j pp : Z) (h : F A)
    : outcome sim :=
    if h >. tol then
      match fuel with
      | O => OutOfFuel
      | S fuel =>
          let pp := pp + 1 in
          '(s, h) <- spread_ring dirs s i j pp h ;;
          spread fuel dirs s i j pp h
      end
    else Ok s.

  (** intersecting_cells.cpp:194-275: one intersecting cell. *)
  Definition move_terrain_cell
    (fuel : nat) (c : Z * Z * Z) (st : sim * list (Z * Z))
    : outcome (sim * list (Z * Z)) :=
    let '(ind, i, j) := c in
    let '(s, dirs) := st in
    if terrain s i j -. tol <. body s ind i j then Ok (s, dirs)
    else
      let '(dirs, r) := shuffle dirs (rng s) in
      s <- spread fuel dirs (set_rng s r) i j 0 (terrain s i j -. body s ind i j) ;;
      Ok (set_t s i j (body s ind i j), dirs).

  (** intersecting_cells.cpp:177-276 MoveIntersectingBody. *)
  Definition move_intersecting_body (fuel : nat) (s : sim) : outcome sim :=
    cells <- locate_intersecting_cells s ;;
    '(s, _) <- for_each cells (move_terrain_cell fuel) (s, directions8) ;;
    Ok s.

  (** intersecting_cells.cpp:19-27 MoveIntersectingCells. *)
  Definition move_intersecting_cells (fuel : nat) (s : sim) : outcome sim :=
    s <- move_intersecting_body_soil fuel s ;;
    move_intersecting_body fuel s.
End Intersect.
