(** Soil relaxation: relax.cpp. *)
From Coq Require Import ZArith List Bool.
From Verif Require Import Outcome Num State.
Import ListNotations.
Open Scope Z_scope.
Open Scope num_scope.

Section Relax.
  Context {A : Num}.
  (** [CalcBodyFramePos(ii, jj, z, grid, body)] for the current body pose
      (utils.cpp:145-163); the soil half only stores its result. *)
  Variable frame : Z -> Z -> F A -> Pos A.
  Variable g : grid_t A.
  Variable dh_max : F A.
  Variable cell_buffer : Z.
  Variable tol : F A.

  Notation sim := (sim A).
  Notation cz := (cell_z g).

  (** relax.cpp:600-603 and all other occurrences:
      [h_new = 0.5 * (dh_max + a + b);
       h_new = cell_size_z * floor((h_new + tol) / cell_size_z)] *)
  Definition level (a b : F A) : F A := f_mid dh_max a b tol cz.

  (** relax.cpp:72-73, 167-168 *)
  Definition directions4 : list (Z * Z) := [(1, 0); (-1, 0); (0, 1); (0, -1)].

  (** relax.cpp:252-257: selection test of one cell. *)
  Definition unstable_candidate (s : sim) (i j : Z) : outcome bool :=
    guard (inb s i j && inb s (i - 1) j && inb s (i + 1) j
           && inb s i (j - 1) && inb s i (j + 1))
    (let h_min := terrain s i j -. dh_max -. tol in
     Ok ((terrain s (i - 1) j <. h_min) || (terrain s (i + 1) j <. h_min) ||
         (terrain s i (j - 1) <. h_min) || (terrain s i (j + 1) <. h_min))).

  (** relax.cpp:235-264 LocateUnstableTerrainCell.
      The guard of [unstable_candidate] asks for all four neighbours although
      [||] may skip some of them: accesses in range are the same or fewer. *)
  Definition locate_unstable_terrain_cell (s : sim) : outcome (list (Z * Z)) :=
    for_each (area_cells (impact_area s))
      (fun c acc =>
         b <- unstable_candidate s (fst c) (snd c) ;;
         Ok (if b : bool then acc ++ [c] else acc)) [].

  (** relax.cpp:288-418 CheckUnstableTerrainCell (in range). *)
  Definition check_unstable_terrain_cell (s : sim) (i j : Z) (h_min : F A) : Z :=
    let t := terrain s i j in
    let b k := body s k i j in
    let bs k := body_soil s k i j in
    if t +. tol <. h_min then
      let absent1 := body_absent s 0 i j in
      let absent3 := body_absent s 2 i j in
      let finish status column_top :=
        if column_top +. tol <. h_min then status else 0 in
      if absent1 && absent3 then 40
      else if absent1 then
        if t +. tol <. b 2 then 20
        else if soil_present s 2 i j then finish 21 (bs 3)
        else finish 22 (b 3)
      else if absent3 then
        if t +. tol <. b 0 then 10
        else if soil_present s 0 i j then finish 13 (bs 1)
        else finish 14 (b 1)
      else
        let '(body_bot, ind_bot, ind_top) :=
          if b 0 <. b 2 then (b 0, 0, 2) else (b 2, 2, 0) in
        if t +. tol <. body_bot then 30
        else if soil_present s ind_bot i j then
          if bs (ind_bot + 1) +. tol >. b ind_top then
            if soil_present s ind_top i j
            then finish (30 + (ind_bot + 1)) (bs (ind_top + 1))
            else finish (30 + (ind_bot + 2)) (b (ind_top + 1))
          else finish (30 + (ind_top + 1)) (bs (ind_bot + 1))
        else finish (30 + (ind_top + 2)) (b (ind_bot + 1))
    else 0.

  (** relax.cpp:442-575 CheckUnstableBodyCell (in range).
      [None]: column_top is read while uninitialised. *)
  Definition check_unstable_body_cell
    (s : sim) (i0 j0 ind i j : Z) (h_min : F A) : option Z :=
    let t := terrain s i j in
    let b k := body s k i j in
    let bs k := body_soil s k i j in
    let base := body s (ind + 1) i0 j0 in
    let absent1 := body_absent s 0 i j in
    let absent3 := body_absent s 2 i j in
    let finish status column_top :=
      if column_top +. tol <. h_min then status else 0 in
    if absent1 && absent3 then Some (finish 40 t)
    else if absent1 then
      Some (if base +. tol <. b 2 then finish 20 t
            else if soil_present s 2 i j then finish 21 (bs 3)
            else finish 22 (b 3))
    else if absent3 then
      Some (if base +. tol <. b 0 then finish 10 t
            else if soil_present s 0 i j then finish 13 (bs 1)
            else finish 14 (b 1))
    else
      let '(ind_n_bot, ind_n_top) := if b 0 <. b 2 then (0, 2) else (2, 0) in
      let '(status, column_top) :=
        if base +. tol <. b ind_n_top then
          if soil_present s ind_n_bot i j then
            if bs (ind_n_bot + 1) +. tol <. b ind_n_top
            then (30 + (ind_n_top + 1), Some (bs (ind_n_bot + 1)))
            else (30, None)
          else (30 + (ind_n_top + 2), Some (b (ind_n_bot + 1)))
        else (30, None) in
      let '(status, column_top) :=
        if (base +. tol >. b ind_n_top) || (status =? 30) then
          if soil_present s ind_n_top i j
          then (status + (ind_n_bot + 1), Some (bs (ind_n_top + 1)))
          else (status + (ind_n_bot + 2), Some (b (ind_n_top + 1)))
        else (status, column_top) in
      match column_top with
      | Some c => Some (finish status c)
      | None => None
      end.

  (** relax.cpp:636-672 ([k] = 2) and 712-748 ([k] = 0): the soil avalanches on
      the body soil layer [k], [o] being the other layer. *)
  Definition terrain_onto_body_soil
    (s : sim) (two : bool) (k o i j ic jc : Z) : sim :=
    let t := terrain s i j in
    let top := body_soil s (k + 1) ic jc in
    let h_new := level t top in
    let h_soil := t -. h_new in
    let h_new_c := top +. h_soil in
    let '(h_new, h_new_c, h_soil) :=
      if two && (body s (k + 1) ic jc <. body s o ic jc)
             && (h_new_c -. tol >. body s o ic jc)
      then let h_soil := body s o ic jc -. top in
           (t -. h_soil, body s o ic jc, h_soil)
      else (h_new, h_new_c, h_soil) in
    let s := set_t s i j h_new in
    let s := set_bs s (k + 1) ic jc h_new_c in
    push_record s (mkRec k ic jc (frame ic jc (body s (k + 1) ic jc)) h_soil).

  (** relax.cpp:673-711 ([k] = 2) and 749-788 ([k] = 0): the soil avalanches on
      the body layer [k], on which no soil is present. *)
  Definition terrain_onto_body
    (s : sim) (two : bool) (k o i j ic jc : Z) : sim :=
    let t := terrain s i j in
    let top := body s (k + 1) ic jc in
    let h_new := level t top in
    let h_new_c := t +. top -. h_new in
    let '(h_new, h_new_c) :=
      if two && (top <. body s o ic jc) && (h_new_c -. tol >. body s o ic jc)
      then (t -. body s o ic jc +. top, body s o ic jc)
      else (h_new, h_new_c) in
    let s := set_t s i j h_new in
    let s := set_bs s k ic jc top in
    let s := set_bs s (k + 1) ic jc h_new_c in
    push_record s (mkRec k ic jc (frame ic jc top) (h_new_c -. top)).

  (** relax.cpp:587-789 RelaxUnstableTerrainCell (in range); [status / 10] and
      [status mod 10] are the two characters of [st]. *)
  Definition relax_unstable_terrain_cell
    (s : sim) (status i j ic jc : Z) : outcome sim :=
    let d0 := status / 10 in
    let d1 := status mod 10 in
    if d1 =? 0 then
      let t := terrain s i j in
      let tc := terrain s ic jc in
      let h_new := level t tc in
      let h_new_c := t +. tc -. h_new in
      if d0 =? 4 then Ok (set_t (set_t s i j h_new) ic jc h_new_c)
      else
        body_bot <-
          (if d0 =? 1 then Ok (body s 0 ic jc)
           else if d0 =? 2 then Ok (body s 2 ic jc)
           else if d0 =? 3 then Ok (fmin (body s 0 ic jc) (body s 2 ic jc))
           else UB Unset) ;;
        if h_new_c <. body_bot
        then Ok (set_t (set_t s i j h_new) ic jc h_new_c)
        else Ok (set_t (set_t s i j (t +. tc -. body_bot)) ic jc body_bot)
    else if d1 =? 1 then Ok (terrain_onto_body_soil s (d0 =? 3) 2 0 i j ic jc)
    else if d1 =? 2 then Ok (terrain_onto_body s (d0 =? 3) 2 0 i j ic jc)
    else if d1 =? 3 then Ok (terrain_onto_body_soil s (d0 =? 3) 0 2 i j ic jc)
    else if d1 =? 4 then Ok (terrain_onto_body s (d0 =? 3) 0 2 i j ic jc)
    else Ok s.

  (** relax.cpp:102-125: one direction of one unstable cell. *)
  Definition relax_terrain_dir (i j : Z) (d : Z * Z) (s : sim) : outcome sim :=
    let ic := i + fst d in
    let jc := j + snd d in
    guard (inb s i j && inb s ic jc)
    (let h_min := terrain s i j -. dh_max in
     let status := check_unstable_terrain_cell s ic jc h_min in
     if status =? 0 then Ok s
     else relax_unstable_terrain_cell (set_equilibrium s false) status i j ic jc).

  (** Bounding box of the unstable cells, relax.cpp:76-79 and 87-90. *)
  Definition grow_box (a : area) (i j : Z) : area :=
    mkArea (Z.min (x_lo a) i) (Z.max (x_hi a) i)
           (Z.min (y_lo a) j) (Z.max (y_hi a) j).

  (** relax.cpp:82-126: one unstable cell. *)
  Definition relax_terrain_cell
    (c : Z * Z) (st : sim * area * list (Z * Z))
    : outcome (sim * area * list (Z * Z)) :=
    let '(s, box, dirs) := st in
    let '(i, j) := c in
    let box := grow_box box i j in
    let '(dirs, r) := shuffle dirs (rng s) in
    s' <- for_each dirs (relax_terrain_dir i j) (set_rng s r) ;;
    Ok (s', box, dirs).

  (** relax.cpp:42-137 RelaxTerrain; [dh_max] is computed by lines 48-52. *)
  Definition relax_terrain (s : sim) : outcome sim :=
    let s := set_equilibrium s true in
    cells <- locate_unstable_terrain_cell s ;;
    match cells with
    | [] => Ok s
    | _ =>
        let '(cells, r) := shuffle cells (rng s) in
        let s := set_rng s r in
        let box := mkArea (2 * half_x g) 0 (2 * half_y g) 0 in
        '(s, box, _) <- for_each cells relax_terrain_cell (s, box, directions4) ;;
        xl <- chk_int (x_lo box - cell_buffer) ;;
        xh <- chk_int (x_hi box + cell_buffer) ;;
        yl <- chk_int (y_lo box - cell_buffer) ;;
        yh <- chk_int (y_hi box + cell_buffer) ;;
        Ok (set_relax_area s
              (mkArea (Z.max xl 2) (Z.min xh (2 * half_x g))
                      (Z.max yl 2) (Z.min yh (2 * half_y g))))
    end.

  (** The idiom repeated in relax.cpp:848-859, 878-887, ...: take [h_soil] out of
      the column of record [nn], or empty it when nothing would be left. *)
  Definition take_soil
    (s : sim) (nn : nat) (e : rec_t A) (ind i j : Z) (h_new h_soil : F A) : sim :=
    if h_new -. tol >. body_soil s ind i j then
      set_record_h (set_bs s (ind + 1) i j h_new) nn e (e_h e -. h_soil)
    else
      set_record_h (set_bs (set_bs s ind i j f0) (ind + 1) i j f0) nn e f0.

  (** relax.cpp:810-859: the soil avalanches on the terrain. *)
  Definition body_onto_terrain
    (s : sim) (d0 : Z) (nn : nat) (e : rec_t A) (ind i j ic jc : Z) : sim :=
    let top := body_soil s (ind + 1) i j in
    let tc := terrain s ic jc in
    let h_soil := top -. level top tc in
    let h_soil := if h_soil >. e_h e then e_h e else h_soil in
    let h_new_c := tc +. h_soil in
    let limit k :=
      if h_new_c -. tol >. body s k ic jc
      then (body s k ic jc -. tc, body s k ic jc)
      else (h_soil, h_new_c) in
    let '(h_soil, h_new_c) :=
      if d0 =? 1 then limit 0
      else if d0 =? 2 then limit 2
      else (h_soil, h_new_c) in
    let h_new := top -. h_soil in
    if h_new -. tol >. body_soil s ind i j then
      set_record_h (set_bs (set_t s ic jc h_new_c) (ind + 1) i j h_new)
        nn e (e_h e -. h_soil)
    else
      set_record_h
        (set_bs (set_bs (set_t s ic jc (tc +. h_soil)) ind i j f0)
                (ind + 1) i j f0)
        nn e f0.

  (** The first lines of every branch of relax.cpp:860-1289: new height of the
      source column and amount of soil moved, limited by record [nn]. *)
  Definition moved (s : sim) (e : rec_t A) (ind i j : Z) (onto : F A)
    : F A * F A :=
    let top := body_soil s (ind + 1) i j in
    let h_new := level top onto in
    let h_soil := top -. h_new in
    if h_soil >. e_h e then (top -. e_h e, e_h e) else (h_new, h_soil).

  (** relax.cpp:860-1009: only body layer [k] is present ([k] = 0: lines 860-934,
      [k] = 2: lines 935-1009); [soil] tells whether soil is on it. *)
  Definition body_onto_single
    (s : sim) (soil : bool) (k : Z) (nn : nat) (e : rec_t A) (ind i j ic jc : Z)
    : sim * rec_t A :=
    let btop := body s (k + 1) ic jc in
    if soil then
      let '(h_new, h_soil) := moved s e ind i j (body_soil s (k + 1) ic jc) in
      let s := take_soil s nn e ind i j h_new h_soil in
      let s := set_bs s (k + 1) ic jc (body_soil s (k + 1) ic jc +. h_soil) in
      (s, mkRec k ic jc (frame ic jc btop) h_soil)
    else
      let '(h_new, h_soil) := moved s e ind i j btop in
      let s := set_bs s k ic jc btop in
      let s := take_soil s nn e ind i j h_new h_soil in
      let s := set_bs s (k + 1) ic jc (btop +. h_soil) in
      (s, mkRec k ic jc (frame ic jc btop) h_soil).

  (** relax.cpp:1029 and 1099 ([k] = 2), 1165 and 1234 ([k] = 0): is layer [k] the
      bottom one? *)
  Definition is_bottom (s : sim) (k ic jc : Z) : bool :=
    if k =? 2 then body s 0 ic jc >. body s 2 ic jc
    else negb (body s 0 ic jc >. body s 2 ic jc).

  (** relax.cpp:1012-1079 ([k] = 2, [o] = 0) and 1148-1215 ([k] = 0, [o] = 2):
      two body layers, onto the soil resting on layer [k]. *)
  Definition body_onto_two_soil
    (s : sim) (k o : Z) (nn : nat) (e : rec_t A) (ind i j ic jc : Z)
    : sim * list (rec_t A) :=
    let ctop := body_soil s (k + 1) ic jc in
    let '(h_new, h_soil) := moved s e ind i j ctop in
    let h_new_c := ctop +. h_soil in
    let partial := h_new -. tol >. body_soil s ind i j in
    let '(s, h_soil) :=
      if is_bottom s k ic jc && partial && (h_new_c -. tol >. body s o ic jc) then
        let h_soil := body s o ic jc -. ctop in
        (set_record_h
           (set_bs (set_bs s (ind + 1) i j (body_soil s (ind + 1) i j -. h_soil))
                   (k + 1) ic jc (body s o ic jc))
           nn e (e_h e -. h_soil), h_soil)
      else
        (take_soil (set_bs s (k + 1) ic jc h_new_c) nn e ind i j h_new h_soil,
         h_soil) in
    (s, if h_soil >. tol
        then [mkRec k ic jc (frame ic jc (body s (k + 1) ic jc)) h_soil]
        else []).

  (** relax.cpp:1080-1147 ([k] = 2, [o] = 0) and 1216-1288 ([k] = 0, [o] = 2):
      two body layers, onto the bare layer [k].  Lines 1269-1272 recompute the new
      height for [k] = 0 only. *)
  Definition body_onto_two_body
    (s : sim) (k o : Z) (nn : nat) (e : rec_t A) (ind i j ic jc : Z)
    : sim * rec_t A :=
    let ctop := body s (k + 1) ic jc in
    let '(h_new, h_soil) := moved s e ind i j ctop in
    let h_new_c := ctop +. h_soil in
    let partial := h_new -. tol >. body_soil s ind i j in
    let s := set_bs s k ic jc ctop in
    let '(s, h_soil) :=
      if is_bottom s k ic jc then
        if partial then
          if h_new_c -. tol >. body s o ic jc then
            let h_soil := body s o ic jc -. ctop in
            (set_record_h
               (set_bs
                  (set_bs s (ind + 1) i j (body_soil s (ind + 1) i j -. h_soil))
                  (k + 1) ic jc (body s o ic jc))
               nn e (e_h e -. h_soil), h_soil)
          else
            (take_soil (set_bs s (k + 1) ic jc h_new_c) nn e ind i j h_new h_soil,
             h_soil)
        else
          let h_new_c :=
            if k =? 0
            then ctop +. body_soil s (ind + 1) i j -. body_soil s ind i j
            else h_new_c in
          (take_soil (set_bs s (k + 1) ic jc h_new_c) nn e ind i j h_new h_soil,
           h_soil)
      else
        (take_soil (set_bs s (k + 1) ic jc h_new_c) nn e ind i j h_new h_soil,
         h_soil) in
    (s, mkRec k ic jc (frame ic jc ctop) h_soil).

  (** relax.cpp:800-1290 RelaxUnstableBodyCell (in range).  The list is
      [*body_soil_pos], to which new records are appended. *)
  Definition relax_unstable_body_cell
    (s : sim) (status : Z) (pend : list (rec_t A)) (nn : nat) (e : rec_t A)
    (i j ind ic jc : Z) : sim * list (rec_t A) :=
    let d0 := status / 10 in
    let d1 := status mod 10 in
    let one (p : sim * rec_t A) := (fst p, pend ++ [snd p]) in
    let many (p : sim * list (rec_t A)) := (fst p, pend ++ snd p) in
    if d1 =? 0 then (body_onto_terrain s d0 nn e ind i j ic jc, pend)
    else if d0 =? 1 then
      if d1 =? 3 then one (body_onto_single s true 0 nn e ind i j ic jc)
      else if d1 =? 4 then one (body_onto_single s false 0 nn e ind i j ic jc)
      else (s, pend)
    else if d0 =? 2 then
      if d1 =? 1 then one (body_onto_single s true 2 nn e ind i j ic jc)
      else if d1 =? 2 then one (body_onto_single s false 2 nn e ind i j ic jc)
      else (s, pend)
    else if d0 =? 3 then
      if d1 =? 1 then many (body_onto_two_soil s 2 0 nn e ind i j ic jc)
      else if d1 =? 2 then one (body_onto_two_body s 2 0 nn e ind i j ic jc)
      else if d1 =? 3 then many (body_onto_two_soil s 0 2 nn e ind i j ic jc)
      else if d1 =? 4 then one (body_onto_two_body s 0 2 nn e ind i j ic jc)
      else (s, pend)
    else (s, pend).

  (** [body_soil_[ind]] and [body_soil_[ind+1]] exist. *)
  Definition layer_ok (ind : Z) : bool := (0 <=? ind) && (ind <? 3).

  (** relax.cpp:197-221: one direction of one record. *)
  Definition relax_body_dir
    (nn : nat) (i j ind : Z) (d : Z * Z) (st : sim * list (rec_t A))
    : outcome (sim * list (rec_t A)) :=
    let '(s, pend) := st in
    let ic := i + fst d in
    let jc := j + snd d in
    guard (layer_ok ind && inb s i j && inb s ic jc)
    (let h_min := body_soil s (ind + 1) i j -. dh_max in
     match check_unstable_body_cell s i j ind ic jc h_min, nth_error (records s) nn
     with
     | Some status, Some e =>
         if status =? 0 then Ok (s, pend)
         else Ok (relax_unstable_body_cell (set_equilibrium s false) status pend
                    nn e i j ind ic jc)
     | None, _ => UB Unset
     | _, None => UB OutOfRange
     end).

  (** relax.cpp:175-222: one record. *)
  Definition relax_body_record
    (nn : nat) (st : sim * list (rec_t A) * list (Z * Z))
    : outcome (sim * list (rec_t A) * list (Z * Z)) :=
    let '(s, pend, dirs) := st in
    match nth_error (records s) nn with
    | None => UB OutOfRange
    | Some e =>
        if e_h e <. tol then Ok (s, pend, dirs)
        else
          let '(dirs, r) := shuffle dirs (rng s) in
          '(s, pend) <- for_each dirs (relax_body_dir nn (e_i e) (e_j e) (e_ind e))
                          (set_rng s r, pend) ;;
          Ok (s, pend, dirs)
    end.

  (** relax.cpp:157-229 RelaxBodySoil.  body_soil_pos_ keeps its length during
      the loop. *)
  Definition relax_body_soil (s : sim) : outcome sim :=
    '(s, pend, _) <- for_each (seq 0 (length (records s))) relax_body_record
                       (s, [], directions4) ;;
    Ok (set_records s (records s ++ pend)).
End Relax.
