(** Moving the soil resting on the body with the body: body_soil.cpp. *)
From Coq Require Import ZArith List Bool.
From Verif Require Import Outcome Num State ModelRelax.
Import ListNotations.
Open Scope Z_scope.
Open Scope num_scope.

(** What body_soil.cpp:77-113 computes from the two poses and the body-frame
    position stored in a record: the signs [sx], [sy] (true for +1), whether X is
    the main direction, the target cell, and the new height of the soil base. *)
Record reloc (A : Num) : Type := mkReloc {
  r_sx : bool;
  r_sy : bool;
  r_xmain : bool;
  r_i : Z;            (* ii_n *)
  r_j : Z;            (* jj_n *)
  r_z : Hgt A         (* new_cell_pos[2] *)
}.
Arguments mkReloc {A} _ _ _ _ _ _.
Arguments r_sx {A} _.
Arguments r_sy {A} _.
Arguments r_xmain {A} _.
Arguments r_i {A} _.
Arguments r_j {A} _.
Arguments r_z {A} _.

Section BodySoil.
  Context {A : Num}.
  Variable g : grid_t A.
  Variable tol : F A.
  (** body_soil.cpp:77-113 for the given old and new pose; it may be undefined
      (conversion of a float to int). *)
  Variable relocate : Pos A -> outcome (reloc A).

  Notation sim := (sim A).
  Notation cz := (cell_z g).

  (** body_soil.cpp:95-107: order of exploration. *)
  Definition exploration (r : reloc A) : list (Z * Z) :=
    let sx := if r_sx r then 1 else -1 in
    let sy := if r_sy r then 1 else -1 in
    if r_xmain r then
      [(0, 0); (sx, 0); (sx, sy); (0, sy); (sx, - sy);
       (0, - sy); (- sx, sy); (- sx, 0); (- sx, - sy)]
    else
      [(0, 0); (0, sy); (sx, sy); (sx, 0); (- sx, sy);
       (- sx, 0); (sx, - sy); (0, - sy); (- sx, - sy)].

  (** body_soil.cpp:115-120: closest wall so far, [None] when ii_s, jj_s and ind_s
      are not initialised; the third component is [ind_s]. *)
  Definition best_t : Type := (option (Z * Z * Z) * F A)%type.

  (** body_soil.cpp:136-161 ([k] = 0) and 162-187 ([k] = 2). *)
  Definition try_layer (s : sim) (k i j : Z) (z : Hgt A) (best : best_t)
    : bool * best_t :=
    if body_present s k i j then
      let dist := f_dist z (body s (k + 1) i j) in
      if dist <. (cz +. tol) then (true, best)
      else if dist <. snd best then (false, (Some (i, j, k + 1), dist))
      else (false, best)
    else (false, best).

  (** body_soil.cpp:123-188: the wall at which the loop breaks, or the best one. *)
  Fixpoint find_wall
    (s : sim) (r : reloc A) (dirs : list (Z * Z)) (best : best_t)
    : outcome (option (Z * Z * Z) * best_t) :=
    match dirs with
    | [] => Ok (None, best)
    | d :: dirs' =>
        let i := r_i r + fst d in
        let j := r_j r + snd d in
        guard (inb s i j)
        (let '(hit, best) := try_layer s 0 i j (r_z r) best in
         if hit then Ok (Some (i, j, 0), best)
         else
           let '(hit, best) := try_layer s 2 i j (r_z r) best in
           if hit then Ok (Some (i, j, 2), best)
           else find_wall s r dirs' best)
    end.

  (** body_soil.cpp:143-151, 169-177 and 194-202: add the soil on layer [k]. *)
  Definition drop_on (s : sim) (k i j : Z) (pos : Pos A) (h : F A)
    : sim :=
    let s1 := set_bs s (k + 1) i j
                (body_soil s (k + 1) i j +.
                 (body s (k + 1) i j -. body_soil s k i j +. h)) in
    push_record (set_bs s1 k i j (body s (k + 1) i j)) (mkRec k i j pos h).

  (** body_soil.cpp:57-212: one former record. *)
  Definition update_record (e : rec_t A) (s : sim) : outcome sim :=
    if f_below (e_h e) cz then Ok s
    else
      let h := f_snap (e_h e) cz in
      r <- relocate (e_pos e) ;;
      let far := f_of_Z (2 * half_z g) in
      '(hit, best) <- find_wall s r (exploration r) (None, far) ;;
      match hit with
      | Some (i, j, k) => Ok (drop_on s k i j (e_pos e) h)
      | None =>
          if snd best !=. far then
            match fst best with
            | Some (i, j, ind_s) => Ok (drop_on s (ind_s - 1) i j (e_pos e) h)
            | None => UB Unset
            end
          else
            guard (inb s (r_i r) (r_j r))
            (Ok (warn (set_t s (r_i r) (r_j r)
                         (terrain s (r_i r) (r_j r) +. h)) WToTerrain))
      end.

  (** body_soil.cpp:43-49: reset of the columns of one record. *)
  Definition reset_record (e : rec_t A) (s : sim) : outcome sim :=
    guard (layer_ok (e_ind e) && inb s (e_i e) (e_j e))
    (Ok (set_bs (set_bs s (e_ind e) (e_i e) (e_j e) f0)
                (e_ind e + 1) (e_i e) (e_j e) f0)).

  (** body_soil.cpp:35-217 UpdateBodySoil, without the assignment of the pose
      (lines 215-216), which ModelStep does. *)
  Definition update_body_soil (s : sim) : outcome sim :=
    let old := records s in
    s <- for_each old reset_record s ;;
    for_each old update_record (set_records s []).
End BodySoil.
