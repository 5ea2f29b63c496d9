(** Body position, the part that works on cells: body_pos.cpp. The computation of
    the cells covered by each wall is in the geometry files. *)
From Coq Require Import ZArith List Bool.
From Verif Require Import Outcome Num State.
Import ListNotations.
Open Scope Z_scope.
Open Scope num_scope.

(** A cell [(ii, jj, kk)] of [area_pos]. *)
Definition cell3 : Type := (Z * Z * Z)%type.

(** Order of [std::vector<int>] used by [sort]. *)
Definition cell3_leb (a b : cell3) : bool :=
  let '(ai, aj, ak) := a in
  let '(bi, bj, bk) := b in
  if ai =? bi then if aj =? bj then ak <=? bk else aj <? bj else ai <? bi.

Fixpoint insert3 (x : cell3) (l : list cell3) : list cell3 :=
  match l with
  | [] => [x]
  | y :: l' => if cell3_leb x y then x :: l else y :: insert3 x l'
  end.

(** body_pos.cpp:110-113: [sort(v.begin(), v.end())]. *)
Fixpoint sort3 (l : list cell3) : list cell3 :=
  match l with
  | [] => []
  | x :: l' => insert3 x (sort3 l')
  end.

Section BodyPos.
  Context {A : Num}.
  Variable g : grid_t A.
  Variable tol : F A.

  Notation sim := (sim A).

  (** body_pos.cpp:31-37, 137-143: reset of the former body. *)
  Definition clear_body (s : sim) : outcome sim :=
    for_each (area_cells (body_area s))
      (fun c s =>
         let '(i, j) := c in
         guard (inb s i j)
         (Ok (set_b (set_b (set_b (set_b s 0 i j f0) 1 i j f0) 2 i j f0)
                    3 i j f0))) s.

  (** body_pos.cpp:891-918: status of layer [k]; [None] is the early return. *)
  Definition layer_status (s : sim) (k i j : Z) (min_h max_h : F A) : option Z :=
    let lo := body s k i j in
    let hi := body s (k + 1) i j in
    if body_absent s k i j then Some 0
    else if (min_h -. tol <. lo) && (max_h +. tol >. lo) then Some 1
    else if (min_h -. tol <. hi) && (max_h +. tol >. hi) then Some 1
    else if (min_h +. tol >. lo) && (max_h -. tol <. hi) then None
    else Some (-1).

  (** body_pos.cpp:886-977 IncludeNewBodyPos. *)
  Definition include_new_body_pos
    (s : sim) (i j : Z) (min_h max_h : F A) : outcome sim :=
    guard (inb s i j)
    (let b k := body s k i j in
     match layer_status s 0 i j min_h max_h with
     | None => Ok s
     | Some st0 =>
         match layer_status s 2 i j min_h max_h with
         | None => Ok s
         | Some st1 =>
             Ok
             (if (st0 =? 1) && (st1 =? 1) then
                set_b (set_b (set_b (set_b s
                  0 i j (fmin (fmin (b 0) (b 2)) min_h))
                  1 i j (fmax (fmax (b 1) (b 3)) max_h))
                  2 i j f0) 3 i j f0
              else if st0 =? 1 then
                set_b (set_b s 0 i j (fmin (b 0) min_h))
                      1 i j (fmax (b 1) max_h)
              else if st1 =? 1 then
                set_b (set_b s 2 i j (fmin (b 2) min_h))
                      3 i j (fmax (b 3) max_h)
              else if st0 =? 0 then set_b (set_b s 0 i j min_h) 1 i j max_h
              else if st1 =? 0 then set_b (set_b s 2 i j min_h) 3 i j max_h
              else
                let dist_0b := fabs (b 0 -. max_h) in
                let dist_0t := fabs (min_h -. b 1) in
                let dist_2b := fabs (b 2 -. max_h) in
                let dist_2t := fabs (min_h -. b 3) in
                if fmin dist_0b dist_0t <. fmin dist_2b dist_2t then
                  if dist_0b <. dist_0t then set_b s 0 i j min_h
                  else set_b s 1 i j max_h
                else
                  if dist_2b <. dist_2t then set_b s 2 i j min_h
                  else set_b s 3 i j max_h)
         end
     end).

  (** [grid.vect_z_[k]] is in range. *)
  Definition z_ok (k : Z) : bool := (0 <=? k) && (k <? 2 * half_z g + 1).

  (** body_pos.cpp:854-855, 868-869: bottom and top of cell [k]. *)
  Definition z_bot (k : Z) : F A := d_sub_f (vect_z g k) (cell_z g).
  Definition z_top (k : Z) : F A := d_to_f (vect_z g k).

  (** body_pos.cpp:858-878: loop of UpdateBody. *)
  Fixpoint update_body_loop
    (l : list cell3) (s : sim) (i j : Z) (min_h max_h : F A) : outcome sim :=
    match l with
    | [] => include_new_body_pos s i j min_h max_h
    | (i', j', k) :: l' =>
        if negb (i =? i') || negb (j =? j') then
          s <- include_new_body_pos s i j min_h max_h ;;
          guard (z_ok k) (update_body_loop l' s i' j' (z_bot k) (z_top k))
        else guard (z_ok k) (update_body_loop l' s i j min_h (z_top k))
    end.

  (** body_pos.cpp:847-879 UpdateBody. *)
  Definition update_body (l : list cell3) (s : sim) : outcome sim :=
    match l with
    | [] => UB OutOfRange
    | (i, j, k) :: _ =>
        guard (z_ok k) (update_body_loop l s i j (z_bot k) (z_top k))
    end.

  (** body_pos.cpp:22-120 and 128-268 CalcBodyPos, given the new [body_area_]
      and the cells of the four walls. *)
  Definition calc_body_pos (a : area) (walls : list (list cell3)) (s : sim)
    : outcome sim :=
    s <- clear_body s ;;
    for_each walls (fun w s => update_body (sort3 w) s) (set_body_area s a).
End BodyPos.
