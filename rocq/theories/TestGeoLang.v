(** Vocabulary of the translated unit tests on constructors, quaternions, rasterisation
    and carried soil: TestTypes.v, TestGeometry.v, TestRaster.v and TestBodySoil.v, which
    tools/translate_geometry.py produces. Binary32. *)
From Coq Require Import ZArith List Bool.
From Coq Require Import Floats.SpecFloat.
From Verif Require Import Outcome Num State Flt FltB ModelTypes ModelGeometry ModelBodyPos
  ModelBodySoil ModelUtils ModelRaster ModelProgram TestLang TestBinary32.
Import ListNotations.
Open Scope Z_scope.

(** ** Constructors *)

Definition throws {T} (b : built T) : bool :=
  match b with Throws _ => true | _ => false end.
Definition builds {T} (b : built T) : bool :=
  match b with Built _ => true | _ => false end.
Definition with_built {T} (b : built T) (f : T -> bool) : bool :=
  match b with Built x => f x | _ => false end.
Definition test_pi : df FltB := dlit 3141592653589793 15.

(** v[ii] is within 1e-5 of first + (ii + from) * step. *)
Fixpoint levels_near_d (from : Z) (first step : df FltB) (v : list (df FltB)) : bool :=
  match v with
  | [] => true
  | x :: v' =>
      b_leb (SFabs (dsub (f := FltB) x
                      (dadd (f := FltB) first
                         (dmul (f := FltB) (d_of_Z (f := FltB) from) step))))
        (dlit 1 5)
      && levels_near_d (from + 1) first step v'
  end.
Definition levels_near (from : Z) (first step : df FltB) (v : list (sf FltB)) : bool :=
  levels_near_d from first step (map (wid (f := FltB)) v).

(** ** Vectors and quaternions *)

Definition vec_eqb (a b : vec (sf FltB)) : bool :=
  b_eqb (vx a) (vx b) && b_eqb (vy a) (vy b) && b_eqb (vz a) (vz b).
(** std::sqrt(1.0 / 3.0). *)
Definition third_root : sf FltB :=
  nar (f := FltB) (dsqrt (f := FltB) (ddiv (f := FltB) (dlit 1 0) (dlit 3 0))).

(** The bucket of test_utils.cpp. *)
Definition utils_bucket : gbody FltB :=
  match new_body (K := FltB) [slit 0 1; slit 0 1; slit 0 1] [slit 0 1; slit 0 1; slit 0 1]
          [slit 0 1; slit 0 1; slit (-5) 1] [slit 7 1; slit 0 1; slit (-5) 1] (slit 5 1) with
  | Built b => b
  | _ => test_bucket
  end.

(** Partial sums of the series of sine and cosine in double, for the angles of the
    tests. *)
Fixpoint series (n : nat) (k : Z) (x2 term sum : df FltB) : df FltB :=
  match n with
  | O => sum
  | S n' =>
      let term := SFopp (ddiv (f := FltB) (dmul (f := FltB) term x2)
                           (d_of_Z (f := FltB) ((k + 1) * (k + 2)))) in
      series n' (k + 2) x2 term (dadd (f := FltB) sum term)
  end.
Definition taylor_sin (x : df FltB) : df FltB :=
  series 25 1 (dmul (f := FltB) x x) x x.
Definition taylor_cos (x : df FltB) : df FltB :=
  series 25 0 (dmul (f := FltB) x x) (dlit 1 0) (dlit 1 0).

(** ** Rasterisation *)

Definition cell3_eqb (a b : cell3) : bool :=
  let '(i, j, k) := a in
  let '(i', j', k') := b in
  (i =? i') && (j =? j') && (k =? k').
Fixpoint list_eqb {T U} (eqb : T -> U -> bool) (a : list T) (b : list U) : bool :=
  match a, b with
  | [], [] => true
  | x :: a', y :: b' => if eqb x y then list_eqb eqb a' b' else false
  | _, _ => false
  end.
(** std::unique *)
Fixpoint unique (l : list cell3) : list cell3 :=
  match l with
  | x :: (y :: _) as l' => if cell3_eqb x y then unique l' else x :: unique l'
  | _ => l
  end.
(** The cells, sorted and without repetitions, are the expected ones. *)
Definition same_cells (o : outcome (list cell3)) (exp : list cell3) : bool :=
  match o with
  | Ok l => list_eqb cell3_eqb (unique (sort3 l)) exp
  | _ => false
  end.

Definition decomposition : Type :=
  (list (list (sf FltB * sf FltB)) * list (list bool) * Z)%type.
Definition count_is (d : decomposition) (n : Z) : bool := snd d =? n.
Definition inside_is (d : decomposition) (exp : list (list bool)) : bool :=
  list_eqb (list_eqb Bool.eqb) (snd (fst d)) exp.
Definition inside_none (d : decomposition) : bool :=
  forallb (forallb negb) (snd (fst d)).
(** The coefficients are within 1e-5 of the expected ones divided by [p] and [q]. *)
Definition coeffs_near (d : decomposition) (p q : df FltB) (e1 e2 : list (list (df FltB)))
  : bool :=
  list_eqb (list_eqb (fun (c : sf FltB * sf FltB) (e : df FltB * df FltB) =>
      expect_near (dlit 1 5) (fst c) (ddiv (f := FltB) (fst e) p)
      && expect_near (dlit 1 5) (snd c) (ddiv (f := FltB) (snd e) q)))
    (fst (fst d)) (map (fun r => combine (fst r) (snd r)) (combine e1 e2)).

(** CalcBodyPos of a new body and a new SimOut. *)
Definition placed_body (k : body_kind) (o j b t : list (sf FltB)) (w : sf FltB)
  (pos : vec (sf FltB)) (ori : quat (sf FltB)) : outcome (sim (NumOf FltB)) :=
  match new_body o j b t w with
  | Built body =>
      '(a, walls) <- praster k test_grid body (slit 1 5) 4 100 (pos, ori) ;;
      calc_body_pos (A := NumOf FltB) (soil_grid test_grid) (slit 1 5) a walls
        (new_sim (soil_grid test_grid) (fun _ _ => O) [])
  | _ => UB Unset
  end.

(** [body_area_] and the layers of [body_] as lists. *)
Definition heights (o : outcome (sim (NumOf FltB)))
  : option (area * list (list (list (sf FltB)))) :=
  match o with
  | Ok s =>
      Some (body_area s,
            map (fun k => map (fun i => map (fun j => body s k i j) (zrange 0 21))
                            (zrange 0 21)) (zrange 0 4))
  | _ => None
  end.
Definition placed_out := option (area * list (list (list (sf FltB)))).
Definition height (o : placed_out) (k i j : Z) : sf FltB :=
  match o with
  | Some (_, l) => nth (Z.to_nat j) (nth (Z.to_nat i) (nth (Z.to_nat k) l []) []) S754_nan
  | None => S754_nan
  end.
Definition height_near (o : placed_out) (k i j : Z) (v : df FltB) : bool :=
  expect_near (dlit 1 5) (height o k i j) v.
Definition area_is (o : placed_out) (a : area) : bool :=
  match o with
  | Some (b, _) => (x_lo a =? x_lo b) && (x_hi a =? x_hi b) &&
                   (y_lo a =? y_lo b) && (y_hi a =? y_hi b)
  | None => false
  end.
(** ResetValueAndTest: outside the listed cells everything is zero. *)
Definition only_there (o : placed_out) (l : list cell3) : bool :=
  forallb (fun k => forallb (fun i => forallb (fun j =>
      if existsb (fun c => cell3_eqb c (k, i, j) || cell3_eqb c (k - 1, i, j)) l then true
      else height_near o k i j (dlit 0 0)) (zrange 0 21)) (zrange 0 21)) (zrange 0 4).

(** ** Carried soil *)

(** The commands of test_body_soil.cpp; heights are floats. *)
Definition num : Type := sf FltB.
Inductive bcmd : Type :=
| BSet (i j : Z) (t b0 b1 s0 s1 b2 b3 s2 s3 : option num)
| BPush (ind i j : Z) (p : vec num) (h : num)
| BRecI (i : Z)                        (* body_soil_pos_[0].ii = i *)
| BRecJ (j : Z)
| BUpdate (pos : vec num) (ori : quat num)
| BExp (i j : Z) (t s0 s1 s2 s3 : option num)
| BRec (n : nat) (ind i j : Z) (p : vec num) (h : num)
| BRecs (n : nat)
| BWarned
| BPose
| BReset (tl : list (Z * Z)) (bl sl : list cell3).

Definition b_near (a b : num) : bool :=
  if b_eqb a b then true else expect_near (dlit 1 5) a (wid (f := FltB) b).
Definition b_near_opt (a : num) (o : option num) : bool :=
  match o with Some v => b_near a v | None => true end.
Definition rest_pose : ppose (K := FltB) :=
  (mkVec (slit 0 0) (slit 0 0) (slit 0 0),
   mkQuat (slit 1 0) (slit 0 0) (slit 0 0) (slit 0 0)).
Definition b_set_opt (o : option num) (f : sim (NumOf FltB) -> num -> sim (NumOf FltB))
  (s : sim (NumOf FltB)) : sim (NumOf FltB) :=
  match o with Some v => f s v | None => s end.
Definition set_first (s : sim (NumOf FltB)) (f : rec_t (NumOf FltB) -> rec_t (NumOf FltB))
  : sim (NumOf FltB) :=
  match records s with
  | e :: l => set_records s (f e :: l)
  | [] => s
  end.

Definition bs_exec (c : bcmd) (x : sim (NumOf FltB) * ppose (K := FltB))
  : option (sim (NumOf FltB) * ppose (K := FltB)) :=
  let '(s, p) := x in
  let expect (b : bool) := if b then Some x else None in
  match c with
  | BSet i j t0 b0 b1 s0 s1 b2 b3 s2 s3 =>
      Some
        (b_set_opt s3 (fun s => set_bs s 3 i j)
        (b_set_opt s2 (fun s => set_bs s 2 i j)
        (b_set_opt s1 (fun s => set_bs s 1 i j)
        (b_set_opt s0 (fun s => set_bs s 0 i j)
        (b_set_opt b3 (fun s => set_b s 3 i j)
        (b_set_opt b2 (fun s => set_b s 2 i j)
        (b_set_opt b1 (fun s => set_b s 1 i j)
        (b_set_opt b0 (fun s => set_b s 0 i j)
        (b_set_opt t0 (fun s => set_t s i j) s)))))))), p)
  | BPush ind i j v h => Some (push_record s (mkRec (A := NumOf FltB) ind i j v h), p)
  | BRecI i =>
      Some (set_first s (fun e => mkRec (A := NumOf FltB) (e_ind e) i (e_j e) (e_pos e) (e_h e)), p)
  | BRecJ j =>
      Some (set_first s (fun e => mkRec (A := NumOf FltB) (e_ind e) (e_i e) j (e_pos e) (e_h e)), p)
  | BUpdate pos ori =>
      match update_body_soil (A := NumOf FltB) (soil_grid test_grid) (slit 1 5)
              (preloc test_grid utils_bucket p (pos, ori)) s with
      | Ok s' => Some (s', (pos, ori))
      | _ => None
      end
  | BExp i j t0 s0 s1 s2 s3 =>
      expect (b_near_opt (terrain s i j) t0 && b_near_opt (body_soil s 0 i j) s0 &&
              b_near_opt (body_soil s 1 i j) s1 && b_near_opt (body_soil s 2 i j) s2 &&
              b_near_opt (body_soil s 3 i j) s3)
  | BRec n ind i j v h =>
      match nth_error (records s) n with
      | Some e =>
          expect ((e_ind e =? ind) && (e_i e =? i) && (e_j e =? j) &&
                  b_near (vx (e_pos e)) (vx v) && b_near (vy (e_pos e)) (vy v) &&
                  b_near (vz (e_pos e)) (vz v) && b_near (e_h e) h)
      | None => None
      end
  | BRecs n => expect (Nat.eqb (length (records s)) n)
  | BWarned => expect (negb (Nat.eqb (length (wlog s)) 0))
  | BPose => Some (s, rest_pose)
  | BReset tl bl sl =>
      let s := fold_left (fun (s : sim (NumOf FltB)) c => set_t s (fst c) (snd c) (slit 0 0)) tl s in
      let s := fold_left (fun (s : sim (NumOf FltB)) c => let '(k, i, j) := c in
                 set_b (set_b s k i j (slit 0 0)) (k + 1) i j (slit 0 0)) bl s in
      let s := fold_left (fun (s : sim (NumOf FltB)) c => let '(k, i, j) := c in
                 set_bs (set_bs s k i j (slit 0 0)) (k + 1) i j (slit 0 0)) sl s in
      if forallb (fun c =>
           let '(i, j) := c in
           if b_near (terrain s i j) (slit 0 0) then
             forallb (fun k => if b_near (body s k i j) (slit 0 0)
                               then b_near (body_soil s k i j) (slit 0 0) else false)
               [0; 1; 2; 3]
           else false) (all_cells s)
      then Some (new_sim (soil_grid test_grid) (rng s) [], p)
      else None
  end.

(** [None] when all commands succeed, otherwise the number of the first that fails. *)
Fixpoint bs_run_from (n : nat) (l : list bcmd) (x : sim (NumOf FltB) * ppose (K := FltB))
  : option nat :=
  match l with
  | [] => None
  | c :: l' =>
      match bs_exec c x with
      | Some x' => bs_run_from (S n) l' x'
      | None => Some n
      end
  end.
Definition bs_run (l : list bcmd) : option nat :=
  bs_run_from 0 l (new_sim (soil_grid test_grid) (fun _ _ => O) [], rest_pose).
