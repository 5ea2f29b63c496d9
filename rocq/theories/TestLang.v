(** A small language for the unit tests of /repo/test/unit_tests. The files
    [Tests*.v] hold the tests themselves; they are produced from the C++ text by
    tools/translate_tests.py. Running them validates the model, it proves nothing
    beyond the tested inputs. *)
From Coq Require Import ZArith List Bool.
From Verif Require Import Outcome Num State ModelRelax ModelIntersect
  ModelBodyPos ModelUtils.
Import ListNotations.
Open Scope Z_scope.

(** Lengths are in units of 1e-5 m. *)
Inductive cmd : Type :=
| SetH (i j : Z) (t b0 b1 s0 s1 b2 b3 s2 s3 : option Z)
| SetT (i j v : Z)
| SetB (k i j v : Z)
| SetBS (k i j v : Z)
| Push (ind i j x y z h : Z)
| SetRecH (n : nat) (h : Z)
| Seed (l : list Z)                       (* raw outputs of the generator *)
| SetBodyArea (a : area)
| SetRelaxArea (a : area)
| SetImpactArea (a : area)
| LocateUnstable (dh : Z)
| ExpCells (n : nat)
| ExpCell (n : nat) (i j : Z)
| CheckUT (i j h : Z)
| CheckUB (i j ind ic jc h : Z)
| ExpStatus (z : Z)
| RelaxUT (status dh i j ic jc : Z)
| RelaxUB (status dh : Z) (nn : nat) (i j ind ic jc : Z)
| RelaxT
| RelaxBS
| ExpRelaxArea (a : area)
| MoveBS (ind i j max_h in_ jn h : Z) (wall : bool)
| ExpWall (b : bool)
| ExpWalkH (h : Z)
| ExpWalkInd (k : Z)
| ExpWalkI (i : Z)
| ExpWalkJ (j : Z)
| MoveIBS
| MoveIB
| LocateI
| ExpI (n : nat) (k i j : Z)
| Include (i j lo hi : Z)
| UpdateB (l : list cell3)
| Volume (init : Z) (b : bool)
| Soil (b : bool)
| ExpH (i j : Z) (t s0 s1 s2 s3 : option Z)
| ExpT (i j v : Z)
| ExpB (k i j v : Z)
| ExpBS (k i j v : Z)
| ExpRec (n : nat) (ind i j x y z h : Z)
| ExpRecH (n : nat) (h : Z)
| ExpRecs (n : nat)
| ExpPends (n : nat)
| ExpPend (n : nat) (ind i j x y z h : Z)
| ClearPend
| ExpLog (n : nat)
| Reset (tl : list (Z * Z)) (bl sl : list (Z * Z * Z)).

Section Run.
  Context {A : Num}.
  Variable lit : Z -> F A.                    (* 1e-5 m *)
  Variable vz : Z -> D A.                     (* vect_z_ *)
  (** CalcBodyFramePos for the pose of the tests (origin, no rotation). *)
  Variable frame : Z -> Z -> F A -> Pos A.
  (** The three coordinates of a position. *)
  Variable pos : F A * F A * F A -> Pos A.
  Variable coords : Pos A -> F A * F A * F A.
  (** EXPECT_NEAR with 1e-5. *)
  Variable near : F A -> F A -> bool.

  Let tol := lit 1.
  Let dh := lit 10000.                        (* repose angle 0.785 *)
  Let g : grid_t A := mkGrid 10 10 10 (lit 10000) vz.

  Record tstate : Type := mkT {
    t_s : sim A;
    t_cells : list (Z * Z);
    t_cells3 : list (Z * Z * Z);
    t_status : Z;
    t_walk : @walk A;
    t_pend : list (rec_t A)
  }.

  Definition start : tstate :=
    mkT (new_sim g (fun _ _ => O) []) [] [] 0 (mkWalk 0 0 0 f0 false) [].

  Definition with_s (t : tstate) (s : sim A) : tstate :=
    mkT s (t_cells t) (t_cells3 t) (t_status t) (t_walk t) (t_pend t).

  Definition close (a : F A) (v : Z) : bool :=
    near a (lit v).
  Definition opt_close (a : F A) (o : option Z) : bool :=
    match o with Some v => close a v | None => true end.

  Definition set_opt (o : option Z) (f : sim A -> F A -> sim A) (s : sim A) :=
    match o with Some v => f s (lit v) | None => s end.

  Definition rec_close (e : rec_t A) (ind i j x y z h : Z) : bool :=
    let '(px, py, pz) := coords (e_pos e) in
    (e_ind e =? ind) && (e_i e =? i) && (e_j e =? j) &&
    close px x && close py y && close pz z && close (e_h e) h.

  Definition test (t : tstate) (b : bool) : option tstate :=
    if b then Some t else None.
  Definition upto (t : tstate) (m : outcome (sim A)) : option tstate :=
    match m with Ok s => Some (with_s t s) | _ => None end.

  (** uniform_int_distribution<int>(0, aa) of libstdc++ on a 32 bit generator,
      without its (very improbable) rejection. *)
  Definition of_raw (l : list Z) : rng_t :=
    fun n aa =>
      match nth_error l n with
      | Some v => Z.to_nat (Z.shiftr (v * (Z.of_nat aa + 1)) 32)
      | None => O
      end.

  Definition all_zero (s : sim A) : bool :=
    forallb (fun c =>
      let '(i, j) := c in
      close (terrain s i j) 0 &&
      forallb (fun k => close (body s k i j) 0 && close (body_soil s k i j) 0)
              [0; 1; 2; 3])
      (all_cells s).

  Definition fuel : nat := 300.

  Definition exec (c : cmd) (t : tstate) : option tstate :=
    let s := t_s t in
    match c with
    | SetH i j t0 b0 b1 s0 s1 b2 b3 s2 s3 =>
        Some (with_s t
          (set_opt s3 (fun s => set_bs s 3 i j)
          (set_opt s2 (fun s => set_bs s 2 i j)
          (set_opt s1 (fun s => set_bs s 1 i j)
          (set_opt s0 (fun s => set_bs s 0 i j)
          (set_opt b3 (fun s => set_b s 3 i j)
          (set_opt b2 (fun s => set_b s 2 i j)
          (set_opt b1 (fun s => set_b s 1 i j)
          (set_opt b0 (fun s => set_b s 0 i j)
          (set_opt t0 (fun s => set_t s i j) s))))))))))
    | SetT i j v => Some (with_s t (set_t s i j (lit v)))
    | SetB k i j v => Some (with_s t (set_b s k i j (lit v)))
    | SetBS k i j v => Some (with_s t (set_bs s k i j (lit v)))
    | Push ind i j x y z h =>
        Some (with_s t (push_record s
               (mkRec ind i j (pos (lit x, lit y, lit z)) (lit h))))
    | SetRecH n h =>
        match nth_error (records s) n with
        | Some e => Some (with_s t (set_record_h s n e (lit h)))
        | None => None
        end
    | Seed l => Some (with_s t (set_rng s (of_raw l)))
    | SetBodyArea a => Some (with_s t (set_body_area s a))
    | SetRelaxArea a => Some (with_s t (set_relax_area s a))
    | SetImpactArea a => Some (with_s t (set_impact_area s a))
    | LocateUnstable d =>
        match locate_unstable_terrain_cell (lit d) tol s with
        | Ok l => Some (mkT s l (t_cells3 t) (t_status t) (t_walk t) (t_pend t))
        | _ => None
        end
    | ExpCells n => test t (Nat.eqb (length (t_cells t)) n ||
                            Nat.eqb (length (t_cells3 t)) n)
    | ExpCell n i j =>
        match nth_error (t_cells t) n with
        | Some (i', j') => test t ((i =? i') && (j =? j'))
        | None => None
        end
    | CheckUT i j h =>
        Some (mkT s (t_cells t) (t_cells3 t)
                (check_unstable_terrain_cell tol s i j (lit h)) (t_walk t)
                (t_pend t))
    | CheckUB i j ind ic jc h =>
        match check_unstable_body_cell tol s i j ind ic jc (lit h) with
        | Some z => Some (mkT s (t_cells t) (t_cells3 t) z (t_walk t) (t_pend t))
        | None => None
        end
    | ExpStatus z => test t (t_status t =? z)
    | RelaxUT st d i j ic jc =>
        upto t (relax_unstable_terrain_cell frame g (lit d) tol s st i j ic jc)
    | RelaxUB st d nn i j ind ic jc =>
        match nth_error (records s) nn with
        | Some e =>
            let '(s', p) := relax_unstable_body_cell frame g (lit d) tol s st
                              (t_pend t) nn e i j ind ic jc in
            Some (mkT s' (t_cells t) (t_cells3 t) (t_status t) (t_walk t) p)
        | None => None
        end
    | RelaxT => upto t (relax_terrain frame g dh 4 tol s)
    | RelaxBS => upto t (relax_body_soil frame g dh tol s)
    | ExpRelaxArea a =>
        let b := relax_area s in
        test t ((x_lo a =? x_lo b) && (x_hi a =? x_hi b) &&
                (y_lo a =? y_lo b) && (y_hi a =? y_hi b))
    | MoveBS ind i j m i' j' h wall =>
        match move_body_soil frame tol s (mkWalk ind i j (lit h) wall) (lit m) i' j'
        with
        | Ok (s', w) => Some (mkT s' (t_cells t) (t_cells3 t) (t_status t) w
                                (t_pend t))
        | _ => None
        end
    | ExpWall b => test t (Bool.eqb (w_wall (t_walk t)) b)
    | ExpWalkH h => test t (close (w_h (t_walk t)) h)
    | ExpWalkInd k => test t (w_ind (t_walk t) =? k)
    | ExpWalkI k => test t (w_i (t_walk t) =? k)
    | ExpWalkJ k => test t (w_j (t_walk t) =? k)
    | MoveIBS => upto t (move_intersecting_body_soil frame tol fuel s)
    | MoveIB => upto t (move_intersecting_body tol fuel s)
    | LocateI =>
        match locate_intersecting_cells tol s with
        | Ok l => Some (mkT s (t_cells t) l (t_status t) (t_walk t) (t_pend t))
        | _ => None
        end
    | ExpI n k i j =>
        match nth_error (t_cells3 t) n with
        | Some (k', i', j') => test t ((k =? k') && (i =? i') && (j =? j'))
        | None => None
        end
    | Include i j lo hi =>
        upto t (include_new_body_pos tol s i j (lit lo) (lit hi))
    | UpdateB l => upto t (update_body g tol l s)
    | Volume v b =>
        match check_volume tol (lit 10000) v s with
        | Ok (s', b') => test (with_s t s') (Bool.eqb b b')
        | _ => None
        end
    | Soil b =>
        match check_soil tol s with
        | Ok (s', b') => test (with_s t s') (Bool.eqb b b')
        | _ => None
        end
    | ExpH i j t0 s0 s1 s2 s3 =>
        test t (opt_close (terrain s i j) t0 && opt_close (body_soil s 0 i j) s0 &&
                opt_close (body_soil s 1 i j) s1 && opt_close (body_soil s 2 i j) s2
                && opt_close (body_soil s 3 i j) s3)
    | ExpT i j v => test t (close (terrain s i j) v)
    | ExpB k i j v => test t (close (body s k i j) v)
    | ExpBS k i j v => test t (close (body_soil s k i j) v)
    | ExpRec n ind i j x y z h =>
        match nth_error (records s) n with
        | Some e => test t (rec_close e ind i j x y z h)
        | None => None
        end
    | ExpRecH n h =>
        match nth_error (records s) n with
        | Some e => test t (close (e_h e) h)
        | None => None
        end
    | ExpRecs n => test t (Nat.eqb (length (records s)) n)
    | ExpPends n => test t (Nat.eqb (length (t_pend t)) n)
    | ExpPend n ind i j x y z h =>
        match nth_error (t_pend t) n with
        | Some e => test t (rec_close e ind i j x y z h)
        | None => None
        end
    | ClearPend =>
        Some (mkT s (t_cells t) (t_cells3 t) (t_status t) (t_walk t) [])
    | ExpLog n => test t (Nat.eqb (length (wlog s)) n)
    | Reset tl bl sl =>
        let s := fold_left (fun s c => set_t s (fst c) (snd c) f0) tl s in
        let s := fold_left (fun s c => let '(k, i, j) := c in
                   set_b (set_b s k i j f0) (k + 1) i j f0) bl s in
        let s := fold_left (fun s c => let '(k, i, j) := c in
                   set_bs (set_bs s k i j f0) (k + 1) i j f0) sl s in
        if all_zero s then
          Some (mkT
            (mkSim (nx s) (ny s) (equilibrium s) (fun _ _ => f0) (fun _ _ _ => f0)
               (fun _ _ _ => f0) [] (body_area s) (relax_area s) (impact_area s)
               (rng s) []) (t_cells t) (t_cells3 t) (t_status t) (t_walk t)
            (t_pend t))
        else None
    end.

  (** [None] when all commands succeed, otherwise the number of the first one
      that fails. *)
  Fixpoint run_from (n : nat) (l : list cmd) (t : tstate) : option nat :=
    match l with
    | [] => None
    | c :: l' =>
        match exec c t with
        | Some t' => run_from (S n) l' t'
        | None => Some n
        end
    end.
  Definition run_test (l : list cmd) : option nat := run_from 0 l start.
End Run.

(** The tests on the exact heights: one tick is 1e-5 m. *)
Definition z_frame (i j : Z) (z : F (ZNum (zunits 100000))) :=
  ((i - 10) * 10000, (j - 10) * 10000, z).
Definition z_run : list cmd -> option nat :=
  @run_test (ZNum (zunits 100000)) (fun z => z) (fun k => -90000 + 10000 * k) z_frame
    (fun x => x) (fun x => x) (fun a b => Z.abs (a - b) <=? 1).
