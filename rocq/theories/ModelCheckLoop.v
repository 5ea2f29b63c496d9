(** The main loop of the example program, with its calls of Check. *)
From Coq Require Import ZArith List Bool.
From Verif Require Import Outcome Num State Base ModelUtils ModelStep.
Import ListNotations.
Open Scope Z_scope.

Section CheckLoop.
  Context {A : Num}.
  Variable G : geom A.
  Variable g : grid_t A.
  Variable P : params A.

  (** soil_dynamics.cpp:127-135 Check. The code discards both answers. *)
  Definition check (v : Z) (s : sim A) : outcome (sim A * (bool * bool)) :=
    '(s, a) <- check_volume (p_tol P) (cell_z g) v s ;;
    '(s, b) <- check_soil (p_tol P) s ;;
    Ok (s, (a, b)).

  (** soil_evolution.cpp:308-314: [int init_volume], the same sum as utils.cpp:275-279. *)
  Definition init_volume (s : sim A) : outcome Z :=
    for_each (all_cells s) (fun c v => add_count (terrain s (fst c) (snd c)) (cell_z g) v) 0.

  (** soil_evolution.cpp:317-332 with check_outputs: a Step and a Check per pose. The
      answers of the Checks are kept. *)
  Fixpoint checked_run (fuel : nat) (v : Z) (ps : list (pose G)) (w : world G)
    : outcome (world G * list (bool * bool)) :=
    match ps with
    | [] => Ok (w, [])
    | p :: ps' =>
        '(w, _) <- step G g P fuel p w ;;
        '(s, a) <- check v (fst w) ;;
        '(w, l) <- checked_run fuel v ps' (s, snd w) ;;
        Ok (w, a :: l)
    end.
End CheckLoop.
