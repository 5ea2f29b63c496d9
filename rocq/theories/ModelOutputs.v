(** The main loop of the example program, with its checks and its files. *)
From Coq Require Import ZArith NArith List Bool String.
From Verif Require Import Outcome Num State Base Flt ModelTypes ModelGeometry ModelUtils ModelStep
  ModelFiles ModelWhole ModelCheckLoop.
Import ListNotations.
Open Scope Z_scope.

Section MainLoop.
  Context {A : Num} {K : flt}.
  Variable G : geom A.
  Variable g : grid_t A.
  Variable P : params A.
  Variable k : kind.
  (** What [<<] prints, and the name of utils.cpp. *)
  Variable pr : printer A.
  Variable p_float : sf K -> string.
  Variable src : string.
  (** The body in a given pose. *)
  Variable body_at_pose : pose G -> gbody K.

  (** soil_dynamics.cpp:137-146 WriteOutputs *)
  Definition write_outputs (w : world G) (fs : files) : files :=
    let fs := write_soil pr src (fst w) fs in
    match k with
    | Bucket => write_bucket p_float src (body_at_pose (snd w)) fs
    | Blade => write_blade p_float src (body_at_pose (snd w)) fs
    end.

  (** soil_evolution.cpp:317-332; [chk] and [wr] are check_outputs and write_outputs. *)
  Fixpoint main_loop (fuel : nat) (chk wr : bool) (v : Z) (ps : list (pose G)) (w : world G)
    (fs : files) : outcome (world G * files) :=
    match ps with
    | [] => Ok (w, fs)
    | p :: ps' =>
        '(w, _) <- step G g P fuel p w ;;
        s <- (if chk then '(s, _) <- check g P v (fst w) ;; Ok s else Ok (fst w)) ;;
        let w := (s, snd w) in
        let fs := if wr then write_outputs w fs else fs in
        main_loop fuel chk wr v ps' w fs
    end.
End MainLoop.
