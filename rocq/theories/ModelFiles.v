(** Output files: utils.cpp:490-698, soil_dynamics.cpp:137-146.

    Not modelled: what [<<] prints for a float (a parameter here), and failures of the
    file system (the directory results/ exists and is writable). A file exists when it
    can be opened for reading. *)
From Coq Require Import ZArith NArith List Bool Ascii String.
From Verif Require Import Outcome Num State ModelUtils Flt ModelTypes ModelGeometry.
Import ListNotations.
Open Scope string_scope.

(** Name of a file to its text. *)
Definition files : Type := string -> option string.
Definition put (fs : files) (name text : string) : files :=
  fun f => if f =? name then Some text else fs f.
Definition exists_file (fs : files) (name : string) : bool :=
  match fs name with Some _ => true | None => false end.

(** std::to_string of a non-negative int (at most ten digits). *)
Definition digit (n : N) : ascii := ascii_of_N (48 + n).
Fixpoint decimal (fuel : nat) (n : N) (acc : string) : string :=
  match fuel with
  | O => acc
  | S fuel' =>
      let acc := String (digit (n mod 10)) acc in
      if (n / 10 =? 0)%N then acc else decimal fuel' (n / 10) acc
  end.
Definition to_string (n : N) : string := decimal 10 n "".

(** std::string(n, c) *)
Fixpoint repeated (n : nat) (c : ascii) : string :=
  match n with O => "" | S n' => String c (repeated n' c) end.

(** utils.cpp:505-507 *)
Definition number (n : N) : string :=
  let t := to_string n in
  repeated (5 - Nat.min 5 (String.length t)) "0"%char ++ t.

(** s.find_last_of(c); None is npos. *)
Fixpoint find_last_of (c : ascii) (s : string) : option nat :=
  match s with
  | "" => None
  | String a s' =>
      match find_last_of c s' with
      | Some n => Some (S n)
      | None => if (a =? c)%char then Some O else None
      end
  end.
(** s.substr(0, s.find_last_of(c)) *)
Definition before_last (c : ascii) (s : string) : string :=
  match find_last_of c s with
  | Some n => substring 0 n s
  | None => s
  end.
(** s.substr(s.find_last_of(c) + 1, s.size()); npos + 1 is 0. *)
Definition after_last (c : ascii) (s : string) : string :=
  match find_last_of c s with
  | Some n => substring (S n) (String.length s) s
  | None => s
  end.

(** utils.cpp:496-499; [src] is the name of utils.cpp given by the compiler. *)
Definition results_dir (src : string) : string :=
  before_last "/"%char src ++ "/../results/".

(** utils.cpp:510-512 *)
Definition file_name (path stem : string) (n : N) : string :=
  path ++ stem ++ "_" ++ number n ++ ".csv".

(** utils.cpp:503-521: the loop from number [n], [k] turns left. *)
Fixpoint next_name (fs : files) (path stem : string) (k : nat) (n : N) (cur : string)
  : string :=
  match k with
  | O => cur
  | S k' =>
      let f := file_name path stem n in
      if exists_file fs f then next_name fs path stem k' (n + 1) f else f
  end.
Definition free_name (fs : files) (path stem : string) : string :=
  next_name fs path stem (N.to_nat 100000) 0 "".

(** utils.cpp:532-535 *)
Definition body_soil_name (terrain_filename : string) : string :=
  before_last "/"%char terrain_filename ++ "/body_soil_" ++
  after_last "_"%char terrain_filename.

Definition newline : string := String (ascii_of_N 10) "".
Definition row (x y z : string) : string := x ++ "," ++ y ++ "," ++ z ++ newline.
Definition header : string := "x,y,z" ++ newline.
Definition text (rows : list string) : string := fold_right append "" rows.

(** What [<<] prints: a height, vect_x_[ii], vect_y_[jj], vect_z_[0]. *)
Record printer (A : Num) : Type := mkPrinter {
  p_height : F A -> string;
  p_x : Z -> string;
  p_y : Z -> string;
  p_z0 : string
}.
Arguments p_height {A} _ _.
Arguments p_x {A} _ _.
Arguments p_y {A} _ _.
Arguments p_z0 {A} _.

Section Soil.
  Context {A : Num}.
  Variable P : printer A.

  (** utils.cpp:525-529 *)
  Definition terrain_text (s : sim A) : string :=
    header ++
    text (map (fun c => row (p_x P (fst c)) (p_y P (snd c))
                            (p_height P (terrain s (fst c) (snd c)))) (all_cells s)).

  (** utils.cpp:539-563 *)
  Definition body_soil_rows (s : sim A) (c : Z * Z) : list string :=
    let '(i, j) := c in
    (if soil_present s 0 i j
     then [row (p_x P i) (p_y P j) (p_height P (body_soil s 1 i j))] else []) ++
    (if soil_present s 2 i j
     then [row (p_x P i) (p_y P j) (p_height P (body_soil s 3 i j))] else []).
  Definition body_soil_text (s : sim A) : string :=
    header ++
    match records s with
    | [] => row (p_x P 0) (p_y P 0) (p_z0 P)
    | _ => text (flat_map (body_soil_rows s) (all_cells s))
    end.

  (** utils.cpp:492-565 WriteSoil *)
  Definition write_soil (src : string) (s : sim A) (fs : files) : files :=
    let f := free_name fs (results_dir src) "terrain" in
    let fs := put fs f (terrain_text s) in
    put fs (body_soil_name f) (body_soil_text s).
End Soil.

Section Body.
  Context {K : flt}.
  Variable p_float : sf K -> string.

  Definition corner_row (v : vec (sf K)) : string :=
    row (p_float (vx v)) (p_float (vy v)) (p_float (vz v)).

  (** utils.cpp:605-637 *)
  Definition bucket_text (c : corners K) : string :=
    header ++
    text (map corner_row
      [ b_r c; t_r c; j_r c;
        j_r c; j_l c; b_l c; b_r c;
        b_r c; t_r c; t_l c; b_l c;
        b_l c; t_l c; j_l c ]).
  (** utils.cpp:677-697 *)
  Definition blade_text (c : corners K) : string :=
    header ++
    text (map corner_row
      [ b_r c; b_l c; j_l c; j_r c;
        j_r c; j_l c; t_l c; t_r c ]).

  (** utils.cpp:569-639, 644-698 WriteBody *)
  Definition write_bucket (src : string) (body : gbody K) (fs : files) : files :=
    put fs (free_name fs (results_dir src) "bucket")
        (bucket_text (calc_body_corner_pos (pos_ body) (ori_ body) body)).
  Definition write_blade (src : string) (body : gbody K) (fs : files) : files :=
    put fs (free_name fs (results_dir src) "blade")
        (blade_text (calc_body_corner_pos (pos_ body) (ori_ body) body)).
End Body.
