(** Properties of the noise function and of the output files. Statements only; the
    proofs are in NoiseProofs.v, FilesClaims.v and FilesFull.v. *)
From Coq Require Import Reals ZArith NArith List Bool Ascii String Permutation.
From Verif Require Import Outcome Num State Base Spec Flt FltR ModelTypes ModelGeometry ModelStep
  ModelNoise ModelUtils ModelFiles SpecGeo TypesProofs GeoClaims NoiseProofs FilesProofs FilesClaims FilesFull Demo.
Import ListNotations.

(** ** C42: the noise function *)
(** Exact numbers. The table has 256 values between 0 and 255. *)
Theorem C42_noise_in_range :
  forall (x y : R) table, table_ok table -> (0 <= x <= 100)%R -> (0 <= y <= 100)%R ->
  exists v, simplex_noise (K := FltR) x y table = Ok v.
Proof. exact noise_ok. Qed.
Print Assumptions C42_noise_in_range.

(** Init never reads out of range, whatever the grid, the amplitude and the random
    draws, and the height is a multiple of the cell height. *)
Theorem C42_init_noise :
  forall sx sy sz cxy cz g amp r i j, rnew_grid sx sy sz cxy cz = Built g ->
  (0 <= i <= 2 * g_half_x g)%Z -> (0 <= j <= 2 * g_half_y g)%Z ->
  exists n, cell_noise (K := FltR) g amp (map Z.of_nat (fst (perm_table r))) i j =
    Ok (g_cell_z g * IZR n)%R.
Proof. exact init_noise_ok. Qed.
Print Assumptions C42_init_noise.
Example C42_noise_example :
  rnew_grid 4%R 4%R 4%R (/ 10)%R (/ 10)%R = Built demo_g /\ (0 <= 80 <= 2 * g_half_x demo_g)%Z /\
  table_ok (map Z.of_nat (fst (perm_table demo_rng))) /\
  hd 0%nat (fst (perm_table demo_rng)) <> 0%nat.
Proof. exact noise_example. Qed.

(** The function itself does not accept every point: a negative coordinate reads before
    the start of the table, whatever the table. *)
Theorem C42_any_point_refuted :
  exists x y : R, forall table, simplex_noise (K := FltR) x y table = UB OutOfRange.
Proof. exact (ex_intro _ 0%R (ex_intro _ (-1)%R noise_negative)). Qed.
Print Assumptions C42_any_point_refuted.

Open Scope string_scope.

(** ** C43: names *)
(** Five digits that read as the number. *)
Theorem C43_numbers :
  forall n, (n < 100000)%N -> String.length (number n) = 5%nat /\ value 0 (number n) = Some n.
Proof. exact number_spec. Qed.
Print Assumptions C43_numbers.
Theorem C43_names_distinct :
  forall path stem n m, (n < 100000)%N -> (m < 100000)%N ->
  path ++ stem ++ "_" ++ number n ++ ".csv" = path ++ stem ++ "_" ++ number m ++ ".csv" -> n = m.
Proof. exact file_name_inj. Qed.
Print Assumptions C43_names_distinct.
Theorem C43_names_width :
  forall path stem n, (n < 100000)%N ->
  String.length (path ++ stem ++ "_" ++ number n ++ ".csv") =
    (String.length path + String.length stem + 10)%nat.
Proof. exact file_name_length. Qed.
Print Assumptions C43_names_width.
Example C43_names_example :
  file_name (results_dir "/home/user/soil_simulator/utils.cpp") "terrain" 42 =
  "/home/user/soil_simulator/../results/terrain_00042.csv" /\
  body_soil_name "/home/user/soil_simulator/../results/terrain_00042.csv" =
  "/home/user/soil_simulator/../results/body_soil_00042.csv".
Proof. split; vm_compute; reflexivity. Qed.

(** WriteSoil writes the first number that is not taken by a terrain file, or 99999 when
    all are taken. Nothing else changes, except the body_soil file of the same number. *)
Theorem C43_write_soil :
  forall (A : Num) (P : printer A) src (s : sim A) (fs : files), exists n,
  let terrain_name m := results_dir src ++ "terrain_" ++ number m ++ ".csv" in
  let soil_name m := results_dir src ++ "body_soil_" ++ number m ++ ".csv" in
  let fs' := write_soil P src s fs in
  ((n < 100000)%N /\
   ((fs (terrain_name n) = None /\ forall m, (m < n)%N -> fs (terrain_name m) <> None) \/
    (n = 99999%N /\ forall m, (m < 100000)%N -> fs (terrain_name m) <> None))) /\
  fs' (terrain_name n) = Some (terrain_text P s) /\
  fs' (soil_name n) = Some (body_soil_text P s) /\
  forall f, f <> terrain_name n -> f <> soil_name n -> fs' f = fs f.
Proof. exact @write_soil_spec. Qed.
Print Assumptions C43_write_soil.

(** The same for the body. *)
Theorem C43_write_body :
  forall (K : flt) (pf : sf K -> string) src (body : gbody K) (fs : files),
  let name stem m := results_dir src ++ stem ++ "_" ++ number m ++ ".csv" in
  let free stem n :=
    (n < 100000)%N /\
    ((fs (name stem n) = None /\ forall m, (m < n)%N -> fs (name stem m) <> None) \/
     (n = 99999%N /\ forall m, (m < 100000)%N -> fs (name stem m) <> None)) in
  let corners := calc_body_corner_pos (pos_ body) (ori_ body) body in
  (exists n, free "bucket" n /\
     let fs' := write_bucket pf src body fs in
     fs' (name "bucket" n) = Some (bucket_text pf corners) /\
     forall f, f <> name "bucket" n -> fs' f = fs f) /\
  (exists n, free "blade" n /\
     let fs' := write_blade pf src body fs in
     fs' (name "blade" n) = Some (blade_text pf corners) /\
     forall f, f <> name "blade" n -> fs' f = fs f).
Proof.
  intros K pf src body fs.
  exact (conj (write_body_spec src "bucket" _ fs) (write_body_spec src "blade" _ fs)).
Qed.
Print Assumptions C43_write_body.

(** Any sequence of states, written in a directory whose terrain files are numbered
    from 0 without gap, ends up in consecutive files: none is lost. *)
Theorem C43_sequence :
  forall (A : Num) (P : printer A) src (l : list (sim A)) fs n,
  (n + N.of_nat (List.length l) <= 100000)%N -> used fs (results_dir src) n ->
  let fs' := write_all P src l fs in
  (forall k s, nth_error l k = Some s ->
     fs' (results_dir src ++ "terrain_" ++ number (n + N.of_nat k) ++ ".csv") =
       Some (terrain_text P s) /\
     fs' (results_dir src ++ "body_soil_" ++ number (n + N.of_nat k) ++ ".csv") =
       Some (body_soil_text P s)) /\
  (forall f, (forall k, (n <= k < n + N.of_nat (List.length l))%N ->
      f <> results_dir src ++ "terrain_" ++ number k ++ ".csv" /\
      f <> results_dir src ++ "body_soil_" ++ number k ++ ".csv") -> fs' f = fs f).
Proof. exact @write_all_spec. Qed.
Print Assumptions C43_sequence.
Example C43_sequence_example : forall src, used (fun _ => None) (results_dir src) 0.
Proof. intros src; split; [intros m M; destruct m; discriminate M|reflexivity]. Qed.
Example C43_full_example : first_free (fun _ => Some "") "results/" "terrain" 99999.
Proof. split; [reflexivity|]. right. split; [reflexivity|]. discriminate. Qed.

(** Once the 100000 numbers are taken, every state is written over number 99999, and of any
    sequence only the last one is left. *)
Theorem C43_full_directory :
  forall (A : Num) (P : printer A) src (l : list (sim A)) (s : sim A) (fs : files),
  (forall m, (m < 100000)%N -> fs (results_dir src ++ "terrain_" ++ number m ++ ".csv") <> None) ->
  let fs' := write_all P src (l ++ [s])%list fs in
  fs' (results_dir src ++ "terrain_" ++ number 99999 ++ ".csv") = Some (terrain_text P s) /\
  fs' (results_dir src ++ "body_soil_" ++ number 99999 ++ ".csv") = Some (body_soil_text P s) /\
  forall f, f <> results_dir src ++ "terrain_" ++ number 99999 ++ ".csv" ->
    f <> results_dir src ++ "body_soil_" ++ number 99999 ++ ".csv" -> fs' f = fs f.
Proof. exact @full_last. Qed.
Print Assumptions C43_full_directory.
Example C43_full_directory_example : forall src m, (m < 100000)%N ->
  (fun _ : string => Some "kept") (results_dir src ++ "terrain_" ++ number m ++ ".csv") <> None.
Proof. discriminate. Qed.
(** An existing terrain file is then lost. *)
Theorem C43_full_directory_refuted :
  exists fs f, exists old : string, fs f = Some old /\
  forall (A : Num) (P : printer A) (s : sim A),
    write_soil P "utils.cpp" s fs f = Some (terrain_text P s) /\ terrain_text P s <> old.
Proof. exact full_overwritten. Qed.
Print Assumptions C43_full_directory_refuted.

(** The body_soil file is not protected: with no terrain file at all, an existing
    body_soil file is replaced. *)
Theorem C43_body_soil_overwritten_refuted :
  exists fs f, exists old : string, fs f = Some old /\
  forall (A : Num) (P : printer A) (s : sim A),
    write_soil P "utils.cpp" s fs f = Some (body_soil_text P s) /\ body_soil_text P s <> old.
Proof. exact overwritten. Qed.
Print Assumptions C43_body_soil_overwritten_refuted.

(** ** C44: contents *)
(** [csv] cuts a text into lines and fields; the text ends with an end of line, hence
    the last, empty line. A printer is plain if numbers contain no comma and no end of
    line. *)
Theorem C44_terrain :
  forall (A : Num) (P : printer A), plain_printer P ->
  forall s : sim A, (0 <= nx s)%Z -> (0 <= ny s)%Z ->
  let t := csv (terrain_text P s) in
  List.length t = Z.to_nat (nx s * ny s + 2) /\
  nth_error t 0 = Some ["x"; "y"; "z"] /\
  nth_error t (Z.to_nat (nx s * ny s + 1)) = Some [""] /\
  forall i j, (0 <= i < nx s)%Z -> (0 <= j < ny s)%Z ->
    nth_error t (Z.to_nat (i * ny s + j + 1)) =
      Some [p_x P i; p_y P j; p_height P (terrain s i j)].
Proof. exact @terrain_rows. Qed.
Print Assumptions C44_terrain.

(** One row per column of soil, each once; or the dummy row. *)
Theorem C44_body_soil :
  forall (A : Num) (P : printer A), plain_printer P ->
  forall s : sim A, exists l, NoDup l /\ (forall k i j, In (k, i, j) l <-> column s k i j) /\
  csv (body_soil_text P s) =
  ["x"; "y"; "z"] ::
  (match records s with
   | [] => [[p_x P 0; p_y P 0; p_z0 P]]
   | _ => map (fun c => let '(k, i, j) := c in
                [p_x P i; p_y P j; p_height P (body_soil s (k + 1) i j)]) l
   end ++ [[""]])%list.
Proof. exact @body_soil_csv. Qed.
Print Assumptions C44_body_soil.

(** In a consistent state the dummy row never hides soil. *)
Theorem C44_nothing_hidden :
  forall (upm : units) near cz (s : sim (ZNum upm)),
  consistent near cz s (records s) -> records s = [] ->
  forall k i j, ~ column s k i j.
Proof. exact @nothing_hidden. Qed.
Print Assumptions C44_nothing_hidden.

(** The fourteen corners of a bucket and the eight of a blade. *)
Theorem C44_body :
  forall (K : flt) (pf : sf K -> string), (forall v, plain (pf v) = true) ->
  forall c : corners K,
  let p v := [pf (vx v); pf (vy v); pf (vz v)] in
  csv (bucket_text pf c) =
    [["x"; "y"; "z"];
     p (b_r c); p (t_r c); p (j_r c);
     p (j_r c); p (j_l c); p (b_l c); p (b_r c);
     p (b_r c); p (t_r c); p (t_l c); p (b_l c);
     p (b_l c); p (t_l c); p (j_l c); [""]] /\
  csv (blade_text pf c) =
    [["x"; "y"; "z"];
     p (b_r c); p (b_l c); p (j_l c); p (j_r c);
     p (j_r c); p (j_l c); p (t_l c); p (t_r c); [""]].
Proof.
  intros K pf H c.
  exact (conj (corner_rows pf H _) (corner_rows pf H _)).
Qed.
Print Assumptions C44_body.

Example C44_example :
  plain_printer demo_printer /\
  consistent (upm := zunits 100) demo_near (cell_z demo_grid) (fst demo_mid) (records (fst demo_mid)) /\
  List.length (csv (terrain_text demo_printer (fst demo_mid))) = 83%nat /\
  csv (body_soil_text demo_printer (fst demo_mid)) =
    [["x"; "y"; "z"]; ["5"; "4"; "20"]; ["5"; "5"; "20"]; [""]].
Proof. exact files_example. Qed.
