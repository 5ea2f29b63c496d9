(** Concrete cases that meet the hypotheses of the properties of the parts of Step. *)
From Coq Require Import ZArith List Bool Lia Permutation Sorted.
From Verif Require Import Outcome Num State Base Spec InvBase ModelRelax RelaxBase ModelIntersect
  ModelBodySoil ModelBodyPos BodyPosProofs BodySoilProofs ModelUtils ModelStep Spec2 StepProofs
  CheckProofs AvalancheProofs AreaProofs InitProofs RunProofs PropLemmas PairProofs StuckProofs Demo DemoFacts
  Refuted.
Import ListNotations.
Open Scope Z_scope.

Definition gives {X} (o : outcome X) (test : X -> bool) : bool :=
  match o with Ok x => test x | _ => false end.
Lemma gives_spec {X} (o : outcome X) test : gives o test = true ->
  exists x, o = Ok x /\ test x = true.
Proof. destruct o as [x| |]; [eauto|discriminate|discriminate]. Qed.

(** From a conjunction of tests to equations. *)
Ltac all_eqb H :=
  repeat (apply andb_prop in H; let Q := fresh "Q" in destruct H as [H Q]; apply Z.eqb_eq in Q);
  apply Z.eqb_eq in H.

Lemma state_ok_good p s : state_ok demo_grid demo_geom demo_legal demo_near (s, p) ->
  good (upm := zunits 100) demo_near (cell_z demo_grid) (g_frame demo_geom p) s (records s).
Proof.
  intros (_ & C & T & B & F & _). split; [exact C|]. split; [exact T|]. split; [exact B|].
  intros i j k Gij Hk H. exact (proj2 (F _ _ _ Gij Hk H)).
Qed.

(** ** Avalanches *)
Notation demo_frame := (g_frame demo_geom 0).

(** The hill of the demo at (6, 4). *)
Lemma hill_falls : exists s',
  good (upm := zunits 100) demo_near (cell_z demo_grid) (g_frame demo_geom (-1)) (fst demo_start)
    (records (fst demo_start)) /\
  inside (fst demo_start) 6 4 /\ beside (1, 0) /\
  relax_terrain_dir (A := N) (g_frame demo_geom (-1)) demo_grid 10 1 6 4 (1, 0) (fst demo_start) = Ok s' /\
  (terrain (fst demo_start) 6 4 : Z) = 100 /\ (terrain (fst demo_start) 7 4 : Z) = 10 /\
  (terrain s' 6 4 : Z) = 60 /\ (terrain s' 7 4 : Z) = 50 /\
  forall k, layer k -> ~ body_at (fst demo_start) k 7 4.
Proof.
  assert (T : gives (relax_terrain_dir (A := N) (g_frame demo_geom (-1)) demo_grid 10 1 6 4 (1, 0) (fst demo_start))
     (fun s => (terrain s 6 4 =? 60) && (terrain s 7 4 =? 50)) = true) by (vm_compute; reflexivity).
  destruct (gives_spec _ _ T) as (s' & E & H). apply andb_prop in H as [H1 H2].
  exists s'. split; [exact (state_ok_good (-1) _ demo_start_ok)|].
  split; [unfold inside; cbn; lia|]. split; [reflexivity|]. split; [exact E|].
  split; [reflexivity|]. split; [reflexivity|]. split; [lia|]. split; [lia|].
  intros k _ [H|H]; apply H; reflexivity.
Qed.

Lemma hill_bare :
  params_ok demo_grid demo_params /\ (cell_z demo_grid : Z) <= (p_dh_max demo_params : Z) /\
  bare demo_grid (fst demo_start) /\ sized demo_grid (fst demo_start) /\
  within_grid demo_grid (body_area (fst demo_start)) /\
  within_grid demo_grid (relax_area (fst demo_start)) /\ equilibrium (fst demo_start) = false.
Proof.
  split; [exact demo_params_ok|]. split; [discriminate|]. split.
  { split; [discriminate|]. split; [discriminate|]. split; [intros; split; reflexivity|].
    split; [intros i j _; apply demo_terrain_aligned|reflexivity]. }
  split; [split; reflexivity|]. split; [unfold within_grid; cbn; lia|].
  split; [unfold within_grid; cbn; lia|reflexivity].
Qed.

(** Soil on the body of the demo, when no slope is allowed. *)
Definition first_record (s : sim N) : rec_t N := nth 0 (records s) (@mkRec N 0 0 0 (0, 0, 0) 0).

Lemma load_falls : exists nn e s' pend d,
  good (upm := zunits 100) demo_near (cell_z demo_grid) demo_frame (fst demo_mid) (records (fst demo_mid) ++ []) /\
  nth_error (records (fst demo_mid)) nn = Some e /\ beside d /\
  relax_body_dir (A := N) demo_frame demo_grid 0 1 nn (e_i e) (e_j e) (e_ind e) d
    (fst demo_mid, []) = Ok (s', pend) /\
  soil_height s' (e_ind e) (e_i e) (e_j e) <
    soil_height (fst demo_mid) (e_ind e) (e_i e) (e_j e).
Proof.
  assert (L : length (records (fst demo_mid)) = 2%nat).
  { destruct (ends_spec _ _ demo_mid_ends) as (w & E & H). rewrite demo_mid_run in E.
    assert (Q : demo_mid = w) by congruence. rewrite Q.
    apply andb_prop in H as [H _]. apply andb_prop in H as [H _]. apply Nat.eqb_eq. exact H. }
  set (s := fst demo_mid) in *.
  assert (T : existsb (fun nn => existsb (fun d =>
      let e := nth nn (records s) (@mkRec N 0 0 0 (0, 0, 0) 0) in
      gives (relax_body_dir (A := N) demo_frame demo_grid 0 1 nn (e_i e) (e_j e) (e_ind e) d (s, []))
        (fun r => soil_height (fst r) (e_ind e) (e_i e) (e_j e) <?
                  soil_height s (e_ind e) (e_i e) (e_j e))) directions4) [0; 1]%nat = true)
    by (subst s; vm_compute; reflexivity).
  apply existsb_exists in T as (nn & Hn & T). apply existsb_exists in T as (d & Hd & T).
  destruct (gives_spec _ _ T) as ([s' pend] & E & H). cbn [fst] in H.
  exists nn, (nth nn (records s) (@mkRec N 0 0 0 (0, 0, 0) 0)), s', pend, d.
  rewrite app_nil_r. split.
  { pose proof demo_mid_ok as M. subst s. destruct demo_mid as [s old] eqn:Q. cbn [fst].
    assert (Qo : old = 0).
    { pose proof demo_mid_run as R. rewrite Q in R.
      assert (T0 : ends (demo_run [0]) (fun _ p => p =? 0) = true) by (vm_compute; reflexivity).
      rewrite R in T0. apply Z.eqb_eq. exact T0. }
    subst old. exact (state_ok_good 0 s M). }
  split.
  { apply nth_error_nth'. rewrite L. cbn in Hn. lia. }
  split; [apply beside_directions4; exact Hd|]. split; [exact E|]. lia.
Qed.

(** ** Body *)
(** A cell with two layers that a third interval joins. *)
Definition two_layers : sim N :=
  @mkSim N 9 9 false (fun _ _ => 0)
    (fun k i j => if here i j then pick 0 10 40 50 k else 0)
    (fun _ _ _ => 0) [] (mkArea 2 7 2 7) (mkArea 2 7 2 7) (mkArea 2 7 2 7) demo_rng [].

Lemma two_layers_layered i j : layered 1 two_layers i j.
Proof.
  unfold layered, body_at. cbn. destruct (here i j).
  - split; [intros k [-> | ->] _; vm_compute; reflexivity|left; vm_compute; discriminate].
  - split; [intros k _ [H|H]; congruence|intros [H|H]; congruence].
Qed.

Lemma two_layers_joined : exists s',
  on_grid two_layers 4 4 /\ layered 1 two_layers 4 4 /\ 10 < 40 /\
  include_new_body_pos (A := N) 1 two_layers 4 4 10 40 = Ok s' /\
  (body s' 0 4 4 : Z) = 0 /\ (body s' 1 4 4 : Z) = 50 /\
  (body s' 2 4 4 : Z) = 0 /\ (body s' 3 4 4 : Z) = 0.
Proof.
  assert (T : gives (include_new_body_pos (A := N) 1 two_layers 4 4 10 40) (fun s =>
    (body s 0 4 4 =? 0) && (body s 1 4 4 =? 50) && (body s 2 4 4 =? 0) && (body s 3 4 4 =? 0)) = true)
    by (vm_compute; reflexivity).
  destruct (gives_spec _ _ T) as (s' & E & H). all_eqb H. rename H into H0. exists s'.
  split; [unfold on_grid; cbn; lia|]. split; [apply two_layers_layered|].
  split; [lia|]. split; [exact E|]. auto.
Qed.

Lemma two_layers_body k i j : body_at two_layers k i j -> i = 4 /\ j = 4.
Proof.
  unfold body_at. cbn. destruct (here i j) eqn:E; [|intros [H|H]; congruence].
  intros _. unfold here in E. lia.
Qed.

Definition one_wall : list cell3 := [(4, 4, 6); (4, 4, 7); (4, 4, 8); (5, 4, 6)].

Lemma two_layers_wall : exists s',
  StronglySorted cell3_le one_wall /\
  (forall i j, on_grid two_layers i j ->
     layered 1 two_layers i j /\ forall k, layer k -> body_at two_layers k i j -> inside two_layers i j) /\
  (forall i j k, In (i, j, k) one_wall -> inside two_layers i j /\ 0 <= k <= 2 * half_z demo_grid) /\
  update_body (A := N) demo_grid 1 one_wall two_layers = Ok s' /\
  (body s' 0 4 4 : Z) = 0 /\ (body s' 1 4 4 : Z) = 30 /\ (body s' 2 4 4 : Z) = 40 /\
  (body s' 0 5 4 : Z) = 0 /\ (body s' 1 5 4 : Z) = 10.
Proof.
  assert (T : gives (update_body (A := N) demo_grid 1 one_wall two_layers) (fun s =>
    (body s 0 4 4 =? 0) && (body s 1 4 4 =? 30) && (body s 2 4 4 =? 40) && (body s 0 5 4 =? 0) &&
    (body s 1 5 4 =? 10)) = true) by (vm_compute; reflexivity).
  destruct (gives_spec _ _ T) as (s' & E & H). all_eqb H. rename H into H0. exists s'.
  split; [unfold one_wall, cell3_le; repeat constructor|]. split.
  { intros i j _. split; [apply two_layers_layered|]. intros k _ H.
    destruct (two_layers_body _ _ _ H) as [-> ->]. unfold inside. cbn. lia. }
  split.
  { unfold one_wall, inside. cbn. intros i j k H.
    repeat (destruct H as [H|H]; [inversion H; subst; lia|]). destruct H. }
  split; [exact E|]. auto.
Qed.

Lemma two_layers_replaced : exists s',
  (forall i j, in_area (body_area two_layers) i j -> on_grid two_layers i j) /\
  (forall k i j, on_grid two_layers i j -> layer k -> body_at two_layers k i j ->
     in_area (body_area two_layers) i j) /\
  (forall w, In w [one_wall] -> w <> []) /\
  (forall w i j k, In w [one_wall] -> In (i, j, k) w ->
     inside two_layers i j /\ 0 <= k <= 2 * half_z demo_grid) /\
  calc_body_pos (A := N) demo_grid 1 (mkArea 3 6 3 6) [one_wall] two_layers = Ok s' /\
  (body s' 0 4 4 : Z) = 0 /\ (body s' 1 4 4 : Z) = 30 /\ (body s' 3 4 4 : Z) = 0.
Proof.
  assert (T : gives (calc_body_pos (A := N) demo_grid 1 (mkArea 3 6 3 6) [one_wall] two_layers)
    (fun s => (body s 0 4 4 =? 0) && (body s 1 4 4 =? 30) && (body s 3 4 4 =? 0)) = true)
    by (vm_compute; reflexivity).
  destruct (gives_spec _ _ T) as (s' & E & H). all_eqb H. rename H into H0. exists s'.
  split; [unfold in_area, on_grid; cbn; lia|]. split.
  { intros k i j _ _ H. destruct (two_layers_body _ _ _ H) as [-> ->]. unfold in_area. cbn. lia. }
  split; [intros w [<-|[]]; discriminate|]. split.
  { intros w i j k [<-|[]]. unfold one_wall, inside. cbn. intros H.
    repeat (destruct H as [H|H]; [inversion H; subst; lia|]). destruct H. }
  split; [exact E|]. auto.
Qed.

(** ** Soil carried by the body *)
(** The soil is sent to the previous row. *)
Definition demo_reloc (x : Z * Z * Z) : outcome (reloc N) :=
  let '(i, j, z) := x in Ok (@mkReloc N false true true (i - 1) j z).

Lemma consistent_detached (s : sim N) : consistent (upm := zunits 100) demo_near (cell_z demo_grid) s (records s) ->
  detached (upm := zunits 100) demo_grid demo_near s.
Proof.
  intros (D1 & D2 & C & R). split; [exact D1|]. split; [exact D2|]. split; [|exact R].
  intros i j Gij. destruct (C i j Gij) as (C1 & C2 & C3). split; [exact C1|]. split; [exact C2|].
  intros k Hk. destruct (C3 k Hk) as [L H]. split; [|exact H].
  intros So. apply L. exact So.
Qed.

Lemma demo_targets (s : sim N) : sized demo_grid s ->
  Forall (rec_ok (upm := zunits 100) demo_near (cell_z demo_grid) s) (records s) ->
  Forall (target_ok (upm := zunits 100) demo_reloc s) (records s).
Proof.
  intros [S1 S2] R. eapply Forall_impl; [|exact R]. intros e (_ & _ & _ & _ & Ne).
  unfold target_ok. revert Ne. generalize (e_pos e). intros [[i j] z] [Hi Hj]. cbn.
  unfold inside. rewrite S1, S2. cbn. lia.
Qed.

Lemma load_carried : exists s',
  detached (upm := zunits 100) demo_grid demo_near (fst demo_mid) /\
  Forall (target_ok (upm := zunits 100) demo_reloc (fst demo_mid)) (records (fst demo_mid)) /\
  update_body_soil (A := N) demo_grid 1 demo_reloc (fst demo_mid) = Ok s' /\
  ~ soil_on (fst demo_mid) 0 4 4 /\ soil_on s' 0 4 4.
Proof.
  assert (T : gives (update_body_soil (A := N) demo_grid 1 demo_reloc (fst demo_mid))
    (fun s => negb (body_soil s 1 4 4 =? 0)) &&
    (body_soil (fst demo_mid) 0 4 4 =? 0) && (body_soil (fst demo_mid) 1 4 4 =? 0) = true)
    by (vm_compute; reflexivity).
  pose proof demo_mid_ok as M. revert T M. generalize demo_mid. intros [s p] T M.
  cbn [fst] in *. destruct M as (S & C & _).
  apply andb_prop in T as [T T3]. apply andb_prop in T as [T T2].
  destruct (gives_spec _ _ T) as (s' & E & H). exists s'.
  split; [exact (consistent_detached s C)|]. split.
  { apply demo_targets; [exact S|]. apply C. }
  split; [exact E|]. split.
  - intros [Q|Q]; apply Q; apply Z.eqb_eq; [exact T2|exact T3].
  - right. change (0 + 1) with 1. apply Z.eqb_neq. apply negb_true_iff. exact H.
Qed.

(** One record; the three outcomes are the wall below, a farther wall, the terrain. *)
Definition record_at (z h : Z) : rec_t N := @mkRec N 0 4 4 (4, 4, z) h.
Definition straight (x : Z * Z * Z) : outcome (reloc N) :=
  let '(i, j, z) := x in Ok (@mkReloc N true true true i j z).

Lemma record_case (s : sim N) z h : on_grid s 4 4 -> inside s 4 4 -> 0 <= h -> aligned 10 h ->
  rec_ok (upm := zunits 100) demo_near 10 s (record_at z h) /\ target_ok (upm := zunits 100) straight s (record_at z h).
Proof.
  intros G I H A. split; [|exact I].
  split; [left; reflexivity|]. split; [exact I|]. split; [exact H|]. split; [exact A|].
  unfold demo_near. cbn. lia.
Qed.

Lemma record_outcomes : exists sn sf,
  consistent (upm := zunits 100) demo_near (cell_z demo_grid) (fst demo_mid) (records (fst demo_mid)) /\
  rec_ok (upm := zunits 100) demo_near 10 (fst demo_mid) (record_at 10 20) /\
  target_ok (upm := zunits 100) straight (fst demo_mid) (record_at 10 20) /\
  update_record (A := N) demo_grid 1 straight (record_at 10 20) (fst demo_mid) = Ok sn /\
  body_soil sn 1 4 4 = body_soil (fst demo_mid) 1 4 4 + body sn 1 4 4 -
                       body_soil (fst demo_mid) 0 4 4 + 20 /\
  update_record (A := N) demo_grid 1 straight (record_at 100 20) (fst demo_mid) = Ok sf /\
  length (records sf) = S (length (records (fst demo_mid))).
Proof.
  assert (T : gives (update_record (A := N) demo_grid 1 straight (record_at 10 20) (fst demo_mid))
    (fun s => body_soil s 1 4 4 =? body_soil (fst demo_mid) 1 4 4 + body s 1 4 4 -
                       body_soil (fst demo_mid) 0 4 4 + 20) &&
    gives (update_record (A := N) demo_grid 1 straight (record_at 100 20) (fst demo_mid))
    (fun s => (length (records s) =? S (length (records (fst demo_mid))))%nat) = true)
    by (vm_compute; reflexivity).
  pose proof demo_mid_ok as M. revert T M. generalize demo_mid. intros [s p] T M.
  cbn [fst] in *. destruct M as ([S1 S2] & C & _).
  apply andb_prop in T as [T1 T2].
  destruct (gives_spec _ _ T1) as (sn & En & Hn). destruct (gives_spec _ _ T2) as (sf & Ef & Hf).
  assert (I : inside s 4 4) by (unfold inside; rewrite S1, S2; cbn; lia).
  assert (Gr : on_grid s 4 4) by (unfold on_grid; rewrite S1, S2; cbn; lia).
  destruct (record_case s 10 20 Gr I) as [R1 R2]; [lia|exists 2; reflexivity|].
  exists sn, sf. split; [exact C|]. split; [exact R1|]. split; [exact R2|].
  split; [exact En|]. split; [apply Z.eqb_eq; exact Hn|]. split; [exact Ef|].
  apply Nat.eqb_eq. exact Hf.
Qed.

Lemma record_grounded : exists s',
  consistent (upm := zunits 100) demo_near (cell_z demo_grid) (fst demo_start) (records (fst demo_start)) /\
  rec_ok (upm := zunits 100) demo_near 10 (fst demo_start) (record_at 10 20) /\
  target_ok (upm := zunits 100) straight (fst demo_start) (record_at 10 20) /\
  update_record (A := N) demo_grid 1 straight (record_at 10 20) (fst demo_start) = Ok s' /\
  (terrain s' 4 4 : Z) = (terrain (fst demo_start) 4 4 : Z) + 20 /\ wlog s' = [WToTerrain].
Proof.
  destruct demo_start_ok as (_ & C & _).
  destruct (record_case (fst demo_start) 10 20) as [R1 R2];
    [unfold on_grid; cbn; lia|unfold inside; cbn; lia|lia|exists 2; reflexivity|].
  assert (T : gives (update_record (A := N) demo_grid 1 straight (record_at 10 20) (fst demo_start))
    (fun s => match wlog s with [WToTerrain] => true | _ => false end && (terrain s 4 4 =? 30)) = true)
    by (vm_compute; reflexivity).
  destruct (gives_spec _ _ T) as (s' & E & H). apply andb_prop in H as [H1 H2].
  exists s'. split; [exact C|]. split; [exact R1|]. split; [exact R2|].
  split; [exact E|]. split; [apply Z.eqb_eq; exact H2|].
  destruct (wlog s') as [|[] [|]]; discriminate || reflexivity.
Qed.

(** ** Counterexamples, as existence statements *)
Lemma swap_bare r : bare swap_grid (swap_start r).
Proof.
  destruct (init_spec (A := N) swap_grid (fun _ => trench swap_grid 1) (new_sim swap_grid r []))
    as (_ & _ & (D1 & D2 & D0 & D3 & D4 & D5 & _) & V).
  fold (swap_start r) in *.
  split; [rewrite D1; cbn; lia|]. split; [rewrite D2; cbn; lia|]. split.
  - intros k i j _. rewrite D3, D4. split; reflexivity.
  - split; [|exact D5]. intros i j [Hi Hj]. rewrite D1 in Hi. rewrite D2 in Hj.
    rewrite (proj1 (V i j) (conj Hi Hj)). cbn. exists (round_half_away (trench swap_grid 1 i j) 10). lia.
Qed.

Lemma zero_slope : exists (g : grid_t N) (start : rng_t -> sim N), grid_ok g /\
  forall r, bare g (start r) /\ sized g (start r) /\
    within_grid g (body_area (start r)) /\ within_grid g (relax_area (start r)) /\
    equilibrium (start r) = false /\
    forall n, exists P s', params_ok g P /\ (p_dh_max P : Z) = 0 /\ p_max_iterations P = n /\
      relax_loop (A := N) demo_geom g P 0 n (start r) = Ok s' /\ equilibrium s' = false.
Proof.
  exists swap_grid, swap_start. split; [exact swap_grid_ok|]. intros r.
  split; [exact (swap_bare r)|]. destruct (swap_never r 0) as ((S & _ & _ & _ & _ & W1 & W2 & _) & _).
  split; [exact S|]. split; [exact W1|]. split; [exact W2|].
  split; [exact (proj2 (swap_start_ok r))|].
  intros n. destruct (swap_never r n) as (_ & _ & s' & E & Q).
  exists (flat_params n), s'. split; [exact (flat_params_ok n)|].
  split; [reflexivity|]. split; [reflexivity|]. split; [exact E|exact Q].
Qed.

Lemma edge_remains : exists (G : geom N) (p0 p1 : pose G) w' a0 w0 a1 w1,
  g_raster G p0 = Ok (a0, w0) /\ in_margin demo_grid a0 /\
  g_raster G p1 = Ok (a1, w1) /\ in_margin demo_grid a1 /\
  run (A := N) G demo_grid demo_params 100 [p0; p1] (new_sim demo_grid demo_rng [], p1) = Ok w' /\
  snd w' = p1 /\
  body_at (fst w') 0 0 4 /\ forall w z, In w w1 -> ~ In (0, 4, z) w.
Proof.
  assert (T : edge_ends (run (A := N) edge_geom demo_grid demo_params 100 [0; 4]
          (new_sim demo_grid demo_rng [], 4))
    (fun s p => (p =? 4) && (body s 1 0 4 =? 10)) = true) by (vm_compute; reflexivity).
  destruct (run (A := N) edge_geom demo_grid demo_params 100 [0; 4] (new_sim demo_grid demo_rng [], 4))
    as [[s p]| |] eqn:E; [|discriminate|discriminate].
  cbn [edge_ends] in T. apply andb_prop in T as [T1 T2].
  exists edge_geom, 0, 4, (s, p). eexists _, _, _, _.
  split; [reflexivity|]. split; [unfold in_margin; cbn; lia|].
  split; [reflexivity|]. split; [unfold in_margin; cbn; lia|].
  split; [exact E|]. split; [apply Z.eqb_eq; exact T1|]. split.
  - right. change (0 + 1) with 1. apply Z.eqb_eq in T2. cbn [fst]. rewrite T2. discriminate.
  - intros w z [<-|[]]. cbn. intros H.
    repeat (destruct H as [H|H]; [inversion H|]). destruct H.
Qed.

Lemma stuck_pile : exists (g : grid_t N) (G : geom N) (p : pose G) (start : rng_t -> sim N),
  grid_ok g /\ geom_ok g G (fun _ => True) (fun _ => True) /\
  forall r, state_ok g G (fun _ => True) (fun _ => True) (start r, p) /\
    forall n, exists P s', params_ok g P /\ (cell_z g : Z) <= (p_dh_max P : Z) /\
      p_max_iterations P = n /\
      relax_loop (A := N) G g P p n (start r) = Ok s' /\ equilibrium s' = false /\
      records s' = records (start r) /\
      forall i j, on_grid (start r) i j ->
        terrain s' i j = terrain (start r) i j /\
        forall k, 0 <= k < 4 -> body_soil s' k i j = body_soil (start r) k i j.
Proof.
  exists stuck_grid, stuck_geom, tt, stuck_start. split; [exact stuck_grid_ok|].
  split; [exact stuck_geom_ok|]. intros r. split; [exact (stuck_start_ok r)|]. intros n.
  destruct (stuck_never r n) as (s' & E & Q & R & V).
  exists (stuck_params n), s'. split; [exact (stuck_params_ok n)|]. split; [cbn; lia|].
  split; [reflexivity|]. split; [exact E|]. split; [exact Q|]. split; [exact R|exact V].
Qed.
