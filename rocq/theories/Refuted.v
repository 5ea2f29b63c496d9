(** Concrete executions that contradict what one may expect of the simulator. *)
From Coq Require Import ZArith List Bool Lia.
From Verif Require Import Outcome Num State Base Spec InvBase ModelRelax RelaxBase
  ModelIntersect ModelBodySoil ModelBodyPos ModelUtils ModelStep Spec2 StepProofs RunProofs
  AreaProofs PairProofs StuckProofs InitProofs Demo.
Import ListNotations.
Open Scope Z_scope.

(** ** C16: with no allowed height difference, a bump walks in a trench for ever *)
Definition swap_grid : grid_t N := @mkGrid N 2 1 3 10 (fun k => 10 * (k - 2)).
Definition flat_params (n : nat) : params N := @mkParams N 0 n 2 1.
Definition swap_start (r : rng_t) : sim N :=
  init (A := N) swap_grid (fun _ => trench swap_grid 1) (new_sim swap_grid r []).

Lemma swap_grid_ok : grid_ok swap_grid.
Proof. unfold grid_ok. cbn. split; [lia|]. split; [lia|]. split; [lia|]. intros k _. lia. Qed.

Lemma flat_params_ok n : params_ok swap_grid (flat_params n).
Proof. unfold params_ok, aligned. cbn. do 3 (split; [lia|]). split; [exists 0; lia|]. lia. Qed.

Lemma swap_start_ok r : swap_ok swap_grid (swap_start r) /\ equilibrium (swap_start r) = false.
Proof.
  destruct (init_spec (A := N) swap_grid (fun _ => trench swap_grid 1) (new_sim swap_grid r []))
    as (_ & _ & (D1 & D2 & D0 & D3 & D4 & D5 & D6 & D7 & _) & V).
  fold (swap_start r) in *. split; [|exact D0]. split; [|split; [exact D6|]].
  - split; [exact D1|]. split; [exact D2|]. split; [exact D5|]. split.
    + intros k i j _. rewrite D3, D4. split; reflexivity.
    + exists 1. split; [lia|]. intros i j [Hi Hj]. rewrite D1 in Hi. rewrite D2 in Hj.
      rewrite (proj1 (V i j) (conj Hi Hj)). unfold trench. destruct (_ && _); reflexivity.
  - rewrite D7. unfold within_grid. cbn. lia.
Qed.

(** For every order of the cells and directions and every number of rounds. *)
Lemma swap_never r n :
  state_ok swap_grid demo_geom demo_legal demo_near (swap_start r, 0) /\
  (forall k i j, (body (swap_start r) k i j : Z) = 0) /\
  exists s', relax_loop (A := N) demo_geom swap_grid (flat_params n) 0 n (swap_start r) = Ok s' /\
    equilibrium s' = false.
Proof.
  split; [exact (init_ok (upm := zunits 100) swap_grid demo_geom demo_legal demo_near swap_grid_ok
    (fun _ => trench swap_grid 1) r [] 0)|]. split.
  - intros k i j.
    destruct (init_spec (A := N) swap_grid (fun _ => trench swap_grid 1) (new_sim swap_grid r []))
      as (_ & _ & (_ & _ & _ & D3 & _) & _).
    fold (swap_start r) in D3. rewrite D3. reflexivity.
  - destruct (swap_start_ok r) as [H1 H2].
    destruct (swap_forever demo_geom swap_grid (flat_params n) 0 (flat_params_ok n) eq_refl
      eq_refl eq_refl n (swap_start r) H1 H2) as (s' & E & Q & _).
    exists s'. auto.
Qed.

(** ** C21: a body cell on the border of the grid stays for ever *)
(** The walls of pose 0 reach row 0; the body area starts at row 1. *)
Definition edge_geom : geom N :=
  @mkGeom N Z
    (fun old new => (negb (old =? new), false))
    (fun p i j z => (i - p, j, z))
    (fun p => Ok (mkArea (1 + p) (4 + p) 3 6, [[(p, 4, 6); (1 + p, 4, 6); (2 + p, 4, 6)]]))
    (fun _ p x => let '(i, j, z) := x in Ok (@mkReloc N true true true (i + p) j z)).

Lemma edge_margin p : 0 <= p <= 4 ->
  exists a walls, g_raster edge_geom p = Ok (a, walls) /\ in_margin demo_grid a.
Proof. intros H. eexists _, _. split; [reflexivity|]. unfold in_margin. cbn. lia. Qed.

Definition edge_ends (o : outcome (world edge_geom)) (test : sim N -> Z -> bool) : bool :=
  match o with Ok (s, p) => test s p | _ => false end.

Lemma edge_stays :
  edge_ends (run (A := N) edge_geom demo_grid demo_params 100 [0; 4]
          (new_sim demo_grid demo_rng [], -1))
    (fun s p =>
      (p =? 4) && (body s 1 0 4 =? 10) && (body s 1 1 4 =? 0) && (body s 1 5 4 =? 10)) = true.
Proof. vm_compute. reflexivity. Qed.

(** ** C45: vertical levels that are not multiples of the cell height *)
(** Grid(…, grid_size_z = 57, cell_size_z = 10): the levels are 10 k - 47, that is
    3 modulo 10. *)
Definition mis_grid : grid_t N := @mkGrid N 4 4 6 10 (fun k => 10 * (k - 5) + 3).
Definition mis_start : world demo_geom :=
  (with_terrain demo_terrain (new_sim (A := N) mis_grid demo_rng []), -1).

Notation mis_run ps := (run (A := N) demo_geom mis_grid demo_params demo_fuel ps mis_start).

(** The number of cells counted by CheckVolume. *)
Definition volume_ok (v : Z) (s : sim N) : bool :=
  match check_volume (A := N) (p_tol demo_params) (cell_z mis_grid) v s with
  | Ok (_, b) => b | _ => false end.

Lemma mis_first : ends (mis_run [0]) (fun s p =>
  (total_soil s =? 630) && (length (wlog s) =? 0)%nat && volume_ok 63 s) = true.
Proof. vm_compute. reflexivity. Qed.

Lemma mis_loss : ends (mis_run [0; 1]) (fun s p =>
  (p =? 1) && (total_soil s =? 610) && (length (wlog s) =? 0)%nat && negb (volume_ok 63 s)) = true.
Proof. vm_compute. reflexivity. Qed.

Lemma run_last g P fuel p q (w : world demo_geom) t1 t2 :
  ends (run (A := N) demo_geom g P fuel [p] w) t1 = true ->
  ends (run (A := N) demo_geom g P fuel [p; q] w) t2 = true -> exists w1 w' b,
  run (A := N) demo_geom g P fuel [p] w = Ok w1 /\ t1 (fst w1) (snd w1) = true /\
  step (A := N) demo_geom g P fuel q w1 = Ok (w', b) /\ t2 (fst w') (snd w') = true.
Proof.
  cbn [run]. destruct (step (A := N) demo_geom g P fuel p w) as [[w1 b]| |]; [|discriminate|discriminate].
  cbn [bind]. intros H1 H2. exists w1.
  destruct (step (A := N) demo_geom g P fuel q w1) as [[w2 b2]| |]; [|discriminate|discriminate].
  cbn [bind] in H2. exists w2, b2. destruct w1, w2. auto.
Qed.

(** The terrain is aligned at the start; the call that loses soil is the second one. *)
Lemma mis_refutes : exists w1 w' b,
  (forall i j, aligned (cell_z mis_grid) (terrain (fst mis_start) i j)) /\
  mis_run [0] = Ok w1 /\ volume_ok 63 (fst w1) = true /\
  step (A := N) demo_geom mis_grid demo_params demo_fuel 1 w1 = Ok (w', b) /\
  wlog (fst w') = wlog (fst w1) /\
  total_soil (fst w') < total_soil (fst w1) /\ volume_ok 63 (fst w') = false.
Proof.
  destruct (run_last mis_grid demo_params demo_fuel 0 1 mis_start _ _ mis_first mis_loss)
    as (w1 & w' & b & E1 & H1 & S & H). exists w1, w', b.
  split; [exact demo_terrain_aligned|]. split; [exact E1|].
  repeat (apply andb_prop in H as [H ?]). repeat (apply andb_prop in H1 as [H1 ?]).
  split; [assumption|]. split; [exact S|]. split.
  - destruct (wlog (fst w')), (wlog (fst w1)); (reflexivity || discriminate).
  - split; [|apply negb_true_iff; assumption]. lia.
Qed.

(** ** C46: a pile that cannot move and is never at equilibrium *)
Definition stuck_grid : grid_t N := @mkGrid N 2 2 9 10 (fun k => 10 * (k - 8)).
Definition stuck_params (n : nat) : params N := @mkParams N 20 n 2 1.
Definition stuck_geom : geom N :=
  @mkGeom N unit (fun _ _ => (true, false)) (fun _ i j z => (i, j, z))
    (fun _ => Ok (mkArea 1 4 1 4,
       [[(2, 2, 11)]; [(1, 2, 13); (3, 2, 13); (2, 1, 13); (2, 3, 13)]]))
    (fun _ _ x => Ok (@mkReloc N true true true 2 2 (snd x))).

Definition stuck_start (r : rng_t) : sim N :=
  @mkSim N 5 5 false st_terrain st_body st_soil [st_rec (upm := zunits 100) (2, 2, 30)]
    (mkArea 1 4 1 4) (mkArea 1 4 1 4) (mkArea 1 4 1 4) r [].

Lemma stuck_grid_ok : grid_ok stuck_grid.
Proof. unfold grid_ok. cbn. split; [lia|]. split; [lia|]. split; [lia|]. intros k _. lia. Qed.

Lemma stuck_params_ok n : params_ok stuck_grid (stuck_params n).
Proof. unfold params_ok, aligned. cbn. do 3 (split; [lia|]). split; [exists 2; lia|]. lia. Qed.

Lemma stuck_geom_ok : geom_ok stuck_grid stuck_geom (fun _ => True) (fun _ => True).
Proof.
  split.
  - intros p _. eexists _, _. split; [reflexivity|]. split; [|auto].
    split; [unfold within_grid; cbn; lia|]. split.
    + intros w [<-|[<-|[]]]; discriminate.
    + intros w i j k Hw Hc. unfold in_area. cbn.
      destruct Hw as [<-|[<-|[]]]; cbn in Hc;
        repeat (destruct Hc as [Hc|Hc]; [inversion Hc; subst; lia|]); destruct Hc.
  - intros p p' x _ _ _. eexists. split; [reflexivity|]. cbn. lia.
Qed.

Ltac by_cells C :=
  match goal with |- forall i j, on_grid _ i j -> @?Q i j => apply (C Q); cbv beta end.

Lemma stuck_start_ok r : state_ok stuck_grid stuck_geom (fun _ => True) (fun _ => True)
  (stuck_start r, tt).
Proof.
  assert (Cells : forall (Q : Z -> Z -> Prop),
    Q 0 0 -> Q 0 1 -> Q 0 2 -> Q 0 3 -> Q 0 4 -> Q 1 0 -> Q 1 1 -> Q 1 2 -> Q 1 3 -> Q 1 4 ->
    Q 2 0 -> Q 2 1 -> Q 2 2 -> Q 2 3 -> Q 2 4 -> Q 3 0 -> Q 3 1 -> Q 3 2 -> Q 3 3 -> Q 3 4 ->
    Q 4 0 -> Q 4 1 -> Q 4 2 -> Q 4 3 -> Q 4 4 ->
    forall i j, on_grid (stuck_start r) i j -> Q i j).
  { intros Q. intros. unfold on_grid in *. cbn in *.
    assert (i = 0 \/ i = 1 \/ i = 2 \/ i = 3 \/ i = 4) as Hi by lia.
    assert (j = 0 \/ j = 1 \/ j = 2 \/ j = 3 \/ j = 4) as Hj by lia.
    destruct Hi as [Hi|[Hi|[Hi|[Hi|Hi]]]], Hj as [Hj|[Hj|[Hj|[Hj|Hj]]]]; rewrite Hi, Hj; auto. }
  assert (B2 : forall i j, ~ body_at (stuck_start r) 2 i j).
  { intros i j [H|H]; apply H; cbn; unfold st_body; destruct (centre i j), (arm i j); reflexivity. }
  assert (S2 : forall i j, ~ soil_on (stuck_start r) 2 i j).
  { intros i j [H|H]; apply H; cbn; unfold st_soil; destruct (centre i j); reflexivity. }
  unfold state_ok. split; [split; reflexivity|]. split.
  { split; [cbn; lia|]. split; [cbn; lia|]. split.
    - intros i j Gij. split; [|split].
      + split.
        * unfold aligned. cbn. unfold st_terrain. destruct (arm i j); [exists 4|exists 2]; lia.
        * intros k _. unfold aligned. cbn. unfold st_body, st_soil.
          destruct (centre i j), (arm i j), (k =? 0), (k =? 1);
            split; ((exists 2; lia) || (exists 3; lia) || (exists 4; lia) ||
                    (exists 5; lia) || (exists 8; lia) || (exists 0; lia)).
      + split; [|intros _ H; destruct (B2 _ _ H)].
        intros k [-> | ->] H; [|destruct (B2 _ _ H)].
        revert H. revert i j Gij. by_cells Cells; intros [H|H]; cbn in H; try congruence;
          unfold inside; change (0 + 1) with 1; cbn; lia.
      + intros k [-> | ->].
        * revert i j Gij. by_cells Cells; (split; [|reflexivity]); intros [H|H]; cbn in H; try congruence;
            (split; [left; cbn; discriminate|]; split; [reflexivity|];
             eexists; split; [left; reflexivity|reflexivity]).
        * split; [intros H; destruct (S2 _ _ H)|].
          unfold soil_height, recorded, matches. cbn. unfold st_soil.
          destruct (centre i j); reflexivity.
    - constructor; [|constructor]. split; [left; reflexivity|]. cbn.
      split; [unfold inside; cbn; lia|]. split; [lia|]. split; [exists 5; lia|exact I]. }
  split.
  { intros i j k Gij [-> | ->] H; [|destruct (B2 _ _ H)].
    revert H. revert i j Gij. by_cells Cells; intros [H|H]; cbn in H |- *; try congruence; lia. }
  split.
  { intros i j k Gij [-> | ->] H H'; [destruct (B2 _ _ H')|destruct (S2 _ _ H)]. }
  split.
  { intros k i j Gij [-> | ->] H; [|destruct (B2 _ _ H)]. split; [|exact I].
    revert H. revert i j Gij. unfold in_area. by_cells Cells; intros [H|H]; cbn in H |- *;
      try congruence; lia. }
  split; [unfold within_grid; cbn; lia|]. split; [unfold within_grid; cbn; lia|]. auto.
Qed.

(** The heights and the record of the pile do not change, yet no round reports an
    equilibrium. *)
Lemma stuck_never r n :
  exists s', relax_loop (A := N) stuck_geom stuck_grid (stuck_params n) tt n (stuck_start r) = Ok s' /\
    equilibrium s' = false /\ records s' = records (stuck_start r) /\
    forall i j, on_grid (stuck_start r) i j ->
      terrain s' i j = terrain (stuck_start r) i j /\
      forall k, 0 <= k < 4 -> body_soil s' k i j = body_soil (stuck_start r) k i j.
Proof.
  pose proof (stuck_start_ok r) as Ok0.
  assert (L : loop_ok stuck_grid stuck_geom (fun _ => True) tt (stuck_start r)).
  { destruct Ok0 as (S & C & T & B & F & W1 & W2 & _). split.
    - split; [exact C|]. split; [exact T|]. split; [exact B|]. intros i j k H1 H2 H3. exact I.
    - split; [exact S|]. split; apply (within_grid_in stuck_grid _ _ S); auto. }
  assert (W : stuck (upm := zunits 100) (2, 2, 30) (stuck_start r)).
  { split; [reflexivity|]. split; [reflexivity|]. split; [reflexivity|].
    intros i j _. split; [reflexivity|]. intros k _. split; reflexivity. }
  destruct (stuck_forever (upm := zunits 100) stuck_geom stuck_grid (stuck_params n) tt (fun _ => True) (2, 2, 30)
    (stuck_params_ok n) eq_refl eq_refl eq_refl n _ L W eq_refl) as (s' & E & Q & (D1 & D2 & R & V)).
  exists s'. split; [exact E|]. split; [exact Q|]. split; [exact R|].
  intros i j Gij.
  assert (G' : on_grid s' i j) by (unfold on_grid in *; rewrite D1, D2; exact Gij).
  destruct (V i j G') as [T K]. split; [exact T|]. intros k Hk. exact (proj2 (K k Hk)).
Qed.
