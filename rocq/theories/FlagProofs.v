(** Step does not read equilibrium_ and impact_area_ of the state it starts from. *)
From Coq Require Import ZArith List Bool Lia.
From Verif Require Import Outcome Num State Base ModelRelax ModelIntersect ModelBodySoil ModelBodyPos
  ModelUtils ModelStep LogProofs.
Import ListNotations.
Open Scope Z_scope.
Open Scope num_scope.

Section Flag.
  Context {A : Num}.
  Variable eq0 : bool.
  Variable area0 : area.

  Notation sim := (sim A).

  Definition reflag (s : sim) : sim :=
    mkSim (nx s) (ny s) eq0 (terrain s) (body s) (body_soil s) (records s)
          (body_area s) (relax_area s) area0 (rng s) (wlog s).
  Definition reflag1 {X} (p : sim * X) : sim * X := (reflag (fst p), snd p).
  Definition reflag2 {X Y} (p : sim * X * Y) : sim * X * Y := (reflag (fst (fst p)), snd (fst p), snd p).

  Lemma warn_reflag s w : of_step w = true -> warn (reflag s) w = reflag (warn s w).
  Proof. reflexivity. Qed.

  (** ** intersecting_cells.cpp *)
  Section Intersect.
    Variable frame : Z -> Z -> F A -> Pos A.
    Variable tol : F A.

    Lemma move_single_flag s w m k i j :
      move_single frame tol (reflag s) w m k i j = reflag1 (move_single frame tol s w m k i j).
    Proof.
      unfold move_single. cbv zeta. change (soil_present (reflag s)) with (soil_present s).
      cbn [reflag terrain body body_soil].
      destruct (_ >. _); [reflexivity|]. destruct (_ >. _); [reflexivity|].
      destruct (soil_present s k i j); reflexivity.
    Qed.

    Lemma move_between_flag s w i j :
      move_between frame tol (reflag s) w i j = reflag1 (move_between frame tol s w i j).
    Proof.
      unfold move_between. cbv zeta. change (soil_present (reflag s)) with (soil_present s).
      change (body (reflag s)) with (body s). change (body_soil (reflag s)) with (body_soil s).
      destruct (if body s 0 i j <. body s 2 i j then (0, 2) else (2, 0)) as [kb kt].
      destruct (soil_present s kb i j); cbn [andb].
      - destruct (_ >. _); [reflexivity|]. destruct (_ <. _); reflexivity.
      - destruct (_ <. _); reflexivity.
    Qed.

    Lemma move_body_soil_flag s w m i j :
      move_body_soil frame tol (reflag s) w m i j = omap reflag1 (move_body_soil frame tol s w m i j).
    Proof.
      unfold move_body_soil, guard. cbv zeta. rewrite !move_single_flag, move_between_flag.
      change (inb (reflag s)) with (inb s). change (body_absent (reflag s)) with (body_absent s).
      destruct (inb s i j && _); [|reflexivity].
      destruct (body_absent s 0 i j), (body_absent s 2 i j); reflexivity.
    Qed.

    Lemma explore_flag fuel : forall s w m i j d pp,
      explore frame tol fuel (reflag s) w m i j d pp = omap reflag1 (explore frame tol fuel s w m i j d pp).
    Proof.
      induction fuel as [|fuel IH]; intros s w m i j d pp; cbn [explore];
        (destruct (negb (w_wall w) && _); [|reflexivity]); [reflexivity|].
      cbv zeta. rewrite move_body_soil_flag. apply omap_bind. intros [s2 w2]. unfold reflag1 at 1. cbn [fst snd].
      unfold guard. change (inb (reflag s2)) with (inb s2). change (body (reflag s2)) with (body s2).
      destruct (inb s2 _ _); [apply IH|reflexivity].
    Qed.

    Lemma explore_all_flag fuel dirs : forall s ind ind_t i j x,
      explore_all frame tol fuel dirs (reflag s) ind ind_t i j x =
      omap reflag1 (explore_all frame tol fuel dirs s ind ind_t i j x).
    Proof.
      induction dirs as [|d dirs IH]; intros s ind ind_t i j x; cbn [explore_all]; [reflexivity|].
      change (body (reflag s)) with (body s). rewrite explore_flag. apply omap_bind.
      intros [s2 w2]. unfold reflag1 at 1. cbn [fst snd]. destruct (_ <. _); [reflexivity|apply IH].
    Qed.

    Lemma move_record_flag fuel nn e s dirs :
      move_record frame tol fuel nn e (reflag s) dirs = omap reflag1 (move_record frame tol fuel nn e s dirs).
    Proof.
      unfold move_record, guard. cbv zeta.
      change (inb (reflag s)) with (inb s). change (body_absent (reflag s)) with (body_absent s).
      change (body (reflag s)) with (body s). change (body_soil (reflag s)) with (body_soil s).
      destruct (layer_ok _ && _); [|reflexivity]. set (it := if e_ind e =? 0 then 2 else 0).
      destruct (body_absent s it _ _); [reflexivity|].
      destruct (_ && _); [|reflexivity].
      assert (Q : forall x y, (let '(h0, s0) := (x, set_record_h (reflag s) nn e y) in
        let '(dirs0, r) := shuffle dirs (rng (set_bs s0 (e_ind e + 1) (e_i e) (e_j e)
             (body_soil s0 (e_ind e + 1) (e_i e) (e_j e) -. h0))) in
        '(s1, h1) <- explore_all frame tol fuel dirs0 (set_rng (set_bs s0 (e_ind e + 1) (e_i e) (e_j e)
             (body_soil s0 (e_ind e + 1) (e_i e) (e_j e) -. h0)) r) (e_ind e) it (e_i e) (e_j e) h0 ;;
        Ok (if h1 >. tol then warn s1 WRemoved else s1, dirs0)) =
        omap reflag1 (let '(h0, s0) := (x, set_record_h s nn e y) in
        let '(dirs0, r) := shuffle dirs (rng (set_bs s0 (e_ind e + 1) (e_i e) (e_j e)
             (body_soil s0 (e_ind e + 1) (e_i e) (e_j e) -. h0))) in
        '(s1, h1) <- explore_all frame tol fuel dirs0 (set_rng (set_bs s0 (e_ind e + 1) (e_i e) (e_j e)
             (body_soil s0 (e_ind e + 1) (e_i e) (e_j e) -. h0)) r) (e_ind e) it (e_i e) (e_j e) h0 ;;
        Ok (if h1 >. tol then warn s1 WRemoved else s1, dirs0))).
      { intros x y. cbv beta iota.
        change (set_record_h (reflag s) nn e y) with (reflag (set_record_h s nn e y)).
        set (s0 := set_record_h s nn e y).
        change (body_soil (reflag s0)) with (body_soil s0).
        set (v := body_soil s0 _ _ _ -. x).
        change (set_bs (reflag s0) (e_ind e + 1) (e_i e) (e_j e) v)
          with (reflag (set_bs s0 (e_ind e + 1) (e_i e) (e_j e) v)).
        set (s1 := set_bs s0 _ _ _ v). change (rng (reflag s1)) with (rng s1).
        destruct (shuffle dirs (rng s1)) as [dirs0 r].
        change (set_rng (reflag s1) r) with (reflag (set_rng s1 r)).
        rewrite explore_all_flag. apply omap_bind. intros [s2 h2]. unfold reflag1. cbn [fst snd omap].
        destruct (h2 >. tol); [rewrite warn_reflag by reflexivity|]; reflexivity. }
      destruct (_ >. e_h e); apply Q.
    Qed.

    Lemma move_records_flag fuel wf : forall nn s dirs,
      move_records frame tol fuel wf nn (reflag s) dirs = omap reflag (move_records frame tol fuel wf nn s dirs).
    Proof.
      induction fuel as [|fuel IH]; intros nn s dirs; cbn [move_records];
        change (records (reflag s)) with (records s); (destruct (nth_error (records s) nn); [|reflexivity]);
        [reflexivity|].
      rewrite move_record_flag. apply omap_bind. intros [s2 d2]. apply IH.
    Qed.

    Lemma spread_ring_flag dirs : forall s i j pp x,
      spread_ring tol dirs (reflag s) i j pp x = omap reflag1 (spread_ring tol dirs s i j pp x).
    Proof.
      induction dirs as [|d dirs IH]; intros s i j pp x; cbn [spread_ring]; [reflexivity|].
      cbv zeta. unfold guard. change (inb (reflag s)) with (inb s).
      change (body_absent (reflag s)) with (body_absent s). change (body (reflag s)) with (body s).
      change (terrain (reflag s)) with (terrain s).
      destruct (inb s _ _); [|reflexivity]. destruct (body_absent s 0 _ _ && _); [reflexivity|].
      set (bb := if body_absent s 0 _ _ then _ else _).
      destruct (_ <. bb); [|apply IH]. destruct (_ <. x); [|reflexivity].
      change (set_t (reflag s) (i + fst d * pp) (j + snd d * pp) bb)
        with (reflag (set_t s (i + fst d * pp) (j + snd d * pp) bb)). apply IH.
    Qed.

    Lemma spread_flag fuel dirs : forall s i j pp x,
      spread tol fuel dirs (reflag s) i j pp x = omap reflag (spread tol fuel dirs s i j pp x).
    Proof.
      induction fuel as [|fuel IH]; intros s i j pp x; cbn [spread];
        (destruct (x >. tol); [|reflexivity]); [reflexivity|].
      cbv zeta. rewrite spread_ring_flag. apply omap_bind. intros [s2 x2]. apply IH.
    Qed.

    Lemma terrain_cell_moved_flag fuel c st :
      move_terrain_cell tol fuel c (reflag1 st) = omap reflag1 (move_terrain_cell tol fuel c st).
    Proof.
      destruct c as [[ind i] j], st as [s dirs]. unfold move_terrain_cell, reflag1 at 1. cbn [fst snd].
      change (terrain (reflag s)) with (terrain s). change (body (reflag s)) with (body s).
      destruct (_ <. _); [reflexivity|]. change (rng (reflag s)) with (rng s).
      destruct (shuffle dirs (rng s)) as [dirs' r].
      change (set_rng (reflag s) r) with (reflag (set_rng s r)). rewrite spread_flag.
      apply omap_bind. reflexivity.
    Qed.

    Lemma move_intersecting_flag fuel s :
      move_intersecting_cells frame tol fuel (reflag s) = omap reflag (move_intersecting_cells frame tol fuel s).
    Proof.
      unfold move_intersecting_cells, move_intersecting_body_soil. rewrite move_records_flag.
      apply omap_bind. intros s2. unfold move_intersecting_body.
      change (locate_intersecting_cells tol (reflag s2)) with (locate_intersecting_cells tol s2).
      apply bind_omap. intros cells. change ((reflag s2, directions8)) with (reflag1 (s2, directions8)).
      rewrite (for_each_omap reflag1 _ _ cells (terrain_cell_moved_flag fuel)).
      apply omap_bind. intros [s3 d3]. reflexivity.
    Qed.
  End Intersect.

  (** ** body_soil.cpp and body_pos.cpp *)
  Lemma update_record_flag g tol reloc e s :
    update_record g tol reloc e (reflag s) = omap reflag (update_record g tol reloc e s).
  Proof.
    unfold update_record. destruct (f_below _ _); [reflexivity|]. cbv zeta.
    apply bind_omap. intros r.
    assert (F : forall dirs best, find_wall g tol (reflag s) r dirs best = find_wall g tol s r dirs best).
    { induction dirs as [|d dirs IH]; intros best; cbn [find_wall]; [reflexivity|].
      cbv zeta. change (inb (reflag s)) with (inb s). change (try_layer g tol (reflag s)) with (try_layer g tol s).
      unfold guard. destruct (inb s _ _); [|reflexivity].
      destruct (try_layer _ _ _ 0 _ _ _ _) as [[|] b1]; [reflexivity|].
      destruct (try_layer _ _ _ 2 _ _ _ _) as [[|] b2]; [reflexivity|apply IH]. }
    rewrite F. apply bind_omap. intros [[[[i j] k]|] best]; [reflexivity|].
    destruct (_ !=. _).
    - destruct (fst best) as [[[i j] k]|]; reflexivity.
    - unfold guard. change (inb (reflag s)) with (inb s). destruct (inb s _ _); [|reflexivity].
      cbn [omap]. rewrite <- warn_reflag by reflexivity. reflexivity.
  Qed.

  Lemma reset_record_flag e (s : sim) : reset_record e (reflag s) = omap reflag (reset_record e s).
  Proof. unfold reset_record, guard. change (inb (reflag s)) with (inb s). destruct (_ && _); reflexivity. Qed.

  Lemma update_body_soil_flag g tol reloc s :
    update_body_soil g tol reloc (reflag s) = omap reflag (update_body_soil g tol reloc s).
  Proof.
    unfold update_body_soil. cbv zeta. change (records (reflag s)) with (records s).
    rewrite (for_each_omap reflag _ _ _ reset_record_flag). apply omap_bind. intros s2.
    change (set_records (reflag s2) []) with (reflag (set_records s2 [])).
    apply for_each_omap. intros e s3. apply update_record_flag.
  Qed.

  Lemma include_flag tol (s : sim) i j a b :
    include_new_body_pos tol (reflag s) i j a b = omap reflag (include_new_body_pos tol s i j a b).
  Proof.
    unfold include_new_body_pos, guard. cbv zeta. change (inb (reflag s)) with (inb s).
    change (layer_status tol (reflag s)) with (layer_status tol s). change (body (reflag s)) with (body s).
    destruct (inb s i j); [|reflexivity].
    destruct (layer_status tol s 0 i j a b) as [s0|]; [|reflexivity].
    destruct (layer_status tol s 2 i j a b) as [s2|]; [|reflexivity].
    cbn [omap]. f_equal.
    repeat match goal with |- context [if ?x then _ else _] => destruct x end; reflexivity.
  Qed.

  Lemma update_body_loop_flag g tol l : forall (s : sim) i j a b,
    update_body_loop g tol l (reflag s) i j a b = omap reflag (update_body_loop g tol l s i j a b).
  Proof.
    induction l as [|[[i' j'] k] l IH]; intros s i j a b; cbn [update_body_loop]; [apply include_flag|].
    destruct (_ || _).
    - rewrite include_flag. apply omap_bind. intros s2. unfold guard. destruct (z_ok g k); [apply IH|reflexivity].
    - unfold guard. destruct (z_ok g k); [apply IH|reflexivity].
  Qed.

  Lemma calc_body_pos_flag g tol a walls (s : sim) :
    calc_body_pos g tol a walls (reflag s) = omap reflag (calc_body_pos g tol a walls s).
  Proof.
    unfold calc_body_pos, clear_body. change (body_area (reflag s)) with (body_area s).
    rewrite (for_each_omap reflag (fun c (s : sim) => let '(i, j) := c in guard (inb s i j)
      (Ok (set_b (set_b (set_b (set_b s 0 i j f0) 1 i j f0) 2 i j f0) 3 i j f0)))).
    - apply omap_bind. intros s2.
      change (set_body_area (reflag s2) a) with (reflag (set_body_area s2 a)).
      apply for_each_omap. intros w s3. unfold update_body.
      destruct (sort3 w) as [|[[i j] k] l]; [reflexivity|].
      unfold guard. destruct (z_ok g k); [apply update_body_loop_flag|reflexivity].
    - intros [i j] s2. unfold guard. change (inb (reflag s2)) with (inb s2).
      destruct (inb s2 i j); reflexivity.
  Qed.

  (** ** Step *)
  Variable G : geom A.
  Variable g : grid_t A.
  Variable P : params A.

  (** One round or more, and the body moves. *)
  Lemma step_flag fuel p s old : fst (g_moved G old p) = true -> (1 <= p_max_iterations P)%nat ->
    step G g P fuel p (reflag s, old) = step G g P fuel p (s, old).
  Proof.
    intros M N. unfold step. destruct (g_moved G old p) as [mv far]. cbn [fst] in M. subst mv. cbn [negb].
    assert (E : (if far then warn (reflag s) WLargeMove else reflag s) =
      reflag (if far then warn s WLargeMove else s)) by (destruct far; reflexivity).
    rewrite E. set (s1 := if far then _ else _).
    destruct (g_raster G p) as [[a walls]| |]; [|reflexivity|reflexivity]. cbn [bind].
    rewrite calc_body_pos_flag. destruct (calc_body_pos _ _ _ _ _) as [s2| |]; [|reflexivity|reflexivity].
    cbn [bind omap].
    rewrite update_body_soil_flag. destruct (update_body_soil _ _ _ _) as [s3| |]; [|reflexivity|reflexivity].
    cbn [bind omap].
    rewrite move_intersecting_flag. destruct (move_intersecting_cells _ _ _ _) as [s4| |]; [|reflexivity|reflexivity].
    cbn [bind omap]. cbv zeta.
    assert (Q : forall n, (1 <= n)%nat -> relax_loop G g P p n (set_equilibrium (reflag s4) false) =
      relax_loop G g P p n (set_equilibrium s4 false)).
    { intros [|n] L; [lia|]. cbn [relax_loop].
      change (equilibrium (set_equilibrium (reflag s4) false)) with false.
      change (equilibrium (set_equilibrium s4 false)) with false. cbv iota.
      assert (R : relax_round G g P p (set_equilibrium (reflag s4) false) =
        relax_round G g P p (set_equilibrium s4 false)); [|rewrite R; reflexivity].
      unfold relax_round. cbv zeta.
      change (update_impact_area (set_equilibrium (reflag s4) false))
        with (update_impact_area (set_equilibrium s4 false)).
      reflexivity. }
    rewrite (Q _ N). reflexivity.
  Qed.

  (** Any number of rounds and Steps. *)
  Lemma run_flag fuel ps : (1 <= p_max_iterations P)%nat -> forall s old,
    run G g P fuel ps (reflag s, old) = run G g P fuel ps (s, old) \/
    run G g P fuel ps (reflag s, old) =
      omap (fun w => (reflag (fst w), snd w)) (run G g P fuel ps (s, old)).
  Proof.
    intros N. induction ps as [|p ps IH]; intros s old; cbn [run]; [right; reflexivity|].
    destruct (fst (g_moved G old p)) eqn:M; [left; rewrite (step_flag fuel p s old M N); reflexivity|].
    unfold step. destruct (g_moved G old p) as [mv far]. cbn [fst] in M. subst mv. cbn [negb bind].
    assert (E : (if far then warn (reflag s) WLargeMove else reflag s) =
      reflag (if far then warn s WLargeMove else s)) by (destruct far; reflexivity).
    rewrite E. apply IH.
  Qed.
End Flag.

(** ** Claims *)
Lemma step_any_flag {A : Num} (G : geom A) g P fuel p (s : sim A) old b a :
  fst (g_moved G old p) = true -> (1 <= p_max_iterations P)%nat ->
  step G g P fuel p (set_equilibrium (set_impact_area s a) b, old) = step G g P fuel p (s, old).
Proof. exact (step_flag b a G g P fuel p s old). Qed.

Lemma run_any_flag {A : Num} (G : geom A) g P fuel ps (s : sim A) old b a w :
  (1 <= p_max_iterations P)%nat -> run G g P fuel ps (s, old) = Ok w ->
  exists w', run G g P fuel ps (set_equilibrium (set_impact_area s a) b, old) = Ok w' /\
    snd w' = snd w /\ terrain (fst w') = terrain (fst w) /\ body (fst w') = body (fst w) /\
    body_soil (fst w') = body_soil (fst w) /\ records (fst w') = records (fst w) /\
    body_area (fst w') = body_area (fst w) /\ relax_area (fst w') = relax_area (fst w) /\
    rng (fst w') = rng (fst w) /\ wlog (fst w') = wlog (fst w).
Proof.
  intros N E. change (set_equilibrium (set_impact_area s a) b) with (reflag b a s).
  destruct (run_flag b a G g P fuel ps N s old) as [Q|Q]; rewrite E in Q.
  - exists w. split; [exact Q|]. repeat split.
  - exists (reflag b a (fst w), snd w). split; [exact Q|]. repeat split.
Qed.
