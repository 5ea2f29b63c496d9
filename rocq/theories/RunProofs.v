(** What a call of Step that returned has done; the phases of Step. *)
From Coq Require Import ZArith List Bool Lia.
From Verif Require Import Outcome Num State Base Spec ModelRelax ModelIntersect
  ModelBodySoil ModelBodyPos ModelUtils ModelStep StepFuel Spec2 StepProofs.
Import ListNotations.
Open Scope Z_scope.

Section RunProofs.
  Context {upm : units}.
  Local Notation sim := (sim (ZNum upm)).
  Variable g : grid_t (ZNum upm).
  Variable G : geom (ZNum upm).
  Variable legal : pose G -> Prop.
  Variable near : Pos (ZNum upm) -> Prop.
  Hypothesis Hg : grid_ok g.
  Hypothesis HG : geom_ok g G legal near.
  Local Notation ok := (state_ok g G legal near).

  Theorem step_ok P fuel p (w w' : world G) b :
    params_ok g P -> ok w -> legal p -> step G g P fuel p w = Ok (w', b) ->
    ok w' /\ balanced (fst w) (fst w').
  Proof.
    intros HP Hw Hp E.
    destruct (step_total g G legal near P Hg HP HG p w Hw Hp) as (w2 & b2 & (n & E2) & H & B).
    specialize (E2 (Nat.max n fuel) ltac:(lia)).
    pose proof (refines_ok _ _ _ (step_fuel G g P fuel (Nat.max n fuel) p w ltac:(lia)) E) as E3.
    assert (Q : (w2, b2) = (w', b)) by congruence. injection Q as -> ->. auto.
  Qed.

  Theorem run_ok P fuel ps (w w' : world G) :
    params_ok g P -> ok w -> Forall legal ps -> run G g P fuel ps w = Ok w' ->
    ok w' /\ balanced (fst w) (fst w').
  Proof.
    intros HP Hw Hp E.
    destruct (run_total g G legal near P Hg HP HG ps w Hw Hp) as (w2 & (n & E2) & H & B).
    specialize (E2 (Nat.max n fuel) ltac:(lia)).
    pose proof (refines_ok _ _ _ (run_fuel G g P fuel (Nat.max n fuel) ps ltac:(lia) w) E) as E3.
    assert (Q : w2 = w') by congruence. subst. auto.
  Qed.

  (** The state after MoveIntersectingCells (n = 0) and after n more relaxation
      rounds, whatever [max_iterations]. *)
  Theorem phases_ok P fuel p (s s1 s2 s3 s4 : sim) old a walls n :
    params_ok g P -> ok (s, old) -> legal p ->
    g_raster G p = Ok (a, walls) ->
    calc_body_pos g (p_tol P) a walls s = Ok s1 ->
    update_body_soil g (p_tol P) (g_reloc G old p) s1 = Ok s2 ->
    move_intersecting_cells (g_frame G p) (p_tol P) fuel s2 = Ok s3 ->
    relax_loop G g P p n (set_equilibrium s3 false) = Ok s4 ->
    ok (s4, p).
  Proof.
    intros HP Hw Hp Er E1 E2 E3 E4.
    set (Pn := @mkParams (ZNum upm) (p_dh_max P) n (p_cell_buffer P) (p_tol P)).
    set (G' := @mkGeom (ZNum upm) (pose G) (fun _ _ => (true, false)) (g_frame G) (g_raster G)
                 (g_reloc G)).
    assert (HP' : params_ok g Pn) by exact HP.
    assert (HG' : geom_ok g G' legal near) by exact HG.
    assert (E : step G' g Pn fuel p (s, old) = Ok ((s4, p), true)).
    { unfold step. cbn [g_moved G' negb]. cbv iota. cbn [g_raster G']. rewrite Er. cbn [bind].
      cbn [p_tol Pn g_frame g_reloc G' p_max_iterations].
      rewrite E1. cbn [bind]. rewrite E2. cbn [bind]. rewrite E3. cbn [bind].
      assert (L : forall m x, relax_loop G' g Pn p m x = relax_loop G g P p m x).
      { induction m as [|m IH]; intros x; cbn [relax_loop]; [reflexivity|].
        destruct (equilibrium x); [reflexivity|].
        change (relax_round G' g Pn p x) with (relax_round G g P p x).
        destruct (relax_round G g P p x); cbn [bind]; auto. }
      rewrite L, E4. reflexivity. }
    destruct (step_total g G' legal near Pn Hg HP' HG' p (s, old) Hw Hp)
      as (w2 & b2 & (k & E') & H & _).
    specialize (E' (Nat.max k fuel) ltac:(lia)).
    pose proof (refines_ok _ _ _ (step_fuel G' g Pn fuel (Nat.max k fuel) p (s, old) ltac:(lia)) E)
      as E5.
    assert (Q : (w2, b2) = ((s4, p), true)) by congruence. injection Q as -> _. exact H.
  Qed.

  (** The phases of a call that updated the state. *)
  Lemma step_phases {A : Num} (G' : geom A) g' (P : params A) fuel p s old w' :
    step G' g' P fuel p (s, old) = Ok (w', true) ->
    exists a walls s1 s2 s3,
      let s0 := if snd (g_moved G' old p) then warn s WLargeMove else s in
      g_raster G' p = Ok (a, walls) /\
      calc_body_pos g' (p_tol P) a walls s0 = Ok s1 /\
      update_body_soil g' (p_tol P) (g_reloc G' old p) s1 = Ok s2 /\
      move_intersecting_cells (g_frame G' p) (p_tol P) fuel s2 = Ok s3 /\
      relax_loop G' g' P p (p_max_iterations P) (set_equilibrium s3 false) = Ok (fst w') /\
      snd w' = p.
  Proof.
    unfold step. destruct (g_moved G' old p) as [[|] far]; cbn [negb snd]; cbv zeta;
      [|intros E; injection E; discriminate].
    intros E. apply bind_ok in E as ([a walls] & E0 & E). apply bind_ok in E as (s1 & E1 & E).
    apply bind_ok in E as (s2 & E2 & E). apply bind_ok in E as (s3 & E3 & E).
    apply bind_ok in E as (s4 & E4 & E). injection E as <-.
    exists a, walls, s1, s2, s3. cbn [fst snd]. auto 10.
  Qed.
End RunProofs.
