(** Lemmas in the form in which the properties are stated. *)
From Coq Require Import ZArith List Bool Lia Sorted.
From Verif Require Import Outcome Num State Base Spec InvBase ModelRelax RelaxBase
  ModelIntersect IntersectSoilProofs IntersectTerrainProofs ModelBodySoil ModelBodyPos
  BodyPosProofs BodySoilProofs ModelUtils ModelStep StepFuel Spec2 StepProofs CheckProofs StructProofs RunProofs.
Import ListNotations.
Open Scope Z_scope.

Section StepLemmas.
  Context {upm : units}.
  Local Notation sim := (sim (ZNum upm)).
  Variable g : grid_t (ZNum upm).
  Variable G : geom (ZNum upm).
  Variable legal : pose G -> Prop.
  Variable near : Pos (ZNum upm) -> Prop.
  Variable P : params (ZNum upm).

  Lemma balanced_iff (s s' : sim) : balanced s s' ->
    exists new, wlog s' = wlog s ++ new /\ total_soil s' <= total_soil s /\
      (total_soil s' = total_soil s <-> ~ In WRemoved new).
  Proof.
    intros (new & E & L & Q). exists new. split; [auto|]. split; [auto|].
    split; [tauto|]. intros N. destruct (Z.eq_dec (total_soil s') (total_soil s)); tauto.
  Qed.

  Lemma step_balanced fuel p (w w' : world G) b :
    grid_ok g -> params_ok g P -> geom_ok g G legal near ->
    state_ok g G legal near w -> legal p ->
    step G g P fuel p w = Ok (w', b) ->
    exists new, wlog (fst w') = wlog (fst w) ++ new /\
      total_soil (fst w') <= total_soil (fst w) /\
      (total_soil (fst w') = total_soil (fst w) <-> ~ In WRemoved new).
  Proof. intros H1 H2 H3 H4 H5 E. apply balanced_iff. eapply step_ok; eauto. Qed.

  Lemma run_balanced fuel ps (w w' : world G) :
    grid_ok g -> params_ok g P -> geom_ok g G legal near ->
    state_ok g G legal near w -> Forall legal ps ->
    run G g P fuel ps w = Ok w' ->
    exists new, wlog (fst w') = wlog (fst w) ++ new /\
      total_soil (fst w') <= total_soil (fst w) /\
      (total_soil (fst w') = total_soil (fst w) <-> ~ In WRemoved new).
  Proof. intros H1 H2 H3 H4 H5 E. apply balanced_iff. eapply run_ok; eauto. Qed.

  Lemma step_defined fuel p (w : world G) :
    grid_ok g -> params_ok g P -> geom_ok g G legal near ->
    state_ok g G legal near w -> legal p ->
    forall u, step G g P fuel p w <> UB u.
  Proof.
    intros H1 H2 H3 H4 H5 u E.
    destruct (step_total g G legal near P H1 H2 H3 p w H4 H5) as (w2 & b2 & (n & E2) & _).
    specialize (E2 (Nat.max n fuel) ltac:(lia)).
    destruct (step_fuel G g P fuel (Nat.max n fuel) p w ltac:(lia)) as [Q|Q]; congruence.
  Qed.

  Lemma run_defined fuel ps (w : world G) :
    grid_ok g -> params_ok g P -> geom_ok g G legal near ->
    state_ok g G legal near w -> Forall legal ps ->
    forall u, run G g P fuel ps w <> UB u.
  Proof.
    intros H1 H2 H3 H4 H5 u E.
    destruct (run_total g G legal near P H1 H2 H3 ps w H4 H5) as (w2 & (n & E2) & _).
    specialize (E2 (Nat.max n fuel) ltac:(lia)).
    destruct (run_fuel G g P fuel (Nat.max n fuel) ps ltac:(lia) w) as [Q|Q]; congruence.
  Qed.

  (** An explicit number of iterations of the loops without syntactic bound. *)
  Lemma step_terminates fuel p (s : sim) old :
    grid_ok g -> params_ok g P -> geom_ok g G legal near ->
    state_ok g G legal near (s, old) -> legal p ->
    let side := Z.to_nat (nx s + ny s) in
    (side <= fuel)%nat -> (length (records s) * (1 + 8 * side) <= fuel)%nat ->
    exists w' b, step G g P fuel p (s, old) = Ok (w', b).
  Proof.
    intros H1 H2 H3 H4 H5 side F1 F2.
    pose proof (step_good g G legal near P H1 H2 H3 fuel p s old H4 H5) as R.
    assert (F : (step_need s <= fuel)%nat)
      by (unfold step_need, records_fuel; fold side; lia).
    specialize (R F). destruct (step G g P fuel p (s, old)) as [[w' b]| |]; [eauto|destruct R..].
  Qed.
End StepLemmas.

(** MoveIntersectingCells then any number of relaxation rounds, from any consistent
    state. The positions stored in the records are irrelevant. *)
Section Phases.
  Context {upm : units}.
  Local Notation sim := (sim (ZNum upm)).
  Variable g : grid_t (ZNum upm).
  Variable G : geom (ZNum upm).
  Variable P : params (ZNum upm).
  Local Notation any := (fun _ : Pos (ZNum upm) => True).

  (** The state of [CalcBodyPos] and [UpdateBodySoil]: the body is in its area. *)
  Definition placed (s : sim) : Prop :=
    sized g s /\ consistent any (cell_z g) s (records s) /\
    (forall k i j, on_grid s i j -> layer k -> body_at s k i j -> in_area (body_area s) i j) /\
    within_grid g (body_area s) /\ within_grid g (relax_area s).

  Lemma phases_below fuel p n (s s1 s2 : sim) :
    params_ok g P -> placed s ->
    move_intersecting_cells (g_frame G p) (p_tol P) fuel s = Ok s1 ->
    relax_loop G g P p n (set_equilibrium s1 false) = Ok s2 ->
    forall s', s' = s1 \/ s' = s2 ->
    terrain_below s' /\ soil_below s' /\ consistent any (cell_z g) s' (records s').
  Proof.
    intros HP (Hs & Hc & Hb & W1 & W2) E1 E2 s' Hs'.
    pose proof HP as (P1 & P2 & _).
    set (big := Nat.max fuel (step_need s)).
    assert (R : ready any (cell_z g) (g_frame G p) s)
      by (split; [exact Hc|intros i j k _ _ _; exact I]).
    pose proof (move_intersecting_cells_good any (cell_z g) (g_frame G p) (p_tol P) P1 P2 big s
      R Hb (proj1 (within_grid_in g _ _ Hs) W1) ltac:(unfold big, step_need; lia)
      ltac:(unfold big, step_need; lia)) as M.
    pose proof (move_intersecting_cells_fuel (g_frame G p) (p_tol P) fuel big s
      ltac:(unfold big; lia)) as F.
    rewrite (refines_ok _ _ _ F E1) in M. cbn [returns] in M.
    destruct M as (Gd & (Dm & _ & A1 & A2 & _) & _).
    assert (L : loop_ok g G any p (set_equilibrium s1 false)).
    { destruct Dm as [D1 D2]. split.
      - apply (good_same any (cell_z g) (g_frame G p) s1); [repeat split|exact Gd].
      - split; [unfold sized in *; cbn; rewrite D1, D2; exact Hs|].
        unfold area_in. cbn. rewrite A1, A2, D1, D2. destruct Hs as [-> ->].
        unfold within_grid in *. lia. }
    pose proof (relax_loop_good g G any P HP p n _ L) as R2. rewrite E2 in R2.
    cbn [returns] in R2. destruct R2 as ((Gd2 & _) & _).
    destruct Gd as (C1 & T1 & S1 & _), Gd2 as (C2 & T2 & S2 & _).
    destruct Hs' as [-> | ->]; auto.
  Qed.
End Phases.

(** UpdateBody: the ends of the layers are old ends or ends of the wall. *)
Section Update.
  Context {upm : units}.
  Local Notation sim := (sim (ZNum upm)).
  Variable g : grid_t (ZNum upm).
  Variable tol : Z.

  Lemma update_body_exact (w : list cell3) (s s' : sim) :
    grid_ok g -> 0 < tol -> StronglySorted cell3_le w -> w <> [] ->
    (forall i j, on_grid s i j -> layered tol s i j /\
       forall k, layer k -> body_at s k i j -> inside s i j) ->
    (forall i j k, In (i, j, k) w -> inside s i j /\ 0 <= k <= 2 * half_z g) ->
    update_body (A := ZNum upm) g tol w s = Ok s' ->
    only_body s s' /\
    (forall i j, on_grid s i j -> layered tol s' i j) /\
    (forall i j lo hi, covers s i j lo hi -> covers s' i j lo hi) /\
    (forall i j k k', In (i, j, k) w -> In (i, j, k') w ->
       covers s' i j (vect_z g k - cell_z g) (vect_z g k')) /\
    (forall i j, elsewhere w i j -> forall k, body s' k i j = body s k i j) /\
    (forall i j k, on_grid s i j -> layer k -> body_at s' k i j ->
       ((exists k', layer k' /\ body_at s k' i j /\ body s' k i j = body s k' i j) \/
        (exists z, In (i, j, z) w /\ (body s' k i j : Z) = vect_z g z - cell_z g)) /\
       ((exists k', layer k' /\ body_at s k' i j /\ body s' (k + 1) i j = body s (k' + 1) i j) \/
        (exists z, In (i, j, z) w /\ (body s' (k + 1) i j : Z) = vect_z g z))).
  Proof.
    intros (_ & _ & Hcz & Hz) Htol Hsort Hne Hl Hw E.
    set (bots := fun i j (z : Z) =>
      (exists k', layer k' /\ body_at s k' i j /\ z = body s k' i j) \/
      (exists k, In (i, j, k) w /\ z = (vect_z g k : Z) - cell_z g)).
    set (tops := fun i j (z : Z) =>
      (exists k', layer k' /\ body_at s k' i j /\ z = body s (k' + 1) i j) \/
      (exists k, In (i, j, k) w /\ z = vect_z g k)).
    pose proof (update_body_good tol Htol g Hcz Hz bots tops w s Hsort Hne) as R.
    assert (B : body_ok tol bots tops s).
    { intros i j Hg. destruct (Hl i j Hg) as [L I]. split; [exact L|].
      intros k Hk Hb. split; [eauto|]. split; left; eauto. }
    assert (C : forall c, In c w -> cell_in g bots tops s c).
    { intros [[i j] k] Hc. destruct (Hw i j k Hc) as [I K].
      split; [exact I|]. split; [exact K|]. split; right; exists k; split; auto. }
    specialize (R B C). rewrite E in R. cbn [returns] in R.
    destruct R as (B' & (O & Gr) & Wc & El).
    pose proof O as ((N1 & N2) & _).
    assert (OG : forall i j, on_grid s i j -> on_grid s' i j)
      by (intros i j H; unfold on_grid in *; rewrite N1, N2; exact H).
    split; [exact O|]. split; [intros i j H; apply B'; auto|]. split; [exact Gr|].
    split; [exact Wc|]. split; [exact El|].
    intros i j k Hg Hk Hb. destruct (B' i j (OG _ _ Hg)) as [_ Q].
    destruct (Q k Hk Hb) as (_ & Q1 & Q2). split; [exact Q1|exact Q2].
  Qed.
End Update.

(** CalcBodyPos forgets the former body. *)
Section Forget.
  Context {upm : units}.
  Local Notation sim := (sim (ZNum upm)).
  Variable g : grid_t (ZNum upm).
  Variable tol : Z.

  Lemma calc_body_pos_exact a walls (s s' : sim) :
    grid_ok g -> 0 < tol ->
    (forall i j, in_area (body_area s) i j -> on_grid s i j) ->
    (forall k i j, on_grid s i j -> layer k -> body_at s k i j -> in_area (body_area s) i j) ->
    (forall w, In w walls -> w <> []) ->
    (forall w i j k, In w walls -> In (i, j, k) w -> inside s i j /\ 0 <= k <= 2 * half_z g) ->
    calc_body_pos (A := ZNum upm) g tol a walls s = Ok s' ->
    body_area s' = a /\
    (forall k i j, on_grid s i j -> layer k -> body_at s' k i j ->
       exists w z, In w walls /\ In (i, j, z) w) /\
    (forall w i j k k', In w walls -> In (i, j, k) w -> In (i, j, k') w ->
       covers s' i j (vect_z g k - cell_z g) (vect_z g k')) /\
    (forall k i j, on_grid s i j -> layer k -> body_at s' k i j ->
       (exists w z, In w walls /\ In (i, j, z) w /\ (body s' k i j : Z) = vect_z g z - cell_z g) /\
       (exists w z, In w walls /\ In (i, j, z) w /\ (body s' (k + 1) i j : Z) = vect_z g z)) /\
    (forall i j, on_grid s i j -> layered tol s' i j).
  Proof.
    intros (_ & _ & Hcz & Hz) Htol Ha Hcov Hne Hw E.
    set (bots := fun i j (z : Z) =>
      exists w k, In w walls /\ In (i, j, k) w /\ z = (vect_z g k : Z) - cell_z g).
    set (tops := fun i j (z : Z) =>
      exists w k, In w walls /\ In (i, j, k) w /\ z = vect_z g k).
    pose proof (calc_body_pos_good tol Htol g Hcz Hz bots tops a walls s Ha Hcov Hne) as R.
    assert (C : forall w c, In w walls -> In c w -> cell_in g bots tops s c).
    { intros w [[i j] k] H1 H2. destruct (Hw w i j k H1 H2) as [I K].
      split; [exact I|]. split; [exact K|]. split; exists w, k; auto. }
    specialize (R C). rewrite E in R. cbn [returns] in R.
    destruct R as (B & O & Wc & Z0).
    pose proof O as ((N1 & N2) & _ & _ & _ & _ & A1 & _). cbn in N1, N2, A1.
    assert (OG : forall i j, on_grid s i j -> on_grid s' i j)
      by (intros i j H; unfold on_grid in *; rewrite N1, N2; exact H).
    split; [exact A1|].
    assert (Q : forall k i j, on_grid s i j -> layer k -> body_at s' k i j ->
       (exists w z, In w walls /\ In (i, j, z) w /\ (body s' k i j : Z) = vect_z g z - cell_z g) /\
       (exists w z, In w walls /\ In (i, j, z) w /\ (body s' (k + 1) i j : Z) = vect_z g z)).
    { intros k i j Hg Hk Hb. destruct (B i j (OG _ _ Hg)) as [_ Q].
      destruct (Q k Hk Hb) as (_ & Q1 & Q2). split; [exact Q1|exact Q2]. }
    split.
    { intros k i j Hg Hk Hb. destruct (Q k i j Hg Hk Hb) as [(w & z & H1 & H2 & _) _].
      exists w, z. auto. }
    split; [|split; [exact Q|intros i j H; apply B; auto]].
    intros w i j k k' H1 H2 H3. apply (Wc w H1 i j k k' H2 H3).
  Qed.
End Forget.

(** A sequence of calls too close to the reference pose, then one far enough. *)
Section Accumulate.
  Context {A : Num}.
  Variable G : geom A.
  Variable g : grid_t A.
  Variable P : params A.

  Lemma run_accumulates fuel ps p (s : sim A) old :
    (forall q, In q ps -> g_moved G old q = (false, false)) ->
    run G g P fuel ps (s, old) = Ok (s, old) /\
    run G g P fuel (ps ++ [p]) (s, old) =
      bind (step G g P fuel p (s, old)) (fun r => Ok (fst r)).
  Proof.
    intros H. split; [apply run_still; auto|].
    induction ps as [|q ps IH]; cbn [app run].
    - destruct (step G g P fuel p (s, old)) as [[w b]| |]; reflexivity.
    - rewrite (step_still G g P fuel q s old (H q (or_introl eq_refl))). cbn [bind].
      apply IH. intros q' Hq'. apply H. right; exact Hq'.
  Qed.
End Accumulate.

Section MoreStep.
  Context {upm : units}.
  Local Notation sim := (sim (ZNum upm)).
  Variable g : grid_t (ZNum upm).
  Variable G : geom (ZNum upm).
  Variable legal : pose G -> Prop.
  Variable near : Pos (ZNum upm) -> Prop.
  Variable P : params (ZNum upm).

  Lemma step_check_soil fuel p (w w' : world G) b :
    grid_ok g -> params_ok g P -> geom_ok g G legal near ->
    state_ok g G legal near w -> legal p ->
    step G g P fuel p w = Ok (w', b) ->
    check_soil (A := ZNum upm) (p_tol P) (fst w') = Ok (fst w', true).
  Proof.
    intros H1 H2 H3 H4 H5 E.
    eapply state_ok_check_soil with (legal := legal) (near := near) (g := g) (G := G); eauto.
    eapply step_ok; eauto.
  Qed.

  Lemma consistent_records (s : sim) nr : consistent nr (cell_z g) s (records s) ->
    (forall i j k, on_grid s i j -> layer k ->
       soil_height s k i j = recorded (records s) k i j /\
       (soil_on s k i j -> listed (records s) k i j)) /\
    (forall e, In e (records s) ->
       0 <= (e_h e : Z) /\ aligned (cell_z g) (e_h e) /\ layer (e_ind e) /\
       inside s (e_i e) (e_j e)).
  Proof.
    intros (_ & _ & C & R). split.
    - intros i j k Hg Hk. destruct (C i j Hg) as (_ & _ & S). destruct (S k Hk) as [S1 S2].
      split; [exact S2|]. intros H. apply S1 in H. tauto.
    - intros e He. rewrite Forall_forall in R. destruct (R e He) as (R1 & R2 & R3 & R4 & _). auto.
  Qed.

  Lemma step_records fuel p (w w' : world G) b :
    grid_ok g -> params_ok g P -> geom_ok g G legal near ->
    state_ok g G legal near w -> legal p ->
    step G g P fuel p w = Ok (w', b) ->
    (forall i j k, on_grid (fst w') i j -> layer k ->
       soil_height (fst w') k i j = recorded (records (fst w')) k i j /\
       (soil_on (fst w') k i j -> listed (records (fst w')) k i j)) /\
    (forall e, In e (records (fst w')) ->
       0 <= (e_h e : Z) /\ aligned (cell_z g) (e_h e) /\ layer (e_ind e) /\
       inside (fst w') (e_i e) (e_j e)).
  Proof.
    intros H1 H2 H3 H4 H5 E. apply consistent_records with (nr := near).
    assert (K : state_ok g G legal near w') by (eapply step_ok; eauto).
    destruct w' as [s' old']. apply K.
  Qed.

  Lemma recorded_nonneg (l : list (rec_t (ZNum upm))) k i j :
    (forall e, In e l -> 0 <= (e_h e : Z)) -> 0 <= recorded l k i j.
  Proof.
    induction l as [|e l IH]; cbn [recorded]; intros H; [lia|].
    assert (0 <= recorded l k i j) by (apply IH; intros; apply H; right; auto).
    pose proof (H e (or_introl eq_refl)). destruct (matches e k i j); lia.
  Qed.

  Lemma run_soil_rests fuel ps (w w' : world G) :
    grid_ok g -> params_ok g P -> geom_ok g G legal near ->
    state_ok g G legal near w -> Forall legal ps ->
    run G g P fuel ps w = Ok w' ->
    forall i j k, on_grid (fst w') i j -> layer k -> soil_on (fst w') k i j ->
      body_at (fst w') k i j /\ body_soil (fst w') k i j = body (fst w') (k + 1) i j /\
      (body_soil (fst w') k i j : Z) <= body_soil (fst w') (k + 1) i j.
  Proof.
    intros H1 H2 H3 H4 H5 E i j k Hg Hk Hs.
    assert (K : state_ok g G legal near w') by (eapply run_ok; eauto).
    destruct w' as [s' old']. cbn [fst] in *. destruct K as (_ & C & _).
    destruct (consistent_records _ _ C) as [R1 R2].
    destruct C as (_ & _ & C & _). destruct (C i j Hg) as (_ & _ & S).
    destruct (S k Hk) as [S1 S2]. destruct (S1 Hs) as (S3 & S4 & _).
    split; [exact S3|]. split; [exact S4|].
    assert (0 <= recorded (records s') k i j) by (apply recorded_nonneg; intros e He; apply R2; auto).
    unfold soil_height in S2. lia.
  Qed.

  Lemma phases_terrain_below fuel p n (s s1 s2 : sim) :
    params_ok g P -> placed g s ->
    move_intersecting_cells (g_frame G p) (p_tol P) fuel s = Ok s1 ->
    relax_loop G g P p n (set_equilibrium s1 false) = Ok s2 ->
    terrain_below s1 /\ terrain_below s2.
  Proof.
    intros H1 H2 H3 H4. pose proof (phases_below g G P fuel p n s s1 s2 H1 H2 H3 H4) as K.
    split; eapply K; eauto.
  Qed.

  Lemma phases_soil_below fuel p n (s s1 s2 : sim) :
    params_ok g P -> placed g s ->
    move_intersecting_cells (g_frame G p) (p_tol P) fuel s = Ok s1 ->
    relax_loop G g P p n (set_equilibrium s1 false) = Ok s2 ->
    soil_below s1 /\ soil_below s2.
  Proof.
    intros H1 H2 H3 H4. pose proof (phases_below g G P fuel p n s s1 s2 H1 H2 H3 H4) as K.
    split; eapply K; eauto.
  Qed.

  Lemma phases_records fuel p n (s s1 s2 : sim) :
    params_ok g P -> placed g s ->
    move_intersecting_cells (g_frame G p) (p_tol P) fuel s = Ok s1 ->
    relax_loop G g P p n (set_equilibrium s1 false) = Ok s2 ->
    forall s', s' = s1 \/ s' = s2 ->
    forall i j k, on_grid s' i j -> layer k ->
      soil_height s' k i j = recorded (records s') k i j /\
      (soil_on s' k i j -> listed (records s') k i j).
  Proof.
    intros H1 H2 H3 H4 s' Hs'.
    destruct (phases_below g G P fuel p n s s1 s2 H1 H2 H3 H4 s' Hs') as (_ & _ & C).
    exact (proj1 (consistent_records _ _ C)).
  Qed.

  Lemma new_simout r l (old : pose G) :
    grid_ok g ->
    let s := new_sim (A := ZNum upm) g r l in
    nx s = 2 * half_x g + 1 /\ ny s = 2 * half_y g + 1 /\ equilibrium s = false /\
    (forall i j, (terrain s i j : Z) = 0) /\
    (forall k i j, (body s k i j : Z) = 0 /\ (body_soil s k i j : Z) = 0) /\
    records s = [] /\ state_ok g G legal near (s, old).
  Proof.
    intros Hg s. split; [reflexivity|]. split; [reflexivity|]. split; [reflexivity|].
    split; [reflexivity|]. split; [split; reflexivity|]. split; [reflexivity|].
    apply new_sim_ok; auto.
  Qed.
End MoreStep.

(** ** UpdateBodySoil *)
Section Carried.
  Context {upm : units}.
  Variable g : grid_t (ZNum upm).
  Variables (tol : Z) (near : Pos (ZNum upm) -> Prop).
  Variable relocate : Pos (ZNum upm) -> outcome (reloc (ZNum upm)).
  Hypothesis Htol : 0 < tol.
  Hypothesis Hcz : 2 * tol < (cell_z g : Z).

  Lemma update_body_soil_summary s :
    detached g near s -> Forall (target_ok relocate s) (records s) ->
    returns (update_body_soil g tol relocate s) (fun s' =>
      consistent near (cell_z g) s' (records s') /\
      (forall k i j, on_grid s i j -> body s' k i j = body s k i j) /\
      total_soil s' = total_soil s /\
      exists n, wlog s' = wlog s ++ repeat WToTerrain n).
  Proof.
    intros D T. eapply returns_weaken; [exact (update_body_soil_good g tol near relocate Htol Hcz s D T)|].
    intros s' (C & _ & B & _ & _ & _ & _ & V & _ & W). split; [exact C|]. split; [|split; [exact V|exact W]].
    intros k i j Gij. apply B.
  Qed.

  Lemma update_record_choice s e :
    consistent near (cell_z g) s (records s) -> rec_ok near (cell_z g) s e ->
    (e_h e : Z) <> 0 -> target_ok relocate s e ->
    returns (update_record g tol relocate e s) (fun s' => rehomed g tol relocate s e s').
  Proof.
    intros C R H T. eapply returns_weaken; [exact (update_record_good g tol near relocate Htol Hcz s e C R T)|].
    intros s' [[[Q _]|[_ Q]] _]; [contradiction|exact Q].
  Qed.
End Carried.
