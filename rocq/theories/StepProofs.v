(** Step and sequences of calls of Step. *)
From Coq Require Import ZArith List Bool Lia Permutation.
From Verif Require Import Outcome Num State Base Spec InvBase ModelRelax RelaxBase
  RelaxTerrainProofs RelaxBodyProofs ModelIntersect IntersectSoilProofs
  IntersectTerrainProofs ModelBodySoil BodySoilProofs ModelBodyPos BodyPosProofs
  ModelUtils ModelStep StepFuel Spec2.
Import ListNotations.
Open Scope Z_scope.

Section StepProofs.
  Context {upm : units}.
  Local Notation sim := (sim (ZNum upm)).
  Local Notation rec := (rec_t (ZNum upm)).

  Lemma balanced_refl (s : sim) : balanced s s.
  Proof.
    exists []. rewrite app_nil_r. split; [auto|]. split; [lia|]. cbn. tauto.
  Qed.

  Lemma balanced_trans (s1 s2 s3 : sim) :
    balanced s1 s2 -> balanced s2 s3 -> balanced s1 s3.
  Proof.
    intros (n1 & E1 & L1 & I1) (n2 & E2 & L2 & I2).
    exists (n1 ++ n2). rewrite E2, E1, app_assoc. split; [auto|]. split; [lia|].
    rewrite in_app_iff, <- I1, <- I2. lia.
  Qed.

  Lemma balanced_log (s s' : sim) new :
    wlog s' = wlog s ++ new -> ~ In WRemoved new -> total_soil s' = total_soil s ->
    balanced s s'.
  Proof.
    intros E N T. exists new. split; [auto|]. split; [lia|]. rewrite T. tauto.
  Qed.

  Lemma loses_balanced (s s' : sim) : loses s s' -> balanced s s'.
  Proof.
    intros (lost & n & T & L & E & I). exists (repeat WRemoved n).
    split; [auto|]. split; [lia|]. split.
    - intros H. destruct n; [exfalso; apply H; lia|]. left; auto.
    - intros H. destruct n; [destruct H|]. lia.
  Qed.

  Lemma not_in_repeat (x y : warning) n : x <> y -> ~ In x (repeat y n).
  Proof. intros N H. apply repeat_spec in H. auto. Qed.

  Variable g : grid_t (ZNum upm).
  Variable G : geom (ZNum upm).
  Variable legal : pose G -> Prop.
  Variable near : Pos (ZNum upm) -> Prop.
  Variable P : params (ZNum upm).
  Hypothesis Hg : grid_ok g.
  Hypothesis HP : params_ok g P.
  Hypothesis HG : geom_ok g G legal near.

  Local Notation cz := (cell_z g : Z).
  Local Notation good p := (good near cz (g_frame G p)).

  Lemma within_grid_in (s : sim) a : sized g s -> within_grid g a <-> area_in s a.
  Proof. intros [E1 E2]. unfold within_grid, area_in. rewrite E1, E2. lia. Qed.

  Lemma sized_dims (s s' : sim) : same_dims s s' -> sized g s -> sized g s'.
  Proof. intros [E1 E2]. unfold sized. rewrite E1, E2. auto. Qed.

  (** ** The relaxation loop *)
  Definition loop_ok (p : pose G) (s : sim) : Prop :=
    good p s (records s) /\ sized g s /\
    area_in s (body_area s) /\ area_in s (relax_area s).

  Lemma relax_round_good p (s : sim) :
    loop_ok p s ->
    returns (relax_round G g P p s) (fun s' => loop_ok p s' /\ flows_w s s').
  Proof.
    intros (Hgood & Hsz & Hb & Hr).
    destruct HP as (P1 & P2 & P3 & P4 & P5 & P6 & P7).
    unfold relax_round. cbv zeta.
    set (s0 := update_impact_area s).
    assert (F0 : flows_w s s0) by (repeat split).
    assert (Hgood0 : good p s0 (records s0)).
    { apply (good_same near cz (g_frame G p) s); [repeat split|exact Hgood]. }
    assert (Hroom : int_room (p_cell_buffer P) s0).
    { destruct Hsz as [E1 E2]. unfold int_room. subst s0. cbn. rewrite E1, E2. lia. }
    assert (Hia : area_in s0 (impact_area s0)).
    { subst s0. unfold area_in in *. cbn. lia. }
    eapply returns_bind.
    { apply relax_terrain_good with (near := near); auto. }
    intros s1 (G1 & F1 & E1 & A1).
    set (s2 := shuffle_records s1).
    assert (S2 : good p s2 (records s2) /\ flows s1 s2).
    { subst s2. unfold shuffle_records.
      destruct (shuffle (records s1) (rng s1)) as [l r] eqn:E.
      assert (Pm : Permutation (records s1) l).
      { pose proof (shuffle_permutation (records s1) (rng s1)) as Q. rewrite E in Q.
        apply Permutation_sym; auto. }
      split; [|repeat split]. cbn [records set_rng set_records].
      apply (good_same near cz (g_frame G p) s1); [repeat split|].
      eapply good_permutation; eauto. }
    destruct S2 as [G2 F2].
    eapply returns_weaken; [apply relax_body_soil_good with (near := near); auto|].
    cbv beta. intros s3 [G3 F3].
    assert (F : flows_w s s3).
    { eapply flows_w_trans; [exact F0|]. eapply flows_w_trans; [exact F1|].
      eapply flows_w_trans; [apply F2|apply F3]. }
    split; [|auto].
    pose proof F as (Dm & _ & Eb & _).
    split; [auto|]. split; [eapply sized_dims; eauto|].
    assert (Ain : forall a, area_in s a -> area_in s3 a).
    { destruct Dm as [D1 D2]. unfold area_in. rewrite D1, D2. auto. }
    split; [rewrite Eb; apply Ain; auto|].
    apply Ain. destruct F3 as (_ & E3 & _), F2 as (_ & E2 & _).
    rewrite E3, E2. exact A1.
  Qed.

  Lemma relax_loop_good p n : forall (s : sim),
    loop_ok p s ->
    returns (relax_loop G g P p n s) (fun s' => loop_ok p s' /\ flows_w s s').
  Proof.
    induction n as [|n IH]; intros s H; cbn [relax_loop].
    - cbn. split; [auto|apply flows_w_refl].
    - destruct (equilibrium s); [cbn; split; [auto|apply flows_w_refl]|].
      eapply returns_bind; [apply relax_round_good; auto|].
      cbv beta. intros s1 [L1 F1].
      eapply returns_weaken; [apply IH; auto|].
      cbv beta. intros s2 [L2 F2]. split; [auto|eapply flows_w_trans; eauto].
  Qed.

  (** ** From CalcBodyPos to MoveIntersectingCells *)

  (** Enough fuel for Step. *)
  Definition step_need (s : sim) : nat :=
    Nat.max (Z.to_nat (nx s + ny s)) (records_fuel s (length (records s))).

  Lemma records_fuel_le (s s' : sim) n m :
    same_dims s s' -> (n <= m)%nat -> (records_fuel s' n <= records_fuel s m)%nat.
  Proof. intros [E1 E2] H. unfold records_fuel. rewrite E1, E2. nia. Qed.

  Lemma aligned_z k : 0 <= k <= 2 * half_z g ->
    aligned cz (z_bot g k) /\ aligned cz (z_top g k).
  Proof.
    destruct Hg as (_ & _ & Hc & Hz). intros Hk.
    rewrite (z_bot_eq g Hz), (z_top_eq g Hz) by auto. split; apply aligned_mul.
  Qed.

  Lemma body_phase_good old p (s : sim) a walls :
    state_ok g G legal near (s, old) ->
    g_raster G p = Ok (a, walls) -> raster_ok g a walls ->
    (forall w i j k, In w walls -> In (i, j, k) w ->
       near (g_frame G p i j (vect_z g k))) ->
    returns (calc_body_pos (A := ZNum upm) g (p_tol P) a walls s)
      (fun s' => detached g near s' /\ frame_near near (g_frame G p) s' /\
         body_covered s' /\ only_body (set_body_area s a) s').
  Proof.
    intros (Hsz & HC & TB & SB & HB & Wb & Wr & _) Er (Ra & Rn & Rc) Hn.
    destruct HP as (P1 & P2 & _). destruct Hg as (G1 & G2 & G3 & Hz).
    pose proof HC as (N1 & N2 & H1 & H2).
    pose (bots := fun i j b => exists w k, In w walls /\ In (i, j, k) w /\
                    b = (z_bot g k : Z)).
    pose (tops := fun i j b => exists w k, In w walls /\ In (i, j, k) w /\
                    b = (z_top g k : Z)).
    assert (Hin : forall i j, in_area a i j -> inside s i j).
    { intros i j. apply area_in_inside. apply within_grid_in; auto. }
    eapply returns_weaken.
    { apply (calc_body_pos_good (p_tol P) P1 g G3 Hz bots tops a walls s).
      - intros i j Hij. apply inside_on_grid.
        apply (area_in_inside s (body_area s)); auto. apply within_grid_in; auto.
      - intros k i j H3 H4 H5. apply (HB k i j); auto.
      - exact Rn.
      - intros w [[i j] k] Hw Hc. destruct (Rc w i j k Hw Hc) as [R1 R2].
        split; [apply Hin; auto|]. split; [auto|].
        split; exists w, k; auto. }
    cbv beta. intros s' (Bok & O & _ & _).
    pose proof O as (Dm & _ & Tq & Bq & Er' & Ea & _).
    cbn in Er', Ea. destruct Dm as [D1 D2]. cbn in D1, D2.
    assert (Og : forall i j, on_grid s' i j -> on_grid s i j).
    { intros i j. unfold on_grid. rewrite D1, D2. auto. }
    assert (Ab : forall i j k, on_grid s' i j -> 0 <= k < 4 -> aligned cz (body s' k i j)).
    { intros i j k Hij Hk. destruct (Bok i j Hij) as [_ B].
      destruct (Z.eq_dec (body s' k i j) 0) as [->|Nz]; [apply aligned_0|].
      assert (L : exists k0, layer k0 /\ (k = k0 \/ k = k0 + 1)).
      { destruct (Z.ltb_spec k 2); [exists 0|exists 2]; unfold layer; lia. }
      destruct L as (k0 & Lk & Ek).
      destruct (B k0 Lk) as (_ & (w & n & W1 & W2 & W3) & (w' & n' & W1' & W2' & W3')).
      { unfold body_at. destruct Ek; subst k; auto. }
      destruct Ek; subst k.
      - rewrite W3. apply aligned_z. apply (Rc w i j n); auto.
      - rewrite W3'. apply aligned_z. apply (Rc w' i j n'); auto. }
    split; [|split; [|split]].
    - split; [rewrite D1; auto|]. split; [rewrite D2; auto|]. split.
      + intros i j Hij. pose proof (Og i j Hij) as Hij'.
        destruct (H1 i j Hij') as ((A0 & A1) & _ & A2).
        destruct (Bok i j Hij) as [[L1 L2] B]. split; [|split].
        * split; [rewrite Tq; auto|]. intros k Hk. split; [auto|].
          rewrite Bq. apply A1; auto.
        * split.
          -- intros k Hk Hb. split; [apply (B k); auto|]. apply L1; auto.
          -- intros Hb0 Hb2. specialize (L2 Hb0 Hb2). lia.
        * intros k Hk. destruct (A2 k Hk) as [A3 A4]. rewrite Er'.
          unfold soil_on, soil_height in *. rewrite !Bq. cbn. split; [|auto].
          intros Hs. apply A3; auto.
      + rewrite Er'. eapply Forall_impl; [|exact H2]. intros e.
        apply rec_ok_dims. split; auto.
    - intros i j k Hij Hk Hb. destruct (Bok i j Hij) as [_ B].
      destruct (B k Hk Hb) as (_ & _ & (w & n & W1 & W2 & W3)). rewrite W3.
      apply (Hn w i j n); auto.
    - intros k i j Hij Hk Hb. destruct (Bok i j Hij) as [_ B].
      destruct (B k Hk Hb) as (_ & _ & (w & n & W1 & W2 & W3)). rewrite Ea.
      apply (Rc w i j n); auto.
    - exact O.
  Qed.

  Lemma step_good fuel p (s : sim) old :
    state_ok g G legal near (s, old) -> legal p -> (step_need s <= fuel)%nat ->
    returns (step G g P fuel p (s, old))
      (fun r => state_ok g G legal near (fst r) /\ balanced s (fst (fst r))).
  Proof.
    intros Hw Hp Hf. unfold step.
    destruct (g_moved G old p) as [moved farw]. cbv zeta.
    set (s0 := if farw then warn s WLargeMove else s).
    assert (Hw0 : state_ok g G legal near (s0, old) /\ balanced s s0 /\
                  step_need s0 = step_need s).
    { subst s0. destruct farw.
      - split; [exact Hw|]. split; [|reflexivity].
        apply balanced_log with (new := [WLargeMove]); [reflexivity| |reflexivity].
        intros [H|[]]; discriminate.
      - split; [exact Hw|]. split; [apply balanced_refl|reflexivity]. }
    clearbody s0. destruct Hw0 as (Hw0 & Hb0 & Hn0).
    rewrite <- Hn0 in Hf. clear Hn0.
    destruct (negb moved).
    { cbn. auto. }
    pose proof HG as [HG1 HG2].
    destruct (HG1 p Hp) as (a & walls & Er & Ra & Hn).
    rewrite Er. cbn [bind].
    pose proof Hw0 as (Hsz & HC & _ & _ & _ & Wb & Wr & Hold).
    destruct HP as (P1 & P2 & _).
    eapply returns_bind; [apply (body_phase_good old p s0 a walls); auto|].
    cbv beta. intros s1 (HD & Fn & Bc & O).
    pose proof O as (Dm1 & _ & Tq1 & Bq1 & Er1 & Ea1 & Ra1 & Ia1 & _ & Wl1).
    cbn in Er1, Ea1, Ra1, Ia1, Wl1. 
    assert (T1 : total_soil s1 = total_soil s0).
    { destruct Dm1 as [D1 D2]. unfold total_soil. cbn in D1, D2. rewrite D1, D2.
      apply sum2_ext. intros i j _ _. unfold soil_at, soil_height.
      rewrite Tq1, !Bq1. reflexivity. }
    assert (Sz1 : sized g s1) by (apply (sized_dims s0); auto).
    eapply returns_bind.
    { apply (update_body_soil_good g (p_tol P) near (g_reloc G old p) P1 P2 s1 HD).
      pose proof HD as (_ & _ & _ & HD4).
      destruct Hold as [Hold|Hold]; [rewrite Er1, Hold; constructor|].
      eapply Forall_impl; [|exact HD4]. intros e (_ & _ & _ & _ & Hx).
      destruct (HG2 old p _ Hold Hp Hx) as (r & Err & R1 & R2). 
      unfold target_ok. rewrite Err. cbn.
      destruct Sz1 as [Z1 Z2]. unfold inside. rewrite Z1, Z2. lia. }
    intros s2 (C2 & Dm2 & Bq2 & Ea2 & Ra2 & Ia2 & _ & T2 & Len2 & n2 & Wl2).
    assert (Sz2 : sized g s2) by (apply (sized_dims s1); auto).
    assert (Fn2 : frame_near near (g_frame G p) s2).
    { eapply frame_near_beq; eauto. }
    assert (Bc2 : body_covered s2).
    { intros k i j Hij Hk Hb. rewrite Ea2. apply (Bc k).
      - destruct Dm2 as [D1 D2]. unfold on_grid in *. rewrite <- D1, <- D2. auto.
      - auto.
      - unfold body_at in *. rewrite !Bq2 in Hb. auto. }
    assert (Ain2 : area_in s2 (body_area s2)).
    { rewrite Ea2, Ea1. apply within_grid_in; [auto|]. apply Ra. }
    eapply returns_bind.
    { apply (move_intersecting_cells_good near cz (g_frame G p) (p_tol P) P1 P2); auto.
      - split; auto.
      - unfold step_need in Hf.
        destruct Sz2 as [Z1 Z2], Hsz as [Y1 Y2]. rewrite Z1, Z2. rewrite Y1, Y2 in Hf. lia.
      - unfold step_need in Hf. etransitivity; [|exact Hf].
        etransitivity; [|apply Nat.le_max_r].
        apply records_fuel_le.
        + destruct Dm2 as [D1 D2], Dm1 as [D3 D4]. cbn in D3, D4. split; congruence.
        + rewrite <- Er1. exact Len2. }
    intros s3 (G3 & (Dm3 & Bq3 & Ea3 & Ra3 & Ia3) & L3).
    eapply returns_bind.
    { apply (relax_loop_good p). split; [|split; [|split]].
      - apply (good_same near cz (g_frame G p) s3); [repeat split|exact G3].
      - apply (sized_dims s2); auto.
      - unfold area_in in *. cbn. destruct Dm3 as [D1 D2]. rewrite D1, D2, Ea3. auto.
      - cbn. apply within_grid_in; [apply (sized_dims s2); auto|].
        rewrite Ra3, Ra2, Ra1. exact Wr. }
    cbv beta. intros s4 ((G4 & Sz4 & Ab4 & Ar4) & (Dm4 & Bq4 & Ea4 & Wl4 & T4)).
    cbn [returns fst]. split.
    - destruct G4 as (C4 & TB4 & SB4 & Fn4).
      split; [auto|]. split; [auto|]. split; [auto|]. split; [auto|].
      split; [|split; [apply (within_grid_in s4); auto|split; [apply (within_grid_in s4); auto|auto]]].
      intros k i j Hij Hk Hb. split; [|apply Fn4; auto].
      rewrite Ea4. cbn. rewrite Ea3. apply (Bc2 k); auto.
      + destruct Dm4 as [D1 D2], Dm3 as [D3 D4]. cbn in D1, D2.
        unfold on_grid in *. rewrite <- D3, <- D4, <- D1, <- D2. auto.
      + unfold body_at in *. rewrite !Bq4 in Hb. cbn in Hb. rewrite !Bq3 in Hb. auto.
    - eapply balanced_trans; [exact Hb0|].
      eapply balanced_trans.
      { apply (balanced_log s0 s2 (repeat WToTerrain n2)).
        - rewrite Wl2, Wl1. reflexivity.
        - apply not_in_repeat. discriminate.
        - congruence. }
      eapply balanced_trans; [apply loses_balanced; exact L3|].
      apply (balanced_log s3 s4 []).
      + rewrite app_nil_r. exact Wl4.
      + intros [].
      + rewrite T4. apply (total_soil_same s3). repeat split.
  Qed.

  (** ** Step and sequences of calls, whatever the (sufficient) fuel *)
  Theorem step_total p (w : world G) :
    state_ok g G legal near w -> legal p ->
    exists w' b, (exists N, forall fuel, (N <= fuel)%nat -> step G g P fuel p w = Ok (w', b)) /\
      state_ok g G legal near w' /\ balanced (fst w) (fst w').
  Proof.
    destruct w as [s old]. intros Hw Hp.
    pose proof (step_good (step_need s) p s old Hw Hp (Nat.le_refl _)) as H.
    apply returns_ok in H as ([w' b] & E & H1 & H2). exists w', b.
    split; [|auto]. exists (step_need s). intros fuel Hf.
    eapply refines_ok; [apply step_fuel; exact Hf|exact E].
  Qed.

  Theorem run_total ps : forall (w : world G),
    state_ok g G legal near w -> Forall legal ps ->
    exists w', (exists N, forall fuel, (N <= fuel)%nat -> run G g P fuel ps w = Ok w') /\
      state_ok g G legal near w' /\ balanced (fst w) (fst w').
  Proof.
    induction ps as [|p ps IH]; intros w Hw Hps.
    - exists w. split; [exists 0%nat; reflexivity|]. split; [auto|apply balanced_refl].
    - inversion Hps as [|? ? Hp Hps']; subst.
      destruct (step_total p w Hw Hp) as (w1 & b & (N1 & E1) & H1 & B1).
      destruct (IH w1 H1 Hps') as (w2 & (N2 & E2) & H2 & B2).
      exists w2. split; [|split; [auto|eapply balanced_trans; eauto]].
      exists (Nat.max N1 N2). intros fuel Hf. cbn [run].
      rewrite E1 by lia. cbn. apply E2. lia.
  Qed.

  (** ** The state after construction *)
  Lemma new_sim_ok r l old :
    state_ok g G legal near (new_sim g r l, old).
  Proof.
    destruct Hg as (G1 & G2 & G3 & _).
    assert (No : forall k i j, ~ body_at (new_sim g r l) k i j).
    { intros k i j [H|H]; apply H; reflexivity. }
    split; [split; reflexivity|]. split; [|split; [|split; [|split; [|split; [|split]]]]].
    - split; [cbn; lia|]. split; [cbn; lia|]. split; [|constructor].
      intros i j _. split; [|split].
      + split; [apply aligned_0|]. intros k _. split; apply aligned_0.
      + split; [intros k _ H; destruct (No _ _ _ H)|intros H; destruct (No _ _ _ H)].
      + intros k _. split; [|reflexivity]. intros [H|H]; exfalso; apply H; reflexivity.
    - intros i j k _ _ H. destruct (No _ _ _ H).
    - intros i j k _ _ [H|H]; exfalso; apply H; reflexivity.
    - intros k i j _ _ H. destruct (No _ _ _ H).
    - unfold within_grid. cbn. lia.
    - unfold within_grid. cbn. lia.
    - left; reflexivity.
  Qed.
End StepProofs.
